(** Elementary facts about the definitions of [Base]. *)
From Verif Require Import Base.

Lemma beqb_eq a b : beqb a b = true <-> a = b.
Proof.
  revert b; induction a as [|x a IH]; destruct b as [|y b]; simpl; split;
    try discriminate; try reflexivity.
  - destruct (Z.eqb_spec x y) as [->|]; [|discriminate]. intros H; apply IH in H; congruence.
  - intros [= -> ->]. rewrite Z.eqb_refl. apply IH; reflexivity.
Qed.

Lemma beqb_refl a : beqb a a = true.
Proof. apply beqb_eq; reflexivity. Qed.

Lemma beqb_neq a b : beqb a b = false <-> a <> b.
Proof.
  split.
  - intros H ->. rewrite beqb_refl in H; discriminate.
  - intros H. destruct (beqb a b) eqn:E; [apply beqb_eq in E; contradiction|reflexivity].
Qed.

Lemma beqb_spec a b : reflect (a = b) (beqb a b).
Proof. destruct (beqb a b) eqn:E; constructor; [apply beqb_eq|apply beqb_neq]; exact E. Qed.

Lemma beqb_sym a b : beqb a b = beqb b a.
Proof. destruct (beqb_spec a b), (beqb_spec b a); congruence. Qed.

Definition bytes_dec (a b : bytes) : {a = b} + {a <> b} := list_eq_dec Z.eq_dec a b.

Lemma upd_same {V} (m : bmap V) k v : upd m k v k = Some v.
Proof. unfold upd; rewrite beqb_refl; reflexivity. Qed.

Lemma upd_other {V} (m : bmap V) k v k' : k <> k' -> upd m k v k' = m k'.
Proof. intros H; unfold upd; apply beqb_neq in H; rewrite H; reflexivity. Qed.

Lemma Z_le_length n z : length (Z_le n z) = n.
Proof. revert z; induction n as [|n IH]; intros z; simpl; [reflexivity|rewrite IH; reflexivity]. Qed.

Lemma Z_le_bytes n z : is_bytes (Z_le n z).
Proof.
  revert z; induction n as [|n IH]; intros z; simpl; constructor; [|apply IH].
  unfold is_byte; apply Z.mod_pos_bound; lia.
Qed.

Lemma le_Z_bound l : is_bytes l -> 0 <= le_Z l < 256 ^ Z.of_nat (length l).
Proof.
  induction 1 as [|b l Hb Hl IH]; [simpl; lia|].
  cbn [le_Z length]. rewrite Nat2Z.inj_succ, Z.pow_succ_r by lia. unfold is_byte in Hb. lia.
Qed.

Lemma le_Z_Z_le n z : 0 <= z < 256 ^ Z.of_nat n -> le_Z (Z_le n z) = z.
Proof.
  revert z; induction n as [|n IH]; intros z H; [simpl in *; lia|].
  rewrite Nat2Z.inj_succ, Z.pow_succ_r in H by lia.
  cbn [Z_le le_Z]. rewrite IH.
  - pose proof (Z.div_mod z 256); lia.
  - split; [apply Z.div_pos; lia|apply Z.div_lt_upper_bound; lia].
Qed.

Lemma Z_le_le_Z l : is_bytes l -> Z_le (length l) (le_Z l) = l.
Proof.
  induction 1 as [|b l Hb Hl IH]; [reflexivity|].
  unfold is_byte in Hb. cbn [length Z_le le_Z].
  replace ((b + 256 * le_Z l) mod 256) with b
    by (rewrite Z.mul_comm, Z.mod_add, Z.mod_small; lia).
  replace ((b + 256 * le_Z l) / 256) with (le_Z l)
    by (rewrite Z.mul_comm, Z.div_add, Z.div_small; lia).
  rewrite IH; reflexivity.
Qed.

Lemma le_Z_inj a b : length a = length b -> is_bytes a -> is_bytes b -> le_Z a = le_Z b -> a = b.
Proof.
  intros L Ha Hb E. rewrite <- (Z_le_le_Z a Ha), <- (Z_le_le_Z b Hb), L, E. reflexivity.
Qed.

Lemma le_Z_app a b : le_Z (a ++ b) = le_Z a + 256 ^ Z.of_nat (length a) * le_Z b.
Proof.
  induction a as [|x a IH]; [simpl; destruct (le_Z b); reflexivity|].
  cbn [app le_Z length]. rewrite IH, Nat2Z.inj_succ, Z.pow_succ_r by lia. lia.
Qed.

Lemma is_bytes_app a b : is_bytes (a ++ b) <-> is_bytes a /\ is_bytes b.
Proof. unfold is_bytes; apply Forall_app. Qed.

Lemma is_bytes_firstn n l : is_bytes l -> is_bytes (firstn n l).
Proof. unfold is_bytes; intros H; rewrite <- (firstn_skipn n l) in H; apply Forall_app in H; tauto. Qed.

Lemma is_bytes_skipn n l : is_bytes l -> is_bytes (skipn n l).
Proof. unfold is_bytes; intros H; rewrite <- (firstn_skipn n l) in H; apply Forall_app in H; tauto. Qed.

Lemma is_bytes_rev l : is_bytes l -> is_bytes (rev l).
Proof. unfold is_bytes; apply Forall_rev. Qed.

Lemma rbind_ok {A B} (x : res A) (k : A -> res B) b :
  rbind x k = Ok b -> exists a, x = Ok a /\ k a = Ok b.
Proof. destruct x; simpl; [eauto|discriminate]. Qed.

(** List splitting. *)
Lemma firstn_app_exact {A} (l1 l2 : list A) n : length l1 = n -> firstn n (l1 ++ l2) = l1.
Proof. intros <-. rewrite firstn_app, Nat.sub_diag, firstn_all, firstn_O, app_nil_r. reflexivity. Qed.

Lemma skipn_app_exact {A} (l1 l2 : list A) n : length l1 = n -> skipn n (l1 ++ l2) = l2.
Proof. intros <-. rewrite skipn_app, Nat.sub_diag, skipn_all, skipn_O. reflexivity. Qed.

Lemma firstn_S_nth {A} (d : A) n l : (n < length l)%nat -> firstn (S n) l = firstn n l ++ [nth n l d].
Proof.
  revert l; induction n as [|n IH]; intros [|x l] H; simpl in *; try lia; [reflexivity|].
  f_equal. apply IH; lia.
Qed.

Lemma app_inj_len {A} (a b c d : list A) : length a = length b -> a ++ c = b ++ d -> a = b /\ c = d.
Proof.
  revert b; induction a as [|x a IH]; intros [|y b] L E; simpl in *; try discriminate; [auto|].
  injection E as -> E. injection L as L. destruct (IH b L E) as [-> ->]. auto.
Qed.
