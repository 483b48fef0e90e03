(** Consequences of the algebra laws; the [module] tactic. *)
From Verif Require Import Base Alg.

Section Facts.
Context {A : Alg} {L : AlgLaws A}.

Lemma F_ring : ring_theory fzero fone fadd fmul fsub fopp (@eq F).
Proof. exact (F_R F_field). Qed.
Add Ring Fring : F_ring.

Lemma gadd_0_r (x : G) : gadd x gzero = x.
Proof. rewrite gadd_comm; apply gadd_0_l. Qed.

Lemma gadd_cancel_l (x y z : G) : gadd x y = gadd x z -> y = z.
Proof.
  intros H. rewrite <- (gadd_0_l y), <- (gadd_0_l z), <- (gadd_opp_r x), (gadd_comm x (gopp x)).
  rewrite <- !gadd_assoc, H. reflexivity.
Qed.

Lemma smul_0_l (x : G) : smul fzero x = gzero.
Proof.
  apply (gadd_cancel_l (smul fzero x)). rewrite <- smul_add_l, gadd_0_r. f_equal. ring.
Qed.

Lemma smul_0_r a : smul a gzero = gzero.
Proof.
  apply (gadd_cancel_l (smul a gzero)). rewrite <- smul_add_r, !gadd_0_r. reflexivity.
Qed.

Lemma gopp_smul (x : G) : gopp x = smul (fopp fone) x.
Proof.
  apply (gadd_cancel_l x). rewrite gadd_opp_r. rewrite <- (smul_1 x) at 1.
  rewrite <- smul_add_l. replace (fadd fone (fopp fone)) with fzero by ring.
  symmetry; apply smul_0_l.
Qed.

(** Dual numbers: the commutative ring F + G with G * G = 0.  Module
    identities become ring identities. *)
Definition dn : Type := F * G.
Definition dzero : dn := (fzero, gzero).
Definition done : dn := (fone, gzero).
Definition dadd (x y : dn) : dn := (fadd (fst x) (fst y), gadd (snd x) (snd y)).
Definition dmul (x y : dn) : dn :=
  (fmul (fst x) (fst y), gadd (smul (fst x) (snd y)) (smul (fst y) (snd x))).
Definition dopp (x : dn) : dn := (fopp (fst x), gopp (snd x)).
Definition dsub (x y : dn) : dn := dadd x (dopp y).

Lemma gadd_4 (a b c d : G) : gadd (gadd a b) (gadd c d) = gadd (gadd a c) (gadd b d).
Proof.
  rewrite <- !gadd_assoc. f_equal. rewrite !gadd_assoc. f_equal. apply gadd_comm.
Qed.

Lemma dn_ring : ring_theory dzero done dadd dmul dsub dopp (@eq dn).
Proof.
  constructor; unfold dzero, done, dadd, dmul, dsub, dopp; simpl.
  - intros [a g]; simpl; rewrite gadd_0_l; f_equal; ring.
  - intros [a g] [b k]; simpl; rewrite gadd_comm; f_equal; ring.
  - intros [a g] [b k] [c l]; simpl; rewrite gadd_assoc; f_equal; ring.
  - intros [a g]; simpl; rewrite smul_1, smul_0_r, gadd_0_r; f_equal; ring.
  - intros [a g] [b k]; simpl; rewrite gadd_comm; f_equal; ring.
  - intros [a g] [b k] [c l]; simpl. f_equal; [ring|].
    rewrite !smul_add_r, <- !smul_mul, <- gadd_assoc.
    f_equal; f_equal; f_equal; ring.
  - intros [a g] [b k] [c l]; simpl; f_equal; [ring|].
    rewrite smul_add_l, smul_add_r. apply gadd_4.
  - reflexivity.
  - intros [a g]; simpl; f_equal; [ring|apply gadd_opp_r].
Qed.

Definition iota (g : G) : dn := (fzero, g).
Definition kappa (a : F) : dn := (a, gzero).

Lemma iota_inj x y : iota x = iota y -> x = y.
Proof. unfold iota; congruence. Qed.
Lemma iota_add x y : iota (gadd x y) = dadd (iota x) (iota y).
Proof. unfold iota, dadd; simpl; f_equal; ring. Qed.
Lemma iota_opp x : iota (gopp x) = dopp (iota x).
Proof. unfold iota, dopp; simpl; f_equal; ring. Qed.
Lemma iota_sub x y : iota (gsub x y) = dsub (iota x) (iota y).
Proof. unfold gsub, dsub; rewrite iota_add, iota_opp; reflexivity. Qed.
Lemma iota_smul a x : iota (smul a x) = dmul (kappa a) (iota x).
Proof. unfold iota, kappa, dmul; simpl; rewrite smul_0_l, gadd_0_r; f_equal; ring. Qed.
Lemma iota_zero : iota gzero = dzero.
Proof. reflexivity. Qed.
Lemma kappa_add a b : kappa (fadd a b) = dadd (kappa a) (kappa b).
Proof. unfold kappa, dadd; simpl; rewrite gadd_0_l; reflexivity. Qed.
Lemma kappa_mul a b : kappa (fmul a b) = dmul (kappa a) (kappa b).
Proof. unfold kappa, dmul; simpl; rewrite !smul_0_r, gadd_0_l; reflexivity. Qed.
Lemma kappa_opp a : kappa (fopp a) = dopp (kappa a).
Proof. unfold kappa, dopp; simpl; rewrite gopp_smul, smul_0_r; reflexivity. Qed.
Lemma kappa_sub a b : kappa (fsub a b) = dsub (kappa a) (kappa b).
Proof. unfold dsub; rewrite <- kappa_opp, <- kappa_add; f_equal; ring. Qed.
Lemma kappa_zero : kappa fzero = dzero. Proof. reflexivity. Qed.
Lemma kappa_one : kappa fone = done. Proof. reflexivity. Qed.

(** Sums. *)
Lemma gsum_ext n f g : (forall i, 0 <= i < Z.of_nat n -> f i = g i) -> gsum n f = gsum n g.
Proof.
  induction n as [|n IH]; intros H; simpl; [reflexivity|].
  rewrite IH by (intros; apply H; lia). rewrite H by lia. reflexivity.
Qed.

Lemma gsum_zero n f : (forall i, 0 <= i < Z.of_nat n -> f i = gzero) -> gsum n f = gzero.
Proof.
  induction n as [|n IH]; intros H; simpl; [reflexivity|].
  rewrite IH by (intros; apply H; lia). rewrite H by lia. apply gadd_0_l.
Qed.

Lemma gsum_add n f g : gsum n (fun i => gadd (f i) (g i)) = gadd (gsum n f) (gsum n g).
Proof.
  induction n as [|n IH]; simpl; [rewrite gadd_0_l; reflexivity|].
  rewrite IH. apply gadd_4.
Qed.

Lemma gsum_smul n a f : gsum n (fun i => smul a (f i)) = smul a (gsum n f).
Proof.
  induction n as [|n IH]; simpl; [rewrite smul_0_r; reflexivity|].
  rewrite IH, smul_add_r; reflexivity.
Qed.

Lemma gsum_upd n f g i :
  0 <= i < Z.of_nat n -> (forall j, 0 <= j < Z.of_nat n -> j <> i -> g j = f j) ->
  gsum n g = gadd (gsum n f) (gsub (g i) (f i)).
Proof.
  induction n as [|n IH]; intros Hi H; [simpl in Hi; lia|].
  simpl. destruct (Z.eq_dec i (Z.of_nat n)) as [->|Hn].
  - rewrite (gsum_ext n g f) by (intros; apply H; lia).
    unfold gsub. rewrite <- (gadd_assoc _ (f _)). f_equal.
    rewrite (gadd_comm (g _)), gadd_assoc, gadd_opp_r, gadd_0_l. reflexivity.
  - rewrite IH by (try lia; intros; apply H; lia). rewrite (H (Z.of_nat n)) by lia.
    rewrite <- !gadd_assoc. f_equal. apply gadd_comm.
Qed.

Lemma gsum_single n f i :
  0 <= i < Z.of_nat n -> (forall j, 0 <= j < Z.of_nat n -> j <> i -> f j = gzero) ->
  gsum n f = f i.
Proof.
  intros Hi H. rewrite (gsum_upd n (fun _ => gzero) f i Hi) by (intros; apply H; auto).
  rewrite (gsum_zero n (fun _ => gzero)) by reflexivity.
  unfold gsub. rewrite gadd_0_l, gopp_smul, smul_0_r, gadd_0_r. reflexivity.
Qed.

Lemma gsum_two n f i k :
  0 <= i < Z.of_nat n -> 0 <= k < Z.of_nat n -> i <> k ->
  (forall j, 0 <= j < Z.of_nat n -> j <> i -> j <> k -> f j = gzero) ->
  gsum n f = gadd (f i) (f k).
Proof.
  intros Hi Hk Hik H.
  rewrite (gsum_upd n (fun j => if Z.eqb j i then f i else gzero) f k Hk).
  - rewrite (gsum_single n _ i Hi).
    + rewrite Z.eqb_refl. destruct (Z.eqb_spec k i); [congruence|].
      unfold gsub. rewrite gopp_smul, smul_0_r, gadd_0_r. reflexivity.
    + intros j _ Hj. destruct (Z.eqb_spec j i); congruence.
  - intros j Hj Hjk. destruct (Z.eqb_spec j i) as [->|]; [reflexivity|]. apply H; auto.
Qed.

Lemma of_Z_opp a : of_Z (- a) = fopp (of_Z a).
Proof.
  assert (fadd (of_Z a) (of_Z (- a)) = fzero) as H
    by (rewrite <- of_Z_add, Z.add_opp_diag_r; apply of_Z_0).
  replace (of_Z (- a)) with (fadd (fadd (of_Z a) (of_Z (- a))) (fopp (of_Z a))) by ring.
  rewrite H. ring.
Qed.

Lemma of_Z_sub a b : of_Z (a - b) = fsub (of_Z a) (of_Z b).
Proof. unfold Z.sub. rewrite of_Z_add, of_Z_opp. ring. Qed.

Lemma fone_neq_0 : fone <> fzero.
Proof. exact (F_1_neq_0 F_field). Qed.

Lemma feqb_refl x : feqb x x = true. Proof. apply feqb_true; reflexivity. Qed.
Lemma geqb_refl x : geqb x x = true. Proof. apply geqb_true; reflexivity. Qed.
Lemma feqb_false x y : feqb x y = false <-> x <> y.
Proof.
  split.
  - intros H ->. rewrite feqb_refl in H; discriminate.
  - intros H. destruct (feqb x y) eqn:E; [apply feqb_true in E; contradiction|reflexivity].
Qed.
Lemma geqb_false x y : geqb x y = false <-> x <> y.
Proof.
  split.
  - intros H ->. rewrite geqb_refl in H; discriminate.
  - intros H. destruct (geqb x y) eqn:E; [apply geqb_true in E; contradiction|reflexivity].
Qed.

Lemma F_dec (x y : F) : x = y \/ x <> y.
Proof. destruct (feqb x y) eqn:E; [left; apply feqb_true|right; apply feqb_false]; exact E. Qed.
Lemma G_dec (x y : G) : x = y \/ x <> y.
Proof. destruct (geqb x y) eqn:E; [left; apply geqb_true|right; apply geqb_false]; exact E. Qed.

End Facts.

#[global] Hint Rewrite @iota_add @iota_opp @iota_sub @iota_smul @iota_zero
  @kappa_add @kappa_mul @kappa_opp @kappa_sub @kappa_zero @kappa_one
  using assumption : dnpush.

(** [module] needs [Add Ring dnring : dn_ring] in the current section. *)
Ltac module_push := apply iota_inj;
  repeat first
   [ rewrite iota_add | rewrite iota_opp | rewrite iota_sub | rewrite iota_smul
   | rewrite kappa_add | rewrite kappa_mul | rewrite kappa_opp | rewrite kappa_sub
   | rewrite iota_zero | rewrite kappa_zero | rewrite kappa_one ].
Ltac module := module_push; ring.
