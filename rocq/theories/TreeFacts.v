(** Facts about the tree specification. *)
From Coq Require Import Permutation.
From Verif Require Import Base BaseFacts Alg AlgFacts TreeSpec.

Section Facts.
Context {A : Alg} {L : AlgLaws A} {P : Par A}.
Add Ring Fring : F_ring.
Add Ring dnring : dn_ring.

(** ** Prefixes *)
Lemma has_prefix_spec p s : has_prefix p s = true <-> exists t, s = p ++ t.
Proof.
  unfold has_prefix. rewrite beqb_eq. split.
  - intros H. exists (skipn (length p) s). rewrite <- H at 1. symmetry; apply firstn_skipn.
  - intros [t ->]. apply firstn_app_exact; reflexivity.
Qed.

Lemma has_prefix_firstn n s : has_prefix (firstn n s) s = true.
Proof. apply has_prefix_spec. exists (skipn n s). symmetry; apply firstn_skipn. Qed.

Lemma has_prefix_length p s : has_prefix p s = true -> (length p <= length s)%nat.
Proof. intros H; apply has_prefix_spec in H as [t ->]. rewrite app_length; lia. Qed.

Lemma has_prefix_eq p s : has_prefix p s = true -> p = firstn (length p) s.
Proof. unfold has_prefix. rewrite beqb_eq. auto. Qed.

Lemma has_prefix_app p q s : has_prefix (p ++ q) s = true -> has_prefix p s = true.
Proof. rewrite !has_prefix_spec. intros [t ->]. exists (q ++ t). rewrite app_assoc; reflexivity. Qed.

Lemma has_prefix_snoc p i s :
  has_prefix (p ++ [i]) s = true <->
  has_prefix p s = true /\ (length p < length s)%nat /\ nth (length p) s 0 = i.
Proof.
  rewrite !has_prefix_spec. split.
  - intros [t ->]. split; [exists ([i] ++ t); rewrite app_assoc; reflexivity|].
    split; [rewrite !app_length; simpl; lia|].
    rewrite <- app_assoc, app_nth2, Nat.sub_diag by lia. reflexivity.
  - intros [[t ->] [Hl Hn]]. destruct t as [|x t]; [rewrite app_nil_r in Hl; lia|].
    rewrite app_nth2, Nat.sub_diag in Hn by lia. simpl in Hn. subst x.
    exists t. rewrite <- app_assoc. reflexivity.
Qed.

Lemma has_prefix_same_len p s : length p = length s -> has_prefix p s = true -> p = s.
Proof. intros E H. apply has_prefix_eq in H. rewrite E, firstn_all in H. exact H. Qed.

Lemma has_prefix_nil s : has_prefix [] s = true.
Proof. reflexivity. Qed.

(** ** Sets of stems *)
Definition wfS (S : list bytes) : Prop := NoDup S /\ Forall is_stem S.

Lemma wfS_len S s : wfS S -> In s S -> length s = 31%nat.
Proof. intros [_ H] Hs. rewrite Forall_forall in H. apply (H s Hs). Qed.

Lemma wfS_stem S s : wfS S -> In s S -> is_stem s.
Proof. intros [_ H] Hs. rewrite Forall_forall in H. apply (H s Hs). Qed.

Lemma under_In S p s : In s (under S p) <-> In s S /\ has_prefix p s = true.
Proof. unfold under. apply filter_In. Qed.

Lemma under_NoDup S p : wfS S -> NoDup (under S p).
Proof. intros [H _]. apply NoDup_filter; exact H. Qed.

Lemma under_nil S : under S [] = S.
Proof. unfold under. induction S as [|s S IH]; simpl; [reflexivity|rewrite IH; reflexivity]. Qed.

Lemma filter_filter {X} (f g : X -> bool) l :
  filter f (filter g l) = filter (fun x => g x && f x) l.
Proof.
  induction l as [|x l IH]; simpl; [reflexivity|].
  destruct (g x) eqn:E; simpl; [destruct (f x)|]; rewrite IH; reflexivity.
Qed.

Lemma under_app S p q : under (under S p) (p ++ q) = under S (p ++ q).
Proof.
  unfold under. rewrite filter_filter. apply filter_ext. intros s.
  destruct (has_prefix p s) eqn:E; [reflexivity|].
  destruct (has_prefix (p ++ q) s) eqn:E'; [|reflexivity].
  apply has_prefix_app in E'. congruence.
Qed.

Lemma under_long S p : wfS S -> (31 <= length p)%nat -> (length (under S p) <= 1)%nat.
Proof.
  intros W Hp. destruct (under S p) as [|a [|b l]] eqn:E; simpl; try lia. exfalso.
  assert (In a (under S p)) as Ha by (rewrite E; simpl; auto).
  assert (In b (under S p)) as Hb by (rewrite E; simpl; auto).
  apply under_In in Ha as [Ha Ha']. apply under_In in Hb as [Hb Hb'].
  pose proof (has_prefix_length _ _ Ha') as La. pose proof (has_prefix_length _ _ Hb') as Lb.
  rewrite (wfS_len S a W Ha) in La. rewrite (wfS_len S b W Hb) in Lb.
  assert (p = a) by (apply has_prefix_same_len; [rewrite (wfS_len S a W Ha); lia|exact Ha']).
  assert (p = b) by (apply has_prefix_same_len; [rewrite (wfS_len S b W Hb); lia|exact Hb']).
  pose proof (under_NoDup S p W) as N. rewrite E in N. inversion N as [|? ? Hn _]; subst.
  apply Hn. left. congruence.
Qed.

(** ** Vector commitments *)
Lemma vcommit_ext v w : (forall i, 0 <= i < 256 -> v i = w i) -> vcommit v = vcommit w.
Proof. intros H. apply gsum_ext. intros i Hi. rewrite H by lia. reflexivity. Qed.

Lemma vcommit_upd v w i :
  0 <= i < 256 -> (forall j, 0 <= j < 256 -> j <> i -> w j = v j) ->
  vcommit w = gadd (vcommit v) (smul (fsub (w i) (v i)) (crs i)).
Proof.
  intros Hi H. unfold vcommit.
  rewrite (gsum_upd 256 (fun i => smul (v i) (crs i)) (fun i => smul (w i) (crs i)) i Hi).
  - f_equal. module.
  - intros j Hj Hn. rewrite H by (auto; lia). reflexivity.
Qed.

Lemma vcommit_zero v : (forall i, 0 <= i < 256 -> v i = fzero) -> vcommit v = gzero.
Proof. intros H. apply gsum_zero. intros i Hi. rewrite H by lia. apply smul_0_l. Qed.

Lemma vcommit_single v i :
  0 <= i < 256 -> (forall j, 0 <= j < 256 -> j <> i -> v j = fzero) ->
  vcommit v = smul (v i) (crs i).
Proof.
  intros Hi H. unfold vcommit. rewrite (gsum_single 256 _ i Hi); [reflexivity|].
  intros j Hj Hn. rewrite H by (auto; lia). apply smul_0_l.
Qed.

Lemma vcommit_two v i k :
  0 <= i < 256 -> 0 <= k < 256 -> i <> k ->
  (forall j, 0 <= j < 256 -> j <> i -> j <> k -> v j = fzero) ->
  vcommit v = gadd (smul (v i) (crs i)) (smul (v k) (crs k)).
Proof.
  intros Hi Hk Hik H. unfold vcommit. rewrite (gsum_two 256 _ i k Hi Hk Hik); [reflexivity|].
  intros j Hj H1 H2. rewrite H by (auto; lia). apply smul_0_l.
Qed.

Lemma ext_comm_eq m s :
  ext_comm m s =
  gadd (gadd (gadd (crs 0) (smul (of_Z (le_Z s)) (crs 1)))
          (smul (hash (suffix_comm m s 0)) (crs 2)))
       (smul (hash (suffix_comm m s 1)) (crs 3)).
Proof.
  unfold ext_comm.
  set (c1 := hash (suffix_comm m s 0)). set (c2 := hash (suffix_comm m s 1)).
  set (v1 := fun i => if Z.eqb i 0 then fone else fzero).
  set (v2 := fun i => if Z.eqb i 1 then of_Z (le_Z s) else v1 i).
  set (v3 := fun i => if Z.eqb i 2 then c1 else v2 i).
  assert (E1 : vcommit v1 = smul fone (crs 0)).
  { apply (vcommit_single v1 0); [lia|]. intros j _ Hj. unfold v1.
    destruct (Z.eqb_spec j 0); [contradiction|reflexivity]. }
  assert (E2 : vcommit v2 = gadd (vcommit v1) (smul (fsub (v2 1) (v1 1)) (crs 1))).
  { apply vcommit_upd; [lia|]. intros j _ Hj. unfold v2.
    destruct (Z.eqb_spec j 1); [contradiction|reflexivity]. }
  assert (E3 : vcommit v3 = gadd (vcommit v2) (smul (fsub (v3 2) (v2 2)) (crs 2))).
  { apply vcommit_upd; [lia|]. intros j _ Hj. unfold v3.
    destruct (Z.eqb_spec j 2); [contradiction|reflexivity]. }
  assert (E4 : vcommit (ext_vec m s) = gadd (vcommit v3) (smul (fsub (ext_vec m s 3) (v3 3)) (crs 3))).
  { apply vcommit_upd; [lia|]. intros j _ Hj. unfold ext_vec, v3, v2, v1. fold c1. fold c2.
    destruct (Z.eqb_spec j 3); [contradiction|].
    destruct (Z.eqb_spec j 0), (Z.eqb_spec j 1), (Z.eqb_spec j 2); subst; try discriminate; try lia; reflexivity. }
  rewrite E4.
  rewrite E3, E2, E1.
  unfold ext_vec, v3, v2, v1. fold c1. fold c2. simpl. module.
Qed.

Opaque vcommit.
(** ** Congruence in the map *)
Definition same_leaves (m m' : bytes -> option bytes) (s : bytes) : Prop :=
  forall i, 0 <= i < 256 -> m (s ++ [i]) = m' (s ++ [i]).

Lemma suffix_vec_congr m m' s b i :
  same_leaves m m' s -> 0 <= b <= 1 -> 0 <= i < 256 -> suffix_vec m s b i = suffix_vec m' s b i.
Proof.
  intros H Hb Hi. unfold suffix_vec. rewrite (H (128 * b + i / 2)); [reflexivity|].
  assert (0 <= i / 2 < 128) by (split; [apply Z.div_pos; lia|apply Z.div_lt_upper_bound; lia]). lia.
Qed.

Lemma suffix_comm_congr m m' s b : same_leaves m m' s -> 0 <= b <= 1 -> suffix_comm m s b = suffix_comm m' s b.
Proof. intros H Hb. apply vcommit_ext. intros i Hi. apply suffix_vec_congr; auto. Qed.

Lemma ext_comm_congr m m' s : same_leaves m m' s -> ext_comm m s = ext_comm m' s.
Proof.
  intros H. rewrite !ext_comm_eq.
  rewrite (suffix_comm_congr m m' s 0), (suffix_comm_congr m m' s 1) by (auto; lia). reflexivity.
Qed.

Lemma under_perm S S' p : Permutation S S' -> Permutation (under S p) (under S' p).
Proof.
  unfold under. induction 1 as [|x l l' H IH|x y l|l l' l'' H1 IH1 H2 IH2]; simpl.
  - constructor.
  - destruct (has_prefix p x); [constructor|]; exact IH.
  - destruct (has_prefix p x), (has_prefix p y); try constructor; apply Permutation_refl.
  - eapply perm_trans; eauto.
Qed.

Lemma subtree_hash_congr fuel m m' S S' p :
  Permutation (under S p) (under S' p) ->
  (forall s, In s (under S p) -> same_leaves m m' s) ->
  subtree_hash fuel m S p = subtree_hash fuel m' S' p.
Proof.
  revert p; induction fuel as [|fuel IH]; intros p HP HL.
  - simpl. destruct (under S p) as [|a [|b l]] eqn:E.
    + apply Permutation_nil in HP. rewrite HP; reflexivity.
    + apply Permutation_length_1_inv in HP. rewrite HP.
      rewrite (ext_comm_congr m m' a) by (apply HL; left; reflexivity). reflexivity.
    + pose proof (Permutation_length HP) as HL'. destruct (under S' p) as [|x [|y l']]; simpl in HL'; try lia.
      reflexivity.
  - cbn [subtree_hash]. destruct (under S p) as [|a [|b l]] eqn:E.
    + apply Permutation_nil in HP. rewrite HP; reflexivity.
    + apply Permutation_length_1_inv in HP. rewrite HP.
      rewrite (ext_comm_congr m m' a) by (apply HL; left; reflexivity). reflexivity.
    + pose proof (Permutation_length HP) as HL'.
      assert (H : hash (vcommit (fun i => subtree_hash fuel m S (p ++ [i])))
                = hash (vcommit (fun i => subtree_hash fuel m' S' (p ++ [i])))).
      { apply (f_equal hash), vcommit_ext. intros i Hi. apply IH.
        - rewrite <- (under_app S p [i]), <- (under_app S' p [i]), E. apply under_perm; exact HP.
        - intros s Hs. apply HL. rewrite <- E. rewrite under_In in *. destruct Hs as [? Hs].
          split; [assumption|]. apply has_prefix_app in Hs. exact Hs. }
      destruct (under S' p) as [|x [|y l']]; simpl in HL'; try lia. exact H.
Qed.

(** ** The fuel is irrelevant *)
Lemma subtree_hash_fuel f1 f2 m S p :
  wfS S -> (31 <= f1 + length p)%nat -> (31 <= f2 + length p)%nat ->
  subtree_hash f1 m S p = subtree_hash f2 m S p.
Proof.
  intros W. revert f2 p; induction f1 as [|f1 IH]; intros f2 p H1 H2.
  - assert (length (under S p) <= 1)%nat as Hu by (apply under_long; [auto|lia]).
    destruct f2; cbn [subtree_hash]; destruct (under S p) as [|a [|b l]]; simpl in Hu; try lia; reflexivity.
  - destruct f2 as [|f2].
    + assert (length (under S p) <= 1)%nat as Hu by (apply under_long; [auto|lia]).
      cbn [subtree_hash]; destruct (under S p) as [|a [|b l]]; simpl in Hu; try lia; reflexivity.
    + cbn [subtree_hash]. destruct (under S p) as [|a [|b l]]; try reflexivity.
      apply (f_equal hash), vcommit_ext. intros i Hi. apply IH; rewrite app_length; simpl; lia.
Qed.

(** The value committed for path [p]. *)
Definition cval m S p : F := subtree_hash 31 m S p.

Lemma cval_none m S p : under S p = [] -> cval m S p = fzero.
Proof. intros E. unfold cval. cbn [subtree_hash]. rewrite E. reflexivity. Qed.

Lemma cval_one m S p s : under S p = [s] -> cval m S p = hash (ext_comm m s).
Proof. intros E. unfold cval. cbn [subtree_hash]. rewrite E. reflexivity. Qed.

Lemma cval_many m S p :
  wfS S -> (2 <= length (under S p))%nat -> cval m S p = hash (inner_comm m S p).
Proof.
  intros W H. unfold cval, inner_comm, inner_vec.
  change (subtree_hash 31 m S p) with
    (match under S p with [] => fzero | [s] => hash (ext_comm m s)
     | _ => hash (vcommit (fun i => subtree_hash 30 m S (p ++ [i]))) end).
  destruct (under S p) as [|a [|b l]] eqn:E; simpl in H; try lia.
  apply (f_equal hash), vcommit_ext. intros i Hi.
  assert (1 <= length (p ++ [i]))%nat by (rewrite app_length; simpl; lia).
  apply subtree_hash_fuel; auto; lia.
Qed.

Lemma cval_congr m m' S S' p :
  Permutation (under S p) (under S' p) ->
  (forall s, In s (under S p) -> same_leaves m m' s) ->
  cval m S p = cval m' S' p.
Proof. apply subtree_hash_congr. Qed.

Lemma inner_comm_congr m m' S S' p :
  Permutation (under S p) (under S' p) ->
  (forall s, In s (under S p) -> same_leaves m m' s) ->
  inner_comm m S p = inner_comm m' S' p.
Proof.
  intros HP HL. apply vcommit_ext. intros i Hi. apply subtree_hash_congr.
  - rewrite <- (under_app S p [i]), <- (under_app S' p [i]). apply under_perm; exact HP.
  - intros s Hs. apply HL. rewrite under_In in *. destruct Hs as [? Hs].
    split; [assumption|]. apply has_prefix_app in Hs. exact Hs.
Qed.

(** ** Adding a stem *)
Definition add_stem (S : list bytes) (s : bytes) : list bytes :=
  if in_dec bytes_dec s S then S else s :: S.

Lemma add_stem_In S s t : In t (add_stem S s) <-> t = s \/ In t S.
Proof.
  unfold add_stem. destruct (in_dec bytes_dec s S); simpl; intuition congruence.
Qed.

Lemma add_stem_wf S s : wfS S -> is_stem s -> wfS (add_stem S s).
Proof.
  intros [H1 H2] Hs. unfold add_stem. destruct (in_dec bytes_dec s S); [split; auto|].
  split; constructor; auto.
Qed.

Lemma under_add_other S s p : has_prefix p s = false -> under (add_stem S s) p = under S p.
Proof.
  intros H. unfold add_stem. destruct (in_dec bytes_dec s S); [reflexivity|].
  unfold under; simpl. rewrite H. reflexivity.
Qed.

Lemma under_add_old S s p : In s S -> under (add_stem S s) p = under S p.
Proof. intros H. unfold add_stem. destruct (in_dec bytes_dec s S); [reflexivity|contradiction]. Qed.

Lemma under_add_new S s p :
  ~ In s S -> has_prefix p s = true -> under (add_stem S s) p = s :: under S p.
Proof.
  intros H Hp. unfold add_stem. destruct (in_dec bytes_dec s S); [contradiction|].
  unfold under; simpl. rewrite Hp. reflexivity.
Qed.

Lemma under_add_length S s p : (length (under S p) <= length (under (add_stem S s) p))%nat.
Proof.
  unfold add_stem. destruct (in_dec bytes_dec s S); [lia|].
  unfold under; simpl. destruct (has_prefix p s); simpl; lia.
Qed.

(** Writing key [k] does not affect other stems. *)
Lemma same_leaves_upd m k v s :
  length k = 32%nat -> length s = 31%nat -> s <> firstn 31 k -> same_leaves m (upd m k v) s.
Proof.
  intros Lk Ls Hn i Hi. rewrite upd_other; [reflexivity|].
  intros ->. apply Hn. symmetry; apply firstn_app_exact; exact Ls.
Qed.

Lemma cval_other m S k v p :
  wfS S -> length k = 32%nat -> has_prefix p (firstn 31 k) = false ->
  cval (upd m k v) (add_stem S (firstn 31 k)) p = cval m S p.
Proof.
  intros W Lk H. symmetry. apply cval_congr.
  - rewrite under_add_other by exact H. apply Permutation_refl.
  - intros s Hs. apply under_In in Hs as [Hs Hp]. apply same_leaves_upd; auto.
    + eapply wfS_len; eauto.
    + intros ->. congruence.
Qed.

Lemma inner_other m S k v p :
  wfS S -> length k = 32%nat -> has_prefix p (firstn 31 k) = false ->
  inner_comm (upd m k v) (add_stem S (firstn 31 k)) p = inner_comm m S p.
Proof.
  intros W Lk H. symmetry. apply inner_comm_congr.
  - rewrite under_add_other by exact H. apply Permutation_refl.
  - intros s Hs. apply under_In in Hs as [Hs Hp]. apply same_leaves_upd; auto.
    + eapply wfS_len; eauto.
    + intros ->. congruence.
Qed.

(** The delta of an inner node on the path of the written key. *)
Lemma inner_delta m S k v j :
  wfS S -> is_key k -> (j < 31)%nat ->
  let s := firstn 31 k in
  let p := firstn j s in
  let b := nth j s 0 in
  inner_comm (upd m k v) (add_stem S s) p =
  gadd (inner_comm m S p)
    (smul (fsub (cval (upd m k v) (add_stem S s) (p ++ [b])) (cval m S (p ++ [b]))) (crs b)).
Proof.
  intros W [Lk Bk] Hj s p b.
  assert (Ls : length s = 31%nat) by (unfold s; rewrite firstn_length; lia).
  assert (Lp : length p = j) by (unfold p; rewrite firstn_length; lia).
  assert (Hb : is_byte b).
  { unfold b, s. assert (Hs : is_bytes (firstn 31 k)) by (apply is_bytes_firstn; exact Bk).
    unfold is_bytes in Hs. rewrite Forall_forall in Hs. apply Hs. apply nth_In. fold s. lia. }
  unfold is_byte in Hb.
  unfold inner_comm, inner_vec.
  apply (vcommit_upd (fun i => cval m S (p ++ [i]))
           (fun i => cval (upd m k v) (add_stem S s) (p ++ [i])) b); [lia|].
  intros i Hi Hn. apply cval_other; auto.
  destruct (has_prefix (p ++ [i]) (firstn 31 k)) eqn:E; [|reflexivity].
  apply has_prefix_snoc in E as (_ & _ & E). rewrite Lp in E. fold s b in E. congruence.
Qed.

End Facts.
