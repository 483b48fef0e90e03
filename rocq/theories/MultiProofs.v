(** The multipoint argument: completeness for every order of the groups. *)
From Coq Require Import String Permutation.
From Verif Require Import Base BaseFacts Alg AlgFacts WireModel ProofModel IpaModel LagrangeSpec IpaSpec IpaProofs LagrangeProofs.
Local Open Scope list_scope.

Section MultiProofs.
Context {A : Alg} {AL : AlgLaws A} {C : ECodec A} {H : Hasher}.
Add Ring Fring : F_ring.
Add Ring dnring : dn_ring.
Add Field Ffield : F_field.
Notation len := List.length.

(** ** dot and commit *)
Lemma fsum_ext n f g : (forall i, 0 <= i < Z.of_nat n -> f i = g i) -> fsum n f = fsum n g.
Proof. induction n as [|n IH]; intros E; cbn [fsum]; [easy|]. rewrite E by lia. rewrite IH; [easy|]. intros; apply E; lia. Qed.
Lemma fsum_S_l n f : fsum (S n) f = fadd (f 0) (fsum n (fun i => f (i + 1))).
Proof.
  induction n as [|n IH]; [cbn; ring|]. cbn [fsum] in *. rewrite IH.
  replace (Z.of_nat n + 1) with (Z.of_nat (S n)) by lia. ring.
Qed.
Lemma gsum_S_l n f : gsum (S n) f = gadd (f 0) (gsum n (fun i => f (i + 1))).
Proof.
  induction n as [|n IH]; [cbn; module|]. cbn [gsum] in *. rewrite IH.
  replace (Z.of_nat n + 1) with (Z.of_nat (S n)) by lia. module.
Qed.
Lemma fsum_zero n f : (forall i, 0 <= i < Z.of_nat n -> f i = fzero) -> fsum n f = fzero.
Proof. induction n as [|n IH]; intros E; cbn [fsum]; [easy|]. rewrite E by lia. rewrite IH; [ring|]. intros; apply E; lia. Qed.

Lemma dot_ip n a b : (len a <= n)%nat -> (len b <= n)%nat -> dot n a b = inner_product a b.
Proof.
  revert a b; induction n as [|n IH]; intros a b La Lb.
  - destruct a; [easy|cbn in La; lia].
  - unfold dot. rewrite fsum_S_l. cbn [Z.to_nat].
    destruct a as [|x a]; [|destruct b as [|y b]].
    + cbn [inner_product]. rewrite fsum_zero; [cbn [nth]; ring|]. intros i B.
      destruct (Z.to_nat (i + 1)); cbn [nth]; ring.
    + cbn [inner_product]. rewrite fsum_zero; [cbn [nth]; ring|]. intros i B.
      destruct (Z.to_nat (i + 1)); cbn [nth]; ring.
    + cbn [nth inner_product List.length] in *. f_equal. rewrite <- IH by lia. unfold dot. apply fsum_ext.
      intros i B. replace (Z.to_nat (i + 1)) with (S (Z.to_nat i)) by lia. reflexivity.
Qed.
Lemma commit_gdot n a Gs : (len a <= n)%nat -> (len Gs <= n)%nat -> commit n a Gs = gdot a Gs.
Proof.
  revert a Gs; induction n as [|n IH]; intros a b La Lb.
  - destruct a; [easy|cbn in La; lia].
  - unfold commit. rewrite gsum_S_l. cbn [Z.to_nat].
    destruct a as [|x a]; [|destruct b as [|y b]].
    + cbn [gdot]. rewrite gsum_zero; [cbn [nth]; now rewrite smul_0_l, gadd_0_l|]. intros i B.
      destruct (Z.to_nat (i + 1)); cbn [nth]; apply smul_0_l.
    + cbn [gdot]. rewrite gsum_zero; [cbn [nth]; now rewrite smul_0_r, gadd_0_l|]. intros i B.
      destruct (Z.to_nat (i + 1)); cbn [nth]; apply smul_0_r.
    + cbn [nth gdot List.length] in *. f_equal. rewrite <- IH by lia. unfold commit. apply gsum_ext.
      intros i B. replace (Z.to_nat (i + 1)) with (S (Z.to_nat i)) by lia. reflexivity.
Qed.

Lemma fold_with_vaxpy x u v : fold_with x u v = vaxpy x u v.
Proof. revert v; induction u as [|a u IH]; intros [|b v]; cbn; congruence. Qed.
Lemma gfold_with_gvaxpy x u v : gfold_with x u v = gvaxpy x u v.
Proof. revert v; induction u as [|a u IH]; intros [|b v]; cbn; congruence. Qed.

(** ** Creation succeeds exactly when no challenge is zero *)
Lemma create_rounds_iff k : forall tr a b Gs Q,
  len a = (2 ^ k)%nat -> len b = (2 ^ k)%nat -> len Gs = (2 ^ k)%nat ->
  (create_rounds k tr a b Gs Q <> Panic <-> Forall (fun x => x <> fzero) (round_challenges k tr a b Gs Q)).
Proof.
  induction k as [|k IH]; intros tr a b Gs Q Ea Eb EG.
  - destruct a as [|x [|? ?]]; try (cbn in Ea; lia). cbn. split; [constructor|discriminate].
  - destruct (halve_pow k a Ea) as (a1 & a2 & Ha & -> & La1 & La2).
    destruct (halve_pow k b Eb) as (b1 & b2 & Hb & -> & Lb1 & Lb2).
    destruct (halve_pow k Gs EG) as (G1 & G2 & HG & -> & LG1 & LG2).
    cbn [create_rounds round_challenges]. rewrite Ha, Hb, HG.
    assert (FA : forall X (u v : list X), len u = (2 ^ k)%nat -> firstn (2 ^ k) (u ++ v) = u /\ skipn (2 ^ k) (u ++ v) = v).
    { intros X u v E. rewrite firstn_app, skipn_app, E, Nat.sub_diag. rewrite <- E, firstn_all, skipn_all. cbn.
      now rewrite app_nil_r. }
    destruct (FA _ a1 a2 La1) as [-> ->]. destruct (FA _ b1 b2 Lb1) as [-> ->]. destruct (FA _ G1 G2 LG1) as [-> ->].
    rewrite (msm_ok (a2 ++ _)) by (rewrite !app_length; cbn; lia).
    rewrite (msm_ok (a1 ++ _)) by (rewrite !app_length; cbn; lia).
    cbn [rbind].
    rewrite !commit_gdot by lia. rewrite !dot_ip by lia.
    assert (EL : gdot (a2 ++ [inner_product a2 b1]) (G1 ++ [Q]) = gadd (gdot a2 G1) (smul (inner_product a2 b1) Q)).
    { rewrite gdot_app by lia. cbn [gdot]. module. }
    assert (ER : gdot (a1 ++ [inner_product a1 b2]) (G2 ++ [Q]) = gadd (gdot a1 G2) (smul (inner_product a1 b2) Q)).
    { rewrite gdot_app by lia. cbn [gdot]. module. }
    rewrite EL, ER.
    destruct (challenge_scalar _ (lbl "x")) as [x tr1].
    destruct (F_dec x fzero) as [->|N].
    + assert (Ei : inverse fzero = None) by (unfold inverse; now rewrite feqb_refl). rewrite Ei. cbn [unwrap rbind].
      split; [congruence|]. intros F. inversion F; subst. congruence.
    + rewrite inverse_ok by exact N. cbn [unwrap rbind].
      rewrite axpy_ok by lia. cbn [rbind].
      rewrite axpy_ok by lia. cbn [rbind].
      rewrite gaxpy_ok by lia. cbn [rbind].
      rewrite (fold_with_vaxpy x a1 a2), (fold_with_vaxpy (finv x) b1 b2), (gfold_with_gvaxpy (finv x) G1 G2).
      rewrite Forall_cons_iff.
      rewrite <- IH by (rewrite ?vaxpy_len, ?gvaxpy_len; lia).
      destruct (create_rounds k tr1 _ _ _ _) as [[[[? ?] ?] ?]|]; cbn [rbind]; split; try tauto; try discriminate.
      intros _. split; [exact N|discriminate].
Qed.

Lemma ipa_create_iff tr crs a c b z k :
  len a = (2 ^ k)%nat -> len b = (2 ^ k)%nat -> len (crs_G crs) = (2 ^ k)%nat ->
  (ipa_create tr crs a c b z <> Panic <-> Forall (fun x => x <> fzero) (ipa_challenges k tr crs a c b z)).
Proof.
  intros Ea Eb EG. unfold ipa_create, ipa_challenges, ipa_absorb. rewrite Ea, Eb, EG, Nat.eqb_refl, is_power_of_two_pow.
  cbn [assertb rbind]. unfold log2_up. rewrite Nat.log2_up_pow2 by lia.
  rewrite dot_ip by lia.
  destruct (challenge_scalar _ (lbl "w")) as [w tr1].
  rewrite <- create_rounds_iff by assumption.
  destruct (create_rounds _ _ _ _ _ _) as [[[[? ?] ?] ?]|]; cbn [rbind]; split; congruence.
Qed.

(** ** Sums *)
Fixpoint lsum {X} (f : X -> F) (l : list X) : F :=
  match l with [] => fzero | x :: l' => fadd (f x) (lsum f l') end.
Lemma lsum_ext {X} (f g : X -> F) l : (forall x, In x l -> f x = g x) -> lsum f l = lsum g l.
Proof. induction l as [|i l IH]; intros E; cbn; [easy|]. rewrite E, IH; [easy|intros; apply E; now right|now left]. Qed.
Lemma lsum_app {X} (f : X -> F) l1 l2 : lsum f (l1 ++ l2) = fadd (lsum f l1) (lsum f l2).
Proof. induction l1 as [|i l IH]; cbn; [ring|]. rewrite IH. ring. Qed.
Lemma lsum_scale {X} c (f : X -> F) l : lsum (fun x => fmul c (f x)) l = fmul c (lsum f l).
Proof. induction l as [|i l IH]; cbn; [ring|]. rewrite IH. ring. Qed.
Lemma lsum_add {X} (f g : X -> F) l : lsum (fun x => fadd (f x) (g x)) l = fadd (lsum f l) (lsum g l).
Proof. induction l as [|i l IH]; cbn; [ring|]. rewrite IH. ring. Qed.
Lemma lsum_sub {X} (f g : X -> F) l : lsum (fun x => fsub (f x) (g x)) l = fsub (lsum f l) (lsum g l).
Proof. induction l as [|i l IH]; cbn; [ring|]. rewrite IH. ring. Qed.
Lemma lsum_perm {X} (f : X -> F) l1 l2 : Permutation l1 l2 -> lsum f l1 = lsum f l2.
Proof. induction 1; cbn; [easy|congruence|ring|congruence]. Qed.

Lemma lsum_suml (f : nat -> F) l : lsum f l = suml f l.
Proof. induction l as [|i l IH]; cbn; congruence. Qed.

Lemma powers_from_len x r n : len (powers_from x r n) = n.
Proof. revert x; induction n as [|n IH]; intros x; cbn; congruence. Qed.
Lemma weighted_lsum r f : forall l w,
  weighted r w f l = lsum (fun '(q, c) => fmul c (f q)) (combine l (powers_from w r (len l))).
Proof.
  induction l as [|q l IH]; intros w; cbn [weighted combine powers_from List.length lsum]; [easy|].
  rewrite IH. do 4 f_equal. ring.
Qed.
Lemma powers_of_len r n : (0 < n)%nat -> powers_of r n = powers_from fone r n.
Proof. intros L. unfold powers_of. now rewrite Nat.max_r by lia. Qed.

(** ** Groups *)
Lemma group_insert_sum (f : ProverQuery * F -> F) q c l :
  lsum (fun g => lsum f (snd g)) (group_insert q c l) = fadd (f (q, c)) (lsum (fun g => lsum f (snd g)) l).
Proof.
  induction l as [|[z m] l IH]; cbn [group_insert lsum snd]; [ring|].
  destruct (z =? pq_point q); cbn [lsum snd].
  - rewrite lsum_app. cbn [lsum]. ring.
  - rewrite IH. ring.
Qed.
Definition groups pairs l := fold_left (fun l '(q, c) => group_insert q c l) pairs l.
Lemma groups_sum (f : ProverQuery * F -> F) pairs : forall l,
  lsum (fun g => lsum f (snd g)) (groups pairs l) = fadd (lsum (fun g => lsum f (snd g)) l) (lsum f pairs).
Proof.
  unfold groups. induction pairs as [|[q c] pairs IH]; intros l; cbn [fold_left lsum]; [ring|].
  rewrite IH, group_insert_sum. ring.
Qed.
(** Every member of a group asks for the group's point, and is one of the queries. *)
Definition group_ok (pairs : list (ProverQuery * F)) (g : Group) : Prop :=
  snd g <> [] /\ forall m, In m (snd g) -> pq_point (fst m) = fst g /\ In m pairs.
Lemma group_insert_ok pairs q c l : In (q, c) pairs -> Forall (group_ok pairs) l -> Forall (group_ok pairs) (group_insert q c l).
Proof.
  intros I. induction 1 as [|[z m] l [N K] F IH]; cbn [group_insert].
  - repeat constructor; cbn; [discriminate|..]; destruct H0 as [<-|[]]; easy.
  - destruct (Z.eqb_spec z (pq_point q)) as [E|E].
    + constructor; [|exact F]. split; cbn [fst snd] in *.
      * destruct m; discriminate.
      * intros m0 I0. apply in_app_iff in I0. destruct I0 as [I0|[<-|[]]]; [now apply K|]. cbn. now split.
    + constructor; [now split|exact IH].
Qed.
Lemma groups_ok all pairs : forall l, incl pairs all -> Forall (group_ok all) l -> Forall (group_ok all) (groups pairs l).
Proof.
  unfold groups. induction pairs as [|[q c] pairs IH]; intros l I F; cbn [fold_left]; [exact F|].
  apply IH; [intros x Hx; apply I; now right|]. apply group_insert_ok; [apply I; now left|exact F].
Qed.
Lemma groups_nonempty pairs : forall l, pairs <> [] \/ l <> [] -> groups pairs l <> [].
Proof.
  unfold groups. induction pairs as [|[q c] pairs IH]; intros l N; cbn [fold_left]; [tauto|].
  apply IH. right. destruct l as [|[z m] l]; cbn; [discriminate|]. now destruct (z =? _).
Qed.

(** ** Vectors as functions on the domain *)
Section Dom.
Variable n : nat.
Hypothesis Hfit : domain_fits n.
Hypothesis Hn : (0 < n)%nat.

Definition tab (f : nat -> F) : list F := map f (seq 0 n).
Lemma tab_len f : len (tab f) = n.
Proof. unfold tab. now rewrite map_length, seq_length. Qed.
Lemma tab_ext f g : (forall i, (i < n)%nat -> f i = g i) -> tab f = tab g.
Proof. intros E. apply map_ext_in. intros i I. apply in_seq in I. apply E. lia. Qed.
Lemma nth_tab f i : (i < n)%nat -> nth i (tab f) fzero = f i.
Proof.
  intros L. rewrite (nth_indep _ _ (f 0%nat)) by (rewrite tab_len; exact L).
  unfold tab. rewrite map_nth. now rewrite seq_nth by exact L.
Qed.
Lemma zip_add_nth l r : (len r <= len l)%nat -> len (zip_add l r) = len l /\
  forall i, (i < len l)%nat -> nth i (zip_add l r) fzero = fadd (nth i l fzero) (nth i r fzero).
Proof.
  revert r; induction l as [|x l IH]; intros [|y r] L; cbn [zip_add List.length] in *; try lia.
  - split; [easy|]. intros; lia.
  - split; [easy|]. intros [|i] B; cbn [nth]; ring.
  - destruct (IH r) as [E1 E2]; [lia|]. split; [lia|]. intros [|i] B; cbn [nth]; [ring|]. apply E2. lia.
Qed.
Lemma tab_nth l : len l = n -> l = tab (fun i => nth i l fzero).
Proof.
  intros E. apply nth_ext with (d := fzero) (d' := fzero); [now rewrite tab_len|].
  intros i L. rewrite nth_tab by lia. reflexivity.
Qed.
Lemma zip_add_tab f r : (len r <= n)%nat -> zip_add (tab f) r = tab (fun i => fadd (f i) (nth i r fzero)).
Proof.
  intros L. destruct (zip_add_nth (tab f) r) as [E1 E2]; [rewrite tab_len; exact L|]. rewrite tab_len in *.
  rewrite (tab_nth _ E1). apply tab_ext. intros i Li. rewrite E2 by exact Li. now rewrite nth_tab by exact Li.
Qed.
Lemma zip_sub_tab f g : zip_sub (tab f) (tab g) = tab (fun i => fsub (f i) (g i)).
Proof. unfold tab. induction (seq 0 n) as [|i l IH]; cbn; [easy|]. now rewrite IH. Qed.

Lemma gdot_tab_add f g Gs : gdot (tab (fun i => fadd (f i) (g i))) Gs = gadd (gdot (tab f) Gs) (gdot (tab g) Gs).
Proof.
  unfold tab. revert Gs. induction (seq 0 n) as [|i l IH]; intros [|p Gs]; cbn; try (now rewrite gadd_0_l).
  rewrite IH. module.
Qed.
Lemma gdot_tab_scale c f Gs : gdot (tab (fun i => fmul c (f i))) Gs = smul c (gdot (tab f) Gs).
Proof. rewrite <- gdot_scale. unfold tab. now rewrite map_map. Qed.
Lemma gdot_tab_sub f g Gs : gdot (tab (fun i => fsub (f i) (g i))) Gs = gsub (gdot (tab f) Gs) (gdot (tab g) Gs).
Proof.
  unfold tab. revert Gs. induction (seq 0 n) as [|i l IH]; intros [|p Gs]; cbn; try (unfold gsub; now rewrite gadd_opp_r).
  rewrite IH. module.
Qed.
Lemma gdot_tab_zero Gs : gdot (tab (fun _ => fzero)) Gs = gzero.
Proof.
  unfold tab. revert Gs. induction (seq 0 n) as [|i l IH]; intros [|p Gs]; cbn; try easy.
  rewrite IH. module.
Qed.
Lemma ip_tab f g : inner_product (tab f) (tab g) = lsum (fun i => fmul (f i) (g i)) (seq 0 n).
Proof. unfold tab. rewrite ip_suml. now rewrite lsum_suml. Qed.

Lemma gdot_pad v Gs : (len v <= n)%nat -> len Gs = n -> gdot v Gs = gdot (tab (fun i => nth i v fzero)) Gs.
Proof.
  clear Hn Hfit. unfold tab. intros L E. subst n.
  assert (S : forall (Gs : list G) v, (len v <= len Gs)%nat ->
    gdot v Gs = gdot (map (fun i => nth i v fzero) (seq 0 (len Gs))) Gs).
  { clear -AL. induction Gs as [|p Gs IH]; intros [|x v] L; cbn [List.length seq map gdot nth] in *; try easy; try lia.
    - rewrite <- seq_shift, map_map. cbn [nth].
      assert (Z : forall l Gs, gdot (map (fun _ : nat => fzero) l) Gs = gzero).
      { clear -AL. induction l as [|i l IH]; intros [|p Gs]; cbn; try easy. rewrite IH. module. }
      rewrite Z. module.
    - rewrite <- seq_shift, map_map. cbn [nth]. rewrite <- IH by lia. reflexivity. }
  now apply S.
Qed.

(** Aggregation of a group. *)
Definition aggf (g : Group) (j : nat) : F := lsum (fun '(q, c) => fmul c (nth j (pq_poly q) fzero)) (snd g).
Lemma aggregate_tab g : (forall m, In m (snd g) -> len (pq_poly (fst m)) <= n)%nat ->
  aggregate n g = (fst g, lb_new (tab (aggf g))).
Proof.
  intros B. unfold aggregate. do 2 f_equal. unfold aggf.
  assert (S : forall ms f, (forall m, In m ms -> len (pq_poly (fst m)) <= n)%nat ->
    fold_left (fun acc '(q, c) => zip_add acc (map (fun x => fmul x c) (pq_poly q))) ms (tab f) =
    tab (fun j => fadd (f j) (lsum (fun '(q, c) => fmul c (nth j (pq_poly q) fzero)) ms))).
  { clear g B. induction ms as [|[q c] ms IH]; intros f B; cbn [fold_left lsum].
    - apply tab_ext. intros; ring.
    - rewrite zip_add_tab by (rewrite map_length; apply (B (q, c)); now left).
      rewrite IH by (intros; apply B; now right). apply tab_ext. intros j _.
      rewrite (map_ext (fun x => fmul x c) (fmul c)) by (intros; ring).
      rewrite nth_scale. ring. }
  replace (repeat fzero n) with (tab (fun _ => fzero)).
  2:{ unfold tab. clear. generalize 0%nat. induction n as [|m IH]; intros s; cbn; [easy|]. now rewrite IH. }
  rewrite S by exact B. apply tab_ext. intros; ring.
Qed.

(** The quotient as a function. *)
Definition quotf (f : nat -> F) (idx j : nat) : F :=
  if (j =? idx)%nat then
    fopp (lsum (fun i => if (i =? idx)%nat then fzero else
       fmul (fmul (mfun n idx (pt idx)) (wt n i)) (fmul (finv (fsub (pt i) (pt idx))) (fsub (f i) (f idx)))) (seq 0 n))
  else fmul (finv (fsub (pt j) (pt idx))) (fsub (f j) (f idx)).

Lemma divide_tab f idx : (idx < n)%nat ->
  divide_by_linear_vanishing (lb_new (tab f)) (weights n) idx = Ok (lb_new (tab (quotf f idx))).
Proof.
  intros L. unfold divide_by_linear_vanishing. unfold lb_new at 1 2 3. cbn [lb_values lb_domain].
  unfold index. rewrite (nth_error_nth' _ fzero) by (rewrite tab_len; lia).
  rewrite nth_tab by exact L. cbn [unwrap rbind].
  rewrite div_loop_ok.
  2: exact Hfit.
  2: exact Hn.
  2: exact L.
  2:{ intros i I. rewrite tab_len in *. apply in_seq in I. lia. }
  cbn [rbind]. do 2 f_equal. rewrite tab_len, set_nth_map by assumption.
  apply map_ext_in. intros j I. apply in_seq in I. unfold quotf.
  destruct (j =? idx)%nat eqn:Ej.
  - rewrite lsum_suml.
    rewrite (suml_ext _ (fun i => if (i =? idx)%nat then fzero
      else fmul (fmul (mfun n idx (pt idx)) (wt n i)) (fmul (finv (fsub (pt i) (pt idx))) (fsub (f i) (f idx))))); [ring|].
    intros i Ii. apply in_seq in Ii. destruct (i =? idx)%nat; [easy|].
    rewrite nth_tab by lia. rewrite (Fdiv_def F_field). ring.
  - rewrite nth_tab by lia. rewrite (Fdiv_def F_field). ring.
Qed.

Lemma quotf_ext f g idx j : (j < n)%nat -> (idx < n)%nat -> (forall i, (i < n)%nat -> f i = g i) -> quotf f idx j = quotf g idx j.
Proof.
  intros Lj Li E. unfold quotf. rewrite !E by assumption. destruct (j =? idx)%nat; [|reflexivity].
  f_equal. apply lsum_ext. intros i I. apply in_seq in I. rewrite E by lia. reflexivity.
Qed.
Lemma quotf_add f g idx j : quotf (fun i => fadd (f i) (g i)) idx j = fadd (quotf f idx j) (quotf g idx j).
Proof.
  unfold quotf. destruct (j =? idx)%nat; [|ring].
  match goal with |- fopp (lsum ?u ?l) = fadd (fopp (lsum ?v ?l)) (fopp (lsum ?w ?l)) =>
    transitivity (fopp (lsum (fun i => fadd (v i) (w i)) l)) end.
  - f_equal. apply lsum_ext. intros i _. destruct (i =? idx)%nat; ring.
  - rewrite lsum_add. ring.
Qed.
Lemma quotf_scale c f idx j : quotf (fun i => fmul c (f i)) idx j = fmul c (quotf f idx j).
Proof.
  unfold quotf. destruct (j =? idx)%nat; [|ring].
  match goal with |- fopp (lsum ?u ?l) = fmul c (fopp (lsum ?v ?l)) =>
    transitivity (fopp (lsum (fun i => fmul c (v i)) l)) end.
  - f_equal. apply lsum_ext. intros i _. destruct (i =? idx)%nat; ring.
  - rewrite lsum_scale. ring.
Qed.
Lemma quotf_zero idx j : quotf (fun _ => fzero) idx j = fzero.
Proof. 
  transitivity (quotf (fun i => fmul fzero fzero) idx j); [|rewrite quotf_scale; ring].
  unfold quotf. destruct (j =? idx)%nat; [|ring]. f_equal. apply lsum_ext. intros i _. destruct (i =? idx)%nat; ring.
Qed.
Lemma quotf_lsum {X} (v : X -> nat -> F) idx j l :
  quotf (fun i => lsum (fun m => v m i) l) idx j = lsum (fun m => quotf (v m) idx j) l.
Proof.
  induction l as [|m l IH]; cbn [lsum]; [apply quotf_zero|].
  rewrite quotf_add, IH. reflexivity.
Qed.

Lemma quotf_eval f idx t : (idx < n)%nat -> 
  fmul (fsub t (pt idx)) (lsum (fun j => fmul (quotf f idx j) (fmul (wt n j) (mfun n j t))) (seq 0 n)) =
  fsub (lsum (fun j => fmul (f j) (fmul (wt n j) (mfun n j t))) (seq 0 n)) (f idx).
Proof.
  intros L. destruct (interpolate n Hfit Hn (tab f) (tab_len f)) as (p & Lp & Ep).
  pose proof (divide_ok n Hfit Hn p idx Lp L) as D. rewrite Ep, divide_tab in D by exact L.
  injection D as _ D.
  rewrite <- !ip_tab. rewrite D. rewrite <- Ep. unfold tab. rewrite !(eval_ok n Hfit Hn) by (rewrite ?len_sdiv; lia).
  rewrite <- peval_sdiv. f_equal.
  rewrite <- (nth_tab f idx L), <- Ep. symmetry. now apply values_of_nth.
Qed.

Lemma lb_add_tab f g : lb_add (lb_new (tab f)) (lb_new (tab g)) = lb_new (tab (fun j => fadd (f j) (g j))).
Proof.
  unfold lb_add, lb_new. cbn [lb_domain lb_values]. rewrite !tab_len.
  rewrite (proj2 (Nat.eqb_neq n 0)) by lia.
  rewrite zip_add_tab by (rewrite tab_len; lia). f_equal.
  apply tab_ext. intros j Lj. now rewrite nth_tab by exact Lj.
Qed.

Lemma lb_fold_tab (fs : list (nat -> F)) : fs <> [] ->
  fold_left lb_add (map (fun f => lb_new (tab f)) fs) lb_zero = lb_new (tab (fun j => lsum (fun f => f j) fs)).
Proof.
  destruct fs as [|f fs]; [easy|]. intros _. cbn [map fold_left]. unfold lb_add at 2. cbn [lb_zero lb_domain Nat.eqb].
  assert (S : forall fs f, fold_left lb_add (map (fun f => lb_new (tab f)) fs) (lb_new (tab f)) =
    lb_new (tab (fun j => fadd (f j) (lsum (fun g => g j) fs)))).
  { clear fs f. induction fs as [|g fs IH]; intros f; cbn [map fold_left lsum].
    - f_equal. apply tab_ext. intros; ring.
    - rewrite lb_add_tab, IH. f_equal. apply tab_ext. intros; ring. }
  rewrite S. reflexivity.
Qed.

Lemma quotient_tab v idx : (len v <= n)%nat -> (idx < n)%nat ->
  quotient n v idx = tab (quotf (fun i => nth i v fzero) idx).
Proof.
  intros L Li. unfold quotient. rewrite weights_ok by assumption.
  assert (E : v ++ repeat fzero (n - len v) = tab (fun i => nth i v fzero)).
  { apply nth_ext with (d := fzero) (d' := fzero).
    - rewrite app_length, repeat_length, tab_len. lia.
    - intros i Lt. rewrite app_length, repeat_length in Lt. rewrite nth_tab by lia.
      destruct (Nat.lt_ge_cases i (len v)) as [B|B].
      + now rewrite app_nth1 by exact B.
      + rewrite app_nth2 by exact B. rewrite nth_repeat. now rewrite nth_overflow by exact B. }
  rewrite E, divide_tab by exact Li. reflexivity.
Qed.

(** ** The prover *)
Lemma good_fits m Gs qs : Forall (good_query m Gs) qs -> Forall (fitting_query m) qs.
Proof. apply Forall_impl. intros q (X & Y & _). now split. Qed.

Section Prover.
Variables (order : list Group -> list Group) (crs : CRS) (k : nat) (tr : Transcript) (qs : list ProverQuery).
Hypothesis Horder : forall l, Permutation (order l) l.
Hypothesis Hk : n = (2 ^ k)%nat.
Hypothesis Hcn : crs_n crs = n.
Hypothesis HG : len (crs_G crs) = n.
Hypothesis Hqs : qs <> [].
Hypothesis Hfits : Forall (fitting_query n) qs.

Let pub := map public_query qs.
Let r := fst (mp_r tr pub).
Let pairs := combine qs (powers_from fone r (len qs)).
Let Gr := group_prover_queries order qs (powers_of r (len qs)).

Lemma len_qs : (0 < len qs)%nat.
Proof. destruct qs; [congruence|cbn; lia]. Qed.

Lemma Gr_perm : Permutation Gr (groups pairs []).
Proof. unfold Gr, group_prover_queries, groups, pairs. rewrite powers_of_len by exact len_qs. apply Horder. Qed.

Lemma Gr_sum f : lsum (fun g => lsum f (snd g)) Gr = lsum f pairs.
Proof. rewrite (lsum_perm _ _ _ Gr_perm), groups_sum. cbn [lsum]. ring. Qed.

Lemma pairs_fit m : In m pairs -> fitting_query n (fst m).
Proof.
  intros I. destruct m as [q c]. apply in_combine_l in I. cbn.
  rewrite Forall_forall in Hfits. now apply Hfits.
Qed.

Lemma Gr_ok g : In g Gr -> group_ok pairs g.
Proof.
  intros I. apply (Permutation_in _ Gr_perm) in I.
  pose proof (groups_ok pairs pairs [] (incl_refl _) (Forall_nil _)) as K. rewrite Forall_forall in K. now apply K.
Qed.

Lemma Gr_good g : In g Gr -> 0 <= fst g < Z.of_nat n /\ forall m, In m (snd g) -> (len (pq_poly (fst m)) <= n)%nat.
Proof.
  intros I. destruct (Gr_ok g I) as [N K]. split.
  - destruct (snd g) as [|m ms] eqn:E; [easy|]. destruct (K m ltac:(now left)) as [<- Im].
    apply pairs_fit in Im. apply Im.
  - intros m Im. apply K in Im. destruct Im as [_ Im]. apply pairs_fit in Im. apply Im.
Qed.

Lemma Gr_nonempty : Gr <> [].
Proof.
  intros E. pose proof Gr_perm as P. rewrite E in P. apply Permutation_nil in P.
  revert P. apply groups_nonempty. left. unfold pairs. pose proof len_qs. destruct qs; [congruence|]. cbn. discriminate.
Qed.

Lemma aggregated_eq : map (aggregate n) Gr = map (fun g => (fst g, lb_new (tab (aggf g)))) Gr.
Proof. apply map_ext_in. intros g I. apply aggregate_tab. now apply Gr_good. Qed.

Definition gf (j : nat) : F := lsum (fun '(q, c) => fmul c (quotf (fun i => nth i (pq_poly q) fzero) (Z.to_nat (pq_point q)) j)) pairs.
Definition hf (t : F) (j : nat) : F :=
  lsum (fun '(q, c) => fmul c (fmul (finv (fsub t (of_Z (pq_point q)))) (nth j (pq_poly q) fzero))) pairs.

Lemma gf_groups j : (j < n)%nat -> lsum (fun g => quotf (aggf g) (Z.to_nat (fst g)) j) Gr = gf j.
Proof.
  intros Lj. unfold gf. rewrite <- Gr_sum. apply lsum_ext. intros g I.
  unfold aggf.
  transitivity (quotf (fun i => lsum (fun m => fmul (snd m) (nth i (pq_poly (fst m)) fzero)) (snd g)) (Z.to_nat (fst g)) j).
  { apply quotf_ext; [exact Lj| |].
    - destruct (Gr_good g I) as [B _]. lia.
    - intros i _. apply lsum_ext. intros [q c] _. reflexivity. }
  rewrite quotf_lsum. apply lsum_ext. intros [q c] Im. cbn [fst snd].
  rewrite quotf_scale. destruct (Gr_ok g I) as [_ K]. apply K in Im. cbn [fst] in Im. destruct Im as [-> _]. reflexivity.
Qed.
Lemma hf_groups t j : lsum (fun g => fmul (finv (fsub t (of_Z (fst g)))) (aggf g j)) Gr = hf t j.
Proof.
  unfold hf. rewrite <- Gr_sum. apply lsum_ext. intros g I. unfold aggf. rewrite <- lsum_scale.
  apply lsum_ext. intros [q c] Im. destruct (Gr_ok g I) as [_ K]. apply K in Im. cbn [fst] in Im. destruct Im as [-> _]. ring.
Qed.

Lemma quotients_eq :
  rmap (fun '(z, f) => divide_by_linear_vanishing f (weights n) (Z.to_nat z)) (map (aggregate n) Gr) =
  Ok (map (fun f => lb_new (tab f)) (map (fun g => quotf (aggf g) (Z.to_nat (fst g))) Gr)).
Proof.
  rewrite aggregated_eq, map_map.
  assert (S : forall l, incl l Gr ->
    rmap (fun '(z, f) => divide_by_linear_vanishing f (weights n) (Z.to_nat z)) (map (fun g => (fst g, lb_new (tab (aggf g)))) l) =
    Ok (map (fun g => lb_new (tab (quotf (aggf g) (Z.to_nat (fst g))))) l)).
  { induction l as [|g l IH]; intros I; cbn [map rmap]; [easy|].
    assert (Ig : In g Gr) by (apply I; now left). destruct (Gr_good g Ig) as [B _].
    rewrite divide_tab by lia. cbn [rbind]. rewrite IH by (intros x Hx; apply I; now right). reflexivity. }
  apply S. apply incl_refl.
Qed.

Lemma prover_g : fold_left lb_add (map (fun f => lb_new (tab f)) (map (fun g => quotf (aggf g) (Z.to_nat (fst g))) Gr)) lb_zero
  = lb_new (tab gf).
Proof.
  rewrite lb_fold_tab.
  - f_equal. apply tab_ext. intros j Lj. rewrite <- gf_groups by exact Lj.
    clear. induction Gr as [|g l IH]; cbn [map lsum]; [easy|]. now rewrite IH.
  - pose proof Gr_nonempty. destruct Gr; [congruence|discriminate].
Qed.

Lemma prover_h t : outside_domain n t ->
  fold_left lb_add (map (fun '((_, f), d) => lb_new (map (fun x => fmul d x) (lb_values f)))
    (combine (map (aggregate n) Gr) (batch_inversion (map (fun '(z, _) => fsub t (of_Z z)) (map (aggregate n) Gr))))) lb_zero
  = lb_new (tab (hf t)).
Proof.
  intros O.
  transitivity (fold_left lb_add (map (fun f => lb_new (tab f)) (map (fun g j => fmul (finv (fsub t (of_Z (fst g)))) (aggf g j)) Gr)) lb_zero).
  - f_equal. rewrite aggregated_eq, !map_map.
    assert (S : forall l, incl l Gr ->
      map (fun '((_, f), d) => lb_new (map (fun x => fmul d x) (lb_values f)))
        (combine (map (fun g => (fst g, lb_new (tab (aggf g)))) l)
          (batch_inversion (map (fun g => fsub t (of_Z (fst g))) l))) =
      map (fun g => lb_new (tab (fun j => fmul (finv (fsub t (of_Z (fst g)))) (aggf g j)))) l).
    { induction l as [|g l IH]; intros I; cbn [map batch_inversion combine]; [easy|].
      unfold batch_inversion in IH. rewrite IH by (intros x Hx; apply I; now right). f_equal.
      cbn [lb_values lb_new]. unfold tab. rewrite map_map.
      assert (Ig : In g Gr) by (apply I; now left). destruct (Gr_good g Ig) as [B _].
      rewrite (proj2 (feqb_false _ _)); [reflexivity|].
      intros E. apply fsub_eq in E. apply (O (Z.to_nat (fst g))); [lia|].
      unfold pt. now rewrite Z2Nat.id by lia. }
    apply S. apply incl_refl.
  - rewrite lb_fold_tab.
    + f_equal. apply tab_ext. intros j Lj. rewrite <- hf_groups.
      clear. induction Gr as [|g l IH]; cbn [map lsum]; [easy|]. now rewrite IH.
    + pose proof Gr_nonempty. destruct Gr; [congruence|discriminate].
Qed.

Lemma gf_values : mp_g_values n r qs = tab gf.
Proof.
  unfold mp_g_values, tab. apply map_ext_in. intros j I. apply in_seq in I.
  rewrite weighted_lsum. fold pairs. unfold gf. apply lsum_ext. intros [q c] Im. apply pairs_fit in Im. cbn [fst] in Im.
  destruct Im as (L & B). rewrite quotient_tab by lia. rewrite nth_tab by lia. reflexivity.
Qed.
Lemma hf_values t : mp_h_values n r t qs = tab (hf t).
Proof.
  unfold mp_h_values, tab. apply map_ext. intros j. rewrite weighted_lsum. reflexivity.
Qed.

Definition coeffs t := map (fun i => fmul (wt n i) (mfun n i t)) (seq 0 n).

(** The prover computes the textbook proof. *)
Lemma absorb_pub : forall l tr,
  fold_left (fun tr q => absorb_query tr (pq_comm q) (of_Z (pq_point q)) (pq_result q)) l tr =
  fold_left (fun tr q => absorb_query tr (vq_comm q) (vq_point q) (vq_result q)) (map public_query l) tr.
Proof. induction l as [|q l IH]; intros s; cbn [fold_left map]; [easy|]. apply IH. Qed.

Definition D := gdot (tab gf) (crs_G crs).
Definition tt := fst (mp_t tr pub D).
Definition E := gdot (tab (hf tt)) (crs_G crs).
Definition tr3 := append_point (snd (mp_t tr pub D)) (lbl "E") E.

Lemma open_eq : outside_domain n tt ->
  mp_open order crs (weights n) tr qs =
  let! (ipa, s) := ipa_create tr3 crs (tab (fun j => fsub (hf tt j) (gf j))) (gsub E D) (coeffs tt) tt in Ok (mkMP ipa D, s).
Proof.
  intros O. unfold mp_open. rewrite absorb_pub. fold pub.
  change (challenge_scalar (fold_left (fun tr q => absorb_query tr (vq_comm q) (vq_point q) (vq_result q)) pub (domain_sep tr (lbl "multiproof"))) (lbl "r"))
    with (mp_r tr pub).
  rewrite (surjective_pairing (mp_r tr pub)). fold r. fold Gr. rewrite Hcn.
  rewrite quotients_eq. cbn [rbind]. rewrite prover_g.
  unfold commit_lagrange_poly at 1. cbn [lb_new lb_values]. rewrite msm_ok by (rewrite tab_len; congruence). cbn [rbind].
  fold D. change (challenge_scalar (append_point (snd (mp_r tr pub)) (lbl "D") D) (lbl "t")) with (mp_t tr pub D).
  rewrite (surjective_pairing (mp_t tr pub D)). fold tt.
  rewrite prover_h by exact O.
  unfold commit_lagrange_poly. cbn [lb_new lb_values]. rewrite msm_ok by (rewrite tab_len; congruence). cbn [rbind].
  fold E. fold tr3. unfold lb_sub. cbn [lb_new lb_values]. rewrite zip_sub_tab.
  unfold open_point_outside_of_domain. rewrite Hcn, coefficients_ok by assumption. cbn [rbind lb_values]. reflexivity.
Qed.

Lemma honest_t_eq : mp_honest_t n tr crs qs = tt.
Proof.
  unfold mp_honest_t. fold pub. fold r. rewrite gf_values.
  rewrite commit_gdot by (rewrite ?tab_len; lia). reflexivity.
Qed.

Lemma honest_challenges_eq : outside_domain n tt ->
  mp_honest_challenges k tr crs qs =
  ipa_challenges k tr3 crs (tab (fun j => fsub (hf tt j) (gf j))) (gsub E D) (coeffs tt) tt.
Proof.
  intros O. unfold mp_honest_challenges. fold pub. fold r. rewrite <- Hk. rewrite gf_values.
  rewrite commit_gdot by (rewrite ?tab_len; lia). fold D.
  rewrite (surjective_pairing (mp_t tr pub D)). fold tt. rewrite hf_values.
  rewrite commit_gdot by (rewrite ?tab_len; lia). fold E. fold tr3.
  rewrite weights_ok by assumption. rewrite coefficients_ok by assumption.
  f_equal. unfold tab. generalize (seq 0 n), (hf tt), gf. clear. intros l u v. induction l as [|i l IH]; cbn [map combine]; [easy|]. now rewrite IH.
Qed.

Lemma multi_returns :
  outside_domain n (mp_honest_t n tr crs qs) ->
  Forall (fun x => x <> fzero) (mp_honest_challenges k tr crs qs) ->
  exists p s, mp_open order crs (weights n) tr qs = Ok (p, s).
Proof.
  rewrite honest_t_eq. intros O F. rewrite honest_challenges_eq in F by exact O.
  assert (Lc : len (coeffs tt) = n) by (unfold coeffs; now rewrite map_length, seq_length).
  apply ipa_create_iff in F; rewrite ?tab_len; try congruence.
  destruct (ipa_create tr3 crs _ _ _ _) as [[ipa s]|] eqn:Cr; [|congruence].
  exists (mkMP ipa D), s. rewrite open_eq by exact O. rewrite Cr. reflexivity.
Qed.
Lemma multi_panic : 
  outside_domain n (mp_honest_t n tr crs qs) ->
  ~ Forall (fun x => x <> fzero) (mp_honest_challenges k tr crs qs) ->
  mp_open order crs (weights n) tr qs = Panic.
Proof.
  rewrite honest_t_eq. intros O F. rewrite honest_challenges_eq in F by exact O.
  assert (Lc : len (coeffs tt) = n) by (unfold coeffs; now rewrite map_length, seq_length).
  rewrite <- ipa_create_iff in F; rewrite ?tab_len; try congruence.
  rewrite open_eq by exact O. destruct (ipa_create tr3 crs _ _ _ _) as [[ipa s]|] eqn:Cr; [|reflexivity].
  exfalso. apply F. discriminate.
Qed.

(** ** The verifier *)
Hypothesis Hgood : Forall (good_query n (crs_G crs)) qs.
Lemma pairs_good m : In m pairs -> good_query n (crs_G crs) (fst m).
Proof.
  intros I. destruct m as [q c]. apply in_combine_l in I. cbn.
  rewrite Forall_forall in Hgood. now apply Hgood.
Qed.
Lemma helper_eq : outside_domain n tt ->
  map (fun '(ri, d) => fmul d ri) (combine (powers_of r (len pub)) (batch_inversion (map (fun q => fsub tt (vq_point q)) pub)))
  = map (fun '(q, c) => fmul (finv (fsub tt (of_Z (pq_point q)))) c) pairs.
Proof.
  intros O. unfold pub. rewrite map_length. rewrite powers_of_len by exact len_qs. unfold pairs.
  rewrite map_map. cbn [public_query vq_point].
  revert O. generalize tt. intros t O. generalize (powers_from fone r (len qs)). revert Hgood. clear -AL O. intros HF. induction HF as [|q l Hq HF IH]; intros ps.
  - now destruct ps.
  - destruct ps as [|p ps]; [easy|]. cbn [map batch_inversion combine]. unfold batch_inversion in IH. rewrite IH. f_equal.
    rewrite (proj2 (feqb_false _ _)); [ring|]. destruct Hq as (_ & B & _).
    intros E0. apply fsub_eq in E0. apply (O (Z.to_nat (pq_point q))); [lia|]. unfold pt. now rewrite Z2Nat.id by lia.
Qed.

Lemma map_fst_pairs : map fst pairs = qs.
Proof.
  unfold pairs. assert (S : forall (l : list ProverQuery) (ps : list F), len ps = len l -> map fst (combine l ps) = l).
  { induction l as [|q l IH]; intros [|p ps] E0; cbn in *; try discriminate; [easy|]. rewrite IH by lia. reflexivity. }
  apply S. apply powers_from_len.
Qed.

Lemma verifier_comm : 
  gdot (map (fun '(q, c) => fmul (finv (fsub tt (of_Z (pq_point q)))) c) pairs) (map vq_comm pub) = E.
Proof.
  unfold pub, E, hf. rewrite map_map. cbn [public_query vq_comm].
  rewrite <- map_fst_pairs at 1. rewrite map_map.
  assert (K : forall m, In m pairs -> good_query n (crs_G crs) (fst m)) by exact pairs_good.
  generalize tt. intros t. revert K. clear -AL HG Hn Hfit. induction pairs as [|[q c] l IH]; intros K; cbn [map gdot lsum fst].
  - now rewrite gdot_tab_zero.
  - rewrite IH by (intros; apply K; now right).
    rewrite gdot_tab_add. f_equal.
    destruct (K (q, c) ltac:(now left)) as (L & _ & Ec & _). cbn [fst] in *. rewrite Ec.
    rewrite commit_gdot by lia. rewrite gdot_pad by assumption.
    rewrite <- gdot_tab_scale. f_equal. apply tab_ext. intros; ring.
Qed.

Lemma verifier_value : outside_domain n tt ->
  inner_product (map (fun '(q, c) => fmul (finv (fsub tt (of_Z (pq_point q)))) c) pairs) (map vq_result pub)
  = inner_product (tab (fun j => fsub (hf tt j) (gf j))) (coeffs tt).
Proof.
  intros O. change (coeffs tt) with (tab (fun i => fmul (wt n i) (mfun n i tt))). rewrite ip_tab.
  unfold pub, hf, gf. rewrite map_map. cbn [public_query vq_result].
  rewrite <- map_fst_pairs at 1. rewrite map_map.
  assert (K : forall m, In m pairs -> good_query n (crs_G crs) (fst m)) by exact pairs_good.
  revert K O. generalize tt. clear -AL Hfit Hn. intros t.
  induction pairs as [|[q c] l IH]; intros K O; cbn [map inner_product lsum fst].
  - assert (Z : forall l : list nat, fzero = lsum (fun i => fmul (fsub fzero fzero) (fmul (wt n i) (mfun n i t))) l).
    { induction l as [|i l IHl]; cbn; [easy|]. rewrite <- IHl. ring. }
    apply Z.
  - rewrite IH; [|intros; apply K; now right|exact O].
    destruct (K (q, c) ltac:(now left)) as (L & B & _ & Er). cbn [fst] in *. rewrite Er.
    set (f := fun i => nth i (pq_poly q) fzero). set (idx := Z.to_nat (pq_point q)).
    assert (Li : (idx < n)%nat) by (unfold idx; lia).
    assert (Ez : of_Z (pq_point q) = pt idx) by (unfold pt, idx; now rewrite Z2Nat.id by lia).
    rewrite Ez. change (nth idx (pq_poly q) fzero) with (f idx).
    assert (N : fsub t (pt idx) <> fzero) by (intros E0; apply fsub_eq in E0; exact (O idx Li E0)).
    set (e := fun i => fmul (wt n i) (mfun n i t)).
    assert (Q : fmul (fsub t (pt idx)) (lsum (fun j => fmul (quotf f idx j) (e j)) (seq 0 n)) =
      fsub (lsum (fun j => fmul (f j) (e j)) (seq 0 n)) (f idx)) by exact (quotf_eval f idx t Li).
    set (d := finv (fsub t (pt idx))).
    transitivity (lsum (fun i => fadd (fmul c (fsub (fmul d (fmul (f i) (e i))) (fmul (quotf f idx i) (e i))))
       (fmul (fsub (lsum (fun '(q0, c0) => fmul c0 (fmul (finv (fsub t (of_Z (pq_point q0)))) (nth i (pq_poly q0) fzero))) l)
          (lsum (fun '(q0, c0) => fmul c0 (quotf (fun i0 => nth i0 (pq_poly q0) fzero) (Z.to_nat (pq_point q0)) i)) l)) (e i))) (seq 0 n)).
    2:{ apply lsum_ext. intros i _. change (nth i (pq_poly q) fzero) with (f i). unfold e. ring. }
    rewrite lsum_add. f_equal. rewrite lsum_scale, lsum_sub, lsum_scale.
    set (S1 := lsum (fun x => fmul (f x) (e x)) (seq 0 n)) in *.
    set (S2 := lsum (fun x => fmul (quotf f idx x) (e x)) (seq 0 n)) in *.
    assert (Q' : S1 = fadd (fmul (fsub t (pt idx)) S2) (f idx)) by (rewrite Q; ring).
    rewrite Q'. unfold d. field. exact N.
Qed.

Lemma check_ok ipa s : outside_domain n tt ->
  ipa_create tr3 crs (tab (fun j => fsub (hf tt j) (gf j))) (gsub E D) (coeffs tt) tt = Ok (ipa, s) ->
  mp_check (mkMP ipa D) crs (weights n) pub tr = Ok true.
Proof.
  intros O Cr. unfold mp_check. cbn [mp_g mp_ipa].
  change (challenge_scalar (fold_left (fun tr q => absorb_query tr (vq_comm q) (vq_point q) (vq_result q)) pub (domain_sep tr (lbl "multiproof"))) (lbl "r"))
    with (mp_r tr pub).
  rewrite (surjective_pairing (mp_r tr pub)). fold r.
  change (challenge_scalar (append_point (snd (mp_r tr pub)) (lbl "D") D) (lbl "t")) with (mp_t tr pub D).
  rewrite (surjective_pairing (mp_t tr pub D)). fold tt.
  rewrite helper_eq by exact O.
  rewrite msm_ok.
  2:{ unfold pub. rewrite !map_length. unfold pairs. rewrite combine_length, powers_from_len. lia. }
  cbn [rbind]. rewrite verifier_comm. fold tr3. rewrite Hcn, coefficients_ok by assumption. cbn [rbind].
  fold (coeffs tt). rewrite verifier_value by exact O.
  assert (Lc : len (coeffs tt) = n) by (unfold coeffs; now rewrite map_length, seq_length).
  assert (Ec : gsub E D = gdot (tab (fun j => fsub (hf tt j) (gf j))) (crs_G crs)).
  { unfold E, D. now rewrite gdot_tab_sub. }
  rewrite Ec in *.
  apply (ipa_complete _ _ _ _ _ k) in Cr; rewrite ?tab_len; try congruence.
  destruct Cr as (HL & HR & V).
  rewrite (verify_eq _ _ _ _ _ _ _ k) in V; try congruence.
  rewrite (verify_multiexp_eq _ _ _ _ _ _ _ k); try congruence.
Qed.

Lemma multi_complete_f : 
  outside_domain n (mp_honest_t n tr crs qs) ->
  Forall (fun x => x <> fzero) (mp_honest_challenges k tr crs qs) ->
  exists p s, mp_open order crs (weights n) tr qs = Ok (p, s) /\ mp_check p crs (weights n) pub tr = Ok true.
Proof.
  rewrite honest_t_eq. intros O F. rewrite honest_challenges_eq in F by exact O.
  assert (Lc : len (coeffs tt) = n) by (unfold coeffs; now rewrite map_length, seq_length).
  apply ipa_create_iff in F; rewrite ?tab_len; try congruence.
  destruct (ipa_create tr3 crs _ _ _ _) as [[ipa s]|] eqn:Cr; [|congruence].
  exists (mkMP ipa D), s. split.
  - rewrite open_eq by exact O. rewrite Cr. reflexivity.
  - eapply check_ok; eassumption.
Qed.

(** Whatever the prover returns is accepted, unless [t] hits the domain. *)
Lemma multi_accept_f p s :
  mp_open order crs (weights n) tr qs = Ok (p, s) -> mp_g p = D /\
  (outside_domain n (fst (mp_t tr pub (mp_g p))) -> mp_check p crs (weights n) pub tr = Ok true).
Proof.
  intros Op.
  assert (ED : mp_g p = D).
  { revert Op. unfold mp_open. rewrite absorb_pub. fold pub.
    change (challenge_scalar (fold_left (fun tr q => absorb_query tr (vq_comm q) (vq_point q) (vq_result q)) pub (domain_sep tr (lbl "multiproof"))) (lbl "r"))
      with (mp_r tr pub).
    rewrite (surjective_pairing (mp_r tr pub)). fold r. fold Gr. rewrite Hcn.
    rewrite quotients_eq. cbn [rbind]. rewrite prover_g.
    unfold commit_lagrange_poly at 1. cbn [lb_new lb_values]. rewrite msm_ok by (rewrite tab_len; congruence). cbn [rbind].
    fold D. change (challenge_scalar (append_point (snd (mp_r tr pub)) (lbl "D") D) (lbl "t")) with (mp_t tr pub D).
    rewrite (surjective_pairing (mp_t tr pub D)).
    destruct (commit_lagrange_poly _ _) as [g1|]; cbn [rbind]; [|discriminate].
    destruct (open_point_outside_of_domain _ _ _ _ _ _) as [[ipa s']|]; cbn [rbind]; [|discriminate].
    intros [= <- _]. reflexivity. }
  split; [exact ED|]. rewrite ED. fold tt. intros O. rewrite open_eq in Op by exact O.
  destruct (ipa_create tr3 crs _ _ _ _) as [[ipa s']|] eqn:Cr; cbn [rbind] in Op; [|discriminate].
  injection Op as <- <-. eapply check_ok; eassumption.
Qed.
End Prover.

Lemma multi_complete order crs k tr qs : (forall l, Permutation (order l) l) -> n = (2 ^ k)%nat -> crs_n crs = n ->
  len (crs_G crs) = n -> qs <> [] -> Forall (good_query n (crs_G crs)) qs ->
  outside_domain n (mp_honest_t n tr crs qs) ->
  Forall (fun x => x <> fzero) (mp_honest_challenges k tr crs qs) ->
  exists p s, mp_open order crs (weights n) tr qs = Ok (p, s) /\ mp_check p crs (weights n) (map public_query qs) tr = Ok true.
Proof. intros Ho Hk Hcn HG Hqs Hg. apply multi_complete_f; try assumption. eapply good_fits. exact Hg. Qed.
Lemma multi_accept order crs k tr qs : (forall l, Permutation (order l) l) -> n = (2 ^ k)%nat -> crs_n crs = n ->
  len (crs_G crs) = n -> qs <> [] -> Forall (good_query n (crs_G crs)) qs -> forall p s,
  mp_open order crs (weights n) tr qs = Ok (p, s) -> mp_g p = D crs tr qs /\
  (outside_domain n (fst (mp_t tr (map public_query qs) (mp_g p))) -> mp_check p crs (weights n) (map public_query qs) tr = Ok true).
Proof. intros Ho Hk Hcn HG Hqs Hg. apply (multi_accept_f order crs k); try assumption. eapply good_fits. exact Hg. Qed.
End Dom.
End MultiProofs.
