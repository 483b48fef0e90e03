(** Special soundness of the multipoint argument. *)
From Coq Require Import String Field.
From Verif Require Import Base BaseFacts Alg AlgFacts WireModel ProofModel IpaModel IpaProofs LagrangeSpec LagrangeProofs
  IpaSpec MultiProofs TranscriptSpec TranscriptProofs SoundSpec SoundIpa SoundSum.
Local Open Scope list_scope.

Section SoundMulti.
Context {A : Alg} {AL : AlgLaws A}.
Add Field Ffield : F_field.
Add Ring dnring : dn_ring.
Notation len := List.length.

(** A query with its weight [r^i]. *)
Record Term := mkTerm { q_z : nat; q_c : F; q_C : G; q_y : F }.

Lemma afun_prod n t : prod_except n n t = afun n t.
Proof.
  rewrite prod_except_mfun. unfold mfun, afun. do 2 f_equal. unfold others.
  assert (E : forall l, (forall i, In i l -> i < n)%nat -> filter (fun e => negb (e =? n)%nat) l = l).
  { induction l as [|i l IH]; intros I; cbn [filter]; [easy|].
    destruct (Nat.eqb_spec i n) as [->|]; [specialize (I n (or_introl eq_refl)); lia|].
    cbn. now rewrite IH by (intros; apply I; now right). }
  apply E. intros i I. apply in_seq in I. lia.
Qed.

Definition lift (l : list nat) (p : list F) : list F := fold_right (fun e p => plin (fn e) p) p l.
Lemma peval_lift l p x : peval (lift l p) x = fmul (fprod (map (fun e => fsub x (fn e)) l)) (peval p x).
Proof.
  unfold lift, fprod. induction l as [|e l IH]; cbn [fold_right map]; [ring|]. rewrite peval_plin, IH. ring.
Qed.
Lemma len_lift l p : len (lift l p) = (len l + len p)%nat.
Proof. unfold lift. induction l as [|e l IH]; cbn [fold_right List.length]; [easy|]. rewrite len_plin, IH. lia. Qed.

Lemma extract_groups_eq n fs t0 f0 fs' : fs = (t0, f0) :: fs' ->
  extract_groups n fs =
  let alphas := map (group_opening n fs) (seq 0 n) in
  let delta := fold_with (fopp fone) (predicted n alphas t0) f0 in
  let diff '(t, f) := fold_with (fopp fone) (fold_with (fopp fone) (predicted n alphas t) delta) f in
  match find (fun tf => negb (is_zero (diff tf))) fs with
  | Some tf => Relation (diff tf ++ [fzero])
  | None => Opening alphas
  end.
Proof. intros ->. reflexivity. Qed.

Section OneR.
Variables (n : nat) (Gs : list G) (Q D : G) (terms : list Term) (fs : list (F * list F)).
Hypothesis (Hfit : domain_fits n) (Hn : (0 < n)%nat) (HG : len Gs = n).
Hypothesis (Hz : forall q, In q terms -> (q_z q < n)%nat).
Definition Et (t : F) : G := glsum (fun q => smul (fmul (q_c q) (finv (fsub t (pt (q_z q))))) (q_C q)) terms.
Definition yt (t : F) : F := lsum (fun q => fmul (fmul (q_c q) (finv (fsub t (pt (q_z q))))) (q_y q)) terms.
Definition Az (z : nat) : G := glsum (fun q => if (q_z q =? z)%nat then smul (q_c q) (q_C q) else gzero) terms.
Definition Yz (z : nat) : F := lsum (fun q => if (q_z q =? z)%nat then fmul (q_c q) (q_y q) else fzero) terms.
Hypothesis (Hnd : NoDup (map fst fs)) (Hlen : len fs = (2 * n)%nat).
Hypothesis (Hout : forall t f, In (t, f) fs -> outside_domain n t).
Hypothesis (Hf : forall t f, In (t, f) fs -> len f = n).
Hypothesis (Hopen : forall t f, In (t, f) fs -> gsub (Et t) D = gdot f Gs).
Hypothesis (Hval : forall t f, In (t, f) fs -> inner_product f (eval_vector n t) = yt t).

Lemma Et_groups t : Et t = glsum (fun z => smul (finv (fsub t (pt z))) (Az z)) (seq 0 n).
Proof.
  unfold Et, Az. 
  transitivity (glsum (fun z => glsum (fun q => if (q_z q =? z)%nat then smul (fmul (q_c q) (finv (fsub t (pt z)))) (q_C q) else gzero) terms) (seq 0 n)).
  - rewrite glsum_swap. apply glsum_ext. intros q I. symmetry.
    apply (glsum_pick (fun z => smul (fmul (q_c q) (finv (fsub t (pt z)))) (q_C q))); [apply seq_NoDup|].
    apply in_seq. specialize (Hz q I). lia.
  - apply glsum_ext. intros z _. rewrite <- glsum_scale. apply glsum_ext. intros q _. destruct (q_z q =? z)%nat; module.
Qed.
Lemma yt_groups t : yt t = lsum (fun z => fmul (finv (fsub t (pt z))) (Yz z)) (seq 0 n).
Proof.
  unfold yt, Yz. 
  transitivity (lsum (fun z => lsum (fun q => if (q_z q =? z)%nat then fmul (fmul (q_c q) (finv (fsub t (pt z)))) (q_y q) else fzero) terms) (seq 0 n)).
  - rewrite lsum_swap. apply lsum_ext. intros q I. symmetry.
    apply (lsum_pick (fun z => fmul (fmul (q_c q) (finv (fsub t (pt z)))) (q_y q))); [apply seq_NoDup|].
    apply in_seq. specialize (Hz q I). lia.
  - apply lsum_ext. intros z _. rewrite <- lsum_scale. apply lsum_ext. intros q _. destruct (q_z q =? z)%nat; ring.
Qed.

Let fs0 := firstn (S n) fs.
Let T0 := map fst fs0.
Lemma fs0_in tf : In tf fs0 -> In tf fs.
Proof. intros I. rewrite <- (firstn_skipn (S n) fs). apply in_or_app. now left. Qed.
Lemma T0_ok : NoDup T0 /\ len T0 = S n.
Proof.
  split.
  - unfold T0, fs0. rewrite <- firstn_map. rewrite <- (firstn_skipn (S n) (map fst fs)) in Hnd.
    generalize dependent (skipn (S n) (map fst fs)). intros l N. revert N. generalize (firstn (S n) (map fst fs)). intros l1 N.
    induction l1 as [|x l1 IH]; [constructor|]. cbn in N. inversion_clear N as [|? ? Nx N']. constructor; [|auto].
    intros I; apply Nx, in_or_app; now left.
  - unfold T0, fs0. rewrite map_length, firstn_length. lia.
Qed.
Lemma out_nz t i : outside_domain n t -> (i < n)%nat -> fsub t (pt i) <> fzero.
Proof. intros O I. apply sub_nz. now apply O. Qed.
Lemma lsum_fs0 (f : F -> F) : lsum (fun tf => f (fst tf)) fs0 = lsum f T0.
Proof. unfold T0. now rewrite lsum_map. Qed.

Lemma group_opening_ok z : (z < n)%nat ->
  len (group_opening n fs z) = n /\ gdot (group_opening n fs z) Gs = Az z.
Proof.
  intros Lz. unfold group_opening. split; [apply lincomb_len|]. fold fs0. fold T0.
  rewrite gdot_lincomb; [|assumption|].
  2:{ intros cv I. apply in_map_iff in I. destruct I as ([t f] & <- & I). cbn. apply (Hf t f). now apply fs0_in. }
  rewrite glsum_map. destruct T0_ok as [Nd0 Len0].
  pose proof (mfun_self n Hfit Hn z Lz) as Mz.
  transitivity (glsum (fun tf => gsub
     (glsum (fun q => smul (fmul (fmul (q_c q) (finv (mfun n z (pt z)))) (fmul (mfun n (q_z q) (fst tf)) (peval (basis T0 (fst tf)) (pt z)))) (q_C q)) terms)
     (smul (fmul (finv (mfun n z (pt z))) (fmul (afun n (fst tf)) (peval (basis T0 (fst tf)) (pt z)))) D)) fs0).
  { apply glsum_ext. intros [t f] I. cbn [fst snd]. apply fs0_in in I. rewrite <- (Hopen t f I), afun_prod, prod_except_mfun.
    set (lam := peval (basis T0 t) (pt z)).
    transitivity (gsub (smul (fmul lam (fmul (afun n t) (finv (mfun n z (pt z))))) (Et t)) (smul (fmul lam (fmul (afun n t) (finv (mfun n z (pt z))))) D)); [module|].
    f_equal; [|f_equal; ring]. unfold Et. rewrite <- glsum_scale. apply glsum_ext. intros q Iq.
    rewrite (afun_split n Hn (q_z q) t (Hz q Iq)).
    rewrite <- smul_mul. f_equal. field. split; [assumption|]. apply out_nz; [now apply (Hout t f)|auto]. }
  rewrite glsum_sub, glsum_swap.
  transitivity (gsub (Az z) gzero); [|module]. f_equal.
  - unfold Az. apply glsum_ext. intros q Iq.
    rewrite <- smul_lsum, lsum_scale, (lsum_fs0 (fun t => fmul (mfun n (q_z q) t) (peval (basis T0 t) (pt z)))).
    rewrite (lsum_ext _ (fun t => fmul (peval (mpoly n (q_z q)) t) (peval (basis T0 t) (pt z)))).
    2:{ intros t _. now rewrite peval_mpoly. }
    rewrite lagrange_nodes; [|assumption|rewrite len_mpoly by auto; lia]. rewrite peval_mpoly.
    destruct (Nat.eqb_spec (q_z q) z) as [->|Ne].
    + f_equal. field. assumption.
    + rewrite (mfun_other n Hn (q_z q) z Lz Ne). module.
  - rewrite <- smul_lsum, lsum_scale, (lsum_fs0 (fun t => fmul (afun n t) (peval (basis T0 t) (pt z)))).
    rewrite (lsum_ext _ (fun t => fmul (peval (plin (pt z) (mpoly n z)) t) (peval (basis T0 t) (pt z)))).
    2:{ intros t _. rewrite peval_plin, peval_mpoly. now rewrite (afun_split n Hn z t Lz). }
    rewrite lagrange_nodes; [|assumption|rewrite len_plin, len_mpoly by auto; lia].
    rewrite peval_plin. module.
Qed.

Let g := group_opening n fs.
Let alphas := map g (seq 0 n).
Lemma predicted_eq t : predicted n alphas t = lincomb n (map (fun z => (finv (fsub t (pt z)), g z)) (seq 0 n)).
Proof.
  unfold predicted, alphas. f_equal. generalize (seq 0 n). intros l. induction l as [|z l IH]; cbn; [easy|]. now rewrite IH.
Qed.
Lemma predicted_gdot t : gdot (predicted n alphas t) Gs = Et t /\ len (predicted n alphas t) = n.
Proof.
  rewrite predicted_eq. split; [|apply lincomb_len]. rewrite gdot_lincomb; [|assumption|].
  - rewrite glsum_map, Et_groups. apply glsum_ext. intros z I. apply in_seq in I. cbn [fst snd]. f_equal.
    apply group_opening_ok. lia.
  - intros cv I. apply in_map_iff in I. destruct I as (z & <- & I). apply in_seq in I. cbn. apply group_opening_ok. lia.
Qed.

Lemma eval_interp v t : len v = n -> inner_product v (eval_vector n t) = peval (interp n (fun i => nth i v fzero)) t.
Proof.
  intros L. rewrite peval_interp, <- lsum_suml. rewrite (tab_nth n Hn v L) at 1. unfold eval_vector.
  change (map ?f (seq 0 n)) with (tab n f). rewrite ip_tab. apply lsum_ext. intros i _.
  rewrite !prod_except_mfun. unfold wt. ring.
Qed.

Lemma groups_ok' : match extract_groups n fs with
  | Opening al => forall z, (z < n)%nat -> len (nth z al []) = n /\ gdot (nth z al []) Gs = Az z /\ nth z (nth z al []) fzero = Yz z
  | Relation v => relation (Gs ++ [Q]) v
  end.
Proof.
  assert (Ex : exists t0 f0 fs', fs = (t0, f0) :: fs').
  { clear - Hlen Hn. destruct fs as [|[t0 f0] fs']; [cbn in Hlen; lia|]. now exists t0, f0, fs'. }
  destruct Ex as (t0 & f0 & fs' & Efs). rewrite (extract_groups_eq n fs t0 f0 fs' Efs). cbn zeta. fold g. fold alphas.
  assert (I0 : In (t0, f0) fs) by (rewrite Efs; now left).
  set (delta := fold_with (fopp fone) (predicted n alphas t0) f0).
  destruct (predicted_gdot t0) as [P0 L0].
  assert (Ld : len delta = n) by (unfold delta; rewrite fold_len; [assumption|rewrite L0; symmetry; now apply (Hf t0 f0)]).
  assert (Gd : gdot delta Gs = D).
  { unfold delta. rewrite gdot_fold by (rewrite L0; symmetry; now apply (Hf t0 f0)). rewrite P0, <- (Hopen t0 f0 I0). module. }
  destruct (find _ fs) as [[t f]|] eqn:Find.
  - apply find_some in Find. destruct Find as [I Nz]. apply Bool.negb_true_iff in Nz.
    destruct (predicted_gdot t) as [Pt Lt].
    assert (L1 : len (fold_with (fopp fone) (predicted n alphas t) delta) = n) by (rewrite fold_len; congruence).
    pose proof (Hf t f I) as Lf.
    apply gdot_relation.
    + rewrite !app_length, fold_len by congruence. cbn. lia.
    + apply Exists_app. left. now apply is_zero_false.
    + rewrite gdot_app by (rewrite fold_len; congruence). rewrite gdot_fold, gdot_fold, Pt, Gd, <- (Hopen t f I) by congruence.
      cbn [gdot]. module.
  - pose proof (find_none _ _ Find) as None_. clear Find.
    intros z Lz. assert (Nz : nth z alphas [] = g z).
    { unfold alphas. rewrite (nth_indep _ [] (g 0%nat)) by (rewrite map_length, seq_length; lia). rewrite map_nth, seq_nth by lia. reflexivity. }
    rewrite Nz. destruct (group_opening_ok z Lz) as [Lg Gg]. fold g in Lg, Gg. split; [assumption|]. split; [assumption|].
    pose (pz := fun z => interp n (fun i => nth i (g z) fzero)). pose (d := interp n (fun i => nth i delta fzero)).
    pose (PP := padd (fold_right (fun z acc => padd (lift (others n z) (padd (pz z) [fopp (Yz z)])) acc) [] (seq 0 n))
                     (map (fmul (fopp fone)) (lift (seq 0 n) d))).
    assert (PPe : forall x, peval PP x = fsub (lsum (fun z => fmul (mfun n z x) (fsub (peval (pz z) x) (Yz z))) (seq 0 n)) (fmul (afun n x) (peval d x))).
    { intros x. unfold PP. rewrite peval_padd, peval_scale, peval_lift. fold (afun n x).
      assert (E : forall l, peval (fold_right (fun z acc => padd (lift (others n z) (padd (pz z) [fopp (Yz z)])) acc) [] l) x
         = lsum (fun z => fmul (mfun n z x) (fsub (peval (pz z) x) (Yz z))) l).
      { induction l as [|e l IH]; cbn [fold_right lsum]; [reflexivity|]. rewrite peval_padd, IH, peval_lift, peval_padd. fold (mfun n e x).
        cbn [peval]. f_equal. ring. }
      rewrite E. unfold afun. ring. }
    assert (PPl : (len PP <= len (map fst fs))%nat).
    { rewrite map_length, Hlen. unfold PP. rewrite len_padd, map_length, len_lift, seq_length.
      pose proof (len_interp n Hn (fun i => nth i delta fzero)). fold d in H.
      assert (E : forall l, (forall e, In e l -> e < n)%nat -> (len (fold_right (fun z acc => padd (lift (others n z) (padd (pz z) [fopp (Yz z)])) acc) [] l) <= 2 * n)%nat).
      { induction l as [|e l IH]; intros I; cbn [fold_right]; [cbn; lia|]. rewrite len_padd, len_lift, len_padd.
        pose proof (len_interp n Hn (fun i => nth i (g e) fzero)). fold (pz e) in H0.
        pose proof (len_others n Hn e (I e (or_introl eq_refl))). specialize (IH (fun x Hx => I x (or_intror Hx))). cbn [List.length]. lia. }
      specialize (E (seq 0 n) ltac:(intros e I; apply in_seq in I; lia)). lia. }
    assert (Zero : Forall (eq fzero) PP).
    { apply (roots_zero (map fst fs)); [assumption|assumption|].
      intros x I. apply in_map_iff in I. destruct I as ([t f] & <- & I). cbn [fst].
      pose proof (Hout t f I) as O. pose proof (Hf t f I) as Lf.
      specialize (None_ (t, f) I). apply Bool.negb_false_iff in None_.
      destruct (predicted_gdot t) as [_ Lt].
      assert (L1 : len (fold_with (fopp fone) (predicted n alphas t) delta) = n) by (rewrite fold_len; congruence).
      assert (Ef : f = fold_with (fopp fone) (predicted n alphas t) delta).
      { apply vec_eq; [congruence|]. intros j _. pose proof (proj1 (is_zero_true _) None_ j) as Dj.
        rewrite nth_fold in Dj by congruence. symmetry. apply fsub_eq. etransitivity; [|exact Dj]. ring. }
      pose proof (Hval t f I) as V. rewrite Ef, fold_with_vaxpy, ip_vaxpy in V by congruence.
      rewrite (eval_interp delta t Ld) in V. fold d in V.
      rewrite predicted_eq, ip_lincomb, lsum_map in V;
        [|assumption|unfold eval_vector; now rewrite map_length, seq_length|].
      2:{ intros cv Ic. apply in_map_iff in Ic. destruct Ic as (e & <- & Ie). apply in_seq in Ie. cbn. apply group_opening_ok. lia. }
      cbn [fst snd] in V. rewrite yt_groups in V.
      rewrite PPe.
      transitivity (fmul (afun n t) (fsub (fadd (lsum (fun z => fmul (finv (fsub t (pt z))) (inner_product (g z) (eval_vector n t))) (seq 0 n)) (fmul (fopp fone) (peval d t)))
         (lsum (fun z => fmul (finv (fsub t (pt z))) (Yz z)) (seq 0 n)))); [|rewrite V; ring].
      transitivity (fsub (fmul (afun n t) (lsum (fun z => fsub (fmul (finv (fsub t (pt z))) (inner_product (g z) (eval_vector n t))) (fmul (finv (fsub t (pt z))) (Yz z))) (seq 0 n))) (fmul (afun n t) (peval d t))).
      2:{ rewrite lsum_sub. ring. }
      f_equal. rewrite <- lsum_scale. apply lsum_ext. intros e Ie. apply in_seq in Ie.
      destruct (group_opening_ok e ltac:(lia)) as [Le _]. fold g in Le. rewrite (eval_interp (g e) t Le). fold (pz e).
      rewrite (afun_split n Hn e t ltac:(lia)). field. apply out_nz; [assumption|lia]. }
    pose proof (peval_zero PP (pt z) Zero) as Ez. rewrite PPe in Ez.
    rewrite (lsum_ext _ (fun e => if (z =? e)%nat then fmul (mfun n e (pt z)) (fsub (peval (pz e) (pt z)) (Yz e)) else fzero)) in Ez.
    2:{ intros e _. destruct (Nat.eqb_spec z e); [easy|]. rewrite (mfun_other n Hn e z Lz) by congruence. ring. }
    rewrite (lsum_pick (fun e => fmul (mfun n e (pt z)) (fsub (peval (pz e) (pt z)) (Yz e)))) in Ez by (apply seq_NoDup || (apply in_seq; lia)).
    rewrite (afun_split n Hn z (pt z) Lz) in Ez. unfold pz in Ez at 1. rewrite interp_at in Ez by assumption.
    apply fsub_eq. apply (fmul_eq_0 (mfun n z (pt z))); [|now apply mfun_self]. etransitivity; [|exact Ez]. ring.
Qed.
End OneR.

(** ** The verifier of the code *)

Lemma helper_ok n t r : outside_domain n t -> forall zs qs c, points_ok n zs qs ->
  let helper := map (fun '(ri, d) => fmul d ri) (combine (powers_from c r (len qs)) (batch_inversion (map (fun q => fsub t (vq_point q)) qs))) in
  len helper = len qs /\ inner_product helper (map vq_result qs) = mp_y r t c qs /\ gdot helper (map vq_comm qs) = mp_E r t c qs.
Proof.
  intros O zs qs c P. revert c. induction P as [|z q zs qs [Lz Eq] P IH]; intros c; cbn zeta.
  - easy.
  - cbn [List.length powers_from map combine batch_inversion inner_product gdot mp_y mp_E].
    unfold batch_inversion in IH. cbn zeta in IH. destruct (IH (fmul c r)) as (I1 & I2 & I3).
    replace (fmul r c) with (fmul c r) by ring. rewrite I1, I2, I3.
    rewrite (proj2 (feqb_false _ _)) by (rewrite Eq; now apply (out_nz n)).
    split; [easy|]. split; [f_equal; ring|f_equal; f_equal; ring].
Qed.

Lemma eval_vector_coef n t : map (fun i => fmul (wt n i) (mfun n i t)) (seq 0 n) = eval_vector n t.
Proof. unfold eval_vector, wt. apply map_ext. intros i. rewrite !prod_except_mfun. ring. Qed.

Lemma mp_check_holds {C : ECodec A} {H : Hasher} k n p tr crs pw zs qs r t w xs :
  n = (2 ^ k)%nat -> domain_fits n -> crs_n crs = n -> len (crs_G crs) = n -> precomputed_weights n = Ok pw ->
  points_ok n zs qs -> outside_domain n t -> len (ipa_L (mp_ipa p)) = k -> len (ipa_R (mp_ipa p)) = k ->
  Forall (fun x => x <> fzero) xs ->
  let E := mp_E r t fone qs in let y := mp_y r t fone qs in
  fst (run_ops tr (mp_ops qs (mp_g p) ++ TPoint (lbl "E") E :: ipa_ops (gsub E (mp_g p)) t y (ipa_L (mp_ipa p)) (ipa_R (mp_ipa p))))
    = r :: t :: w :: xs ->
  exists v, mp_check p crs pw qs tr = Ok v /\
  (v = true <-> ipa_holds xs (ipa_L (mp_ipa p)) (ipa_R (mp_ipa p)) (ipa_a (mp_ipa p)) (crs_G crs) (eval_vector n t)
     (smul w (crs_Q crs)) (gadd (gsub E (mp_g p)) (smul y (smul w (crs_Q crs))))).
Proof.
  intros En Hfit Hcn HG Hpw P O HL HR Nz E y Run.
  assert (Hn : (0 < n)%nat) by (rewrite En; clear; induction k; cbn; lia).
  rewrite weights_ok in Hpw by assumption. injection Hpw as <-.
  rewrite run_ops_app, mp_ops_run in Run. cbn [run_ops] in Run.
  destruct (run_ops (append_point (snd (mp_t tr qs (mp_g p))) (lbl "E") E)
    (ipa_ops (gsub E (mp_g p)) t y (ipa_L (mp_ipa p)) (ipa_R (mp_ipa p)))) as [ys s] eqn:Ri.
  cbn [fst app] in Run.
  assert (Er : fst (mp_r tr qs) = r) by congruence. assert (Et' : fst (mp_t tr qs (mp_g p)) = t) by congruence.
  assert (Ew : ys = w :: xs) by congruence. clear Run.
  unfold mp_check.
  change (challenge_scalar (fold_left (fun tr q => absorb_query tr (vq_comm q) (vq_point q) (vq_result q)) qs (domain_sep tr (lbl "multiproof"))) (lbl "r"))
    with (mp_r tr qs).
  rewrite (surjective_pairing (mp_r tr qs)).
  change (challenge_scalar (append_point (snd (mp_r tr qs)) (lbl "D") (mp_g p)) (lbl "t")) with (mp_t tr qs (mp_g p)).
  rewrite (surjective_pairing (mp_t tr qs (mp_g p))). rewrite Er, Et'.
  assert (Hp : map (fun '(ri, d) => fmul d ri) (combine (powers_of r (len qs)) (batch_inversion (map (fun q => fsub t (vq_point q)) qs)))
     = map (fun '(ri, d) => fmul d ri) (combine (powers_from fone r (len qs)) (batch_inversion (map (fun q => fsub t (vq_point q)) qs)))).
  { destruct qs; [easy|]. now rewrite powers_of_len by (cbn; lia). }
  rewrite Hp. destruct (helper_ok n t r O zs qs fone P) as (H1 & H2 & H3).
  rewrite msm_ok by (rewrite (map_length vq_comm); exact H1). rewrite H2, H3. cbn [rbind]. rewrite Hcn, coefficients_ok by assumption. cbn [rbind].
  rewrite eval_vector_coef. fold E y.
  destruct (verify_holds k (mp_ipa p) (append_point (snd (mp_t tr qs (mp_g p))) (lbl "E") E) crs (eval_vector n t) (gsub E (mp_g p)) t y w xs
    ltac:(congruence) ltac:(congruence) ltac:(unfold eval_vector; rewrite map_length, seq_length; congruence) HL HR ltac:(rewrite Ri; cbn [fst]; congruence) Nz)
    as (v & _ & _ & V & Iff).
  exists v. easy.
Qed.

Lemma mp_run_holds {C : ECodec A} k n p tr crs pw zs qs r t w T xs :
  n = (2 ^ k)%nat -> domain_fits n -> crs_n crs = n -> len (crs_G crs) = n -> precomputed_weights n = Ok pw ->
  points_ok n zs qs -> outside_domain n t -> full_tree k T -> In xs (paths T) ->
  mp_run p tr crs pw qs r t w xs ->
  ipa_holds xs (answers (pr_L p r t w) xs) (answers (pr_R p r t w) xs) (pr_a p r t w xs) (crs_G crs) (eval_vector n t)
     (smul w (crs_Q crs)) (gadd (gsub (mp_E r t fone qs) (pr_D p r)) (smul (mp_y r t fone qs) (smul w (crs_Q crs)))).
Proof.
  intros En Hfit Hcn HG Hpw P O Full I (H & Run & V). destruct (tree_path T k xs Full I) as [Lx Nz].
  destruct (mp_check_holds k n (mkMP (mkIPA (answers (pr_L p r t w) xs) (answers (pr_R p r t w) xs) (pr_a p r t w xs)) (pr_D p r))
    tr crs pw zs qs r t w xs En Hfit Hcn HG Hpw P O
    ltac:(cbn [ipa_L mp_ipa]; now rewrite answers_len) ltac:(cbn [ipa_R mp_ipa]; now rewrite answers_len) Nz Run) as (v & V' & Iff).
  apply Iff. rewrite V in V'. congruence.
Qed.

(** ** All values of [r] *)
Fixpoint terms_of (r c : F) (zs : list nat) (qs : list VerifierQuery) : list Term :=
  match zs, qs with
  | z :: zs', q :: qs' => mkTerm z c (vq_comm q) (vq_result q) :: terms_of r (fmul r c) zs' qs'
  | _, _ => []
  end.
Lemma terms_E n r t zs qs : points_ok n zs qs -> forall c, mp_E r t c qs = Et (terms_of r c zs qs) t /\ mp_y r t c qs = yt (terms_of r c zs qs) t.
Proof.
  intros P. induction P as [|z q zs qs [Lz Eq] P IH]; intros c; [easy|].
  cbn [terms_of mp_E mp_y]. destruct (IH (fmul r c)) as [-> ->]. unfold Et, yt. cbn [glsum lsum q_c q_z q_C q_y]. now rewrite Eq.
Qed.
Lemma terms_z n r zs qs : points_ok n zs qs -> forall c q, In q (terms_of r c zs qs) -> (q_z q < n)%nat.
Proof.
  intros P. induction P as [|z q' zs qs [Lz Eq] P IH]; intros c q I; [destruct I|]. cbn [terms_of] in I.
  destruct I as [<-|I]; [easy|]. now apply (IH (fmul r c)).
Qed.
Definition nthC (qs : list VerifierQuery) i := nth i (map vq_comm qs) gzero.
Definition nthy (qs : list VerifierQuery) i := nth i (map vq_result qs) fzero.
Lemma terms_map r zs : forall qs c, len zs = len qs ->
  terms_of r c zs qs = map (fun i => mkTerm (nth i zs 0%nat) (fmul c (fpow r i)) (nthC qs i) (nthy qs i)) (seq 0 (len qs)).
Proof.
  induction zs as [|z zs IH]; intros [|q qs] c E; cbn [List.length] in E; try discriminate; [easy|].
  cbn [terms_of List.length seq map]. f_equal; [unfold nthC, nthy; cbn; f_equal; ring|].
  rewrite IH by lia. rewrite <- seq_shift, map_map. apply map_ext. intros i. unfold nthC, nthy. cbn [map nth fpow]. f_equal. ring.
Qed.

Lemma all_openings_ok {X} (l : list (Extracted X)) :
  match all_openings l with Opening xs => l = map Opening xs | Relation v => In (Relation v) l end.
Proof.
  induction l as [|[x|v] l IH]; cbn; [easy| |now left].
  destruct (all_openings l) as [xs|v]; [now rewrite IH|now right].
Qed.

Lemma multi_extraction {C : ECodec A} k zs qs ch p tr crs pw :
  let n := (2 ^ k)%nat in
  domain_fits n -> crs_n crs = n -> len (crs_G crs) = n -> precomputed_weights n = Ok pw ->
  points_ok n zs qs -> enough_challenges k (len qs) ch -> all_accepted p tr crs pw qs ch ->
  match extract_multi n zs qs ch (pr_a p) with
  | Opening vs => len vs = len qs /\ forall i q, nth_error qs i = Some q ->
      exists v, nth_error vs i = Some v /\ len v = n /\ vq_comm q = commit n v (crs_G crs) /\
                nth (nth i zs 0%nat) v fzero = vq_result q
  | Relation v => relation (crs_G crs ++ [crs_Q crs]) v
  end.
Proof.
  intros n Hfit Hcn HG Hpw P (Ndr & Lr & Hch) Acc.
  assert (Hn : (0 < n)%nat) by (unfold n; clear; induction k; cbn; lia).
  assert (Lzs : len zs = len qs) by (clear - P; induction P; cbn; congruence).
  unfold extract_multi.
  match goal with |- context [map ?gr (ch_r ch)] => set (groups := gr) end.
  assert (Gr : forall r, In r (ch_r ch) -> match groups r with
     | Opening (r', al) => r' = r /\ forall z, (z < n)%nat -> len (nth z al []) = n /\
         gdot (nth z al []) (crs_G crs) = Az (terms_of r fone zs qs) z /\ nth z (nth z al []) fzero = Yz (terms_of r fone zs qs) z
     | Relation v => relation (crs_G crs ++ [crs_Q crs]) v end).
  { intros r Ir. destruct (Hch r Ir) as (Ndt & Lt & Ht). unfold groups. clear groups.
    match goal with |- context [map ?po (ch_t ch r)] => set (point := po) end.
    assert (Po : forall t, In t (ch_t ch r) -> match point t with
       | Opening (t', f) => t' = t /\ len f = n /\ gsub (Et (terms_of r fone zs qs) t) (pr_D p r) = gdot f (crs_G crs) /\
           inner_product f (eval_vector n t) = yt (terms_of r fone zs qs) t
       | Relation v => relation (crs_G crs ++ [crs_Q crs]) v end).
    { intros t It. destruct (Ht t It) as (O & W1 & W2 & W & F1 & F2). unfold point. clear point.
      destruct (terms_E n r t zs qs P fone) as [<- <-].
      set (w1 := ch_w1 ch r t) in *. set (w2 := ch_w2 ch r t) in *.
      pose proof (extract_ipa_ok k w1 (ch_x ch r t w1) (pr_a p r t w1) (pr_L p r t w1) (pr_R p r t w1)
         w2 (ch_x ch r t w2) (pr_a p r t w2) (pr_L p r t w2) (pr_R p r t w2) (crs_G crs) (eval_vector n t) (crs_Q crs)
         (gsub (mp_E r t fone qs) (pr_D p r)) (mp_y r t fone qs) W1 W2 W F1 F2 HG
         ltac:(unfold eval_vector; now rewrite map_length, seq_length)
         ltac:(intros xs I; apply (mp_run_holds k n p tr crs pw zs qs r t w1 (ch_x ch r t w1) xs); auto)
         ltac:(intros xs I; apply (mp_run_holds k n p tr crs pw zs qs r t w2 (ch_x ch r t w2) xs); auto)) as X.
      destruct (extract_ipa w1 _ _ w2 _ _ _ _) as [f|v]; [|exact X].
      destruct X as (Lf & Ec & Ed). fold n in Lf, Ec, Ed. split; [easy|]. split; [easy|].
      rewrite commit_gdot in Ec by lia. rewrite dot_ip in Ed by (unfold eval_vector; rewrite ?map_length, ?seq_length; lia). easy. }
    pose proof (all_openings_ok (map point (ch_t ch r))) as AO.
    destruct (all_openings (map point (ch_t ch r))) as [fs|v].
    2:{ apply in_map_iff in AO. destruct AO as (t & E & It). specialize (Po t It). now rewrite E in Po. }
    assert (Fs : map fst fs = ch_t ch r /\ forall t f, In (t, f) fs -> In t (ch_t ch r) /\ point t = Opening (t, f)).
    { clear - AO Po. revert fs AO Po. generalize (ch_t ch r). intros l. induction l as [|t l IH]; intros [|[t' f] fs] AO Po; cbn in AO; try discriminate; [easy|].
      injection AO as E AO. pose proof (Po t (or_introl eq_refl)) as Pt. rewrite E in Pt. destruct Pt as [-> _].
      destruct (IH fs AO (fun x Hx => Po x (or_intror Hx))) as [I1 I2]. split; [cbn; now rewrite I1|].
      intros t2 f2 [Eq|I]; [injection Eq as <- <-; split; [now left|easy]|]. destruct (I2 t2 f2 I). split; [now right|easy]. }
    destruct Fs as [Fs1 Fs2].
    assert (Pf : forall t f, In (t, f) fs -> outside_domain n t /\ len f = n /\
       gsub (Et (terms_of r fone zs qs) t) (pr_D p r) = gdot f (crs_G crs) /\ inner_product f (eval_vector n t) = yt (terms_of r fone zs qs) t).
    { intros t f I. destruct (Fs2 t f I) as [It Ep]. specialize (Po t It). rewrite Ep in Po. destruct Po as (_ & Po). split; [apply (Ht t It)|exact Po]. }
    pose proof (groups_ok' n (crs_G crs) (crs_Q crs) (pr_D p r) (terms_of r fone zs qs) fs Hfit Hn HG (terms_z n r zs qs P fone)
      ltac:(now rewrite Fs1) ltac:(rewrite <- (map_length fst fs), Fs1; exact Lt)
      (fun t f I => proj1 (Pf t f I)) (fun t f I => proj1 (proj2 (Pf t f I))) (fun t f I => proj1 (proj2 (proj2 (Pf t f I))))
      (fun t f I => proj2 (proj2 (proj2 (Pf t f I))))) as X.
    destruct (extract_groups n fs) as [al|v]; [|exact X]. split; [easy|exact X]. }
  pose proof (all_openings_ok (map groups (ch_r ch))) as AO.
  destruct (all_openings (map groups (ch_r ch))) as [l|v].
  2:{ apply in_map_iff in AO. destruct AO as (r & E & Ir). specialize (Gr r Ir). now rewrite E in Gr. }
  assert (Fl : map fst l = ch_r ch /\ forall r al, In (r, al) l -> In r (ch_r ch) /\ groups r = Opening (r, al)).
  { clear - AO Gr. revert l AO Gr. generalize (ch_r ch). intros rs. induction rs as [|r rs IH]; intros [|[r' f] l] AO Gr; cbn in AO; try discriminate; [easy|].
    injection AO as E AO. pose proof (Gr r (or_introl eq_refl)) as Pr. rewrite E in Pr. destruct Pr as [-> _].
    destruct (IH l AO (fun x Hx => Gr x (or_intror Hx))) as [I1 I2]. split; [cbn; now rewrite I1|].
    intros t2 f2 [Eq|I]; [injection Eq as <- <-; split; [now left|easy]|]. destruct (I2 t2 f2 I). split; [now right|easy]. }
  destruct Fl as [Fl1 Fl2].
  assert (Pl : forall ra, In ra l -> forall z, (z < n)%nat -> len (nth z (snd ra) []) = n /\
     gdot (nth z (snd ra) []) (crs_G crs) = Az (terms_of (fst ra) fone zs qs) z /\ nth z (nth z (snd ra) []) fzero = Yz (terms_of (fst ra) fone zs qs) z).
  { intros [r al] I. destruct (Fl2 r al I) as [Ir Eg]. specialize (Gr r Ir). rewrite Eg in Gr. apply Gr. }
  split; [rewrite map_length, combine_length, seq_length, Lzs; lia|].
  intros i q Eq. assert (Li : (i < len qs)%nat) by (apply nth_error_Some; congruence).
  set (z := nth i zs 0%nat).
  assert (Lz : (z < n)%nat).
  { unfold z. clear - P Eq. revert i Eq. induction P as [|z q' zs qs [Lz _] P IH]; intros [|i] Eq; cbn in *; try discriminate; [easy|eauto]. }
  exists (lincomb n (map (fun '(r, al) => (nth i (basis (ch_r ch) r) fzero, nth z al [])) l)).
  split.
  { rewrite nth_error_map. 
    assert (Ec : nth_error (combine (seq 0 (len zs)) zs) i = Some (i, z)).
    { assert (Ec : forall zs s j, (j < len zs)%nat -> nth_error (combine (seq s (len zs)) zs) j = Some (s + j, nth j zs 0)%nat).
      { clear. induction zs as [|z zs IH]; intros s j L; cbn in L; [lia|]. destruct j; cbn; [now rewrite Nat.add_0_r|]. rewrite IH by lia. do 2 f_equal; lia. }
      rewrite Ec by lia. reflexivity. }
    rewrite Ec. reflexivity. }
  split; [apply lincomb_len|].
  assert (Lc : forall cv, In cv (map (fun '(r, al) => (nth i (basis (ch_r ch) r) fzero, nth z al [])) l) -> len (snd cv) = n).
  { intros cv I. apply in_map_iff in I. destruct I as ([r al] & <- & I). cbn. now apply (Pl (r, al) I). }
  assert (Vd : forall j, In j (seq 0 (len qs)) -> lsum (fun ra => fmul (nth i (basis (ch_r ch) (fst ra)) fzero) (fmul fone (fpow (fst ra) j))) l
     = if (i =? j)%nat then fone else fzero).
  { intros j Ij. apply in_seq in Ij. rewrite <- (vandermonde (ch_r ch) i j) by (assumption || lia). rewrite <- Fl1, lsum_map.
    apply lsum_ext. intros ra _. rewrite Fl1. ring. }
  assert (Iq : In i (seq 0 (len qs))) by (apply in_seq; lia).
  split.
  - rewrite commit_gdot by (rewrite ?lincomb_len; lia). rewrite gdot_lincomb by assumption. rewrite glsum_map.
    transitivity (glsum (fun ra : F * list (list F) => glsum (fun j => if (nth j zs 0 =? z)%nat then
        smul (fmul (nth i (basis (ch_r ch) (fst ra)) fzero) (fmul fone (fpow (fst ra) j))) (nthC qs j) else gzero) (seq 0 (len qs))) l).
    2:{ apply glsum_ext. intros [r al] I. pose proof (proj1 (proj2 (Pl (r, al) I z Lz))) as Pg. cbn [fst snd] in Pg |- *. rewrite Pg.
        unfold Az. rewrite terms_map by assumption. rewrite glsum_map, <- glsum_scale. apply glsum_ext. intros j _.
        cbn [q_z q_c q_C]. destruct (_ =? z)%nat; module. }
    rewrite glsum_swap.
    rewrite (glsum_ext _ (fun j => if (i =? j)%nat then nthC qs j else gzero)).
    + rewrite (glsum_pick (nthC qs)) by (apply seq_NoDup || assumption). unfold nthC.
      rewrite (nth_indep _ gzero (vq_comm q)) by (now rewrite map_length). rewrite map_nth. now rewrite (nth_error_nth _ _ q Eq).
    + intros j Ij. destruct (nth j zs 0 =? z)%nat eqn:Ez.
      * rewrite <- (smul_lsum (fun ra => fmul (nth i (basis (ch_r ch) (fst ra)) fzero) (fmul fone (fpow (fst ra) j)))), Vd by assumption.
        destruct (i =? j)%nat; module.
      * rewrite glsum_zero by easy. destruct (Nat.eqb_spec i j) as [<-|]; [|easy]. unfold z in Ez. now rewrite Nat.eqb_refl in Ez.
  - rewrite lincomb_nth by assumption. rewrite lsum_map.
    transitivity (lsum (fun ra : F * list (list F) => lsum (fun j => if (nth j zs 0 =? z)%nat then
        fmul (fmul (nth i (basis (ch_r ch) (fst ra)) fzero) (fmul fone (fpow (fst ra) j))) (nthy qs j) else fzero) (seq 0 (len qs))) l).
    { apply lsum_ext. intros [r al] I. pose proof (proj2 (proj2 (Pl (r, al) I z Lz))) as Pg. cbn [fst snd] in Pg |- *. rewrite Pg.
      unfold Yz. rewrite terms_map by assumption. rewrite lsum_map, <- lsum_scale. apply lsum_ext. intros j _.
      cbn [q_z q_c q_y]. destruct (_ =? z)%nat; ring. }
    rewrite lsum_swap.
    rewrite (lsum_ext _ (fun j => if (i =? j)%nat then nthy qs j else fzero)).
    + rewrite (lsum_pick (nthy qs)) by (apply seq_NoDup || assumption). unfold nthy.
      rewrite (nth_indep _ fzero (vq_result q)) by (now rewrite map_length). rewrite map_nth. now rewrite (nth_error_nth _ _ q Eq).
    + intros j Ij. destruct (nth j zs 0 =? z)%nat eqn:Ez.
      * rewrite (lsum_ext _ (fun ra => fmul (nthy qs j) (fmul (nth i (basis (ch_r ch) (fst ra)) fzero) (fmul fone (fpow (fst ra) j)))))
          by (intros; ring). rewrite lsum_scale, Vd by assumption.
        destruct (i =? j)%nat; ring.
      * rewrite lsum_zero by easy. destruct (Nat.eqb_spec i j) as [<-|]; [|easy]. unfold z in Ez. now rewrite Nat.eqb_refl in Ez.
Qed.
End SoundMulti.
