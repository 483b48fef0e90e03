(** The inner-product argument: completeness, and agreement of the verifiers. *)
From Coq Require Import String.
From Verif Require Import Base BaseFacts Alg AlgFacts WireModel IpaModel.
Local Open Scope list_scope.

Section IpaProofs.
Context {A : Alg} {AL : AlgLaws A} {C : ECodec A} {H : Hasher}.
Add Ring Fring : F_ring.
Add Ring dnring : dn_ring.

Notation len := List.length.

Lemma gdot_app s1 p1 s2 p2 : len s1 = len p1 ->
  gdot (s1 ++ s2) (p1 ++ p2) = gadd (gdot s1 p1) (gdot s2 p2).
Proof.
  revert p1. induction s1 as [|x s IH]; intros [|p p1] E; cbn in E; try discriminate; cbn [gdot app].
  - now rewrite gadd_0_l.
  - rewrite IH by lia. now rewrite gadd_assoc.
Qed.

Lemma ip_app a1 b1 a2 b2 : len a1 = len b1 ->
  inner_product (a1 ++ a2) (b1 ++ b2) = fadd (inner_product a1 b1) (inner_product a2 b2).
Proof.
  revert b1. induction a1 as [|x s IH]; intros [|p p1] E; cbn in E; try discriminate; cbn [inner_product app].
  - ring.
  - rewrite IH by lia. ring.
Qed.

Lemma ip_comm a b : inner_product a b = inner_product b a.
Proof. revert b; induction a as [|x a IH]; intros [|y b]; cbn; try easy. rewrite IH. ring. Qed.

Lemma gdot_scale c s p : gdot (map (fmul c) s) p = smul c (gdot s p).
Proof.
  revert p; induction s as [|x s IH]; intros [|q p]; cbn [gdot map]; try (now rewrite smul_0_r).
  rewrite IH. module.
Qed.
Lemma ip_scale c a b : inner_product (map (fmul c) a) b = fmul c (inner_product a b).
Proof.
  revert b; induction a as [|x a IH]; intros [|y b]; cbn [inner_product map]; try ring.
  rewrite IH. ring.
Qed.

(** The pointwise [l + c r]. *)
Fixpoint vaxpy (c : F) (l r : list F) : list F :=
  match l, r with x :: l', y :: r' => fadd x (fmul c y) :: vaxpy c l' r' | _, _ => [] end.
Fixpoint gvaxpy (c : F) (l r : list G) : list G :=
  match l, r with x :: l', y :: r' => gadd x (smul c y) :: gvaxpy c l' r' | _, _ => [] end.

Lemma axpy_ok n c l r : len l = n -> len r = n -> axpy n c l r = Ok (vaxpy c l r).
Proof.
  revert l r; induction n as [|n IH]; intros [|x l] [|y r] E1 E2; cbn in *; try discriminate; [easy|].
  rewrite IH by lia. reflexivity.
Qed.
Lemma gaxpy_ok n c l r : len l = n -> len r = n -> gaxpy n c l r = Ok (gvaxpy c l r).
Proof.
  revert l r; induction n as [|n IH]; intros [|x l] [|y r] E1 E2; cbn in *; try discriminate; [easy|].
  rewrite IH by lia. reflexivity.
Qed.
Lemma vaxpy_len c l r : len l = len r -> len (vaxpy c l r) = len l.
Proof. revert r; induction l as [|x l IH]; intros [|y r] E; cbn in *; try discriminate; [easy|]. rewrite IH; lia. Qed.
Lemma gvaxpy_len c l r : len l = len r -> len (gvaxpy c l r) = len l.
Proof. revert r; induction l as [|x l IH]; intros [|y r] E; cbn in *; try discriminate; [easy|]. rewrite IH; lia. Qed.

Lemma gdot_vaxpy c l r p : len l = len r ->
  gdot (vaxpy c l r) p = gadd (gdot l p) (smul c (gdot r p)).
Proof.
  revert r p; induction l as [|x l IH]; intros [|y r] [|q p] E; cbn in *; try discriminate;
    try (now rewrite smul_0_r, gadd_0_l).
  rewrite IH by lia. module.
Qed.
Lemma gdot_gvaxpy c s l r : len l = len r ->
  gdot s (gvaxpy c l r) = gadd (gdot s l) (smul c (gdot s r)).
Proof.
  revert l r; induction s as [|x s IH]; intros [|y l] [|z r] E; cbn in *; try discriminate;
    try (now rewrite smul_0_r, gadd_0_l).
  rewrite IH by lia. module.
Qed.
Lemma ip_vaxpy c l r p : len l = len r ->
  inner_product (vaxpy c l r) p = fadd (inner_product l p) (fmul c (inner_product r p)).
Proof.
  revert r p; induction l as [|x l IH]; intros [|y r] [|q p] E; cbn in *; try discriminate; try ring.
  rewrite IH by lia. ring.
Qed.

Lemma halve_pow {X} k (l : list X) : len l = (2 ^ Datatypes.S k)%nat ->
  exists l1 l2, halve l = (l1, l2) /\ l = l1 ++ l2 /\ len l1 = (2 ^ k)%nat /\ len l2 = (2 ^ k)%nat.
Proof.
  intros E. unfold halve. rewrite E.
  assert (E2 : (2 ^ Datatypes.S k / 2 = 2 ^ k)%nat).
  { cbn [Nat.pow]. rewrite Nat.mul_comm. apply Nat.div_mul. lia. }
  rewrite E2. exists (firstn (2 ^ k) l), (skipn (2 ^ k) l).
  cbn [Nat.pow] in E.
  repeat split.
  - symmetry; apply firstn_skipn.
  - rewrite firstn_length. lia.
  - rewrite skipn_length. lia.
Qed.

Lemma msm_ok s p : len s = len p -> msm s p = Ok (gdot s p).
Proof. intros E. unfold msm. rewrite E, Nat.eqb_refl. reflexivity. Qed.

Lemma inverse_some x y : inverse x = Some y -> x <> fzero /\ y = finv x /\ fmul x y = fone.
Proof.
  unfold inverse. destruct (feqb x fzero) eqn:E; [discriminate|]. intros [= <-].
  apply feqb_false in E. repeat split; [exact E|].
  pose proof (Finv_l F_field x E) as I. rewrite <- I. ring.
Qed.

Lemma inverse_ok x : x <> fzero -> inverse x = Some (finv x).
Proof. intros N. unfold inverse. apply feqb_false in N. now rewrite N. Qed.

(** The commitment of a round. *)
Definition ipa_P (a b : list F) (Gs : list G) (Q : G) : G :=
  gadd (gdot a Gs) (smul (inner_product a b) Q).

Lemma round_identity a1 a2 b1 b2 G1 G2 Q x xi n :
  len a1 = n -> len a2 = n -> len b1 = n -> len b2 = n -> len G1 = n -> len G2 = n ->
  fmul x xi = fone ->
  ipa_P (vaxpy x a1 a2) (vaxpy xi b1 b2) (gvaxpy xi G1 G2) Q =
  gadd (gadd (ipa_P (a1 ++ a2) (b1 ++ b2) (G1 ++ G2) Q)
     (smul x (gdot (a2 ++ [inner_product a2 b1]) (G1 ++ [Q]))))
     (smul xi (gdot (a1 ++ [inner_product a1 b2]) (G2 ++ [Q]))).
Proof.
  intros A1 A2 B1 B2 E1 E2 I. unfold ipa_P.
  rewrite !gdot_app by congruence. rewrite ip_app by congruence.
  rewrite gdot_vaxpy by congruence. rewrite !gdot_gvaxpy by congruence.
  rewrite ip_vaxpy by congruence.
  rewrite (ip_comm a1 (vaxpy xi b1 b2)), (ip_comm a2 (vaxpy xi b1 b2)).
  rewrite !ip_vaxpy by congruence.
  rewrite (ip_comm b1 a1), (ip_comm b2 a1), (ip_comm b1 a2), (ip_comm b2 a2).
  cbn [gdot].
  set (g1 := gdot a1 G1). set (g2 := gdot a1 G2). set (g3 := gdot a2 G1). set (g4 := gdot a2 G2).
  set (p1 := inner_product a1 b1). set (p2 := inner_product a1 b2). set (p3 := inner_product a2 b1). set (p4 := inner_product a2 b2).
  transitivity (gadd (gadd (gadd g1 (smul xi g2)) (gadd (smul x g3) (smul (fmul x xi) g4)))
    (smul (fadd (fadd p1 (fmul xi p2)) (fadd (fmul x p3) (fmul (fmul x xi) p4))) Q)).
  { module. }
  rewrite I. module.
Qed.

Lemma halve_app {X} (l1 l2 : list X) : len l1 = len l2 -> halve (l1 ++ l2) = (l1, l2).
Proof.
  intros E. unfold halve. rewrite app_length, <- E.
  replace ((len l1 + len l1) / 2)%nat with (len l1).
  2:{ replace (len l1 + len l1)%nat with (len l1 * 2)%nat by lia. now rewrite Nat.div_mul by lia. }
  rewrite firstn_app, Nat.sub_diag, firstn_all, firstn_O, app_nil_r.
  rewrite skipn_app, Nat.sub_diag, skipn_all. reflexivity.
Qed.

Lemma create_rounds_verify k : forall tr a b Gs Q Ls Rs a0 tr',
  len a = (2 ^ k)%nat -> len b = (2 ^ k)%nat -> len Gs = (2 ^ k)%nat ->
  create_rounds k tr a b Gs Q = Ok (Ls, Rs, a0, tr') ->
  exists xs G0 b0,
    generate_challenges tr Ls Rs = (xs, tr') /\
    len Ls = k /\ len Rs = k /\ len xs = k /\
    fold_comm Ls Rs xs (batch_inversion xs) (ipa_P a b Gs Q) = Ok (gadd (smul a0 G0) (smul (fmul a0 b0) Q)) /\
    fold_bases (batch_inversion xs) Gs b = Ok ([G0], [b0]).
Proof.
  induction k as [|k IH]; intros tr a b Gs Q Ls Rs a0 tr' Ea Eb EG CR.
  - destruct a as [|x [|? ?]]; try (cbn in Ea; lia).
    destruct b as [|y [|? ?]]; try (cbn in Eb; lia).
    destruct Gs as [|g [|? ?]]; try (cbn in EG; lia).
    cbn in CR. injection CR as <- <- <- <-.
    exists [], g, y. cbn. repeat split.
    unfold ipa_P. cbn [gdot inner_product]. f_equal. module.
  - destruct (halve_pow k a Ea) as (a1 & a2 & Ha & -> & La1 & La2).
    destruct (halve_pow k b Eb) as (b1 & b2 & Hb & -> & Lb1 & Lb2).
    destruct (halve_pow k Gs EG) as (G1 & G2 & HG & -> & LG1 & LG2).
    cbn [create_rounds] in CR. rewrite Ha, Hb, HG in CR.
    rewrite (msm_ok (a2 ++ _)) in CR by (rewrite !app_length; cbn; lia).
    rewrite (msm_ok (a1 ++ _)) in CR by (rewrite !app_length; cbn; lia).
    cbn [rbind] in CR.
    set (Lk := gdot (a2 ++ [inner_product a2 b1]) (G1 ++ [Q])) in *.
    set (Rk := gdot (a1 ++ [inner_product a1 b2]) (G2 ++ [Q])) in *.
    destruct (challenge_scalar (append_point (append_point tr (lbl "L") Lk) (lbl "R") Rk) (lbl "x")) as [x tr1] eqn:ECh.
    destruct (inverse x) as [xi|] eqn:EI; [|discriminate].
    cbn [unwrap rbind] in CR.
    rewrite axpy_ok in CR by lia. cbn [rbind] in CR.
    rewrite axpy_ok in CR by lia. cbn [rbind] in CR.
    rewrite gaxpy_ok in CR by lia. cbn [rbind] in CR.
    destruct (create_rounds k tr1 _ _ _ _) as [[[[Ls1 Rs1] a01] tr2]|] eqn:ER; [|discriminate].
    cbn [rbind] in CR. injection CR as <- <- <- <-.
    apply inverse_some in EI. destruct EI as (Nx & -> & Ix).
    apply IH in ER; try (rewrite ?vaxpy_len, ?gvaxpy_len; lia).
    destruct ER as (xs & G0 & b0 & Hch & HL & HR & Hx & Hfc & Hfb).
    exists (x :: xs), G0, b0.
    cbn [generate_challenges]. rewrite ECh, Hch.
    split; [reflexivity|]. cbn [List.length]. repeat (split; [lia|]).
    cbn [batch_inversion map]. fold (batch_inversion xs).
    pose proof Nx as Nx'. apply feqb_false in Nx'. rewrite Nx'.
    split.
    + cbn [fold_comm]. rewrite <- Hfc. f_equal.
      symmetry. apply round_identity with (n := (2 ^ k)%nat); assumption.
    + cbn [fold_bases]. rewrite HG, Hb.
      rewrite gaxpy_ok by lia. cbn [rbind]. rewrite axpy_ok by lia. cbn [rbind]. exact Hfb.
Qed.

(** Creating only panics when a challenge hashes to zero. *)
Lemma create_rounds_total k : forall tr a b Gs Q,
  len a = (2 ^ k)%nat -> len b = (2 ^ k)%nat -> len Gs = (2 ^ k)%nat ->
  create_rounds k tr a b Gs Q = Panic -> exists st, of_Z (le_Z (sha256 st)) = fzero.
Proof.
  induction k as [|k IH]; intros tr a b Gs Q Ea Eb EG CR.
  - destruct a as [|x [|? ?]]; try (cbn in Ea; lia). discriminate.
  - destruct (halve_pow k a Ea) as (a1 & a2 & Ha & -> & La1 & La2).
    destruct (halve_pow k b Eb) as (b1 & b2 & Hb & -> & Lb1 & Lb2).
    destruct (halve_pow k Gs EG) as (G1 & G2 & HG & -> & LG1 & LG2).
    cbn [create_rounds] in CR. rewrite Ha, Hb, HG in CR.
    rewrite (msm_ok (a2 ++ _)) in CR by (rewrite !app_length; cbn; lia).
    rewrite (msm_ok (a1 ++ _)) in CR by (rewrite !app_length; cbn; lia).
    cbn [rbind challenge_scalar] in CR.
    match type of CR with context [inverse ?x] => destruct (inverse x) as [xi|] eqn:EI end.
    + cbn [unwrap rbind] in CR.
      rewrite axpy_ok in CR by lia. cbn [rbind] in CR.
      rewrite axpy_ok in CR by lia. cbn [rbind] in CR.
      rewrite gaxpy_ok in CR by lia. cbn [rbind] in CR.
      match type of CR with rbind ?m _ = _ => destruct m as [[[[? ?] ?] ?]|] eqn:ER end; [discriminate|].
      eapply IH; [| | |exact ER]; rewrite ?vaxpy_len, ?gvaxpy_len; lia.
    + eexists. unfold inverse in EI. destruct (feqb _ _) eqn:E0 in EI; [|discriminate].
      apply feqb_true in E0. exact E0.
Qed.

Lemma is_power_of_two_pow k : is_power_of_two (2 ^ k) = true.
Proof.
  unfold is_power_of_two. rewrite Nat.log2_pow2 by lia. rewrite Nat.eqb_refl, Bool.andb_true_r.
  apply Nat.ltb_lt. pose proof (Nat.pow_nonzero 2 k). lia.
Qed.

Lemma ipa_create_panic tr crs a c b z k :
  len a = (2 ^ k)%nat -> len b = (2 ^ k)%nat -> len (crs_G crs) = (2 ^ k)%nat ->
  ipa_create tr crs a c b z = Panic -> exists st, of_Z (le_Z (sha256 st)) = fzero.
Proof.
  intros Ea Eb EG. unfold ipa_create. rewrite Ea, Eb, EG, Nat.eqb_refl, is_power_of_two_pow.
  cbn [assertb rbind challenge_scalar]. unfold log2_up. rewrite Nat.log2_up_pow2 by lia.
  match goal with |- rbind ?m _ = _ -> _ => destruct m as [[[[? ?] ?] ?]|] eqn:ER end; [discriminate|].
  intros _. eapply create_rounds_total; [| | |exact ER]; assumption.
Qed.

Lemma ipa_complete tr crs a b z k p tr' :
  crs_n crs = (2 ^ k)%nat -> len (crs_G crs) = (2 ^ k)%nat ->
  len a = (2 ^ k)%nat -> len b = (2 ^ k)%nat ->
  ipa_create tr crs a (gdot a (crs_G crs)) b z = Ok (p, tr') ->
  len (ipa_L p) = k /\ len (ipa_R p) = k /\
  ipa_verify p tr crs b (gdot a (crs_G crs)) z (inner_product a b) = Ok true.
Proof.
  intros En EG Ea Eb. unfold ipa_create. rewrite Ea, Eb, EG, Nat.eqb_refl, is_power_of_two_pow.
  cbn [assertb rbind]. unfold log2_up. rewrite Nat.log2_up_pow2 by lia.
  destruct (challenge_scalar _ (lbl "w")) as [w tr1] eqn:EC.
  destruct (create_rounds _ _ _ _ _ _) as [[[[Ls Rs] a0] tr2]|] eqn:ER; [|discriminate].
  cbn [rbind]. intros [= <- <-]. cbn [ipa_L ipa_R].
  apply create_rounds_verify in ER; try assumption.
  destruct ER as (xs & G0 & b0 & Hch & HL & HR & Hx & Hfc & Hfb).
  split; [assumption|]. split; [assumption|].
  unfold ipa_verify, ipa_absorb. cbn [ipa_L ipa_R ipa_a]. rewrite HL, En, Nat.eqb_refl. cbn [negb].
  rewrite EC. rewrite Hch. unfold ipa_P in Hfc. rewrite Hfc. cbn [rbind].
  rewrite Hfb. cbn. now rewrite geqb_refl.
Qed.

(* ------------------------------------------------------------------ *)
(** ** The verifiers agree *)

(** The coefficient of each base: the product of the inverse challenges selected by the
    bits of its index. *)
Fixpoint coef (xis : list F) : list F :=
  match xis with [] => [fone] | xi :: t => coef t ++ map (fmul xi) (coef t) end.

Lemma coef_len xis : len (coef xis) = (2 ^ len xis)%nat.
Proof. induction xis as [|xi t IH]; cbn; [easy|]. rewrite app_length, map_length, IH. lia. Qed.

Lemma fold_bases_coef xis : forall Gs b, len Gs = (2 ^ len xis)%nat -> len b = (2 ^ len xis)%nat ->
  fold_bases xis Gs b = Ok ([gdot (coef xis) Gs], [inner_product (coef xis) b]).
Proof.
  induction xis as [|xi t IH]; intros Gs b EG Eb.
  - destruct b as [|y [|? ?]]; try (cbn in Eb; lia).
    destruct Gs as [|g [|? ?]]; try (cbn in EG; lia).
    cbn [fold_bases coef gdot inner_product].
    assert (E1 : gadd (smul fone g) gzero = g) by module. rewrite E1.
    assert (E2 : fadd (fmul fone y) fzero = y) by ring. rewrite E2. reflexivity.
  - cbn [List.length] in *.
    destruct (halve_pow _ b Eb) as (b1 & b2 & Hb & -> & Lb1 & Lb2).
    destruct (halve_pow _ Gs EG) as (G1 & G2 & HG & -> & LG1 & LG2).
    cbn [fold_bases]. rewrite HG, Hb.
    rewrite gaxpy_ok by lia. cbn [rbind]. rewrite axpy_ok by lia. cbn [rbind].
    rewrite IH by (rewrite ?vaxpy_len, ?gvaxpy_len; lia).
    cbn [coef]. rewrite gdot_app by (rewrite coef_len; lia). rewrite ip_app by (rewrite coef_len; lia).
    rewrite gdot_scale, ip_scale. rewrite gdot_gvaxpy by lia.
    rewrite (ip_comm (coef t) (vaxpy _ _ _)), ip_vaxpy by lia.
    rewrite (ip_comm b1), (ip_comm b2). reflexivity.
Qed.

Lemma to_bits_S i k : to_bits i (Datatypes.S k) = Nat.testbit i k :: to_bits i k.
Proof. unfold to_bits. rewrite seq_S, map_app, rev_app_distr. reflexivity. Qed.

Lemma to_bits_low i k j : (j <= k)%nat -> to_bits (2 ^ k + i) j = to_bits i j.
Proof.
  intros L. unfold to_bits. f_equal. apply map_ext_in. intros m Hm. apply in_seq in Hm.
  replace (2 ^ k)%nat with (2 ^ (k - m - 1) * 2 * 2 ^ m)%nat.
  2:{ replace (2 ^ (k - m - 1) * 2)%nat with (2 ^ (Datatypes.S (k - m - 1)))%nat by (cbn; lia).
      rewrite <- Nat.pow_add_r. f_equal. lia. }
  rewrite !Nat.testbit_eqb.
  rewrite Nat.add_comm, Nat.div_add by (apply Nat.pow_nonzero; lia).
  now rewrite Nat.mod_add by lia.
Qed.
Lemma testbit_low i k : (i < 2 ^ k)%nat -> Nat.testbit i k = false.
Proof. intros L. rewrite Nat.testbit_eqb, Nat.div_small by exact L. reflexivity. Qed.
Lemma testbit_high i k : (i < 2 ^ k)%nat -> Nat.testbit (2 ^ k + i) k = true.
Proof.
  intros L. rewrite Nat.testbit_eqb.
  replace (2 ^ k + i)%nat with (i + 1 * 2 ^ k)%nat by lia.
  rewrite Nat.div_add by (apply Nat.pow_nonzero; lia). rewrite Nat.div_small by exact L. reflexivity.
Qed.

Lemma bit_products_app s l1 l2 k xis r1 r2 :
  bit_products s l1 k xis = Ok r1 -> bit_products s l2 k xis = Ok r2 ->
  bit_products s (l1 ++ l2) k xis = Ok (r1 ++ r2).
Proof.
  revert r1; induction l1 as [|i l IH]; intros r1 E1 E2; cbn [bit_products app] in *.
  - injection E1 as <-. exact E2.
  - destruct (bit_product s (to_bits i k) xis) as [x|]; [|discriminate]. cbn [rbind] in *.
    destruct (bit_products s l k xis) as [r|]; [|discriminate]. cbn [rbind] in *. injection E1 as <-.
    rewrite (IH r eq_refl E2). reflexivity.
Qed.

Lemma bit_products_cons k xi t l s : forall s', 
  (forall i, In i l -> (i < 2 ^ k)%nat) ->
  (s' = fmul s xi ->
   bit_products s (map (fun i => (2 ^ k + i)%nat) l) (Datatypes.S k) (xi :: t) = bit_products s' l k t) /\
  bit_products s l (Datatypes.S k) (xi :: t) = bit_products s l k t.
Proof.
  intros s'. induction l as [|i l IH]; intros B; [easy|].
  destruct IH as [IH1 IH2]; [intros; apply B; now right|].
  assert (Bi : (i < 2 ^ k)%nat) by (apply B; now left).
  split; [intros ->|]; cbn [bit_products map]; rewrite to_bits_S; cbn [bit_product].
  - rewrite testbit_high by exact Bi. rewrite to_bits_low by lia. now rewrite IH1.
  - rewrite testbit_low by exact Bi. now rewrite IH2.
Qed.

Lemma seq_double k : seq 0 (2 ^ Datatypes.S k) = seq 0 (2 ^ k) ++ map (fun i => (2 ^ k + i)%nat) (seq 0 (2 ^ k)).
Proof.
  replace (2 ^ Datatypes.S k)%nat with (2 ^ k + 2 ^ k)%nat by (cbn [Nat.pow]; lia).
  rewrite seq_app. f_equal. cbn [Nat.add].
  assert (E : forall m n, seq n m = map (fun i => (n + i)%nat) (seq 0 m)).
  { induction m as [|m IH]; intros n; [reflexivity|].
    rewrite !seq_S, map_app, IH. reflexivity. }
  apply E.
Qed.

Lemma bit_products_coef xis : forall s,
  bit_products s (seq 0 (2 ^ len xis)) (len xis) xis = Ok (map (fmul s) (coef xis)).
Proof.
  induction xis as [|xi t IH]; intros s.
  - cbn. do 2 f_equal. ring.
  - cbn [List.length]. rewrite seq_double. cbn [coef]. rewrite map_app.
    apply bit_products_app.
    + destruct (bit_products_cons (len t) xi t (seq 0 (2 ^ len t)) s s) as [_ E];
        [intros i Hi; apply in_seq in Hi; lia|].
      rewrite E. apply IH.
    + destruct (bit_products_cons (len t) xi t (seq 0 (2 ^ len t)) s (fmul s xi)) as [E _];
        [intros i Hi; apply in_seq in Hi; lia|].
      rewrite E by reflexivity. rewrite IH. f_equal. rewrite map_map. apply map_ext. intros; ring.
Qed.

Lemma generate_challenges_len Ls : forall Rs tr, len Ls = len Rs -> len (fst (generate_challenges tr Ls Rs)) = len Ls.
Proof.
  induction Ls as [|l Ls IH]; intros [|r Rs] tr E; cbn in E; try discriminate; [easy|].
  cbn [generate_challenges]. destruct (challenge_scalar _ _) as [x tr1].
  specialize (IH Rs tr1 ltac:(lia)). destruct (generate_challenges tr1 Ls Rs) as [xs tr2]. cbn in *. lia.
Qed.

Lemma fold_comm_sum Ls : forall Rs xs xis acc, len Rs = len Ls -> len xs = len Ls -> len xis = len Ls ->
  fold_comm Ls Rs xs xis acc = Ok (gadd acc (gadd (gdot xs Ls) (gdot xis Rs))).
Proof.
  induction Ls as [|l Ls IH]; intros [|r Rs] [|x xs] [|xi xis] acc E1 E2 E3; cbn in *; try discriminate.
  - f_equal. module.
  - rewrite IH by lia. f_equal. module.
Qed.

Lemma batch_inversion_len l : len (batch_inversion l) = len l.
Proof. apply map_length. Qed.

Lemma geqb_iff (a b c d : G) : (a = b <-> c = d) -> geqb a b = geqb c d.
Proof.
  intros I. destruct (geqb a b) eqn:E1, (geqb c d) eqn:E2; try reflexivity.
  - apply geqb_true in E1. apply I in E1. apply geqb_true in E1. congruence.
  - apply geqb_true in E2. apply I in E2. apply geqb_true in E2. congruence.
Qed.

Lemma gsub_zero (a b : G) : a = b <-> gsub a b = gzero.
Proof.
  unfold gsub. split.
  - intros ->. apply gadd_opp_r.
  - intros E. rewrite <- (gadd_0_r a), <- (gadd_opp_r b), (gadd_comm b), gadd_assoc, E. apply gadd_0_l.
Qed.

(** The equation all three check. *)
Definition ipa_equation (p : IPAProof) (tr : Transcript) (crs : CRS) (b : list F) (c : G) (z y : F) : bool :=
  let '(w, tr) := ipa_absorb (domain_sep tr (lbl "ipa")) c z y in
  let '(xs, _) := generate_challenges tr (ipa_L p) (ipa_R p) in
  let xis := batch_inversion xs in
  let Q := smul w (crs_Q crs) in
  geqb (gadd (smul (ipa_a p) (gdot (coef xis) (crs_G crs)))
             (smul (fmul (ipa_a p) (inner_product (coef xis) b)) Q))
       (gadd (gadd c (smul y Q)) (gadd (gdot xs (ipa_L p)) (gdot xis (ipa_R p)))).

Section Agree.
Variables (p : IPAProof) (tr : Transcript) (crs : CRS) (b : list F) (c : G) (z y : F) (k : nat).
Hypothesis (HL : len (ipa_L p) = k) (HR : len (ipa_R p) = k)
  (Hn : crs_n crs = (2 ^ k)%nat) (HG : len (crs_G crs) = (2 ^ k)%nat) (Hb : len b = (2 ^ k)%nat).

Lemma verify_eq : ipa_verify p tr crs b c z y = Ok (ipa_equation p tr crs b c z y).
Proof.
  unfold ipa_verify, ipa_equation. rewrite HL, Hn, Nat.eqb_refl. cbn [negb].
  destruct (ipa_absorb _ _ _ _) as [w tr1].
  pose proof (generate_challenges_len (ipa_L p) (ipa_R p) tr1 ltac:(lia)) as Hx.
  destruct (generate_challenges _ _ _) as [xs tr2]. cbn [fst] in Hx.
  rewrite fold_comm_sum by (rewrite ?batch_inversion_len; lia). cbn [rbind].
  rewrite fold_bases_coef by (rewrite batch_inversion_len, Hx, HL; assumption).
  reflexivity.
Qed.

Lemma verify_semi_eq : ipa_verify_semi p tr crs b c z y = Ok (ipa_equation p tr crs b c z y).
Proof.
  unfold ipa_verify_semi, ipa_equation. rewrite HL, Hn, Nat.eqb_refl. cbn [negb].
  destruct (ipa_absorb _ _ _ _) as [w tr1].
  pose proof (generate_challenges_len (ipa_L p) (ipa_R p) tr1 ltac:(lia)) as Hx.
  destruct (generate_challenges _ _ _) as [xs tr2]. cbn [fst] in Hx.
  rewrite msm_ok by (rewrite !app_length, batch_inversion_len; cbn; lia). cbn [rbind].
  replace k with (len (batch_inversion xs)) by (rewrite batch_inversion_len; lia).
  rewrite bit_products_coef. cbn [rbind].
  assert (E1 : map (fmul fone) (coef (batch_inversion xs)) = coef (batch_inversion xs)).
  { rewrite <- (map_id (coef _)) at 2. apply map_ext. intros; ring. }
  rewrite E1.
  rewrite msm_ok by (rewrite coef_len, batch_inversion_len, Hx, HL; congruence). cbn [rbind].
  rewrite (ip_comm b). f_equal. apply geqb_iff.
  rewrite !gdot_app by (rewrite ?batch_inversion_len; lia). cbn [gdot].
  match goal with |- (?a = ?x <-> ?a = ?y) => assert (E : x = y) by module; rewrite E; reflexivity end.
Qed.

Lemma verify_multiexp_eq : ipa_verify_multiexp p tr crs b c z y = Ok (ipa_equation p tr crs b c z y).
Proof.
  unfold ipa_verify_multiexp, ipa_equation. rewrite HL, Hn, Nat.eqb_refl. cbn [negb].
  destruct (ipa_absorb _ _ _ _) as [w tr1].
  pose proof (generate_challenges_len (ipa_L p) (ipa_R p) tr1 ltac:(lia)) as Hx.
  destruct (generate_challenges _ _ _) as [xs tr2]. cbn [fst] in Hx.
  replace k with (len (batch_inversion xs)) by (rewrite batch_inversion_len; lia).
  rewrite bit_products_coef. cbn [rbind].
  rewrite msm_ok.
  2:{ rewrite !app_length, !map_length, batch_inversion_len, coef_len, batch_inversion_len, Hx, HL, HG. cbn. lia. }
  cbn [rbind]. f_equal.
  rewrite !gdot_app by (rewrite ?batch_inversion_len; cbn; lia).
  rewrite (map_map (fmul (fopp fone)) (fun b => fmul (ipa_a p) b)).
  rewrite (map_ext (fun x => fmul (ipa_a p) (fmul (fopp fone) x)) (fmul (fopp (ipa_a p)))) by (intros; ring).
  rewrite gdot_scale. rewrite (ip_comm b), ip_scale. cbn [gdot].
  apply geqb_iff.
  match goal with |- (?r = gzero <-> ?u = ?v) => transitivity (gsub v u = gzero) end.
  - match goal with |- (?r = gzero <-> ?u = gzero) => assert (E : r = u) by module; rewrite E; reflexivity end.
  - rewrite <- gsub_zero. split; congruence.
Qed.
End Agree.

(** Wrong number of rounds: all three say no. *)
Lemma verify_wrong_rounds p tr crs b c z y : crs_n crs <> (2 ^ len (ipa_L p))%nat ->
  ipa_verify p tr crs b c z y = Ok false /\ ipa_verify_multiexp p tr crs b c z y = Ok false /\
  ipa_verify_semi p tr crs b c z y = Ok false.
Proof.
  intros N. unfold ipa_verify, ipa_verify_multiexp, ipa_verify_semi.
  apply Nat.eqb_neq in N. rewrite N. repeat split.
Qed.
End IpaProofs.
