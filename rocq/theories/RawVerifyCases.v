(** Concrete cases for [PropRawVerify]: on the curve of [MidInst], and on the curve of the code. *)
From Coq Require Import String Field.
From Verif Require Import Base BaseFacts Alg AlgFacts AlgInst MsmModel MsmSpec MsmProofs MsmInt CodecModel WireModel WireSpec ProofModel IpaModel IpaSpec LagrangeSpec LagrangeProofs FfiModel FfiSpec BindModel BindSpec
  ElementModel ElementSpec ElementProofs ElementInst CurveModel CurveSpec CurveProofs CurveAlg CurveRep Refine RefineProof RefineIpa RepProof
  RawSpec RawProofs RawVerifyModel RawVerifySpec RawVerifyProofs RawAgree MidInst CoordInst Bander RealSpec CrsCert CrsCheck CrsProofs RealProofs.
Local Open Scope list_scope.

Section Context.
Context {B : BaseField} {BL : BaseFieldLaws B} {CL : CurveLaws B} {A : Alg} {AL : AlgLaws A} {I : FrInt A} {SL : ScalarLaws B A I}.
Local Notation WA := (@raw_alg B A I).
Local Notation RA := (@rep_alg B BL A I).
Add Field FFieldRVC : F_field.
Add Field QFieldRVC : Fq_field.
(** The context of any 257 elements. *)
Lemma context_of (c : @CRS RA) : domain_fits 256 -> crs_n c = 256%nat -> length (crs_G c) = 256%nat ->
  exists (cw : @Context_ WA) (w : @PrecomputedWeights RA), @precomputed_weights RA 256 = Ok w /\ cx_crs cw = raw_crs c /\ cx_pw cw = raw_weights w /\ of_width cw.
Proof.
  intros Hf Hn Hg. pose proof (weights_ok 256 Hf ltac:(lia)) as E.
  set (w := @mkPW RA (pw_weights (@weights A 256)) (pw_inverted (@weights A 256))).
  assert (Er : @precomputed_weights RA 256 = Ok w).
  { pose proof (@cover_weights A Coord co_zero co_add co_opp co_mul co_eqb 256) as H. change (cover A Coord co_zero co_add co_opp co_mul co_eqb) with RA in H.
    rewrite E in H. destruct (@precomputed_weights RA 256) as [w'|]; [|destruct H]. cbn in H. unfold w. rewrite H. destruct w'; reflexivity. }
  assert (Ew : @precomputed_weights WA 256 = Ok (raw_weights w)).
  { pose proof (@cover_weights A Element element_zero element_add element_neg (fun s e => element_mul e s) element_eqb 256) as H.
    change (cover A Element element_zero element_add element_neg (fun s e => element_mul e s) element_eqb) with WA in H.
    rewrite E in H. destruct (@precomputed_weights WA 256) as [w'|]; [|destruct H]. cbn in H. unfold raw_weights, w. cbn [pw_weights pw_inverted]. rewrite H. destruct w'; reflexivity. }
  exists (@mkCtx WA (raw_crs c) (@mkCommitter WA (@mkMSM WA [] 0 0) (@mkMW WA 0 [])) (raw_weights w)), w.
  repeat split; auto. cbn [cx_crs raw_crs crs_G]. now rewrite map_length.
Qed.
Lemma one_entry (g : @Coord B) gs n : @gdot RA (@fone RA :: repeat (@fzero RA) n) (g :: gs) = g.
Proof.
  assert (Z : forall k l, @gdot RA (repeat (@fzero RA) k) l = co_zero).
  { induction k as [|k IH]; intros [|x l]; try reflexivity. cbn [repeat gdot]. rewrite IH. apply co_eq. cbn [gadd smul fzero rep_alg].
    rewrite coords_add, coords_mul, int_zero. cbn [Z.to_nat]. rewrite multiple_0. apply sum_zero. }
  cbn [gdot]. rewrite Z. apply co_eq. cbn [gadd smul fone rep_alg]. rewrite coords_add, coords_mul, int_one. change (Z.to_nat 1) with 1%nat. rewrite multiple_1.
  apply sum_zero.
Qed.
Lemma sum_at_one r (g : @Coord B) : @claims_sum B BL A I r fone fone [(g, 0)] = g.
Proof.
  cbn [claims_sum]. assert (E : @fdiv A fone (fsub fone (of_Z 0)) = fone).
  { rewrite of_Z_0. field. apply (F_1_neq_0 F_field). }
  rewrite E. apply co_eq. rewrite coords_add, coords_mul, int_one. change (Z.to_nat 1) with 1%nat. rewrite multiple_1. apply sum_zero.
Qed.
Lemma two_ratio (u v : @Fq B) (c : @Fq B) : qmul (qmul c v) u = qmul (qmul c u) v.
Proof. ring. Qed.
Lemma one_not_zero : (fone : @F A) <> of_Z 0.
Proof. rewrite of_Z_0. apply (F_1_neq_0 F_field). Qed.
End Context.

Section Mid.
#[local] Existing Instance Mid_laws.
#[local] Existing Instance Mid_curve.
#[local] Existing Instance Mid_scalars.
#[local] Existing Instance MidF_laws.
Local Notation RA := (@rep_alg Mid Mid_laws MidF MidI).
Local Notation WA := (@raw_alg Mid MidF MidI).
Definition mid_crs : @CRS RA := @trie_crs RA mid_par.
Definition mid_first : @Coord Mid := @crs RA mid_par 0.
Definition mid_zero_claim : list (@Coord Mid * Z) := [(mid_first, 0)].
Definition mid_D : @Affine Mid := @mkAff Mid (zred 4801 153) (zred 4801 4122).
Lemma mid_case : exists cw : @Context_ WA, of_width cw /\ cx_crs cw = raw_crs mid_crs /\
  @gdot RA (@fone RA :: repeat (@fzero RA) 255) (crs_G mid_crs) = mid_first /\
  ~ on_curve mid_D /\
  @raw_verify_proof_uncompressed Mid MidF MidI toy cw (forged_bytes mid_D ++ concat (map (@zero_claim_bytes Mid) mid_zero_claim)) = Ok true.
Proof.
  destruct (context_of mid_crs) as (cw & w & _ & E1 & _ & W); [exact mid_fits|reflexivity|reflexivity|].
  exists cw. split; [exact W|]. split; [exact E1|]. split; [apply one_entry|].
  split; [intro E; apply (f_equal (zval 4801)) in E; vm_compute in E; discriminate E|].
  assert (Et : @challenge_t Mid MidF MidI toy mid_zero_claim mid_D = zred 1201 901) by (apply (zp_eq 1201); vm_compute; reflexivity).
  assert (EE : coords (@claims_sum Mid Mid_laws MidF MidI (@challenge_r Mid MidF MidI toy mid_zero_claim) (zred 1201 901) (@fone MidF) mid_zero_claim)
    = @mkAff Mid (zred 4801 1284) (zred 4801 4092)).
  { unfold mid_zero_claim at 2. cbn [claims_sum]. rewrite coords_add, coords_mul. rewrite (sum_zero _ : edwards_sum _ (coords co_zero) = _).
    replace (Z.to_nat _) with 4%nat by (vm_compute; reflexivity).
    assert (E0 : coords mid_first = @mkAff Mid (zred 4801 4180) (zred 4801 4297)).
    { unfold mid_first. cbn [crs mid_par rep_par]. unfold mid_co. change (Z.even 0) with true. cbv iota. rewrite co_of_coords by (apply valid_multiple, mid_valid).
      replace (Z.to_nat _) with 11%nat by (vm_compute; reflexivity). apply aff_eq; apply (zp_eq 4801); vm_compute; reflexivity. }
    rewrite E0. apply aff_eq; apply (zp_eq 4801); vm_compute; reflexivity. }
  apply (forgery cw mid_zero_claim (zred 4801 153) (zred 4801 4122) (zred 4801 4122) W); fold mid_D; rewrite ?Et, ?EE; cbn [ax ay].
  - constructor; [|constructor]. intro E. apply (f_equal (zval 1201)) in E. vm_compute in E. discriminate E.
  - intro E. apply (f_equal (zval 4801)) in E. vm_compute in E. discriminate E.
  - intro E. apply (f_equal (zval 4801)) in E. vm_compute in E. discriminate E.
  - apply (zp_eq 4801). vm_compute. reflexivity.
  - reflexivity.
Qed.
(** An honest proof: the zero polynomial is 0 at 7. *)
Definition mid_zero_proof : @MultiPointProof RA := @mkMP RA (@mkIPA RA (repeat co_zero 8) (repeat co_zero 8) (@fzero RA)) co_zero.
Lemma mid_agree_case : exists (cx : @Context_ RA) (cw : @Context_ WA), cx_crs cw = raw_crs (cx_crs cx) /\ cx_pw cw = raw_weights (cx_pw cx) /\
  rounds (mp_ipa mid_zero_proof) 8 /\
  @c_verify_proof_uncompressed RA (@rep_ecodec Mid Mid_laws MidF MidI) toy cx
    (@mp_to_bytes_uncompressed RA (@rep_ecodec Mid Mid_laws MidF MidI) mid_zero_proof ++
     concat (map (@claim_record_uncompressed RA (@rep_ecodec Mid Mid_laws MidF MidI)) [(co_zero, 7, @fzero RA)])) = Ok true.
Proof.
  destruct (context_of mid_crs) as (cw & w & _ & E1 & E2 & W); [exact mid_fits|reflexivity|reflexivity|].
  set (cx := @mkCtx RA mid_crs (@mkCommitter RA (@mkMSM RA [] 0 0) (@mkMW RA 0 [])) w). exists cx, cw.
  assert (R : rounds (mp_ipa mid_zero_proof) 8) by (split; reflexivity).
  split; [exact E1|]. split; [exact E2|]. split; [exact R|].
  rewrite <- (verify_agrees (HS := toy) cx cw mid_zero_proof [(co_zero, 7, @fzero RA)] E1 E2 R).
  assert (Z : @challenge_t Mid MidF MidI toy [(co_zero, 7)] (@mkAff Mid qzero qone) <> of_Z 7).
  { intro E. apply (f_equal (zval 1201)) in E. vm_compute in E. discriminate E. }
  rewrite <- (zero_opening (HS := toy) cw 7 W Z). f_equal.
Qed.
(** The commitment to 1 at position 0, opened there, read from numbers with another y of the same sign. *)
Definition mid_off : @Affine Mid := @mkAff Mid (ax (coords mid_first)) (zred 4801 4298).
Definition mid_query : @ProverQuery RA := @mkPQ RA mid_first (@fone RA :: repeat (@fzero RA) 255) 0 (@fone RA).
Lemma mid_create_case : exists (cx : @Context_ RA) (cw : @Context_ WA), cx_crs cx = mid_crs /\ @precomputed_weights RA 256 = Ok (cx_pw cx) /\
  cx_crs cw = raw_crs (cx_crs cx) /\ cx_pw cw = raw_weights (cx_pw cx) /\ ~ on_curve mid_off /\
  length (pq_poly mid_query) = 256%nat /\ larger_x mid_off = larger_x (coords (@pq_comm RA mid_query)).
Proof.
  destruct (context_of mid_crs) as (cw & w & E0 & E1 & E2 & W); [exact mid_fits|reflexivity|reflexivity|].
  exists (@mkCtx RA mid_crs (@mkCommitter RA (@mkMSM RA [] 0 0) (@mkMW RA 0 [])) w), cw.
  assert (F0 : coords mid_first = @mkAff Mid (zred 4801 4180) (zred 4801 4297)).
  { unfold mid_first. cbn [crs mid_par rep_par]. unfold mid_co. change (Z.even 0) with true. cbv iota. rewrite co_of_coords by (apply valid_multiple, mid_valid).
    replace (Z.to_nat _) with 11%nat by (vm_compute; reflexivity). apply aff_eq; apply (zp_eq 4801); vm_compute; reflexivity. }
  split; [reflexivity|]. split; [exact E0|]. split; [exact E1|]. split; [exact E2|]. split; [|split; [reflexivity|]].
  - unfold mid_off. rewrite F0. cbn [ax]. intro E. apply (f_equal (zval 4801)) in E. vm_compute in E. discriminate E.
  - cbn [pq_comm mid_query]. unfold mid_off, larger_x. rewrite F0. cbn [ax ay]. apply (zp_eq 4801). vm_compute. reflexivity.
Qed.
End Mid.

(** The curve of the code with its default generators, and a hash that always gives 1: the commitment to 1 at position 0, claimed to be 0 there. *)
Section Real.
#[local] Existing Instance bander_laws.
#[local] Existing Instance bander_curve.
#[local] Existing Instance bander_scalars.
#[local] Existing Instance BanderF_laws.
Local Notation RA := (@rep_alg Bander bander_laws BanderF BanderI).
Local Notation WA := (@raw_alg Bander BanderF BanderI).
Definition always_one : Hasher := fun _ => Z_le 32 1.
Definition default_crs_ : @CRS RA := @trie_crs RA default_par.
Definition default_first : @Coord Bander := @crs RA default_par 0.
Definition two : @Fq Bander := zred bander_q 2.
Definition default_D : @Affine Bander := @mkAff Bander (qmul two (ax (coords default_first))) (qmul two (ay (coords default_first))).
Lemma two_is (z : Z) : (0 <=? z) && (z <? bander_q) && negb (z =? 2) = true -> two <> zred bander_q z.
Proof.
  intros H E. apply (f_equal (zval bander_q)) in E. unfold two in E. rewrite !zval_red in E.
  apply andb_true_iff in H as [H H3]. apply andb_true_iff in H as [H1 H2]. apply Z.leb_le in H1. apply Z.ltb_lt in H2. apply negb_true_iff, Z.eqb_neq in H3.
  rewrite (Z.mod_small z) in E by (split; assumption). apply H3. rewrite <- E. reflexivity.
Qed.
Local Opaque default_par.
Lemma first_nz : ax (coords default_first) <> qzero.
Proof.
  unfold default_first. destruct (default_gen 0) as (t & Et & ->). { split; [apply Z.leb_le|]; reflexivity. }
  apply (f_equal (fun o => match o with Some t => cx t mod bander_q | None => 0 end)) in Et.
  intros E. apply (f_equal (zval bander_q)) in E. change (cx t mod bander_q = 0) in E. rewrite E in Et. vm_compute in Et. discriminate Et.
Qed.
Lemma real_case : exists cw : @Context_ WA, of_width cw /\ cx_crs cw = raw_crs default_crs_ /\
  @gdot RA (@fone RA :: repeat (@fzero RA) 255) (crs_G default_crs_) = default_first /\
  ~ on_curve default_D /\
  @raw_verify_proof_uncompressed Bander BanderF BanderI always_one cw (forged_bytes default_D ++ concat (map (@zero_claim_bytes Bander) [(default_first, 0)])) = Ok true.
Proof.
  destruct (context_of default_crs_) as (cw & w & _ & E1 & _ & W); [exact real_fits|reflexivity|unfold default_crs_, trie_crs; cbn [crs_G]; now rewrite map_length, seq_length|].
  exists cw. split; [exact W|]. split; [exact E1|]. split; [exact (one_entry default_first _ 255)|].
  assert (N0 : two <> qzero) by (apply (two_is 0); vm_compute; reflexivity).
  split.
  { apply (raw_hash_forged (A := BanderF) (C := (@mkECodec BanderF (fun _ => []) (fun _ => None) (fun _ => []) (fun _ => None) (fun _ => []) (fun _ => None))) (coords default_first) two (proj1 (co_valid _)) N0).
    - apply (two_is 1). vm_compute. reflexivity.
    - intro E. apply (two_is (bander_q - 1)); [vm_compute; reflexivity|]. rewrite E. apply (zp_eq bander_q). vm_compute. reflexivity. }
  assert (Et : forall D, @challenge_t Bander BanderF BanderI always_one [(default_first, 0)] D = @fone BanderF).
  { intro D. unfold challenge_t, mp_t, challenge_scalar. cbn [fst]. unfold always_one, sha256. rewrite le_Z_Z_le by (split; [discriminate|reflexivity]). exact of_Z_1. }
  apply (forgery (HS := always_one) cw [(default_first, 0)] (qmul two (ax (coords default_first))) (qmul two (ay (coords default_first))) (qmul two (ay (coords default_first))) W);
    fold default_D; rewrite ?Et, ?sum_at_one.
  - constructor; [exact one_not_zero|constructor].
  - exact first_nz.
  - apply q_mul_nz; [exact N0|exact first_nz].
  - exact (two_ratio _ _ _).
  - reflexivity.
Qed.
End Real.
