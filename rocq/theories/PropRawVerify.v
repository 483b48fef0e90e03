(** C72: proofs and commitments that the C binding reads without a check ([verify_proof_uncompressed]). *)
From Coq Require Import String.
From Verif Require Import Base BaseFacts Alg AlgInst MsmModel CodecModel WireModel WireSpec ProofModel IpaModel FfiModel FfiSpec BindModel BindSpec
  ElementModel ElementSpec CurveModel CurveSpec CurveAlg CurveRep RawSpec RawVerifyModel RawVerifySpec RawVerifyProofs RawAgree RawCreate RawCreate
  MidInst CoordInst Bander RealSpec RawVerifyCases Sha256 ShaForgery.

Section Verify.
Context {B : BaseField} {BL : BaseFieldLaws B} {CL : CurveLaws B} {A : Alg} {AL : AlgLaws A} {I : FrInt A} {SL : ScalarLaws B A I} {HS : Hasher}.
Local Notation WA := (@raw_alg B A I).
Local Notation RA := (@rep_alg B BL A I).
Local Notation RC := (@rep_ecodec B BL A I).

(** Whatever the commitments, and whatever they commit to: claims that they are zero at any positions are accepted
    with an explicit proof that needs no knowledge of the committed values.  Its first point is any (h, y) in the
    direction of the sum E of the commitments with the challenges as weights, where the challenges depend on h and
    on the sign of y only. *)
Theorem C72_zero_refuted : forall (cx : @Context_ WA) (claims : list (Coord * Z)) (h y y1 : Fq), of_width cx ->
  let r := @challenge_r B A I HS claims in let t := @challenge_t B A I HS claims (mkAff h y1) in
  let E := coords (@claims_sum B BL A I r t fone claims) in
  Forall (fun c => t <> of_Z (snd c)) claims -> ax E <> qzero -> h <> qzero ->
  qmul y (ax E) = qmul h (ay E) -> is_positive y = is_positive y1 ->
  @raw_verify_proof_uncompressed B A I HS cx (forged_bytes (mkAff h y) ++ concat (map (@zero_claim_bytes B) claims)) = Ok true.
Proof. exact forgery. Qed.

(** If all points of the proof and of the claims are those of group elements, the verdict is that of the verifier
    of the other properties. *)
Theorem C72_on_commitments : forall (cx : @Context_ RA) (cw : @Context_ WA) (p : @MultiPointProof RA) (claims : list (@claim RA)),
  cx_crs cw = raw_crs (cx_crs cx) -> cx_pw cw = raw_weights (cx_pw cx) -> rounds (mp_ipa p) 8 ->
  let input := @mp_to_bytes_uncompressed RA RC p ++ concat (map (@claim_record_uncompressed RA RC) claims) in
  @raw_verify_proof_uncompressed B A I HS cw input = @c_verify_proof_uncompressed RA RC HS cx input.
Proof. exact verify_agrees. Qed.

(** The prover ([create_proof_uncompressed]) uses the commitments of its input through x and the sign of y only: with any
    other numbers of the same x and sign, on the curve or not, it gives the proof for the group elements. *)
Theorem C72_prover : forall (perm : list Z -> list nat) (cx : @Context_ RA) (cw : @Context_ WA) (os : list (@Affine B * @ProverQuery RA)),
  cx_crs cw = raw_crs (cx_crs cx) -> cx_pw cw = raw_weights (cx_pw cx) ->
  Forall (fun o => length (pq_poly (snd o)) = 256%nat /\ larger_x (fst o) = larger_x (coords (@pq_comm RA (snd o)))) os ->
  @raw_create_proof_uncompressed B A I HS (by_points perm) cw (concat (map (fun o => opening_bytes (fst o) (snd o)) os)) =
  @c_create_proof_uncompressed RA RC HS (by_points perm) cx (concat (map (@prover_record_uncompressed RA RC) (map snd os))).
Proof. exact create_agrees. Qed.
End Verify.

(** A curve of 4804 points and a hash that depends on all of its input: the commitment to 1 at position 0 is claimed,
    and accepted, to be 0 there; the first point of the proof is not on the curve. *)
Example C72_case : exists cw : @Context_ (@raw_alg Mid MidF MidI), of_width cw /\ cx_crs cw = raw_crs mid_crs /\
  @gdot (@rep_alg Mid Mid_laws MidF MidI) (@fone (@rep_alg Mid Mid_laws MidF MidI) :: repeat (@fzero (@rep_alg Mid Mid_laws MidF MidI)) 255) (crs_G mid_crs) = mid_first /\
  ~ on_curve mid_D /\
  @raw_verify_proof_uncompressed Mid MidF MidI toy cw (forged_bytes mid_D ++ concat (map (@zero_claim_bytes Mid) [(mid_first, 0)])) = Ok true.
Proof. exact mid_case. Qed.
(** The same on the curve of the code with its default generators, for a hash that is always 1. *)
Example C72_default_case : exists cw : @Context_ (@raw_alg Bander BanderF BanderI), of_width cw /\ cx_crs cw = raw_crs default_crs_ /\
  @gdot (@rep_alg Bander bander_laws BanderF BanderI) (@fone (@rep_alg Bander bander_laws BanderF BanderI) :: repeat (@fzero (@rep_alg Bander bander_laws BanderF BanderI)) 255)
    (crs_G default_crs_) = default_first /\
  ~ on_curve default_D /\
  @raw_verify_proof_uncompressed Bander BanderF BanderI always_one cw (forged_bytes default_D ++ concat (map (@zero_claim_bytes Bander) [(default_first, 0)])) = Ok true.
Proof. exact real_case. Qed.
(** The program itself, with its curve, its default generators and SHA-256: the proof with the first point [sha_D]. *)
Example C72_program_case : exists cw : @Context_ (@raw_alg Bander BanderF BanderI), of_width cw /\ cx_crs cw = raw_crs default_crs_ /\
  @gdot (@rep_alg Bander bander_laws BanderF BanderI) (@fone (@rep_alg Bander bander_laws BanderF BanderI) :: repeat (@fzero (@rep_alg Bander bander_laws BanderF BanderI)) 255)
    (crs_G default_crs_) = default_first /\
  ~ on_curve sha_D /\
  @raw_verify_proof_uncompressed Bander BanderF BanderI sha2_256 cw (forged_bytes sha_D ++ concat (map (@zero_claim_bytes Bander) [(default_first, 0)])) = Ok true.
Proof. exact sha_case. Qed.
(** An honest proof that meets the hypotheses of [C72_on_commitments]. *)
Example C72_honest_case : exists (cx : @Context_ (@rep_alg Mid Mid_laws MidF MidI)) (cw : @Context_ (@raw_alg Mid MidF MidI)),
  cx_crs cw = @raw_crs Mid Mid_laws MidF MidI (cx_crs cx) /\ cx_pw cw = @raw_weights Mid Mid_laws MidF MidI (cx_pw cx) /\ rounds (mp_ipa mid_zero_proof) 8 /\
  @c_verify_proof_uncompressed (@rep_alg Mid Mid_laws MidF MidI) (@rep_ecodec Mid Mid_laws MidF MidI) toy cx
    (@mp_to_bytes_uncompressed (@rep_alg Mid Mid_laws MidF MidI) (@rep_ecodec Mid Mid_laws MidF MidI) mid_zero_proof ++
     concat (map (@claim_record_uncompressed (@rep_alg Mid Mid_laws MidF MidI) (@rep_ecodec Mid Mid_laws MidF MidI))
       [(@co_zero Mid Mid_laws, 7, @fzero (@rep_alg Mid Mid_laws MidF MidI))])) = Ok true.
Proof. exact mid_agree_case. Qed.
(** Numbers that meet the hypotheses of [C72_prover] and are no point of the curve. *)
Example C72_prover_case : exists (cx : @Context_ (@rep_alg Mid Mid_laws MidF MidI)) (cw : @Context_ (@raw_alg Mid MidF MidI)),
  cx_crs cx = mid_crs /\ @precomputed_weights (@rep_alg Mid Mid_laws MidF MidI) 256 = Ok (cx_pw cx) /\
  cx_crs cw = @raw_crs Mid Mid_laws MidF MidI (cx_crs cx) /\ cx_pw cw = @raw_weights Mid Mid_laws MidF MidI (cx_pw cx) /\ ~ on_curve mid_off /\
  length (pq_poly mid_query) = 256%nat /\ larger_x mid_off = larger_x (coords (@pq_comm (@rep_alg Mid Mid_laws MidF MidI) mid_query)).
Proof. exact mid_create_case. Qed.

Print Assumptions C72_zero_refuted.
Print Assumptions C72_on_commitments.
Print Assumptions C72_case.
Print Assumptions C72_default_case.
Print Assumptions C72_program_case.
Print Assumptions C72_honest_case.
Print Assumptions C72_prover.
Print Assumptions C72_prover_case.
