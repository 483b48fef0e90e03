(** C69 on coordinates: the prover of a trie on disk whose flushed values were written again. *)
From Coq Require Import Permutation.
From Verif Require Import Base Alg TreeSpec TrieModel CodecModel VerkleDbModel VerkleDbExamples DbSpec MsmModel WireModel ProofModel ProofSpec
  IpaModel LagrangeSpec IpaSpec CheckProofs TruthSpec EventSpec RewriteSpec RewriteProofSpec AgreeCases Bander RealSpec RealRefine
  ElementModel ElementSpec CurveModel CurveSpec CurveAlg CurveRep CoordSpec MidInst CoordInst CoordTold CoordToldCases CoordTruth.
Local Open Scope list_scope.

Section Coordinates.
Context {B : BaseField} {BL : BaseFieldLaws B} {CL : CurveLaws B} {A : Alg} {AL : AlgLaws A} {I : FrInt A} {SL : ScalarLaws B A I}.
Local Notation RA := (@rep_alg B BL A I).
Local Notation RC := (@rep_codec B BL A I).
Local Notation RE := (@rep_ecodec B BL A I).
Local Notation RD := (@verkle_db_ops RA RC).
Local Notation CA := (@curve_alg B BL A I).
Local Notation CE := (@curve_ecodec B BL A I).
Context {RP : Par RA} {CP : Par CA} {HS : Hasher}.

(** Keys of half stems that were not changed after a flush: the prover panics because a record is refused (C56), or
    all openings are true and the proof is made and accepted (usable challenges as in C21). *)
Theorem C69_coord_untouched_accepted_partial : @stands_for B BL A I RP CP -> forall l v keys order,
  @domain_fits A 256 -> wf_ops l -> settled_ops l -> @run_disk RA RP RC l = Ok v -> keys <> [] -> Forall is_key keys ->
  Forall (untouched l) keys -> @distinguishable CA CP (final_map (tallied l)) (stems_of (contents l)) keys -> (forall l, Permutation (order l) l) ->
  (@create_proof_parts RA _ RD v keys = Panic /\ @record_refused RA RC (vd_storage v)) \/
  exists qs hint comms root, @create_proof_parts RA _ RD v keys = Ok (Some (qs, hint, comms)) /\ @root_commitment RA _ RD v = Ok root /\
    Forall (@true_opening CA CP) (map elem_query qs) /\
    (@usable_challenges CA CP CE HS (map elem_query qs) -> exists p uh,
       @create_verkle_proof RA RE HS RP _ RD order v keys = Ok (Some p) /\ vp_hint p = hint /\ vp_comms p = comms /\
       @proof_check RA RE HS RP p keys (map (final_map (contents l)) keys) root = Ok (true, Some uh)).
Proof. exact (fun sf => coord_untouched sf). Qed.

(** A key of a half stem that was changed after a flush: a record is refused, or an opening is false, or two different
    vectors with one commitment are at hand. *)
Theorem C69_coord_touched_false_partial : @stands_for B BL A I RP CP -> forall l v keys k k', (forall a, 0 < a < 2 ^ 248 -> @of_Z A a <> fzero) -> wf_ops l -> settled_ops l ->
  (forall k v, In (OInsert k v) l -> is_value v) -> Z.of_nat (length l) < 2 ^ 100 -> @run_disk RA RP RC l = Ok v ->
  Forall is_key keys -> In k keys -> is_key k' -> half_mates k k' -> (2 <= length (counted l k'))%nat ->
  (@create_proof_parts RA _ RD v keys = Panic /\ @record_refused RA RC (vd_storage v)) \/
  exists qs hint comms, @create_proof_parts RA _ RD v keys = Ok (Some (qs, hint, comms)) /\
    ((exists q, In q qs /\ ~ @true_opening CA CP (elem_query q)) \/
     (exists j z, 0 <= z < 256 /\
        @suffix_vec CA (final_map (contents l)) (firstn 31 k) j z <> @suffix_vec CA (final_map (tallied l)) (firstn 31 k) j z /\
        @vcommit CA CP (suffix_vec (final_map (contents l)) (firstn 31 k) j) = @vcommit CA CP (suffix_vec (final_map (tallied l)) (firstn 31 k) j))).
Proof. exact (fun sf => coord_touched sf). Qed.

(** Whatever a verifier is told about the trie: if openings of the queries it computes from the claims are known (C46
    computes them from accepted provers) and the claims fit one tree then every claim is about a key that counts at
    most once and is what [get] returns, or is the absence of a stem that its claims do not reach, or there is an event.
    The root may be any coordinates of the same element. *)
Theorem C69_coord_truth_partial : @stands_for B BL A I RP CP -> forall l v (root root' : @G RA) hint comms keys values qs uh vs,
  (forall a, 0 < a < 2 ^ 248 -> @of_Z A a <> fzero) -> @domain_fits A 256 -> wf_ops l -> settled_ops l ->
  (forall k v, In (OInsert k v) l -> is_value v) -> Z.of_nat (length l) < 2 ^ 100 ->
  @run_disk RA RP RC l = Ok v -> @root_commitment RA _ RD v = Ok root -> same_coord root root' ->
  Forall is_key keys -> NoDup keys -> length values = length keys -> (forall x, In (Some x) values -> is_value x) -> Forall is_stem (vh_diff hint) ->
  @create_verifier_queries RA RP hint comms keys values root' = Ok (Some (qs, uh)) ->
  Forall2 (@opening CA CP) (map (fun q : @VerifierQuery RA => @mkVQ CA (elem (vq_comm q)) (vq_point q) (vq_result q)) qs) vs -> coherent hint keys ->
  (forall k x, In (k, x) (combine keys values) ->
     ((length (counted l k) < 2)%nat /\ @trie_get RA _ RD v k = Ok x) \/ hidden (stems_of (contents l)) hint keys k x) \/
  @event CA CP (final_map (tallied l)) (stems_of (contents l)) (map (fun q : @VerifierQuery RA => @mkVQ CA (elem (vq_comm q)) (vq_point q) (vq_result q)) qs) vs.
Proof. exact (fun sf => coord_opened sf). Qed.
End Coordinates.

(** One key written before and after a flush.  On the curve of [MidInst] the proof for the other half of its stem and
    an empty slot is made and accepted. *)
#[local] Existing Instance Mid_laws.
#[local] Existing Instance bander_laws.
Example C69_coord_untouched_case : exists v root p uh, @run_disk (@rep_alg Mid Mid_laws MidF MidI) mid_par (@rep_codec Mid Mid_laws MidF MidI) up_ops = Ok v /\
  @root_commitment _ _ (@verkle_db_ops (@rep_alg Mid Mid_laws MidF MidI) (@rep_codec Mid Mid_laws MidF MidI)) v = Ok root /\
  @create_verkle_proof (@rep_alg Mid Mid_laws MidF MidI) (@rep_ecodec Mid Mid_laws MidF MidI) toy mid_par _
    (@verkle_db_ops (@rep_alg Mid Mid_laws MidF MidI) (@rep_codec Mid Mid_laws MidF MidI)) (@rev _) v calm_keys = Ok (Some p) /\
  @proof_check (@rep_alg Mid Mid_laws MidF MidI) (@rep_ecodec Mid Mid_laws MidF MidI) toy mid_par p calm_keys [None; None] root = Ok (true, Some uh).
Proof. exact calm_accepted. Qed.
(** With the default generators, for the key itself. *)
Local Notation RAd := (@rep_alg Bander bander_laws BanderF BanderI).
Local Notation RCd := (@rep_codec Bander bander_laws BanderF BanderI).
Theorem C69_coord_default_touched_refuted : exists v qs hint comms, @run_disk RAd default_par RCd up_ops = Ok v /\
  @create_proof_parts RAd _ (@verkle_db_ops RAd RCd) v [e1] = Ok (Some (qs, hint, comms)) /\
  ((exists q, In q qs /\ ~ @true_opening real_alg real_par (elem_query q)) \/
   (exists j z, 0 <= z < 256 /\
      @suffix_vec real_alg (final_map (contents up_ops)) (firstn 31 e1) j z <> @suffix_vec real_alg (final_map (tallied up_ops)) (firstn 31 e1) j z /\
      @vcommit real_alg real_par (suffix_vec (final_map (contents up_ops)) (firstn 31 e1) j) =
      @vcommit real_alg real_par (suffix_vec (final_map (tallied up_ops)) (firstn 31 e1) j))).
Proof. exact default_touched. Qed.

(** The hypotheses of [C69_coord_truth_partial] with the default generators: the trie in which one key counts twice, and
    the claim that another stem is absent. *)
Example C69_coord_truth_case : exists v root qs uh vs, @run_disk RAd default_par RCd up_ops = Ok v /\
  @root_commitment RAd _ (@verkle_db_ops RAd RCd) v = Ok root /\
  (2 <= length (counted up_ops e1))%nat /\ is_key lone_key /\ coherent lone_hint [lone_key] /\
  @create_verifier_queries RAd default_par lone_hint [] [lone_key] [None] root = Ok (Some (qs, uh)) /\
  Forall2 (@opening real_alg real_par) (map (fun q : @VerifierQuery RAd => @mkVQ real_alg (elem (vq_comm q)) (vq_point q) (vq_result q)) qs) vs.
Proof. exact default_lone. Qed.

Print Assumptions C69_coord_untouched_accepted_partial.
Print Assumptions C69_coord_touched_false_partial.
Print Assumptions C69_coord_untouched_case.
Print Assumptions C69_coord_default_touched_refuted.
Print Assumptions C69_coord_truth_partial.
Print Assumptions C69_coord_truth_case.
