(** C64 with elements held as coordinates: a proof, as bytes, is a function of the contents and of the set of keys. *)
From Coq Require Import Permutation String.
From Verif Require Import Base Alg TreeSpec TrieModel CodecModel WireModel WireSpec ProofModel ProofSpec IpaModel LagrangeSpec IpaSpec MsmModel
  ElementModel ElementSpec CurveModel CurveSpec CurveAlg CurveRep CoordSpec MidInst CoordInst CoordKeySet CoordKeySetCases.
Local Open Scope list_scope.

Section Coord.
Context {B : BaseField} {BL : BaseFieldLaws B} {CL : CurveLaws B} {A : Alg} {AL : AlgLaws A} {I : FrInt A} {SL : ScalarLaws B A I}.
Local Notation RA := (@rep_alg B BL A I).
Local Notation CA := (@curve_alg B BL A I).
Local Notation RE := (@rep_ecodec B BL A I).
Context {RP : Par RA} {CP : Par CA} {HS : Hasher}.

(** Two tries with the same contents and two listings of the same keys: the proofs have equal elements and the same bytes. *)
Theorem C64_coordinates_same_bytes : stands_for RP CP -> @domain_fits A 256 -> forall h1 h2 db1 db2 keys1 keys2 order1 order2 p1,
  wf_history h1 -> wf_history h2 -> (forall k, final_map h1 k = final_map h2 k) ->
  @run_mem RA RP h1 = Ok db1 -> @run_mem RA RP h2 = Ok db2 -> Forall is_key keys1 -> (forall k, In k keys1 <-> In k keys2) ->
  (forall l, Permutation (order1 l) l) -> (forall l, Permutation (order2 l) l) ->
  @create_verkle_proof RA RE HS RP MemoryDb _ order1 db1 keys1 = Ok (Some p1) ->
  exists qs, @create_proof_parts RA MemoryDb _ db1 keys1 = Ok (Some (qs, vp_hint p1, vp_comms p1)) /\
  (@outside_domain RA 256 (fst (@mp_t RA RE HS (tr_new (lbl "vt"%string)) (map public_query qs) (mp_g (vp_proof p1)))) ->
   exists p2, @create_verkle_proof RA RE HS RP MemoryDb _ order2 db2 keys2 = Ok (Some p2) /\ same_proof p1 p2 /\ @proof_write RA RE p1 = @proof_write RA RE p2).
Proof. exact coord_set_proof. Qed.

(** The verifier may list the keys in any order and with repetitions. *)
Theorem C64_coordinates_any_listing : stands_for RP CP -> @domain_fits A 256 -> forall h db keys1 keys2 order p,
  wf_history h -> @run_mem RA RP h = Ok db -> keys1 <> [] -> Forall is_key keys1 -> (forall k, In k keys1 <-> In k keys2) ->
  @distinguishable CA CP (final_map h) (stems_of h) keys1 -> (forall l, Permutation (order l) l) ->
  @create_verkle_proof RA RE HS RP MemoryDb _ order db keys1 = Ok (Some p) ->
  exists root qs uh, @root_commitment RA _ _ db = Ok root /\
    @create_verifier_queries RA RP (vp_hint p) (vp_comms p) keys2 (map (final_map h) keys2) root = Ok (Some (qs, uh)) /\
    (@outside_domain RA 256 (fst (@mp_t RA RE HS (tr_new (lbl "vt"%string)) qs (mp_g (vp_proof p)))) ->
     @proof_check RA RE HS RP p keys2 (map (final_map h) keys2) root = Ok (true, Some uh)).
Proof. exact coord_any_listing. Qed.
End Coord.

Example C64_coordinates_case : let keys2 := rev mid_keys ++ mid_keys in exists db root p1 p2 uh,
  @run_mem (@rep_alg Mid Mid_laws MidF MidI) mid_par mid_h = Ok db /\ @root_commitment (@rep_alg Mid Mid_laws MidF MidI) _ _ db = Ok root /\
  Forall is_key mid_keys /\ (forall k, In k mid_keys <-> In k keys2) /\ keys2 <> mid_keys /\
  @create_verkle_proof _ (@rep_ecodec Mid Mid_laws MidF MidI) toy mid_par MemoryDb _ (fun l => l) db mid_keys = Ok (Some p1) /\
  @create_verkle_proof _ (@rep_ecodec Mid Mid_laws MidF MidI) toy mid_par MemoryDb _ (@rev _) db keys2 = Ok (Some p2) /\
  @proof_write _ (@rep_ecodec Mid Mid_laws MidF MidI) p1 = @proof_write _ (@rep_ecodec Mid Mid_laws MidF MidI) p2 /\
  @proof_check _ (@rep_ecodec Mid Mid_laws MidF MidI) toy mid_par p1 keys2 (map (final_map mid_h) keys2) root = Ok (true, Some uh).
Proof. exact mid_set_case. Qed.

Print Assumptions C64_coordinates_same_bytes.
Print Assumptions C64_coordinates_any_listing.
Print Assumptions C64_coordinates_case.
