(** C73: the proof functions of the interface with elements held as coordinates, and the functions of the C binding
    that read elements without a check. *)
From Coq Require Import Permutation.
From Verif Require Import Base Alg MsmModel WireModel WireSpec ProofModel IpaModel LagrangeSpec FfiModel FfiSpec BindModel BindSpec
  ElementModel ElementSpec CurveModel CurveSpec CurveAlg CurveRep CoordSpec Bander RealSpec CoordInst RawSpec RawVerifyModel RawVerifySpec CoordFfiSpec CoordFfi CoordFfiCases.

Section Coord.
Context {B : BaseField} {BL : BaseFieldLaws B} {CL : CurveLaws B} {A : Alg} {AL : AlgLaws A} {I : FrInt A} {SL : ScalarLaws B A I}.
Local Notation RA := (@rep_alg B BL A I).
Local Notation CA := (@curve_alg B BL A I).
Local Notation RE := (@rep_ecodec B BL A I).
Local Notation CE := (@curve_ecodec B BL A I).
Local Notation WA := (@raw_alg B A I).
Context {HS : Hasher} {RP : Par RA} {CP : Par CA} {RW : Wnaf RA}.

(** Every input, well formed or not: the verifiers answer (or panic) as they would in the group. *)
Theorem C73_verify : forall (CW : Wnaf CA) cx cg input, stands_for RP CP -> @context_new RA RP RW = Ok cx -> @context_new CA CP CW = Ok cg ->
  @ffi_verify_proof RA RE HS cx input = @ffi_verify_proof CA CE HS cg input /\
  @c_verify_proof RA RE HS cx input = @c_verify_proof CA CE HS cg input.
Proof. exact (fun CW => verify_same (CW := CW)). Qed.

(** Every input: the provers return the bytes they would return in the group. *)
Theorem C73_create : forall (CW : Wnaf CA) order cx cg input, stands_for RP CP -> @context_new RA RP RW = Ok cx -> @context_new CA CP CW = Ok cg ->
  (forall l, Permutation (order l) l) ->
  exists order', (forall l, Permutation (order' l) l) /\
    @ffi_create_proof RA RE HS order cx input = @ffi_create_proof CA CE HS order' cg input /\
    @c_create_proof RA RE HS order cx input = @c_create_proof CA CE HS order' cg input.
Proof. exact (fun CW => create_same (CW := CW)). Qed.

(** A created proof is accepted, whichever coordinates the verifier is given for the commitments. *)
Theorem C73_created_accepted : forall order cx qs cs, stands_for RP CP -> @domain_fits A 256 -> @context_new RA RP RW = Ok cx ->
  (forall l, Permutation (order l) l) -> honest_openings CP qs -> @usable_openings B BL A I HS CP qs -> claims_for cs qs -> exists out,
  @ffi_create_proof RA RE HS order cx (concat (map (@prover_record RA RE) qs)) = Ok (FOk out) /\
  @c_create_proof RA RE HS order cx (concat (map (@prover_record RA RE) qs)) = Ok out /\ length out = 576%nat /\
  @ffi_verify_proof RA RE HS cx (out ++ concat (map (@claim_record RA RE) cs)) = Ok (FOk tt) /\
  @c_verify_proof RA RE HS cx (out ++ concat (map (@claim_record RA RE) cs)) = Ok true.
Proof. exact round_trip. Qed.

(** Without compression and without checks: any numbers may stand for a commitment in the record of the prover, as
    long as they have the x and the sign of y that its coordinates have. *)
Theorem C73_unchecked_accepted : forall perm cx (cw : @Context_ WA) qs cs (points : list (@Affine B)), stands_for RP CP -> @domain_fits A 256 ->
  @context_new RA RP RW = Ok cx -> cx_crs cw = raw_crs (cx_crs cx) -> cx_pw cw = raw_weights (cx_pw cx) ->
  (forall l, Permutation (perm l) (seq 0 (length l))) ->
  honest_openings CP qs -> @usable_openings B BL A I HS CP qs -> claims_for cs qs ->
  Forall2 (fun P q => larger_x P = larger_x (coords (@pq_comm RA q))) points qs -> exists out,
  @raw_create_proof_uncompressed B A I HS (by_points perm) cw (concat (map (fun o => opening_bytes (fst o) (snd o)) (combine points qs))) = Ok out /\
  length out = 1120%nat /\
  @raw_verify_proof_uncompressed B A I HS cw (out ++ concat (map (@claim_record_uncompressed RA RE) cs)) = Ok true.
Proof. exact round_trip_raw. Qed.
End Coord.

(** The default generators: a context, two openings of the commitment to 1 at position 0, and their claims. *)
Example C73_case :
  let qs := [@first_at Bander bander_laws BanderF BanderI default_par 0 fone; @first_at Bander bander_laws BanderF BanderI default_par 5 fzero] in
  @stands_for Bander bander_laws BanderF BanderI default_par real_par /\ @domain_fits BanderF 256 /\
  (forall W, exists cx, @context_new (@rep_alg Bander bander_laws BanderF BanderI) default_par W = Ok cx) /\
  honest_openings real_par qs /\ @usable_openings Bander bander_laws BanderF BanderI toy real_par qs /\ claims_for (map claim_of qs) qs.
Proof. exact default_first_case. Qed.

Print Assumptions C73_verify.
Print Assumptions C73_create.
Print Assumptions C73_created_accepted.
Print Assumptions C73_unchecked_accepted.
Print Assumptions C73_case.
