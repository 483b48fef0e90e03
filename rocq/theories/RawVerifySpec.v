(** Specification for proofs read without a check by the C binding (C72). *)
From Coq Require Import String.
From Verif Require Import Base Alg MsmModel CodecModel WireModel ProofModel IpaModel IpaSpec FfiModel BindModel ElementModel ElementSpec CurveModel CurveSpec
  CurveAlg CurveRep RawSpec RawVerifyModel.
Local Open Scope list_scope.

Section Spec.
Context {B : BaseField} {BL : BaseFieldLaws B} {A : Alg} {I : FrInt A} {HS : Hasher}.
Local Notation WA := (@raw_alg B A I).
Local Notation WC := (@raw_ecodec B A I).
Local Notation RA := (@rep_alg B BL A I).

(** A context with 256 generators and the weights of the interpolation points 0..255. *)
Definition of_width (cx : @Context_ WA) : Prop :=
  crs_n (cx_crs cx) = 256%nat /\ length (crs_G (cx_crs cx)) = 256%nat /\ @precomputed_weights WA 256 = Ok (cx_pw cx).

(** Claims that the value at a position of a commitment is zero, as the bytes and as the queries they are. *)
Definition zero_claim_bytes (c : Coord * Z) : bytes := pair_bytes (coords (fst c)) ++ [snd c] ++ repeat 0%Z 32.
Definition zero_query (c : Coord * Z) : @VerifierQuery WA := @mkVQ WA (of_affine (coords (fst c))) (of_Z (snd c)) fzero.

(** The bytes of a proof: D, eight points L and eight points R with the coordinates (0, 1), and the scalar zero. *)
Definition forged_bytes (D : Affine) : bytes := pair_bytes D ++ concat (repeat (pair_bytes (mkAff qzero qone)) 16) ++ repeat 0%Z 32.

(** The challenges that the verifier derives from the claims and from D. *)
Definition challenge_r (cs : list (Coord * Z)) : F := fst (@mp_r WA WC HS (tr_new (lbl "verkle")) (map zero_query cs)).
Definition challenge_t (cs : list (Coord * Z)) (D : Affine) : F :=
  fst (@mp_t WA WC HS (tr_new (lbl "verkle")) (map zero_query cs) (of_affine D)).
(** The sum of p r^i / (t - z_i) times the i-th commitment. *)
Fixpoint claims_sum (r t p : F) (cs : list (Coord * Z)) : Coord :=
  match cs with
  | [] => co_zero
  | (g, z) :: cs' => co_add (co_mul (fdiv p (fsub t (of_Z z))) g) (claims_sum r t (fmul p r) cs')
  end.

(** A context of elements, held with z = 1. *)
Definition raw_crs (c : @CRS RA) : @CRS WA := @mkCRS WA (crs_n c) (map (fun g => of_affine (coords g)) (crs_G c)) (of_affine (coords (crs_Q c))).
(** The openings grouped by position, in an order that depends on the positions only. *)
Definition by_points {A0 : Alg} (perm : list Z -> list nat) (gs : list (@Group A0)) : list (@Group A0) :=
  map (fun i => nth i gs (0, [])) (perm (map fst gs)).
(** The record of an opening for the prover, with other numbers in place of those of the commitment. *)
Definition opening_bytes (P : Affine) (q : @ProverQuery RA) : bytes :=
  pair_bytes P ++ concat (map (@scalar_ser A I) (pq_poly q)) ++ [pq_point q] ++ @scalar_ser A I (pq_result q).
Definition raw_weights (w : @PrecomputedWeights RA) : @PrecomputedWeights WA := @mkPW WA (pw_weights w) (pw_inverted w).
End Spec.
