(** Specification for C73: openings and claims of the interface on coordinates. *)
From Verif Require Import Base Alg TrieModel MsmModel WireModel ProofModel IpaModel LagrangeSpec IpaSpec FfiModel FfiSpec ElementModel ElementSpec CurveModel CurveSpec CurveAlg CurveRep CoordSpec.
Local Open Scope Z_scope.

Section Spec.
Context {B : BaseField} {BL : BaseFieldLaws B} {A : Alg} {I : FrInt A} {HS : Hasher}.
Local Notation RA := (@rep_alg B BL A I).
Local Notation CA := (@curve_alg B BL A I).
Local Notation CE := (@curve_ecodec B BL A I).

(** Openings that the prover may be given: at least one; each with a vector of 256 values, the commitment to it, a
    position below 256 and the value there. *)
Definition honest_openings (CP : Par CA) (qs : list (@ProverQuery RA)) : Prop :=
  qs <> [] /\ Forall record_fits qs /\ Forall (@good_query CA 256 (crs_G (@trie_crs CA CP))) (map elem_query qs).

(** The challenges derived for these openings are usable: the evaluation point is not one of 0..255, and none of the
    eight challenges of the inner product argument is zero. *)
Definition usable_openings (CP : Par CA) (qs : list (@ProverQuery RA)) : Prop :=
  @outside_domain CA 256 (@mp_honest_t CA CE HS 256 verkle_tr (@trie_crs CA CP) (map elem_query qs)) /\
  Forall (fun x => x <> fzero) (@mp_honest_challenges CA CE HS 8 verkle_tr (@trie_crs CA CP) (map elem_query qs)).

(** What the verifier is told: the elements, positions and values of the openings, possibly with other coordinates. *)
Definition claims_for (cs : list (@claim RA)) (qs : list (@ProverQuery RA)) : Prop :=
  Forall2 (fun c q => same_coord (fst (fst c)) (@pq_comm RA q) /\ snd (fst c) = pq_point q /\ snd c = pq_result q) cs qs.
End Spec.
