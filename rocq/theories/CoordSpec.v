(** Specification for the theorems on coordinates (C56, C59 to C61): the group element that coordinates stand
    for, and what it is for two values that contain coordinates to be the same up to the choice of coordinates. *)
From Verif Require Import Base Alg TrieModel MsmModel WireModel CodecModel VerkleDbModel ProofModel StatelessModel ElementModel ElementSpec CurveModel CurveSpec CurveAlg CurveRep.

Section Elements.
Context {B : BaseField} {BL : BaseFieldLaws B} {A : Alg} {I : FrInt A}.
Local Notation RA := (@rep_alg B BL A I).
Local Notation CA := (@curve_alg B BL A I).

(** The element with these coordinates. *)
Definition elem (g : Coord) : @G CA := group_of (of_affine (coords g)).

(** Equal elements, by the comparison of the code. *)
Definition same_coord (g h : Coord) : Prop := element_eqb (of_affine (coords g)) (of_affine (coords h)) = true.

(** Equal proofs. *)
Definition same_proof (p q : @VerkleProof RA) : Prop :=
  vp_hint p = vp_hint q /\ Forall2 same_coord (vp_comms p) (vp_comms q) /\
  Forall2 same_coord (ipa_L (mp_ipa (vp_proof p))) (ipa_L (mp_ipa (vp_proof q))) /\
  Forall2 same_coord (ipa_R (mp_ipa (vp_proof p))) (ipa_R (mp_ipa (vp_proof q))) /\
  ipa_a (mp_ipa (vp_proof p)) = ipa_a (mp_ipa (vp_proof q)) /\
  same_coord (mp_g (vp_proof p)) (mp_g (vp_proof q)).

(** Equal outcomes of a call: both panic, or both return and [R] holds of what they return. *)
Definition same_outcome {X Y} (R : X -> Y -> Prop) (a : res X) (b : res Y) : Prop :=
  match a, b with Ok x, Ok y => R x y | Panic, Panic => True | _, _ => False end.

(** A query of the prover, on the element its coordinates stand for. *)
Definition elem_query (q : @ProverQuery RA) : @ProverQuery CA := @mkPQ CA (elem (pq_comm q)) (pq_poly q) (pq_point q) (pq_result q).

(** Generators [CP] in the group that are the elements of the coordinates [RP]; the hash is that of the code,
    on either side. *)
Record stands_for (RP : Par RA) (CP : Par CA) : Prop := {
  sf_rhash : forall p, @hash RA RP p = @co_hash B A p;
  sf_hash : forall p, @hash CA CP p = @pt_hash B A p;
  sf_crs : forall i, @crs CA CP i = elem (@crs RA RP i);
  sf_crsQ : @crsQ CA CP = elem (@crsQ RA RP)
}.

(** Equal results of the stateless update. *)
Definition same_update (x y : @vresult RA) : Prop :=
  match x, y with VOk g, VOk h => same_coord g h | VErr e, VErr e' => e = e' | _, _ => False end.
End Elements.

Section Records.
Context {A : Alg} {C : Codec A}.
(** The store holds a node record that its own reader answers with an error. *)
Definition record_refused (d : Disk) : Prop :=
  (exists s b, d (stem_dkey s) = Some b /\ stem_meta_from_bytes b = Ok None) \/
  (exists p b, d (branch_dkey p) = Some b /\ branch_meta_from_bytes b = Ok None).
End Records.
