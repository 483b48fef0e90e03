(** The functions of the foreign-function interface that read a commitment without a check, on any 64
    bytes: ffi_interface/src/lib.rs and serialization.rs over the coordinates of [ElementModel].
    [FfiModel] has the same functions for bytes that are coordinates of a group element; the two
    functions that hash are in [ElementModel]. *)
From Verif Require Import Base Alg MsmModel WireModel IpaModel ProofModel FfiModel ElementModel ElementSpec ElementProofs CurveModel CurveAlg CurveRep.

Section Raw.
Context {B : BaseField} {BL : BaseFieldLaws B}.

(** serialization.rs:69-71 [serialize_commitment]. *)
Definition raw_serialize_commitment (commitment : bytes) : res bytes :=
  let! e := from_bytes_unchecked_uncompressed commitment in
  to_bytes e.

(** serialization.rs:75-82 [deserialize_commitment]. *)
Definition raw_deserialize_commitment (serialized_commitment : bytes) : res (fresult bytes) :=
  let! o := from_bytes serialized_commitment in
  match o with
  | None => Ok (FErr_ (CouldNotDeserializeCommitment serialized_commitment))
  | Some element => let! b := to_bytes_uncompressed element in Ok (FOk b)
  end.

(** lib.rs:185-189 [add_commitment]. *)
Definition raw_add_commitment (lhs rhs : bytes) : res bytes :=
  let! lhs := from_bytes_unchecked_uncompressed lhs in
  let! rhs := from_bytes_unchecked_uncompressed rhs in
  to_bytes_uncompressed (element_add lhs rhs).

Context {A : Alg} {I : FrInt A}.
Local Notation RA := (@rep_alg B BL A I).
Context {C : ECodec RA} {P : Par RA} {W : Wnaf RA} {H : Hasher}.
#[local] Existing Instance rep_int.

(** lib.rs:199-221 [update_commitment].  The committer's result is a point of the group, held here
    with z = 1; the code may hold it with another z, which does not change the bytes
    ([raw_add_any_scale] in [RawProofs]). *)
Definition raw_update_commitment (cx : @Context_ RA) (old_commitment_bytes : bytes) (commitment_index : Z)
    (old_scalar_bytes new_scalar_bytes : bytes) : res (fresult bytes) :=
  let! old_commitment := from_bytes_unchecked_uncompressed old_commitment_bytes in
  fbind (fr_from_le_bytes old_scalar_bytes) (fun old_scalar =>
  fbind (fr_from_le_bytes new_scalar_bytes) (fun new_scalar =>
  let delta := fsub new_scalar old_scalar in
  let! delta_commitment := committer_scalar_mul (cx_committer cx) delta (Z.to_nat commitment_index) in
  let! b := to_bytes_uncompressed (element_add (of_affine (coords delta_commitment)) old_commitment) in
  Ok (FOk b))).

(** lib.rs:224-248 [update_commitment_sparse]. *)
Definition raw_update_commitment_sparse (cx : @Context_ RA) (old_commitment_bytes : bytes) (indices : list nat)
    (olds news : list bytes) : res (fresult bytes) :=
  let! old_commitment := from_bytes_unchecked_uncompressed old_commitment_bytes in
  let! delta_values := sparse_deltas 0 indices olds news in
  let! delta_commitment := committer_commit_sparse (cx_committer cx) delta_values in
  let! b := to_bytes_uncompressed (element_add (of_affine (coords delta_commitment)) old_commitment) in
  Ok (FOk b).
End Raw.
