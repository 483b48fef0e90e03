(** The foreign-function interface: ffi_interface/src/lib.rs and
    ffi_interface/src/serialization.rs.  Hashing of commitments is in [ElementModel], tree keys
    in [SpecModel] and execution witnesses in [GoModel]. *)
From Coq Require Import String.
From Verif Require Import Base Alg WireModel ProofModel IpaModel MsmModel.
Local Open Scope list_scope.
Notation len := List.length.

(** lib.rs:70-92 [Error]. *)
Inductive FErr :=
| LengthOfScalarsNotMultipleOf32 (len : Z)
| TooManyScalars (expected got : Z)
| FailedToDeserializeScalar (bytes : bytes)
| LengthIsNotAnExpectedMultiple (item_descriptor : string) (expected_multiple actual_size : Z)
| CouldNotDeserializeCommitment (bytes : bytes)
| ProofVerificationFailed.
(** For ffi_interface/src/lib.rs. [Result<X, Error>]. *)
Inductive fresult (X : Type) := FOk (x : X) | FErr_ (e : FErr).
Arguments FOk {X} x. Arguments FErr_ {X} e.

(** For ffi_interface/src/lib.rs. The [?] operator. *)
Definition fbind {X Y} (r : fresult X) (k : X -> res (fresult Y)) : res (fresult Y) :=
  match r with FOk x => k x | FErr_ e => Ok (FErr_ e) end.

(** For bindings/c/src/lib.rs and java lib.rs. [b.chunks_exact(k)]: the whole chunks; the remainder is left out. *)
Definition chunks_exact (k : nat) (b : bytes) : list bytes :=
  map (fun i => firstn k (skipn (i * k) b)) (seq 0 (len b / k)).

Section Ffi.
Context {A : Alg} {C : ECodec A} {P : Par A} {I : FrInt A} {W : Wnaf A} {H : Hasher}.

(** lib.rs:34-39 [Context]. *)
Record Context_ := mkCtx { cx_crs : CRS; cx_committer : Committer; cx_pw : PrecomputedWeights }.

(** lib.rs:47-59 [Context::new]; [CRS::default] (crs.rs:12-16) has 256 generators. *)
Definition context_new : res Context_ :=
  let! committer := committer_new (crs_G trie_crs) in
  let! pw := precomputed_weights 256 in
  Ok (mkCtx trie_crs committer pw).

(** serialization.rs:221-225 [fr_from_le_bytes], on 32 bytes. *)
Definition fr_from_le_bytes (b : bytes) : fresult F :=
  match sc_de b with Some x => FOk x | None => FErr_ (FailedToDeserializeScalar b) end.

(** lib.rs:168-171, all scalars or the first error. *)
Fixpoint all_scalars (l : list bytes) : fresult (list F) :=
  match l with
  | [] => FOk []
  | b :: l' =>
      match fr_from_le_bytes b with
      | FErr_ e => FErr_ e
      | FOk x => match all_scalars l' with FErr_ e => FErr_ e | FOk xs => FOk (x :: xs) end
      end
  end.

(** lib.rs:150-174 [_commit_to_scalars]; [max_number_of_elements] is crs.rs:33-35. *)
Definition commit_to_scalars_ (split : Split) (cx : Context_) (scalars : bytes) : res (fresult G) :=
  let scalars_len := Z.of_nat (len scalars) in
  if negb (scalars_len mod 32 =? 0) then Ok (FErr_ (LengthOfScalarsNotMultipleOf32 scalars_len))
  else
    let num_scalars := scalars_len / 32 in
    if 256 <? num_scalars then Ok (FErr_ (TooManyScalars (Z.of_nat (crs_n (cx_crs cx))) num_scalars))
    else
      fbind (all_scalars (chunks_exact 32 scalars)) (fun inputs =>
      let! c := commit_lagrange split (cx_committer cx) inputs in
      Ok (FOk c)).

(** lib.rs:179-182 [commit_to_scalars].  Simplification here and below: [eu_ser] is one encoding of the
    element; the code writes one of two, depending on how the element was computed.  [CurveRep] runs
    these functions on coordinates. *)
Definition commit_to_scalars (split : Split) (cx : Context_) (scalars : bytes) : res (fresult bytes) :=
  let! r := commit_to_scalars_ split cx scalars in
  fbind r (fun c => Ok (FOk (eu_ser c))).

(** lib.rs:185-189 [add_commitment]; [from_bytes_unchecked_uncompressed] panics on bytes that
    are not coordinates.  Coordinates of no group element are outside the model. *)
Definition add_commitment (lhs rhs : bytes) : res bytes :=
  let! lhs := unwrap (eu_de lhs) in
  let! rhs := unwrap (eu_de rhs) in
  Ok (eu_ser (gadd lhs rhs)).

(** lib.rs:199-221 [update_commitment]; the index is a [u8]. *)
Definition update_commitment (cx : Context_) (old_commitment_bytes : bytes) (commitment_index : Z)
    (old_scalar_bytes new_scalar_bytes : bytes) : res (fresult bytes) :=
  let! old_commitment := unwrap (eu_de old_commitment_bytes) in
  fbind (fr_from_le_bytes old_scalar_bytes) (fun old_scalar =>
  fbind (fr_from_le_bytes new_scalar_bytes) (fun new_scalar =>
  let delta := fsub new_scalar old_scalar in
  let! delta_commitment := committer_scalar_mul (cx_committer cx) delta (Z.to_nat commitment_index) in
  Ok (FOk (eu_ser (gadd delta_commitment old_commitment))))).

(** lib.rs:236-242, for the positions [index], [index+1], .. of the three vectors. *)
Fixpoint sparse_deltas (index_ : nat) (indices : list nat) (olds news : list bytes) : res (list (F * nat)) :=
  match indices with
  | [] => Ok []
  | i :: indices' =>
      let! old_bytes := index olds index_ in
      let! old_scalar := unwrap (sc_de old_bytes) in
      let! new_bytes := index news index_ in
      let! new_scalar := unwrap (sc_de new_bytes) in
      let! r := sparse_deltas (S index_) indices' olds news in
      Ok ((fsub new_scalar old_scalar, i) :: r)
  end.

(** lib.rs:224-248 [update_commitment_sparse]; it never returns an error. *)
Definition update_commitment_sparse (cx : Context_) (old_commitment_bytes : bytes) (indices : list nat)
    (olds news : list bytes) : res (fresult bytes) :=
  let! old_commitment := unwrap (eu_de old_commitment_bytes) in
  let! delta_values := sparse_deltas 0 indices olds news in
  let! delta_commitment := committer_commit_sparse (cx_committer cx) delta_values in
  Ok (FOk (eu_ser (gadd delta_commitment old_commitment))).

(** serialization.rs:50-62, the loop over the chunks. *)
Fixpoint sparse_items (l : list bytes) : res (list nat * list bytes * list bytes) :=
  match l with
  | [] => Ok ([], [], [])
  | b :: l' =>
      let! old_scalar := slice 0 32 b in
      let! new_scalar := slice 32 64 b in
      let! i := index b 64 in
      let! (is_, os, ns) := sparse_items l' in
      Ok (Z.to_nat i :: is_, old_scalar :: os, new_scalar :: ns)
  end.

(** serialization.rs:22-64 [deserialize_update_commitment_sparse]. *)
Definition deserialize_update_commitment_sparse (input : bytes)
  : res (fresult (bytes * list nat * list bytes * list bytes)) :=
  let! commitment_bytes := slice 0 64 input in
  let! rest := slice_from 64 input in
  let n := Z.of_nat (len rest) in
  if negb (n mod 65 =? 0)
  then Ok (FErr_ (LengthIsNotAnExpectedMultiple "input for update commitment" 65 n))
  else
    let! (is_, os, ns) := sparse_items (chunks_exact 65 rest) in
    Ok (FOk (commitment_bytes, is_, os, ns)).

(** serialization.rs:69-71 [serialize_commitment]. *)
Definition serialize_commitment (commitment : bytes) : res bytes :=
  let! c := unwrap (eu_de commitment) in Ok (el_ser c).

(** serialization.rs:75-82 [deserialize_commitment]. *)
Definition deserialize_commitment (serialized_commitment : bytes) : fresult bytes :=
  match el_de serialized_commitment with
  | Some c => FOk (eu_ser c)
  | None => FErr_ (CouldNotDeserializeCommitment serialized_commitment)
  end.

(** serialization.rs:184-213 [take_uncompressed_group_element], [take_group_element], [take_byte],
    [take_scalar]. *)
Definition take_uncompressed_group_element (b : bytes) : res (G * bytes) :=
  let! c := slice 0 64 b in
  let! g := unwrap (eu_de c) in
  let! r := slice_from 64 b in
  Ok (g, r).
(** serialization.rs:196-201. *)
Definition take_group_element (b : bytes) : res (G * bytes) :=
  let! c := slice 0 32 b in
  let! g := unwrap (el_de c) in
  let! r := slice_from 32 b in
  Ok (g, r).
(** serialization.rs:203-207. *)
Definition take_byte (b : bytes) : res (Z * bytes) :=
  let! z := index b 0 in
  let! r := slice_from 1 b in
  Ok (z, r).
(** serialization.rs:209-213. *)
Definition take_scalar (b : bytes) : res (F * bytes) :=
  let! c := slice 0 32 b in
  let! y := unwrap (sc_de c) in
  let! r := slice_from 32 b in
  Ok (y, r).
(** serialization.rs:92-97. *)
Fixpoint take_scalars (n : nat) (b : bytes) : res (list F * bytes) :=
  match n with
  | O => Ok ([], b)
  | S n' =>
      let! (x, b) := take_scalar b in
      let! (xs, b) := take_scalars n' b in
      Ok (x :: xs, b)
  end.

(** serialization.rs:84-112 [deserialize_proof_query] and 114-142 [.._uncompressed], which differ
    in how the commitment is read. *)
Definition proof_query_with (take : bytes -> res (G * bytes)) (b : bytes) : res ProverQuery :=
  let! (commitment, b) := take b in
  let! (poly, b) := take_scalars 256 b in
  let! (z_i, b) := take_byte b in
  let! (y_i, b) := take_scalar b in
  let! _ := assertb (len b =? 0)%nat in
  Ok (mkPQ commitment poly z_i y_i).
(** serialization.rs:85-112. *)
Definition deserialize_proof_query := proof_query_with take_group_element.
(** serialization.rs:115-142. *)
Definition deserialize_proof_query_uncompressed := proof_query_with take_uncompressed_group_element.

(** serialization.rs:144-162 [deserialize_verifier_query] and 164-182 [.._uncompressed]. *)
Definition verifier_query_with (take : bytes -> res (G * bytes)) (b : bytes) : res VerifierQuery :=
  let! (commitment, b) := take b in
  let! (z_i, b) := take_byte b in
  let! (y_i, b) := take_scalar b in
  let! _ := assertb (len b =? 0)%nat in
  Ok (mkVQ commitment (of_Z z_i) y_i).
(** serialization.rs:145-162. *)
Definition deserialize_verifier_query := verifier_query_with take_group_element.
(** serialization.rs:165-182. *)
Definition deserialize_verifier_query_uncompressed := verifier_query_with take_uncompressed_group_element.

(** lib.rs:294 [CHUNK_SIZE]. *)
Definition PROOF_CHUNK : nat := Z.to_nat 8257.

(** lib.rs:287-333 [create_proof]. *)
Definition ffi_create_proof (order : list Group -> list Group) (cx : Context_) (input : bytes) : res (fresult bytes) :=
  let n := Z.of_nat (len input) in
  if negb (n mod 8257 =? 0) then Ok (FErr_ (LengthIsNotAnExpectedMultiple "Input length for proof" 8257 n))
  else
    let! prover_queries := rmap deserialize_proof_query (chunks_exact PROOF_CHUNK input) in
    let! (proof, _) := mp_open order (cx_crs cx) (cx_pw cx) (tr_new (lbl "verkle")) prover_queries in
    Ok (FOk (mp_to_bytes proof)).

(** lib.rs:343-389 [verify_proof]; [chunks] and [chunks_exact] agree after the length test. *)
Definition ffi_verify_proof (cx : Context_) (input : bytes) : res (fresult unit) :=
  let! proof_bytes := slice 0 576 input in
  let! o := mp_from_bytes proof_bytes 256 in
  let! proof := unwrap o in
  let! verifier_queries_bytes := slice_from 576 input in
  let n := Z.of_nat (len verifier_queries_bytes) in
  if negb (n mod 65 =? 0) then Ok (FErr_ (LengthIsNotAnExpectedMultiple "Verifier queries" 65 n))
  else
    let! verifier_queries := rmap deserialize_verifier_query (chunks_exact 65 verifier_queries_bytes) in
    let! ok := mp_check proof (cx_crs cx) (cx_pw cx) verifier_queries (tr_new (lbl "verkle")) in
    Ok (if ok then FOk tt else FErr_ ProofVerificationFailed).
End Ffi.
