(** The C binding (bindings/c/src/lib.rs) and the Java binding (bindings/java/rust_code/src).
    The C# binding calls the C functions. *)
From Coq Require Import String.
From Verif Require Import Base Alg CodecModel BTree WireModel ProofModel IpaModel MsmModel FfiModel SpecModel GoModel.
Local Open Scope list_scope.
Notation len := List.length.

Section Bindings.
Context {A : Alg} {C : ECodec A} {P : Par A} {I : FrInt A} {W : Wnaf A} {H : Hasher}.

(** ** C *)
(** Buffers are lists of bytes; a pointer and a length are the buffer they describe, and what is
    written to [out] is the result.  Invalid pointers are outside the model. *)

(** c/src/lib.rs:33-63 [pedersen_hash]; [None] is a null pointer, or nothing written. *)
Definition c_pedersen_hash (split : Split) (ctx : option Context_) (address tree_index_le : option bytes) (out : bool)
  : res (option bytes) :=
  match ctx, address, tree_index_le, out with
  | Some cx, Some a, Some t, true => let! h := get_tree_key_hash split cx a t in Ok (Some h)
  | _, _, _, _ => Ok None
  end.

(** bindings/c/src/lib.rs:67-92 [multi_scalar_mul]; the remainder of [chunks_exact] is dropped. *)
Definition c_multi_scalar_mul (split : Split) (cx : Context_) (scalars : bytes) : res bytes :=
  let! inputs := rmap (fun b => match fr_from_le_bytes b with FOk x => Ok x | FErr_ _ => Panic end) (chunks_exact 32 scalars) in
  let! data := commit_lagrange split (cx_committer cx) inputs in
  Ok (el_ser data).

(** bindings/c/src/lib.rs:110-113, 166-169, 219-222, 276-279, the assertion on the remainder. *)
Definition no_remainder (k : Z) (b : bytes) : res unit := assertb (Z.of_nat (len b) mod k =? 0).

(** bindings/c/src/lib.rs:96-142 [create_proof] and 146-200 [create_proof_uncompressed]; the last step is the
    [copy_from_slice] into the buffer of the caller. *)
Definition c_create_with (chunk size : Z) (de : bytes -> res ProverQuery) (ser : MultiPointProof -> bytes)
    (order : list Group -> list Group) (cx : Context_) (input : bytes) : res bytes :=
  let! _ := no_remainder chunk input in
  let! prover_queries := rmap de (chunks_exact (Z.to_nat chunk) input) in
  let! (proof, _) := mp_open order (cx_crs cx) (cx_pw cx) (tr_new (lbl "verkle")) prover_queries in
  let hash := ser proof in
  let! _ := assertb (Z.of_nat (len hash) =? size) in
  Ok hash.
(** bindings/c/src/lib.rs:96-142. *)
Definition c_create_proof := c_create_with 8257 576 deserialize_proof_query mp_to_bytes.
(** bindings/c/src/lib.rs:146-200. *)
Definition c_create_proof_uncompressed := c_create_with 8289 1120 deserialize_proof_query_uncompressed mp_to_bytes_uncompressed.

(** bindings/c/src/lib.rs:204-252 [verify_proof] and 256-309 [verify_proof_uncompressed]. *)
Definition c_verify_with (chunk : Z) (size : nat) (de : bytes -> res VerifierQuery) (de_proof : bytes -> nat -> res (option MultiPointProof))
    (cx : Context_) (input : bytes) : res bool :=
  let! proof_slice := slice 0 size input in
  let! verifier_queries_slices := slice_from size input in
  let! _ := no_remainder chunk verifier_queries_slices in
  let! verifier_queries := rmap de (chunks_exact (Z.to_nat chunk) verifier_queries_slices) in
  let! o := de_proof proof_slice 256%nat in
  let! proof := unwrap o in
  mp_check proof (cx_crs cx) (cx_pw cx) verifier_queries (tr_new (lbl "verkle")).
(** bindings/c/src/lib.rs:204-252. *)
Definition c_verify_proof := c_verify_with 65 576 deserialize_verifier_query mp_from_bytes.
(** bindings/c/src/lib.rs:256-309. *)
Definition c_verify_proof_uncompressed := c_verify_with 97 1120 deserialize_verifier_query_uncompressed mp_from_bytes_uncompressed.

(** ** Java *)
(** [JByteArray] (parsers.rs:5 and the others). A byte array, or null; an array of them, or null.  Copying arrays to and from Java is taken to
    succeed for arrays that are not null. *)
Definition jbytes := option bytes.
(** [JObjectArray] (utils.rs:148). *)
Definition jarray := option (list jbytes).
(** What java lib.rs:42-74 and the others give. A returned array, or an [IllegalArgumentException]. *)
Inductive jresult := JOk (b : bytes) | JThrow.

(** parsers.rs:5-14, 16-21, 23-34, 36-49. *)
Definition parse_scalars (values : jbytes) : option bytes :=
  match values with None => None | Some b => if (len b mod 32 =? 0)%nat then Some b else None end.
(** parsers.rs:16-21 [parse_indices]. *)
Definition parse_indices (values : jbytes) : option (list nat) := option_map (map Z.to_nat) values.
(** parsers.rs:23-34 [parse_commitment]. *)
Definition parse_commitment (commitment : jbytes) : option bytes :=
  match commitment with None => None | Some b => if (len b =? 64)%nat then Some b else None end.
(** parsers.rs:36-49 [parse_commitments]. *)
Definition parse_commitments (commitments : jbytes) : option bytes :=
  match commitments with None => None | Some b => if (len b mod 64 =? 0)%nat then Some b else None end.
(** java lib.rs:47-54 and the like. [match .. { Ok(v) => v, Err(e) => { throw; return default } }]. *)
Definition jtry {X} (o : option X) (k : X -> res jresult) : res jresult :=
  match o with Some x => k x | None => Ok JThrow end.
(** java lib.rs:55-63 and the like, on the results of ffi_interface. *)
Definition jtry_f {X} (r : fresult X) (k : X -> res jresult) : res jresult :=
  match r with FOk x => k x | FErr_ _ => Ok JThrow end.

(** java lib.rs:42-74 [commit], 77-109 [commitAsCompressed]. *)
Definition j_commit (split : Split) (cx : Context_) (values : jbytes) : res jresult :=
  jtry (parse_scalars values) (fun input =>
  let! r := commit_to_scalars split cx input in
  jtry_f r (fun c => Ok (JOk c))).
(** java lib.rs:77-109 [commitAsCompressed]. *)
Definition j_commit_as_compressed (split : Split) (cx : Context_) (values : jbytes) : res jresult :=
  jtry (parse_scalars values) (fun input =>
  let! r := commit_to_scalars split cx input in
  jtry_f r (fun c => let! s := serialize_commitment c in Ok (JOk s))).

(** java lib.rs:112-187 [updateSparse]. *)
Definition j_update_sparse (cx : Context_) (commitment indices old_values new_values : jbytes) : res jresult :=
  jtry (parse_commitment commitment) (fun commitment =>
  jtry (parse_indices indices) (fun pos =>
  jtry (parse_scalars old_values) (fun old =>
  jtry (parse_scalars new_values) (fun new_ =>
  let! r := update_commitment_sparse cx commitment pos (chunks_exact 32 old) (chunks_exact 32 new_) in
  jtry_f r (fun c => Ok (JOk c)))))).

(** java lib.rs:190-217 [compress], 220-250 [compressMany]. *)
Definition j_compress (commitment : jbytes) : res jresult :=
  jtry (parse_commitment commitment) (fun c => let! s := serialize_commitment c in Ok (JOk s)).
(** java lib.rs:220-250 [compressMany]. *)
Definition j_compress_many (commitments : jbytes) : res jresult :=
  jtry (parse_commitments commitments) (fun cs =>
  let! l := rmap serialize_commitment (chunks_exact 64 cs) in Ok (JOk (concat l))).

(** ffi_interface/src/lib.rs:255-261 [hash_commitment] and 267-276 [hash_commitments], on the
    abstract group; [ElementModel] has them by coordinates and C41 shows the batch equal to the
    single calls. *)
Definition hash_commitment_ (c : bytes) : res bytes := let! g := unwrap (eu_de c) in Ok (sc_ser (hash g)).
(** java lib.rs:253-279 [hash], 324-360 [hashMany], 282-321 [addCommitment]. *)
Definition j_hash (commitment : jbytes) : res jresult :=
  jtry (parse_commitment commitment) (fun c => let! h := hash_commitment_ c in Ok (JOk h)).
(** java lib.rs:324-360 [hashMany]. *)
Definition j_hash_many (commitments : jbytes) : res jresult :=
  jtry (parse_commitments commitments) (fun cs =>
  let! l := rmap hash_commitment_ (chunks_exact 64 cs) in Ok (JOk (concat l))).
(** java lib.rs:282-321 [addCommitment]. *)
Definition j_add_commitment (lhs rhs : jbytes) : res jresult :=
  jtry (parse_commitment lhs) (fun lhs =>
  jtry (parse_commitment rhs) (fun rhs =>
  let! out := add_commitment lhs rhs in Ok (JOk out))).

(** utils.rs:248-276 [jobject_array_to_2d_byte_array]; null panics ([unwrap]). *)
Definition j_2d (array : jarray) : res (list bytes) :=
  let! l := unwrap array in rmap unwrap l.
(** utils.rs:148-164 [get_array], 186-198 [get_optional_array]. *)
Definition get_array (array : jarray) (index : nat) : res (option bytes) :=
  let! v := j_2d array in
  Ok (match nth_error v index with Some b => if (len b =? 32)%nat then Some b else None | None => None end).
(** utils.rs:186-198 [get_optional_array]. *)
Definition get_optional_array (array : jarray) (index : nat) : res (option (option bytes)) :=
  let! v := j_2d array in
  Ok (option_map (fun b => if (len b =? 32)%nat then Some b else None) (nth_error v index)).
(** utils.rs:89-104 [jobjectarray_to_vec] with [bytes32_to_element]. *)
Definition j_elements (array : jarray) : res (option (list G)) :=
  let! v := j_2d array in
  Ok (if forallb (fun b => (len b =? 32)%nat) v then elements v else None).
(** utils.rs:120-131 [convert_byte_array_to_fixed_array], 36-40 [bytes32_to_scalar]. *)
Definition j_fixed (b : jbytes) : option bytes :=
  match b with Some b => if (len b =? 32)%nat then Some b else None | None => None end.
(** utils.rs:36-40 [bytes32_to_scalar]. *)
Definition j_scalar (b : bytes) : option F := sc_de (rev b).
(** utils.rs:56-66 [byte_to_depth_extension_present]: the fourth status is taken for depth 0, absent. *)
Definition j_status (value : Z) : ExtPresent * Z :=
  let s := Z.land value 3 in
  if s =? 0 then (ExtNone, Z.shiftr value 3) else if s =? 1 then (ExtDifferentStem, Z.shiftr value 3)
  else if s =? 2 then (ExtPres, Z.shiftr value 3) else (ExtNone, 0).
(** utils.rs:226-246 [convert_to_btree_set]. *)
Definition j_stems (array : jarray) : res (option (list bytes)) :=
  let! v := j_2d array in
  Ok (if forallb (fun b => (len b =? 31)%nat) v then Some (fold_left (fun s x => set_insert x s) v []) else None).

(** java lib.rs:385-394, the loop over the keys; [None] is [return false]. *)
Fixpoint j_keys (stems_keys current_values : jarray) (i n : nat) : res (option (list bytes * list (option bytes))) :=
  match n with
  | O => Ok (Some ([], []))
  | S n' =>
      let! k := get_array stems_keys i in
      qbind k (fun key =>
      let! v := get_optional_array current_values i in
      qbind v (fun value =>
      let! r := j_keys stems_keys current_values (S i) n' in
      qbind r (fun '(ks, vs) => Ok (Some (key :: ks, value :: vs)))))
  end.

(** java lib.rs:363-478 [verifyPreStateRoot], up to the check; [None] is [return false]. *)
Definition j_decode (stems_keys current_values commitments_by_path cl cr other_stems : jarray)
    (d depths final_evaluation prestate_root : jbytes) : res (option (VerkleProof * list bytes * list (option bytes) * G)) :=
  qbind stems_keys (fun sk =>
  let! kv := j_keys stems_keys current_values 0 (len sk) in
  qbind kv (fun '(keys, values) =>
  let! comms := j_elements commitments_by_path in
  qbind comms (fun comms =>
  let! l_vec := j_elements cl in
  qbind l_vec (fun l_vec =>
  let! r_vec := j_elements cr in
  qbind r_vec (fun r_vec =>
  qbind (j_fixed d) (fun d =>
  qbind (j_fixed final_evaluation) (fun fe =>
  qbind (j_scalar fe) (fun a =>
  qbind (el_de d) (fun g_x_comm =>
  qbind depths (fun depths_bytes =>
  let ed := map j_status depths_bytes in
  let! stems := j_stems other_stems in
  qbind stems (fun stems =>
  qbind (j_fixed prestate_root) (fun rb =>
  qbind (el_de rb) (fun root =>
  Ok (Some (mkVP (mkHint (map snd ed) (map fst ed) stems) comms (mkMP (mkIPA l_vec r_vec a) g_x_comm), keys, values, root))))))))))))))).
(** java lib.rs:363-478 [verifyPreStateRoot]. *)
Definition j_verify_pre_state_root (stems_keys current_values commitments_by_path cl cr other_stems : jarray)
    (d depths final_evaluation prestate_root : jbytes) : res bool :=
  let! o := j_decode stems_keys current_values commitments_by_path cl cr other_stems d depths final_evaluation prestate_root in
  match o with
  | None => Ok false
  | Some (vp, keys, values, root) => let! (ok, _) := proof_check vp keys values root in Ok ok
  end.
End Bindings.
