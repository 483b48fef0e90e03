(** Record encodings of verkle-trie/src/database/meta.rs. *)
From Verif Require Import Base Alg TrieModel.

(** The arkworks byte codecs meta.rs relies on.  [pt_ser]/[pt_de] are
    [Element]'s [serialize_uncompressed]/[deserialize_uncompressed]
    (banderwagon/src/trait_impls/serialize.rs:16, 58-61), [fr_ser]/[fr_de] the
    same for [Fr].  A decoding error is [None].  No law is assumed here: see
    [CodecLaws] below and [ExTC] in [CodecInst] for an element the code
    can hold that does not decode. *)
Class Codec (A : Alg) := mkCodec {
  pt_ser : G -> bytes; pt_de : bytes -> option G;
  fr_ser : F -> bytes; fr_de : bytes -> option F
}.

(** For meta.rs:48-64 and the decoders there. What arkworks guarantees for elements represented in the prime-order
    subgroup and for every scalar. *)
Class CodecLaws {A : Alg} (C : Codec A) : Prop := {
  pt_ser_len : forall g, length (pt_ser g) = 64%nat;
  pt_rt : forall g, pt_de (pt_ser g) = Some g;
  fr_ser_len : forall x, length (fr_ser x) = 32%nat;
  fr_rt : forall x, fr_de (fr_ser x) = Some x
}.

Section Codecs.
Context {A : Alg} {P : Par A} {C : Codec A}.

(** For the decoders of meta.rs (67-98, 147-165, 234-242). [?] on a decoding result inside a function returning [Result]: the outer
    [res] is panicking, the inner [option] is [Ok]/[Err]. *)
Definition qbind {X Y} (o : option X) (k : X -> res (option Y)) : res (option Y) :=
  match o with Some x => k x | None => Ok None end.

(** meta.rs:100-114 [StemMeta::to_bytes]; serialisation into a fixed array
    cannot fail. *)
Definition stem_meta_to_bytes (m : StemMeta) : bytes :=
  pt_ser (sm_c1 m) ++ pt_ser (sm_c2 m) ++ pt_ser (sm_comm m) ++
  fr_ser (sm_hash_c1 m) ++ fr_ser (sm_hash_c2 m) ++ fr_ser (sm_hash_comm m).

(** meta.rs:67-98 [StemMeta::from_bytes]. *)
Definition stem_meta_from_bytes (b : bytes) : res (option StemMeta) :=
  if negb (length b =? 64 * 3 + 32 * 3)%nat then Ok None else
  let! point_bytes := slice 0 (64 * 3) b in
  let! s1 := slice (0 * 64) (1 * 64) point_bytes in
  qbind (pt_de s1) (fun c_1 =>
  let! s2 := slice (1 * 64) (2 * 64) point_bytes in
  qbind (pt_de s2) (fun c_2 =>
  let! s3 := slice (2 * 64) (3 * 64) point_bytes in
  qbind (pt_de s3) (fun stem_commitment =>
  let! scalar_bytes := slice_from (64 * 3) b in
  let! f1 := slice (0 * 32) (1 * 32) scalar_bytes in
  qbind (fr_de f1) (fun hash_c1 =>
  let! f2 := slice (1 * 32) (2 * 32) scalar_bytes in
  qbind (fr_de f2) (fun hash_c2 =>
  let! f3 := slice (2 * 32) (3 * 32) scalar_bytes in
  qbind (fr_de f3) (fun hash_stem =>
  Ok (Some (mkStemMeta c_1 hash_c1 c_2 hash_c2 stem_commitment hash_stem)))))))).

(** meta.rs:167-176 [BranchMeta::to_bytes]. *)
Definition branch_meta_to_bytes (m : BranchMeta) : bytes :=
  pt_ser (bm_comm m) ++ fr_ser (bm_hash m).

(** meta.rs:147-165 [BranchMeta::from_bytes].  Line 150 reads
    [!len == 32 + 64] where [!] is the bitwise complement of a 64-bit [usize]. *)
Definition branch_meta_from_bytes (b : bytes) : res (option BranchMeta) :=
  if (2 ^ 64 - 1 - Z.of_nat (length b)) =? 32 + 64 then Ok None else
  let! point_bytes := slice 0 64 b in
  let! scalar_bytes := slice 64 (64 + 32) b in
  qbind (pt_de point_bytes) (fun commitment =>
  qbind (fr_de scalar_bytes) (fun h =>
  Ok (Some (mkBranchMeta commitment h)))).

(** meta.rs:225-232 [BranchChild::to_bytes]. *)
Definition branch_child_to_bytes (c : BranchChild) : bytes :=
  match c with CStem s => s | CBranch m => branch_meta_to_bytes m end.

(** meta.rs:234-242 [BranchChild::from_bytes]. *)
Definition branch_child_from_bytes (b : bytes) : res (option BranchChild) :=
  if (length b =? 31)%nat then Ok (Some (CStem b)) else
  let! m := branch_meta_from_bytes b in
  qbind m (fun m => Ok (Some (CBranch m))).

End Codecs.
