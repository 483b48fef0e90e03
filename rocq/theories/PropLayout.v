(** Code chunking (C36), storage slots (C37), the layout of an account (C38) and tree keys (C39). *)
From Verif Require Import Base BaseFacts Alg AlgInst CodecInst WireModel WireInst ProofModel IpaModel IpaInst
  MsmModel MsmSpec MsmInst FfiModel FfiSpec FfiInst SpecModel LayoutSpec LayoutProofs LayoutInst.

(** ** C36 *)
(** The chunks are those specified.  One more chunk, of zeros, follows exactly when a PUSH32 is the
    last byte before the last chunk. *)
Theorem C36_chunks_partial : forall checked code, code <> [] ->
  exists extra, chunkify_code checked code = Ok (code_chunks code ++ extra) /\
    (extra = [] \/ extra = [repeat 0 32]) /\ (extra <> [] <-> push32_before_last_chunk code).
Proof. exact chunkify_ok. Qed.
(** Specified chunks have 32 bytes, and their payloads are the padded code. *)
Theorem C36_payload : forall code, concat (map (@tl Z) (code_chunks code)) = padded code /\
  Forall (fun c => length c = 32%nat) (code_chunks code) /\ length (code_chunks code) = chunk_count code.
Proof. exact chunks_payload. Qed.
(** Empty code has no chunks; builds with overflow checks panic on it. *)
Theorem C36_empty_refuted : chunkify_code true [] = Panic /\ chunkify_code false [] = Ok [].
Proof. exact chunkify_empty. Qed.
(** The number of chunks is not always that of the code. *)
Theorem C36_extra_chunk_refuted : push32_before_last_chunk code_push32 /\
  chunkify_code true code_push32 = Ok (code_chunks code_push32 ++ [repeat 0 32]) /\ (length (code_chunks code_push32) = 2)%nat.
Proof. exact push32_case. Qed.

(** ** C37, C38: any hash *)
Section Keys.
Variable h64 : bytes -> res bytes.

Theorem C37_storage_slot_partial : forall addr k, 0 <= k < 2 ^ 256 - 2 ^ 248 ->
  storage_slot_key h64 addr k = key_at h64 addr (position (Slot k)).
Proof. exact (storage_key_ok h64). Qed.
(** For the remaining 256-bit keys the position overflows. *)
Theorem C37_large_key_panics_refuted : forall addr k, 2 ^ 256 - 2 ^ 248 <= k -> storage_slot_key h64 addr k = Panic.
Proof. exact (storage_key_overflow h64). Qed.

Theorem C38_code_chunk : forall addr c, 0 <= c < 2 ^ 256 - 128 -> code_chunk_key h64 addr c = key_at h64 addr (position (Chunk c)).
Proof. exact (code_key_ok h64). Qed.
Theorem C38_code_chunk_overflow : forall addr c, 2 ^ 256 - 128 <= c -> code_chunk_key h64 addr c = Panic.
Proof. exact (code_key_overflow h64). Qed.
Theorem C38_header : forall addr t, 0 <= t -> header_with_tree_index h64 addr t =
  (let! v := key_at h64 addr (256 * t + 0) in let! b := key_at h64 addr (256 * t + 1) in
   let! n := key_at h64 addr (256 * t + 2) in let! k := key_at h64 addr (256 * t + 3) in
   let! s := key_at h64 addr (256 * t + 4) in Ok (mkHeader v b n k s)).
Proof. exact (header_ok h64). Qed.

(** Equal keys belong to the same item of the same account, or the hash inputs of the two items
    are a collision of the hash. *)
Theorem C38_keys_distinct : forall a1 a2 i1 i2 k, (forall x h, h64 x = Ok h -> length h = 32%nat) ->
  length a1 = 32%nat -> length a2 = 32%nat -> item_ok i1 -> item_ok i2 ->
  key_at h64 a1 (position i1) = Ok k -> key_at h64 a2 (position i2) = Ok k ->
  (a1 = a2 /\ i1 = i2) \/ same_prefix h64 (a1 ++ Z_le 32 (position i1 / 256)) (a2 ++ Z_le 32 (position i2 / 256)).
Proof. exact (items_distinct h64). Qed.
Theorem C38_group_distinct : forall addr i1 i2 k, (forall x h, h64 x = Ok h -> length h = 32%nat) -> length addr = 32%nat ->
  item_ok i1 -> item_ok i2 -> position i1 / 256 = position i2 / 256 ->
  key_at h64 addr (position i1) = Ok k -> key_at h64 addr (position i2) = Ok k -> i1 = i2.
Proof. exact (group_distinct h64). Qed.
(** Chunk numbers are 256-bit; from 2^248 - 64 on, they run into storage. *)
Theorem C38_huge_chunk_refuted : forall addr k, 64 <= k < 2 ^ 256 - 2 ^ 248 ->
  code_chunk_key h64 addr (2 ^ 248 - 128 + k) = storage_slot_key h64 addr k.
Proof. exact (huge_chunk h64). Qed.
End Keys.

(** No two items share a position, and positions fit 256 bits. *)
Theorem C38_positions_distinct : forall i j, item_ok i -> item_ok j -> position i = position j -> i = j.
Proof. exact position_inj. Qed.
Theorem C38_positions_range : forall i, item_ok i -> 0 <= position i < 2 ^ 256.
Proof. exact position_range. Qed.

(** ** C39 *)
Theorem C39_chunk64 : forall b, length b = 64%nat -> chunk64 b = hash_input b 4.
Proof. exact chunk64_ok. Qed.
Theorem C39_chunk_bytes : forall b, (length b <= 255 * 16)%nat -> chunk_bytes b = Ok (hash_input b 255).
Proof. exact chunk_bytes_ok. Qed.
Theorem C39_chunk_bytes_too_long : forall b, (255 * 16 < length b)%nat -> chunk_bytes b = Panic.
Proof. exact chunk_bytes_long. Qed.
Theorem C39_input_injective : forall b b' n, is_bytes b -> is_bytes b' -> (length b <= 16 * n)%nat -> (length b' <= 16 * n)%nat ->
  hash_input b n = hash_input b' n -> b = b'.
Proof. exact hash_input_inj. Qed.
Theorem C39_address : forall a b, length a = 20%nat ->
  length (addr20_to_addr32 a) = 32%nat /\ (addr20_to_addr32 a = addr20_to_addr32 b -> a = b).
Proof. exact (fun a b H => conj (addr_ok a H) (addr_inj a b)). Qed.

Section Hash.
Context {A : Alg} {L : AlgLaws A} {C : ECodec A} {CL : ECodecLaws C} {P : Par A}
  {I : FrInt A} {IL : FrIntLaws I} {W : Wnaf A} {WL : WnafLaws W}.

(** Distinct inputs are distinct vectors of scalars, in a field with more than 2^128 elements. *)
Theorem C39_scalars_injective : forall b b' n, is_bytes b -> is_bytes b' ->
  (length b <= 16 * n)%nat -> (length b' <= 16 * n)%nat -> (n <= 255)%nat ->
  map of_Z (hash_input b n) = map of_Z (hash_input b' n) -> b = b' \/ scalar_overlap.
Proof. exact input_scalars_inj. Qed.
(** The hash commits to these scalars, maps the commitment to a scalar and writes it as 32 bytes. *)
Theorem C39_hash64 : forall points c split b, committer_new points = Ok c -> length b = 64%nat ->
  hash64 split c b = Ok (sc_ser (hash (combination (map of_Z (hash_input b 4)) points))).
Proof. exact hash64_ok. Qed.
Theorem C39_hash64_collision : forall points c split b b' h,
  committer_new points = Ok c -> length b = 64%nat -> length b' = 64%nat -> is_bytes b -> is_bytes b' ->
  hash64 split c b = Ok h -> hash64 split c b' = Ok h ->
  let v := map of_Z (hash_input b 4) in let v' := map of_Z (hash_input b' 4) in
  hash (combination v points) = hash (combination v' points) /\ (v = v' -> b = b' \/ scalar_overlap).
Proof. exact hash64_collision. Qed.
(** The interface's tree keys are the same keys, with the last byte replaced by the sub index. *)
Theorem C39_tree_key : forall cx split addr idx i, context_new = Ok cx -> length addr = 32%nat -> 0 <= idx -> 0 <= i < 256 ->
  exists h, hash64 split (cx_committer cx) (addr ++ Z_le 32 idx) = Ok h /\
    get_tree_key_hash split cx addr (Z_le 32 idx) = Ok h /\ length h = 32%nat /\
    get_tree_key split cx addr (Z_le 32 idx) i = Ok (firstn 31 h ++ [i]) /\
    get_tree_key split cx addr (Z_le 32 idx) i = key_at (hash64 split (cx_committer cx)) addr (256 * idx + i).
Proof. exact tree_key_ok. Qed.
End Hash.

(** Cases: push data running over a chunk boundary; PUSH32 data filling a chunk; keys with a toy hash
    and with the modelled hash. *)
Example C36_case : chunkify_code true code40 = Ok (code_chunks code40) /\
  code_chunks code40 = [0 :: repeat 1 28 ++ [99; 96; 96]; 2 :: [96; 96] ++ repeat 1 7 ++ repeat 0 22].
Proof. exact code40_case. Qed.
Example C36_push32_case : chunkify_code true code94 = Ok (code_chunks code94) /\
  map (fun c => hd 0 c) (code_chunks code94) = [0; 31; 1; 0] /\ (length (code_chunks code94) = 4)%nat.
Proof. exact code94_case. Qed.
Example C38_hash_case : forall x h, toy_hash x = Ok h -> length h = 32%nat.
Proof. exact toy_len. Qed.
Example C37_C38_case :
  storage_slot_key toy_hash (repeat 7 32) 5 = Ok ([7; 7; 7; 7] ++ repeat 0 27 ++ [69]) /\
  code_chunk_key toy_hash (repeat 7 32) 200 = Ok ([7; 7; 7; 7] ++ [1] ++ repeat 0 26 ++ [72]) /\
  (exists h, header_new toy_hash (repeat 7 32) = Ok h /\ hd_nonce h = [7; 7; 7; 7] ++ repeat 0 27 ++ [2]) /\
  storage_slot_key toy_hash (repeat 7 32) (2 ^ 256 - 1) = Panic.
Proof. exact layout_case. Qed.
Example C39_case : exists cx h, context_new (A := ExA) = Ok cx /\
  get_tree_key Whole cx (repeat 7 32) (Z_le 32 3) 9 = Ok (firstn 31 h ++ [9]) /\
  get_tree_key_hash Whole cx (repeat 7 32) (Z_le 32 3) = Ok h /\
  storage_slot_key (hash64 Whole (cx_committer cx)) (repeat 7 32) 5 = get_tree_key Whole cx (repeat 7 32) (Z_le 32 0) 69.
Proof. exact key_case. Qed.

Print Assumptions C36_chunks_partial.
Print Assumptions C36_payload.
Print Assumptions C36_empty_refuted.
Print Assumptions C36_extra_chunk_refuted.
Print Assumptions C37_storage_slot_partial.
Print Assumptions C37_large_key_panics_refuted.
Print Assumptions C38_code_chunk.
Print Assumptions C38_code_chunk_overflow.
Print Assumptions C38_header.
Print Assumptions C38_keys_distinct.
Print Assumptions C38_group_distinct.
Print Assumptions C38_huge_chunk_refuted.
Print Assumptions C38_positions_distinct.
Print Assumptions C38_positions_range.
Print Assumptions C39_chunk64.
Print Assumptions C39_chunk_bytes.
Print Assumptions C39_chunk_bytes_too_long.
Print Assumptions C39_input_injective.
Print Assumptions C39_address.
Print Assumptions C39_scalars_injective.
Print Assumptions C39_hash64.
Print Assumptions C39_hash64_collision.
Print Assumptions C39_tree_key.
