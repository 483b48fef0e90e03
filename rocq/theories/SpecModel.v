(** verkle-spec: how accounts, code and storage are laid out in the tree, and the hash that gives
    tree keys; with the tree-key functions of ffi_interface/src/lib.rs. *)
From Verif Require Import Base Alg WireModel ProofModel IpaModel MsmModel FfiModel.
Notation len := List.length.

(** [U256] arithmetic (external, ethereum-types): addition panics on overflow in every build. *)
Definition u256_add (x y : Z) : res Z := if x + y <? 2 ^ 256 then Ok (x + y) else Panic.
(** For storage.rs:15: subtraction, likewise. *)
Definition u256_sub (x y : Z) : res Z := if y <=? x then Ok (x - y) else Panic.

(** parameters.rs:4-12. *)
Definition VERSION_LEAF_KEY : Z := 0.
(** parameters.rs:5. *)
Definition BALANCE_LEAF_KEY : Z := 1.
(** parameters.rs:6. *)
Definition NONCE_LEAF_KEY : Z := 2.
(** parameters.rs:7. *)
Definition CODE_KECCAK_LEAF_KEY : Z := 3.
(** parameters.rs:8. *)
Definition CODE_SIZE_LEAF_KEY : Z := 4.
(** parameters.rs:9. *)
Definition HEADER_STORAGE_OFFSET : Z := 64.
(** parameters.rs:10. *)
Definition CODE_OFFSET : Z := 128.
(** parameters.rs:11. *)
Definition VERKLE_NODE_WIDTH : Z := 256.
(** parameters.rs:12. *)
Definition MAIN_STORAGE_OFFSET : Z := 2 ^ 56 * 2 ^ 192.

(** util.rs:5-16 [swap_last_byte]. *)
Definition swap_last_byte (hash : bytes) (byte : Z) : res bytes :=
  let! _ := assertb (byte <? 2 ^ 32) in
  let! _ := assertb (byte <? 256) in
  Ok (firstn 31 hash ++ [byte]).

(** util.rs:103-114 [zero_align_bytes]. *)
Definition zero_align_bytes (b : bytes) (alignment : nat) : res bytes :=
  let! _ := assertb (0 <? alignment)%nat in
  if (len b mod alignment =? 0)%nat then Ok b
  else Ok (b ++ repeat 0 (alignment - len b mod alignment)).

(** For util.rs:70, 90. [slice::chunks(n)]: pieces of n bytes, the last one possibly shorter. *)
Fixpoint chunks_aux (fuel n : nat) (b : bytes) : list bytes :=
  match fuel, b with
  | S fuel', _ :: _ => firstn n b :: chunks_aux fuel' n (skipn n b)
  | _, _ => []
  end.
(** util.rs:70, 90. *)
Definition chunks (n : nat) (b : bytes) : list bytes := chunks_aux (len b) n b.

(** util.rs:71-74. [<[u8; 16]>::try_from(chunk).expect(..)] and [u128::from_le_bytes]. *)
Definition u128_of_chunk (c : bytes) : res Z :=
  let! _ := assertb (len c =? 16)%nat in Ok (le_Z c).

(** util.rs:34-78 [chunk_bytes]; lengths of vectors are below 2^64. *)
Definition chunk_bytes (input : bytes) : res (list Z) :=
  let! w := u256_sub VERKLE_NODE_WIDTH 1 in
  let commit_capacity := Z.to_nat w in
  let! _ := assertb (len input <=? commit_capacity * 16)%nat in
  let encoding_flag := 2 + 256 * Z.of_nat (len input) in
  let pad_by := (commit_capacity * 16 - len input)%nat in
  let aligned_input := Z_le 16 encoding_flag ++ input ++ repeat 0 pad_by in
  rmap u128_of_chunk (chunks 16 aligned_input).

(** util.rs:80-101 [chunk64]: the flag, then the chunks of the 64 bytes; [zip] stops at the shorter. *)
Definition chunk64 (bytes64 : bytes) : list Z :=
  let encoding_flag := Z_le 16 (2 + 256 * 64) in
  let chunked_input := encoding_flag :: firstn 4 (chunks 16 bytes64) in
  map le_Z chunked_input.

(** lib.rs:64-71 [addr20_to_addr32]. *)
Definition addr20_to_addr32 (addr20 : bytes) : bytes := repeat 0 12 ++ addr20.

(** ** Positions and keys, for any implementation [hash64] of the [Hasher] trait *)
Section Keys.
Variable hash64_ : bytes -> res bytes.

(** util.rs:18-32 [hash_addr_int]. *)
Definition hash_addr_int (addr : bytes) (integer : Z) : res bytes := hash64_ (addr ++ Z_le 32 integer).

(** header.rs:10-41 [Header::new], [Header::with_tree_index]. *)
Record Header := mkHeader {
  hd_version : bytes; hd_balance : bytes; hd_nonce : bytes; hd_code_keccak : bytes; hd_code_size : bytes }.
(** header.rs:25-41 [Header::with_tree_index]. *)
Definition header_with_tree_index (addr : bytes) (tree_index : Z) : res Header :=
  let! base_hash := hash_addr_int addr tree_index in
  let! version := swap_last_byte base_hash VERSION_LEAF_KEY in
  let! balance := swap_last_byte base_hash BALANCE_LEAF_KEY in
  let! nonce := swap_last_byte base_hash NONCE_LEAF_KEY in
  let! code_keccak := swap_last_byte base_hash CODE_KECCAK_LEAF_KEY in
  let! code_size := swap_last_byte base_hash CODE_SIZE_LEAF_KEY in
  Ok (mkHeader version balance nonce code_keccak code_size).
(** header.rs:20-23 [Header::new]. *)
Definition header_new (addr : bytes) : res Header := header_with_tree_index addr 0.

(** code.rs:14-24 [Code::new], 26-28 [code_chunk]. *)
Definition code_chunk_key (addr : bytes) (chunk_id : Z) : res bytes :=
  let! s := u256_add CODE_OFFSET chunk_id in
  let index := s / VERKLE_NODE_WIDTH in
  let sub_index := s mod VERKLE_NODE_WIDTH in
  let! base_hash := hash_addr_int addr index in
  swap_last_byte base_hash sub_index.

(** storage.rs:14-27 [Storage::new], 29-31 [storage_slot]. *)
Definition storage_slot_key (addr : bytes) (storage_key : Z) : res bytes :=
  let! bound := u256_sub CODE_OFFSET HEADER_STORAGE_OFFSET in
  let! pos := if storage_key <? bound then u256_add HEADER_STORAGE_OFFSET storage_key
              else u256_add MAIN_STORAGE_OFFSET storage_key in
  let! base_hash := hash_addr_int addr (pos / VERKLE_NODE_WIDTH) in
  swap_last_byte base_hash (pos mod VERKLE_NODE_WIDTH).
End Keys.

(** ** The default hash *)
Section Hash.
Context {A : Alg} {C : ECodec A} {P : Par A} {I : FrInt A} {W : Wnaf A}.

(** lib.rs:44-57 [hash64] and the default of [Hasher::hash64] (24-29).  How the committer splits
    the work over threads is a parameter. *)
Definition hash64 (split : Split) (committer : Committer) (bytes64 : bytes) : res bytes :=
  let inputs := map of_Z (chunk64 bytes64) in
  let! result := commit_lagrange split committer inputs in
  let hashed_point := hash result in
  Ok (sc_ser hashed_point).

(** ffi_interface/src/lib.rs:102-112 [get_tree_key_hash], 120-122 [get_tree_key_hash_flat_input] and
    127-138 [get_tree_key]. *)
Definition get_tree_key_hash_flat_input (split : Split) (cx : Context_) (input : bytes) : res bytes :=
  hash64 split (cx_committer cx) input.
(** ffi_interface/src/lib.rs:102-112 [get_tree_key_hash]. *)
Definition get_tree_key_hash (split : Split) (cx : Context_) (address tree_index_le : bytes) : res bytes :=
  get_tree_key_hash_flat_input split cx (address ++ tree_index_le).
(** ffi_interface/src/lib.rs:127-138 [get_tree_key]. *)
Definition get_tree_key (split : Split) (cx : Context_) (address tree_index_le : bytes) (sub_index : Z) : res bytes :=
  let! h := get_tree_key_hash split cx address tree_index_le in
  Ok (firstn 31 h ++ [sub_index]).
End Hash.

(** ** Code *)
(** code.rs:31-33. *)
Definition PUSH_OFFSET : Z := 95.
(** code.rs:32. *)
Definition PUSH1 : Z := PUSH_OFFSET + 1.
(** code.rs:33. *)
Definition PUSH32 : Z := PUSH_OFFSET + 32.

(** code.rs:124-149 [compute_leftover_push_data]; every turn of the loop advances [pos]. *)
Fixpoint leftover_loop (fuel : nat) (code_chunk : bytes) (pos : nat) : res nat :=
  if (pos <? len code_chunk)%nat then
    match fuel with
    | O => Panic
    | S fuel' =>
        let! curr_instruction := index code_chunk pos in
        let is_push_instruction := (PUSH1 <=? curr_instruction) && (curr_instruction <=? PUSH32) in
        let pos := S pos in
        let pos := if is_push_instruction then (pos + Z.to_nat (curr_instruction - PUSH_OFFSET))%nat else pos in
        leftover_loop fuel' code_chunk pos
    end
  else Ok pos.
(** code.rs:124-149. *)
Definition compute_leftover_push_data (code_chunk : bytes) : res nat :=
  let! pos := leftover_loop (len code_chunk) code_chunk 0 in
  let leftover := (pos - len code_chunk)%nat in
  let! _ := assertb (leftover <? 256)%nat in
  Ok leftover.

(** code.rs:61-91, the loop of [chunkify_code] over the chunks from [chunk_i] on: the markers it
    appends and whether the last chunk asks for another. *)
Fixpoint push_loop (last_chunk_index : Z) (chunk_i : Z) (leftover_push_data : nat) (l : list bytes) : res (list nat * bool) :=
  match l with
  | [] => Ok ([], false)
  | chunk :: l' =>
      if (len chunk <? leftover_push_data)%nat then
        if chunk_i =? last_chunk_index then Ok ([], true)
        else
          let leftover := (leftover_push_data - len chunk)%nat in
          let! (ms, flag) := push_loop last_chunk_index (chunk_i + 1) leftover l' in
          Ok (leftover :: ms, flag)
      else
        let! offsetted_chunk := slice_from leftover_push_data chunk in
        let! leftover := compute_leftover_push_data offsetted_chunk in
        let! (ms, flag) := push_loop last_chunk_index (chunk_i + 1) leftover l' in
        Ok (Nat.min leftover (len chunk) :: ms, flag)
  end.

(** code.rs:93-103: a marker and 31 bytes make a chunk. *)
Definition merge_chunk (e : nat * bytes) : res bytes :=
  let '(prefix_byte, chunk31) := e in
  let! _ := assertb (prefix_byte <? 256)%nat in
  Ok (Z.of_nat prefix_byte :: chunk31).

(** code.rs:44-111 [chunkify_code].  [checked] says whether the build checks for overflow: line 58
    computes [len - 1], which for empty code panics if it does and wraps to 2^64 - 1 if not. *)
Definition chunkify_code (checked : bool) (code : bytes) : res (list bytes) :=
  let! aligned_code := zero_align_bytes code 31 in
  let chunked_code31 := chunks_exact 31 aligned_code in
  let! last_chunk_index :=
    if (len chunked_code31 =? 0)%nat then (if checked then Panic else Ok (2 ^ 64 - 1))
    else Ok (Z.of_nat (len chunked_code31) - 1) in
  let! (markers, last_chunk_push_data) := push_loop last_chunk_index 0 0 chunked_code31 in
  let remaining_pushdata_bytes := 0%nat :: markers in
  let! chunked_code32 := rmap merge_chunk (combine remaining_pushdata_bytes chunked_code31) in
  Ok (if last_chunk_push_data then chunked_code32 ++ [repeat 0 32] else chunked_code32).
