(** Specification of the tree layout (EIP-6800 style), of code chunking and of the hash input,
    independent of the model's functions. *)
From Verif Require Import Base Alg.

(** ** Code *)
(** PUSH1..PUSH32 (opcodes 96..127) are followed by that many bytes of data. *)
Definition push_size (op : Z) : nat := if (96 <=? op) && (op <=? 127) then Z.to_nat (op - 95) else 0%nat.

(** For every byte of the code, whether it is push data; [pending] bytes of data come first. *)
Fixpoint data_marks (pending : nat) (code : bytes) : list bool :=
  match code with
  | [] => []
  | op :: code' =>
      match pending with
      | S pending' => true :: data_marks pending' code'
      | O => false :: data_marks (push_size op) code'
      end
  end.

Fixpoint leading (l : list bool) : nat :=
  match l with true :: l' => S (leading l') | _ => 0%nat end.

Definition chunk_count (code : bytes) : nat := ((length code + 30) / 31)%nat.
Definition padded (code : bytes) : bytes := code ++ repeat 0 (31 * chunk_count code - length code).

(** Chunk number [i]: how many of its 31 bytes, from the first on, are push data; then the bytes. *)
Definition code_chunk (code : bytes) (i : nat) : bytes :=
  let marks := data_marks 0 (padded code) in
  Z.of_nat (leading (firstn 31 (skipn (31 * i) marks))) :: firstn 31 (skipn (31 * i) (padded code)).
Definition code_chunks (code : bytes) : list bytes := map (code_chunk code) (seq 0 (chunk_count code)).

(** The last byte before the last chunk is a PUSH32 instruction. *)
Definition push32_before_last_chunk (code : bytes) : Prop :=
  exists j, (S j = 31 * (chunk_count code - 1))%nat /\
    nth_error (padded code) j = Some 127 /\ nth_error (data_marks 0 (padded code)) j = Some false.

(** ** Positions in an account's part of the tree *)
Inductive item :=
| Field (i : Z)      (* version, balance, nonce, code hash, code size: 0..4 *)
| Chunk (c : Z)      (* code chunk number c *)
| Slot (k : Z).      (* storage slot k *)

Definition position (i : item) : Z :=
  match i with
  | Field i => i
  | Chunk c => 128 + c
  | Slot k => if k <? 64 then 64 + k else 2 ^ 248 + k
  end.

(** Items of real accounts: code of at most 31 * (2^248 - 64) bytes, and slots below the point where
    the position overflows 256 bits. *)
Definition item_ok (i : item) : Prop :=
  match i with
  | Field i => 0 <= i <= 4
  | Chunk c => 0 <= c < 2 ^ 248 - 64
  | Slot k => 0 <= k < 2 ^ 256 - 2 ^ 248
  end.

(** The key at a position: the first 31 bytes of the hash of the address and the position's group
    number, then the position within the group of 256. *)
Definition key_at (hash64 : bytes -> res bytes) (addr : bytes) (pos : Z) : res bytes :=
  match hash64 (addr ++ Z_le 32 (pos / 256)) with
  | Ok h => Ok (firstn 31 h ++ [pos mod 256])
  | Panic => Panic
  end.

(** The inputs [x] and [y] are a collision of the hash in its first 31 bytes. *)
Definition same_prefix (hash64 : bytes -> res bytes) (x y : bytes) : Prop :=
  x <> y /\ exists hx hy, hash64 x = Ok hx /\ hash64 y = Ok hy /\ firstn 31 hx = firstn 31 hy.

(** ** Hash input *)
(** 16-byte pieces as little-endian numbers, after a header with the type 2 and the length. *)
Definition piece (b : bytes) (i : nat) : Z := le_Z (firstn 16 (skipn (16 * i) b)).
Definition hash_input (b : bytes) (pieces : nat) : list Z :=
  (2 + 256 * Z.of_nat (length b)) :: map (piece b) (seq 0 pieces).

(** Two numbers below 2^128 that are the same scalar; there are none when the field is larger. *)
Definition scalar_overlap {A : Alg} : Prop :=
  exists x y, 0 <= x < 2 ^ 128 /\ 0 <= y < 2 ^ 128 /\ x <> y /\ of_Z x = of_Z y.
