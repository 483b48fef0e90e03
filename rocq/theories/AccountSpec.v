(** Accounts kept in a trie under the keys of verkle-spec: the vocabulary of C52. *)
From Verif Require Import Base Alg TreeSpec TrieModel WireModel ProofModel IpaModel MsmModel FfiModel SpecModel LayoutSpec.

(** The key a user of verkle-spec computes for an item of an account: the field of
    [Header::new(..)], [Code::new(..).code_chunk()] or [Storage::new(..).storage_slot()]. *)
Definition item_key (h64 : bytes -> res bytes) (addr : bytes) (i : item) : res bytes :=
  match i with
  | Field 0 => let! h := header_new h64 addr in Ok (hd_version h)
  | Field 1 => let! h := header_new h64 addr in Ok (hd_balance h)
  | Field 2 => let! h := header_new h64 addr in Ok (hd_nonce h)
  | Field 3 => let! h := header_new h64 addr in Ok (hd_code_keccak h)
  | Field 4 => let! h := header_new h64 addr in Ok (hd_code_size h)
  | Field _ => Panic
  | Chunk c => code_chunk_key h64 addr c
  | Slot k => storage_slot_key h64 addr k
  end.

Definition item_eqb (i j : item) : bool :=
  match i, j with
  | Field x, Field y => x =? y
  | Chunk x, Chunk y => x =? y
  | Slot x, Slot y => x =? y
  | _, _ => false
  end.

(** Writes to items of accounts, oldest first; what they leave at an item. *)
Definition writes := list (bytes * item * bytes).
Fixpoint written (w : writes) (addr : bytes) (i : item) : option bytes :=
  match w with
  | [] => None
  | (a, j, v) :: w' =>
      match written w' addr i with
      | Some x => Some x
      | None => if beqb a addr && item_eqb j i then Some v else None
      end
  end.

(** The same writes as insertions into the trie. *)
Definition insertions (h64 : bytes -> res bytes) (w : writes) : res history :=
  rmap (fun '(a, i, v) => let! k := item_key h64 a i in Ok (k, v)) w.

Definition account_item (ai : bytes * item) : Prop := length (fst ai) = 32%nat /\ item_ok (snd ai).
(** The hash gives 32 bytes for every 64-byte input. *)
Definition hash_total (h64 : bytes -> res bytes) : Prop :=
  forall x, length x = 64%nat -> exists h, h64 x = Ok h /\ length h = 32%nat /\ is_bytes h.
(** No two of the given items have hash inputs that collide. *)
Definition collision_free (h64 : bytes -> res bytes) (l : list (bytes * item)) : Prop :=
  forall a1 i1 a2 i2, In (a1, i1) l -> In (a2, i2) l ->
    ~ same_prefix h64 (a1 ++ Z_le 32 (position i1 / 256)) (a2 ++ Z_le 32 (position i2 / 256)).

(** The writes that store code: its chunks in order. *)
Definition code_writes (addr : bytes) (chunks : list bytes) : writes :=
  map (fun ic => (addr, Chunk (Z.of_nat (fst ic)), snd ic)) (combine (seq 0 (length chunks)) chunks).
