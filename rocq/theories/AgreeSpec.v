(** What the root hash of a trie on disk tells of its values. *)
From Verif Require Import Base Alg TreeSpec VerkleDbModel DbSpec RewriteSpec.

(** The two integers a trie on disk commits to for a key: the sums over the values that count (RewriteSpec), each
    with the marker 2^128 that is added to its low half; nothing for a key without a value. *)
Definition totals (l : list Op) (k : bytes) : option (Z * Z) :=
  match counted l k with
  | [] => None
  | c => Some (zsum (map (fun v => 2 ^ 128 + low_int v) c), zsum (map high_int c))
  end.

(** An entry that carries two integers and nothing else, and the contents of the trie with such entries. *)
Definition total_entry (t : Z * Z) : bytes := (fst t - 2 ^ 128) :: repeat 0 15 ++ snd t :: repeat 0 15.
Definition summed (l : list Op) : history :=
  map (fun kv => (fst kv, match totals l (fst kv) with Some t => total_entry t | None => [] end)) (contents l).
