(** What the commitments of a trie on disk count when flushed values are written again.  The database call
    that writes a value returns the old value only if it is still waiting to be flushed
    (verkle-trie/src/database/default.rs:191-196), so a value written over a flushed one is added to it. *)
From Verif Require Import Base Alg TreeSpec VerkleDbModel DbSpec.

(** Per key, newest first: the values that count, one for each time the key was changed between two flushes.
    [ta_wait]: the key was changed since the last flush.  [ta_disk]: the values that count on disk. *)
Record Tally := mkTally { ta_now : bytes -> list bytes; ta_wait : bytes -> bool; ta_disk : bytes -> list bytes }.
Definition tally_start : Tally := mkTally (fun _ => []) (fun _ => false) (fun _ => []).
(** A new value takes the place of the one waiting to be flushed; a flushed one goes on counting. *)
Definition tally_write (x : bytes) (waits : bool) (old : list bytes) : list bytes :=
  if waits then x :: tl old else x :: old.
Definition same_value (x : bytes) (old : list bytes) : bool :=
  match old with [] => false | y :: _ => beqb y x end.
Definition tally_step (t : Tally) (o : Op) : Tally :=
  match o with
  | OInsert k x =>
      if same_value x (ta_now t k) then t
      else mkTally (fun k' => if beqb k k' then tally_write x (ta_wait t k) (ta_now t k) else ta_now t k')
                   (fun k' => beqb k k' || ta_wait t k') (ta_disk t)
  | OFlush => mkTally (ta_now t) (fun _ => false) (ta_now t)
  | OReopen => mkTally (ta_disk t) (fun _ => false) (ta_disk t)
  end.
Definition tally (l : list Op) : Tally := fold_left tally_step l tally_start.
Definition counted (l : list Op) (k : bytes) : list bytes := ta_now (tally l) k.

(** An entry whose two scalars are the sums of those of the values in a list: the integers behind the low
    halves (with a marker for every value but the first) and behind the high halves, where a value has its
    16 bytes of each; the rest of the entry is not committed to and tells lists of values apart. *)
Definition low_int (v : bytes) : Z := le_Z (firstn 16 v).
Definition high_int (v : bytes) : Z := le_Z (firstn 16 (skipn 16 v)).
Fixpoint zsum (l : list Z) : Z := match l with [] => 0 | z :: l' => z + zsum l' end.
Definition sum_entry (l : list bytes) : option bytes :=
  match l with
  | [] => None
  | [v] => Some v
  | _ :: l' => Some ((zsum (map low_int l) + 2 ^ 128 * Z.of_nat (length l')) :: repeat 0 15
                 ++ zsum (map high_int l) :: repeat 0 15 ++ concat l)
  end.
(** The contents of a trie with the entries that are committed to. *)
Definition tallied (l : list Op) : history :=
  map (fun kv => (fst kv, match sum_entry (counted l (fst kv)) with Some e => e | None => [] end)) (contents l).

(** A flushed value was changed: several values count for one key. *)
Definition rewrites (l : list Op) : Prop := exists k, (2 <= length (counted l k))%nat.

Section RewriteSpec.
Context {A : Alg}.
Fixpoint fsum (l : list F) : F := match l with [] => fzero | x :: l' => fadd x (fsum l') end.
(** The scalars of a key are the sums over the values that count. *)
Definition counts (m : bytes -> option bytes) (c : bytes -> list bytes) : Prop := forall k,
  leaf_low (m k) = fsum (map (fun v => leaf_low (Some v)) (c k)) /\
  leaf_high (m k) = fsum (map (fun v => leaf_high (Some v)) (c k)).
End RewriteSpec.
