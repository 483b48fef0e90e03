(** Specification of the verkle tree, written from the published description
    of the data structure and not from trie.rs: a finite map of 32-byte keys
    to 32-byte values, and the commitment of that map recomputed from
    scratch. *)
From Verif Require Import Base Alg.

Section Spec.
Context {A : Alg} {P : Par A}.

(** A history of insertions, oldest first, and the map it leaves: the last
    write to a key wins. *)
Definition history := list (bytes * bytes).
Fixpoint final_map (h : history) (k : bytes) : option bytes :=
  match h with
  | [] => None
  | (k', v) :: h' =>
      match final_map h' k with
      | Some w => Some w
      | None => if beqb k' k then Some v else None
      end
  end.

(** Histories of well-formed keys. *)
Definition wf_history (h : history) : Prop := Forall (fun kv => is_key (fst kv)) h.

(** The distinct stems (first 31 bytes of a key) written by a history. *)
Definition stems_of (h : history) : list bytes :=
  nodup (list_eq_dec Z.eq_dec) (map (fun kv => firstn 31 (fst kv)) h).

(** Commitment to a vector of 256 scalars. *)
Definition vcommit (vec : Z -> F) : G := gsum 256 (fun i => smul (vec i) (crs i)).

(** A value is committed as two scalars of 16 bytes; the low one carries a
    marker 2^128 so that a present zero differs from an absent value. *)
Definition leaf_low (o : option bytes) : F :=
  match o with
  | None => fzero
  | Some v => fadd (of_Z (le_Z (firstn 16 v))) (of_Z (2 ^ 128))
  end.
Definition leaf_high (o : option bytes) : F :=
  match o with
  | None => fzero
  | Some v => of_Z (le_Z (firstn 16 (skipn 16 v)))
  end.

(** The vectors behind C1 (half 0: suffixes 0..127) and C2 (half 1: 128..255). *)
Definition suffix_vec (m : bytes -> option bytes) (stem : bytes) (half : Z) (i : Z) : F :=
  let leaf := m (stem ++ [128 * half + i / 2]) in
  if Z.even i then leaf_low leaf else leaf_high leaf.
Definition suffix_comm m stem half : G := vcommit (suffix_vec m stem half).

(** The extension node of a stem commits to (1, stem, hash C1, hash C2). *)
Definition ext_vec m stem (i : Z) : F :=
  if Z.eqb i 0 then fone
  else if Z.eqb i 1 then of_Z (le_Z stem)
  else if Z.eqb i 2 then hash (suffix_comm m stem 0)
  else if Z.eqb i 3 then hash (suffix_comm m stem 1)
  else fzero.
Definition ext_comm m stem : G := vcommit (ext_vec m stem).

Definition has_prefix (p s : bytes) : bool := beqb (firstn (length p) s) p.
Definition under (stems : list bytes) (p : bytes) : list bytes := filter (has_prefix p) stems.

(** What a parent commits to for its child at path [p]: 0 if no stem lies
    under [p]; the hash of the extension node if exactly one does; the hash of
    the inner node over 256 children otherwise.  Paths have at most 31 bytes,
    so [fuel = 31] levels reach every node. *)
Fixpoint subtree_hash (fuel : nat) m (stems : list bytes) (p : bytes) : F :=
  match under stems p with
  | [] => fzero
  | [s] => hash (ext_comm m s)
  | _ =>
      match fuel with
      | O => fzero
      | S fuel' => hash (vcommit (fun i => subtree_hash fuel' m stems (p ++ [i])))
      end
  end.

(** The inner node at path [p]; the root is the inner node at the empty path,
    whatever the number of stems. *)
Definition inner_vec m stems p (i : Z) : F := subtree_hash 31 m stems (p ++ [i]).
Definition inner_comm m stems p : G := vcommit (inner_vec m stems p).
Definition spec_root m stems : G := inner_comm m stems [].

End Spec.
