(** What it takes for two different maps to have the same root. *)
From Verif Require Import Base Alg TreeSpec.

Section CollisionSpec.
Context {A : Alg} {P : Par A}.

(** The vectors committed to in the tree of the history [h]: those of the root and of the inner nodes, of the
    extension nodes and of the two halves of their values; and the vector of an empty slot. *)
Inductive committed (h : history) : (Z -> F) -> Prop :=
| com_inner p : p = [] \/ (2 <= length (under (stems_of h) p))%nat -> committed h (inner_vec (final_map h) (stems_of h) p)
| com_ext s : In s (stems_of h) -> committed h (ext_vec (final_map h) s)
| com_half s j : In s (stems_of h) -> j = 0 \/ j = 1 -> committed h (suffix_vec (final_map h) s j)
| com_empty : committed h (fun _ => fzero).
Definition in_either h1 h2 f : Prop := committed h1 f \/ committed h2 f.

(** Among the vectors of two trees there are two different ones with the same commitment, or two
    commitments with the same hash, or a commitment that hashes to the marker of extension nodes. *)
Inductive collision (h1 h2 : history) : Prop :=
| same_commitment f g z : in_either h1 h2 f -> in_either h1 h2 g -> 0 <= z < 256 -> f z <> g z ->
    vcommit f = vcommit g -> collision h1 h2
| same_hash f g : in_either h1 h2 f -> in_either h1 h2 g -> vcommit f <> vcommit g ->
    hash (vcommit f) = hash (vcommit g) -> collision h1 h2
| hash_is_marker f : in_either h1 h2 f -> hash (vcommit f) = fone -> collision h1 h2.
End CollisionSpec.
