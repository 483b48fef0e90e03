(** What database calls wrote since the last flush. *)
From Verif Require Import Base BaseFacts Alg TrieModel CodecModel VerkleDbModel.

Section WriteSpec.
Context {A : Alg}.

(** The last of the calls [l] at the place [k], if no flush came after it; [o] before them. *)
Fixpoint leaf_since (o : option bytes) (l : list WOp) (k : bytes) : option bytes :=
  match l with
  | [] => o
  | WFlush :: l' => leaf_since None l' k
  | WLeaf j v _ :: l' => leaf_since (if bytes_dec j k then Some v else o) l' k
  | _ :: l' => leaf_since o l' k
  end.
Fixpoint stem_since (o : option StemMeta) (l : list WOp) (s : bytes) : option StemMeta :=
  match l with
  | [] => o
  | WFlush :: l' => stem_since None l' s
  | WStem j m _ :: l' => stem_since (if bytes_dec j s then Some m else o) l' s
  | _ :: l' => stem_since o l' s
  end.
Fixpoint child_since (o : option BranchChild) (l : list WOp) (p : bytes) : option BranchChild :=
  match l with
  | [] => o
  | WFlush :: l' => child_since None l' p
  | WAddStem j s _ :: l' => child_since (if bytes_dec j p then Some (CStem s) else o) l' p
  | WBranch j m _ :: l' => child_since (if bytes_dec j p then Some (CBranch m) else o) l' p
  | _ :: l' => child_since o l' p
  end.
(** The record of a branch, if it is one. *)
Definition branch_of (c : option BranchChild) : option BranchMeta :=
  match c with Some (CBranch m) => Some m | _ => None end.
End WriteSpec.
