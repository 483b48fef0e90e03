(** What a write to the database returns (C74). *)
From Verif Require Import Base Alg AlgInst TrieModel CodecModel VerkleDbModel CodecInst WriteSpec WriteProofs.

Section WithAlgebra.
Context {A : Alg} {P : Par A} {C : Codec A}.

(** C74 for the in-memory database: a write returns what a read of the same place would
    have returned; where a branch is put in the place of a stem, which a read of the
    branch would panic on, nothing. *)
Theorem C74_memory_write_returns_old : forall db : MemoryDb,
  (forall k v d, get_leaf db k = Ok (snd (insert_leaf db k v d))) /\
  (forall s m d, get_stem_meta db s = Ok (snd (insert_stem db s m d))) /\
  (forall p i s d, get_branch_child db p i = Ok (snd (add_stem_as_branch_child db (p ++ [i]) s d))) /\
  (forall p m d o, get_branch_meta db p = Ok o -> snd (insert_branch db p m d) = o) /\
  (forall p m d, get_branch_meta db p = Panic -> snd (insert_branch db p m d) = None).
Proof. exact mem_returns. Qed.

(** The database on disk, after any calls on any opened disk: a write returns what the
    last call at the same place wrote, if no flush came since, and else nothing. *)
Theorem C74_disk_write_returns_exactly : forall d l,
  let v := wop_run (verkle_open d) l in
  (forall k x n, snd (insert_leaf v k x n) = leaf_since None l k) /\
  (forall s m n, snd (insert_stem v s m n) = stem_since None l s) /\
  (forall p s n, snd (add_stem_as_branch_child v p s n) = child_since None l p) /\
  (forall p m n, snd (insert_branch v p m n) = branch_of (child_since None l p)).
Proof. exact disk_returns. Qed.

(** So C74 is false of it: a value written, flushed and read is not returned by the next
    write.  (The trie takes the value to replace from that answer.) *)
Theorem C74_disk_write_returns_old_refuted : forall (d : Disk) k x y n, exists v,
  v = wop_run (verkle_open d) [WLeaf k x 0; WFlush] /\
  get_leaf v k = Ok (Some x) /\ snd (insert_leaf v k y n) = None.
Proof. exact flushed_forgotten. Qed.
End WithAlgebra.

(** Two values at one key and a branch over a stem, with a flush between. *)
Example C74_case : forall (d : Disk) (m1 m2 : BranchMeta (A := ExA)),
  let k := repeat 7 32 in
  let l1 := [WLeaf k (repeat 1 32) 3; WLeaf k (repeat 2 32) 9; WAddStem [5] (repeat 5 31) 1] in
  let l2 := [WLeaf (repeat 8 32) (repeat 3 32) 2; WBranch [6] m1 1] in
  let v1 := wop_run (verkle_open d) l1 in let v2 := wop_run v1 (WFlush :: l2) in
  snd (insert_leaf v1 k (repeat 4 32) 9) = Some (repeat 2 32) /\
  snd (add_stem_as_branch_child v1 [5] (repeat 6 31) 1) = Some (CStem (repeat 5 31)) /\
  snd (insert_branch v1 [5] m2 1) = None /\
  snd (insert_leaf v2 k (repeat 4 32) 9) = None /\
  snd (insert_branch v2 [6] m2 1) = Some m1.
Proof. intros. repeat split. Qed.

Print Assumptions C74_memory_write_returns_old.
Print Assumptions C74_disk_write_returns_exactly.
Print Assumptions C74_disk_write_returns_old_refuted.
