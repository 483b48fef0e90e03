(** Vocabulary for statements about a trie kept on disk. *)
From Verif Require Import Base Alg TreeSpec TrieModel CodecModel VerkleDbModel.

(** Reading a list of operations left to right: the insertions that are on
    disk and those that are only in memory.  Reopening loses the latter. *)
Fixpoint phases (flushed pending : history) (l : list Op) : history * history :=
  match l with
  | [] => (flushed, pending)
  | OInsert k v :: l' => phases flushed (pending ++ [(k, v)]) l'
  | OFlush :: l' => phases (flushed ++ pending) [] l'
  | OReopen :: l' => phases flushed [] l'
  end.
(** The insertions a user expects to find in the trie after [l]. *)
Definition contents (l : list Op) : history :=
  let '(f, p) := phases [] [] l in f ++ p.
(** The insertions that survive a crash after [l]. *)
Definition durable (l : list Op) : history := fst (phases [] [] l).

(** Keys and values have their Rust lengths. *)
Definition wf_ops (l : list Op) : Prop :=
  forall k v, In (OInsert k v) l -> is_key k /\ length v = 32%nat.

(** Any two inserted keys with different stems differ within 4 bytes. *)
Definition spread_ops (l : list Op) : Prop :=
  forall k1 v1 k2 v2, In (OInsert k1 v1) l -> In (OInsert k2 v2) l ->
    firstn 4 k1 = firstn 4 k2 -> firstn 31 k1 = firstn 31 k2.

(** The contents of the disk when the database was last opened. *)
Fixpoint last_open_from (flushed pending base : history) (l : list Op) : history :=
  match l with
  | [] => base
  | OInsert k v :: l' => last_open_from flushed (pending ++ [(k, v)]) base l'
  | OFlush :: l' => last_open_from (flushed ++ pending) [] base l'
  | OReopen :: l' => last_open_from flushed [] flushed l'
  end.
Definition last_open (l : list Op) : history := last_open_from [] [] [] l.

(** Two different stems in [h] start with the four bytes [q]. *)
Definition crowded (h : history) (q : bytes) : Prop :=
  exists k1 v1 k2 v2, In (k1, v1) h /\ In (k2, v2) h /\
    firstn 4 k1 = q /\ firstn 4 k2 = q /\ firstn 31 k1 <> firstn 31 k2.

(** An insertion that changes something, where two stems of the trie already
    share the key's first four bytes, comes only when two such stems were on
    disk at the last opening. *)
Definition settled_ops (l : list Op) : Prop :=
  forall l1 k v l2, l = l1 ++ OInsert k v :: l2 ->
    final_map (contents l1) k = Some v \/
    (crowded (contents l1) (firstn 4 k) -> crowded (last_open l1) (firstn 4 k)).

(** A value that has been flushed is never changed. *)
Definition no_rewrite (l : list Op) : Prop :=
  forall l1 k v l2, l = l1 ++ OInsert k v :: l2 ->
    final_map (durable l1) k = None \/ final_map (durable l1) k = Some v.

Section Spec.
Context {A : Alg} {P : Par A} {C : Codec A}.

(** Every record waiting in the batch decodes to itself. *)
Definition encodable (b : MemoryDb) : Prop :=
  (forall k v, leaf_table b k = Some v -> length v = 32%nat) /\
  (forall s m, stem_table b s = Some m -> stem_meta_from_bytes (stem_meta_to_bytes m) = Ok (Some m)) /\
  (forall p c, branch_table b p = Some c -> branch_child_from_bytes (branch_child_to_bytes c) = Ok (Some c)).

(** The four point reads agree on two states. *)
Definition same_reads (v w : VerkleDb) : Prop :=
  (forall k, vd_get_leaf v k = vd_get_leaf w k) /\
  (forall s, vd_get_stem_meta v s = vd_get_stem_meta w s) /\
  (forall p, vd_get_branch_meta v p = vd_get_branch_meta w p) /\
  (forall p i, vd_get_branch_child v p i = vd_get_branch_child w p i).

(** The same database without its read cache. *)
Definition nocache (v : VerkleDb) : VerkleDb := mkVerkleDb (vd_storage v) (vd_batch v) memory_db_new.

Definition is_insert (o : Op) : bool := match o with OInsert _ _ => true | _ => false end.
Definition wop_flush (w : WOp) : bool := match w with WFlush => true | _ => false end.

(** [l] lists, once each, exactly the entries found by the point reads [get]. *)
Definition lists {V} (l : list (Z * V)) (get : Z -> res (option V)) : Prop :=
  NoDup (map fst l) /\ forall i c, In (i, c) l <-> 0 <= i < 256 /\ get i = Ok (Some c).

(** The records of the store, as a user names them. *)
Inductive Rec := RLeaf (k : bytes) | RStem (s : bytes) | RBranch (p : bytes).
Definition rec_key (r : Rec) : bytes :=
  match r with RLeaf k => leaf_dkey k | RStem s => stem_dkey s | RBranch p => branch_dkey p end.

(** One write of the disk batch writer, and the record it names. *)
Inductive BPut := PLeaf (k v : bytes) | PStem (s : bytes) (m : StemMeta) | PAdd (p s : bytes) | PBranch (p : bytes) (m : BranchMeta).
Definition bput_rec (w : BPut) : Rec :=
  match w with PLeaf k _ => RLeaf k | PStem s _ => RStem s | PAdd p _ => RBranch p | PBranch p _ => RBranch p end.
Definition bput (b : Batch) (w : BPut) : Batch :=
  match w with
  | PLeaf k v => bw_insert_leaf b k v | PStem s m => bw_insert_stem b s m
  | PAdd p s => bw_add_stem b p s | PBranch p m => bw_insert_branch b p m
  end.

End Spec.
