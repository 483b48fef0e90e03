(** Model of the caching disk database: verkle-trie/src/database/default.rs
    over verkle-trie/src/database/generic.rs and verkle-db/src/lib.rs. *)
From Verif Require Import Base Alg TrieModel CodecModel.

Section Model.
Context {A : Alg} {P : Par A} {C : Codec A}.

(** ** The key/value store (verkle-db/src/lib.rs:15-40).
    [fetch] is a lookup in a finite map; a batch is the list of [batch_put]s;
    [BatchDB::flush] applies a batch atomically and durably (assumed of rocksdb,
    rocksdb_impl.rs:44-49; the sled file implements no batch). *)
Definition Disk := bmap bytes.
(** verkle-db/src/lib.rs:30-34. *)
Definition Batch := list (bytes * bytes).
(** verkle-db/src/lib.rs:33. *)
Definition batch_put (w : Batch) (k v : bytes) : Batch := w ++ [(k, v)].
(** verkle-db/src/lib.rs:39; rocksdb_impl.rs:44-49. *)
Definition disk_flush (d : Disk) (w : Batch) : Disk :=
  fold_left (fun d kv => upd d (fst kv) (snd kv)) w d.

(** generic.rs:9-11. *)
Definition LEAF_TABLE_MARKER : Z := 0.
(** generic.rs:10. *)
Definition STEM_TABLE_MARKER : Z := 1.
(** generic.rs:11. *)
Definition BRANCH_TABLE_MARKER : Z := 2.

(** The [labelled_key]s of generic.rs (23-25, 31-33, 45-47, 54-56 for writes;
    98-100, 108-110, 120-126, 139-141, 149-152, 161-167 for reads). *)
Definition leaf_dkey (k : bytes) : bytes := LEAF_TABLE_MARKER :: k.
(** generic.rs:31-33. *)
Definition stem_dkey (s : bytes) : bytes := STEM_TABLE_MARKER :: s.
(** generic.rs:45-47, 54-56. *)
Definition branch_dkey (p : bytes) : bytes := BRANCH_TABLE_MARKER :: p.

(** ** GenericBatchWriter (generic.rs:21-62) *)
Definition bw_insert_leaf (w : Batch) (k v : bytes) : Batch := batch_put w (leaf_dkey k) v.
(** generic.rs:30-37. *)
Definition bw_insert_stem (w : Batch) (s : bytes) (m : StemMeta) : Batch :=
  batch_put w (stem_dkey s) (stem_meta_to_bytes m).
(** generic.rs:39-51. *)
Definition bw_add_stem (w : Batch) (p s : bytes) : Batch := batch_put w (branch_dkey p) s.
(** generic.rs:53-61. *)
Definition bw_insert_branch (w : Batch) (p : bytes) (m : BranchMeta) : Batch :=
  batch_put w (branch_dkey p) (branch_meta_to_bytes m).

(** ** GenericBatchDB reads (generic.rs:96-178).
    [.unwrap()] on an [Err] is a panic. *)
Definition unwrap_res {X} (r : res (option X)) : res X := let! o := r in unwrap o.

(** generic.rs:97-105: [try_into::<[u8; 32]>().unwrap()]. *)
Definition disk_value (b : bytes) : res bytes :=
  if (length b =? 32)%nat then Ok b else Panic.
(** generic.rs:97-105. *)
Definition disk_get_leaf (d : Disk) (k : bytes) : res (option bytes) :=
  match d (leaf_dkey k) with
  | None => Ok None
  | Some b => let! v := disk_value b in Ok (Some v)
  end.
(** generic.rs:107-115. *)
Definition disk_get_stem_meta (d : Disk) (s : bytes) : res (option StemMeta) :=
  match d (stem_dkey s) with
  | None => Ok None
  | Some b => let! m := unwrap_res (stem_meta_from_bytes b) in Ok (Some m)
  end.
(** generic.rs:138-146. *)
Definition disk_get_branch_meta (d : Disk) (p : bytes) : res (option BranchMeta) :=
  match d (branch_dkey p) with
  | None => Ok None
  | Some b => let! m := unwrap_res (branch_meta_from_bytes b) in Ok (Some m)
  end.
(** generic.rs:148-156. *)
Definition disk_get_branch_child (d : Disk) (p : bytes) (i : Z) : res (option BranchChild) :=
  match d (branch_dkey (p ++ [i])) with
  | None => Ok None
  | Some b => let! c := unwrap_res (branch_child_from_bytes b) in Ok (Some c)
  end.
(** The loops [for i in 0u8..=255] of generic.rs:124-133 and 165-174. *)
Fixpoint collect_res {V} (get : Z -> res (option V)) (l : list Z) : res (list (Z * V)) :=
  match l with
  | [] => Ok []
  | i :: l' =>
      let! o := get i in
      let! r := collect_res get l' in
      Ok (match o with Some v => (i, v) :: r | None => r end)
  end.
(** generic.rs:117-136. *)
Definition disk_get_branch_children (d : Disk) (p : bytes) : res (list (Z * BranchChild)) :=
  collect_res (disk_get_branch_child d p) byte_range.
(** generic.rs:158-177. *)
Definition disk_get_stem_children (d : Disk) (s : bytes) : res (list (Z * bytes)) :=
  collect_res (fun i => disk_get_leaf d (s ++ [i])) byte_range.

(** ** VerkleDb (default.rs) *)

(** default.rs:14. *)
Definition CACHE_DEPTH : Z := 4.

(** default.rs:17-27. *)
Record VerkleDb := mkVerkleDb { vd_storage : Disk; vd_batch : MemoryDb; vd_cache : MemoryDb }.

(** default.rs:29-40 [from_path] on a store holding [d]. *)
Definition verkle_open (d : Disk) : VerkleDb := mkVerkleDb d memory_db_new memory_db_new.

(** default.rs:42-81 [flush].  The three loops iterate over HashMaps whose
    keys are distinct; since distinct records have distinct disk keys the
    result is the point-wise override below, whatever the iteration order
    ([VerkleDbProofs.flush_disk_is_loop] proves this). *)
Definition flush_disk (d : Disk) (b : MemoryDb) : Disk := fun dk =>
  match dk with
  | [] => d []
  | m :: k =>
      if m =? LEAF_TABLE_MARKER then
        match leaf_table b k with Some v => Some v | None => d dk end
      else if m =? STEM_TABLE_MARKER then
        match stem_table b k with Some x => Some (stem_meta_to_bytes x) | None => d dk end
      else if m =? BRANCH_TABLE_MARKER then
        match branch_table b k with Some x => Some (branch_child_to_bytes x) | None => d dk end
      else d dk
  end.
(** default.rs:42-81 [flush]. *)
Definition verkle_flush (v : VerkleDb) : VerkleDb :=
  mkVerkleDb (flush_disk (vd_storage v) (vd_batch v)) memory_db_new (vd_cache v).

(** The same loops executed entry by entry on given enumerations of the
    tables (default.rs:45-77). *)
Definition flush_loop (d : Disk) (leaves : list (bytes * bytes))
    (stems : list (bytes * StemMeta)) (branches : list (bytes * BranchChild)) : Disk :=
  let w := fold_left (fun w e => bw_insert_leaf w (fst e) (snd e)) leaves [] in
  let w := fold_left (fun w e => bw_insert_stem w (fst e) (snd e)) stems w in
  let w := fold_left (fun w e =>
    match snd e with
    | CStem s => bw_add_stem w (fst e) s
    | CBranch m => bw_insert_branch w (fst e) m
    end) branches w in
  disk_flush d w.

(** default.rs:84-95. *)
Definition vd_get_leaf (v : VerkleDb) (k : bytes) : res (option bytes) :=
  match mem_get_leaf (vd_cache v) k with
  | Some x => Ok (Some x)
  | None =>
    match mem_get_leaf (vd_batch v) k with
    | Some x => Ok (Some x)
    | None => disk_get_leaf (vd_storage v) k
    end
  end.
(** default.rs:97-108. *)
Definition vd_get_stem_meta (v : VerkleDb) (s : bytes) : res (option StemMeta) :=
  match mem_get_stem_meta (vd_cache v) s with
  | Some x => Ok (Some x)
  | None =>
    match mem_get_stem_meta (vd_batch v) s with
    | Some x => Ok (Some x)
    | None => disk_get_stem_meta (vd_storage v) s
    end
  end.
(** default.rs:110-121. *)
Definition vd_get_branch_meta (v : VerkleDb) (p : bytes) : res (option BranchMeta) :=
  let! c := mem_get_branch_meta (vd_cache v) p in
  match c with
  | Some x => Ok (Some x)
  | None =>
    let! b := mem_get_branch_meta (vd_batch v) p in
    match b with
    | Some x => Ok (Some x)
    | None => disk_get_branch_meta (vd_storage v) p
    end
  end.
(** default.rs:123-134. *)
Definition vd_get_branch_child (v : VerkleDb) (p : bytes) (i : Z) : res (option BranchChild) :=
  match mem_get_branch_child (vd_cache v) p i with
  | Some x => Ok (Some x)
  | None =>
    match mem_get_branch_child (vd_batch v) p i with
    | Some x => Ok (Some x)
    | None => disk_get_branch_child (vd_storage v) p i
    end
  end.

(** For default.rs:155, 183. [HashMap::insert] on an association list without duplicate keys. *)
Fixpoint hm_insert {V} (m : list (Z * V)) (i : Z) (v : V) : list (Z * V) :=
  match m with
  | [] => [(i, v)]
  | (j, w) :: m' => if i =? j then (i, v) :: m' else (j, w) :: hm_insert m' i v
  end.
(** default.rs:143-155 and 171-183. *)
Definition hm_collect {V} (m l : list (Z * V)) : list (Z * V) :=
  fold_left (fun m iv => hm_insert m (fst iv) (snd iv)) l m.

(** default.rs:136-158.  The final [into_iter] order of a HashMap is
    unspecified; the model returns one order, theorems speak about membership. *)
Definition vd_get_branch_children (v : VerkleDb) (p : bytes) : res (list (Z * BranchChild)) :=
  if (Z.of_nat (length p) mod 256) <=? CACHE_DEPTH then
    Ok (mem_get_branch_children (vd_cache v) p)
  else
    let! l := disk_get_branch_children (vd_storage v) p in
    Ok (hm_collect (hm_collect [] l) (mem_get_branch_children (vd_batch v) p)).
(** default.rs:160-186. *)
Definition vd_get_stem_children (v : VerkleDb) (s : bytes) : res (list (Z * bytes)) :=
  match mem_get_stem_children (vd_cache v) s with
  | [] =>
    let! l := disk_get_stem_children (vd_storage v) s in
    Ok (hm_collect (hm_collect [] l) (mem_get_stem_children (vd_batch v) s))
  | c => Ok c
  end.

(** default.rs:191-196. *)
Definition vd_insert_leaf (v : VerkleDb) (k x : bytes) (depth : Z) : VerkleDb * option bytes :=
  let cache := if depth <=? CACHE_DEPTH then fst (mem_insert_leaf (vd_cache v) k x depth) else vd_cache v in
  let '(batch, old) := mem_insert_leaf (vd_batch v) k x depth in
  (mkVerkleDb (vd_storage v) batch cache, old).
(** default.rs:198-203. *)
Definition vd_insert_stem (v : VerkleDb) (s : bytes) (m : StemMeta) (depth : Z)
  : VerkleDb * option StemMeta :=
  let cache := if depth <=? CACHE_DEPTH then fst (mem_insert_stem (vd_cache v) s m depth) else vd_cache v in
  let '(batch, old) := mem_insert_stem (vd_batch v) s m depth in
  (mkVerkleDb (vd_storage v) batch cache, old).
(** default.rs:205-217. *)
Definition vd_add_stem (v : VerkleDb) (p s : bytes) (depth : Z) : VerkleDb * option BranchChild :=
  let cache := if depth <=? CACHE_DEPTH then fst (mem_add_stem (vd_cache v) p s depth) else vd_cache v in
  let '(batch, old) := mem_add_stem (vd_batch v) p s depth in
  (mkVerkleDb (vd_storage v) batch cache, old).
(** default.rs:219-224. *)
Definition vd_insert_branch (v : VerkleDb) (p : bytes) (m : BranchMeta) (depth : Z)
  : VerkleDb * option BranchMeta :=
  let cache := if depth <=? CACHE_DEPTH then fst (mem_insert_branch (vd_cache v) p m depth) else vd_cache v in
  let '(batch, old) := mem_insert_branch (vd_batch v) p m depth in
  (mkVerkleDb (vd_storage v) batch cache, old).

#[export] Instance verkle_db_ops : DbOps VerkleDb := {|
  get_stem_meta := vd_get_stem_meta;
  get_branch_meta := vd_get_branch_meta;
  get_branch_children := vd_get_branch_children;
  get_branch_child := vd_get_branch_child;
  get_stem_children := vd_get_stem_children;
  get_leaf := vd_get_leaf;
  insert_leaf := vd_insert_leaf;
  insert_stem := vd_insert_stem;
  add_stem_as_branch_child := vd_add_stem;
  insert_branch := vd_insert_branch
|}.

(** For trie.rs:131-149 and default.rs:29-81. ** Histories of a trie on a disk path.  [OReopen] is dropping the process
    and opening the path again ([Trie::new] on [VerkleDb::from_path]). *)
Inductive Op :=
| OInsert (k v : bytes)   (* TrieTrait::insert_single, lib.rs:31-33 *)
| OFlush                  (* trie.rs:720-724 [flush_database] *)
| OReopen.                (* trie.rs:131-149 on default.rs:29-40 *)

Definition op_step (v : VerkleDb) (o : Op) : res VerkleDb :=
  match o with
  | OInsert k x => insert_single v (k, x)
  | OFlush => Ok (verkle_flush v)
  | OReopen => trie_new (verkle_open (vd_storage v))
  end.
(** trie.rs:131-149, default.rs:29-81, one operation. *)
Fixpoint op_run (v : VerkleDb) (l : list Op) : res VerkleDb :=
  match l with
  | [] => Ok v
  | o :: l' => let! v := op_step v o in op_run v l'
  end.
(** default.rs:29-40 and trie.rs:131-149. A trie created on an empty path, then [l]. *)
Definition run_disk (l : list Op) : res VerkleDb :=
  let! v := trie_new (verkle_open bempty) in op_run v l.

(** Individual database calls (the [WriteOnlyHigherDb] trait,
    database.rs:30-43, and [Flush]); a crash can happen between any two. *)
Inductive WOp :=
| WLeaf (k v : bytes) (depth : Z)
| WStem (s : bytes) (m : StemMeta) (depth : Z)
| WAddStem (p s : bytes) (depth : Z)
| WBranch (p : bytes) (m : BranchMeta) (depth : Z)
| WFlush.
(** database.rs:30-43, one call. *)
Definition wop_step (v : VerkleDb) (o : WOp) : VerkleDb :=
  match o with
  | WLeaf k x d => fst (vd_insert_leaf v k x d)
  | WStem s m d => fst (vd_insert_stem v s m d)
  | WAddStem p s d => fst (vd_add_stem v p s d)
  | WBranch p m d => fst (vd_insert_branch v p m d)
  | WFlush => verkle_flush v
  end.
(** database.rs:30-43, a list of calls. *)
Definition wop_run (v : VerkleDb) (l : list WOp) : VerkleDb := fold_left wop_step l v.

End Model.
