(** Model of the stateful trie: verkle-trie/src/trie.rs over the database
    interface of verkle-trie/src/database.rs, with the in-memory database of
    verkle-trie/src/database/memory_db.rs. *)
From Verif Require Import Base Alg.

Section Model.
Context {A : Alg} {P : Par A}.

(** ** Records (verkle-trie/src/database/meta.rs) *)

(** meta.rs:6-16 [struct StemMeta]. *)
Record StemMeta := mkStemMeta {
  sm_c1 : G; sm_hash_c1 : F;
  sm_c2 : G; sm_hash_c2 : F;
  sm_comm : G; sm_hash_comm : F
}.

(** meta.rs:116-120 [struct BranchMeta]. *)
Record BranchMeta := mkBranchMeta { bm_comm : G; bm_hash : F }.

(** meta.rs:136-142 [BranchMeta::zero]. *)
Definition branch_meta_zero : BranchMeta := mkBranchMeta gzero fzero.

(** meta.rs:219-223 [enum BranchChild]. *)
Inductive BranchChild :=
| CStem (stem : bytes)
| CBranch (m : BranchMeta).

(** meta.rs:178-182 [enum Meta]. *)
Inductive Meta :=
| MStem (m : StemMeta)
| MBranch (m : BranchMeta).

(** meta.rs:202-207 [Meta::into_branch], panics on a stem. *)
Definition into_branch (m : Meta) : res BranchMeta :=
  match m with MStem _ => Panic | MBranch b => Ok b end.
(** meta.rs:184-189 [Meta::into_stem], panics on a branch. *)
Definition into_stem (m : Meta) : res StemMeta :=
  match m with MStem s => Ok s | MBranch _ => Panic end.

(** meta.rs:244-263 [BranchChild::stem].  The uses of its siblings [is_branch] and
    [branch] are pattern matches in the model. *)
Definition child_stem (c : BranchChild) : option bytes :=
  match c with CStem s => Some s | CBranch _ => None end.

(** ** Database interface (verkle-trie/src/database.rs:30-69).
    Reads may panic (a stem where a branch record is expected, undecodable
    disk bytes), writes return the new state and the previous value. *)
Class DbOps (S : Type) := mkDbOps {
  get_stem_meta : S -> bytes -> res (option StemMeta);
  get_branch_meta : S -> bytes -> res (option BranchMeta);
  get_branch_children : S -> bytes -> res (list (Z * BranchChild));
  get_branch_child : S -> bytes -> Z -> res (option BranchChild);
  get_stem_children : S -> bytes -> res (list (Z * bytes));
  get_leaf : S -> bytes -> res (option bytes);
  insert_leaf : S -> bytes -> bytes -> Z -> S * option bytes;
  insert_stem : S -> bytes -> StemMeta -> Z -> S * option StemMeta;
  add_stem_as_branch_child : S -> bytes -> bytes -> Z -> S * option BranchChild;
  insert_branch : S -> bytes -> BranchMeta -> Z -> S * option BranchMeta
}.

(** ** MemoryDb (verkle-trie/src/database/memory_db.rs) *)

(** memory_db.rs:6-11.  HashMaps are total functions to [option]. *)
Record MemoryDb := mkMemoryDb {
  leaf_table : bmap bytes;
  stem_table : bmap StemMeta;
  branch_table : bmap BranchChild
}.

(** memory_db.rs:14-20 [MemoryDb::new]; also the result of [clear], 26-30. *)
Definition memory_db_new : MemoryDb := mkMemoryDb bempty bempty bempty.

(** memory_db.rs:40-42. *)
Definition mem_get_stem_meta (db : MemoryDb) (s : bytes) : option StemMeta := stem_table db s.

(** memory_db.rs:44-57: panics when the path holds a stem. *)
Definition mem_get_branch_meta (db : MemoryDb) (p : bytes) : res (option BranchMeta) :=
  match branch_table db p with
  | None => Ok None
  | Some (CStem _) => Panic
  | Some (CBranch m) => Ok (Some m)
  end.

(** memory_db.rs:59-61. *)
Definition mem_get_leaf (db : MemoryDb) (k : bytes) : option bytes := leaf_table db k.

(** memory_db.rs:66, 87. The loop [for i in 0u8..=255] that keeps the entries present. *)
Definition byte_range : list Z := map Z.of_nat (seq 0 256).
(** memory_db.rs:64-81 and 85-98. *)
Definition collect_children {V} (get : Z -> option V) : list (Z * V) :=
  flat_map (fun i => match get i with Some v => [(i, v)] | None => [] end) byte_range.

(** memory_db.rs:63-82. *)
Definition mem_get_branch_children (db : MemoryDb) (p : bytes) : list (Z * BranchChild) :=
  collect_children (fun i => branch_table db (p ++ [i])).

(** memory_db.rs:84-100. *)
Definition mem_get_stem_children (db : MemoryDb) (s : bytes) : list (Z * bytes) :=
  collect_children (fun i => leaf_table db (s ++ [i])).

(** memory_db.rs:102-108. *)
Definition mem_get_branch_child (db : MemoryDb) (p : bytes) (i : Z) : option BranchChild :=
  branch_table db (p ++ [i]).

(** memory_db.rs:112-114. *)
Definition mem_insert_stem (db : MemoryDb) (k : bytes) (m : StemMeta) (_depth : Z)
  : MemoryDb * option StemMeta :=
  (mkMemoryDb (leaf_table db) (upd (stem_table db) k m) (branch_table db), stem_table db k).

(** memory_db.rs:116-125: a previous stem is reported as [None]. *)
Definition mem_insert_branch (db : MemoryDb) (k : bytes) (m : BranchMeta) (_depth : Z)
  : MemoryDb * option BranchMeta :=
  (mkMemoryDb (leaf_table db) (stem_table db) (upd (branch_table db) k (CBranch m)),
   match branch_table db k with
   | None => None
   | Some (CStem _) => None
   | Some (CBranch b) => Some b
   end).

(** memory_db.rs:127-131. *)
Definition mem_insert_leaf (db : MemoryDb) (k v : bytes) (_depth : Z)
  : MemoryDb * option bytes :=
  (mkMemoryDb (upd (leaf_table db) k v) (stem_table db) (branch_table db), leaf_table db k).

(** memory_db.rs:133-141. *)
Definition mem_add_stem (db : MemoryDb) (k stem : bytes) (_depth : Z)
  : MemoryDb * option BranchChild :=
  (mkMemoryDb (leaf_table db) (stem_table db) (upd (branch_table db) k (CStem stem)),
   branch_table db k).

#[export] Instance memory_db_ops : DbOps MemoryDb := {|
  get_stem_meta db s := Ok (mem_get_stem_meta db s);
  get_branch_meta db p := mem_get_branch_meta db p;
  get_branch_children db p := Ok (mem_get_branch_children db p);
  get_branch_child db p i := Ok (mem_get_branch_child db p i);
  get_stem_children db s := Ok (mem_get_stem_children db s);
  get_leaf db k := Ok (mem_get_leaf db k);
  insert_leaf := mem_insert_leaf;
  insert_stem := mem_insert_stem;
  add_stem_as_branch_child := mem_add_stem;
  insert_branch := mem_insert_branch
|}.

(** ** The trie (verkle-trie/src/trie.rs) *)

(** [Committer::scalar_mul] (ipa-multipoint/src/committer.rs:11); the
    implementation [DefaultCommitter] is modelled in [MsmModel]. *)
Definition scalar_mul (v : F) (i : Z) : G := smul v (crs i).

(** constants.rs:14 [TWO_POW_128]. *)
Definition two_pow_128 : F := of_Z (2 ^ 128).

(** trie.rs:67-127 [enum Ins]. *)
Inductive Ins :=
| UpdateLeaf (key new_leaf_value : bytes) (depth : Z) (branch_id : bytes) (branch_child_index : Z)
| ChainInsert (starting_depth : Z) (chain_insert_path parent_branch_node : bytes)
    (child_index old_leaf_index : Z) (new_leaf_key new_leaf_value : bytes) (new_leaf_index : Z)
| InternalNodeFallThrough (branch_id : bytes) (branch_child_index : Z) (child : bytes)
    (old_child_value : option Meta) (depth : Z).

(** trie.rs:732-745 [path_difference]. *)
Fixpoint path_difference (a b : bytes) : bytes * option Z * option Z :=
  match a, b with
  | x :: a', y :: b' =>
      if Z.eqb x y then
        let '(same, da, db) := path_difference a' b' in (x :: same, da, db)
      else ([], Some x, Some y)
  | _, _ => ([], None, None)
  end.

(** trie.rs:758-765 [expand_path]; panics on an empty relative path. *)
Definition expand_path (base relative : bytes) : res (list bytes) :=
  let! _ := assertb (negb (length relative =? 0)%nat) in
  Ok (map (fun idx => base ++ firstn (S idx) relative) (seq 0 (length relative))).

Section Ops.
Context {S : Type} {D : DbOps S}.

(** trie.rs:165-294, the loop of [create_insert_instructions].  [rest] is the
    part of the key not yet walked, [d] the number of bytes walked
    ([loop_index - 1]), [cur] is [current_node_index], [acc] the instructions
    pushed so far.  [key_bytes[0..31]] cannot fail on a 32-byte key. *)
Fixpoint create_insert_loop (db : S) (key value : bytes) (rest : bytes) (d : nat)
    (cur : bytes) (acc : list Ins) : res (list Ins) :=
  match rest with
  | [] => Ok acc
  | path_index :: rest' =>
      let loop_index := Z.of_nat d + 1 in
      let! child := get_branch_child db cur path_index in
      match child with
      | None =>
          Ok (acc ++ [UpdateLeaf key value loop_index cur path_index])
      | Some (CBranch bm) =>
          let node_path := cur ++ [path_index] in
          create_insert_loop db key value rest' (Datatypes.S d) node_path
            (acc ++ [InternalNodeFallThrough cur path_index node_path (Some (MBranch bm)) loop_index])
      | Some (CStem stem) =>
          let '(shared_path, path_diff_old, path_diff_new) :=
            path_difference stem (firstn 31 key) in
          if (length shared_path =? 31)%nat then
            let! leaf_val := get_leaf db key in
            let '(old_leaf_val, present) :=
              match leaf_val with
              | Some old => (old, true)
              | None => (repeat 0 32, false)
              end in
            match path_diff_old with
            | None =>
                let! _ := assertb (match path_diff_new with None => true | _ => false end) in
                if beqb old_leaf_val value && present then Ok []
                else Ok (acc ++ [UpdateLeaf key value loop_index cur path_index])
            | Some _ => Ok (acc ++ [UpdateLeaf key value loop_index cur path_index])
            end
          else
            let! relative_shared_path := slice_from d shared_path in
            let! p_diff_old := unwrap path_diff_old in
            let! p_diff_new := unwrap path_diff_new in
            Ok (acc ++ [ChainInsert loop_index relative_shared_path cur path_index
                          p_diff_old key value p_diff_new])
      end
  end.

(** trie.rs:157-295. *)
Definition create_insert_instructions (db : S) (key value : bytes) : res (list Ins) :=
  create_insert_loop db key value key 0 [] [].

(** trie.rs:493-497 [LeafUpdated] is (old_val, new_value, key),
    trie.rs:499-503 [StemUpdated] is (old_val, new_val, stem). *)

(** trie.rs:510-535 [update_leaf_table]. *)
Definition update_leaf_table (db : S) (key value : bytes) (depth : Z)
  : S * option (option bytes * bytes * bytes) :=
  let '(db, old) := insert_leaf db key value depth in
  match old with
  | Some vec => if beqb vec value then (db, None) else (db, Some (Some vec, value, key))
  | None => (db, Some (None, value, key))
  end.

(** The two scalars committed for a value, trie.rs:552-563; also
    opening_data.rs:294-300, verifier.rs:91-98. *)
Definition value_low (v : bytes) : F := fadd (of_Z (le_Z (firstn 16 v))) two_pow_128.
(** trie.rs:552-563, the upper half. *)
Definition value_high (v : bytes) : F := of_Z (le_Z (firstn 16 (skipn 16 v))).

(** trie.rs:537-675 [update_stem_table]. *)
Definition update_stem_table (db : S) (leaf_update : option bytes * bytes * bytes) (depth : Z)
  : res (S * (option F * F * bytes)) :=
  let '(old_val, new_value, key) := leaf_update in
  let '(old_low, old_high) :=
    match old_val with
    | Some val => (value_low val, value_high val)
    | None => (fzero, fzero)
    end in
  let delta_low := fsub (value_low new_value) old_low in
  let delta_high := fsub (value_high new_value) old_high in
  let position := nth 31 key 0 in
  let low_index := 2 * (position mod 128) in
  let high_index := low_index + 1 in
  let generator_low := scalar_mul delta_low low_index in
  let generator_high := scalar_mul delta_high high_index in
  let stem := firstn 31 key in
  let! sm := get_stem_meta db stem in
  let '(c_1, old_hash_c1, c_2, old_hash_c2, stem_comm, old_hash_stem) :=
    match sm with
    | Some cv => (sm_c1 cv, sm_hash_c1 cv, sm_c2 cv, sm_hash_c2 cv, sm_comm cv, Some (sm_hash_comm cv))
    | None =>
        (gzero, hash gzero, gzero, hash gzero,
         gadd (crs 0) (scalar_mul (of_Z (le_Z stem)) 1), None)
    end in
  let new_meta :=
    if position <? 128 then
      let updated_c_1 := gadd (gadd c_1 generator_low) generator_high in
      let new_hash_c1 := hash updated_c_1 in
      let c_1_point := scalar_mul (fsub new_hash_c1 old_hash_c1) 2 in
      let comm := gadd stem_comm c_1_point in
      mkStemMeta updated_c_1 new_hash_c1 c_2 old_hash_c2 comm (hash comm)
    else
      let updated_c_2 := gadd (gadd c_2 generator_low) generator_high in
      let new_hash_c2 := hash updated_c_2 in
      let c_2_point := scalar_mul (fsub new_hash_c2 old_hash_c2) 3 in
      let comm := gadd stem_comm c_2_point in
      mkStemMeta c_1 old_hash_c1 updated_c_2 new_hash_c2 comm (hash comm) in
  let '(db, _) := insert_stem db stem new_meta depth in
  Ok (db, (old_hash_stem, sm_hash_comm new_meta, stem)).

(** trie.rs:677-716 [update_branch_table]. *)
Definition update_branch_table (db : S) (stem_update : option F * F * bytes)
    (branch_id : bytes) (branch_index depth : Z) : res (S * F) :=
  let '(old_val, new_val, stem) := stem_update in
  let old_stem_hash := match old_val with Some x => x | None => fzero end in
  let delta := fsub new_val old_stem_hash in
  let! bm := get_branch_meta db branch_id in
  let! bm := unwrap bm in
  let updated := gadd (bm_comm bm) (scalar_mul delta branch_index) in
  let hash_updated := hash updated in
  let '(db, _) := insert_branch db branch_id (mkBranchMeta updated hash_updated) depth in
  let '(db, _) := add_stem_as_branch_child db (branch_id ++ [branch_index]) stem depth in
  Ok (db, hash_updated).

(** trie.rs:443-463, the loop that builds the chain of fresh inner nodes
    bottom-up; the list pairs each child byte with its parent's path. *)
Fixpoint chain_loop (db : S) (l : list (Z * bytes)) (below : F) : S * F :=
  match l with
  | [] => (db, below)
  | (child_path, parent) :: l' =>
      let updated := scalar_mul below child_path in
      let root := hash updated in
      let '(db, _) := insert_branch db parent (mkBranchMeta updated root) (Z.of_nat (length parent)) in
      chain_loop db l' root
  end.

(** trie.rs:362-486, the [ChainInsert] arm. *)
Definition process_chain_insert (db : S) (starting_depth : Z)
    (chain_insert_path parent_branch_node : bytes) (child_index old_leaf_index : Z)
    (new_leaf_key new_leaf_value : bytes) (new_leaf_index : Z) : res S :=
  let! _ := assertb (negb (length chain_insert_path =? 0)%nat) in
  let! paths := expand_path parent_branch_node chain_insert_path in
  let inner_node_paths := rev paths in
  let! old_child := get_branch_child db parent_branch_node child_index in
  let! old_child := unwrap old_child in
  let! old_stem_child := unwrap (child_stem old_child) in
  let! bottom := unwrap (hd_error inner_node_paths) in
  let bottom_depth := Z.of_nat (length bottom) in
  let '(db, _) := insert_branch db bottom branch_meta_zero bottom_depth in
  let '(db, leaf_update) := update_leaf_table db new_leaf_key new_leaf_value bottom_depth in
  let! leaf_update := unwrap leaf_update in
  let! (db, new_stem_update) := update_stem_table db leaf_update bottom_depth in
  let! (db, _) := update_branch_table db new_stem_update bottom new_leaf_index bottom_depth in
  let! stem_meta_data := get_stem_meta db old_stem_child in
  let! stem_meta_data := unwrap stem_meta_data in
  let! (db, bottom_root) :=
    update_branch_table db (None, sm_hash_comm stem_meta_data, old_stem_child)
      bottom old_leaf_index bottom_depth in
  let shortened_path := tl inner_node_paths in
  let '(db, new_inner_node_value) :=
    chain_loop db (combine (rev chain_insert_path) shortened_path) bottom_root in
  let delta := fsub new_inner_node_value (sm_hash_comm stem_meta_data) in
  let! top_parent := get_branch_meta db parent_branch_node in
  let! top_parent := unwrap top_parent in
  let updated_top := gadd (bm_comm top_parent) (scalar_mul delta child_index) in
  let '(db, _) :=
    insert_branch db parent_branch_node (mkBranchMeta updated_top (hash updated_top)) starting_depth in
  Ok db.

(** trie.rs:300-339, the [InternalNodeFallThrough] arm. *)
Definition process_fall_through (db : S) (branch_id : bytes) (branch_child_index : Z)
    (child : bytes) (old_child_value : option Meta) (depth : Z) : res S :=
  let! nm := get_branch_meta db child in
  let! nm := unwrap nm in
  let! old_hash :=
    match old_child_value with
    | Some m => let! b := into_branch m in Ok (bm_hash b)
    | None => Ok fzero
    end in
  let delta := fsub (bm_hash nm) old_hash in
  let delta_comm := scalar_mul delta branch_child_index in
  let! pm := get_branch_meta db branch_id in
  let! pm := unwrap pm in
  let updated := gadd (bm_comm pm) delta_comm in
  let '(db, _) := insert_branch db branch_id (mkBranchMeta updated (hash updated)) depth in
  Ok db.

(** trie.rs:298-488, the loop over the reversed instructions; the [UpdateLeaf]
    arm returns from the whole function when the leaf did not change. *)
Fixpoint process_reversed (db : S) (l : list Ins) : res S :=
  match l with
  | [] => Ok db
  | InternalNodeFallThrough b i c old depth :: l' =>
      let! db := process_fall_through db b i c old depth in
      process_reversed db l'
  | UpdateLeaf key value depth branch_id index :: l' =>
      let '(db, leaf_update) := update_leaf_table db key value depth in
      match leaf_update with
      | None => Ok db
      | Some lu =>
          let! (db, su) := update_stem_table db lu depth in
          let! (db, _) := update_branch_table db su branch_id index depth in
          process_reversed db l'
      end
  | ChainInsert sd cp pb ci oi nk nv ni :: l' =>
      let! db := process_chain_insert db sd cp pb ci oi nk nv ni in
      process_reversed db l'
  end.

(** trie.rs:297-489 [process_instructions]. *)
Definition process_instructions (db : S) (l : list Ins) : res S := process_reversed db (rev l).

(** One iteration of trie.rs:20-23; [insert_single] of lib.rs:31-33. *)
Definition insert_single (db : S) (kv : bytes * bytes) : res S :=
  let '(k, v) := kv in
  let! ins := create_insert_instructions db k v in
  process_instructions db ins.

(** trie.rs:19-24 [Trie::insert]. *)
Fixpoint trie_insert (db : S) (kvs : list (bytes * bytes)) : res S :=
  match kvs with
  | [] => Ok db
  | kv :: kvs' => let! db := insert_single db kv in trie_insert db kvs'
  end.

(** trie.rs:26-28 [Trie::get]. *)
Definition trie_get (db : S) (k : bytes) : res (option bytes) := get_leaf db k.

(** database.rs:65-68 [root_is_missing]. *)
Definition root_is_missing (db : S) : res bool :=
  let! m := get_branch_meta db [] in
  Ok (match m with None => true | Some _ => false end).

(** trie.rs:131-149 [Trie::new]: the [assert!] is the third line. *)
Definition trie_new (db : S) : res S :=
  let! missing := root_is_missing db in
  if missing then
    let '(db, old) := insert_branch db [] branch_meta_zero 0 in
    let! _ := assertb (match old with None => true | Some _ => false end) in
    Ok db
  else Ok db.

(** trie.rs:30-38 [root_hash]. *)
Definition root_hash (db : S) : res F :=
  let! m := get_branch_meta db [] in
  let! m := unwrap m in
  Ok (bm_hash m).

(** trie.rs:48-52 [root_commitment]. *)
Definition root_commitment (db : S) : res G :=
  let! m := get_branch_meta db [] in
  let! m := unwrap m in
  Ok (bm_comm m).

(** trie.rs:19-25 and 131-149. A fresh trie on [db0] after [insert]ing [kvs]. *)
Definition run (db0 : S) (kvs : list (bytes * bytes)) : res S :=
  let! db := trie_new db0 in
  trie_insert db kvs.

End Ops.

(** trie.rs:19-25 and 131-149 on memory_db.rs. A fresh in-memory trie after inserting [kvs]. *)
Definition run_mem (kvs : list (bytes * bytes)) : res MemoryDb := run memory_db_new kvs.

End Model.
