(** Proof creation and the verifier's query reconstruction:
    verkle-trie/src/proof/{key_path_finder,opening_data,prover,verifier}.rs. *)
From Verif Require Import Base Alg TrieModel BTree WireModel.

Section ProofModel.
Context {A : Alg} {P : Par A}.

(* ------------------------------------------------------------------ *)
(** ** key_path_finder.rs *)

(** key_path_finder.rs:32-44 [KeyNotFound] and 10-14 [KeyState]. *)
Inductive KeyNotFound := NFDifferentStem (stem : bytes) | NFStemFound | NFEmpty.
(** key_path_finder.rs:10-14. *)
Inductive KeyState := KFound (value : bytes) | KNotFound (nf : KeyNotFound).

(** key_path_finder.rs:17-22 and 23-28. *)
Definition different_stem (k : KeyState) : option bytes :=
  match k with KNotFound (NFDifferentStem s) => Some s | _ => None end.
(** key_path_finder.rs:23-28. *)
Definition state_value (k : KeyState) : option bytes :=
  match k with KFound v => Some v | _ => None end.

(** key_path_finder.rs:46-52. *)
Record KeyPath := mkKeyPath {
  kp_nodes : list (bytes * Z * Meta);
  kp_depth : Z;
  kp_state : KeyState
}.

(** key_path_finder.rs:58-60. *)
Definition requires_extension_proof (k : KeyPath) : bool :=
  match kp_state k with KNotFound NFEmpty => false | _ => true end.

Section Prover.
Context {S : Type} {D : DbOps S}.

(** key_path_finder.rs:72-147, the loop over the key bytes; running off its end
    is [unreachable!]. [len() as u8] is a truncation. *)
Fixpoint find_loop (db : S) (key rest cur : bytes) (cur_meta : BranchMeta)
    (nodes : list (bytes * Z * Meta)) : res KeyPath :=
  match rest with
  | [] => Panic
  | index :: rest' =>
      let nodes := nodes ++ [(cur, index, MBranch cur_meta)] in
      let depth := Z.of_nat (length nodes) mod 256 in
      let! child := get_branch_child db cur index in
      match child with
      | None => Ok (mkKeyPath nodes depth (KNotFound NFEmpty))
      | Some (CStem stem_id) =>
          let! sm := get_stem_meta db stem_id in
          let! sm := unwrap sm in
          let! last := Base.index key 31 in
          let nodes := nodes ++ [(cur ++ [index], last, MStem sm)] in
          let depth := Z.of_nat (length nodes) mod 256 in
          let! leaf := get_leaf db key in
          match leaf with
          | Some value =>
              let! _ := assertb (beqb stem_id (firstn 31 key)) in
              Ok (mkKeyPath nodes depth (KFound value))
          | None =>
              if beqb stem_id (firstn 31 key)
              then Ok (mkKeyPath nodes depth (KNotFound NFStemFound))
              else Ok (mkKeyPath nodes depth (KNotFound (NFDifferentStem stem_id)))
          end
      | Some (CBranch bm) => find_loop db key rest' (cur ++ [index]) bm nodes
      end
  end.

(** key_path_finder.rs:64-71. *)
Definition find_key_path (db : S) (key : bytes) : res KeyPath :=
  let! m := get_branch_meta db [] in
  let! m := unwrap m in
  find_loop db key key [] m [].

(* ------------------------------------------------------------------ *)
(** ** opening_data.rs *)

(** opening_data.rs:194-197 [ExtOpeningData]. *)
Record ExtOpeningData := mkExtO { eo_stem : bytes; eo_meta : Meta }.
(** opening_data.rs:259-267, 332-336, 368-372: [SuffixOpeningData],
    [BranchOpeningData], [Openings]. *)
Inductive Openings :=
| OSuffix (ext : ExtOpeningData) (suffices : list (Z * option bytes))
| OBranch (meta : Meta) (children : list Z)
| OExtension (ext : ExtOpeningData).

(** opening_data.rs:15-20 [OpeningData]. *)
Record OpeningData := mkOD {
  od_openings : list (bytes * Openings);
  od_ext : list (bytes * ExtPresent);
  od_depths : list (bytes * Z)
}.

(** The derived [PartialEq] of [Meta] (meta.rs:6, 116, 178) and of
    [ExtOpeningData]. *)
Definition stem_meta_eqb (a b : StemMeta) : bool :=
  geqb (sm_c1 a) (sm_c1 b) && feqb (sm_hash_c1 a) (sm_hash_c1 b) &&
  geqb (sm_c2 a) (sm_c2 b) && feqb (sm_hash_c2 a) (sm_hash_c2 b) &&
  geqb (sm_comm a) (sm_comm b) && feqb (sm_hash_comm a) (sm_hash_comm b).
(** meta.rs:178, on [Meta]. *)
Definition meta_eqb (a b : Meta) : bool :=
  match a, b with
  | MStem x, MStem y => stem_meta_eqb x y
  | MBranch x, MBranch y => geqb (bm_comm x) (bm_comm y) && feqb (bm_hash x) (bm_hash y)
  | _, _ => false
  end.
(** opening_data.rs:192, on [ExtOpeningData]. *)
Definition ext_opening_eqb (a b : ExtOpeningData) : bool :=
  beqb (eo_stem a) (eo_stem b) && meta_eqb (eo_meta a) (eo_meta b).

(** opening_data.rs:26-40 [insert_branch_opening]; [as_mut_branch] (375-382)
    panics when the path already holds another kind of opening. *)
Definition insert_branch_opening (o : list (bytes * Openings)) (path : bytes) (child : Z) (meta : Meta)
  : res (list (bytes * Openings)) :=
  match map_get path o with
  | None => Ok (map_insert path (OBranch meta (set_insert child [])) o)
  | Some (OBranch meta' children) => Ok (map_insert path (OBranch meta' (set_insert child children)) o)
  | Some _ => Panic
  end.

(** opening_data.rs:41-48 [insert_ext_opening]. *)
Definition insert_ext_opening (o : list (bytes * Openings)) (path stem : bytes) (meta : Meta)
  : list (bytes * Openings) :=
  match map_get path o with
  | None => map_insert path (OExtension (mkExtO stem meta)) o
  | Some _ => o
  end.

(** opening_data.rs:49-91 [insert_suffix_opening]. *)
Definition insert_suffix_opening (o : list (bytes * Openings)) (path : bytes)
    (ext : ExtOpeningData) (sv : Z * option bytes) : res (list (bytes * Openings)) :=
  match map_get path o with
  | Some (OSuffix ext' suffices) =>
      let! _ := assertb (ext_opening_eqb ext' ext) in
      Ok (map_insert path (OSuffix ext' (set_insert sv suffices)) o)
  | Some (OExtension ext') =>
      let! _ := assertb (ext_opening_eqb ext' ext) in
      Ok (map_insert path (OSuffix ext (set_insert sv [])) o)
  | Some (OBranch _ _) => Panic
  | None => Ok (map_insert path (OSuffix ext (set_insert sv [])) o)
  end.

(** opening_data.rs:121-125, the loop over the nodes of a path. *)
Fixpoint insert_branches (o : list (bytes * Openings)) (nodes : list (bytes * Z * Meta))
  : res (list (bytes * Openings)) :=
  match nodes with
  | [] => Ok o
  | (path, z, node) :: nodes' =>
      match node with
      | MBranch _ =>
          let! o := insert_branch_opening o path z node in
          insert_branches o nodes'
      | MStem _ => insert_branches o nodes'
      end
  end.

(** opening_data.rs:109-116. *)
Definition ext_pres (k : KeyState) : ExtPresent :=
  match k with
  | KFound _ => ExtPres
  | KNotFound (NFDifferentStem _) => ExtDifferentStem
  | KNotFound NFStemFound => ExtPres
  | KNotFound NFEmpty => ExtNone
  end.

(** opening_data.rs:98-186, the body of the loop in [collect_opening_data].
    [key_path.depth - 1] cannot underflow: the path has at least two nodes. *)
Definition collect_one (db : S) (od : OpeningData) (key : bytes) : res OpeningData :=
  let! kp := find_key_path db key in
  let value := state_value (kp_state kp) in
  let stem := firstn 31 key in
  let! suffix := Base.index key 31 in
  let ep := ext_pres (kp_state kp) in
  let! (last_path_z, last_meta) := unwrap (hd_error (rev (kp_nodes kp))) in
  let last_path := fst last_path_z in
  let! o := insert_branches (od_openings od) (kp_nodes kp) in
  if negb (requires_extension_proof kp) then
    Ok (mkOD o (map_insert stem ep (od_ext od)) (map_insert stem (kp_depth kp) (od_depths od)))
  else
    let! _ := assertb (match last_meta with MStem _ => true | MBranch _ => false end) in
    let depths := map_insert stem (kp_depth kp - 1) (od_depths od) in
    let exts := map_insert stem ep (od_ext od) in
    match different_stem (kp_state kp) with
    | Some other => Ok (mkOD (insert_ext_opening o last_path other last_meta) exts depths)
    | None =>
        let! o := insert_suffix_opening o last_path (mkExtO stem last_meta) (suffix, value) in
        Ok (mkOD o exts depths)
    end.

(** opening_data.rs:92-189 [collect_opening_data]. *)
Fixpoint collect_loop (db : S) (od : OpeningData) (keys : list bytes) : res OpeningData :=
  match keys with
  | [] => Ok od
  | k :: keys' => let! od := collect_one db od k in collect_loop db od keys'
  end.
(** opening_data.rs:92-189, from empty maps. *)
Definition collect_opening_data (db : S) (keys : list bytes) : res OpeningData :=
  collect_loop db (mkOD [] [] []) keys.

(** ipa-multipoint/src/multiproof.rs:18-27 [ProverQuery]. *)
Record ProverQuery := mkPQ { pq_comm : G; pq_poly : list F; pq_point : Z; pq_result : F }.

(** opening_data.rs:199-253 [ExtOpeningData::open_query]. *)
Definition ext_open_query (e : ExtOpeningData) (open_c1 open_c2 : bool) : res (list ProverQuery) :=
  let! m := into_stem (eo_meta e) in
  let stem := of_Z (le_Z (eo_stem e)) in
  let f := [fone; stem; sm_hash_c1 m; sm_hash_c2 m] in
  Ok ([mkPQ (sm_comm m) f 0 fone; mkPQ (sm_comm m) f 1 stem] ++
      (if open_c1 then [mkPQ (sm_comm m) f 2 (sm_hash_c1 m)] else []) ++
      (if open_c2 then [mkPQ (sm_comm m) f 3 (sm_hash_c2 m)] else [])).

(** opening_data.rs:405-442 [get_half_of_stem_children_children_hashes]: 128
    suffixes from [start], two scalars each. *)
Fixpoint half_hashes (db : S) (stem : bytes) (suffixes : list Z) : res (list F) :=
  match suffixes with
  | [] => Ok []
  | i :: l =>
      let! leaf := get_leaf db (stem ++ [i]) in
      let '(lower, upper) :=
        match leaf with
        | Some v => (value_low v, value_high v)
        | None => (of_Z (le_Z (firstn 16 (repeat 0 32))), of_Z (le_Z (firstn 16 (skipn 16 (repeat 0 32)))))
        end in
      let! r := half_hashes db stem l in
      Ok (lower :: upper :: r)
  end.
(** opening_data.rs:405-442. *)
Definition get_half_hashes (db : S) (stem : bytes) (start : Z) : res (list F) :=
  let! _ := assertb ((start =? 0) || (start =? 128)) in
  let! r := half_hashes db stem (map (fun i => start + Z.of_nat i) (seq 0 128)) in
  let! _ := assertb (length r =? 256)%nat in
  Ok r.

(** opening_data.rs:290-326, the queries for one suffix. *)
Definition suffix_query (db : S) (stem : bytes) (m : StemMeta) (sv : Z * option bytes)
  : res (list ProverQuery) :=
  let '(sfx, value) := sv in
  let lower := 2 * (sfx mod 128) in
  let upper := lower + 1 in
  let '(low, high) :=
    match value with Some v => (value_low v, value_high v) | None => (fzero, fzero) end in
  let! f := get_half_hashes db stem (if sfx <? 128 then 0 else 128) in
  let comm := if sfx <? 128 then sm_c1 m else sm_c2 m in
  Ok [mkPQ comm f lower low; mkPQ comm f upper high].
(** opening_data.rs:287-326, all suffixes. *)
Fixpoint suffix_queries (db : S) (stem : bytes) (m : StemMeta) (l : list (Z * option bytes))
  : res (list ProverQuery) :=
  match l with
  | [] => Ok []
  | sv :: l' =>
      let! q := suffix_query db stem m sv in
      let! r := suffix_queries db stem m l' in
      Ok (q ++ r)
  end.

(** opening_data.rs:272-329 [SuffixOpeningData::open_query]. *)
Definition suffix_open_query (db : S) (e : ExtOpeningData) (suffices : list (Z * option bytes))
  : res (list ProverQuery) :=
  let open_c1 := existsb (fun sv => fst sv <? 128) suffices in
  let open_c2 := existsb (fun sv => negb (fst sv <? 128)) suffices in
  let! eq := ext_open_query e open_c1 open_c2 in
  let! m := into_stem (eo_meta e) in
  let! sq := suffix_queries db (eo_stem e) m suffices in
  Ok (eq ++ sq).

(** opening_data.rs:385-404 [get_branch_children_hashes]. *)
Fixpoint children_hashes (db : S) (path : bytes) (l : list Z) : res (list F) :=
  match l with
  | [] => Ok []
  | i :: l' =>
      let! child := get_branch_child db path i in
      let! h :=
        match child with
        | Some (CStem s) =>
            let! m := get_stem_meta db s in
            let! m := unwrap m in
            Ok (sm_hash_comm m)
        | Some (CBranch b) => Ok (bm_hash b)
        | None => Ok fzero
        end in
      let! r := children_hashes db path l' in
      Ok (h :: r)
  end.
(** opening_data.rs:385-404. *)
Definition get_branch_children_hashes (db : S) (path : bytes) : res (list F) :=
  children_hashes db path byte_range.

(** opening_data.rs:338-365 [BranchOpeningData::open_query]. *)
Fixpoint branch_queries (c : G) (f : list F) (children : list Z) : res (list ProverQuery) :=
  match children with
  | [] => Ok []
  | i :: l =>
      let! y := Base.index f (Z.to_nat i) in
      let! r := branch_queries c f l in
      Ok (mkPQ c f i y :: r)
  end.
(** opening_data.rs:339-365. *)
Definition branch_open_query (db : S) (path : bytes) (meta : Meta) (children : list Z)
  : res (list ProverQuery) :=
  let! m := into_branch meta in
  let! f := get_branch_children_hashes db path in
  branch_queries (bm_comm m) f children.

(* ------------------------------------------------------------------ *)
(** ** prover.rs *)

(** prover.rs:77-86, the loop over the openings in path order; the second
    component is [diff_stem_no_proof]. *)
Fixpoint open_all (db : S) (o : list (bytes * Openings)) (diff : list bytes)
  : res (list ProverQuery * list bytes) :=
  match o with
  | [] => Ok ([], diff)
  | (path, op) :: o' =>
      let! (q, diff) :=
        match op with
        | OSuffix e s => let! q := suffix_open_query db e s in Ok (q, diff)
        | OBranch m c => let! q := branch_open_query db path m c in Ok (q, diff)
        | OExtension e =>
            let! q := ext_open_query e false false in
            Ok (q, set_insert (eo_stem e) diff)
        end in
      let! (r, diff) := open_all db o' diff in
      Ok (q ++ r, diff)
  end.

(** prover.rs:59-100 [create_prover_queries]. *)
Definition create_prover_queries (db : S) (keys : list bytes)
  : res (list ProverQuery * VerificationHint) :=
  let! _ := assertb (negb (length keys =? 0)%nat) in
  let! od := collect_opening_data db keys in
  let! (queries, diff) := open_all db (od_openings od) [] in
  Ok (queries, mkHint (map snd (od_depths od)) (map snd (od_ext od)) diff).

(** For prover.rs:40. itertools' [dedup]: consecutive equal elements are merged. *)
Fixpoint dedup (l : list G) : list G :=
  match l with
  | [] => []
  | x :: l' =>
      match l' with
      | [] => [x]
      | y :: _ => if geqb x y then dedup l' else x :: dedup l'
      end
  end.

(** prover.rs:24-41, [comms_sorted]. *)
Definition comms_of_queries (queries : list ProverQuery) (root_comm : G) : list G :=
  dedup (map pq_comm (filter (fun q => negb (geqb (pq_comm q) root_comm)) queries)).

(** prover.rs:15-51 [create_verkle_proof] up to the multipoint argument:
    [None] is [Err]; the result is the queries handed to [MultiPoint::open],
    the hint and the commitments. *)
Definition create_proof_parts (db : S) (keys : list bytes)
  : res (option (list ProverQuery * VerificationHint * list G)) :=
  match keys with
  | [] => Ok None
  | _ =>
      let! (queries, hint) := create_prover_queries db keys in
      match queries with
      | [] => Ok None
      | q :: _ => Ok (Some (queries, hint, comms_of_queries queries (pq_comm q)))
      end
  end.
End Prover.

(* ------------------------------------------------------------------ *)
(** ** verifier.rs *)

(** multiproof.rs:30-39 [VerifierQuery]. *)
Record VerifierQuery := mkVQ { vq_comm : G; vq_point : F; vq_result : F }.

(** proof.rs:170-177 [UpdateHint]. *)
Record UpdateHint := mkUH {
  uh_depths : list (bytes * (ExtPresent * Z));
  uh_comms : list (bytes * G);
  uh_others : list (bytes * bytes)
}.

(** The collections verifier.rs:30-36 fills. *)
Record VState := mkVS {
  vs_used : list bytes;                   (* other_stems_used *)
  vs_paths : list bytes;                  (* all_paths *)
  vs_pzs : list (bytes * Z);              (* all_paths_and_zs *)
  vs_leaf : list ((bytes * Z) * F);       (* leaf_values_by_path_and_z *)
  vs_others : list (bytes * bytes)        (* other_stems_by_prefix *)
}.
(** verifier.rs:30-36. *)
Definition vs_empty : VState := mkVS [] [] [] [] [].

(** verifier.rs:32, insertion. *)
Definition add_path (p : bytes) (s : VState) : VState :=
  mkVS (vs_used s) (set_insert p (vs_paths s)) (vs_pzs s) (vs_leaf s) (vs_others s).
(** verifier.rs:33, insertion. *)
Definition add_pz (p : bytes) (z : Z) (s : VState) : VState :=
  mkVS (vs_used s) (vs_paths s) (set_insert (p, z) (vs_pzs s)) (vs_leaf s) (vs_others s).
(** verifier.rs:34, insertion. *)
Definition add_leaf (p : bytes) (z : Z) (y : F) (s : VState) : VState :=
  mkVS (vs_used s) (vs_paths s) (vs_pzs s) (map_insert (p, z) y (vs_leaf s)) (vs_others s).
(** verifier.rs:30, insertion. *)
Definition add_used (x : bytes) (s : VState) : VState :=
  mkVS (set_insert x (vs_used s)) (vs_paths s) (vs_pzs s) (vs_leaf s) (vs_others s).
(** verifier.rs:36, insertion. *)
Definition add_other (p x : bytes) (s : VState) : VState :=
  mkVS (vs_used s) (vs_paths s) (vs_pzs s) (vs_leaf s) (map_insert p x (vs_others s)).

(** verifier.rs:41-51: stems in order zipped with the hint's vectors. *)
Definition is_present (e : ExtPresent) : bool := match e with ExtPres => true | _ => false end.
(** verifier.rs:41-51. *)
Definition stem_statuses (stems : list bytes) (h : VerificationHint)
  : list (bytes * (ExtPresent * Z)) * list bytes :=
  let l := combine (combine stems (vh_depths h)) (vh_ext h) in
  (map_of (map (fun '(s, d, e) => (s, (e, d))) l),
   set_of (map (fun '(s, _, _) => s) (filter (fun '(_, _, e) => is_present e) l))).

(** verifier.rs:59-62: [stem[0..i]] and [stem[i]] panic beyond the 31 bytes. *)
Fixpoint add_branches (stem : bytes) (l : list nat) (s : VState) : res VState :=
  match l with
  | [] => Ok s
  | i :: l' =>
      let! p := slice 0 i stem in
      let! z := Base.index stem i in
      add_branches stem l' (add_pz p z (add_path p s))
  end.

(** verifier.rs:72-102, a key whose stem is present. *)
Definition add_present (stem : bytes) (p : bytes) (suffix : Z) (value : option bytes) (s : VState)
  : VState :=
  let oi := if suffix <? 128 then 2 else 3 in
  let s := add_leaf p 1 (of_Z (le_Z stem)) (add_pz p oi s) in
  let sp := p ++ [oi] in
  let s := add_path sp s in
  let lower := 2 * (suffix mod 128) in
  let upper := lower + 1 in
  let s := add_pz sp upper (add_pz sp lower s) in
  let '(low, high) :=
    match value with Some v => (value_low v, value_high v) | None => (fzero, fzero) end in
  add_leaf sp upper high (add_leaf sp lower low s).

(** verifier.rs:103-157, a key whose slot holds another stem; [None] is
    [return None]. *)
Definition add_different (stem : bytes) (d : nat) (value : option bytes)
    (with_ext diff : list bytes) (s : VState) : res (option VState) :=
  match value with
  | Some _ => Ok None
  | None =>
      let! _ := assertb (negb (d =? length stem)%nat) in
      let same := fun x => beqb (firstn d x) (firstn d stem) in
      match filter same with_ext with
      | [other] => Ok (Some (add_other (firstn d stem) other s))
      | _ :: _ :: _ => Panic
      | [] =>
          let! other := unwrap (hd_error (rev (filter same diff))) in
          let s := add_leaf (firstn d stem) 1 (of_Z (le_Z other)) (add_used other s) in
          Ok (Some (add_other (firstn d stem) other s))
      end
  end.

(** verifier.rs:158-178, a key whose slot is empty. [depth as usize - 1]
    panics (or indexes out of range) for depth 0. *)
Definition add_none (stem : bytes) (d : nat) (value : option bytes) (s : VState)
  : res (option VState) :=
  match value with
  | Some _ => Ok None
  | None =>
      if (d =? 1)%nat then
        let! z := Base.index stem 0 in
        Ok (Some (add_leaf [] z fzero s))
      else
        let! p := slice 0 d stem in
        let! _ := assertb (negb (d =? 0)%nat) in
        let! z := Base.index stem (d - 1) in
        Ok (Some (add_leaf p z fzero s))
  end.

(** verifier.rs:53-179, the body of the loop. *)
Definition verify_key (statuses : list (bytes * (ExtPresent * Z))) (with_ext diff : list bytes)
    (s : VState) (kv : bytes * option bytes) : res (option VState) :=
  let '(key, value) := kv in
  let stem := firstn 31 key in
  let! ed := unwrap (map_get stem statuses) in
  let '(ext, depth) := ed in
  let d := Z.to_nat depth in
  let! s := add_branches stem (seq 0 d) s in
  match ext with
  | ExtNone => add_none stem d value s
  | _ =>
      let! p := slice 0 d stem in
      let s := add_path p s in
      let s := add_leaf p 0 fone (add_pz p 1 (add_pz p 0 s)) in
      match ext with
      | ExtPres =>
          let! suffix := Base.index key 31 in
          Ok (Some (add_present stem p suffix value s))
      | _ => add_different stem d value with_ext diff s
      end
  end.

(** verifier.rs:53-179, the loop. *)
Fixpoint verify_keys statuses with_ext diff (s : VState) (kvs : list (bytes * option bytes))
  : res (option VState) :=
  match kvs with
  | [] => Ok (Some s)
  | kv :: kvs' =>
      let! o := verify_key statuses with_ext diff s kv in
      match o with
      | None => Ok None
      | Some s => verify_keys statuses with_ext diff s kvs'
      end
  end.

(** For verifier.rs:181. [==] on [BTreeSet<[u8; 31]>]. *)
Fixpoint stems_eqb (a b : list bytes) : bool :=
  match a, b with
  | [], [] => true
  | x :: a', y :: b' => beqb x y && stems_eqb a' b'
  | _, _ => false
  end.

(** verifier.rs:197-209: the result expected at (path, z). *)
Definition expected_y (leaf : list ((bytes * Z) * F)) (comms : list (bytes * G)) (pz : bytes * Z) : F :=
  match map_get pz leaf with
  | Some y => y
  | None =>
      match map_get (fst pz ++ [snd pz]) comms with
      | Some c => hash c
      | None => fzero
      end
  end.

(** verifier.rs:188-225: one query per (path, z), in order. *)
Fixpoint verifier_queries (leaf : list ((bytes * Z) * F)) (comms : list (bytes * G))
    (pzs : list (bytes * Z)) : res (list VerifierQuery) :=
  match pzs with
  | [] => Ok []
  | pz :: pzs' =>
      let! c := unwrap (map_get (fst pz) comms) in
      let! r := verifier_queries leaf comms pzs' in
      Ok (mkVQ c (of_Z (snd pz)) (expected_y leaf comms pz) :: r)
  end.

(** verifier.rs:12-234 [create_verifier_queries].  The proof is given by the
    parts used here, its hint and [comms_sorted]. *)
Definition create_verifier_queries (hint : VerificationHint) (comms_sorted : list G)
    (keys : list bytes) (values : list (option bytes)) (root : G)
  : res (option (list VerifierQuery * UpdateHint)) :=
  let comms := root :: comms_sorted in
  let stems := set_of (map (firstn 31) keys) in
  let '(statuses, with_ext) := stem_statuses stems hint in
  let! o := verify_keys statuses with_ext (vh_diff hint) vs_empty (combine keys values) in
  match o with
  | None => Ok None
  | Some s =>
      let! _ := assertb (stems_eqb (vh_diff hint) (vs_used s)) in
      let! _ := assertb (length comms =? length (vs_paths s))%nat in
      let by_path := map_of (combine (vs_paths s) comms) in
      let! q := verifier_queries (vs_leaf s) by_path (vs_pzs s) in
      Ok (Some (q, mkUH statuses by_path (vs_others s)))
  end.

End ProofModel.
