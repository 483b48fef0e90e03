(** Model of the stateless root update:
    verkle-trie/src/proof/stateless_updater.rs. *)
From Verif Require Import Base Alg TrieModel BTree WireModel ProofModel IpaModel.

Section StatelessModel.
Context {A : Alg} {P : Par A}.

(** verkle-trie/src/errors.rs:13-27 [VerificationError], the variants returned
    here. *)
Inductive VerificationError :=
| InvalidProof
| UnexpectedUpdatedLength (expected got : nat)
| MismatchedKeyLength
| DuplicateKeys
| OldValueIsPopulated.

(** errors.rs:14. [Result<Element, VerificationError>]. *)
Inductive vresult :=
| VOk (root : G)
| VErr (e : VerificationError).

(** The order in which iterating over a [HashSet] yields its elements: it is
    arbitrary, so it is a parameter, from the set (given as the sorted list of
    its elements) to the list of the elements in iteration order. *)
Context (hash_order : list bytes -> list bytes).

(** For stateless_updater.rs:41, 47. [!n] on a [usize]: bitwise complement, 64 bits. *)
Definition not_usize (n : nat) : Z := 2 ^ 64 - 1 - Z.of_nat n.

(** stateless_updater.rs:565-572 [has_unique_elements]. *)
Fixpoint unique_from (seen : list bytes) (l : list bytes) : bool :=
  match l with
  | [] => true
  | x :: l' => if existsb (beqb x) seen then false else unique_from (x :: seen) l'
  end.
(** stateless_updater.rs:565-572. *)
Definition has_unique_elements (l : list bytes) : bool := unique_from [] l.

(** stateless_updater.rs:71-74. *)
Definition SuffixUpdate := list (Z * (option bytes * bytes)).

(** stateless_updater.rs:77-96, the body of the loop. [key] is a [[u8; 32]], so
    taking its stem and suffix cannot fail. *)
Definition collect_update (us : list (bytes * SuffixUpdate))
    (e : bytes * option bytes * option bytes) : list (bytes * SuffixUpdate) :=
  let '(key, old_value, updated_value) := e in
  let stem := firstn 31 key in
  let suffix := nth 31 key 0 in
  match updated_value with
  | None => us
  | Some x =>
      let cur := match map_get stem us with Some l => l | None => [] end in
      map_insert stem (map_insert suffix (old_value, x) cur) us
  end.

(** stateless_updater.rs:77: [zip] stops at the end of the shortest list. *)
Definition updated_stems (keys : list bytes) (values updated : list (option bytes))
  : list (bytes * SuffixUpdate) :=
  fold_left collect_update (combine (combine keys values) updated) [].

(** stateless_updater.rs:117-152, the body of the loop over the suffixes of a
    stem that is present; the state is (c_1_delta_update, c_2_delta_update). *)
Definition suffix_delta (cs : G * G) (su : Z * (option bytes * bytes)) : G * G :=
  let '(suffix, (old_value, new_value)) := su in
  let '(old_low, old_high) :=
    match old_value with Some v => (value_low v, value_high v) | None => (fzero, fzero) end in
  let delta_low := fsub (value_low new_value) old_low in
  let delta_high := fsub (value_high new_value) old_high in
  let low_index := 2 * (suffix mod 128) in
  let high_index := low_index + 1 in
  let g := gadd (scalar_mul delta_low low_index) (scalar_mul delta_high high_index) in
  if suffix <? 128 then (gadd (fst cs) g, snd cs) else (fst cs, gadd (snd cs) g).

(** stateless_updater.rs:154-165 (C1) and 166-175 (C2). *)
Definition half_hash_delta (comms : list (bytes * G)) (path : bytes) (delta : G) : res F :=
  if geqb delta gzero then Ok fzero
  else
    let! old := unwrap (map_get path comms) in
    let new := gadd old delta in
    Ok (fsub (hash new) (hash old)).

(** stateless_updater.rs:110-187, a stem that is present. *)
Definition update_present (comms : list (bytes * G)) (ext_path : bytes) (su : SuffixUpdate)
  : res G :=
  let '(d1, d2) := fold_left suffix_delta su (gzero, gzero) in
  let! hd1 := half_hash_delta comms (ext_path ++ [2]) d1 in
  let! hd2 := half_hash_delta comms (ext_path ++ [3]) d2 in
  let stem_comm_update := gadd (gadd gzero (scalar_mul hd1 2)) (scalar_mul hd2 3) in
  let! stem_comm_old := unwrap (map_get ext_path comms) in
  Ok (gadd stem_comm_old stem_comm_update).

(** stateless_updater.rs:201-229, the loop over the suffixes of a new stem;
    [None] is [return Err(OldValueIsPopulated)]. *)
Fixpoint new_suffixes (su : SuffixUpdate) (c1 c2 : G) : option (G * G) :=
  match su with
  | [] => Some (c1, c2)
  | (suffix, (old_value, new_value)) :: su' =>
      match old_value with
      | Some _ => None
      | None =>
          let low_index := 2 * (suffix mod 128) in
          let high_index := low_index + 1 in
          let g := gadd (scalar_mul (value_low new_value) low_index)
                        (scalar_mul (value_high new_value) high_index) in
          if suffix <? 128 then new_suffixes su' (gadd c1 g) c2
          else new_suffixes su' c1 (gadd c2 g)
      end
  end.

(** ipa-multipoint/src/committer.rs:14-22 [commit_sparse]. *)
Definition commit_sparse (l : list (F * Z)) : G :=
  fold_left (fun acc vi => gadd acc (scalar_mul (fst vi) (snd vi))) l gzero.

(** stateless_updater.rs:231-240. *)
Definition new_stem_comm (stem : bytes) (c1 c2 : G) : G :=
  commit_sparse [(fone, 0); (of_Z (le_Z stem), 1); (hash c1, 2); (hash c2, 3)].

(** stateless_updater.rs:99-100.  The set of stems of a prefix is the sorted list of
    its elements; [updated_commitents_by_stem] is only read and written by
    key, so it is a function. *)
Record Updates := mkU {
  u_prefix : list (bytes * list bytes);
  u_stem : bmap (G * F)
}.

(** stateless_updater.rs:105-108 and 190-193. [updated_stems_by_prefix.entry(prefix).or_default().insert(stem)]. *)
Definition add_stem_prefix (prefix stem : bytes) (u : list (bytes * list bytes))
  : list (bytes * list bytes) :=
  let cur := match map_get prefix u with Some l => l | None => [] end in
  map_insert prefix (set_insert stem cur) u.

(** stateless_updater.rs:102-247, the body of the loop; [None] is
    [return Err(OldValueIsPopulated)].  For a stem whose slot is empty
    nothing is inserted into [updated_commitents_by_stem]. *)
Definition process_stem (hint : UpdateHint) (u : Updates) (e : bytes * SuffixUpdate)
  : res (option Updates) :=
  let '(stem, su) := e in
  let! ed := unwrap (map_get stem (uh_depths hint)) in
  let '(ext, depth) := ed in
  let! prefix := slice 0 (Z.to_nat depth) stem in
  let by_prefix := add_stem_prefix prefix stem (u_prefix u) in
  match ext with
  | ExtPres =>
      let! c := update_present (uh_comms hint) prefix su in
      Ok (Some (mkU by_prefix (upd (u_stem u) stem (c, hash c))))
  | ExtDifferentStem =>
      let! other := unwrap (map_get prefix (uh_others hint)) in
      let by_prefix := add_stem_prefix prefix other by_prefix in
      match new_suffixes su gzero gzero with
      | None => Ok None
      | Some (c1, c2) =>
          let c := new_stem_comm stem c1 c2 in
          Ok (Some (mkU by_prefix (upd (u_stem u) stem (c, hash c))))
      end
  | ExtNone => Ok (Some (mkU by_prefix (u_stem u)))
  end.

(** stateless_updater.rs:102-247, the loop. *)
Fixpoint process_stems (hint : UpdateHint) (u : Updates) (l : list (bytes * SuffixUpdate))
  : res (option Updates) :=
  match l with
  | [] => Ok (Some u)
  | e :: l' =>
      let! o := process_stem hint u e in
      match o with
      | None => Ok None
      | Some u => process_stems hint u l'
      end
  end.

(** ** [build_subtree], stateless_updater.rs:318-501 *)

(** stateless_updater.rs:333-346 [Node]. *)
Inductive SNode :=
| SInner (c : G)
| SStem (id : bytes) (c : G).

(** For stateless_updater.rs:343-346. The map [tree] is only read and written by key. *)
Definition STree := bmap SNode.

(** stateless_updater.rs:377-389; [rest] is [stem[depth..]], so reading
    [stem[depth]] panics when it is empty. *)
Fixpoint sub_walk (tree : STree) (path : bytes) (cur : SNode) (rest : bytes)
  : res (bytes * SNode * bytes) :=
  match cur with
  | SStem _ _ => Ok (path, cur, rest)
  | SInner _ =>
      match rest with
      | [] => Panic
      | idx :: rest' =>
          match tree (path ++ [idx]) with
          | Some node => sub_walk tree (path ++ [idx]) node rest'
          | None => Ok (path ++ [idx], cur, rest')
          end
      end
  end.

(** stateless_updater.rs:418-426, with [o = old_stem.id[depth..]] and
    [s = stem[depth..]]; also returns the two bytes at which the stems differ,
    read in 429 and 434. *)
Fixpoint sub_extend (tree : STree) (path o s : bytes) : res (STree * bytes * Z * Z) :=
  match o, s with
  | x :: o', y :: s' =>
      if x =? y then sub_extend (upd tree (path ++ [y]) (SInner gzero)) (path ++ [y]) o' s'
      else Ok (tree, path, x, y)
  | _, _ => Panic
  end.

(** stateless_updater.rs:453-454, 466, 478, 492. [tree.get_mut(path).unwrap().inner_mut().commitment += d], returning also
    the commitment before and after. *)
Definition add_inner (tree : STree) (path : bytes) (d : G) : res (STree * G * G) :=
  match tree path with
  | Some (SInner c) => Ok (upd tree path (SInner (gadd c d)), c, gadd c d)
  | _ => Panic
  end.

(** stateless_updater.rs:461-470, 475-482 and 489-496, the body these loops share: the path loses its last byte
    (given here reversed) and the parent is updated. *)
Definition sub_step (idx : Z) (rp : bytes) (tree : STree) (old new : F) : res (STree * F * F) :=
  let! (tree, c_old, c_new) := add_inner tree (rev rp) (scalar_mul (fsub new old) idx) in
  Ok (tree, hash c_old, hash c_new).

(** stateless_updater.rs:460-471 [while path != stem_to_innernode_path]. *)
Fixpoint climb_to (base : bytes) (rp : bytes) (tree : STree) (old new : F)
  : res (STree * bytes * F) :=
  if beqb (rev rp) base then Ok (tree, rp, new)
  else
    match rp with
    | [] => Panic
    | idx :: rp' =>
        let! (tree, old, new) := sub_step idx rp' tree old new in
        climb_to base rp' tree old new
    end.

(** stateless_updater.rs:488-497 [while let Some(child_index) = path.pop()]. *)
Fixpoint climb (rp : bytes) (tree : STree) (old new : F) : res STree :=
  match rp with
  | [] => Ok tree
  | idx :: rp' =>
      let! (tree, old, new) := sub_step idx rp' tree old new in
      climb rp' tree old new
  end.

(** stateless_updater.rs:369-498, the body of the loop. *)
Definition sub_insert (prefix : bytes) (tree : STree) (e : bytes * G) : res STree :=
  let '(stem, commitment) := e in
  let! rest := slice_from (length prefix) stem in
  let! root := unwrap (tree []) in
  let! (path, cur, rest) := sub_walk tree [] root rest in
  match cur with
  | SInner _ =>
      climb (rev path) (upd tree path (SStem stem commitment)) fzero (hash commitment)
  | SStem old_id old_comm =>
      let base := path in
      let tree := upd tree path (SInner gzero) in
      let! o := slice_from (length prefix + length path) old_id in
      let! (tree, path, ox, sx) := sub_extend tree path o rest in
      let tree := upd tree (path ++ [ox]) (SStem old_id old_comm) in
      let tree := upd tree (path ++ [sx]) (SStem stem commitment) in
      let! (tree, _, c) := add_inner tree path
        (gadd (scalar_mul (hash old_comm) ox) (scalar_mul (hash commitment) sx)) in
      let! (tree, rp, new) := climb_to base (rev path) tree fzero (hash c) in
      match rp with
      | [] => Panic
      | idx :: rp' =>
          let! (tree, old, new) := sub_step idx rp' tree (hash old_comm) new in
          climb rp' tree old new
      end
  end.

(** stateless_updater.rs:369-498, the loop. *)
Fixpoint sub_inserts (prefix : bytes) (tree : STree) (l : list (bytes * G)) : res STree :=
  match l with
  | [] => Ok tree
  | e :: l' => let! tree := sub_insert prefix tree e in sub_inserts prefix tree l'
  end.

(** stateless_updater.rs:318-501 [build_subtree]. *)
Definition build_subtree (prefix : bytes) (elements : list (bytes * G)) : res G :=
  let! tree := sub_inserts prefix (upd bempty [] (SInner gzero)) elements in
  match tree [] with
  | Some (SInner c) => Ok c
  | _ => Panic
  end.

(** ** [SparseVerkleTree], stateless_updater.rs:503-561 *)

(** stateless_updater.rs:503-506; the map is only read and written by key. *)
Record Sparse := mkSparse { sp_root : G; sp_updated : bmap G }.

(** stateless_updater.rs:534-555; [rp] is the prefix reversed, so that [pop] is
    [tail]. *)
Fixpoint climb_prefix (comms : list (bytes * G)) (rp : bytes) (updated : bmap G) (delta : F)
    (cur : option G) : res (bmap G * option G) :=
  match rp with
  | [] => Ok (updated, cur)
  | idx :: rp' =>
      let path := rev rp' in
      let! old :=
        match updated path with
        | Some c => Ok c
        | None => unwrap (map_get path comms)
        end in
      let new := gadd old (scalar_mul delta idx) in
      climb_prefix comms rp' (upd updated path new) (fsub (hash new) (hash old)) (Some new)
  end.

(** stateless_updater.rs:516-560 [update_prefix]; [None] is
    [Err(EmptyPrefix)]. *)
Definition update_prefix (comms : list (bytes * G)) (t : Sparse) (prefix : bytes) (old new : F)
  : res (option Sparse) :=
  match prefix with
  | [] => Ok None
  | _ =>
      let! (updated, cur) := climb_prefix comms (rev prefix) (sp_updated t) (fsub new old) None in
      let! root := unwrap cur in
      Ok (Some (mkSparse root updated))
  end.

(** stateless_updater.rs:279-287. *)
Fixpoint subtree_elements (comms : list (bytes * G)) (by_stem : bmap (G * F)) (prefix : bytes)
    (stems : list bytes) : res (list (bytes * G)) :=
  match stems with
  | [] => Ok []
  | s :: stems' =>
      let! c :=
        match by_stem s with
        | Some (c, _) => Ok c
        | None => unwrap (map_get prefix comms)
        end in
      let! r := subtree_elements comms by_stem prefix stems' in
      Ok ((s, c) :: r)
  end.

(** stateless_updater.rs:251-300, the body of the loop. *)
Definition process_prefix (comms : list (bytes * G)) (by_stem : bmap (G * F)) (t : Sparse)
    (e : bytes * list bytes) : res Sparse :=
  let '(prefix, stems) := e in
  let old := match map_get prefix comms with Some c => hash c | None => fzero end in
  let! new :=
    match hash_order stems with
    | [s] => let! c := unwrap (by_stem s) in Ok (snd c)
    | l =>
        let! elements := subtree_elements comms by_stem prefix l in
        let! c := build_subtree prefix elements in
        Ok (hash c)
    end in
  let! o := update_prefix comms t prefix old new in
  unwrap o.

(** stateless_updater.rs:251-300, the loop. *)
Fixpoint process_prefixes (comms : list (bytes * G)) (by_stem : bmap (G * F)) (t : Sparse)
    (l : list (bytes * list bytes)) : res Sparse :=
  match l with
  | [] => Ok t
  | e :: l' => let! t := process_prefix comms by_stem t e in process_prefixes comms by_stem t l'
  end.

(** stateless_updater.rs:33-304 [update_root]. *)
Definition update_root (hint : UpdateHint) (keys : list bytes)
    (values updated : list (option bytes)) (root : G) : res vresult :=
  if not_usize (length values) =? Z.of_nat (length updated) then
    Ok (VErr (UnexpectedUpdatedLength (length values) (length updated)))
  else if not_usize (length keys) =? Z.of_nat (length updated) then
    Ok (VErr MismatchedKeyLength)
  else if negb (has_unique_elements keys) then Ok (VErr DuplicateKeys)
  else
    let! o := process_stems hint (mkU [] bempty) (updated_stems keys values updated) in
    match o with
    | None => Ok (VErr OldValueIsPopulated)
    | Some u =>
        let! t := process_prefixes (uh_comms hint) (u_stem u) (mkSparse root bempty) (u_prefix u) in
        Ok (VOk (sp_root t))
    end.

(** stateless_updater.rs:12-31 [verify_and_update]. *)
Definition verify_and_update {HS : Hasher} {EC : ECodec A} (p : VerkleProof) (root : G) (keys : list bytes)
    (values updated : list (option bytes)) : res vresult :=
  let! (ok, hint) := proof_check p keys values root in
  if negb ok then Ok (VErr InvalidProof)
  else
    let! hint := unwrap hint in
    update_root hint keys values updated root.

End StatelessModel.
