(** Property theorems C01-C08: the trie over the in-memory database. *)
From Verif Require Import Base Alg AlgInst TreeSpec TrieModel TrieTheorems ExData.

(** C01: [get] returns the value of the last insert of that key, [None] if
    there was none. *)
Theorem C01_get_returns_last_insert :
  forall (A : Alg) (L : AlgLaws A) (P : Par A) (PL : ParLaws P) (h : history),
  wf_history h ->
  exists db, run_mem h = Ok db /\ forall k, trie_get db k = Ok (final_map h k).
Proof. intros A L P PL. exact get_last. Qed.
Print Assumptions C01_get_returns_last_insert.

(** C02: the root commitment and root hash are those of the tree recomputed
    from scratch. *)
Theorem C02_root_is_from_scratch_commitment :
  forall (A : Alg) (L : AlgLaws A) (P : Par A) (PL : ParLaws P) (h : history),
  wf_history h ->
  exists db, run_mem h = Ok db /\
    root_commitment db = Ok (spec_root (final_map h) (stems_of h)) /\
    root_hash db = Ok (hash (spec_root (final_map h) (stems_of h))).
Proof. intros A L P PL. exact root_spec. Qed.
Print Assumptions C02_root_is_from_scratch_commitment.

(** C03: histories with the same final map are indistinguishable. *)
Theorem C03_history_independence :
  forall (A : Alg) (L : AlgLaws A) (P : Par A) (PL : ParLaws P) (h1 h2 : history),
  wf_history h1 -> wf_history h2 ->
  (forall k, final_map h1 k = final_map h2 k) ->
  exists db1 db2, run_mem h1 = Ok db1 /\ run_mem h2 = Ok db2 /\
    root_commitment db1 = root_commitment db2 /\ root_hash db1 = root_hash db2 /\
    same_tables db1 db2.
Proof. intros A L P PL. exact history_independent. Qed.
Print Assumptions C03_history_independence.

(** C04: no insertion history reaches a panic, nor do reads and further
    insertions afterwards. *)
Theorem C04_insert_never_panics :
  forall (A : Alg) (L : AlgLaws A) (P : Par A) (PL : ParLaws P) (h : history),
  wf_history h ->
  exists db, run_mem h = Ok db /\ (exists c, root_commitment db = Ok c) /\ (exists x, root_hash db = Ok x) /\
    (forall k, exists o, trie_get db k = Ok o) /\
    (forall kvs, wf_history kvs -> exists db', trie_insert db kvs = Ok db').
Proof. intros A L P PL. exact no_panic. Qed.
Print Assumptions C04_insert_never_panics.

(** C05: re-inserting the stored value changes nothing. *)
Theorem C05_reinsert_is_noop :
  forall (A : Alg) (L : AlgLaws A) (P : Par A) (PL : ParLaws P) (h : history) db k v,
  wf_history h -> is_key k -> run_mem h = Ok db ->
  trie_get db k = Ok (Some v) -> insert_single db (k, v) = Ok db.
Proof. intros A L P PL. exact reinsert. Qed.
Print Assumptions C05_reinsert_is_noop.

(** C05: a zero value under an absent key is a real insertion; the committed
    entry moves from 0 to the marker 2^128. *)
Theorem C05_zero_value_is_real :
  forall (A : Alg) (L : AlgLaws A) (P : Par A) (PL : ParLaws P) (h : history) k,
  wf_history h -> is_key k -> final_map h k = None -> of_Z (2 ^ 128) <> fzero ->
  exists db db', run_mem h = Ok db /\ insert_single db (k, repeat 0 32) = Ok db' /\
    trie_get db k = Ok None /\ trie_get db' k = Ok (Some (repeat 0 32)) /\
    let pos := nth 31 k 0 in
    let stem := firstn 31 k in
    suffix_vec (leaf_table db) stem (pos / 128) (2 * (pos mod 128)) = fzero /\
    suffix_vec (leaf_table db') stem (pos / 128) (2 * (pos mod 128)) <> fzero /\
    exists c c', suffix_comm (leaf_table db) stem (pos / 128) = c /\
      suffix_comm (leaf_table db') stem (pos / 128) = c' /\
      c' = gadd c (smul (of_Z (2 ^ 128)) (crs (2 * (pos mod 128)))).
Proof. intros A L P PL. exact zero_is_real. Qed.
Print Assumptions C05_zero_value_is_real.

(** C06: the branch table holds exactly the required inner nodes and stem
    pointers, and every stem is found by walking its own bytes. *)
Theorem C06_tree_structure :
  forall (A : Alg) (L : AlgLaws A) (P : Par A) (PL : ParLaws P) (h : history) db,
  wf_history h -> run_mem h = Ok db ->
  (forall p, (exists m, branch_table db p = Some (CBranch m)) <-> branch_required h p) /\
  (forall p s, branch_table db p = Some (CStem s) <-> stem_required h p s) /\
  (forall p, branch_table db p <> None -> (length p <= 31)%nat) /\
  (forall s, (exists m, stem_table db s = Some m) <-> stem_in h s) /\
  (forall s, stem_in h s -> exists n, (1 <= n <= 31)%nat /\ branch_table db (firstn n s) = Some (CStem s) /\
     (forall j, (j < n)%nat -> exists m, branch_table db (firstn j s) = Some (CBranch m)) /\
     (forall p, branch_table db p = Some (CStem s) -> p = firstn n s)).
Proof. intros A L P PL. exact structure. Qed.
Print Assumptions C06_tree_structure.

(** C07: stored commitments are those of the stored children, stored hashes
    are those of the stored commitments. *)
Theorem C07_metadata_coherent :
  forall (A : Alg) (L : AlgLaws A) (P : Par A) (PL : ParLaws P) (h : history) db,
  wf_history h -> run_mem h = Ok db ->
  (forall s m, stem_table db s = Some m ->
     sm_c1 m = suffix_comm (leaf_table db) s 0 /\ sm_hash_c1 m = hash (sm_c1 m) /\
     sm_c2 m = suffix_comm (leaf_table db) s 1 /\ sm_hash_c2 m = hash (sm_c2 m) /\
     sm_comm m = ext_comm (leaf_table db) s /\ sm_hash_comm m = hash (sm_comm m)) /\
  (forall p m, branch_table db p = Some (CBranch m) ->
     bm_comm m = vcommit (child_scalar db p) /\ bm_hash m = hash (bm_comm m)).
Proof. intros A L P PL. exact coherent. Qed.
Print Assumptions C07_metadata_coherent.

(** C08: splitting a batch is unobservable, on every backend. *)
Theorem C08_batching_unobservable :
  forall (A : Alg) (P : Par A) (St : Type) (D : DbOps St) (db : St) (a b : list (bytes * bytes)),
  trie_insert db (a ++ b) = (let! db1 := trie_insert db a in trie_insert db1 b) /\
  trie_insert db (a ++ b) = fold_left (fun r kv => let! db := r in insert_single db kv) (a ++ b) (Ok db).
Proof. intros A P St D db a b. exact (conj (insert_app db a b) (insert_fold db (a ++ b))). Qed.
Print Assumptions C08_batching_unobservable.

(** ** The hypotheses are met by a non-trivial history: two stems that share
    four bytes, two suffixes of one stem, an overwrite, a zero value and a
    repetition. *)
Example ex_h_wf : wf_history ex_h.
Proof. apply keys_okb_ok. reflexivity. Qed.

Example ex_h_runs :
  (let! db := run_mem ex_h in
   let! c := root_commitment db in
   let! v := trie_get db (ex_key 5 0 7) in
   let! z := trie_get db (ex_key 5 0 130) in
   let! n := trie_get db (ex_key 5 0 131) in
   Ok (geqb c (spec_root (final_map ex_h) (stems_of ex_h)), v, z, n,
       match branch_table db [1; 2; 3; 4; 5] with Some (CStem _) => true | _ => false end,
       match branch_table db [1; 2; 3] with Some (CBranch _) => true | _ => false end))
  = Ok (true, Some (repeat 8 32), Some (repeat 0 32), None, true, true).
Proof. vm_compute. reflexivity. Qed.

Example ex_same_final_map :
  forall k, final_map ex_h k =
    final_map [(repeat 250 32, repeat 1 32); (ex_key 5 0 130, repeat 0 32); (ex_key 6 1 200, repeat 3 32);
               (ex_key 5 0 7, repeat 8 32)] k.
Proof.
  intros k. cbn [final_map ex_h].
  destruct (beqb (ex_key 5 0 7) k) eqn:E1, (beqb (ex_key 6 1 200) k) eqn:E2,
    (beqb (ex_key 5 0 130) k) eqn:E3, (beqb (repeat 250 32) k) eqn:E4; try reflexivity; exfalso;
    repeat match goal with H : beqb _ k = true |- _ => apply BaseFacts.beqb_eq in H end; subst k; discriminate.
Qed.

Example ex_marker : of_Z (2 ^ 128) <> (fzero : F).
Proof. intros H. apply (f_equal (zval p31)) in H. vm_compute in H. discriminate. Qed.

Example ex_absent : final_map ex_h (ex_key 5 0 131) = None.
Proof. reflexivity. Qed.
