(** Property theorems C09-C14: the caching disk database. *)
From Verif Require Import Base Alg AlgInst TreeSpec TrieModel CodecModel VerkleDbModel DbSpec
  VerkleDbProofs VerkleDbSim VerkleDbTheorems CodecInst VerkleDbExamples DiskLost DiskListing DiskStems CodecTotal CodecTotalInst.

(** C09, proved part: over every interleaving of insertions, flushes and
    reopenings, the disk trie has the roots and the [get] results of an
    in-memory trie given the insertions that were not lost, provided that a
    flushed value is not changed and that a prefix of 4 bytes which two stems
    came to share since the last opening is left alone until the next one. *)
Theorem C09_disk_trie_like_memory_trie_partial :
  forall (A : Alg) (L : AlgLaws A) (P : Par A) (PL : ParLaws P) (C : Codec A) (CL : CodecLaws C) (l : list Op),
  wf_ops l -> settled_ops l -> no_rewrite l ->
  exists v db, run_disk l = Ok v /\ run_mem (contents l) = Ok db /\
    root_commitment v = root_commitment db /\ root_hash v = root_hash db /\
    (forall k, trie_get v k = trie_get db k).
Proof. intros A L P PL C CL. exact disk_like_mem. Qed.
Print Assumptions C09_disk_trie_like_memory_trie_partial.

Example C09_hypotheses : wf_ops ok_ops /\ spread_ops ok_ops /\ no_rewrite ok_ops.
Proof.
  split; [apply ops_okb_ok|split; [apply spreadb_ok|apply no_rewriteb_ok]]; vm_compute; reflexivity.
Qed.
Example C09_deep_hypotheses : wf_ops deep_ops /\ settled_ops deep_ops /\ ~ spread_ops deep_ops /\ no_rewrite deep_ops.
Proof.
  split; [apply ops_okb_ok; vm_compute; reflexivity|]. split; [apply settledb_ok; vm_compute; reflexivity|].
  split; [|apply no_rewriteb_ok; vm_compute; reflexivity].
  intros H. assert (X : firstn 31 (dk 1 0 0) = firstn 31 (dk 2 0 0)); [|discriminate X].
  apply (H _ (val 1) _ (val 2)); [| |reflexivity]; unfold deep_ops; cbn; tauto.
Qed.

(** The second condition holds in particular when stems differ within their
    first 4 bytes; and what it calls the last opening is that. *)
Theorem C09_spread_stems_settle : forall l, spread_ops l -> settled_ops l.
Proof. exact spread_settled. Qed.
Print Assumptions C09_spread_stems_settle.
Theorem C09_last_opening : (forall l, ~ In OReopen l -> last_open l = []) /\
  (forall l1 l2, ~ In OReopen l2 -> last_open (l1 ++ OReopen :: l2) = durable l1).
Proof. exact (conj last_open_never last_open_last). Qed.
Print Assumptions C09_last_opening.

(** C09 is false without the first restriction, whatever the group and the
    codec: a key below depth 4 is read from the cache after being updated. *)
Theorem C09_stale_read_refuted :
  forall (A : Alg) (P : Par A) (C : Codec A),
  exists l v k, wf_ops l /\ forallb is_insert l = true /\ run_disk l = Ok v /\
    trie_get v k <> Ok (final_map (contents l) k).
Proof.
  intros A P C. destruct (@stale_read A P C) as (v & E & R & F). exists stale_ops, v, kB.
  split; [apply ops_okb_ok; vm_compute; reflexivity|]. split; [reflexivity|]. split; [exact E|].
  rewrite R, F. discriminate.
Qed.
Print Assumptions C09_stale_read_refuted.

(** The first restriction is what is needed: after any history of the theorem
    above, an insertion that breaks it panics or is lost, in that the disk trie
    keeps the roots of the in-memory trie without that insertion. *)
Theorem C09_unsettled_insertion_lost :
  forall (A : Alg) (L : AlgLaws A) (P : Par A) (PL : ParLaws P) (C : Codec A) (CL : CodecLaws C) (l : list Op) k x,
  wf_ops l -> settled_ops l -> no_rewrite l -> is_key k ->
  crowded (contents l) (firstn 4 k) -> ~ crowded (last_open l) (firstn 4 k) ->
  run_disk (l ++ [OInsert k x]) = Panic \/
  exists v db, run_disk (l ++ [OInsert k x]) = Ok v /\ run_mem (contents l) = Ok db /\
    root_commitment v = root_commitment db /\ root_hash v = root_hash db.
Proof. intros A L P PL C CL. exact lost_update. Qed.
Print Assumptions C09_unsettled_insertion_lost.

(** Both outcomes occur, and the in-memory trie has another root. *)
Example C09_unsettled_cases :
  (wf_ops hot_ops /\ settled_ops hot_ops /\ no_rewrite hot_ops /\
   crowded (contents hot_ops) (firstn 4 (dk 3 0 0)) /\ ~ crowded (last_open hot_ops) (firstn 4 (dk 3 0 0)) /\
   root_of (hot_ops ++ [OInsert (dk 3 0 0) (val 3)]) = mem_root_of (contents hot_ops) /\
   root_of hot_ops <> None /\
   mem_root_of (contents (hot_ops ++ [OInsert (dk 3 0 0) (val 3)])) <> mem_root_of (contents hot_ops)) /\
  (settled_ops part_ops /\ ~ crowded (last_open part_ops) (firstn 4 (part 2 9)) /\
   run_disk (part_ops ++ [OInsert (part 2 9) (val 3)]) = Panic).
Proof.
  assert (N : forall h q, crowdedb h q = false -> ~ crowded h q)
    by (intros h q H X; apply crowdedb_iff in X; congruence).
  split.
  - split; [apply ops_okb_ok; vm_compute; reflexivity|]. split; [apply settledb_ok; vm_compute; reflexivity|].
    split; [apply no_rewriteb_ok; vm_compute; reflexivity|]. split; [apply crowdedb_iff; vm_compute; reflexivity|].
    split; [apply N; vm_compute; reflexivity|]. split; [vm_compute; reflexivity|].
    split; vm_compute; discriminate.
  - split; [apply settledb_ok; vm_compute; reflexivity|]. split; [apply N; vm_compute; reflexivity|].
    assert (H : match run_disk (part_ops ++ [OInsert (part 2 9) (val 3)]) with Panic => true | Ok _ => false end = true)
      by (vm_compute; reflexivity).
    destruct (run_disk (part_ops ++ [OInsert (part 2 9) (val 3)])); [discriminate H|reflexivity].
Qed.

(** C09 is false without the second: updating a flushed value gives another
    root than the in-memory trie. *)
Theorem C09_wrong_root_refuted :
  exists l v db, wf_ops l /\ spread_ops l /\ run_disk l = Ok v /\ run_mem (contents l) = Ok db /\
    root_commitment v <> root_commitment db.
Proof.
  destruct rewrite_wrong_root as (v & db & E1 & E2 & N). exists rewrite_ops, v, db.
  split; [apply ops_okb_ok; vm_compute; reflexivity|].
  split; [apply spreadb_ok; vm_compute; reflexivity|]. auto.
Qed.
Print Assumptions C09_wrong_root_refuted.

(** C10: on every state the trie reaches, flush changes no point read, empties
    the batch, and leaves every batched record readable from the disk alone. *)
Theorem C10_flush_transparent :
  forall (A : Alg) (P : Par A) (C : Codec A) (CL : CodecLaws C) (l : list Op) (v : VerkleDb),
  wf_ops l -> run_disk l = Ok v ->
  same_reads (verkle_flush v) v /\ vd_batch (verkle_flush v) = memory_db_new /\
  let d := vd_storage (verkle_flush v) in
  (forall k x, leaf_table (vd_batch v) k = Some x -> disk_get_leaf d k = Ok (Some x)) /\
  (forall s m, stem_table (vd_batch v) s = Some m -> disk_get_stem_meta d s = Ok (Some m)) /\
  (forall p m, branch_table (vd_batch v) p = Some (CBranch m) -> disk_get_branch_meta d p = Ok (Some m)) /\
  (forall p i c, branch_table (vd_batch v) (p ++ [i]) = Some c -> disk_get_branch_child d p i = Ok (Some c)).
Proof.
  intros A P C CL l v Hwf E. pose proof (run_disk_encodable l v Hwf E) as H.
  split; [exact (flush_reads v H)|]. split; [reflexivity|]. exact (flush_on_disk v H).
Qed.
Print Assumptions C10_flush_transparent.

(** C10: the same for any state at all whose batched records decode. *)
Theorem C10_flush_transparent_any_state :
  forall (A : Alg) (P : Par A) (C : Codec A) (v : VerkleDb), encodable (vd_batch v) ->
  same_reads (verkle_flush v) v /\ vd_batch (verkle_flush v) = memory_db_new.
Proof. intros A P C v H. split; [exact (flush_reads v H)|reflexivity]. Qed.
Print Assumptions C10_flush_transparent_any_state.

(** C10: the result of the flush loops does not depend on HashMap order. *)
Theorem C10_flush_order_irrelevant :
  forall (A : Alg) (P : Par A) (C : Codec A) (d : Disk) (b : MemoryDb) leaves stems branches,
  enumerates leaves (leaf_table b) -> enumerates stems (stem_table b) -> enumerates branches (branch_table b) ->
  forall dk, flush_loop d leaves stems branches dk = flush_disk d b dk.
Proof. intros A P C. exact flush_disk_is_loop. Qed.
Print Assumptions C10_flush_order_irrelevant.

Example C10_hypotheses : exists v, run_disk ok_ops = Ok v /\ wf_ops ok_ops /\ leaf_table (vd_batch v) e4 = Some (val 7).
Proof.
  assert (H : rbind (run_disk ok_ops) (fun v => Ok (leaf_table (vd_batch v) e4)) = Ok (Some (val 7))) by (vm_compute; reflexivity).
  destruct (run_disk ok_ops) as [v|]; [|discriminate H]. exists v. split; [reflexivity|].
  split; [apply C09_hypotheses|]. injection H as H. exact H.
Qed.

(** C11, proved part: a crash after any operations, and after any prefix [ws]
    of the database writes of a further insertion, leaves on disk what the
    last flush left; reopening reads what the flushed database reads with its
    cache set aside. *)
Theorem C11_crash_recovers_last_flush_partial :
  forall (A : Alg) (P : Par A) (C : Codec A) (CL : CodecLaws C) l1 l2 v1 v2 ws,
  wf_ops (l1 ++ l2) -> forallb is_insert l2 = true ->
  run_disk (l1 ++ [OFlush]) = Ok v1 -> op_run v1 l2 = Ok v2 ->
  Forall (fun w => wop_flush w = false) ws ->
  vd_storage (wop_run v2 ws) = vd_storage v1 /\
  same_reads (verkle_open (vd_storage (wop_run v2 ws))) (nocache v1).
Proof. intros A P C CL. exact crash_reads. Qed.
Print Assumptions C11_crash_recovers_last_flush_partial.

(** C11: an insertion is a sequence of database writes without a flush, so the
    crash points above are those of the code. *)
Theorem C11_insert_is_a_sequence_of_writes :
  forall (A : Alg) (P : Par A) (C : Codec A) l v k x v',
  wf_ops l -> run_disk l = Ok v -> is_key k -> length x = 32%nat -> insert_single v (k, x) = Ok v' ->
  exists ws, Forall (fun w => wop_flush w = false) ws /\ v' = wop_run v ws.
Proof. intros A P C l v k x v' Hwf E. exact (insert_is_writes v k x v' (run_disk_wf l v Hwf E)). Qed.
Print Assumptions C11_insert_is_a_sequence_of_writes.

(** C11: a crash before the first flush leaves an empty store, on which
    [Trie::new] starts a fresh trie. *)
Theorem C11_crash_before_first_flush :
  forall (A : Alg) (P : Par A) (C : Codec A) l v ws,
  wf_ops l -> forallb is_insert l = true -> run_disk l = Ok v ->
  Forall (fun w => wop_flush w = false) ws ->
  vd_storage (wop_run v ws) = bempty /\ trie_new (verkle_open (vd_storage (wop_run v ws))) = run_disk [].
Proof. intros A P C. exact crash_before_flush. Qed.
Print Assumptions C11_crash_before_first_flush.

(** C11: for the histories of C09, the recovered trie is the in-memory trie of
    exactly the flushed insertions. *)
Theorem C11_crash_recovers_flushed_insertions_partial :
  forall (A : Alg) (L : AlgLaws A) (P : Par A) (PL : ParLaws P) (C : Codec A) (CL : CodecLaws C) (l : list Op),
  wf_ops l -> settled_ops l -> no_rewrite l ->
  exists v db, run_disk (l ++ [OReopen]) = Ok v /\ run_mem (durable l) = Ok db /\
    root_commitment v = root_commitment db /\ root_hash v = root_hash db /\
    (forall k, trie_get v k = trie_get db k).
Proof. intros A L P PL C CL. exact crash_history. Qed.
Print Assumptions C11_crash_recovers_flushed_insertions_partial.

Example C11_hypotheses : wf_ops (firstn 6 ok_ops ++ [OInsert e5 (val 5)]) /\
  exists v1 v2, run_disk (firstn 6 ok_ops ++ [OFlush]) = Ok v1 /\ op_run v1 [OInsert e5 (val 5)] = Ok v2.
Proof.
  split; [apply ops_okb_ok; vm_compute; reflexivity|].
  assert (H : rbind (run_disk (firstn 6 ok_ops ++ [OFlush])) (fun v => rbind (op_run v [OInsert e5 (val 5)]) (fun _ => Ok true)) = Ok true)
    by (vm_compute; reflexivity).
  destruct (run_disk (firstn 6 ok_ops ++ [OFlush])) as [v1|]; [|discriminate H]. cbn [rbind] in H.
  destruct (op_run v1 [OInsert e5 (val 5)]) as [v2|] eqn:E; [|discriminate H]. exists v1, v2. auto.
Qed.

(** C11 as stated is false: right after a flush a read can answer an older
    value than the same read after reopening. *)
Theorem C11_reads_change_on_reopen_refuted :
  forall (A : Alg) (P : Par A) (C : Codec A),
  exists l v k, wf_ops l /\ run_disk (l ++ [OFlush]) = Ok v /\
    trie_get (verkle_open (vd_storage v)) k <> trie_get v k.
Proof.
  intros A P C. destruct (@stale_crash A P C) as (v & E & R & F). exists stale_ops, v, kB.
  split; [apply ops_okb_ok; vm_compute; reflexivity|]. split; [exact E|]. rewrite R, F. discriminate.
Qed.
Print Assumptions C11_reads_change_on_reopen_refuted.

(** C11: and when a stem commitment is held by a representative the reader
    refuses, the reopened database panics on it. *)
Theorem C11_undecodable_stem_panics :
  forall (A : Alg) (C : Codec A) v s m,
  (forall g, length (pt_ser g) = 64%nat) -> (forall x, length (fr_ser x) = 32%nat) ->
  stem_table (vd_batch v) s = Some m -> pt_de (pt_ser (sm_comm m)) = None ->
  vd_get_stem_meta (verkle_open (vd_storage (verkle_flush v))) s = Panic.
Proof. intros A C. exact undecodable_stem_panics. Qed.
Print Assumptions C11_undecodable_stem_panics.
Example C11_undecodable_reachable : exists v, @run_disk ExTA ExTP ExTC torsion_ops = Ok v /\
  @insert_single ExTA ExTP _ (@verkle_db_ops ExTA ExTC) v (tB, val 2) = Panic.
Proof. destruct torsion_panics as (v & E1 & _ & E2). exists v. auto. Qed.

(** C12: the in-memory database lists exactly what it finds. *)
Theorem C12_memory_listing :
  forall (A : Alg) (db : MemoryDb),
  (forall p, lists (mem_get_branch_children db p) (fun i => Ok (mem_get_branch_child db p i))) /\
  (forall s, lists (mem_get_stem_children db s) (fun i => Ok (mem_get_leaf db (s ++ [i])))).
Proof. intros A db. split; [exact (mem_children_lists db)|exact (mem_stem_children_lists db)]. Qed.
Print Assumptions C12_memory_listing.

(** C12, proved part for the disk database: below depth 4 when nothing under
    the path is cached, at depth at most 4 when the cache is complete. *)
Theorem C12_disk_listing_partial :
  forall (A : Alg) (C : Codec A) (v : VerkleDb),
  (forall p l, 4 < Z.of_nat (length p) < 256 -> (forall i, mem_get_branch_child (vd_cache v) p i = None) ->
     vd_get_branch_children v p = Ok l -> lists l (vd_get_branch_child v p)) /\
  (forall p l, Z.of_nat (length p) <= 4 ->
     (forall i, 0 <= i < 256 -> vd_get_branch_child v p i = Ok (mem_get_branch_child (vd_cache v) p i)) ->
     vd_get_branch_children v p = Ok l -> lists l (vd_get_branch_child v p)) /\
  (forall s l, (forall i, mem_get_leaf (vd_cache v) (s ++ [i]) = None) ->
     vd_get_stem_children v s = Ok l -> lists l (fun i => vd_get_leaf v (s ++ [i]))) /\
  (forall s l, (forall i, 0 <= i < 256 -> vd_get_leaf v (s ++ [i]) = Ok (mem_get_leaf (vd_cache v) (s ++ [i]))) ->
     (exists i, 0 <= i < 256 /\ mem_get_leaf (vd_cache v) (s ++ [i]) <> None) ->
     vd_get_stem_children v s = Ok l -> lists l (fun i => vd_get_leaf v (s ++ [i]))).
Proof.
  intros A C v. split; [exact (vd_children_deep v)|]. split; [exact (vd_children_cached v)|].
  split; [exact (vd_stem_children_uncached v)|exact (vd_stem_children_cached v)].
Qed.
Print Assumptions C12_disk_listing_partial.

(** C12 for the disk database, exactly.  A listing that returns agrees with the lookups if and only if,
    for a branch at depth at most 4, every child found is in the cache; for a deeper branch, every
    cached child is the one in the write batch or on disk; for a stem, none or all of its leaves are cached. *)
Theorem C12_disk_listing_exact :
  forall (A : Alg) (C : Codec A) (v : VerkleDb),
  (forall p l, Z.of_nat (length p) < 256 -> vd_get_branch_children v p = Ok l ->
     (lists l (vd_get_branch_child v p) <->
      if (length p <=? 4)%nat
      then forall i c, 0 <= i < 256 -> vd_get_branch_child v p i = Ok (Some c) -> mem_get_branch_child (vd_cache v) p i = Some c
      else forall i c, 0 <= i < 256 -> mem_get_branch_child (vd_cache v) p i = Some c -> vd_get_branch_child (nocache v) p i = Ok (Some c))) /\
  (forall s l, vd_get_stem_children v s = Ok l ->
     (lists l (fun i => vd_get_leaf v (s ++ [i])) <->
      (forall i, 0 <= i < 256 -> mem_get_leaf (vd_cache v) (s ++ [i]) = None) \/
      (forall i x, 0 <= i < 256 -> vd_get_leaf v (s ++ [i]) = Ok (Some x) -> mem_get_leaf (vd_cache v) (s ++ [i]) = Some x))).
Proof. intros A C v. split; [exact (children_exact v)|exact (stem_children_exact v)]. Qed.
Print Assumptions C12_disk_listing_exact.

(** C12, for any insertions and flushes of one session that starts on an empty path: the children of every
    branch are listed as they are found, except for branches at depth 4. *)
Theorem C12_one_session_partial :
  forall (A : Alg) (P : Par A) (C : Codec A) (ops : list Op) (v : VerkleDb) (p : bytes) l,
  ~ In OReopen ops -> run_disk ops = Ok v -> length p <> 4%nat -> Z.of_nat (length p) < 256 ->
  vd_get_branch_children v p = Ok l -> lists l (vd_get_branch_child v p).
Proof. intros A P C ops v p l N E Hp. exact (session_listing ops v p l N E ltac:(lia)). Qed.
Print Assumptions C12_one_session_partial.

Example C12_one_session_case : forall (A : Alg) (P : Par A) (C : Codec A),
  exists v l, ~ In OReopen three_ops /\ run_disk three_ops = Ok v /\
    vd_get_branch_children v [0; 0; 0] = Ok l /\ map fst l = [0].
Proof. intros A P C. exact session_case. Qed.

(** C12, for the leaves of a stem in one session from an empty path: they are listed as they are found
    when no other inserted stem has the same first four bytes. *)
Theorem C12_one_session_stem_partial :
  forall (A : Alg) (P : Par A) (C : Codec A) (ops : list Op) (v : VerkleDb) (s : bytes) l,
  (forall g, length (pt_ser g) = 64%nat) -> (forall x, length (fr_ser x) = 32%nat) ->
  ~ In OReopen ops -> length s = 31%nat ->
  (forall k x, In (OInsert k x) ops -> length k = 32%nat) ->
  (forall k x, In (OInsert k x) ops -> firstn 4 k = firstn 4 s -> firstn 31 k = s) ->
  run_disk ops = Ok v -> vd_get_stem_children v s = Ok l -> lists l (fun i => vd_get_leaf v (s ++ [i])).
Proof. intros A P C ops v s l. exact (stem_session ops v s l). Qed.
Print Assumptions C12_one_session_stem_partial.

Example C12_one_session_stem_case : forall (A : Alg) (P : Par A) (C : Codec A),
  ~ In OReopen calm_ops /\ (forall k x, In (OInsert k x) calm_ops -> firstn 4 k = firstn 4 kA -> firstn 31 k = firstn 31 kA) /\
  exists v, run_disk calm_ops = Ok v /\ vd_get_stem_children v (firstn 31 kA) = Ok [(7, val 1); (9, val 3)].
Proof.
  intros A P C. split; [cbn; intros [X|[X|[X|[X|[]]]]]; discriminate X|]. split; [|exact calm_case].
  intros k x [X|[X|[X|[X|[]]]]]; try discriminate X; injection X as <- <-; intro Y; try reflexivity; discriminate Y.
Qed.

(** C12: four bytes are needed.  In one session, with a second stem that shares exactly four bytes, a
    later leaf of the first stem is found but not listed. *)
Theorem C12_one_session_stem_refuted :
  forall (A : Alg) (P : Par A) (C : Codec A),
  exists ops v s i x l, wf_ops ops /\ ~ In OReopen ops /\ run_disk ops = Ok v /\
    vd_get_stem_children v s = Ok l /\ vd_get_leaf v (s ++ [i]) = Ok (Some x) /\ ~ In (i, x) l.
Proof.
  intros A P C. destruct (@crowd_listing A P C) as (v & l & E1 & E2 & E3 & N).
  exists crowd_ops, v, (firstn 31 kA), 9, (val 3), l. split; [apply ops_okb_ok; vm_compute; reflexivity|].
  split; [cbn; intros [X|[X|[X|[]]]]; discriminate X|]. auto.
Qed.
Print Assumptions C12_one_session_stem_refuted.

(** C12 is false for the disk database: a child of a branch at depth 4 is found
    but not listed. *)
Theorem C12_branch_listing_refuted :
  forall (A : Alg) (P : Par A) (C : Codec A),
  exists ops v p l i c, wf_ops ops /\ run_disk ops = Ok v /\
    vd_get_branch_children v p = Ok l /\ vd_get_branch_child v p i = Ok (Some c) /\ ~ In (i, c) l.
Proof.
  intros A P C. destruct (@listing_misses A P C) as (v & l & c & E1 & E2 & E3 & N).
  exists three_ops, v, [0; 0; 0; 0], l, 3, c. split; [apply ops_okb_ok; vm_compute; reflexivity|]. auto.
Qed.
Print Assumptions C12_branch_listing_refuted.

(** C12: after reopening, the root lists no children at all; and adding one
    suffix to a stem hides the others from its listing. *)
Theorem C12_listing_after_reopen_refuted :
  (exists ops v c, wf_ops ops /\ run_disk ops = Ok v /\
     vd_get_branch_children v [] = Ok [] /\ vd_get_branch_child v [] 0 = Ok (Some c)) /\
  (exists ops v s i x l, wf_ops ops /\ run_disk ops = Ok v /\
     vd_get_stem_children v s = Ok l /\ vd_get_leaf v (s ++ [i]) = Ok (Some x) /\ ~ In (i, x) l).
Proof.
  split.
  - destruct reopen_listing as (v & c & E1 & E2 & E3). exists reopen_ops, v, c.
    split; [apply ops_okb_ok; vm_compute; reflexivity|]. auto.
  - destruct reopen_stem_listing as (v & l & E1 & E2 & E3 & N). exists suffix_ops, v, (firstn 31 kA), 7, (val 1), l.
    split; [apply ops_okb_ok; vm_compute; reflexivity|]. auto.
Qed.
Print Assumptions C12_listing_after_reopen_refuted.

(** C13: the three kinds of disk keys are injective and disjoint. *)
Theorem C13_disk_keys_injective :
  forall r1 r2 : Rec, rec_key r1 = rec_key r2 -> r1 = r2.
Proof. exact rec_key_inj. Qed.
Print Assumptions C13_disk_keys_injective.

(** C13: a write reads back, and changes no read of any other record. *)
Theorem C13_write_is_local :
  forall (A : Alg) (C : Codec A) (d : Disk) (b : Batch) (w : BPut),
  (forall k, RLeaf k <> bput_rec w -> disk_get_leaf (disk_flush d (bput b w)) k = disk_get_leaf (disk_flush d b) k) /\
  (forall s, RStem s <> bput_rec w -> disk_get_stem_meta (disk_flush d (bput b w)) s = disk_get_stem_meta (disk_flush d b) s) /\
  (forall p, RBranch p <> bput_rec w -> disk_get_branch_meta (disk_flush d (bput b w)) p = disk_get_branch_meta (disk_flush d b) p) /\
  (forall p i, RBranch (p ++ [i]) <> bput_rec w ->
     disk_get_branch_child (disk_flush d (bput b w)) p i = disk_get_branch_child (disk_flush d b) p i).
Proof. intros A C. exact bput_frame. Qed.
Print Assumptions C13_write_is_local.

Theorem C13_write_reads_back :
  forall (A : Alg) (C : Codec A) (CL : CodecLaws C) (d : Disk) (b : Batch),
  (forall k v, length v = 32%nat -> disk_get_leaf (disk_flush d (bput b (PLeaf k v))) k = Ok (Some v)) /\
  (forall s m, disk_get_stem_meta (disk_flush d (bput b (PStem s m))) s = Ok (Some m)) /\
  (forall p m, disk_get_branch_meta (disk_flush d (bput b (PBranch p m))) p = Ok (Some m)) /\
  (forall p i m, disk_get_branch_child (disk_flush d (bput b (PBranch (p ++ [i]) m))) p i = Ok (Some (CBranch m))) /\
  (forall p i s, length s = 31%nat -> disk_get_branch_child (disk_flush d (bput b (PAdd (p ++ [i]) s))) p i = Ok (Some (CStem s))).
Proof. intros A C CL. exact bput_read. Qed.
Print Assumptions C13_write_reads_back.
Example C13_case : RLeaf (1 :: repeat 0 31) <> RStem (repeat 0 31) /\ rec_key (RStem (repeat 0 31)) <> rec_key (RBranch (repeat 0 31)).
Proof. split; discriminate. Qed.

(** C14: records round-trip; a stem pointer is never read as a branch. *)
Theorem C14_records_round_trip :
  forall (A : Alg) (C : Codec A) (CL : CodecLaws C),
  (forall m, stem_meta_from_bytes (stem_meta_to_bytes m) = Ok (Some m)) /\
  (forall m, branch_meta_from_bytes (branch_meta_to_bytes m) = Ok (Some m)) /\
  (forall m, branch_child_from_bytes (branch_child_to_bytes (CBranch m)) = Ok (Some (CBranch m))) /\
  (forall s, length s = 31%nat -> branch_child_from_bytes (branch_child_to_bytes (CStem s)) = Ok (Some (CStem s))).
Proof.
  intros A C CL. split; [exact stem_meta_rt|]. split; [exact branch_meta_rt|].
  split; [intros m; exact (branch_child_rt (CBranch m) I)|intros s H; exact (branch_child_rt (CStem s) H)].
Qed.
Print Assumptions C14_records_round_trip.
Example C14_laws_hold : CodecLaws ExC. Proof. exact ExCL. Qed.

(** C14, proved part: decoding a stem record never panics and refuses every
    wrong length. *)
Theorem C14_stem_meta_rejects_partial :
  forall (A : Alg) (C : Codec A) (b : bytes),
  (exists o, stem_meta_from_bytes b = Ok o) /\ (length b <> 288%nat -> stem_meta_from_bytes b = Ok None).
Proof. intros A C b. split; [exact (stem_meta_total b)|exact (stem_meta_wrong_length b)]. Qed.
Print Assumptions C14_stem_meta_rejects_partial.

(** C14 is false for branch records: every shorter string panics, and every
    longer one is accepted as its first 96 bytes. *)
Theorem C14_branch_meta_refuted :
  forall (A : Alg) (C : Codec A) (b : bytes),
  ((length b < 96)%nat -> branch_meta_from_bytes b = Panic) /\
  (rust_vec b -> (96 <= length b)%nat -> branch_meta_from_bytes b = branch_meta_from_bytes (firstn 96 b)).
Proof. intros A C b. split; [exact (branch_meta_short b)|exact (branch_meta_prefix b)]. Qed.
Print Assumptions C14_branch_meta_refuted.

(** C14, what is true of every byte string: exactly the stem records are read as stem records; a string is read
    as a branch record exactly when it starts with one, and panics exactly when it is too short; what is stored
    under a path is a stem exactly when it has 31 bytes. *)
Theorem C14_stem_records_exactly :
  forall (A : Alg) (C : Codec A) (b : bytes) (m : StemMeta),
  stem_meta_from_bytes b = Ok (Some m) <-> is_stem_record b m.
Proof. intros A C. exact stem_record_exact. Qed.
Print Assumptions C14_stem_records_exactly.
Theorem C14_branch_records_exactly_partial :
  forall (A : Alg) (C : Codec A) (b : bytes), rust_vec b ->
  (forall m, branch_meta_from_bytes b = Ok (Some m) <-> starts_branch_record b m) /\
  (branch_meta_from_bytes b = Panic <-> (length b < 96)%nat).
Proof. intros A C. exact branch_record_exact. Qed.
Print Assumptions C14_branch_records_exactly_partial.
Theorem C14_child_records_exactly_partial :
  forall (A : Alg) (C : Codec A) (b : bytes), rust_vec b ->
  (forall c, branch_child_from_bytes b = Ok (Some c) <-> is_child_record b c) /\
  (branch_child_from_bytes b = Panic <-> length b <> 31%nat /\ (length b < 96)%nat).
Proof. intros A C. exact child_record_exact. Qed.
Print Assumptions C14_child_records_exactly_partial.

(** So lookups in a store with any contents give what is stored, and panic on anything that is not a record. *)
Theorem C14_store_lookups_exactly_partial :
  forall (A : Alg) (C : Codec A) (d : Disk), stored_ok d ->
  (forall k, match d (leaf_dkey k) with
     | None => disk_get_leaf d k = Ok None
     | Some b => (length b = 32%nat /\ disk_get_leaf d k = Ok (Some b)) \/ (length b <> 32%nat /\ disk_get_leaf d k = Panic) end) /\
  (forall s, match d (stem_dkey s) with
     | None => disk_get_stem_meta d s = Ok None
     | Some b => (exists m, is_stem_record b m /\ disk_get_stem_meta d s = Ok (Some m)) \/
                 ((forall m, ~ is_stem_record b m) /\ disk_get_stem_meta d s = Panic) end) /\
  (forall p, match d (branch_dkey p) with
     | None => disk_get_branch_meta d p = Ok None
     | Some b => (exists m, starts_branch_record b m /\ disk_get_branch_meta d p = Ok (Some m)) \/
                 ((forall m, ~ starts_branch_record b m) /\ disk_get_branch_meta d p = Panic) end) /\
  (forall p i, match d (branch_dkey (p ++ [i])) with
     | None => disk_get_branch_child d p i = Ok None
     | Some b => (exists c, is_child_record b c /\ disk_get_branch_child d p i = Ok (Some c)) \/
                 ((forall c, ~ is_child_record b c) /\ disk_get_branch_child d p i = Panic) end).
Proof.
  intros A C d HD. split; [exact (leaf_exact d)|]. split; [exact (stem_exact d)|]. split; [exact (fun p => branch_exact d p HD)|].
  exact (fun p i => child_exact d p i HD).
Qed.
Print Assumptions C14_store_lookups_exactly_partial.

(** A stored branch record with a byte too many is read; one byte short it panics; a stem record with a byte too
    many is refused. *)
Example C14_records_case :
  starts_branch_record (branch_meta_to_bytes ex_branch_rec ++ [7]) ex_branch_rec /\
  branch_meta_from_bytes (branch_meta_to_bytes ex_branch_rec ++ [7]) = Ok (Some ex_branch_rec) /\
  branch_meta_from_bytes (firstn 95 (branch_meta_to_bytes ex_branch_rec)) = Panic /\
  is_stem_record (stem_meta_to_bytes ex_stem_rec) ex_stem_rec /\
  stem_meta_from_bytes (stem_meta_to_bytes ex_stem_rec ++ [7]) = Ok None.
Proof. exact records_case. Qed.
