(** A trie with rewritten values: what follows for later histories, the default curve, and an example. *)
From Verif Require Import Base BaseFacts Alg AlgFacts AlgInst TreeSpec TreeFacts TrieModel TrieProofs TrieTheorems
  CodecModel VerkleDbModel DbSpec VerkleDbProofs VerkleDbSim TruthSpec CodecInst VerkleDbExamples CollisionSpec CollisionProofs
  RealSpec RealProofs CollisionCases RewriteSpec RewriteSim RewriteProofs RewriteFacts.
Local Open Scope list_scope.

Section Later.
Context {A : Alg} {L : AlgLaws A} {P : Par A} {PL : ParLaws P} {C : Codec A} {CL : CodecLaws C}.

(** Once a changed value has been flushed no later operation mends the root. *)
Lemma wrong_forever l l' : (forall a, 0 < a < 2 ^ 248 -> of_Z a <> fzero) -> rewrites l ->
  wf_ops (l ++ OFlush :: l') -> settled_ops (l ++ OFlush :: l') ->
  (forall k v, In (OInsert k v) (l ++ OFlush :: l') -> is_value v) -> Z.of_nat (length (l ++ OFlush :: l')) < 2 ^ 100 ->
  exists v db, run_disk (l ++ OFlush :: l') = Ok v /\ run_mem (contents (l ++ OFlush :: l')) = Ok db /\
    (root_hash v <> root_hash db \/ collision (contents (l ++ OFlush :: l')) (tallied (l ++ OFlush :: l'))).
Proof.
  intros K [k R] W S V Hn. apply wrong_root; auto. exists k. apply damage_permanent. exact R.
Qed.

(** Changing one flushed value of a trie in which none was changed. *)
Lemma first_change l k x y : (forall a, 0 < a < 2 ^ 248 -> of_Z a <> fzero) -> no_rewrite l ->
  final_map (durable l) k = Some y -> x <> y -> wf_ops (l ++ [OInsert k x]) -> settled_ops (l ++ [OInsert k x]) ->
  (forall k' v, In (OInsert k' v) (l ++ [OInsert k x]) -> is_value v) -> Z.of_nat (length (l ++ [OInsert k x])) < 2 ^ 100 ->
  counted (l ++ [OInsert k x]) k = [x; y] /\
  exists v db, run_disk (l ++ [OInsert k x]) = Ok v /\ run_mem (contents (l ++ [OInsert k x])) = Ok db /\
    (root_hash v <> root_hash db \/ collision (contents (l ++ [OInsert k x])) (tallied (l ++ [OInsert k x]))).
Proof.
  intros K N D Hx W S V Hn. pose proof (changed_flushed l k x y N D Hx) as E. split; [exact E|].
  apply wrong_root; auto. exists k. rewrite E. apply le_n.
Qed.

(** A trie that has been flushed and in which every key was written in one flush interval only. *)
Lemma exact_root l : wf_ops l -> settled_ops l -> exists v, run_disk l = Ok v /\
  (forall k, trie_get v k = Ok (final_map (contents l) k)) /\
  root_commitment v = Ok (spec_root (final_map (tallied l)) (stems_of (contents l))) /\
  root_hash v = Ok (hash (spec_root (final_map (tallied l)) (stems_of (contents l)))) /\
  counts (final_map (tallied l)) (counted l) /\ (forall k, hd_error (counted l k) = final_map (contents l) k).
Proof.
  intros W S. destruct (rewrite_exact l W S) as (v & E & G & R & H & Hd & Cn).
  exists v. split; [exact E|]. split; [exact G|]. split; [exact R|]. split; [exact H|]. split; [exact Cn|exact Hd].
Qed.
End Later.

Local Notation ops := (@memory_db_ops real_alg).
Local Opaque real_par.
Lemma default_wrong_root l : wf_ops l -> settled_ops l -> (forall k v, In (OInsert k v) l -> is_value v) ->
  Z.of_nat (length l) < 2 ^ 100 -> rewrites l ->
  exists v (db : @MemoryDb real_alg), @run_disk real_alg real_par real_codec l = Ok v /\
    @run_mem real_alg real_par (contents l) = Ok db /\
    (@root_hash real_alg _ (@verkle_db_ops real_alg real_codec) v <> @root_hash real_alg _ ops db \/ @collision real_alg real_par (contents l) (tallied l)).
Proof.
  exact (@wrong_root real_alg (proj1 real_laws) real_par (proj1 (proj2 real_laws)) real_codec
    (proj1 (proj2 (proj2 real_laws))) l bander_large).
Qed.

(** Two keys, one of them changed after two flushes. *)
Definition twice_ops : list Op :=
  [OInsert e1 (val 1); OInsert e3 (val 5); OFlush; OInsert e1 (val 2); OInsert e1 (val 3); OFlush; OReopen; OInsert e1 (val 4); OInsert e3 (val 5)].
Lemma twice_case : wf_ops twice_ops /\ settled_ops twice_ops /\ (forall k v, In (OInsert k v) twice_ops -> is_value v) /\
  counted twice_ops e1 = [val 4; val 3; val 1] /\ counted twice_ops e3 = [val 5] /\ rewrites twice_ops /\
  counted (removelast twice_ops ++ [OReopen]) e1 = [val 3; val 1].
Proof.
  split; [apply ops_okb_ok; vm_compute; reflexivity|]. split; [apply settledb_ok; vm_compute; reflexivity|].
  split.
  { assert (X : Forall (fun o => match o with OInsert _ v => is_value v | _ => True end) twice_ops).
    { assert (Y : forall n, 0 <= n < 256 -> is_value (val n)).
      { intros n Hn. split; [reflexivity|]. apply Forall_forall. intros z Hz. apply repeat_spec in Hz. subst z. exact Hn. }
      unfold twice_ops. repeat apply Forall_cons; try apply Forall_nil; try exact I; apply Y; lia. }
    intros k v H. rewrite Forall_forall in X. exact (X _ H). }
  split; [vm_compute; reflexivity|]. split; [vm_compute; reflexivity|].
  split; [exists e1; vm_compute; lia|vm_compute; reflexivity].
Qed.
