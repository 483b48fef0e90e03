(** A collision in the example instance, and the real curve. *)
From Verif Require Import Base BaseFacts Alg AlgFacts AlgInst TreeSpec TreeFacts TrieModel TrieProofs TrieTheorems ExData ProofSpec ProofRefute
  TruthSpec TruthInst CodecModel MsmModel ElementModel ElementSpec CurveModel CurveSpec CurveAlg CrsModel DefaultCrs Bander RealSpec RealProofs CollisionSpec CollisionProofs.
Local Open Scope list_scope.

(** Two values whose scalars give the same commitment: 244 times the second generator is 1025 times the first. *)
Definition twin_k : bytes := repeat 7 31 ++ [0].
Definition twin_v1 : bytes := repeat 0 16 ++ [244] ++ repeat 0 15.
Definition twin_v2 : bytes := [1; 4] ++ repeat 0 30.
Lemma twin_case : let h1 := [(twin_k, twin_v1)] in let h2 := [(twin_k, twin_v2)] in
  wf_history h1 /\ wf_history h2 /\ scalars_apart (final_map h1) (stems_of h1) (stems_of h2) (map (fun kv => Some (snd kv)) h2) /\
  exists (db1 db2 : MemoryDb), run_mem h1 = Ok db1 /\ run_mem h2 = Ok db2 /\ root_commitment db1 = root_commitment db2 /\
    root_hash db1 = root_hash db2 /\ trie_get db1 twin_k = Ok (Some twin_v1) /\ trie_get db2 twin_k = Ok (Some twin_v2).
Proof.
  cbv zeta.
  assert (W1 : wf_history [(twin_k, twin_v1)]) by (apply keys_okb_ok; vm_compute; reflexivity).
  assert (W2 : wf_history [(twin_k, twin_v2)]) by (apply keys_okb_ok; vm_compute; reflexivity).
  split; [exact W1|]. split; [exact W2|]. split.
  { apply (apartb_ok _ _ _ [twin_v1] _ [twin_v2]); [vm_compute; reflexivity| |].
    - intros k v Hk. apply final_map_In in Hk. exact Hk.
    - intros v [E|[]]. left. change (Some twin_v2 = Some v) in E. congruence. }
  destruct (root_spec _ W1) as (db1 & E1 & R1 & H1). destruct (root_spec _ W2) as (db2 & E2 & R2 & H2).
  exists db1, db2. split; [exact E1|]. split; [exact E2|].
  assert (X : spec_root (final_map [(twin_k, twin_v1)]) (stems_of [(twin_k, twin_v1)]) = spec_root (final_map [(twin_k, twin_v2)]) (stems_of [(twin_k, twin_v2)]))
    by (vm_compute; reflexivity).
  split; [congruence|]. split; [congruence|].
  unfold trie_get. cbn [get_leaf memory_db_ops]. unfold mem_get_leaf.
  rewrite (can_leaf _ _ _ (run_canon _ _ W1 E1)), (can_leaf _ _ _ (run_canon _ _ W2 E2)). split; vm_compute; reflexivity.
Qed.

(** The scalar field of the real curve is large enough. *)
#[local] Existing Instance bander_laws.
#[local] Existing Instance bander_curve.
#[local] Existing Instance bander_scalars.
#[local] Existing Instance BanderF_laws.
Lemma bander_large a : 0 < a < 2 ^ 248 -> @of_Z BanderF a <> fzero.
Proof.
  intros Hk E. apply (f_equal (@fr_int BanderF BanderI)) in E. rewrite <- (@of_Z_0 BanderF _) in E.
  assert (B : 2 ^ 248 < bander_r) by reflexivity. pose proof bander_order_is as O.
  rewrite !(@scalar_int_of Bander BanderF _ BanderI _) in E by (change (@q_order Bander) with bander_order; lia). lia.
Qed.

Local Notation ops := (@memory_db_ops real_alg).
Lemma default_root_binds h1 h2 (db1 db2 : @MemoryDb real_alg) : wf_history h1 -> wf_history h2 ->
  Forall (fun kv => is_value (snd kv)) h1 -> Forall (fun kv => is_value (snd kv)) h2 ->
  @run_mem real_alg real_par h1 = Ok db1 -> @run_mem real_alg real_par h2 = Ok db2 ->
  @root_hash real_alg _ ops db1 = @root_hash real_alg _ ops db2 ->
  (forall k, @trie_get real_alg _ ops db1 k = @trie_get real_alg _ ops db2 k) \/ @collision real_alg real_par h1 h2.
Proof.
  exact (@root_hash_binds real_alg (proj1 real_laws) real_par (proj1 (proj2 real_laws)) bander_large h1 h2 db1 db2).
Qed.
