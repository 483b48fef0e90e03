(** C63: the root binds the contents of the trie. *)
From Verif Require Import Base Alg AlgInst RatInst TreeSpec TrieModel TrieTheorems WireModel IpaModel SoundSpec TruthSpec
  CurveAlg Bander RealSpec CollisionSpec CollisionProofs CollisionCases.
Local Open Scope list_scope.

Section Properties.
Context {A : Alg} {L : AlgLaws A} {P : Par A} {PL : ParLaws P}.

(** Two tries with the same root hash hold the same values under all keys, or their own nodes contain a
    [collision]: two different vectors with the same commitment, two different commitments with the same
    hash, or a commitment that hashes to 1.  Values have 32 bytes; the field has more than 2^248 elements. *)
Theorem C63_root_hash_binds : (forall a, 0 < a < 2 ^ 248 -> of_Z a <> fzero) -> forall h1 h2 (db1 db2 : MemoryDb),
  wf_history h1 -> wf_history h2 -> Forall (fun kv => is_value (snd kv)) h1 -> Forall (fun kv => is_value (snd kv)) h2 ->
  run_mem h1 = Ok db1 -> run_mem h2 = Ok db2 -> root_hash db1 = root_hash db2 ->
  (forall k, trie_get db1 k = trie_get db2 k) \/ collision h1 h2.
Proof. exact root_hash_binds. Qed.

(** In any field, if the stems and the values at hand are different scalars. *)
Theorem C63_root_hash_binds_apart : forall h1 h2 (db1 db2 : MemoryDb), wf_history h1 -> wf_history h2 ->
  scalars_apart (final_map h1) (stems_of h1) (stems_of h2) (map (fun kv => Some (snd kv)) h2) ->
  run_mem h1 = Ok db1 -> run_mem h2 = Ok db2 -> root_hash db1 = root_hash db2 ->
  (forall k, trie_get db1 k = trie_get db2 k) \/ collision h1 h2.
Proof. exact root_binds_apart. Qed.

(** Two vectors with the same commitment differ by a non-trivial relation between the generators. *)
Theorem C63_same_commitment_relation : forall f g z, 0 <= z < 256 -> f z <> g z -> vcommit f = vcommit g ->
  relation (crs_G trie_crs) (map (fun i => fsub (f (Z.of_nat i)) (g (Z.of_nat i))) (seq 0 256)).
Proof. exact collision_relation. Qed.
End Properties.

(** On the real curve with the default generators nothing is assumed. *)
Local Notation ops := (@memory_db_ops real_alg).
Theorem C63_default_root_hash_binds : forall h1 h2 (db1 db2 : @MemoryDb real_alg), wf_history h1 -> wf_history h2 ->
  Forall (fun kv => is_value (snd kv)) h1 -> Forall (fun kv => is_value (snd kv)) h2 ->
  @run_mem real_alg real_par h1 = Ok db1 -> @run_mem real_alg real_par h2 = Ok db2 ->
  @root_hash real_alg _ ops db1 = @root_hash real_alg _ ops db2 ->
  (forall k, @trie_get real_alg _ ops db1 k = @trie_get real_alg _ ops db2 k) \/ @collision real_alg real_par h1 h2.
Proof. exact default_root_binds. Qed.

Print Assumptions C63_root_hash_binds.
Print Assumptions C63_root_hash_binds_apart.
Print Assumptions C63_same_commitment_relation.
Print Assumptions C63_default_root_hash_binds.

(** In the example instance, where the discrete logarithms of the generators are known, two values with
    different scalars have the same root. *)
Example C63_collision_case : let h1 := [(twin_k, twin_v1)] in let h2 := [(twin_k, twin_v2)] in
  wf_history h1 /\ wf_history h2 /\ scalars_apart (final_map h1) (stems_of h1) (stems_of h2) (map (fun kv => Some (snd kv)) h2) /\
  exists (db1 db2 : MemoryDb), run_mem h1 = Ok db1 /\ run_mem h2 = Ok db2 /\ root_commitment db1 = root_commitment db2 /\
    root_hash db1 = root_hash db2 /\ trie_get db1 twin_k = Ok (Some twin_v1) /\ trie_get db2 twin_k = Ok (Some twin_v2).
Proof. exact twin_case. Qed.
(** Without [scalars_apart] the theorem says nothing about such small fields; the rationals are large. *)
Example C63_large_case : AlgLaws RatA /\ (forall a, 0 < a < 2 ^ 248 -> @of_Z RatA a <> fzero).
Proof. split; [exact RatL|]. intros a Ha. apply rat_nonzero. lia. Qed.
