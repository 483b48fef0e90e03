(** C70: what the root hash of a trie on disk tells of its contents.  C71: clients and nodes at the same root. *)
From Coq Require Import Permutation.
From Verif Require Import Base Alg AlgInst TreeSpec TrieModel ExData WireModel WireInst ProofModel ProofSpec IpaModel LagrangeSpec IpaSpec IpaInst SoundSpec
  StatelessModel StatelessSpec CodecModel VerkleDbModel DbSpec CodecInst VerkleDbExamples TruthSpec TruthInst ChainSpec ChainCases EventSpec EventProofs
  CollisionSpec CollisionCases RealSpec RewriteSpec RewriteCases AgreeSpec AgreeProofs AgreeChain AgreeCases AgreeChainCases.
Local Open Scope list_scope.
Notation len := List.length.

Section Disk.
Context {A : Alg} {L : AlgLaws A} {P : Par A} {PL : ParLaws P} {C : Codec A} {CL : CodecLaws C}.

(** C70 fails for two tries on disk, in every group: two values written under one key, in one order and in the
    other, with a flush in between, give the same root hash and different answers. *)
Theorem C70_refuted : exists l1 l2 k x y v1 v2,
  wf_ops l1 /\ settled_ops l1 /\ wf_ops l2 /\ settled_ops l2 /\ (forall k v, In (OInsert k v) (l1 ++ l2) -> is_value v) /\
  run_disk l1 = Ok v1 /\ run_disk l2 = Ok v2 /\ root_commitment v1 = root_commitment v2 /\ root_hash v1 = root_hash v2 /\
  trie_get v1 k = Ok (Some x) /\ trie_get v2 k = Ok (Some y) /\ x <> y.
Proof.
  destruct swapped_roots as (W1 & S1 & W2 & S2 & V & v1 & v2 & X). exists up_ops, down_ops, e1, (val 3), (val 1), v1, v2.
  repeat (split; [assumption|]). destruct X as (X1 & X2 & X3 & X4 & X5 & X6). repeat (split; [assumption|]). discriminate.
Qed.

(** Exactly what the root hash tells: the two totals of every key.  The same totals give the same roots, *)
Theorem C70_totals_root_partial : forall l1 l2, wf_ops l1 -> settled_ops l1 -> wf_ops l2 -> settled_ops l2 ->
  (forall k, totals l1 k = totals l2 k) ->
  exists v1 v2, run_disk l1 = Ok v1 /\ run_disk l2 = Ok v2 /\
    root_commitment v1 = root_commitment v2 /\ root_hash v1 = root_hash v2.
Proof. exact totals_root. Qed.
(** and the same root hash means the same totals, or a collision among the vectors committed to. *)
Theorem C70_root_totals_partial : (forall a, 0 < a < 2 ^ 248 -> of_Z a <> fzero) -> forall l1 l2 v1 v2,
  wf_ops l1 -> settled_ops l1 -> wf_ops l2 -> settled_ops l2 ->
  (forall k v, In (OInsert k v) (l1 ++ l2) -> is_value v) -> Z.of_nat (len (l1 ++ l2)) < 2 ^ 100 ->
  run_disk l1 = Ok v1 -> run_disk l2 = Ok v2 -> root_hash v1 = root_hash v2 ->
  (forall k, totals l1 k = totals l2 k) \/ collision (summed l1) (summed l2).
Proof. exact root_totals. Qed.

(** A trie on disk with the root hash of a trie in memory has its contents, and none of its flushed values was
    ever changed; or there is a collision. *)
Theorem C70_memory_root_partial : (forall a, 0 < a < 2 ^ 248 -> of_Z a <> fzero) -> forall l h v (db : MemoryDb),
  wf_ops l -> settled_ops l -> (forall k v, In (OInsert k v) l -> is_value v) -> Z.of_nat (len l) < 2 ^ 100 ->
  wf_history h -> Forall (fun kv => is_value (snd kv)) h ->
  run_disk l = Ok v -> run_mem h = Ok db -> root_hash v = root_hash db ->
  (forall k, trie_get v k = trie_get db k) /\ ~ rewrites l \/ collision h (tallied l).
Proof. exact memory_binds. Qed.
End Disk.

Section Clients.
Context {A : Alg} {L : AlgLaws A} {P : Par A} {PL : ParLaws P} {C : ECodec A} {CL : ECodecLaws C} {H : Hasher}.

(** C71, blocks from honest full nodes: two clients whose chains end at the same root hash speak of the same
    values under all keys, or the two tries contain a collision. *)
Theorem C71_honest_clients : forall ho1 ho2, (forall l, Permutation (ho1 l) l) -> (forall l, Permutation (ho2 l) l) ->
  forall bs1 bs2 h1 h2 (db1 db2 : MemoryDb) root1 root2 r1 r2,
  wf_history h1 -> wf_history h2 -> run_mem h1 = Ok db1 -> root_commitment db1 = Ok root1 -> run_mem h2 = Ok db2 -> root_commitment db2 = Ok root2 ->
  Forall block_fits bs1 -> Forall block_fits bs2 -> along h1 bs1 honest_block -> along h2 bs2 honest_block ->
  follow ho1 root1 bs1 = Ok (VOk r1) -> follow ho2 root2 bs2 = Ok (VOk r2) ->
  scalars_apart (final_map (after h1 bs1)) (stems_of (after h1 bs1)) (stems_of (after h2 bs2)) (map (fun kv => Some (snd kv)) (after h2 bs2)) ->
  hash r1 = hash r2 ->
  (forall k, final_map (after h1 bs1) k = final_map (after h2 bs2) k) \/ collision (after h1 bs1) (after h2 bs2).
Proof. exact honest_clients. Qed.

(** Blocks from anybody: the same, or a block that one of them accepted exhibits an event (C65). *)
Theorem C71_clients_partial : domain_fits 256 -> forall ho1 ho2, (forall l, Permutation (ho1 l) l) -> (forall l, Permutation (ho2 l) l) ->
  forall open1 open2 bs1 bs2 h1 h2 (db1 db2 : MemoryDb) root1 root2 r1 r2,
  wf_history h1 -> wf_history h2 -> run_mem h1 = Ok db1 -> root_commitment db1 = Ok root1 -> run_mem h2 = Ok db2 -> root_commitment db2 = Ok root2 ->
  Forall block_fits bs1 -> Forall block_fits bs2 -> along h1 bs1 (opened_block open1) -> along h2 bs2 (opened_block open2) ->
  follow ho1 root1 bs1 = Ok (VOk r1) -> follow ho2 root2 bs2 = Ok (VOk r2) ->
  scalars_apart (final_map (after h1 bs1)) (stems_of (after h1 bs1)) (stems_of (after h2 bs2)) (map (fun kv => Some (snd kv)) (after h2 bs2)) ->
  hash r1 = hash r2 ->
  (forall k, final_map (after h1 bs1) k = final_map (after h2 bs2) k) \/ collision (after h1 bs1) (after h2 bs2) \/
  (exists before b rest, bs1 = before ++ b :: rest /\ block_event open1 (after h1 before) b) \/
  (exists before b rest, bs2 = before ++ b :: rest /\ block_event open2 (after h2 before) b).
Proof. exact clients_agree. Qed.

(** A node whose trie is on disk and has the root hash that a client ended with: it answers as the client's chain
    says and never changed a flushed value, or there is a collision or an event. *)
Theorem C71_client_and_disk_partial : forall (K : Codec A) (KL : CodecLaws K),
  (forall a, 0 < a < 2 ^ 248 -> of_Z a <> fzero) -> domain_fits 256 -> forall ho, (forall l, Permutation (ho l) l) ->
  forall open bs h (db : MemoryDb) root r l v,
  wf_history h -> run_mem h = Ok db -> root_commitment db = Ok root -> Forall block_fits bs -> along h bs (opened_block open) ->
  Forall (fun kv => is_value (snd kv)) (after h bs) -> follow ho root bs = Ok (VOk r) ->
  wf_ops l -> settled_ops l -> (forall k v, In (OInsert k v) l -> is_value v) -> Z.of_nat (len l) < 2 ^ 100 ->
  run_disk l = Ok v -> root_hash v = Ok (hash r) ->
  ((forall k, trie_get v k = Ok (final_map (after h bs) k)) /\ ~ rewrites l) \/ collision (after h bs) (tallied l) \/
  (exists before b rest, bs = before ++ b :: rest /\ block_event open (after h before) b).
Proof. intros K KL. exact client_and_disk. Qed.
End Clients.

(** On the curve, the generators and the codec of the library. *)
Local Notation ops := (@memory_db_ops real_alg).
Local Notation dops := (@verkle_db_ops real_alg real_codec).
Theorem C70_default_refuted : exists v1 v2,
  @run_disk real_alg real_par real_codec up_ops = Ok v1 /\ @run_disk real_alg real_par real_codec down_ops = Ok v2 /\
  @root_hash real_alg _ dops v1 = @root_hash real_alg _ dops v2 /\
  @trie_get real_alg _ dops v1 e1 = Ok (Some (val 3)) /\ @trie_get real_alg _ dops v2 e1 = Ok (Some (val 1)).
Proof. exact default_swapped. Qed.
Theorem C70_default_root_totals_partial : forall l1 l2 v1 v2, wf_ops l1 -> settled_ops l1 -> wf_ops l2 -> settled_ops l2 ->
  (forall k v, In (OInsert k v) (l1 ++ l2) -> is_value v) -> Z.of_nat (len (l1 ++ l2)) < 2 ^ 100 ->
  @run_disk real_alg real_par real_codec l1 = Ok v1 -> @run_disk real_alg real_par real_codec l2 = Ok v2 ->
  @root_hash real_alg _ dops v1 = @root_hash real_alg _ dops v2 ->
  (forall k, totals l1 k = totals l2 k) \/ @collision real_alg real_par (summed l1) (summed l2).
Proof. exact default_root_totals. Qed.
Theorem C70_default_memory_root_partial : forall l h v (db : @MemoryDb real_alg), wf_ops l -> settled_ops l ->
  (forall k v, In (OInsert k v) l -> is_value v) -> Z.of_nat (len l) < 2 ^ 100 ->
  wf_history h -> Forall (fun kv => is_value (snd kv)) h ->
  @run_disk real_alg real_par real_codec l = Ok v -> @run_mem real_alg real_par h = Ok db ->
  @root_hash real_alg _ dops v = @root_hash real_alg _ ops db ->
  (forall k, @trie_get real_alg _ dops v k = @trie_get real_alg _ ops db k) /\ ~ rewrites l \/ @collision real_alg real_par h (tallied l).
Proof. exact default_memory_binds. Qed.

Print Assumptions C70_refuted.
Print Assumptions C70_totals_root_partial.
Print Assumptions C70_root_totals_partial.
Print Assumptions C70_memory_root_partial.
Print Assumptions C70_default_refuted.
Print Assumptions C70_default_root_totals_partial.
Print Assumptions C70_default_memory_root_partial.
Print Assumptions C71_honest_clients.
Print Assumptions C71_clients_partial.
Print Assumptions C71_client_and_disk_partial.

(** Not even the number of changes can be told: two periods and three periods with the same totals. *)
Example C70_periods : wf_ops two_ops /\ settled_ops two_ops /\ wf_ops three_ops /\ settled_ops three_ops /\
  (forall k, totals two_ops k = totals three_ops k) /\ len (counted two_ops e1) = 2%nat /\ len (counted three_ops e1) = 3%nat.
Proof. exact periods_case. Qed.
(** A trie on disk at the root of a trie in memory, in every group. *)
Example C70_memory_case : forall (A : Alg) (L : AlgLaws A) (P : Par A) (PL : ParLaws P) (C : Codec A) (CL : CodecLaws C),
  wf_ops plain_ops /\ settled_ops plain_ops /\ (forall k v, In (OInsert k v) plain_ops -> is_value v) /\
  wf_history (contents plain_ops) /\ Forall (fun kv => is_value (snd kv)) (contents plain_ops) /\
  exists v (db : MemoryDb), run_disk plain_ops = Ok v /\ run_mem (contents plain_ops) = Ok db /\ root_hash v = root_hash db.
Proof. intros A L P PL C CL. exact memory_case. Qed.
(** Two clients at the same root: one follows three blocks, the other starts after the first of them. *)
Example C71_honest_case : exists (db1 db2 : MemoryDb) root1 root2 b1 b2 b3,
  let h2 := after chain_h [b1] in
  wf_history chain_h /\ wf_history h2 /\ run_mem chain_h = Ok db1 /\ root_commitment db1 = Ok root1 /\ run_mem h2 = Ok db2 /\ root_commitment db2 = Ok root2 /\
  Forall block_fits [b1; b2; b3] /\ along chain_h [b1; b2; b3] honest_block /\ along h2 [b2; b3] honest_block /\
  scalars_apart (final_map (after chain_h [b1; b2; b3])) (stems_of (after chain_h [b1; b2; b3])) (stems_of (after h2 [b2; b3]))
    (map (fun kv => Some (snd kv)) (after h2 [b2; b3])) /\
  forall ho, (forall l, Permutation (ho l) l) -> exists r, follow ho root1 [b1; b2; b3] = Ok (VOk r) /\ follow ho root2 [b2; b3] = Ok (VOk r).
Proof. exact honest_pair. Qed.
(** A block with known openings, and a client that starts after it. *)
Example C71_opened_case : exists (db1 db2 : @MemoryDb ExA) root1 root2 b open,
  let h2 := after ex_h [b] in
  wf_history ex_h /\ wf_history h2 /\ run_mem ex_h = Ok db1 /\ root_commitment db1 = Ok root1 /\ run_mem h2 = Ok db2 /\ root_commitment db2 = Ok root2 /\
  block_fits b /\ along ex_h [b] (opened_block open) /\ along h2 [] (opened_block open) /\
  scalars_apart (final_map (after ex_h [b])) (stems_of (after ex_h [b])) (stems_of (after h2 [])) (map (fun kv => Some (snd kv)) (after h2 [])) /\
  forall ho, (forall l, Permutation (ho l) l) -> follow ho root1 [b] = Ok (VOk root2) /\ follow ho root2 [] = Ok (VOk root2).
Proof. exact opened_pair. Qed.
