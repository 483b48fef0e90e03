(** Proofs from a trie on disk (C51) and account state in a trie (C52). *)
From Coq Require Import Permutation.
From Verif Require Import Base BaseFacts Alg AlgInst TreeSpec TrieModel TrieProofs CodecModel CodecInst VerkleDbModel DbSpec VerkleDbExamples BTree
  WireModel WireInst ProofModel ProofSpec IpaModel LagrangeSpec IpaSpec IpaInst CheckProofs DiskProof
  MsmModel MsmSpec FfiModel SpecModel LayoutSpec LayoutInst AccountSpec AccountProofs.

(** ** C51 *)
Section Disk.
Context {A : Alg} {L : AlgLaws A} {P : Par A} {PL : ParLaws P} {C : Codec A} {CL : CodecLaws C} {EC : ECodec A} {ECL : ECodecLaws EC} {H : Hasher}.

(** For the histories of C09 the trie on disk makes the proofs of the trie in memory. *)
Theorem C51_same_proofs_partial : forall l, wf_ops l -> settled_ops l -> no_rewrite l ->
  exists v db, run_disk l = Ok v /\ run_mem (contents l) = Ok db /\ root_commitment v = root_commitment db /\
    forall order keys, create_proof_parts v keys = create_proof_parts db keys /\
      create_verkle_proof order v keys = create_verkle_proof order db keys.
Proof. exact disk_proof. Qed.

(** They are accepted, under the conditions of C21. *)
Theorem C51_accepted_partial : domain_fits 256 -> forall l keys order, wf_ops l -> settled_ops l -> no_rewrite l ->
  keys <> [] -> Forall is_key keys -> distinguishable (final_map (contents l)) (stems_of (contents l)) keys ->
  (forall g, Permutation (order g) g) ->
  exists v qs hint comms root, run_disk l = Ok v /\ create_proof_parts v keys = Ok (Some (qs, hint, comms)) /\
    root_commitment v = Ok root /\
    (usable_challenges qs -> exists p uh, create_verkle_proof order v keys = Ok (Some p) /\
       proof_check p keys (map (final_map (contents l)) keys) root = Ok (true, Some uh)).
Proof. exact disk_honest. Qed.
End Disk.

(** Without the restrictions on the history the prover opens commitments to values they
    do not hold: after a flushed value was changed, and after a key below depth 4 was
    changed and the trie flushed and reopened. *)
Theorem C51_changed_value_refuted : exists l v k qs hint comms, wf_ops l /\ spread_ops l /\ run_disk l = Ok v /\
  create_proof_parts (A := ExA) v [k] = Ok (Some (qs, hint, comms)) /\ ~ Forall true_opening qs.
Proof.
  exact (match false_openings rewrite_ops [kA] rewrite_false with
    | ex_intro _ v (ex_intro _ qs (ex_intro _ hint (ex_intro _ comms (conj E R)))) =>
        ex_intro _ rewrite_ops (ex_intro _ v (ex_intro _ kA (ex_intro _ qs (ex_intro _ hint (ex_intro _ comms
          (conj (ops_okb_ok rewrite_ops eq_refl) (conj (spreadb_ok rewrite_ops eq_refl) (conj E R))))))))
    end).
Qed.
Theorem C51_deep_key_refuted : exists l v k qs hint comms, wf_ops l /\ no_rewrite l /\ run_disk l = Ok v /\
  create_proof_parts (A := ExA) v [k] = Ok (Some (qs, hint, comms)) /\ ~ Forall true_opening qs.
Proof.
  exact (match false_openings deep_ops [kB] deep_false with
    | ex_intro _ v (ex_intro _ qs (ex_intro _ hint (ex_intro _ comms (conj E R)))) =>
        ex_intro _ deep_ops (ex_intro _ v (ex_intro _ kB (ex_intro _ qs (ex_intro _ hint (ex_intro _ comms
          (conj (ops_okb_ok deep_ops eq_refl) (conj (no_rewriteb_ok deep_ops eq_refl) (conj E R))))))))
    end).
Qed.

(** ** C52: any hash that gives 32 bytes *)
Section Accounts.
Context {A : Alg} {AL : AlgLaws A} {P : Par A} {PL : ParLaws P}.

(** Writing items of accounts never panics; every item then reads as last written,
    unless its hash input collides with that of another item. *)
Theorem C52_read_back : forall h64, hash_total h64 -> forall w, Forall account_item (map fst w) ->
  exists h db, insertions h64 w = Ok h /\ run_mem h = Ok db /\
    forall a i, account_item (a, i) -> collision_free h64 ((a, i) :: map fst w) ->
      exists k, item_key h64 a i = Ok k /\ trie_get db k = Ok (written w a i).
Proof. exact (fun h64 Ht => read_back h64 Ht). Qed.

(** The root depends only on what the items hold. *)
Theorem C52_root_of_state : forall h64, hash_total h64 -> forall w1 w2,
  Forall account_item (map fst w1) -> Forall account_item (map fst w2) -> collision_free h64 (map fst w1 ++ map fst w2) ->
  (forall a i, account_item (a, i) -> written w1 a i = written w2 a i) ->
  exists h1 h2 db1 db2, insertions h64 w1 = Ok h1 /\ insertions h64 w2 = Ok h2 /\ run_mem h1 = Ok db1 /\ run_mem h2 = Ok db2 /\
    root_commitment db1 = root_commitment db2.
Proof. exact (fun h64 Ht => same_state h64 Ht). Qed.

(** Code is read back from its chunks, whatever else was written before, and after
    except to chunks of that account. *)
Theorem C52_code_read_back : forall h64, hash_total h64 -> forall checked code a w1 w2,
  code <> [] -> Z.of_nat (length code) < 2 ^ 64 -> length a = 32%nat ->
  Forall account_item (map fst w1) -> Forall account_item (map fst w2) -> (forall c v, ~ In (a, Chunk c, v) w2) ->
  exists chunks, chunkify_code checked code = Ok chunks /\
    let w := w1 ++ code_writes a chunks ++ w2 in
    (collision_free h64 (map fst w) -> exists h db l, insertions h64 w = Ok h /\ run_mem h = Ok db /\
       (forall i, (i < length l)%nat -> exists k, code_chunk_key h64 a (Z.of_nat i) = Ok k /\ trie_get db k = Ok (nth_error l i)) /\
       length l = chunk_count code /\ firstn (length code) (concat (map (@tl Z) l)) = code).
Proof. exact (fun h64 Ht => code_readable h64 Ht). Qed.
End Accounts.

(** The library's hash is such a hash. *)
Theorem C52_library_hash {A : Alg} {L : AlgLaws A} {C : ECodec A} {CL : ECodecLaws C} {P : Par A}
  {I : FrInt A} {IL : FrIntLaws I} {W : Wnaf A} {WL : WnafLaws W} : forall points c split,
  (forall x, is_bytes (sc_ser x)) -> committer_new points = Ok c -> hash_total (hash64 split c).
Proof. exact library_hash_total. Qed.

Print Assumptions C51_same_proofs_partial.
Print Assumptions C51_accepted_partial.
Print Assumptions C51_changed_value_refuted.
Print Assumptions C51_deep_key_refuted.
Print Assumptions C52_read_back.
Print Assumptions C52_root_of_state.
Print Assumptions C52_code_read_back.
Print Assumptions C52_library_hash.

(** ** Cases *)
(** Four keys of a history with two flushes and two reopenings: present, present after a
    reopening, lost by a reopening, added to a flushed stem. *)
Example C51_case : exists v p uh root, run_disk ok_ops = Ok v /\ root_commitment v = Ok root /\
  create_verkle_proof (@rev _) v ok_keys = Ok (Some p) /\
  proof_check p ok_keys [Some (val 1); Some (val 7); None; Some (val 2)] root = Ok (true, Some uh).
Proof.
  destruct (C51_accepted_partial (ex_fits 256 ltac:(lia)) ok_ops ok_keys (@rev _)) as (v & qs & hint & comms & root & E & Ep & Er & K).
  - apply ops_okb_ok; vm_compute; reflexivity.
  - apply settledb_ok; vm_compute; reflexivity.
  - apply no_rewriteb_ok; vm_compute; reflexivity.
  - discriminate.
  - exact ok_keys_ok.
  - exact ok_distinguishable.
  - intro l. symmetry. apply Permutation_rev.
  - destruct (K (ex_usable qs)) as (p & uh & Ec & Ck). exists v, p, uh, root.
    replace [Some (val 1); Some (val 7); None; Some (val 2)] with (map (final_map (contents ok_ops)) ok_keys) by (vm_compute; reflexivity).
    auto.
Qed.

(** Two accounts with fields, slots and code, one field written twice. *)
Example C52_case : exists h (db : @MemoryDb ExA) k1 k2, insertions toy64 state_writes = Ok h /\ run_mem h = Ok db /\
  item_key toy64 (adr 7) (Field 2) = Ok k1 /\ trie_get db k1 = Ok (Some (repeat 4 32)) /\
  item_key toy64 (adr 7) (Slot 6) = Ok k2 /\ trie_get db k2 = Ok None.
Proof.
  destruct (C52_read_back toy64 toy_total state_writes state_items) as (h & db & E & Er & G).
  destruct (G (adr 7) (Field 2)) as (k1 & K1 & G1).
  { split; [reflexivity|split; discriminate]. }
  { intros a1 i1 a2 i2 I1 I2. apply (state_free a1 i1 a2 i2); right; [destruct I1 as [<-|I1]|destruct I2 as [<-|I2]];
      try assumption; left; reflexivity. }
  destruct (G (adr 7) (Slot 6)) as (k2 & K2 & G2); [split; [reflexivity|split; [discriminate|reflexivity]]|exact state_free|].
  exists h, db, k1, k2. split; [exact E|]. split; [exact Er|]. split; [exact K1|]. split; [exact G1|]. split; [exact K2|exact G2].
Qed.
