(** Properties of proofs about a tree (C15, C19, C20, C21, C22, C23, C24). *)
From Verif Require Import Base BaseFacts Alg AlgInst TreeSpec TrieModel TrieProofs TrieTheorems ExData BTree WireModel WireSpec
  ProofModel ProofSpec ProofTheorems ProofReject ProofRefute ProofExamples.

Section WithAlgebra.
Context {A : Alg} {L : AlgLaws A} {P : Par A} {PL : ParLaws P}.

(** C15, continued: the hints of the proofs made by the prover are ones that
    survive writing and reading. *)
Theorem C15_prover_hints_fit : forall h (db : MemoryDb) keys qs hint comms,
  wf_history h -> run_mem h = Ok db -> Forall is_key keys -> Z.of_nat (length keys) < 2 ^ 32 ->
  create_proof_parts db keys = Ok (Some (qs, hint, comms)) -> hint_fits hint.
Proof. exact prover_hint_fits. Qed.

(** C19.  [d] is the depth at which the walk along the stem of [k] leaves the
    inner nodes ([branch_required], C06). *)
Theorem C19_path_lookup : forall h (db : MemoryDb) k, wf_history h -> run_mem h = Ok db -> is_key k ->
  exists kp d, find_key_path db k = Ok kp /\ (1 <= d <= 31)%nat /\
    (forall i, (i < d)%nat -> branch_required h (firstn i k)) /\ ~ branch_required h (firstn d k) /\
    (forall v, kp_state kp = KFound v <-> trie_get db k = Ok (Some v)) /\
    (kp_state kp = KNotFound NFStemFound <-> stem_in h (firstn 31 k) /\ trie_get db k = Ok None) /\
    (forall s, kp_state kp = KNotFound (NFDifferentStem s) <->
       stem_in h s /\ is_prefix (firstn d k) s /\ s <> firstn 31 k /\ trie_get db k = Ok None) /\
    (kp_state kp = KNotFound NFEmpty <-> forall s, stem_in h s -> ~ is_prefix (firstn d k) s) /\
    (exists last, map (fun n => (fst (fst n), snd (fst n))) (kp_nodes kp) =
       map (fun i => (firstn i k, nth i k 0)) (seq 0 d) ++ last /\
       last = match kp_state kp with KNotFound NFEmpty => [] | _ => [(firstn d k, nth 31 k 0)] end) /\
    Forall (fun n => match snd n with
       | MBranch bm => branch_table db (fst (fst n)) = Some (CBranch bm)
       | MStem sm => exists s, branch_table db (fst (fst n)) = Some (CStem s) /\ stem_table db s = Some sm
       end) (kp_nodes kp) /\
    kp_depth kp = Z.of_nat (length (kp_nodes kp)).
Proof. exact path_lookup. Qed.

(** C20.  The openings are true, and they are exactly the entries of the nodes
    that concern the keys, in order. *)
Theorem C20_prover_openings_true : forall h (db : MemoryDb) keys,
  wf_history h -> run_mem h = Ok db -> keys <> [] -> Forall is_key keys ->
  exists qs hint comms, create_proof_parts db keys = Ok (Some (qs, hint, comms)) /\
  Forall true_opening qs /\
  map (fun q => (pq_comm q, pq_point q, pq_result q)) qs =
  map (fun e => (node_comm (final_map h) (stems_of h) (fst e), snd e, node_vec (final_map h) (stems_of h) (fst e) (snd e)))
    (all_entries (stems_of h) keys).
Proof. exact prover_ok. Qed.

(** C21, the part before the multipoint argument: from an honest proof the verifier
    derives exactly the prover's queries.  Missing here: the multipoint argument itself.
    The hypothesis cannot be dropped. *)
Theorem C21_honest_queries_partial : forall h (db : MemoryDb) keys,
  wf_history h -> run_mem h = Ok db -> keys <> [] -> Forall is_key keys ->
  distinguishable (final_map h) (stems_of h) keys ->
  exists qs hint comms root uh, create_proof_parts db keys = Ok (Some (qs, hint, comms)) /\
    root_commitment db = Ok root /\
    create_verifier_queries hint comms keys (map (final_map h) keys) root =
      Ok (Some (map (fun q => mkVQ (pq_comm q) (of_Z (pq_point q)) (pq_result q)) qs, uh)).
Proof. exact honest_queries. Qed.

(** Without it the check of an honest proof panics, always. *)
Theorem C21_honest_proof_panics_exactly : forall h (db : MemoryDb) keys qs hint comms root,
  wf_history h -> run_mem h = Ok db -> Forall is_key keys ->
  create_proof_parts db keys = Ok (Some (qs, hint, comms)) -> root_commitment db = Ok root ->
  ~ distinguishable (final_map h) (stems_of h) keys ->
  create_verifier_queries hint comms keys (map (final_map h) keys) root = Panic.
Proof. exact honest_panics. Qed.

(** So C21 is false in every group: writing the same value under suffixes 0 and
    128 of one stem makes the honest proof for the two keys panic. *)
Theorem C21_honest_proof_refuted : exists h keys (db : MemoryDb) qs hint comms root,
  wf_history h /\ Forall is_key keys /\ run_mem h = Ok db /\
  create_proof_parts db keys = Ok (Some (qs, hint, comms)) /\
  root_commitment db = Ok root /\ Forall true_opening qs /\
  create_verifier_queries hint comms keys (map (final_map h) keys) root = Panic.
Proof.
  exact (ex_intro _ twin_h (ex_intro _ twin_keys
    match honest_proof_panics with
    | ex_intro _ db (ex_intro _ qs (ex_intro _ hint (ex_intro _ comms (ex_intro _ root H)))) =>
        ex_intro _ db (ex_intro _ qs (ex_intro _ hint (ex_intro _ comms (ex_intro _ root
          (conj twin_wf (conj twin_keys_ok H))))))
    end)).
Qed.

(** C22.  [stems] are the distinct stems of the keys in ascending order; the
    i-th status of the hint is about the i-th stem. *)
Theorem C22_absent_stem_has_no_value : forall hint comms keys values root stems k v i e,
  sorted stems -> (forall s, In s stems <-> In s (map (firstn 31) keys)) ->
  nth_error stems i = Some (firstn 31 k) -> nth_error (vh_ext hint) i = Some e -> e <> ExtPres ->
  In (k, Some v) (combine keys values) ->
  forall r, create_verifier_queries hint comms keys values root <> Ok (Some r).
Proof. exact absent_claim_rejected. Qed.

(** C23 is false.  First, a key that is in the tree is shown to be absent,
    although every derived query is true of the tree's own nodes. *)
Theorem C23_present_key_hidden_refuted :
  ~ (forall h (db : MemoryDb) root hint comms keys values qs uh,
      wf_history h -> run_mem h = Ok db -> root_commitment db = Ok root ->
      Forall is_key keys -> NoDup keys -> length values = length keys ->
      create_verifier_queries hint comms keys values root = Ok (Some (qs, uh)) ->
      Forall (true_of_tree (final_map h) (stems_of h)) qs ->
      forall k v, In (k, v) (combine keys values) -> trie_get db k = Ok v).
Proof. exact hidden_key. Qed.

(** Second, a value that was never written is shown to be there, although every derived query is
    true of the vectors the prover committed to and the root is the tree's. *)
Theorem C23_value_forged_refuted :
  exists h (db : MemoryDb) root hint comms keys values qs uh k v,
    wf_history h /\ run_mem h = Ok db /\ root_commitment db = Ok root /\
    Forall is_key keys /\ NoDup keys /\ length values = length keys /\
    create_verifier_queries hint comms keys values root = Ok (Some (qs, uh)) /\
    Forall true_claim qs /\
    In (k, Some v) (combine keys values) /\ trie_get db k = Ok None.
Proof. exact forged_value. Qed.

(** C24 is false: a hint with no entries, a depth of 0, a depth of 32, a missing
    commitment and a superfluous stem each make the check panic. *)
Theorem C24_no_statuses_refuted : forall k v comms root,
  create_verifier_queries (mkHint [] [] []) comms [k] [v] root = Panic.
Proof. exact reject_no_statuses. Qed.
Theorem C24_depth_zero_refuted : forall k comms root,
  create_verifier_queries (mkHint [0] [ExtNone] []) comms [k] [None] root = Panic.
Proof. exact reject_depth_zero. Qed.
Theorem C24_depth_32_refuted : forall k v e comms root, is_key k ->
  create_verifier_queries (mkHint [32] [e] []) comms [k] [v] root = Panic.
Proof. exact reject_depth_32. Qed.
Theorem C24_missing_commitment_refuted : forall k v root, is_key k ->
  create_verifier_queries (mkHint [1] [ExtPres] []) [] [k] [v] root = Panic.
Proof. exact reject_no_comms. Qed.
Theorem C24_superfluous_stem_refuted : forall k v t c1 c2 root, is_key k ->
  create_verifier_queries (mkHint [1] [ExtPres] [t]) [c1; c2] [k] [v] root = Panic.
Proof. exact reject_extra_diff. Qed.

(** What the verifier needs not to panic.  Missing: the code does not check it. *)
Theorem C24_well_formed_no_panic_partial : forall hint comms keys values,
  well_formed hint comms keys values -> Forall is_key keys ->
  forall root, create_verifier_queries hint comms keys values root <> Panic.
Proof.
  exact (fun hint comms keys values W Hk => well_formed_total hint comms keys values Hk (wp_diff_sorted _ _ _ _ W) W).
Qed.
End WithAlgebra.

Print Assumptions C15_prover_hints_fit.
Print Assumptions C19_path_lookup.
Print Assumptions C20_prover_openings_true.
Print Assumptions C21_honest_queries_partial.
Print Assumptions C21_honest_proof_panics_exactly.
Print Assumptions C21_honest_proof_refuted.
Print Assumptions C22_absent_stem_has_no_value.
Print Assumptions C23_present_key_hidden_refuted.
Print Assumptions C23_value_forged_refuted.
Print Assumptions C24_no_statuses_refuted.
Print Assumptions C24_depth_zero_refuted.
Print Assumptions C24_depth_32_refuted.
Print Assumptions C24_missing_commitment_refuted.
Print Assumptions C24_superfluous_stem_refuted.
Print Assumptions C24_well_formed_no_panic_partial.

(** Concrete cases, in the instance of [AlgInst]. *)
Example C19_cases :
  (let! db := run_mem ex_h in
   let! a := find_key_path db (ex_key 5 0 130) in let! b := find_key_path db (ex_key 5 0 131) in
   let! c := find_key_path db (ex_key 6 7 1) in let! d := find_key_path db (repeat 99 32) in
   Ok (map (fun k => (state_tag (kp_state k), kp_depth k)) [a; b; c; d]))
  = Ok [((0, repeat 0 32), 6); ((1, []), 6); ((2, firstn 31 (ex_key 6 1 0)), 6); ((3, []), 1)].
Proof. vm_compute. reflexivity. Qed.

Example C20_case : wf_history ex_h /\ Forall is_key ex_keys /\
  length (all_entries (stems_of ex_h) ex_keys) = 19%nat /\
  (let! db := run_mem ex_h in let! o := create_proof_parts db ex_keys in
   match o with Some (qs, hint, comms) => Ok (length qs, length comms, vh_depths hint, vh_ext hint, vh_diff hint) | None => Panic end)
  = Ok (19%nat, 8%nat, [5; 5; 1], [ExtPres; ExtDifferentStem; ExtNone], [firstn 31 (ex_key 6 1 0)]).
Proof.
  split; [apply keys_okb_ok; reflexivity|]. split; [exact ex_keys_ok|]. split; vm_compute; reflexivity.
Qed.

Example C21_case : distinguishable (final_map ex_h) (stems_of ex_h) ex_keys /\
  (let! db := run_mem ex_h in let! o := create_proof_parts db ex_keys in
   let! root := root_commitment db in
   match o with
   | Some (qs, hint, comms) =>
       let! r := create_verifier_queries hint comms ex_keys (map (final_map ex_h) ex_keys) root in
       match r with Some (vs, _) => Ok (length vs) | None => Panic end
   | None => Panic
   end) = Ok 19%nat.
Proof. split; [exact ex_distinguishable|]. vm_compute. reflexivity. Qed.

Example C22_case : forall root c r,
  create_verifier_queries (mkHint [1] [ExtNone] []) c [repeat 7 32] [Some (repeat 1 32)] root <> Ok (Some r).
Proof.
  intros root c. apply (C22_absent_stem_has_no_value _ _ _ _ _ [repeat 7 31] (repeat 7 32) (repeat 1 32) 0 ExtNone).
  - repeat constructor.
  - intro s. reflexivity.
  - reflexivity.
  - reflexivity.
  - discriminate.
  - now left.
Qed.

Example C24_case : forall c1 c2 c3 c4 root,
  well_formed wf_hint [c1; c2; c3; c4] wf_keys [None; Some (repeat 4 32); None; None] /\
  (let! o := create_verifier_queries wf_hint [c1; c2; c3; c4] wf_keys [None; Some (repeat 4 32); None; None] root in
   match o with Some (q, _) => Ok (length q) | None => Panic end) = Ok 11%nat.
Proof. intros. split; [apply wf_ok|]. vm_compute. reflexivity. Qed.
