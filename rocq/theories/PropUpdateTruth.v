(** C62: the stateless update by an accepted proof, whoever made it. *)
From Coq Require Import Permutation.
From Verif Require Import Base Alg AlgInst TreeSpec TrieModel TrieProofs TrieTheorems ExData BTree WireModel WireInst ProofModel ProofSpec
  IpaModel LagrangeSpec IpaSpec MultiProofs CheckProofs IpaInst SoundSpec SoundInst TruthSpec TruthInst StatelessModel StatelessSpec
  StatelessTruth StatelessForget StatelessCases.
Local Open Scope list_scope.
Notation len := List.length.

Section Properties.
Context {A : Alg} {L : AlgLaws A} {P : Par A} {PL : ParLaws P}.

(** A client that knows nothing but the root, and is given keys, their values and a proof by
    anybody, gets the root of the tree after the insertions, or an error for repeated keys, or a
    panic, which happens if and only if it writes a key whose slot is said to be empty.  It never
    gets another root.

    Partial: the claims of the proof must fit one tree, which is not checked
    ([C62_value_forgotten_refuted]), the openings of the queries are known, and the commitments,
    hashes, stems and values at hand can be told apart; all these are the conditions of
    [C23_coherent_claims_true_partial]. *)
Theorem C62_update_by_any_proof_partial {C : ECodec A} {H : Hasher} :
  forall h (db : MemoryDb) root p keys values updated uh qs uh' vs hash_order,
  domain_fits 256 -> wf_history h -> run_mem h = Ok db -> root_commitment db = Ok root ->
  Forall is_key keys -> len values = len keys ->
  Z.of_nat (len keys) < 2 ^ 63 -> Z.of_nat (len updated) < 2 ^ 63 ->
  proof_check p keys values root = Ok (true, uh) ->
  create_verifier_queries (vp_hint p) (vp_comms p) keys values root = Ok (Some (qs, uh')) -> Forall2 opening qs vs ->
  coherent (vp_hint p) keys -> ideal (final_map h) (stems_of h) qs vs ->
  scalars_apart (final_map h) (stems_of h) (map (firstn 31) keys ++ vh_diff (vp_hint p)) values ->
  (forall l, Permutation (hash_order l) l) ->
  let result := verify_and_update hash_order p root keys values updated in
  (~ NoDup keys /\ result = Ok (VErr DuplicateKeys)) \/
  (NoDup keys /\ ~ writes_empty (vp_hint p) keys updated /\
   exists db' root', trie_insert db (writes keys updated) = Ok db' /\ root_commitment db' = Ok root' /\ result = Ok (VOk root')) \/
  (NoDup keys /\ writes_empty (vp_hint p) keys updated /\ result = Panic).
Proof. exact claimed_verify. Qed.

(** The same from provers that are accepted for enough challenges: one gets a relation between the
    generators or openings, and with the latter every update gives the right root or panics. *)
Theorem C62_update_after_acceptance_partial {C : ECodec A} {H : Hasher} :
  forall h (db : MemoryDb) root hint comms keys values qs uh ch p,
  domain_fits 256 -> wf_history h -> run_mem h = Ok db -> root_commitment db = Ok root ->
  Forall is_key keys -> NoDup keys -> len values = len keys -> Z.of_nat (len keys) < 2 ^ 63 ->
  create_verifier_queries hint comms keys values root = Ok (Some (qs, uh)) ->
  enough_challenges 8 (len qs) ch -> all_checked p hint comms keys values root qs ch ->
  coherent hint keys ->
  scalars_apart (final_map h) (stems_of h) (map (firstn 31) keys ++ vh_diff hint) values ->
  exists zs, points_ok 256 zs qs /\
  match extract_multi 256 zs qs ch (pr_a p) with
  | Opening vs => ideal (final_map h) (stems_of h) qs vs ->
      forall updated hash_order, Z.of_nat (len updated) < 2 ^ 63 -> (forall l, Permutation (hash_order l) l) ->
      let result := update_root hash_order uh keys values updated root in
      (~ writes_empty hint keys updated /\
       exists db' root', trie_insert db (writes keys updated) = Ok db' /\ root_commitment db' = Ok root' /\ result = Ok (VOk root')) \/
      (writes_empty hint keys updated /\ result = Panic)
  | Relation v => relation (crs_G trie_crs ++ [crs_Q trie_crs]) v
  end.
Proof. exact accepted_update. Qed.

(** Without the condition on the claims C62 is false.  The stem of the key is listed as the other
    stem in its slot; the proof is accepted, and the update returns the root of a tree in which a
    value under another key of that stem, which nobody asked to write, is gone. *)
Theorem C62_value_forgotten_refuted {C : ECodec A} {CL : ECodecLaws C} {H : Hasher} : domain_fits 256 ->
  exists h (db : MemoryDb) root hint comms keys values updated qs uh r h' (db' : MemoryDb),
    wf_history h /\ run_mem h = Ok db /\ root_commitment db = Ok root /\ Forall is_key keys /\ NoDup keys /\
    len values = len keys /\ len updated = len keys /\
    ends_apart hint keys /\ single_present hint keys /\ empty_agree hint keys /\
    create_verifier_queries hint comms keys values root = Ok (Some (map public_query qs, uh)) /\
    (usable_challenges qs -> exists mp, forall hash_order, (forall l, Permutation (hash_order l) l) ->
      verify_and_update hash_order (mkVP hint comms mp) root keys values updated = Ok (VOk r)) /\
    wf_history h' /\ run_mem h' = Ok db' /\ root_commitment db' = Ok r /\
    exists k v, ~ In k keys /\ trie_get db k = Ok (Some v) /\ trie_get db' k = Ok None.
Proof. exact forgotten. Qed.
End Properties.

Print Assumptions C62_update_by_any_proof_partial.
Print Assumptions C62_update_after_acceptance_partial.
Print Assumptions C62_value_forgotten_refuted.

(** ** Cases *)
(** The proof for five keys of the example tree meets all conditions; with it a value is changed,
    one is added to a stem, a stem is added next to another one, or a stem is added in an empty slot. *)
Example C62_case : exists (db : MemoryDb) root p uh qs uh' vs,
  run_mem ex_h = Ok db /\ root_commitment db = Ok root /\
  proof_check p five_keys (map (final_map ex_h) five_keys) root = Ok (true, uh) /\
  create_verifier_queries (vp_hint p) (vp_comms p) five_keys (map (final_map ex_h) five_keys) root = Ok (Some (qs, uh')) /\
  Forall2 opening qs vs /\ coherent (vp_hint p) five_keys /\ ideal (final_map ex_h) (stems_of ex_h) qs vs /\
  scalars_apart (final_map ex_h) (stems_of ex_h) (map (firstn 31) five_keys ++ vh_diff (vp_hint p)) (map (final_map ex_h) five_keys) /\
  ~ writes_empty (vp_hint p) five_keys five_updated /\ writes_empty (vp_hint p) five_keys five_updated2.
Proof. exact five_case. Qed.
Example C62_writes_case : Forall is_key five_keys /\ NoDup five_keys /\ writes five_keys five_updated =
  [(ex_key 5 0 130, repeat 77 32); (ex_key 5 0 131, repeat 78 32); (ex_key 6 7 1, repeat 79 32)].
Proof. split; [exact five_keys_ok|]. split; [exact five_keys_nodup|exact five_writes]. Qed.
(** The conditions on the provers of [C62_update_after_acceptance_partial] are met in [C23_coherent_case].
    A proof by which the update forgets a value, in the example instance: *)
Example C62_forgotten_case : exists h (db : MemoryDb) root p keys values updated r (db' : MemoryDb) k v,
  run_mem h = Ok db /\ root_commitment db = Ok root /\ ~ In k keys /\ trie_get db k = Ok (Some v) /\
  verify_and_update (@rev bytes) p root keys values updated = Ok (VOk r) /\
  root_commitment db' = Ok r /\ trie_get db' k = Ok None.
Proof.
  destruct (C62_value_forgotten_refuted (ex_fits 256 ltac:(lia))) as (h & db & root & hint & comms & keys & values & updated & qs & uh & r & h' & db' &
    _ & E & Er & _ & _ & _ & _ & _ & _ & _ & _ & K & _ & _ & Er' & k & v & H1 & H2 & H3).
  destruct (K (ex_usable qs)) as (mp & Ku).
  exists h, db, root, (mkVP hint comms mp), keys, values, updated, r, db', k, v.
  specialize (Ku (@rev bytes) (fun l => Permutation_sym (Permutation_rev l))). auto 8.
Qed.
