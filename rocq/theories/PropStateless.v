(** Properties of the stateless update (C25, C26). *)
From Coq Require Import Permutation.
From Verif Require Import Base BaseFacts Alg AlgInst TreeSpec TrieModel TrieProofs TrieTheorems ExData BTree WireModel WireInst ProofModel ProofSpec
  ProofExamples IpaModel CheckProofs IpaTheorems IpaInst StatelessModel StatelessSpec StatelessTheorems StatelessExact StatelessExamples.
From Verif Require PropCheck.
Local Open Scope list_scope.
Notation len := List.length.

Section WithAlgebra.
Context {A : Alg} {AL : AlgLaws A} {P : Par A} {PL : ParLaws P} {C : ECodec A} {CL : ECodecLaws C} {H : Hasher}.

(** C25.  [updated] gives for each key the value to write, or [None] to leave it;
    [writes] is the resulting list of insertions.  Updating by the proof gives the
    root of the tree after these insertions, in whatever order the updater's hash
    set yields its elements.  Partial: each key that is written must lie in an
    [occupied] slot (its own stem or another one is there); what happens otherwise is
    [C25_empty_slot_refuted]. *)
Theorem C25_stateless_update_partial : forall h (db : MemoryDb) keys updated proof_order hash_order p root,
  wf_history h -> run_mem h = Ok db -> root_commitment db = Ok root ->
  Forall is_key keys -> NoDup keys -> len updated = len keys ->
  (forall l, Permutation (hash_order l) l) ->
  create_verkle_proof proof_order db keys = Ok (Some p) ->
  (exists uh, proof_check p keys (map (final_map h) keys) root = Ok (true, uh)) ->
  (forall k v, In (k, v) (writes keys updated) -> occupied (stems_of h) k) ->
  exists db' root', trie_insert db (writes keys updated) = Ok db' /\ root_commitment db' = Ok root' /\
    verify_and_update hash_order p root keys (map (final_map h) keys) updated = Ok (VOk root').
Proof. exact stateless_update_ok. Qed.

(** C25 is false for the other keys: writing a new stem in an empty slot panics,
    for every tree and every proof that is accepted. *)
Theorem C25_empty_slot_refuted : forall h (db : MemoryDb) keys updated proof_order hash_order p root k v,
  wf_history h -> run_mem h = Ok db -> root_commitment db = Ok root ->
  Forall is_key keys -> NoDup keys -> len updated = len keys ->
  (forall l, Permutation (hash_order l) l) ->
  create_verkle_proof proof_order db keys = Ok (Some p) ->
  (exists uh, proof_check p keys (map (final_map h) keys) root = Ok (true, uh)) ->
  In (k, v) (writes keys updated) -> ~ occupied (stems_of h) k ->
  verify_and_update hash_order p root keys (map (final_map h) keys) updated = Panic.
Proof. exact stateless_update_panics. Qed.

(** C25 and C26 together: the outcome for every list of keys, whatever is asked for
    twice or absent, and every list of new values, however short or long.  With an
    honest proof that is accepted, a key asked for twice is an error; otherwise the
    result is the root after the writes if each of them goes to an occupied slot, and
    a panic if one does not.  Nothing else can happen. *)
Theorem C25_update_exactly : forall h (db : MemoryDb) keys updated proof_order hash_order p root,
  wf_history h -> run_mem h = Ok db -> root_commitment db = Ok root -> Forall is_key keys ->
  Z.of_nat (len keys) < 2 ^ 63 -> Z.of_nat (len updated) < 2 ^ 63 ->
  (forall l, Permutation (hash_order l) l) ->
  create_verkle_proof proof_order db keys = Ok (Some p) ->
  (exists uh, proof_check p keys (map (final_map h) keys) root = Ok (true, Some uh)) ->
  let result := verify_and_update hash_order p root keys (map (final_map h) keys) updated in
  (~ NoDup keys /\ result = Ok (VErr DuplicateKeys)) \/
  (NoDup keys /\ (forall k v, In (k, v) (writes keys updated) -> occupied (stems_of h) k) /\
     exists db' root', trie_insert db (writes keys updated) = Ok db' /\ root_commitment db' = Ok root' /\ result = Ok (VOk root')) \/
  (NoDup keys /\ (exists k v, In (k, v) (writes keys updated) /\ ~ occupied (stems_of h) k) /\ result = Panic).
Proof. exact update_exactly. Qed.

(** C26, duplicates.  Lists in memory are shorter than 2^63. *)
Theorem C26_duplicate_keys_rejected : forall hash_order hint keys values updated root,
  Z.of_nat (len keys) < 2 ^ 63 -> Z.of_nat (len values) < 2 ^ 63 -> Z.of_nat (len updated) < 2 ^ 63 ->
  ~ NoDup keys -> update_root hash_order hint keys values updated root = Ok (VErr DuplicateKeys).
Proof. exact duplicates_rejected. Qed.

(** And for the whole call: a new root is only returned for an accepted proof and
    distinct keys; a rejected proof is reported. *)
Theorem C26_only_verified_updates : forall hash_order p root keys values updated r,
  Z.of_nat (len keys) < 2 ^ 63 -> Z.of_nat (len values) < 2 ^ 63 -> Z.of_nat (len updated) < 2 ^ 63 ->
  verify_and_update hash_order p root keys values updated = Ok (VOk r) ->
  NoDup keys /\ exists uh, proof_check p keys values root = Ok (true, Some uh).
Proof. exact only_verified. Qed.
Theorem C26_bad_proof_rejected : forall hash_order p root keys values updated o,
  proof_check p keys values root = Ok (false, o) ->
  verify_and_update hash_order p root keys values updated = Ok (VErr InvalidProof).
Proof. exact bad_proof. Qed.

(** C26, lengths, is false: no list in memory ever gets one of the two length errors; *)
Theorem C26_no_length_error_refuted : forall hash_order hint keys values updated root e,
  Z.of_nat (len keys) < 2 ^ 63 -> Z.of_nat (len values) < 2 ^ 63 -> Z.of_nat (len updated) < 2 ^ 63 ->
  update_root hash_order hint keys values updated root = Ok (VErr e) -> e = DuplicateKeys \/ e = OldValueIsPopulated.
Proof. exact no_length_error. Qed.
(** superfluous updated values are ignored; *)
Theorem C26_trailing_ignored_refuted : forall hash_order hint keys values updated extra root,
  Z.of_nat (len keys) < 2 ^ 63 -> Z.of_nat (len values) < 2 ^ 63 -> Z.of_nat (len (updated ++ extra)) < 2 ^ 63 ->
  (len keys <= len updated)%nat ->
  update_root hash_order hint keys values (updated ++ extra) root = update_root hash_order hint keys values updated root.
Proof. exact trailing_ignored. Qed.
(** missing ones count as keys left alone. *)
Theorem C26_missing_ignored_refuted : forall hash_order hint keys values updated n root,
  Z.of_nat (len keys) < 2 ^ 63 -> Z.of_nat (len values) < 2 ^ 63 -> Z.of_nat (len updated + n) < 2 ^ 63 ->
  update_root hash_order hint keys values updated root =
  update_root hash_order hint keys values (updated ++ repeat None n) root.
Proof. exact missing_ignored. Qed.
End WithAlgebra.

(** Cases.  A value is changed, a suffix is added, two stems are added next to a
    third one, one key is read only; everything is in the instance with the
    integers modulo 2^31 - 1. *)
Example C25_case : NoDup su_keys /\ Forall is_key su_keys /\ len su_updated = len su_keys /\
  writes su_keys su_updated =
    [(ex_key 5 0 7, repeat 77 32); (ex_key 5 0 131, repeat 78 32); (ex_key 6 7 1, repeat 79 32); (ex_key 6 8 2, repeat 80 32)] /\
  (forall k v, In (k, v) (writes su_keys su_updated) -> occupied (stems_of ex_h) k) /\
  exists db p root db' root', run_mem ex_h = Ok db /\ root_commitment db = Ok root /\
    create_verkle_proof (fun l => l) db su_keys = Ok (Some p) /\
    (exists uh, proof_check p su_keys (map (final_map ex_h) su_keys) root = Ok (true, uh)) /\
    trie_insert db (writes su_keys su_updated) = Ok db' /\ root_commitment db' = Ok root' /\
    verify_and_update (@rev bytes) p root su_keys (map (final_map ex_h) su_keys) su_updated = Ok (VOk root') /\
    verify_and_update (@rev bytes) p root su_keys (map (final_map ex_h) su_keys) (su_updated ++ [Some []; None]) = Ok (VOk root').
Proof. exact su_case. Qed.

(** The same with a write to an empty slot. *)
Example C25_empty_case : exists (db : MemoryDb) p root, run_mem ex_h = Ok db /\ root_commitment db = Ok root /\
    create_verkle_proof (fun l => l) db su_keys = Ok (Some p) /\
    (exists uh, proof_check p su_keys (map (final_map ex_h) su_keys) root = Ok (true, uh)) /\
    In (repeat 99 32, repeat 5 32) (writes su_keys su_updated2) /\ ~ occupied (stems_of ex_h) (repeat 99 32) /\
    verify_and_update (@rev bytes) p root su_keys (map (final_map ex_h) su_keys) su_updated2 = Panic.
Proof. exact su_empty_case. Qed.

(** The outcomes of [C25_update_exactly]: fewer new values than keys, more of them
    with a write to an empty slot, and a key asked for twice. *)
Example C25_exact_cases :
  (exists (db : MemoryDb) p root db' root', run_mem ex_h = Ok db /\ root_commitment db = Ok root /\
    create_verkle_proof (fun l => l) db su_keys = Ok (Some p) /\
    (exists uh, proof_check p su_keys (map (final_map ex_h) su_keys) root = Ok (true, Some uh)) /\
    trie_insert db [(ex_key 5 0 7, repeat 77 32)] = Ok db' /\ root_commitment db' = Ok root' /\
    verify_and_update (@rev bytes) p root su_keys (map (final_map ex_h) su_keys) [Some (repeat 77 32)] = Ok (VOk root') /\
    verify_and_update (@rev bytes) p root su_keys (map (final_map ex_h) su_keys) (su_updated2 ++ [None]) = Panic) /\
  (exists (db : MemoryDb) p root, run_mem ex_h = Ok db /\ root_commitment db = Ok root /\
    create_verkle_proof (fun l => l) db su_twice = Ok (Some p) /\
    (exists uh, proof_check p su_twice (map (final_map ex_h) su_twice) root = Ok (true, Some uh)) /\
    verify_and_update (@rev bytes) p root su_twice (map (final_map ex_h) su_twice) su_updated = Ok (VErr DuplicateKeys)).
Proof. exact su_exact_cases. Qed.

(** A proof refused for every list of commitments and every opening: the root asked for
    is never computed, whatever the values to write. *)
Example C26_bad_proof_case : forall hash_order (cs : list (@G ExA)) mp root updated,
  let values := [None; Some (repeat 4 32); Some (repeat 5 32); None] in
  proof_check (mkVP wf_hint cs mp) wf_keys values root = Ok (false, None) /\
  verify_and_update hash_order (mkVP wf_hint cs mp) root wf_keys values updated = Ok (VErr InvalidProof).
Proof.
  intros hash_order cs mp root updated values.
  destruct (PropCheck.C24_refused_case cs mp root) as (_ & E & _).
  split; [exact E|exact (C26_bad_proof_rejected _ _ _ _ _ _ _ E)].
Qed.

Print Assumptions C25_stateless_update_partial.
Print Assumptions C25_update_exactly.
Print Assumptions C25_empty_slot_refuted.
Print Assumptions C26_duplicate_keys_rejected.
Print Assumptions C26_only_verified_updates.
Print Assumptions C26_bad_proof_rejected.
Print Assumptions C26_no_length_error_refuted.
Print Assumptions C26_trailing_ignored_refuted.
Print Assumptions C26_missing_ignored_refuted.
