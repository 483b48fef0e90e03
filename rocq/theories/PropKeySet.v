(** C64: a proof is a function of the contents of the trie and of the set of keys. *)
From Coq Require Import Permutation String.
From Verif Require Import Base Alg AlgInst TreeSpec TrieModel TrieTheorems ExData CodecModel VerkleDbModel DbSpec WireModel ProofModel ProofSpec
  ProofExamples IpaModel LagrangeSpec IpaSpec WireInst IpaInst CheckProofs KeySetProofs.
Local Open Scope list_scope.

Section Properties.
Context {A : Alg} {AL : AlgLaws A} {P : Par A} {PL : ParLaws P} {C : ECodec A} {H : Hasher}.

(** Two listings of the same keys, in another order or with repetitions, give the same outcome. *)
Theorem C64_proof_of_key_set : forall h (db : MemoryDb) keys1 keys2 order,
  wf_history h -> run_mem h = Ok db -> Forall is_key keys1 -> (forall k, In k keys1 <-> In k keys2) ->
  create_verkle_proof order db keys1 = create_verkle_proof order db keys2.
Proof. exact proof_key_set. Qed.

Context {CL : ECodecLaws C}.
(** Nor does it matter in which order the contents were inserted or the prover's hash maps are walked. *)
Theorem C64_proof_of_contents : domain_fits 256 -> forall h1 h2 (db1 db2 : MemoryDb) keys1 keys2 order1 order2 p1,
  wf_history h1 -> wf_history h2 -> (forall k, final_map h1 k = final_map h2 k) ->
  run_mem h1 = Ok db1 -> run_mem h2 = Ok db2 -> Forall is_key keys1 -> (forall k, In k keys1 <-> In k keys2) ->
  (forall l, Permutation (order1 l) l) -> (forall l, Permutation (order2 l) l) ->
  create_verkle_proof order1 db1 keys1 = Ok (Some p1) ->
  exists qs, create_proof_parts db1 keys1 = Ok (Some (qs, vp_hint p1, vp_comms p1)) /\
  (outside_domain 256 (fst (mp_t (tr_new (lbl "vt"%string)) (map public_query qs) (mp_g (vp_proof p1)))) ->
   create_verkle_proof order2 db2 keys2 = Ok (Some p1)).
Proof. exact same_set_proof. Qed.

(** The verifier may list the keys in another way than the prover (conditions of C21). *)
Theorem C64_any_listing_accepted : domain_fits 256 -> forall h (db : MemoryDb) keys1 keys2 order p,
  wf_history h -> run_mem h = Ok db -> keys1 <> [] -> Forall is_key keys1 -> (forall k, In k keys1 <-> In k keys2) ->
  distinguishable (final_map h) (stems_of h) keys1 ->
  (forall l, Permutation (order l) l) -> create_verkle_proof order db keys1 = Ok (Some p) ->
  exists root qs uh, root_commitment db = Ok root /\
    create_verifier_queries (vp_hint p) (vp_comms p) keys2 (map (final_map h) keys2) root = Ok (Some (qs, uh)) /\
    (outside_domain 256 (fst (mp_t (tr_new (lbl "vt"%string)) qs (mp_g (vp_proof p)))) ->
     proof_check p keys2 (map (final_map h) keys2) root = Ok (true, Some uh)).
Proof. exact any_listing. Qed.

Context {DC : Codec A} {DL : CodecLaws DC}.
(** The same on disk, for the histories of C09. *)
Theorem C64_disk_key_set_partial : forall l v keys1 keys2 order,
  wf_ops l -> settled_ops l -> no_rewrite l -> run_disk l = Ok v ->
  Forall is_key keys1 -> (forall k, In k keys1 <-> In k keys2) ->
  create_verkle_proof order v keys1 = create_verkle_proof order v keys2.
Proof. exact disk_key_set. Qed.
End Properties.

Print Assumptions C64_proof_of_key_set.
Print Assumptions C64_proof_of_contents.
Print Assumptions C64_any_listing_accepted.
Print Assumptions C64_disk_key_set_partial.

(** The keys of the example tree, backwards and twice. *)
Example C64_case : exists (db : MemoryDb) p root uh, run_mem ex_h = Ok db /\ root_commitment db = Ok root /\
  create_verkle_proof (@rev _) db ex_keys = Ok (Some p) /\
  create_verkle_proof (@rev _) db (rev ex_keys ++ ex_keys) = Ok (Some p) /\
  rev ex_keys ++ ex_keys <> ex_keys /\
  proof_check p (rev ex_keys ++ ex_keys) (map (final_map ex_h) (rev ex_keys ++ ex_keys)) root = Ok (true, Some uh).
Proof.
  assert (Hw : wf_history ex_h) by (apply keys_okb_ok; vm_compute; reflexivity).
  destruct (root_spec ex_h Hw) as (db & E & _ & _).
  assert (Hs : forall k, In k ex_keys <-> In k (rev ex_keys ++ ex_keys)).
  { intro k. rewrite in_app_iff, <- in_rev. tauto. }
  assert (Hk : Forall is_key (rev ex_keys ++ ex_keys)) by exact (same_keys ex_keys _ ex_keys_ok Hs).
  destruct (honest_accepted (ex_fits 256 ltac:(lia)) ex_h db (rev ex_keys ++ ex_keys) (@rev _) Hw E) as (qs & hint & comms & root & Ep & Er & K).
  - discriminate.
  - exact Hk.
  - exact (same_opened _ _ ex_keys _ Hs ex_distinguishable).
  - intro l. symmetry. apply Permutation_rev.
  - destruct (K (ex_usable qs)) as (p & uh & Ec & _ & _ & Ek). exists db, p, root, uh. split; [exact E|]. split; [exact Er|].
    split; [|split; [exact Ec|split; [|exact Ek]]].
    + rewrite (C64_proof_of_key_set ex_h db ex_keys (rev ex_keys ++ ex_keys) (@rev _) Hw E ex_keys_ok Hs). exact Ec.
    + intro X. apply (f_equal (@List.length _)) in X. vm_compute in X. discriminate X.
Qed.
