(** C49: what the Java verifier accepts is true, hidden by the proof's own hint, or comes with an event. *)
From Verif Require Import Base Alg AlgInst TreeSpec TrieModel WireModel WireInst ProofModel ProofSpec IpaModel IpaSpec IpaInst LagrangeSpec BindModel BindSpec
  SoundSpec TruthSpec ChainSpec EventSpec WitnessCases JavaSpec JavaTruth.

Section Java.
Context {A : Alg} {L : AlgLaws A} {P : Par A} {PL : ParLaws P} {C : ECodec A} {CL : ECodecLaws C} {H : Hasher}.
(** One check of a proof against the root of a tree. *)
Theorem C23_check_true_or_event_partial : forall open h (db : MemoryDb) r b uh, domain_fits 256 -> wf_history h ->
  run_mem h = Ok db -> root_commitment db = Ok r -> Forall is_key (bl_keys b) -> NoDup (bl_keys b) -> opened_block open h b ->
  proof_check (bl_proof b) (bl_keys b) (bl_values b) r = Ok (true, uh) ->
  (forall k v, In (k, v) (combine (bl_keys b) (bl_values b)) -> trie_get db k = Ok v \/ hidden (stems_of h) (vp_hint (bl_proof b)) (bl_keys b) k v) \/
  block_event open h b.
Proof. exact check_true_or_event. Qed.
(** The Java verifier accepts with the root of the tree: the arguments say a proof, and the values given for
    the keys are those in the tree. *)
Theorem C49_accepted_true_or_event_partial : forall open h (db : MemoryDb) r keys vals cp cl cr os d dp fe, domain_fits 256 -> wf_history h ->
  run_mem h = Ok db -> root_commitment db = Ok r -> Forall is_key keys -> NoDup keys ->
  j_verify_pre_state_root (java_list keys) (java_list vals) cp cl cr os d dp fe (Some (el_ser r)) = Ok true ->
  exists p, java_says cp cl cr os d dp fe p /\
    (opened_block open h (java_block p keys vals) ->
     (forall k v, In (k, v) (combine keys (java_claims keys vals)) -> trie_get db k = Ok v \/ hidden (stems_of h) (vp_hint p) keys k v) \/
     block_event open h (java_block p keys vals)).
Proof. exact java_true_or_event. Qed.
(** The arguments say one proof only. *)
Theorem C49_says_unique : forall cp cl cr os d dp fe (p p' : @VerkleProof A),
  java_says cp cl cr os d dp fe p -> java_says cp cl cr os d dp fe p' -> p = p'.
Proof. exact java_unique. Qed.
End Java.
Example C49_accepted_case : exists open (db : @MemoryDb ExA) r cp cl cr os d dp fe, run_mem acc_h = Ok db /\ root_commitment db = Ok r /\
  j_verify_pre_state_root (java_list acc_keys) (java_list acc_values) cp cl cr os d dp fe (Some (el_ser r)) = Ok true /\
  forall p, java_says cp cl cr os d dp fe p -> opened_block open acc_h (java_block p acc_keys acc_values).
Proof. exact java_case. Qed.

Print Assumptions C23_check_true_or_event_partial.
Print Assumptions C49_accepted_true_or_event_partial.
Print Assumptions C49_says_unique.
Print Assumptions C49_accepted_case.
