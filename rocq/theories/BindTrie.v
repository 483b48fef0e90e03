(** The Java verifier on proofs of trees, and concrete cases of both bindings. *)
From Coq Require Import Permutation String.
From Verif Require Import Base BaseFacts Alg AlgInst TreeSpec TreeFacts TrieModel TrieProofs TrieTheorems ExData BTree WireModel WireSpec WireInst ProofModel ProofSpec
  PathProofs OpeningProofs VerifierProofs ProofTheorems ProofExamples IpaModel LagrangeSpec IpaSpec CheckProofs IpaTheorems IpaInst
  MsmModel MsmSpec MsmInst FfiModel FfiSpec FfiProofs FfiInst GoModel GoSpec GoProofs GoTrie BindModel BindSpec BindProofs.
Local Open Scope list_scope.

Section BindTrie.
Context {A : Alg} {AL : AlgLaws A} {P : Par A} {PL : ParLaws P} {C : ECodec A} {CL : ECodecLaws C} {H : Hasher}.

Lemma java_honest h (db : MemoryDb) keys order :
  domain_fits 256 -> wf_history h -> run_mem h = Ok db ->
  (forall k v, In k keys -> final_map h k = Some v -> len v = 32%nat) -> keys <> [] -> Forall is_key keys -> Z.of_nat (len keys) < 2 ^ 32 ->
  distinguishable (final_map h) (stems_of h) keys ->
  (forall l, Permutation (order l) l) ->
  exists qs hint comms root, create_proof_parts db keys = Ok (Some (qs, hint, comms)) /\ root_commitment db = Ok root /\
    (usable_challenges qs -> exists p, create_verkle_proof order db keys = Ok (Some p) /\
      j_verify_pre_state_root (java_list keys) (Some (map (fun k => java_value (final_map h k)) keys))
        (java_list (map el_ser (vp_comms p)))
        (java_list (map el_ser (ipa_L (mp_ipa (vp_proof p))))) (java_list (map el_ser (ipa_R (mp_ipa (vp_proof p)))))
        (java_list (vh_diff (vp_hint p))) (Some (el_ser (mp_g (vp_proof p))))
        (Some (map (fun '(d, e) => 8 * d + ext_code e) (combine (vh_depths (vp_hint p)) (vh_ext (vp_hint p)))))
        (Some (rev (sc_ser (ipa_a (mp_ipa (vp_proof p)))))) (Some (el_ser root)) = Ok true).
Proof.
  intros D Hw E Hv Hne Hk Hn Hd Ho.
  destruct (honest_accepted D h db keys order Hw E Hne Hk Hd Ho) as (qs & hint & comms & root & Ep & Er & K).
  exists qs, hint, comms, root. split; [exact Ep|]. split; [exact Er|]. intro U.
  destruct (K U) as (p & uh & Ecr & Eh & Ecm & Ck). exists p. split; [exact Ecr|].
  pose proof (prover_hint_fits h db keys qs hint comms Hw E Hk Hn Ep) as HF. rewrite <- Eh in HF.
  pose proof (j_verify_ok p keys (map (final_map h) keys) [] root HF) as V. cbn [map] in V. rewrite app_nil_r, map_map in V.
  rewrite V; clear V.
  - etransitivity; [exact (f_equal (fun r => rbind r _) Ck)|]. reflexivity.
  - eapply Forall_impl; [|exact Hk]. intros k Hkk. apply Hkk.
  - apply map_length.
  - apply Forall_forall. intros o Ho'. apply in_map_iff in Ho' as (k & <- & Hin).
    destruct (final_map h k) as [v|] eqn:Ev; [|exact Logic.I]. exact (Hv k v Hin Ev).
Qed.
End BindTrie.

Lemma c_proof_case : exists cx, context_new = Ok cx /\ Forall record_fits ffi_qs /\ Forall (good_query 256 (crs_G trie_crs)) ffi_qs /\
  (exists out, c_create_proof (@rev _) cx (concat (map prover_record ffi_qs)) = Ok out /\
     c_verify_proof cx (out ++ concat (map claim_record (map claim_of ffi_qs))) = Ok true) /\
  (exists out, c_create_proof_uncompressed (@rev _) cx (concat (map prover_record_uncompressed ffi_qs)) = Ok out /\
     c_verify_proof_uncompressed cx (out ++ concat (map claim_record_uncompressed (map claim_of ffi_qs))) = Ok true).
Proof.
  destruct ex_context as [cx Hc]. exists cx. destruct ffi_qs_ok as [H1 H2].
  destruct (c_end_to_end cx (@rev _) ffi_qs Hc (ex_fits 256 ltac:(lia)) (fun l => Permutation_sym (Permutation_rev l))
    ltac:(discriminate) H1 H2 (ex_honest_t 256 256 _ _ _ ltac:(lia)) (ex_honest_challenges _ _ _ _)) as [(o1 & E1 & _ & E1') (o2 & E2 & _ & E2')].
  split; [exact Hc|]. split; [exact H1|]. split; [exact H2|]. split; [exists o1; split; [exact E1|exact E1']|exists o2; split; [exact E2|exact E2']].
Qed.
Lemma java_update_case : exists cx old out, context_new = Ok cx /\ len old = 64%nat /\
  j_commit Whole cx (Some (scalars_bytes (ex_scalars [5; 7; 0; 9]))) = Ok (JOk old) /\
  j_update_sparse cx (Some old) (Some [3; 1]) (Some (scalars_bytes (ex_scalars [9; 7]))) (Some (scalars_bytes (ex_scalars [12; 1000]))) = Ok (JOk out) /\
  j_commit Whole cx (Some (scalars_bytes (ex_scalars [5; 1000; 0; 12]))) = Ok (JOk out).
Proof.
  destruct ex_context as [cx Hc]. exists cx.
  set (old := eu_ser (combination (ex_scalars [5; 7; 0; 9]) (crs_G trie_crs))). exists old.
  assert (Hv : commit_to_scalars Whole cx (scalars_bytes (ex_scalars [5; 7; 0; 9])) = Ok (FOk old)).
  { apply commit_ok; [exact Hc|]. cbn. lia. }
  assert (Hl : len old = 64%nat) by apply eu_len.
  destruct (j_sparse_ok cx Whole _ _ old ex_changes Hc Hv Hl eq_refl ex_changes_ok) as (out & E1 & E2).
  exists out. split; [exact Hc|]. split; [exact Hl|]. split.
  { apply (j_commit_ok Whole cx (ex_scalars [5; 7; 0; 9]) Hc). cbn. lia. }
  split; [exact (E2 ex_changes (Permutation_refl _))|exact (E1 Whole)].
Qed.
Lemma java_verify_case : exists cv cp cl cr os d dp fe root,
  j_verify_pre_state_root (A := ExA) (java_list ex_keys) cv cp cl cr os d dp fe root = Ok true.
Proof.
  assert (Hw : wf_history ex_h) by (apply keys_okb_ok; vm_compute; reflexivity).
  destruct (root_spec ex_h Hw) as (db & E & _ & _).
  destruct ex_diffs_ok as (S & Ek & Ec).
  assert (Hv : forall k v, In k ex_keys -> final_map ex_h k = Some v -> len v = 32%nat).
  { intros k v Hk Ev. assert (X : forallb (fun k => match final_map ex_h k with None => true | Some v => (len v =? 32)%nat end) ex_keys = true)
      by (vm_compute; reflexivity).
    rewrite forallb_forall in X. apply X in Hk. rewrite Ev in Hk. now apply Nat.eqb_eq. }
  destruct (java_honest ex_h db ex_keys (@rev _) (ex_fits 256 ltac:(lia)) Hw E Hv ltac:(discriminate)
    ex_keys_ok ltac:(vm_compute; reflexivity) ex_distinguishable ltac:(intro l; symmetry; apply Permutation_rev))
    as (qs & hint & comms & root & Ep & Er & K).
  destruct (K (ex_usable qs)) as (p & _ & V). repeat eexists. exact V.
Qed.
