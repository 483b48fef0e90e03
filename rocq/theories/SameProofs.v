(** Proofs from tries with the same contents. *)
From Coq Require Import Permutation String.
From Verif Require Import Base BaseFacts Alg TreeSpec TrieModel TrieProofs TrieTheorems BTree WireModel ProofModel ProofSpec ProofTheorems
  IpaModel LagrangeSpec IpaSpec LagrangeProofs MultiProofs IpaTheorems CheckProofs DiskProof.
Local Open Scope list_scope.
Notation len := List.length.

Section Same.
Context {A : Alg} {AL : AlgLaws A} {P : Par A} {PL : ParLaws P}.
Lemma tables_parts (db1 db2 : MemoryDb) keys : same_tables db1 db2 -> create_proof_parts db1 keys = create_proof_parts db2 keys.
Proof.
  intros (T1 & T2 & T3). apply parts_same.
  - intro k. cbn [get_leaf memory_db_ops]. unfold mem_get_leaf. now rewrite T1.
  - intro s. cbn [get_stem_meta memory_db_ops]. unfold mem_get_stem_meta. now rewrite T2.
  - intro p. cbn [get_branch_meta memory_db_ops]. unfold mem_get_branch_meta. now rewrite T3.
  - intros p i. cbn [get_branch_child memory_db_ops]. unfold mem_get_branch_child. now rewrite T3.
Qed.
Lemma same_parts h1 h2 (db1 db2 : MemoryDb) keys : wf_history h1 -> wf_history h2 -> (forall k, final_map h1 k = final_map h2 k) ->
  run_mem h1 = Ok db1 -> run_mem h2 = Ok db2 -> create_proof_parts db1 keys = create_proof_parts db2 keys.
Proof.
  intros W1 W2 E E1 E2. destruct (history_independent h1 h2 W1 W2 E) as (e1 & e2 & F1 & F2 & _ & _ & T).
  assert (e1 = db1) by congruence. assert (e2 = db2) by congruence. subst. now apply tables_parts.
Qed.

Context {C : ECodec A} {CL : ECodecLaws C} {H : Hasher}.
Hypothesis Hfit : domain_fits 256.
Lemma same_contents_proof h1 h2 (db1 db2 : MemoryDb) keys order1 order2 p1 : wf_history h1 -> wf_history h2 ->
  (forall k, final_map h1 k = final_map h2 k) -> run_mem h1 = Ok db1 -> run_mem h2 = Ok db2 -> Forall is_key keys ->
  (forall l, Permutation (order1 l) l) -> (forall l, Permutation (order2 l) l) ->
  create_verkle_proof order1 db1 keys = Ok (Some p1) ->
  exists qs, create_proof_parts db1 keys = Ok (Some (qs, vp_hint p1, vp_comms p1)) /\
  (outside_domain 256 (fst (mp_t (tr_new (lbl "vt")) (map public_query qs) (mp_g (vp_proof p1)))) ->
   create_verkle_proof order2 db2 keys = Ok (Some p1)).
Proof.
  intros W1 W2 E E1 E2 Hk O1 O2 C1.
  unfold create_verkle_proof in C1 |- *. rewrite <- (same_parts h1 h2 db1 db2 keys W1 W2 E E1 E2).
  assert (Nk : keys <> []). { intro X. subst keys. discriminate C1. }
  destruct (prover_ok h1 db1 keys W1 E1 Nk Hk) as (qs & hint & comms & Ep & Ht & _). rewrite Ep in C1 |- *. cbn [rbind] in C1 |- *.
  rewrite (weights256 Hfit) in C1 |- *. cbn [rbind] in C1 |- *. exists qs.
  destruct (mp_open order1 trie_crs (weights 256) (tr_new (lbl "vt")) qs) as [[m1 s1]|] eqn:Op1; cbn [rbind] in C1; [|discriminate].
  assert (X1 : p1 = mkVP hint comms m1) by congruence. subst p1. cbn [vp_hint vp_comms vp_proof]. split; [reflexivity|]. intro O.
  assert (Hg : Forall (good_query 256 (crs_G trie_crs)) qs) by (eapply Forall_impl; [|exact Ht]; apply opening_good).
  assert (Hq : qs <> []) by (eapply parts_nonempty; eassumption).
  destruct (multi_accept 256 Hfit ltac:(lia) order1 trie_crs 8 (tr_new (lbl "vt")) qs O1) with (p := m1) (s := s1) as [EG _].
  all: try eassumption; try reflexivity; try apply trie_crs_len.
  rewrite EG in O.
  rewrite <- (multi_order_irrelevant 256 8 (weights 256) trie_crs Hfit eq_refl eq_refl (trie_crs_len) (weights256 Hfit) order1 order2 (tr_new (lbl "vt")) qs O1 O2 Hq (good_fits _ _ _ Hg)).
  - rewrite Op1. reflexivity.
  - rewrite (honest_t_eq 256 Hfit ltac:(lia) trie_crs 8 (tr_new (lbl "vt")) qs); try assumption; try reflexivity; try apply trie_crs_len. eapply good_fits. exact Hg.
Qed.
End Same.
