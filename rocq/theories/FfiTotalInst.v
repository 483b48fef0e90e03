(** Concrete cases of the outcomes of the interface. *)
From Coq Require Import String Permutation Field_theory Ring_theory.
From Verif Require Import Base BaseFacts Alg AlgInst CodecInst WireModel WireSpec WireInst ProofModel IpaModel IpaSpec LagrangeSpec IpaInst
  MsmModel MsmSpec MsmInst FfiModel FfiSpec FfiProofs FfiInst FfiTotal.
Local Open Scope list_scope.

Definition ex_twice : list (@change ExA) :=
  [mkChange (A := ExA) 3 (zred p31 9) (zred p31 12); mkChange (A := ExA) 3 (zred p31 12) (zred p31 1)].
Lemma sparse_total_case : exists cx out, context_new = Ok cx /\
  gives_changes [3%nat; 3%nat] (map sc_ser (ex_scalars [9; 12]) ++ [repeat 255 32]) (map sc_ser (ex_scalars [12; 1])) ex_twice /\
  update_commitment_sparse cx (eu_ser gzero) [3%nat; 3%nat]
    (map sc_ser (ex_scalars [9; 12]) ++ [repeat 255 32]) (map sc_ser (ex_scalars [12; 1])) = Ok (FOk out) /\
  (forall l, ~ gives_changes [256%nat] (map sc_ser (ex_scalars [9])) (map sc_ser (ex_scalars [9])) l) /\
  (forall l, ~ gives_changes [2%nat] [repeat 255 32] (map sc_ser (ex_scalars [9])) l).
Proof.
  destruct ex_context as [cx Hc]. exists cx.
  assert (HG : gives_changes [3%nat; 3%nat] (map sc_ser (ex_scalars [9; 12]) ++ [repeat 255 32]) (map sc_ser (ex_scalars [12; 1])) ex_twice).
  { split; [reflexivity|]. split; [repeat constructor|]. split; vm_compute; reflexivity. }
  destruct (sparse_total cx (eu_ser gzero) [3%nat; 3%nat] (map sc_ser (ex_scalars [9; 12]) ++ [repeat 255 32]) (map sc_ser (ex_scalars [12; 1])) Hc)
    as [(g & l & out & _ & _ & E & _)|[X _]].
  - exists out. split; [exact Hc|]. split; [exact HG|]. split; [exact E|]. split.
    + intros l' (Ei & HF & _). destruct l' as [|c l']; [discriminate|]. injection Ei as E1 _. inversion HF as [|? ? X _]. rewrite <- E1 in X. lia.
    + intros l' (Ei & _ & Ho & _). destruct l' as [|c [|]]; try discriminate.
  - exfalso. exact (X gzero ex_twice (eu_rt _) HG).
Qed.

Lemma plus_one_differs (A : Alg) (L : AlgLaws A) (x : F) : fadd x fone <> x.
Proof.
  pose proof F_field as FF. intro E. apply (F_1_neq_0 FF).
  transitivity (fsub (fadd x fone) x); [|rewrite E]; destruct FF as [R _ _ _]; [|rewrite (Rsub_def R); apply (Ropp_def R)].
  rewrite (Rsub_def R), (Radd_comm R x), <- (Radd_assoc R), (Ropp_def R), (Radd_comm R), (Radd_0_l R). reflexivity.
Qed.

Definition ffi_false_qs : list (@ProverQuery ExA) :=
  map (fun q => mkPQ (A := ExA) (pq_comm q) (pq_poly q) (pq_point q) (fadd (pq_result q) fone)) ffi_qs.
Lemma ffi_false_case : exists cx out, context_new = Ok cx /\ Forall record_fits ffi_false_qs /\
  outside_domain 256 (mp_honest_t 256 verkle_tr trie_crs ffi_false_qs) /\
  Forall (fun x => x <> fzero) (mp_honest_challenges 8 verkle_tr trie_crs ffi_false_qs) /\
  ~ Forall (good_query 256 (crs_G trie_crs)) ffi_false_qs /\
  ffi_create_proof (@rev _) cx (concat (map prover_record ffi_false_qs)) = Ok (FOk out).
Proof.
  destruct ex_context as [cx Hc]. exists cx. destruct ffi_qs_ok as [H1 H2].
  assert (H3 : Forall record_fits ffi_false_qs).
  { apply Forall_map. revert H1. apply Forall_impl. intros q X. exact X. }
  assert (H4 : outside_domain 256 (mp_honest_t 256 verkle_tr trie_crs ffi_false_qs)) by (apply ex_honest_t; lia).
  assert (H5 : Forall (fun x => x <> fzero) (mp_honest_challenges 8 verkle_tr trie_crs ffi_false_qs)) by apply ex_honest_challenges.
  destruct (create_records (@rev _) cx ffi_false_qs Hc (ex_fits 256 ltac:(lia))) as [K1 K2]; try assumption.
  { intro l. apply Permutation_sym, Permutation_rev. }
  { discriminate. }
  destruct (ffi_create_proof (@rev _) cx (concat (map prover_record ffi_false_qs))) as [[out|e]|] eqn:E.
  - exists out. split; [exact Hc|]. split; [exact H3|]. split; [exact H4|]. split; [exact H5|]. split; [|reflexivity].
    intro X. clear -X. unfold ffi_false_qs, ffi_qs in X. cbn [map] in X. apply Forall_inv in X. destruct X as (_ & _ & _ & Er).
    cbn [pq_result pq_point pq_poly ffi_query] in Er.
    exact (plus_one_differs ExA ExL _ Er).
  - exfalso. exact (K2 e eq_refl).
  - exfalso. exact (proj1 K1 eq_refl H5).
Qed.
