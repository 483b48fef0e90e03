(** Concrete cases of the interface in the example group. *)
From Coq Require Import String Permutation.
From Verif Require Import Base BaseFacts Alg AlgInst CodecInst WireModel WireSpec WireInst ProofModel IpaModel IpaSpec LagrangeSpec IpaInst
  MsmModel MsmSpec MsmInst FfiModel FfiSpec FfiProofs.
Local Open Scope list_scope.

Definition ex_changes : list (@change ExA) :=
  [mkChange (A := ExA) 3 (zred p31 9) (zred p31 12); mkChange (A := ExA) 1 (zred p31 7) (zred p31 1000)].

Lemma ex_context : exists cx : @Context_ ExA, context_new = Ok cx.
Proof. apply context_exists. apply ex_fits. lia. Qed.

Lemma ex_changes_ok : changes_of (ex_scalars [5; 7; 0; 9]) ex_changes.
Proof.
  split.
  - cbn. constructor; [cbn; intros [X|[]]; discriminate|]. constructor; [intros []|constructor].
  - repeat constructor.
Qed.

Lemma ffi_update_case : exists cx out, context_new = Ok cx /\
  changes_of (ex_scalars [5; 7; 0; 9]) ex_changes /\
  replace_all (ex_scalars [5; 7; 0; 9]) ex_changes = ex_scalars [5; 1000; 0; 12] /\
  (exists c, commit_to_scalars Whole cx (scalars_bytes (ex_scalars [5; 7; 0; 9])) = Ok (FOk c) /\
     update_commitment_sparse cx c [3%nat; 1%nat] (map sc_ser (ex_scalars [9; 7])) (map sc_ser (ex_scalars [12; 1000])) = Ok (FOk out) /\
     update_commitment_sparse cx c [1%nat; 3%nat] (map sc_ser (ex_scalars [7; 9])) (map sc_ser (ex_scalars [1000; 12])) = Ok (FOk out)) /\
  commit_to_scalars Whole cx (scalars_bytes (ex_scalars [5; 1000; 0; 12])) = Ok (FOk out).
Proof.
  destruct ex_context as [cx Hc]. exists cx.
  assert (Hv : commit_to_scalars Whole cx (scalars_bytes (ex_scalars [5; 7; 0; 9])) =
    Ok (FOk (eu_ser (combination (ex_scalars [5; 7; 0; 9]) (crs_G trie_crs))))).
  { apply commit_ok; [exact Hc|]. cbn. lia. }
  destruct (sparse_theorem cx Whole _ _ _ ex_changes Hc Hv eq_refl ex_changes_ok) as (out & E1 & E2).
  exists out. split; [exact Hc|]. split; [exact ex_changes_ok|]. split; [reflexivity|]. split.
  - eexists. split; [exact Hv|]. split.
    + exact (E2 ex_changes (Permutation_refl _)).
    + exact (E2 _ (perm_swap _ _ _)).
  - exact (E1 Whole).
Qed.

Lemma ffi_malformed_case : exists cx, context_new = Ok cx /\
  update_commitment_sparse cx (repeat 0 64) [0%nat] [repeat 255 32] [repeat 0 32] = Panic /\
  (exists g, eu_de (repeat 0 64) = Some g) /\
  ffi_create_proof (fun l => l) cx (repeat 255 (Z.to_nat 8257)) = Panic /\
  ffi_verify_proof cx (repeat 255 576) = Panic /\
  (exists e, commit_to_scalars Whole cx (repeat 255 32) = Ok (FErr_ e)).
Proof.
  destruct ex_context as [cx Hc]. exists cx. split; [exact Hc|].
  assert (Hz : eu_de (repeat 0 64) = Some (zred p31 0)) by (vm_compute; reflexivity).
  assert (HF : el_de (repeat 255 32) = None) by (vm_compute; reflexivity).
  assert (HS : sc_de (repeat 255 32) = None) by (vm_compute; reflexivity).
  assert (HB : forall n, is_bytes (repeat 255 n)).
  { intro n. apply Forall_forall. intros x Hx. apply repeat_spec in Hx as ->. unfold is_byte. lia. }
  split; [|split; [|split; [|split]]].
  - apply (sparse_bad_scalar cx _ (zred p31 0)); [exact Hz|now left].
  - eexists. exact Hz.
  - rewrite <- (app_nil_r (repeat _ _)). apply create_bad_element; [apply repeat_length|reflexivity|].
    replace (Z.to_nat 8257) with (32 + (Z.to_nat 8257 - 32))%nat by lia. rewrite repeat_app.
    rewrite firstn_app_exact by apply repeat_length. exact HF.
  - apply verify_undecodable; [|apply HB]. intros p HR E.
    assert (X : firstn 32 (firstn 576 (repeat 255 576)) = el_ser (mp_g p)).
    { rewrite E. unfold mp_to_bytes. apply firstn_app_exact. apply el_len. }
    change (firstn 32 (firstn 576 (repeat 255 576))) with (repeat 255 32) in X.
    pose proof (el_rt (mp_g p)) as Y. rewrite <- X in Y. rewrite HF in Y. discriminate.
  - destruct (commit_total Whole cx (repeat 255 32) Hc (HB _)) as [(v & Hv & E & _)|(_ & e & E & _)]; [|eauto].
    exfalso. destruct v as [|x v]; [discriminate|]. unfold scalars_bytes in E. cbn [map concat] in E.
    assert (X : repeat 255 32 = sc_ser x).
    { transitivity (firstn 32 (repeat 255 32)); [reflexivity|]. rewrite E. apply firstn_app_exact. apply sc_len. }
    pose proof (sc_rt x) as Y. rewrite <- X, HS in Y. discriminate.
Qed.

Definition ffi_vec (m : Z) : list (@F ExA) := map (fun i => zred p31 (Z.of_nat i * m + 3)) (seq 0 256).
Definition ffi_query (m z : Z) : @ProverQuery ExA :=
  mkPQ (A := ExA) (commit 256 (ffi_vec m) (crs_G trie_crs)) (ffi_vec m) z (nth (Z.to_nat z) (ffi_vec m) fzero).
Definition ffi_qs : list (@ProverQuery ExA) := [ffi_query 5 17; ffi_query 11 255].
Lemma ffi_qs_ok : Forall record_fits ffi_qs /\ Forall (good_query 256 (crs_G trie_crs)) ffi_qs.
Proof.
  assert (Lv : forall m, len (ffi_vec m) = 256%nat) by (intro m; unfold ffi_vec; now rewrite map_length, seq_length).
  split; (constructor; [|constructor; [|constructor]]).
  - split; [apply Lv|]. cbn. lia.
  - split; [apply Lv|]. cbn. lia.
  - split; [cbn [ffi_query pq_poly]; rewrite Lv; lia|]. split; [cbn; lia|]. split; reflexivity.
  - split; [cbn [ffi_query pq_poly]; rewrite Lv; lia|]. split; [cbn; lia|]. split; reflexivity.
Qed.
Lemma ffi_proof_case : exists cx out, context_new = Ok cx /\ Forall record_fits ffi_qs /\
  Forall (good_query 256 (crs_G trie_crs)) ffi_qs /\
  ffi_create_proof (@rev _) cx (concat (map prover_record ffi_qs)) = Ok (FOk out) /\
  ffi_verify_proof cx (out ++ concat (map claim_record (map claim_of ffi_qs))) = Ok (FOk tt).
Proof.
  destruct ex_context as [cx Hc]. exists cx. destruct ffi_qs_ok as [H1 H2].
  destruct (end_to_end cx (@rev _) ffi_qs Hc (ex_fits 256 ltac:(lia))) as [E _]; try assumption.
  - intro l. apply Permutation_sym, Permutation_rev.
  - discriminate.
  - apply ex_honest_t. lia.
  - destruct (E (ex_honest_challenges _ _ _ _)) as (out & E1 & _ & E2). exists out. split; [exact Hc|]. split; [exact H1|]. split; [exact H2|]. split; [exact E1|exact E2].
Qed.
