(** A concrete case for [PropCoordKeySet]: the keys of [MidInst], backwards and twice. *)
From Coq Require Import Permutation String.
From Verif Require Import Base BaseFacts Alg TreeSpec TrieModel CodecModel VerkleDbModel MsmModel WireModel WireSpec ProofModel ProofSpec IpaModel LagrangeSpec IpaSpec
  ElementModel ElementSpec CurveModel CurveSpec CurveAlg CurveRep CoordSpec CoordProofs MidInst CoordInst CoordKeySet.
Local Open Scope list_scope.
Section Mid.
#[local] Existing Instance Mid_laws.
#[local] Existing Instance Mid_curve.
#[local] Existing Instance Mid_scalars.
#[local] Existing Instance MidF_laws.
Local Notation RA := (@rep_alg Mid Mid_laws MidF MidI).
Local Notation CA := (@curve_alg Mid Mid_laws MidF MidI).
Local Notation RE := (@rep_ecodec Mid Mid_laws MidF MidI).
Local Opaque mid_par mid_cpar.
Lemma mid_set_case : let keys2 := rev mid_keys ++ mid_keys in exists db root p1 p2 uh,
  @run_mem RA mid_par mid_h = Ok db /\ @root_commitment RA _ _ db = Ok root /\ Forall is_key mid_keys /\ (forall k, In k mid_keys <-> In k keys2) /\ keys2 <> mid_keys /\
  @create_verkle_proof RA RE toy mid_par MemoryDb _ (fun l => l) db mid_keys = Ok (Some p1) /\
  @create_verkle_proof RA RE toy mid_par MemoryDb _ (@rev _) db keys2 = Ok (Some p2) /\ @proof_write RA RE p1 = @proof_write RA RE p2 /\
  @proof_check RA RE toy mid_par p1 keys2 (map (final_map mid_h) keys2) root = Ok (true, Some uh).
Proof.
  intro keys2. destruct mid_proof as (db & root & p & _ & E & Er & Cr & _).
  assert (Hs : forall k, In k mid_keys <-> In k keys2) by (intro k; unfold keys2; rewrite in_app_iff, <- in_rev; tauto).
  assert (Nk : mid_keys <> []) by discriminate.
  assert (Nn : keys2 <> mid_keys) by (intro X; apply (f_equal (@List.length _)) in X; vm_compute in X; discriminate X).
  destruct (coord_set_proof (HS := toy) mid_stands mid_fits mid_h mid_h db db mid_keys keys2 (fun l => l) (@rev _) p mid_wf mid_wf (fun _ => eq_refl) E E mid_keys_ok Hs
    (fun l => Permutation_refl l) (fun l => Permutation_sym (Permutation_rev l)) Cr) as (qs & _ & K).
  destruct (K (@toy_outside RA RE mid_apart (@of_Z_0 MidF MidF_laws) _ _ _)) as (p2 & Cr2 & _ & Ew).
  destruct (coord_any_listing (HS := toy) mid_stands mid_fits mid_h db mid_keys keys2 (fun l => l) p mid_wf E Nk mid_keys_ok Hs mid_distinguishable (fun l => Permutation_refl l) Cr)
    as (root' & vqs & uh & Er' & _ & Ck). rewrite Er in Er'. injection Er' as <-.
  specialize (Ck (@toy_outside RA RE mid_apart (@of_Z_0 MidF MidF_laws) _ _ _)).
  exists db, root, p, p2, uh. repeat (split; [assumption|]). split; [exact mid_keys_ok|]. split; [exact Hs|]. split; [exact Nn|].
  split; [exact Cr|]. split; [exact Cr2|]. split; [exact Ew|exact Ck].
Qed.
End Mid.
