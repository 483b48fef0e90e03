(** Witnesses of trees, and a concrete one. *)
From Coq Require Import Permutation String.
From Verif Require Import Base BaseFacts Alg AlgInst TreeSpec TreeFacts TrieModel TrieProofs TrieTheorems ExData BTree WireModel WireSpec WireInst ProofModel ProofSpec
  PathProofs OpeningProofs VerifierProofs ProofTheorems ProofExamples IpaModel LagrangeSpec IpaSpec CheckProofs IpaTheorems IpaInst GoModel GoSpec GoProofs.
Local Open Scope list_scope.

Section GoTrie.
Context {A : Alg} {AL : AlgLaws A} {P : Par A} {PL : ParLaws P} {C : ECodec A} {CL : ECodecLaws C} {H : Hasher} {J : Json}.

Lemma prover_diff_stems h (db : MemoryDb) keys qs hint comms : wf_history h -> run_mem h = Ok db -> Forall is_key keys ->
  create_proof_parts db keys = Ok (Some (qs, hint, comms)) -> Forall (sized 31) (vh_diff hint).
Proof.
  intros Hw E Hk Ep. pose proof (run_canon h db Hw E) as K.
  assert (Hne : keys <> []) by (intros ->; discriminate).
  destruct (proof_parts_ok db _ _ K keys Hk Hne) as (qs' & Ep' & Hq). rewrite Ep' in Ep. injection Ep as <- <- <-.
  apply Forall_forall. cbn [proof_hint vh_diff]. intros t Ht. apply In_proof_diff in Ht as [(k & _ & Ht) _].
  apply stem_at_In in Ht as [Ht _]. destruct (wfS_stem _ _ (can_wf _ _ _ K) Ht). split; assumption.
Qed.

Lemma honest_witness h (db : MemoryDb) keys order l :
  domain_fits 256 -> (forall g, is_bytes (el_ser g)) -> (forall x, is_bytes (sc_ser x)) ->
  wf_history h -> run_mem h = Ok db -> keys <> [] -> Forall is_key keys -> Z.of_nat (length keys) < 2 ^ 32 ->
  distinguishable (final_map h) (stems_of h) keys ->
  (forall l, Permutation (order l) l) ->
  state_sized l -> diff_keys l = keys -> diff_current l = map (final_map h) keys ->
  exists qs hint comms root, create_proof_parts db keys = Ok (Some (qs, hint, comms)) /\ root_commitment db = Ok root /\
    (usable_challenges qs -> exists p, create_verkle_proof order db keys = Ok (Some p) /\
      forall json, json_de json = Some (json_of_go (go_of_proof p l)) ->
        verify_execution_witness (hex_of (el_ser root)) json = Ok true).
Proof.
  intros D Be Bs Hw E Hne Hk Hn Hd Ho S Ek Ec.
  destruct (honest_accepted D h db keys order Hw E Hne Hk Hd Ho) as (qs & hint & comms & root & Ep & Er & K).
  exists qs, hint, comms, root. split; [exact Ep|]. split; [exact Er|]. intro U.
  destruct (K U) as (p & uh & Ecr & Eh & Ecm & Ck). exists p. split; [exact Ecr|]. intros json Ej.
  pose proof (prover_hint_fits h db keys qs hint comms Hw E Hk Hn Ep) as HF.
  pose proof (prover_diff_stems h db keys qs hint comms Hw E Hk Ep) as HD. rewrite <- Eh in HF, HD.
  assert (SZ : forall gs : list G, Forall (sized 32) (map el_ser gs)).
  { intro gs. induction gs as [|g gs IH]; cbn [map]; constructor; [split; [apply Be|apply el_len]|exact IH]. }
  assert (GS : go_sized (go_of_proof p l)).
  { constructor; cbn [go_of_proof go_state go_comms go_other go_proof go_d go_cl go_cr go_final go_depths].
    - exact S.
    - apply SZ.
    - exact HD.
    - split; [apply Be|apply el_len].
    - apply SZ.
    - apply SZ.
    - split; [apply Forall_rev, Bs|rewrite rev_length; apply sc_len].
    - destruct HF as [H1 H2 _ _ _ _]. apply Forall_forall. intros b Hb. apply in_map_iff in Hb as ([d e] & <- & Hin).
      apply in_combine_l in Hin. rewrite Forall_forall in H2. apply H2 in Hin. unfold is_byte. destruct e; cbn [ext_code]; lia. }
  pose proof (json_of_go_ok _ GS) as Ew. apply go_of_witness_ok in Ew as [M _].
  rewrite (verify_ok (hex_of (el_ser root)) json _ p l root Ej M GS HF (hex_of_means _ (Be root))).
  rewrite Ek, Ec. etransitivity; [exact (f_equal (fun r => rbind r _) Ck)|]. reflexivity.
Qed.
End GoTrie.

(** The six keys of the example tree as state diffs, one per key. *)
Definition ex_diffs : list StateDiff :=
  map (fun k => mkST (firstn 31 k) [mkSD (nth 31 k 0) (final_map ex_h k) (Some (repeat 8 32))]) ex_keys.
Lemma ex_diffs_ok : state_sized ex_diffs /\ diff_keys ex_diffs = ex_keys /\ diff_current ex_diffs = map (final_map ex_h) ex_keys.
Proof.
  split; [|split; vm_compute; reflexivity].
  assert (X : forallb (fun s => ((List.length (st_stem s) =? 31)%nat && forallb (fun x => (0 <=? x) && (x <? 256)) (st_stem s)) &&
    forallb (fun d => let ok o := match o with None => true | Some b => (List.length b =? 32)%nat && forallb (fun x => (0 <=? x) && (x <? 256)) b end in
       ok (sd_current d) && ok (sd_new d)) (st_diffs s)) ex_diffs = true) by (vm_compute; reflexivity).
  assert (Y : forall n b, (List.length b =? n)%nat && forallb (fun x => (0 <=? x) && (x <? 256)) b = true -> sized n b).
  { intros n b B. apply andb_true_iff in B as [B1 B2]. apply Nat.eqb_eq in B1. split; [|exact B1].
    rewrite forallb_forall in B2. apply Forall_forall. intros x Hx. apply B2 in Hx. apply andb_true_iff in Hx as [X1 X2].
    apply Z.leb_le in X1. apply Z.ltb_lt in X2. unfold is_byte. lia. }
  rewrite forallb_forall in X. apply Forall_forall. intros s Hs. apply X in Hs. apply andb_true_iff in Hs as [B1 B2].
  split; [now apply Y|]. rewrite forallb_forall in B2. apply Forall_forall. intros d Hd. apply B2 in Hd.
  apply andb_true_iff in Hd as [B3 B4]. unfold value_sized. split; [destruct (sd_current d)|destruct (sd_new d)]; auto.
Qed.

Lemma ex_ser_bytes n z : is_bytes (Z_le n z).
Proof. apply Z_le_bytes. Qed.

Lemma witness_case : exists w root (J : Json), json_de [] = Some w /\ (List.length (ew_state w) = 6)%nat /\
  verify_execution_witness (A := ExA) (hex_of (el_ser root)) [] = Ok true.
Proof.
  assert (Hw : wf_history ex_h) by (apply keys_okb_ok; vm_compute; reflexivity).
  destruct (root_spec ex_h Hw) as (db & E & _ & _).
  destruct ex_diffs_ok as (S & Ek & Ec).
  assert (B : forall g : @G ExA, is_bytes (el_ser g)) by (intro g; apply ex_ser_bytes).
  assert (B' : forall g : @F ExA, is_bytes (sc_ser g)) by (intro g; apply ex_ser_bytes).
  destruct (honest_witness (J := fun _ => None) ex_h db ex_keys (@rev _) ex_diffs (ex_fits 256 ltac:(lia)) B B' Hw E ltac:(discriminate)
    ex_keys_ok ltac:(vm_compute; reflexivity) ex_distinguishable ltac:(intro l; symmetry; apply Permutation_rev) S Ek Ec)
    as (qs & hint & comms & root & Ep & Er & K).
  destruct (K (ex_usable qs)) as (p & Ecr & _).
  set (w := json_of_go (go_of_proof p ex_diffs)).
  exists w, root, (fun _ => Some w). split; [reflexivity|]. split; [reflexivity|].
  destruct (honest_witness (J := fun _ => Some w) ex_h db ex_keys (@rev _) ex_diffs (ex_fits 256 ltac:(lia)) B B' Hw E ltac:(discriminate)
    ex_keys_ok ltac:(vm_compute; reflexivity) ex_distinguishable ltac:(intro l; symmetry; apply Permutation_rev) S Ek Ec)
    as (qs' & hint' & comms' & root' & Ep' & Er' & K').
  rewrite Er in Er'. injection Er' as <-. destruct (K' (ex_usable qs')) as (p' & Ecr' & V).
  rewrite Ecr in Ecr'. injection Ecr' as <-. apply V. reflexivity.
Qed.
