(** Concrete cases for [PropCoord]: the trie on the curve of 4 * 5 points of [ElementInst], and proofs in the group
    of [MidInst]. *)
From Coq Require Import Permutation.
From Verif Require Import Base BaseFacts Alg AlgInst TreeSpec TrieModel TrieProofs TrieTheorems ExData CodecModel VerkleDbModel DbSpec VerkleDbExamples MsmModel WireModel WireSpec WireProofs ProofModel ProofSpec
  IpaModel IpaSpec LagrangeSpec CheckProofs ElementModel ElementSpec ElementInst CurveModel CurveSpec CurveInst CurveAlg CurveRep CoordSpec RepRefine RepProof CoordProofs CreatedFits SameProofs MidInst CoordInst.
Local Open Scope list_scope.

Section Tiny.
#[local] Existing Instance B13_laws.
#[local] Existing Instance B13_curve.
#[local] Existing Instance A5_laws.
#[local] Existing Instance A5_scalars.
Local Notation RA := (@rep_alg B13 B13_laws A5 I5).
Local Notation CA := (@curve_alg B13 B13_laws A5 I5).
Local Notation RC := (@rep_codec B13 B13_laws A5 I5).
Local Notation RD := (@verkle_db_ops RA RC).
Definition tiny_gens (i : Z) : @Coord B13 := @co_of B13 B13_laws (if Z.even i then pt13 8 7 else pt13 5 6).
Definition tiny_par : Par RA := @rep_par B13 B13_laws A5 I5 tiny_gens (@co_of B13 B13_laws (pt13 5 6)).
Definition tiny_cpar : Par CA := @curve_par B13 B13_laws A5 I5 (fun i => @elem B13 B13_laws A5 I5 (tiny_gens i)) (@elem B13 B13_laws A5 I5 (@co_of B13 B13_laws (pt13 5 6))).
Lemma tiny_stands : @stands_for B13 B13_laws A5 I5 tiny_par tiny_cpar.
Proof. exact (stands_any tiny_gens (@co_of B13 B13_laws (pt13 5 6))). Qed.
Definition tk (a : Z) : bytes := a :: repeat 0 31.
Definition tiny_h1 : history := [(tk 2, tk 1); (tk 1, tk 1)].
Definition tiny_h2 : history := [(tk 1, tk 1); (tk 2, tk 3); (tk 2, tk 1)].
Lemma tiny_wf : wf_history tiny_h1 /\ wf_history tiny_h2.
Proof. split; apply keys_okb_ok; vm_compute; reflexivity. Qed.
Lemma tiny_final k : final_map tiny_h1 k = final_map tiny_h2 k.
Proof.
  unfold tiny_h1, tiny_h2. cbn [final_map]. destruct (beqb (tk 1) k) eqn:E1; destruct (beqb (tk 2) k) eqn:E2; try reflexivity.
Qed.
Definition root_xy (h : history) : option (Z * Z) :=
  match @run_mem RA tiny_par h with Ok db => match @root_commitment RA _ _ db with Ok c => let P := @coords B13 c in Some (zval 13 (ax P), zval 13 (ay P)) | _ => None end | _ => None end.
(** The same contents by two histories: other coordinates for the root, of the same element. *)
Lemma tiny_roots : exists db1 db2 c1 c2, @run_mem RA tiny_par tiny_h1 = Ok db1 /\ @run_mem RA tiny_par tiny_h2 = Ok db2 /\
  @root_commitment RA _ _ db1 = Ok c1 /\ @root_commitment RA _ _ db2 = Ok c2 /\ coords c1 <> coords c2 /\ same_coord c1 c2.
Proof.
  destruct (sf_same_root tiny_stands tiny_h1 tiny_h2 (proj1 tiny_wf) (proj2 tiny_wf) tiny_final) as (db1 & db2 & c1 & c2 & x & E1 & E2 & R1 & R2 & S & _).
  exists db1, db2, c1, c2. repeat (split; [assumption|]). split; [|exact S].
  assert (X : root_xy tiny_h1 = Some (1, 11)) by (vm_compute; reflexivity).
  assert (Y : root_xy tiny_h2 = Some (12, 2)) by (vm_compute; reflexivity).
  unfold root_xy in X, Y. rewrite E1, R1 in X. rewrite E2, R2 in Y. intro E. rewrite E in X. cbv zeta in X, Y. congruence.
Qed.

(** A store that is reopened once without panicking, and not a second time. *)
Definition tiny_ops : list Op := [OInsert (tk 1) (tk 0); OFlush; OReopen; OInsert (tk 2) (tk 0)].
Lemma tiny_ops_ok : wf_ops tiny_ops /\ settled_ops tiny_ops /\ no_rewrite tiny_ops.
Proof. split; [apply ops_okb_ok|split; [apply settledb_ok|apply no_rewriteb_ok]]; vm_compute; reflexivity. Qed.
Lemma tiny_reopen : (exists v c, @run_disk RA tiny_par RC tiny_ops = Ok v /\ @root_commitment RA _ RD v = Ok c /\ point_check (coords c) = false) /\
  @run_disk RA tiny_par RC (tiny_ops ++ [OFlush; OReopen]) = Panic.
Proof.
  split.
  - assert (X : match @run_disk RA tiny_par RC tiny_ops with Ok v => match @root_commitment RA _ RD v with Ok c => negb (point_check (coords c)) | _ => false end | _ => false end = true)
      by (vm_compute; reflexivity).
    destruct (@run_disk RA tiny_par RC tiny_ops) as [v|]; [|discriminate X]. destruct (@root_commitment RA _ RD v) as [c|] eqn:E; [|discriminate X].
    exists v, c. split; [reflexivity|]. split; [exact E|]. now apply negb_true_iff in X.
  - assert (X : match @run_disk RA tiny_par RC (tiny_ops ++ [OFlush; OReopen]) with Ok _ => false | Panic => true end = true) by (vm_compute; reflexivity).
    destruct (@run_disk RA tiny_par RC (tiny_ops ++ [OFlush; OReopen])); [discriminate X|reflexivity].
Qed.
End Tiny.

(** A proof of four keys, made in the group of [MidInst] with two histories, written and read back. *)
Section Group.
#[local] Existing Instance Mid_laws.
#[local] Existing Instance Mid_curve.
#[local] Existing Instance Mid_scalars.
#[local] Existing Instance MidF_laws.
Local Notation CA := (@curve_alg Mid Mid_laws MidF MidI).
Local Notation CE := (@curve_ecodec Mid Mid_laws MidF MidI).
Local Opaque mid_par mid_cpar.
Lemma mid_par_laws : ParLaws mid_cpar.
Proof. exact (coord_par_laws (sf_hash _ _ mid_stands)). Qed.
Definition mid_h2 : history := [(mid_key 1 6 200, repeat 3 32); (mid_key 1 5 7, repeat 8 32)].
Lemma mid_same_final k : final_map mid_h k = final_map mid_h2 k.
Proof.
  unfold mid_h, mid_h2. cbn [final_map]. destruct (beqb (mid_key 1 5 7) k) eqn:E1; destruct (beqb (mid_key 1 6 200) k) eqn:E2; reflexivity.
Qed.
Lemma mid_wf2 : wf_history mid_h2.
Proof. apply keys_okb_ok. vm_compute. reflexivity. Qed.
Lemma mid_group_case : exists db db2 p, @run_mem CA mid_cpar mid_h = Ok db /\ @run_mem CA mid_cpar mid_h2 = Ok db2 /\
  @create_verkle_proof CA CE toy mid_cpar MemoryDb _ (fun l => l) db mid_keys = Ok (Some p) /\
  @create_verkle_proof CA CE toy mid_cpar MemoryDb _ (@rev _) db2 mid_keys = Ok (Some p) /\
  @proof_read CA CE (@proof_write CA CE p) = Ok (Some p).
Proof.
  pose proof mid_par_laws as PL. pose proof (@curve_laws Mid Mid_laws Mid_curve MidF MidF_laws MidI Mid_scalars) as AL.
  pose proof (@curve_ecodec_laws Mid Mid_laws Mid_curve MidF MidF_laws MidI Mid_scalars) as CL.
  destruct (@get_last CA AL mid_cpar PL mid_h mid_wf) as (db & E & _).
  destruct (@get_last CA AL mid_cpar PL mid_h2 mid_wf2) as (db2 & E2 & _).
  assert (Nk : mid_keys <> []) by discriminate.
  destruct (@honest_accepted CA AL mid_cpar PL CE toy mid_fits mid_h db mid_keys (fun l => l) mid_wf E Nk mid_keys_ok mid_distinguishable (fun l => Permutation_refl l))
    as (qs & hint & comms & root & _ & _ & Hu).
  destruct (Hu (mid_usable qs)) as (p & uh & Cr & _).
  exists db, db2, p. split; [exact E|]. split; [exact E2|]. split; [exact Cr|]. split.
  - destruct (@same_contents_proof CA AL mid_cpar PL CE toy mid_fits mid_h mid_h2 db db2 mid_keys (fun l => l) (@rev _) p mid_wf mid_wf2 mid_same_final E E2 mid_keys_ok
      (fun l => Permutation_refl l) (fun l => Permutation_sym (Permutation_rev l)) Cr) as (qs' & _ & K).
    apply K. exact (@toy_outside CA CE mid_apart (@of_Z_0 MidF MidF_laws) _ _ _).
  - apply (@proof_rt CA CE CL). exact (@created_fits CA AL mid_cpar PL CE toy mid_h db mid_keys (fun l => l) p mid_wf E mid_keys_ok eq_refl Cr).
Qed.
End Group.
