(** A rewritten trie on the coordinates of [MidInst]. *)
From Coq Require Import Permutation.
From Verif Require Import Base BaseFacts Alg AlgFacts TreeSpec TrieModel TrieProofs TrieTheorems CodecModel VerkleDbModel VerkleDbExamples DbSpec MsmModel WireModel WireSpec ProofModel ProofSpec ProofRefute ProofExamples
  IpaModel LagrangeSpec IpaSpec CheckProofs RewriteSpec RewriteProofs RewriteFacts RewriteProofSpec RewriteToldCases
  AgreeSpec AgreeProofs AgreeCases Bander CollisionCases RealSpec RealProofs RealRefine
  ElementModel ElementSpec CurveModel CurveSpec CurveAlg CurveRep CoordSpec RepRefine RepProof CoordProofs MidInst CoordInst CoordChainCases CoordTold.
Local Open Scope list_scope.
#[local] Existing Instance Mid_laws.
#[local] Existing Instance Mid_curve.
#[local] Existing Instance Mid_scalars.
#[local] Existing Instance MidF_laws.
#[local] Existing Instance toy.
Local Notation RA := (@rep_alg Mid Mid_laws MidF MidI).
Local Notation RC := (@rep_codec Mid Mid_laws MidF MidI).
Local Notation RD := (@verkle_db_ops RA RC).
Local Notation RE := (@rep_ecodec Mid Mid_laws MidF MidI).
Local Notation CA := (@curve_alg Mid Mid_laws MidF MidI).

(** The other half of the stem that was written twice, and an empty slot. *)
Definition calm_keys : list bytes := [e2; mid_key 99 0 0].
Lemma calm_d : @distinguishable CA mid_cpar (final_map (tallied up_ops)) (stems_of (contents up_ops)) calm_keys.
Proof.
  apply (@log_distinguishable CA curve_laws mid_cpar mid_g mid_lhash mid_log (of_Z 987)).
  - exact mid_hash_log.
  - reflexivity.
  - exact mid_once.
  - vm_compute. reflexivity.
Qed.
Lemma calm_case : Forall is_key calm_keys /\ Forall (untouched up_ops) calm_keys /\ (2 <= length (counted up_ops e1))%nat /\ half_mates e1 e1 /\ firstn 31 e2 = firstn 31 e1.
Proof.
  split; [apply Forall_cons; [|apply Forall_cons; [|apply Forall_nil]]; apply key_okb; vm_compute; reflexivity|].
  split; [apply Forall_cons; [|apply Forall_cons; [|apply Forall_nil]]; apply untouchedb_ok; vm_compute; reflexivity|].
  split; [vm_compute; lia|]. split; [split; reflexivity|reflexivity].
Qed.
Lemma calm_parts {A : Alg} {P : Par A} {C : Codec A} : ran (let! v := run_disk up_ops in create_proof_parts v calm_keys) = true.
Proof. lazy. reflexivity. Qed.
Lemma touch_parts {A : Alg} {P : Par A} {C : Codec A} : ran (let! v := run_disk up_ops in create_proof_parts v [e1]) = true.
Proof. lazy. reflexivity. Qed.
Local Opaque mid_par mid_cpar run_disk create_proof_parts.
(** The proof for the two keys is made and accepted. *)
Lemma calm_accepted : exists v root p uh, @run_disk RA mid_par RC up_ops = Ok v /\ @root_commitment RA _ RD v = Ok root /\
  @create_verkle_proof RA RE toy mid_par _ RD (@rev _) v calm_keys = Ok (Some p) /\
  @proof_check RA RE toy mid_par p calm_keys [None; None] root = Ok (true, Some uh).
Proof.
  destruct swap_coord_case as ((W & S & _) & _). destruct calm_case as (K & U & _).
  destruct (ran_Ok _ (@up_runs RA mid_par RC)) as (v & E).
  destruct (coord_untouched (HS := toy) mid_stands up_ops v calm_keys (@rev _) mid_fits W S E ltac:(discriminate) K U calm_d ltac:(intro l; symmetry; apply Permutation_rev))
    as [[X _]|(qs & hint & comms & root & _ & Rc & _ & Acc)].
  - pose proof (@calm_parts RA mid_par RC) as Y. rewrite E in Y. cbn [rbind] in Y. exfalso. rewrite X in Y. discriminate Y.
  - destruct (Acc (mid_usable _)) as (p & uh & Cr & _ & _ & Ck). exists v, root, p, uh. split; [exact E|]. split; [exact Rc|]. split; [exact Cr|].
    replace [None; None] with (map (final_map (contents up_ops)) calm_keys) by (vm_compute; reflexivity). exact Ck.
Qed.

(** With the default generators, the proof for the key that was written twice has a false opening (or the two vectors are an explicit collision). *)
Section Real.
#[local] Existing Instance bander_laws.
#[local] Existing Instance bander_curve.
#[local] Existing Instance bander_scalars.
#[local] Existing Instance BanderF_laws.
Local Notation RAd := (@rep_alg Bander bander_laws BanderF BanderI).
Local Notation RCd := (@rep_codec Bander bander_laws BanderF BanderI).
Local Notation RDd := (@verkle_db_ops RAd RCd).
Local Opaque default_par real_par edwards_multiple.
Lemma default_touched : exists v qs hint comms, @run_disk RAd default_par RCd up_ops = Ok v /\
  @create_proof_parts RAd _ RDd v [e1] = Ok (Some (qs, hint, comms)) /\
  ((exists q, In q qs /\ ~ @true_opening real_alg real_par (elem_query q)) \/
   (exists j z, 0 <= z < 256 /\
      @suffix_vec real_alg (final_map (contents up_ops)) (firstn 31 e1) j z <> @suffix_vec real_alg (final_map (tallied up_ops)) (firstn 31 e1) j z /\
      @vcommit real_alg real_par (suffix_vec (final_map (contents up_ops)) (firstn 31 e1) j) =
      @vcommit real_alg real_par (suffix_vec (final_map (tallied up_ops)) (firstn 31 e1) j))).
Proof.
  destruct swap_coord_case as ((W & S & _ & _ & V) & N & _). destruct calm_case as (_ & _ & Hc & Hm & _).
  destruct (ran_Ok _ (@up_runs RAd default_par RCd)) as (v & E).
  assert (V' : forall k v, In (OInsert k v) up_ops -> is_value v) by (intros k x Hx; apply (V k x), in_or_app; now left).
  assert (K : is_key e1) by (apply key_okb; vm_compute; reflexivity).
  destruct (coord_touched default_stands up_ops v [e1] e1 e1 bander_large W S V' ltac:(vm_compute; reflexivity) E (Forall_cons _ K (Forall_nil _)) ltac:(now left) K Hm Hc)
    as [[X _]|(qs & hint & comms & Ep & T)].
  - pose proof (@touch_parts RAd default_par RCd) as Y. rewrite E in Y. cbn [rbind] in Y. exfalso. rewrite X in Y. discriminate Y.
  - exists v, qs, hint, comms. split; [exact E|]. split; [exact Ep|exact T].
Qed.
End Real.
