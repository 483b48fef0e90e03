(** The accounts of [WitnessCases] on the coordinates of [MidInst]. *)
From Coq Require Import Permutation.
From Verif Require Import Base BaseFacts Alg AlgFacts TreeSpec TrieModel TrieProofs TrieTheorems CodecModel VerkleDbModel MsmModel WireModel WireSpec ProofModel ProofSpec
  IpaModel LagrangeSpec IpaSpec CheckProofs SoundSpec StatelessModel StatelessSpec StatelessProofs SpecModel LayoutSpec LayoutInst AccountSpec AccountProofs GoModel GoSpec GoProofs TruthSpec ChainSpec ChainProofs ChainCases
  WitnessSpec WitnessProofs WitnessCases EventSpec
  ElementModel ElementSpec CurveModel CurveSpec CurveAlg CurveRep CoordSpec RepRefine RepProof CoordProofs MidInst CoordInst CoordChainSpec CoordChain CoordChainCases CoordWitness.
Local Open Scope list_scope.

#[local] Existing Instance Mid_laws.
#[local] Existing Instance Mid_curve.
#[local] Existing Instance Mid_scalars.
#[local] Existing Instance MidF_laws.
#[local] Existing Instance toy.
Local Notation RA := (@rep_alg Mid Mid_laws MidF MidI).
Local Notation CA := (@curve_alg Mid Mid_laws MidF MidI).
Local Notation RE := (@rep_ecodec Mid Mid_laws MidF MidI).
Lemma mid_acc_d : @distinguishable CA mid_cpar (final_map acc_h) (stems_of acc_h) acc_keys.
Proof.
  apply (@log_distinguishable CA curve_laws mid_cpar mid_g mid_lhash mid_log (of_Z 987)).
  - exact mid_hash_log.
  - reflexivity.
  - exact mid_once.
  - vm_compute. reflexivity.
Qed.
Local Opaque mid_par mid_cpar.

Lemma mid_acc_chain : exists (db : @MemoryDb RA) root b,
  @run_mem RA mid_par acc_h = Ok db /\ @root_commitment RA _ _ db = Ok root /\ @account_blocks RA toy64 [b] [acc_block] /\ Forall block_fits [b] /\
  along acc_h [b] (@sent_block Mid Mid_laws MidF MidI mid_par toy) /\ along acc_h [b] within_reach.
Proof.
  destruct (sf_trie mid_stands acc_h acc_wf) as (db & c & E & _ & Ec & _).
  destruct (make_block (HS := toy) mid_stands mid_fits mid_usable acc_h acc_keys acc_updated acc_wf ltac:(discriminate) acc_keys_ok mid_acc_d) as (b & K & U & S1).
  exists db, c, b.
  assert (One : forall Q : history -> @block RA -> Prop, Q acc_h b -> along acc_h [b] Q).
  { intros Q Q1 before x rest Eb. destruct before as [|y before]; cbn [app] in Eb.
    - assert (x = b) by congruence. subst x. unfold after. cbn [flat_map]. rewrite app_nil_r. exact Q1.
    - exfalso. apply (f_equal (@List.length _)) in Eb. cbn [List.length] in Eb. rewrite app_length in Eb. cbn [List.length] in Eb. lia. }
  split; [exact E|]. split; [exact Ec|].
  split; [constructor; [unfold block_writes; rewrite K, U; exact acc_block_writes|constructor]|].
  split; [constructor; [unfold block_fits; rewrite K, U; split; [exact acc_keys_ok|split; reflexivity]|constructor]|].
  split; apply One; [exact S1|]. unfold within_reach, block_writes. rewrite K, U.
  split; [exact acc_nodup|]. apply occb_ok; [exact acc_wf|apply writes_keys; exact acc_keys_ok|vm_compute; reflexivity].
Qed.

Lemma mid_acc_witness : exists (J : Json) (db : @MemoryDb RA) r p,
  @run_mem RA mid_par acc_h = Ok db /\ @root_commitment RA _ _ db = Ok r /\ json_de [] = Some (json_of_go (@go_of_proof RA RE p acc_diffs)) /\
  @verify_execution_witness RA RE mid_par toy J (hex_of (@el_ser RA RE r)) [] = Ok true.
Proof.
  destruct acc_diffs_ok as (S & Ek & Ec).
  assert (Ek' : item_keys toy64 acc_items = Ok (diff_keys acc_diffs)) by (rewrite Ek; exact acc_keys_eq).
  pose proof (fun J => coord_account_witness (J := J) (HS := toy) toy64 toy_total mid_stands acc acc_items acc_diffs (fun l => l) mid_fits acc_targets ltac:(discriminate) acc_items_ok
    acc_free ltac:(vm_compute; reflexivity) (fun l => Permutation_refl l) S Ek' Ec) as W.
  assert (Inj : forall X (a b : X), Ok a = Ok b -> a = b) by (intros X a0 b0 Y; now injection Y).
  assert (Dd : @distinguishable CA mid_cpar (final_map acc_h) (stems_of acc_h) (diff_keys acc_diffs)) by (rewrite Ek; exact mid_acc_d).
  destruct (W (fun _ => None)) as (h & db & qs & hint & comms & r & Eh & E & Er & _ & K).
  assert (h = acc_h) by (apply Inj; exact (eq_trans (eq_sym Eh) acc_ins)). subst h.
  destruct (K Dd (mid_usable _)) as (p & Cr & _).
  assert (Hwit : exists wit, wit = json_of_go (@go_of_proof RA RE p acc_diffs)) by (eexists; reflexivity). destruct Hwit as (wit & Hwit).
  exists (fun _ => Some wit), db, r, p. split; [exact E|]. split; [exact Er|]. split; [now rewrite <- Hwit|].
  destruct (W (fun _ => Some wit)) as (h2 & db2 & qs2 & hint2 & comms2 & r2 & Eh2 & E2 & Er2 & _ & K2).
  assert (h2 = acc_h) by (apply Inj; exact (eq_trans (eq_sym Eh2) acc_ins)). subst h2.
  assert (db2 = db) by (apply Inj; exact (eq_trans (eq_sym E2) E)). subst db2.
  assert (r2 = r) by (apply Inj; exact (eq_trans (eq_sym Er2) Er)). subst r2.
  destruct (K2 Dd (mid_usable _)) as (p2 & Cr2 & V).
  assert (Some p2 = Some p) as X by (apply Inj; exact (eq_trans (eq_sym Cr2) Cr)). assert (p2 = p) by congruence. subst p2.
  apply V; [apply (@same_iff Mid Mid_laws Mid_curve MidF MidI); reflexivity|]. exact (f_equal Some Hwit).
Qed.
