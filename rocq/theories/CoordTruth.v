(** Claims about a rewritten trie on disk ([RewriteTruth]) on coordinates. *)
From Coq Require Import Permutation.
From Verif Require Import Base BaseFacts Alg AlgFacts TreeSpec TreeFacts TrieModel TrieProofs TrieTheorems CodecModel VerkleDbModel VerkleDbExamples DbSpec MsmModel WireModel WireSpec ProofModel ProofSpec ProofRefute ProofExamples
  IpaModel LagrangeSpec IpaSpec CheckProofs SoundSpec TruthSpec EventSpec EventProofs RewriteSpec RewriteProofs RewriteFacts RewriteTruth RewriteProofSpec RewriteTold
  AgreeSpec AgreeProofs AgreeCases Bander CollisionCases RealSpec RealProofs RealRefine
  ElementModel ElementSpec CurveModel CurveSpec CurveAlg CurveRep CoordSpec Refine RefineDb RefineProof RefineIpa RepRefine RepProof CoordProofs MidInst CoordInst CoordChainCases CoordTold CoordToldCases.
Local Open Scope list_scope.
Local Notation len := (@List.length _).

Section Group.
Context {A : Alg} {L : AlgLaws A} {P : Par A} {PL : ParLaws P} {C : Codec A} {CL : CodecLaws C}.
(** [rewritten_truth] for openings that are known. *)
Lemma rewritten_opened l v root hint comms keys values qs uh vs : (forall a, 0 < a < 2 ^ 248 -> of_Z a <> fzero) -> domain_fits 256 -> wf_ops l -> settled_ops l ->
  (forall k v, In (OInsert k v) l -> is_value v) -> Z.of_nat (len l) < 2 ^ 100 -> run_disk l = Ok v -> root_commitment v = Ok root ->
  Forall is_key keys -> NoDup keys -> len values = len keys -> (forall x, In (Some x) values -> is_value x) -> Forall is_stem (vh_diff hint) ->
  create_verifier_queries hint comms keys values root = Ok (Some (qs, uh)) -> Forall2 opening qs vs -> coherent hint keys ->
  (forall k x, In (k, x) (combine keys values) ->
     ((len (counted l k) < 2)%nat /\ trie_get v k = Ok x) \/ hidden (stems_of (contents l)) hint keys k x) \/
  event (final_map (tallied l)) (stems_of (contents l)) qs vs.
Proof.
  intros Fit Dom Hwf Hst Hval Hlen Ev0 Er0 Hkeys Hdup Hlv Hvs Hdiff Ev Hop Hco.
  destruct (rewrite_exact l Hwf Hst) as (v' & E & Hg & Rc & _ & Hh & _).
  assert (v' = v) by congruence. subst v'. assert (root = spec_root (final_map (tallied l)) (stems_of (contents l))) by congruence. subst root.
  pose proof (tallied_wf l Hwf) as Hw2. destruct (run_mem_canon (tallied l) Hw2) as (db2 & Em2 & Cn2).
  destruct (canon_root _ _ _ Cn2) as [R2 _]. rewrite tallied_stems in R2.
  assert (Hap : scalars_apart (final_map (tallied l)) (stems_of (tallied l)) (map (firstn 31) keys ++ vh_diff hint) values).
  { rewrite tallied_stems. apply tallied_apart; auto. apply Forall_app. split; [|exact Hdiff]. apply Forall_forall. intros s Hs.
    apply in_map_iff in Hs. destruct Hs as (k & <- & Hk). rewrite Forall_forall in Hkeys. apply key_stem. exact (Hkeys k Hk). }
  pose proof (claims_or_event (tallied l) db2 _ hint comms keys values qs uh vs Dom Hw2 Em2 R2 Hkeys Hdup Hlv Ev Hop Hco Hap) as X.
  rewrite tallied_stems in X. destruct X as [X|X]; [left|right; exact X]. intros k x Hin.
  destruct (X k x Hin) as [Y|Y]; [left|right; exact Y].
  assert (Kx : final_map (tallied l) k = x).
  { unfold trie_get in Y. cbn [get_leaf memory_db_ops] in Y. unfold mem_get_leaf in Y. rewrite (can_leaf _ _ _ Cn2) in Y. now injection Y. }
  rewrite (tallied_map l Hh) in Kx.
  assert (Hcl : forall y, In y (counted l k) -> len y = 32%nat).
  { intros y Hy. apply (Hval k y). apply counted_written. left; exact Hy. }
  rewrite Hg, <- Hh. destruct x as [w|].
  - assert (Lw : len w = 32%nat) by (apply (Hvs w); apply in_combine_r in Hin; exact Hin).
    rewrite (sum_is_value _ _ Hcl Lw Kx). cbn [List.length hd_error]. split; [lia|reflexivity].
  - apply sum_entry_none in Kx. rewrite Kx. cbn [List.length hd_error]. split; [lia|reflexivity].
Qed.
(** The children of the root open the claim that a slot without stems is empty. *)
Lemma empty_slot_opened m St (z : Z) : 0 <= z < 256 -> under St [z] = [] ->
  opening (mkVQ (spec_root m St) (of_Z z) fzero) (map (fun i => inner_vec m St [] (Z.of_nat i)) (seq 0 256)).
Proof.
  intros Hz Hu.
  assert (En : forall y, 0 <= y < 256 -> entry (map (fun i => inner_vec m St [] (Z.of_nat i)) (seq 0 256)) y = inner_vec m St [] y).
  { intros y Hy. unfold entry. rewrite (nth_indep _ _ (inner_vec m St [] (Z.of_nat 0))) by (rewrite map_length, seq_length; lia).
    rewrite (map_nth (fun i => inner_vec m St [] (Z.of_nat i))), seq_nth by lia. f_equal. lia. }
  split; [now rewrite map_length, seq_length|]. split.
  - cbn [vq_comm]. apply vcommit_ext. intros i Hi. symmetry. now apply En.
  - exists z. split; [exact Hz|]. split; [reflexivity|]. cbn [vq_result]. rewrite En by exact Hz. unfold inner_vec. cbn [app subtree_hash]. now rewrite Hu.
Qed.
End Group.

Section Rep.
Context {B : BaseField} {BL : BaseFieldLaws B} {CL : CurveLaws B} {A : Alg} {AL : AlgLaws A} {I : FrInt A} {SL : ScalarLaws B A I}.
Local Notation RA := (@rep_alg B BL A I).
Local Notation RC := (@rep_codec B BL A I).
Local Notation RD := (@verkle_db_ops RA RC).
Local Notation CA := (@curve_alg B BL A I).
Local Notation CC := (@curve_codec B BL A I).
Context {RP : Par RA} {CP : Par CA}.
Hypothesis sf : @stands_for B BL A I RP CP.
Let h2 := sf_hash _ _ sf.
Let PL : ParLaws CP := coord_par_laws h2.
Let CCL := @curve_codec_laws B BL A I SL.

Lemma coord_opened l v (root root' : @G RA) hint comms keys values qs uh vs :
  (forall a, 0 < a < 2 ^ 248 -> @of_Z A a <> fzero) -> @domain_fits A 256 -> wf_ops l -> settled_ops l ->
  (forall k v, In (OInsert k v) l -> is_value v) -> Z.of_nat (len l) < 2 ^ 100 ->
  @run_disk RA RP RC l = Ok v -> @root_commitment RA _ RD v = Ok root -> same_coord root root' ->
  Forall is_key keys -> NoDup keys -> len values = len keys -> (forall x, In (Some x) values -> is_value x) -> Forall is_stem (vh_diff hint) ->
  @create_verifier_queries RA RP hint comms keys values root' = Ok (Some (qs, uh)) -> Forall2 (@opening CA CP) (map el_vq qs) vs -> coherent hint keys ->
  (forall k x, In (k, x) (combine keys values) ->
     ((len (counted l k) < 2)%nat /\ @trie_get RA _ RD v k = Ok x) \/ hidden (stems_of (contents l)) hint keys k x) \/
  @event CA CP (final_map (tallied l)) (stems_of (contents l)) (map el_vq qs) vs.
Proof.
  intros Big D W S V N E Er Sr Kk Nd Lv Vv Hd Q Hop Hco.
  destruct (@rewrite_exact CA curve_laws CP PL CC CCL l W S) as (v2 & E2 & _ & Rc2 & _).
  destruct (coord_root_disk sf l v v2 _ E E2 Rc2) as (G & c & Rc & Ec). assert (c = root) by congruence. subst c.
  apply (same_iff (A := A)) in Sr. 
  pose proof (coord_queries (sf_rhash _ _ sf) h2 hint comms keys values root') as X. rewrite Q in X. cbn [ok_map option_map fst snd] in X.
  assert (Er2 : @root_commitment CA _ (@verkle_db_ops CA CC) v2 = Ok (elem root')) by (rewrite Rc2; congruence).
  destruct (@rewritten_opened CA curve_laws CP PL CC CCL l v2 (elem root') hint (map elem comms) keys values _ _ vs Big D W S V N E2 Er2 Kk Nd Lv Vv Hd X Hop Hco) as [Y|Y]; [left|right; exact Y].
  intros k x Hin. destruct (Y k x Hin) as [[Y1 Y2]|Y1]; [left|right; exact Y1]. split; [exact Y1|]. rewrite G. exact Y2.
Qed.
End Rep.

(** With the default generators, the trie of [up_ops], where one key counts twice: the claim that another stem is absent. *)
Section Real.
#[local] Existing Instance bander_laws.
#[local] Existing Instance bander_curve.
#[local] Existing Instance bander_scalars.
#[local] Existing Instance BanderF_laws.
Local Notation RAd := (@rep_alg Bander bander_laws BanderF BanderI).
Local Notation RCd := (@rep_codec Bander bander_laws BanderF BanderI).
Local Notation RDd := (@verkle_db_ops RAd RCd).
Local Notation CCd := (@curve_codec Bander bander_laws BanderF BanderI).
Local Opaque default_par real_par edwards_multiple.
Definition lone_key : bytes := mid_key 99 0 0.
Definition lone_hint : VerificationHint := mkHint [1] [ExtNone] [].
Lemma lone_queries {A : Alg} {P : Par A} (root : @G A) : exists uh,
  create_verifier_queries lone_hint [] [lone_key] [None] root = Ok (Some ([mkVQ root (of_Z 99) fzero], uh)).
Proof. eexists. lazy -[of_Z fzero]. reflexivity. Qed.
Lemma lone_coherent : coherent lone_hint [lone_key].
Proof.
  assert (Cl : claims lone_hint [lone_key] = [(firstn 31 lone_key, 1, ExtNone)]) by (vm_compute; reflexivity).
  constructor.
  - intros s1 d1 x1 s2 d2 x2 H1 H2 Lt. rewrite Cl in H1, H2. destruct H1 as [H1|[]], H2 as [H2|[]]. injection H1 as <- <- <-. injection H2 as <- <- <-. lia.
  - intros (s1 & d1 & s2 & d2 & H1 & H2 & Ne & _). rewrite Cl in H1, H2. destruct H1 as [H1|[]], H2 as [H2|[]]. congruence.
  - intros x1 x2 (s1 & d1 & s2 & d2 & H1 & H2 & Ne & _). rewrite Cl in H1, H2. destruct H1 as [H1|[]], H2 as [H2|[]]. congruence.
  - intros t [].
Qed.
Lemma default_lone : exists v root qs uh vs, @run_disk RAd default_par RCd up_ops = Ok v /\ @root_commitment RAd _ RDd v = Ok root /\
  (2 <= len (counted up_ops e1))%nat /\ is_key lone_key /\ coherent lone_hint [lone_key] /\
  @create_verifier_queries RAd default_par lone_hint [] [lone_key] [None] root = Ok (Some (qs, uh)) /\
  Forall2 (@opening real_alg real_par) (map el_vq qs) vs.
Proof.
  destruct swap_coord_case as ((W & S & _) & _). destruct calm_case as (_ & _ & Hc & _).
  destruct (ran_Ok _ (@up_runs RAd default_par RCd)) as (v & E).
  destruct (@rewrite_exact real_alg curve_laws real_par (coord_par_laws (sf_hash _ _ default_stands)) CCd (@curve_codec_laws Bander bander_laws BanderF BanderI bander_scalars) up_ops W S) as (v2 & E2 & _ & Rc2 & _).
  destruct (coord_root_disk default_stands up_ops v v2 _ E E2 Rc2) as (_ & root & Rc & Ec).
  destruct (@lone_queries RAd default_par root) as (uh & Q).
  exists v, root, [@mkVQ RAd root (of_Z 99) fzero], uh,
    [map (fun i => @inner_vec real_alg real_par (final_map (tallied up_ops)) (stems_of (contents up_ops)) [] (Z.of_nat i)) (seq 0 256)].
  split; [exact E|]. split; [exact Rc|]. split; [exact Hc|]. split; [apply key_okb; vm_compute; reflexivity|]. split; [exact lone_coherent|]. split; [exact Q|].
  apply Forall2_cons; [|apply Forall2_nil].
  pose proof (@empty_slot_opened real_alg real_par (final_map (tallied up_ops)) (stems_of (contents up_ops)) 99 ltac:(lia) ltac:(vm_compute; reflexivity)) as X.
  rewrite <- Ec in X. exact X.
Qed.
End Real.
