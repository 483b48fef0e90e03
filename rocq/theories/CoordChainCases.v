(** Concrete cases for [PropCoordChain]: two blocks on the curve of [MidInst], a block for the default generators,
    and two tries on disk with one root for the default generators. *)
From Coq Require Import Permutation.
From Verif Require Import Base BaseFacts Alg AlgInst TreeSpec TrieModel TrieProofs TrieTheorems ExData CodecModel VerkleDbModel DbSpec MsmModel WireModel WireSpec ProofModel ProofSpec
  IpaModel LagrangeSpec IpaSpec CheckProofs StatelessModel StatelessSpec StatelessProofs StatelessTheorems ElementModel ElementSpec CurveModel CurveSpec CurveAlg CurveRep CoordSpec RepRefine RepProof
  Bander RealSpec RealProofs RealRefine CoordProofs MidInst CoordInst TruthSpec TruthTheorems ChainSpec CollisionSpec CollisionProofs CollisionCases CodecInst VerkleDbExamples RewriteSpec AgreeSpec AgreeCases CoordChainSpec CoordChain.
Local Open Scope list_scope.
Notation len := List.length.

(** A full node answers every request that can be answered (C21) with a block. *)
Section Make.
Context {B : BaseField} {BL : BaseFieldLaws B} {CL : CurveLaws B} {A : Alg} {AL : AlgLaws A} {I : FrInt A} {SL : ScalarLaws B A I}.
Local Notation RA := (@rep_alg B BL A I).
Local Notation RE := (@rep_ecodec B BL A I).
Local Notation CA := (@curve_alg B BL A I).
Local Notation CE := (@curve_ecodec B BL A I).
Context {RP : Par RA} {CP : Par CA} {HS : Hasher}.
Hypothesis sf : @stands_for B BL A I RP CP.
Hypothesis fits : @domain_fits A 256.
Hypothesis usable : forall qs, @usable_challenges CA CP CE HS qs.
Lemma make_block h keys updated : wf_history h -> keys <> [] -> Forall is_key keys -> @distinguishable CA CP (final_map h) (stems_of h) keys ->
  exists b : @block RA, bl_keys b = keys /\ bl_updated b = updated /\ @sent_block B BL A I RP HS h b.
Proof.
  intros W Nk Kk D. destruct (sf_trie sf h W) as (db & c & E & _).
  destruct (sf_honest sf fits h db keys (fun l => l) W E Nk Kk D (fun l => Permutation_refl l)) as (qs & hint & comms & root & _ & Er & Hu).
  destruct (Hu (usable _)) as (p & uh & Cr & _ & _ & Ck).
  exists (@mkBlock RA p keys (map (final_map h) keys) updated). split; [reflexivity|]. split; [reflexivity|].
  split; [reflexivity|]. exists db, root, (fun l => l), p, uh. split; [exact E|]. split; [exact Er|].
  split; [intro l; apply Permutation_refl|]. split; [exact Cr|]. split; [|exact Ck].
  apply same_proof_iff. reflexivity.
Qed.
End Make.

(** ** Two blocks on the curve of [MidInst] *)
Section Mid.
#[local] Existing Instance Mid_laws.
#[local] Existing Instance Mid_curve.
#[local] Existing Instance Mid_scalars.
#[local] Existing Instance MidF_laws.
#[local] Existing Instance toy.
Local Notation RA := (@rep_alg Mid Mid_laws MidF MidI).
Local Notation CA := (@curve_alg Mid Mid_laws MidF MidI).
Local Notation RE := (@rep_ecodec Mid Mid_laws MidF MidI).
Local Opaque mid_par mid_cpar.
Definition mid_h1 : history := mid_h ++ writes mid_keys mid_updated.
Lemma mid_wf1 : wf_history mid_h1.
Proof. apply keys_okb_ok. vm_compute. reflexivity. Qed.
Lemma slot_distinguishable1 : @distinguishable CA mid_cpar (final_map mid_h1) (stems_of mid_h1) [slot_key].
Proof.
  assert (O : opened (stems_of mid_h1) [slot_key] = [[]]) by (vm_compute; reflexivity).
  unfold distinguishable. rewrite O. split; [now split|]. intros p [<-|[]] N. now elim N.
Qed.
Lemma mid_chain : exists (db : @MemoryDb RA) root b1 b2,
  wf_history mid_h /\ @run_mem RA mid_par mid_h = Ok db /\ @root_commitment RA _ _ db = Ok root /\
  bl_keys b1 = mid_keys /\ bl_updated b1 = mid_updated /\ bl_keys b2 = [slot_key] /\ bl_updated b2 = [None] /\
  Forall block_fits [b1; b2] /\ along mid_h [b1; b2] (@sent_block Mid Mid_laws MidF MidI mid_par toy) /\ along mid_h [b1; b2] within_reach /\
  (exists k v, In (k, v) (block_writes b1) /\ final_map mid_h k <> Some v).
Proof.
  destruct (sf_trie mid_stands mid_h mid_wf) as (db & c & E & _ & Ec & _).
  destruct (make_block (HS := toy) mid_stands mid_fits mid_usable mid_h mid_keys mid_updated mid_wf ltac:(discriminate) mid_keys_ok mid_distinguishable) as (b1 & K1 & U1 & S1).
  destruct (make_block (HS := toy) mid_stands mid_fits mid_usable mid_h1 [slot_key] [None] mid_wf1 ltac:(discriminate) slot_key_ok slot_distinguishable1) as (b2 & K2 & U2 & S2).
  assert (Af : after mid_h [b1] = mid_h1).
  { unfold after, block_writes. cbn [flat_map]. rewrite app_nil_r, K1, U1. reflexivity. }
  exists db, c, b1, b2. split; [exact mid_wf|]. split; [exact E|]. split; [exact Ec|].
  split; [exact K1|]. split; [exact U1|]. split; [exact K2|]. split; [exact U2|].
  assert (Two : forall Q : history -> @block RA -> Prop, Q mid_h b1 -> Q mid_h1 b2 -> along mid_h [b1; b2] Q).
  { intros Q Q1 Q2 before b rest Eb. destruct before as [|x [|y before]]; cbn [app] in Eb.
    - assert (b = b1) by congruence. subst b. unfold after. cbn [flat_map]. rewrite app_nil_r. exact Q1.
    - assert (b = b2 /\ x = b1) as [-> ->] by (split; congruence). rewrite Af. exact Q2.
    - exfalso. apply (f_equal (@List.length _)) in Eb. cbn [List.length] in Eb. rewrite app_length in Eb. cbn [List.length] in Eb. lia. }
  split.
  { constructor; [|constructor; [|constructor]]; unfold block_fits.
    - rewrite K1, U1. split; [exact mid_keys_ok|]. split; reflexivity.
    - rewrite K2, U2. split; [exact slot_key_ok|]. split; reflexivity. }
  split; [apply Two; [exact S1|exact S2]|]. split.
  - apply Two.
    + unfold within_reach, block_writes. rewrite K1, U1. split; [exact mid_nodup|exact mid_occupied].
    + unfold within_reach, block_writes. rewrite K2, U2. split; [repeat constructor; intros []|]. intros k v [].
  - unfold block_writes. rewrite K1, U1. exists (hd [] mid_keys), (repeat 77 32). split; [left; vm_compute; reflexivity|vm_compute; discriminate].
Qed.
End Mid.

(** ** The default generators *)
Section Real.
#[local] Existing Instance bander_laws.
#[local] Existing Instance bander_curve.
#[local] Existing Instance bander_scalars.
#[local] Existing Instance BanderF_laws.
Local Notation RA := (@rep_alg Bander bander_laws BanderF BanderI).
Local Notation RC := (@rep_codec Bander bander_laws BanderF BanderI).
Local Notation RD := (@verkle_db_ops RA RC).
Local Opaque default_par real_par edwards_multiple.
Lemma default_block : exists (db : @MemoryDb RA) root b,
  wf_history mid_h /\ @run_mem RA default_par mid_h = Ok db /\ @root_commitment RA _ _ db = Ok root /\
  bl_keys b = [slot_key] /\ bl_updated b = [None] /\ block_fits b /\
  along mid_h [b] (@sent_block Bander bander_laws BanderF BanderI default_par toy) /\ along mid_h [b] within_reach.
Proof.
  destruct (sf_trie default_stands mid_h mid_wf) as (db & c & E & _ & Ec & _).
  destruct (make_block (HS := toy) default_stands real_fits real_usable mid_h [slot_key] [None] mid_wf ltac:(discriminate) slot_key_ok slot_distinguishable) as (b & K & U & S1).
  assert (One : forall Q : history -> @block RA -> Prop, Q mid_h b -> along mid_h [b] Q).
  { intros Q Q1 before x rest Eb. destruct before as [|y before]; cbn [app] in Eb.
    - assert (x = b) by congruence. subst x. unfold after. cbn [flat_map]. rewrite app_nil_r. exact Q1.
    - exfalso. apply (f_equal (@List.length _)) in Eb. cbn [List.length] in Eb. rewrite app_length in Eb. cbn [List.length] in Eb. lia. }
  exists db, c, b. split; [exact mid_wf|]. split; [exact E|]. split; [exact Ec|]. split; [exact K|]. split; [exact U|].
  split; [unfold block_fits; rewrite K, U; split; [exact slot_key_ok|split; reflexivity]|].
  split; apply One; [exact S1|]. unfold within_reach, block_writes. rewrite K, U. split; [repeat constructor; intros []|]. intros k v [].
Qed.

Lemma mid_values kv : In kv mid_h -> is_value (snd kv).
Proof.
  assert (X : forallb (fun kv => Nat.eqb (len (snd kv)) 32 && forallb (fun z => (0 <=? z) && (z <? 256)) (snd kv)) mid_h = true) by (vm_compute; reflexivity).
  rewrite forallb_forall in X. intro Hk. specialize (X kv Hk). apply andb_prop in X as [X1 X2]. split; [now apply Nat.eqb_eq|].
  apply Forall_forall. rewrite forallb_forall in X2. intros z Hz. specialize (X2 z Hz). apply andb_prop in X2 as [Y1 Y2]. unfold is_byte. lia.
Qed.
(** A client that follows the block and one that follows none. *)
Lemma default_clients : exists (db : @MemoryDb RA) root b,
  wf_history mid_h /\ @run_mem RA default_par mid_h = Ok db /\ @root_commitment RA _ _ db = Ok root /\ Forall block_fits [b] /\
  along mid_h [b] (@sent_block Bander bander_laws BanderF BanderI default_par toy) /\ along mid_h [] (@sent_block Bander bander_laws BanderF BanderI default_par toy) /\
  @scalars_apart (@curve_alg Bander bander_laws BanderF BanderI) (final_map (after mid_h [b])) (stems_of (after mid_h [b])) (stems_of (@after RA mid_h [])) (map (fun kv => Some (snd kv)) (@after RA mid_h [])) /\
  forall ho, (forall l, Permutation (ho l) l) -> exists r, @follow RA default_par (@rep_ecodec Bander bander_laws BanderF BanderI) toy ho root [b] = Ok (VOk r) /\
    @follow RA default_par (@rep_ecodec Bander bander_laws BanderF BanderI) toy ho root [] = Ok (VOk root) /\ @hash RA default_par r = @hash RA default_par root.
Proof.
  destruct default_block as (db & root & b & W & E & Er & K & U & Fb & S1 & Wr).
  exists db, root, b. split; [exact W|]. split; [exact E|]. split; [exact Er|]. split; [constructor; [exact Fb|constructor]|]. split; [exact S1|].
  split; [intros before x rest X; destruct before; discriminate X|].
  assert (Af : after mid_h [b] = mid_h). { unfold after, block_writes. cbn [flat_map]. rewrite K, U. apply app_nil_r. }
  rewrite Af. change (@after RA mid_h []) with (mid_h ++ []). rewrite app_nil_r. split.
  - apply (@history_apart _ (@curve_laws Bander bander_laws bander_curve BanderF BanderF_laws BanderI bander_scalars) real_par (proj1 (proj2 real_laws)) mid_h mid_h bander_large mid_wf mid_wf);
      apply Forall_forall; intros kv Hk; exact (mid_values kv Hk).
  - intros ho Ho. assert (Rs : @same_coord Bander root root) by (apply (@same_iff Bander bander_laws bander_curve BanderF BanderI); reflexivity).
    destruct (coord_chain_honest (HS := toy) default_stands ho Ho [b] mid_h db root root W E Er Rs (Forall_cons _ Fb (Forall_nil _)) S1)
      as [(_ & db' & c & r & E' & Ec & Ef & Sr)|[N _]]; [|elim N; exact Wr].
    exists r. split; [exact Ef|]. split; [reflexivity|]. rewrite Af in E'.
    assert (Inj : forall X (a b : X), Ok a = Ok b -> a = b) by (intros X a0 b0 Y; now injection Y).
    assert (db' = db) by (apply Inj; exact (eq_trans (eq_sym E') E)). subst db'.
    assert (c = root) by (apply Inj; exact (eq_trans (eq_sym Ec) Er)). subst c.
    apply (@same_iff Bander bander_laws bander_curve BanderF BanderI) in Sr. rewrite !(sf_rhash _ _ default_stands).
    rewrite (@elem_hash Bander bander_laws bander_curve BanderF BanderI r), (@elem_hash Bander bander_laws bander_curve BanderF BanderI root), Sr. reflexivity.
Qed.

(** The two histories of [AgreeCases] read no node record, so no record is refused. *)
Definition ran {X} (r : res X) : bool := match r with Ok _ => true | Panic => false end.
Lemma ran_Ok {X} (r : res X) : ran r = true -> exists x, r = Ok x.
Proof. destruct r as [x|]; [exists x; reflexivity|discriminate]. Qed.
Lemma up_runs {A : Alg} {P : Par A} {C : Codec A} : ran (run_disk up_ops) = true.
Proof. lazy. reflexivity. Qed.
Lemma down_runs {A : Alg} {P : Par A} {C : Codec A} : ran (run_disk down_ops) = true.
Proof. lazy. reflexivity. Qed.
Lemma default_coord_swapped : exists v1 v2, @run_disk RA default_par RC up_ops = Ok v1 /\ @run_disk RA default_par RC down_ops = Ok v2 /\
  @root_hash RA _ RD v1 = @root_hash RA _ RD v2 /\
  @trie_get RA _ RD v1 e1 = Ok (Some (val 3)) /\ @trie_get RA _ RD v2 e1 = Ok (Some (val 1)).
Proof.
  destruct (ran_Ok _ (@up_runs RA default_par RC)) as [v1 E1]. destruct (ran_Ok _ (@down_runs RA default_par RC)) as [v2 E2].
  destruct default_swapped as (w1 & w2 & F1 & F2 & Rh & G1 & G2).
  destruct (disk_pair default_stands up_ops v1 E1) as (u1 & U1 & X1 & Y1). destruct (disk_pair default_stands down_ops v2 E2) as (u2 & U2 & X2 & Y2).
  assert (Inj : forall (a b : @VerkleDb real_alg), Ok a = Ok b -> a = b) by (intros a b X; now injection X).
  assert (u1 = w1) by (apply Inj; exact (eq_trans (eq_sym U1) F1)). assert (u2 = w2) by (apply Inj; exact (eq_trans (eq_sym U2) F2)). subst u1 u2.
  exists v1, v2. split; [exact E1|]. split; [exact E2|]. split; [exact (eq_trans Y1 (eq_trans Rh (eq_sym Y2)))|]. split; [exact (eq_trans (X1 e1) G1)|exact (eq_trans (X2 e1) G2)].
Qed.
Lemma default_coord_totals l1 l2 v1 v2 : wf_ops l1 -> settled_ops l1 -> wf_ops l2 -> settled_ops l2 ->
  (forall k v, In (OInsert k v) (l1 ++ l2) -> is_value v) -> Z.of_nat (len (l1 ++ l2)) < 2 ^ 100 ->
  @run_disk RA default_par RC l1 = Ok v1 -> @run_disk RA default_par RC l2 = Ok v2 -> @root_hash RA _ RD v1 = @root_hash RA _ RD v2 ->
  (forall k, totals l1 k = totals l2 k) \/ @collision real_alg real_par (summed l1) (summed l2).
Proof. exact (coord_root_totals default_stands bander_large l1 l2 v1 v2). Qed.
Lemma default_coord_memory l h v (db : @MemoryDb RA) :
  wf_ops l -> settled_ops l -> (forall k v, In (OInsert k v) l -> is_value v) -> Z.of_nat (len l) < 2 ^ 100 ->
  wf_history h -> Forall (fun kv => is_value (snd kv)) h ->
  @run_disk RA default_par RC l = Ok v -> @run_mem RA default_par h = Ok db -> @root_hash RA _ RD v = @root_hash RA _ _ db ->
  (forall k, @trie_get RA _ RD v k = @trie_get RA _ _ db k) /\ ~ rewrites l \/ @collision real_alg real_par h (tallied l).
Proof. exact (coord_memory_binds default_stands bander_large l h v db). Qed.
End Real.
Lemma swap_coord_case : (wf_ops up_ops /\ settled_ops up_ops /\ wf_ops down_ops /\ settled_ops down_ops /\
  (forall k v, In (OInsert k v) (up_ops ++ down_ops) -> is_value v)) /\ Z.of_nat (len (up_ops ++ down_ops)) < 2 ^ 100 /\ rewrites up_ops /\
  (forall k, totals up_ops k = totals down_ops k).
Proof.
  destruct (@swapped_roots real_alg (proj1 real_laws) real_par (proj1 (proj2 real_laws)) real_codec
    (proj1 (proj2 (proj2 real_laws)))) as (W1 & S1 & W2 & S2 & V & _).
  split; [repeat (split; [assumption|]); assumption|]. split; [reflexivity|]. split; [|exact swap_totals].
  exists e1. vm_compute. lia.
Qed.
