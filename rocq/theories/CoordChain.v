(** Chains of blocks and rewritten stores on coordinates, from the theorems over the group. *)
From Coq Require Import Permutation.
From Verif Require Import Base BaseFacts Alg AlgFacts TreeSpec TrieModel TrieProofs TrieTheorems CodecModel VerkleDbModel DbSpec MsmModel WireModel WireSpec ProofModel ProofSpec
  IpaModel LagrangeSpec IpaSpec CheckProofs SoundSpec StatelessModel StatelessSpec ElementModel ElementSpec CurveModel CurveSpec CurveAlg CurveRep CoordSpec
  Refine RefineProof RefineIpa RefineStateless RepRefine RepProof CoordProofs TruthSpec ChainSpec ChainProofs EventSpec EventProofs CollisionSpec CollisionProofs
  RewriteSpec RewriteProofs RewriteFacts AgreeSpec AgreeProofs AgreeChain CoordChainSpec.
Local Open Scope list_scope.
Notation len := List.length.

Section CoordChain.
Context {B : BaseField} {BL : BaseFieldLaws B} {CL : CurveLaws B} {A : Alg} {AL : AlgLaws A} {I : FrInt A} {SL : ScalarLaws B A I}.
Local Notation RA := (@rep_alg B BL A I).
Local Notation RC := (@rep_codec B BL A I).
Local Notation RE := (@rep_ecodec B BL A I).
Local Notation RD := (@verkle_db_ops RA RC).
Local Notation CA := (@curve_alg B BL A I).
Local Notation CC := (@curve_codec B BL A I).
Local Notation CE := (@curve_ecodec B BL A I).
Local Notation CD := (@verkle_db_ops CA CC).
Context {RP : Par RA} {CP : Par CA} {HS : Hasher}.
Hypothesis sf : @stands_for B BL A I RP CP.
Let h1 := sf_rhash _ _ sf.
Let h2 := sf_hash _ _ sf.
Let h3 := sf_crs _ _ sf.
Let h4 := sf_crsQ _ _ sf.
Let PL : ParLaws CP := coord_par_laws h2.
Let ECL := @curve_ecodec_laws B BL CL A AL I SL.
Let CCL := @curve_codec_laws B BL A I SL.

Lemma elem_proof_is (p : @VerkleProof RA) : elem_proof p = el_vp p.
Proof. reflexivity. Qed.

(** ** Blocks *)
Lemma elem_after (h : history) (bs : list (@block RA)) : @after CA h (map elem_block bs) = @after RA h bs.
Proof. unfold after. f_equal. induction bs as [|b bs IH]; [reflexivity|]. cbn [map flat_map]. rewrite IH. reflexivity. Qed.
Lemma elem_along (h : history) (bs : list (@block RA)) (Q : history -> @block CA -> Prop) :
  @along CA h (map elem_block bs) Q <-> @along RA h bs (fun h b => Q h (elem_block b)).
Proof.
  split.
  - intros X before b rest E. subst bs. specialize (X (map elem_block before) (elem_block b) (map elem_block rest)).
    rewrite map_app in X. specialize (X eq_refl). now rewrite elem_after in X.
  - intros X before b rest E. apply map_eq_app in E as (l1 & l2 & -> & <- & E). apply map_eq_cons in E as (b0 & l3 & -> & <- & <-).
    rewrite elem_after. exact (X l1 b0 l3 eq_refl).
Qed.
Lemma elem_fits (bs : list (@block RA)) : Forall (@block_fits RA) bs -> Forall (@block_fits CA) (map elem_block bs).
Proof. intro X. apply Forall_map. exact X. Qed.

Lemma coord_follow ho bs : forall (root : @G RA),
  @follow CA CP CE HS ho (elem root) (map elem_block bs) = ok_map el_vres (@follow RA RP RE HS ho root bs).
Proof.
  induction bs as [|b bs IH]; intro root; cbn [map follow]; [reflexivity|].
  cbn [elem_block bl_proof bl_keys bl_values bl_updated]. rewrite elem_proof_is, (coord_update h1 h2 h3 h4).
  destruct (@verify_and_update RA RP ho HS RE (bl_proof b) root (bl_keys b) (bl_values b) (bl_updated b)) as [[r|e]|]; cbn [ok_map rbind el_vres vres_map];
    [apply IH|reflexivity|reflexivity].
Qed.
Lemma follow_same ho bs (root root' r : @G RA) : same_coord root root' -> @follow RA RP RE HS ho root bs = Ok (VOk r) ->
  exists r', @follow RA RP RE HS ho root' bs = Ok (VOk r') /\ same_coord r r'.
Proof.
  intros S E. apply (same_iff (A := A)) in S. pose proof (coord_follow ho bs root) as X. pose proof (coord_follow ho bs root') as Y. rewrite S, Y, E in X.
  destruct (@follow RA RP RE HS ho root' bs) as [[r'|e]|]; cbn [ok_map el_vres vres_map] in X; try discriminate X.
  exists r'. split; [reflexivity|]. apply (same_iff (A := A)). congruence.
Qed.

Lemma run_pair h (db : @MemoryDb RA) root : @run_mem RA RP h = Ok db -> @root_commitment RA _ _ db = Ok root ->
  exists d, @run_mem CA CP h = Ok d /\ coord_rel db d /\ @root_commitment CA _ _ d = Ok (elem root).
Proof.
  intros E Er. destruct (mem_pair h1 h2 h3 h db E) as (d & E2 & R). exists d. split; [exact E2|]. split; [exact R|].
  destruct (coord_root db d R) as (_ & X & _). rewrite Er in X. destruct (@root_commitment CA _ _ d) as [e|]; [|contradiction]. cbn [rr] in X. now rewrite X.
Qed.
Lemma run_back h d r : @run_mem CA CP h = Ok d -> @root_commitment CA _ _ d = Ok r ->
  exists (db : @MemoryDb RA) c, @run_mem RA RP h = Ok db /\ @root_commitment RA _ _ db = Ok c /\ elem c = r.
Proof.
  intros E Er. pose proof (coord_mem h1 h2 h3 h) as X. rewrite E in X. destruct (@run_mem RA RP h) as [db|]; [|contradiction].
  destruct (coord_root db d X) as (_ & Y & _). rewrite Er in Y. destruct (@root_commitment RA _ _ db) as [c|] eqn:Ec; [|contradiction].
  exists db, c. auto.
Qed.

Lemma sent_honest h (b : @block RA) : sent_block h b -> @honest_block CA CP CE HS h (elem_block b).
Proof.
  intros (Hv & db & root & order & p & uh & E & Er & Ho & Cr & Sp & Ck). split; [exact Hv|].
  destruct (run_pair h db root E Er) as (d & E2 & R & Er2).
  destruct (create_pair h3 h4 order db d (bl_keys b) p Ho R Cr) as (o2 & _ & Cr2).
  apply (same_proof_iff (A := A)) in Sp. rewrite Sp in Cr2.
  exists d, (elem root), o2, (el_uh uh). split; [exact E2|]. split; [exact Er2|]. split; [exact Cr2|].
  cbn [elem_block bl_proof bl_keys bl_values]. rewrite elem_proof_is, (coord_check h1 h2 h3 h4), Ck. reflexivity.
Qed.

(** ** C65 on coordinates *)
Lemma coord_chain_honest ho (Ho : forall l, Permutation (ho l) l) bs h (db : @MemoryDb RA) root root' :
  wf_history h -> @run_mem RA RP h = Ok db -> @root_commitment RA _ _ db = Ok root -> same_coord root root' ->
  Forall block_fits bs -> along h bs sent_block ->
  (along h bs within_reach /\ exists db' c r, @run_mem RA RP (after h bs) = Ok db' /\ @root_commitment RA _ _ db' = Ok c /\
     @follow RA RP RE HS ho root' bs = Ok (VOk r) /\ same_coord c r) \/
  (~ along h bs within_reach /\ (@follow RA RP RE HS ho root' bs = Panic \/ @follow RA RP RE HS ho root' bs = Ok (VErr DuplicateKeys))).
Proof.
  intros W E Er S F Ha. destruct (run_pair h db root E Er) as (d & E2 & _ & Er2). apply (same_iff (A := A)) in S.
  assert (Ha2 : @along CA h (map elem_block bs) (@honest_block CA CP CE HS)).
  { apply elem_along. intros before b rest X. apply sent_honest. exact (Ha before b rest X). }
  pose proof (coord_follow ho bs root') as Y. rewrite <- S in Y.
  assert (Hr : @along CA h (map elem_block bs) within_reach <-> @along RA h bs within_reach) by exact (elem_along h bs within_reach).
  destruct (@chain_honest CA curve_laws CP PL CE HS ho Ho (map elem_block bs) h d (elem root) W E2 Er2 (elem_fits bs F) Ha2)
    as [[X (d' & r' & Z1 & Z2 & Z3)]|[X Z]].
  - left. split; [apply Hr; exact X|]. rewrite elem_after in Z1. destruct (run_back _ d' r' Z1 Z2) as (db' & c & U1 & U2 & U3).
    rewrite Y in Z3. destruct (@follow RA RP RE HS ho root' bs) as [[r|e]|]; cbn [ok_map el_vres vres_map] in Z3; try discriminate Z3.
    exists db', c, r. split; [exact U1|]. split; [exact U2|]. split; [reflexivity|]. apply (same_iff (A := A)). congruence.
  - right. split; [intro X'; apply X; apply Hr; exact X'|]. rewrite Y in Z.
    destruct (@follow RA RP RE HS ho root' bs) as [[r|e]|]; cbn [ok_map el_vres vres_map] in Z; [destruct Z as [Z|Z]; discriminate Z| |left; reflexivity].
    right. destruct Z as [Z|Z]; [discriminate Z|]. injection Z as ->. reflexivity.
Qed.

Lemma coord_chain_event (Fit : @domain_fits A 256) ho (Ho : forall l, Permutation (ho l) l) open bs h (db : @MemoryDb RA) root root' r :
  wf_history h -> @run_mem RA RP h = Ok db -> @root_commitment RA _ _ db = Ok root -> same_coord root root' ->
  Forall block_fits bs -> along h bs (fun h b => @opened_block CA CP CE HS open h (elem_block b)) ->
  @follow RA RP RE HS ho root' bs = Ok (VOk r) ->
  ((exists db' c, @run_mem RA RP (after h bs) = Ok db' /\ @root_commitment RA _ _ db' = Ok c /\ same_coord c r) /\
   along h bs (fun h' b => forall k v, In (k, v) (combine (bl_keys b) (bl_values b)) ->
     final_map h' k = v \/ hidden (stems_of h') (vp_hint (bl_proof b)) (bl_keys b) k v)) \/
  exists before b rest, bs = before ++ b :: rest /\ @block_event CA CP CE HS open (after h before) (elem_block b).
Proof.
  intros W E Er S F Ha Ef. destruct (run_pair h db root E Er) as (d & E2 & _ & Er2). apply (same_iff (A := A)) in S.
  pose proof (coord_follow ho bs root') as Y. rewrite <- S, Ef in Y. cbn [ok_map el_vres vres_map] in Y.
  pose proof (proj2 (elem_along h bs _) Ha) as Ha2.
  destruct (@chain_or_event CA curve_laws CP PL CE HS ho Ho Fit open (map elem_block bs) h d (elem root) (elem r) W E2 Er2 (elem_fits bs F) Ha2 Y)
    as [[(d' & Z1 & Z2) T]|(before & b & rest & X & Ev)].
  - left. split.
    + rewrite elem_after in Z1. destruct (run_back _ d' _ Z1 Z2) as (db' & c & U1 & U2 & U3).
      exists db', c. split; [exact U1|]. split; [exact U2|]. apply (same_iff (A := A)). exact U3.
    + exact (proj1 (elem_along h bs _) T).
  - right. apply map_eq_app in X as (l1 & l2 & -> & <- & X). apply map_eq_cons in X as (b0 & l3 & -> & <- & <-).
    rewrite elem_after in Ev. exists l1, b0, l3. split; [reflexivity|exact Ev].
Qed.

(** ** C71 on coordinates *)
Lemma coord_maps_agree g1 g2 (db1 db2 : @MemoryDb RA) c1 c2 r1 r2 : wf_history g1 -> wf_history g2 ->
  @scalars_apart CA (final_map g1) (stems_of g1) (stems_of g2) (map (fun kv => Some (snd kv)) g2) ->
  @run_mem RA RP g1 = Ok db1 -> @root_commitment RA _ _ db1 = Ok c1 -> same_coord c1 r1 ->
  @run_mem RA RP g2 = Ok db2 -> @root_commitment RA _ _ db2 = Ok c2 -> same_coord c2 r2 -> @hash RA RP r1 = @hash RA RP r2 ->
  (forall k, final_map g1 k = final_map g2 k) \/ @collision CA CP g1 g2.
Proof.
  intros W1 W2 Sc E1 R1 S1 E2 R2 S2 Eh.
  destruct (run_pair g1 db1 c1 E1 R1) as (d1 & X1 & _ & Y1). destruct (run_pair g2 db2 c2 E2 R2) as (d2 & X2 & _ & Y2).
  apply (same_iff (A := A)) in S1. apply (same_iff (A := A)) in S2. rewrite !(chash h1 h2), <- S1, <- S2 in Eh.
  exact (@maps_agree CA curve_laws CP PL g1 g2 d1 d2 (elem c1) (elem c2) W1 W2 Sc X1 Y1 X2 Y2 Eh).
Qed.
Lemma coord_after_wf h (bs : list (@block RA)) : wf_history h -> Forall block_fits bs -> wf_history (after h bs).
Proof. intros W F. rewrite <- elem_after. apply after_wf; [exact W|]. exact (elem_fits bs F). Qed.

Lemma coord_honest_clients ho1 ho2 (Ho1 : forall l, Permutation (ho1 l) l) (Ho2 : forall l, Permutation (ho2 l) l)
  bs1 bs2 g1 g2 (db1 db2 : @MemoryDb RA) c1 c2 root1 root2 r1 r2 :
  wf_history g1 -> wf_history g2 -> @run_mem RA RP g1 = Ok db1 -> @root_commitment RA _ _ db1 = Ok c1 -> same_coord c1 root1 ->
  @run_mem RA RP g2 = Ok db2 -> @root_commitment RA _ _ db2 = Ok c2 -> same_coord c2 root2 ->
  Forall block_fits bs1 -> Forall block_fits bs2 -> along g1 bs1 sent_block -> along g2 bs2 sent_block ->
  @follow RA RP RE HS ho1 root1 bs1 = Ok (VOk r1) -> @follow RA RP RE HS ho2 root2 bs2 = Ok (VOk r2) ->
  @scalars_apart CA (final_map (after g1 bs1)) (stems_of (after g1 bs1)) (stems_of (after g2 bs2)) (map (fun kv => Some (snd kv)) (after g2 bs2)) ->
  @hash RA RP r1 = @hash RA RP r2 ->
  (forall k, final_map (after g1 bs1) k = final_map (after g2 bs2) k) \/ @collision CA CP (after g1 bs1) (after g2 bs2).
Proof.
  intros W1 W2 R1 C1 S1 R2 C2 S2 F1 F2 A1 A2 E1 E2 Sc E.
  destruct (coord_chain_honest ho1 Ho1 bs1 g1 db1 c1 root1 W1 R1 C1 S1 F1 A1) as [[_ (d1 & k1 & q1 & X1 & Y1 & Z1 & T1)]|[_ [Z1|Z1]]]; rewrite Z1 in E1; try discriminate E1.
  destruct (coord_chain_honest ho2 Ho2 bs2 g2 db2 c2 root2 W2 R2 C2 S2 F2 A2) as [[_ (d2 & k2 & q2 & X2 & Y2 & Z2 & T2)]|[_ [Z2|Z2]]]; rewrite Z2 in E2; try discriminate E2.
  injection E1 as ->. injection E2 as ->.
  exact (coord_maps_agree _ _ d1 d2 k1 k2 r1 r2 (coord_after_wf g1 bs1 W1 F1) (coord_after_wf g2 bs2 W2 F2) Sc X1 Y1 T1 X2 Y2 T2 E).
Qed.

(** ** C67 and C70 on coordinates *)
Lemma coord_rewritten l : wf_ops l -> settled_ops l ->
  (exists v c, @run_disk RA RP RC l = Ok v /\ (forall k, @trie_get RA _ RD v k = Ok (final_map (contents l) k)) /\
     @root_commitment RA _ RD v = Ok c /\ elem c = @spec_root CA CP (final_map (tallied l)) (stems_of (contents l)) /\
     @root_hash RA _ RD v = Ok (@hash RA RP c)) \/
  (@run_disk RA RP RC l = Panic /\ exists l1 l2 v, l = l1 ++ l2 /\ @run_disk RA RP RC l1 = Ok v /\ @record_refused RA RC (vd_storage v)).
Proof.
  intros W S. destruct (@rewrite_exact CA curve_laws CP PL CC CCL l W S) as (v2 & E2 & G2 & C2 & H2 & _).
  pose proof (sf_disk sf l) as X. rewrite E2 in X. destruct (@run_disk RA RP RC l) as [v|] eqn:E.
  - left. destruct X as [G (c & x & Rc & Rc2 & Rh & Rh2)]. exists v, c. split; [reflexivity|]. split; [intro k; rewrite G; apply G2|].
    split; [exact Rc|]. assert (Ec : elem c = @spec_root CA CP (final_map (tallied l)) (stems_of (contents l))) by congruence.
    split; [exact Ec|]. rewrite Rh, <- Rh2, H2, (chash h1 h2), Ec. reflexivity.
  - right. split; [reflexivity|exact X].
Qed.
Lemma disk_pair l (v : @VerkleDb RA) : @run_disk RA RP RC l = Ok v -> exists v2, @run_disk CA CP CC l = Ok v2 /\
  (forall k, @trie_get RA _ RD v k = @trie_get CA _ CD v2 k) /\ @root_hash RA _ RD v = @root_hash CA _ CD v2.
Proof.
  intro E. pose proof (sf_disk sf l) as X. rewrite E in X. destruct (@run_disk CA CP CC l) as [v2|]; [|contradiction].
  destruct X as [G (c & x & _ & _ & Rh & Rh2)]. exists v2. split; [reflexivity|]. split; [exact G|]. now rewrite Rh, Rh2.
Qed.
Hypothesis Big : forall a, 0 < a < 2 ^ 248 -> @of_Z A a <> fzero.
Lemma coord_root_totals l1 l2 v1 v2 : wf_ops l1 -> settled_ops l1 -> wf_ops l2 -> settled_ops l2 ->
  (forall k v, In (OInsert k v) (l1 ++ l2) -> is_value v) -> Z.of_nat (len (l1 ++ l2)) < 2 ^ 100 ->
  @run_disk RA RP RC l1 = Ok v1 -> @run_disk RA RP RC l2 = Ok v2 -> @root_hash RA _ RD v1 = @root_hash RA _ RD v2 ->
  (forall k, totals l1 k = totals l2 k) \/ @collision CA CP (summed l1) (summed l2).
Proof.
  intros W1 S1 W2 S2 V N E1 E2 R. destruct (disk_pair l1 v1 E1) as (u1 & X1 & _ & Y1). destruct (disk_pair l2 v2 E2) as (u2 & X2 & _ & Y2).
  rewrite Y1, Y2 in R. exact (@root_totals CA curve_laws CP PL CC CCL Big l1 l2 u1 u2 W1 S1 W2 S2 V N X1 X2 R).
Qed.
Lemma coord_memory_binds l h v (db : @MemoryDb RA) : wf_ops l -> settled_ops l -> (forall k v, In (OInsert k v) l -> is_value v) -> Z.of_nat (len l) < 2 ^ 100 ->
  wf_history h -> Forall (fun kv => is_value (snd kv)) h ->
  @run_disk RA RP RC l = Ok v -> @run_mem RA RP h = Ok db -> @root_hash RA _ RD v = @root_hash RA _ _ db ->
  (forall k, @trie_get RA _ RD v k = @trie_get RA _ _ db k) /\ ~ rewrites l \/ @collision CA CP h (tallied l).
Proof.
  intros W S V N Wh Vh E Em R. destruct (disk_pair l v E) as (u & X & G & Y). destruct (mem_pair h1 h2 h3 h db Em) as (d & Ed & Rd).
  destruct (coord_root db d Rd) as (Z & _ & Gd). rewrite Y, Z in R.
  destruct (@memory_binds CA curve_laws CP PL CC CCL Big l h u d W S V N Wh Vh X Ed R) as [[T1 T2]|T]; [left|right; exact T].
  split; [|exact T2]. intro k. rewrite G, Gd. apply T1.
Qed.
End CoordChain.
