(** The prover of a rewritten trie on disk ([RewriteTold]) on coordinates. *)
From Coq Require Import Permutation String.
From Verif Require Import Base BaseFacts Alg AlgFacts TreeSpec TrieModel TrieProofs TrieTheorems CodecModel VerkleDbModel DbSpec MsmModel WireModel WireSpec ProofModel ProofSpec
  IpaModel LagrangeSpec IpaSpec CheckProofs SoundSpec TruthSpec EventSpec RewriteSpec RewriteProofs RewriteFacts RewriteTruth RewriteProofSpec RewriteProver RewriteTold
  ElementModel ElementSpec CurveModel CurveSpec CurveAlg CurveRep CoordSpec Refine RefineDb RefineProof RefineIpa RepRefine RepProof CoordProofs.
Local Open Scope list_scope.

Section Rep.
Context {B : BaseField} {BL : BaseFieldLaws B} {CL : CurveLaws B} {A : Alg} {AL : AlgLaws A} {I : FrInt A} {SL : ScalarLaws B A I}.
Local Notation RA := (@rep_alg B BL A I).
Local Notation RC := (@rep_codec B BL A I).
Local Notation RE := (@rep_ecodec B BL A I).
Local Notation RD := (@verkle_db_ops RA RC).
Local Notation CA := (@curve_alg B BL A I).
Local Notation CC := (@curve_codec B BL A I).
Local Notation CE := (@curve_ecodec B BL A I).
Local Notation CD := (@verkle_db_ops CA CC).
Context {RP : Par RA} {CP : Par CA} {HS : Hasher}.
Hypothesis sf : @stands_for B BL A I RP CP.
Let h1 := sf_rhash _ _ sf.
Let h2 := sf_hash _ _ sf.
Let h3 := sf_crs _ _ sf.
Let h4 := sf_crsQ _ _ sf.
Let PL : ParLaws CP := coord_par_laws h2.
Let CCL := @curve_codec_laws B BL A I SL.

Lemma disk_parts l v v2 keys qs2 hint comms2 : @run_disk RA RP RC l = Ok v -> @run_disk CA CP CC l = Ok v2 ->
  @create_proof_parts CA _ CD v2 keys = Ok (Some (qs2, hint, comms2)) ->
  (@create_proof_parts RA _ RD v keys = Panic /\ @record_refused RA RC (vd_storage v)) \/
  exists qs comms, @create_proof_parts RA _ RD v keys = Ok (Some (qs, hint, comms)) /\ map elem_query qs = qs2 /\ map elem comms = comms2.
Proof.
  intros E E2 Ep. pose proof (coord_disk h1 h2 h3 l) as X. rewrite E, E2 in X.
  assert (Y : rr (coord_refused (vd_storage v)) (fun o o' => o' = option_map (fun r => (map el_pq (fst (fst r)), snd (fst r), map elem (snd r))) o)
    (@create_proof_parts RA _ RD v keys) (@create_proof_parts CA _ CD v2 keys))
    by exact (coord_parts _ _ (coord_sim (vd_storage v)) v v2 keys (conj eq_refl X)).
  rewrite Ep in Y. destruct (@create_proof_parts RA _ RD v keys) as [[[[qs hint1] comms]|]|]; cbn [rr option_map fst snd] in Y; [|discriminate|left; split; [reflexivity|exact Y]].
  right. exists qs, comms. assert (hint1 = hint) by congruence. subst hint1. split; [reflexivity|]. split; [change (map el_pq qs = qs2)|]; congruence.
Qed.
(** A proof whose openings are found is made. *)
Lemma parts_made {S1 S2} {D1 : @DbOps RA S1} {D2 : @DbOps CA S2} (v : S1) (v2 : S2) keys order qs hint comms : (forall l, Permutation (order l) l) ->
  @create_proof_parts RA _ D1 v keys = Ok (Some (qs, hint, comms)) -> @create_proof_parts CA _ D2 v2 keys = Ok (Some (map elem_query qs, hint, map elem comms)) ->
  exists o2, (forall l, Permutation (o2 l) l) /\ forall p2, @create_verkle_proof CA CE HS CP _ D2 o2 v2 keys = Ok (Some p2) ->
  exists p, @create_verkle_proof RA RE HS RP _ D1 order v keys = Ok (Some p) /\ el_vp p = p2 /\ vp_hint p = hint /\ vp_comms p = comms.
Proof.
  intros Ho E1 E2. destruct (order_transfer el_gr _ _ (Ho (@open_groups HS RA RE (tr_new (lbl "vt"%string)) qs))) as (o2 & P2 & O).
  exists o2. split; [exact P2|]. intros p2 Cr. unfold create_verkle_proof in *. rewrite E1. rewrite E2 in Cr. cbn [rbind] in *.
  pose proof (@cover_weights CA Coord co_zero co_add co_opp (@co_mul B BL A I) co_eqb 256) as W. change (@cover CA Coord co_zero co_add co_opp (@co_mul B BL A I) co_eqb) with RA in W.
  destruct (@precomputed_weights CA 256) as [pw2|]; cbn [rbind] in Cr; [|discriminate]. destruct (@precomputed_weights RA 256) as [pw|]; cbn [rr] in W; [|contradiction]. subst pw2. cbn [rbind].
  pose proof (@cover_open CA CE HS Coord co_zero co_add co_opp (@co_mul B BL A I) co_eqb RE elem elem_zero elem_add elem_opp elem_mul elem_ser (fun _ => eq_refl) order o2 (@trie_crs RA RP) pw _ qs O) as R.
  assert (T : @trie_crs CA CP = @crs_map CA Coord co_zero co_add co_opp (@co_mul B BL A I) co_eqb elem (@trie_crs RA RP))
    by exact (@cover_trie_crs CA CP Coord co_zero co_add co_opp (@co_mul B BL A I) co_eqb RP elem (fun i => eq_sym (h3 i)) (eq_sym h4)).
  rewrite <- T in R.
  change (map (@pq_map CA Coord co_zero co_add co_opp (@co_mul B BL A I) co_eqb elem) qs) with (map elem_query qs) in R.
  change (@cover CA Coord co_zero co_add co_opp (@co_mul B BL A I) co_eqb) with RA in R.
  match type of R with rr _ _ ?a ?b => destruct b as [[mp2 s2]|]; [|discriminate Cr] end. cbn [rbind] in Cr.
  match goal with |- context [rbind (mp_open order ?a ?b ?c ?d) _] => destruct (mp_open order a b c d) as [[mp s]|]; [|contradiction] end.
  cbn [rr fst snd] in R. cbn [rbind]. assert (mp2 = @mp_map CA Coord co_zero co_add co_opp (@co_mul B BL A I) co_eqb elem mp) by congruence. subst mp2.
  exists (@mkVP RA hint comms mp). split; [reflexivity|]. split; [|split; reflexivity]. change (@mkVP CA hint (map elem comms) (@mp_map CA Coord co_zero co_add co_opp (@co_mul B BL A I) co_eqb elem mp) = p2).
  congruence.
Qed.

Lemma coord_root_disk l v v2 root2 : @run_disk RA RP RC l = Ok v -> @run_disk CA CP CC l = Ok v2 -> @root_commitment CA _ CD v2 = Ok root2 ->
  (forall k, @trie_get RA _ RD v k = @trie_get CA _ CD v2 k) /\ exists c, @root_commitment RA _ RD v = Ok c /\ elem c = root2.
Proof.
  intros E E2 R. pose proof (sf_disk sf l) as X. rewrite E, E2 in X. destruct X as [G (c & x & Rc & Rc2 & _)]. split; [exact G|]. exists c. split; [exact Rc|congruence].
Qed.

Lemma coord_untouched l v keys order : @domain_fits A 256 -> wf_ops l -> settled_ops l -> @run_disk RA RP RC l = Ok v -> keys <> [] -> Forall is_key keys ->
  Forall (untouched l) keys -> @distinguishable CA CP (final_map (tallied l)) (stems_of (contents l)) keys -> (forall l, Permutation (order l) l) ->
  (@create_proof_parts RA _ RD v keys = Panic /\ @record_refused RA RC (vd_storage v)) \/
  exists qs hint comms root, @create_proof_parts RA _ RD v keys = Ok (Some (qs, hint, comms)) /\ @root_commitment RA _ RD v = Ok root /\
    Forall (@true_opening CA CP) (map elem_query qs) /\
    (@usable_challenges CA CP CE HS (map elem_query qs) -> exists p uh,
       @create_verkle_proof RA RE HS RP _ RD order v keys = Ok (Some p) /\ vp_hint p = hint /\ vp_comms p = comms /\
       @proof_check RA RE HS RP p keys (map (final_map (contents l)) keys) root = Ok (true, Some uh)).
Proof.
  intros D W S E Nk Kk U Di Ho.
  assert (X : exists v2, @run_disk CA CP CC l = Ok v2) by (destruct (@rewrite_exact CA curve_laws CP PL CC CCL l W S) as (v2 & E2 & _); eauto).
  destruct X as (v2 & E2).
  pose proof (fun o => @untouched_accepted CA curve_laws CP PL CC CCL CE HS l keys o D W S Nk Kk U Di) as K.
  destruct (K (fun l => l) (fun l => Permutation_refl l)) as (v2' & qs2 & hint & comms2 & root2 & E2' & Ep & Er & Tr & _).
  assert (v2' = v2) by congruence. subst v2'.
  destruct (disk_parts l v v2 keys qs2 hint comms2 E E2 Ep) as [X|(qs & comms & Ep1 & <- & <-)]; [left; exact X|right].
  destruct (coord_root_disk l v v2 root2 E E2 Er) as (_ & root & Rc & Ec). subst root2.
  exists qs, hint, comms, root. split; [exact Ep1|]. split; [exact Rc|]. split; [exact Tr|]. intro Hu.
  destruct (parts_made v v2 keys order qs hint comms Ho Ep1 Ep) as (o2 & P2 & M).
  destruct (K o2 P2) as (v2' & qs2 & hint' & comms2 & root2 & E2'' & Ep' & Er' & _ & Acc).
  assert (v2' = v2) by congruence. subst v2'. rewrite Ep in Ep'.
  assert (qs2 = map elem_query qs) by congruence. subst qs2. assert (root2 = elem root) by congruence. subst root2.
  destruct (Acc Hu) as (p2 & uh2 & Cr2 & _ & _ & Ck). destruct (M p2 Cr2) as (p & Cr & <- & Hh & Hc).
  rewrite (coord_check h1 h2 h3 h4) in Ck.
  destruct (@proof_check RA RE HS RP p keys (map (final_map (contents l)) keys) root) as [[b [uh|]]|] eqn:Ck1; cbn [ok_map fst snd option_map] in Ck; try discriminate.
  exists p, uh. split; [exact Cr|]. split; [exact Hh|]. split; [exact Hc|]. assert (b = true) by congruence. now subst b.
Qed.

Lemma coord_touched l v keys k k' : (forall a, 0 < a < 2 ^ 248 -> @of_Z A a <> fzero) -> wf_ops l -> settled_ops l ->
  (forall k v, In (OInsert k v) l -> is_value v) -> Z.of_nat (length l) < 2 ^ 100 -> @run_disk RA RP RC l = Ok v ->
  Forall is_key keys -> In k keys -> is_key k' -> half_mates k k' -> (2 <= length (counted l k'))%nat ->
  (@create_proof_parts RA _ RD v keys = Panic /\ @record_refused RA RC (vd_storage v)) \/
  exists qs hint comms, @create_proof_parts RA _ RD v keys = Ok (Some (qs, hint, comms)) /\
    ((exists q, In q qs /\ ~ @true_opening CA CP (elem_query q)) \/
     (exists j z, 0 <= z < 256 /\
        @suffix_vec CA (final_map (contents l)) (firstn 31 k) j z <> @suffix_vec CA (final_map (tallied l)) (firstn 31 k) j z /\
        @vcommit CA CP (suffix_vec (final_map (contents l)) (firstn 31 k) j) = @vcommit CA CP (suffix_vec (final_map (tallied l)) (firstn 31 k) j))).
Proof.
  intros Big W S V N E Kk Hk Kk' Hm Hc.
  destruct (@touched_false CA curve_laws CP PL CC CCL l keys k k' Big W S V N Kk Hk Kk' Hm Hc) as (v2 & qs2 & hint & comms2 & E2 & Ep & T).
  destruct (disk_parts l v v2 keys qs2 hint comms2 E E2 Ep) as [X|(qs & comms & Ep1 & <- & <-)]; [left; exact X|right].
  exists qs, hint, comms. split; [exact Ep1|]. destruct T as [(q & Hq & Nq)|T]; [left|right; exact T].
  apply in_map_iff in Hq as (q0 & <- & Hq). exists q0. auto.
Qed.
End Rep.
