(** Which proofs are refused, and which make the check panic, when values are claimed
    under stems declared absent. *)
From Coq Require Import String Sorted.
From Verif Require Import Base BaseFacts Alg AlgFacts TreeSpec TrieModel BTree WireModel WireSpec WireProofs
  ProofModel ProofSpec TrieProofs TrieTheorems OpeningProofs ProofTheorems ProofReject IpaModel LagrangeSpec IpaSpec IpaProofs LagrangeProofs MultiProofs CheckProofs IpaTheorems CheckTotal.
Local Open Scope list_scope.
Notation len := List.length.

Section CheckRefused.
Context {A : Alg} {AL : AlgLaws A} {C : ECodec A} {H : Hasher}.

(** ** Specification *)
(** The first value claimed under a stem declared absent, [v] for the key [k], comes after
    keys whose claims are in order ([claim_ok]), and the depth of its own claim is at most 31. *)
Definition refused (hint : VerificationHint) (keys : list bytes) (values : list (option bytes)) : Prop :=
  exists pre k v post d e,
    combine keys values = pre ++ (k, Some v) :: post /\
    In (firstn 31 k, d, e) (claims hint keys) /\ e <> ExtPres /\ d <= 31 /\
    forall k' v', In (k', v') pre -> exists d' e',
      In (firstn 31 k', d', e') (claims hint keys) /\ claim_ok hint keys (firstn 31 k') d' e' /\ (e' <> ExtPres -> v' = None).

(** What the types of the code guarantee; the two lists may differ in length. *)
Definition typed_lists (hint : VerificationHint) (keys : list bytes) : Prop :=
  Forall is_key keys /\ sorted (vh_diff hint) /\ Forall (fun d => 0 <= d) (vh_depths hint).

(** Keys without a value, and values without a key, are ignored, but for the stems of all
    keys being matched up with the hint.  For lists of the same length this is [well_formed]. *)
Record in_order (hint : VerificationHint) (comms : list G) (keys : list bytes) (values : list (option bytes)) : Prop := {
  io_claims : forall k v, In (k, v) (combine keys values) -> exists d e,
    In (firstn 31 k, d, e) (claims hint keys) /\ claim_ok hint keys (firstn 31 k) d e;
  (* no listed stem is superfluous *)
  io_diff_used : forall t, In t (vh_diff hint) -> exists k v d, In (k, v) (combine keys values) /\
    In (firstn 31 k, d, ExtDifferentStem) (claims hint keys) /\
    firstn (Z.to_nat d) t = firstn (Z.to_nat d) k /\
    (forall t', In t' (vh_diff hint) -> firstn (Z.to_nat d) t' = firstn (Z.to_nat d) k -> t' = t \/ klt t' t) /\
    (forall s1 d1, In (s1, d1, ExtPres) (claims hint keys) -> firstn (Z.to_nat d) s1 <> firstn (Z.to_nat d) k);
  (* one commitment for each node but the root *)
  io_comms : exists paths, NoDup paths /\ len paths = S (len comms) /\
    forall p, In p paths <-> exists k v d e, In (k, v) (combine keys values) /\
      In (firstn 31 k, d, e) (claims hint keys) /\ In p (claim_paths k d e)
}.

(** ** Proofs *)
Section Queries.
Context (hint : VerificationHint) (keys : list bytes).
Context (Hkeys : Forall is_key keys) (Hsorted : sorted (vh_diff hint)) (Hdep : Forall (fun d => 0 <= d) (vh_depths hint)).
Let statuses := fst (stem_statuses (set_of (map (firstn 31) keys)) hint).
Let with_ext := snd (stem_statuses (set_of (map (firstn 31) keys)) hint).

Lemma verify_key_none_iff K s k v : In k keys -> RInv hint keys K s ->
  (verify_key statuses with_ext (vh_diff hint) s (k, v) = Ok None <->
   exists v0 d e, v = Some v0 /\ In (firstn 31 k, d, e) (claims hint keys) /\ e <> ExtPres /\ d <= 31).
Proof.
  intros Hk I. assert (Hkey : is_key k) by (rewrite Forall_forall in Hkeys; auto).
  destruct (key_stem k Hkey) as [Hl _].
  split.
  - intro E. unfold verify_key in E. cbv zeta in E.
    destruct (map_get (firstn 31 k) statuses) as [[e d]|] eqn:Eg; cbn [unwrap rbind] in E; [|discriminate].
    pose proof (statuses_In hint keys _ _ _ Eg) as Hc.
    assert (Hd0 : 0 <= d).
    { rewrite Forall_forall in Hdep. apply Hdep. unfold claims in Hc. apply in_combine_l in Hc. now apply in_combine_r in Hc. }
    destruct (add_branches (firstn 31 k) (seq 0 (Z.to_nat d)) s) as [s1|] eqn:Eb; cbn [rbind] in E; [|discriminate].
    assert (Hd31 : d <= 31).
    { destruct (Z_le_gt_dec d 31) as [X|X]; [exact X|]. exfalso.
      pose proof (add_branches_bound _ _ Hl _ _ Eb 31%nat) as Y. assert (Z : (31 < 31)%nat) by (apply Y; apply in_seq; lia). lia. }
    destruct e.
    + apply add_none_none in E. destruct v as [v|]; [|congruence]. exists v, d, ExtNone. repeat split; auto; discriminate.
    + destruct (slice _ _ _); cbn [rbind] in E; [|discriminate]. apply add_different_none in E.
      destruct v as [v|]; [|congruence]. exists v, d, ExtDifferentStem. repeat split; auto; discriminate.
    + destruct (slice _ _ _); cbn [rbind] in E; [|discriminate]. destruct (Base.index _ _); cbn [rbind] in E; discriminate.
  - intros (v0 & d & e & -> & Hc & He & Hd).
    assert (Hd0 : 0 <= d).
    { rewrite Forall_forall in Hdep. apply Hdep. unfold claims in Hc. apply in_combine_l in Hc. now apply in_combine_r in Hc. }
    pose proof (claim_get hint keys _ _ _ Hc) as Hg.
    unfold verify_key. cbv zeta.
    match goal with |- context [unwrap ?x] => replace x with (Some (e, d)) by (symmetry; exact Hg) end. cbn [unwrap rbind].
    destruct (add_branches_ok (firstn 31 k) (seq 0 (Z.to_nat d)) Hl) with (s := s) as (s1 & -> & _).
    { intros i Hi. apply in_seq in Hi. lia. }
    { apply (ri_pz _ _ _ _ I). }
    cbn [rbind]. destruct e; [reflexivity| |congruence].
    rewrite (slice_stem k (Z.to_nat d) Hkey ltac:(lia)). cbn [rbind]. reflexivity.
Qed.

Lemma verify_keys_none_iff K1 K2 vs s : (forall k, In k K2 -> In k keys) -> len vs = len K2 -> RInv hint keys K1 s ->
  (verify_keys statuses with_ext (vh_diff hint) s (combine K2 vs) = Ok None <->
   exists pre k v post d e,
    combine K2 vs = pre ++ (k, Some v) :: post /\
    In (firstn 31 k, d, e) (claims hint keys) /\ e <> ExtPres /\ d <= 31 /\
    forall k' v', In (k', v') pre -> exists d' e',
      In (firstn 31 k', d', e') (claims hint keys) /\ claim_ok hint keys (firstn 31 k') d' e' /\ (e' <> ExtPres -> v' = None)).
Proof.
  revert K1 vs s; induction K2 as [|k K2 IH]; intros K1 [|v vs] s Hin Hl I; cbn [combine verify_keys]; try discriminate.
  - split; [discriminate|]. intros (pre & k & v & post & d & e & X & _). destruct pre; discriminate.
  - assert (Hk : In k keys) by (apply Hin; now left).
    assert (Hkey : is_key k) by (rewrite Forall_forall in Hkeys; auto).
    pose proof (verify_key_none_iff K1 s k v Hk I) as E0.
    destruct (verify_key statuses with_ext (vh_diff hint) s (k, v)) as [[s1|]|] eqn:E1; cbn [rbind].
    + destruct (verify_key_needs hint keys s k v s1 Hkey Hdep E1) as (d & e & Hc & Hok & Hv).
      destruct (verify_key_total hint keys Hkeys Hsorted K1 s k v d e Hk Hc Hok I) as [X|(s1' & X & I1)];
        [change (verify_key statuses with_ext (vh_diff hint) s (k, v) = Ok None) in X; congruence|].
      change (verify_key statuses with_ext (vh_diff hint) s (k, v) = Ok (Some s1')) in X.
      rewrite E1 in X. injection X as <-.
      rewrite (IH (K1 ++ [k]) vs s1); [| |cbn [len] in Hl; lia|exact I1].
      2:{ intros x Hx. apply Hin. now right. }
      split.
      * intros (pre & k2 & v2 & post & d2 & e2 & X1 & X2 & X3 & X4 & X5).
        exists ((k, v) :: pre), k2, v2, post, d2, e2. split; [cbn [app]; now rewrite X1|]. split; [exact X2|]. split; [exact X3|].
        split; [exact X4|]. intros k' v' [Y|Y]; [|exact (X5 k' v' Y)]. injection Y as <- <-. eauto 6.
      * intros ([|[k0 v0] pre] & k2 & v2 & post & d2 & e2 & X1 & X2 & X3 & X4 & X5); cbn [app] in X1.
        -- injection X1 as -> -> _. exfalso.
           assert (Z : Ok (Some s1) = Ok None) by (apply E0; eauto 8). discriminate.
        -- injection X1 as -> -> X1. exists pre, k2, v2, post, d2, e2. repeat split; auto.
           intros k' v' Y. apply X5. now right.
    + split; [intros _|auto]. destruct (proj1 E0 eq_refl) as (v0 & d & e & -> & Hc & He & Hd).
      exists [], k, v0, (combine K2 vs), d, e. repeat split; auto. intros k' v' [].
    + split; [discriminate|].
      intros ([|[k0 v0] pre] & k2 & v2 & post & d2 & e2 & X1 & X2 & X3 & X4 & X5); cbn [app] in X1.
      * injection X1 as -> -> _. assert (Z : Panic = @Ok (option VState) None) by (apply E0; eauto 8). discriminate.
      * injection X1 as -> -> X1. destruct (X5 k0 v0 (or_introl eq_refl)) as (d & e & Hc & Hok & _).
        destruct (verify_key_total hint keys Hkeys Hsorted K1 s k0 v0 d e Hk Hc Hok I) as [X|(s1' & X & _)];
          unfold statuses, with_ext in E1; congruence.
Qed.
End Queries.

Context {P : Par A} {PL : ParLaws P}.

Lemma combine_fst_snd {X Y} (l : list (X * Y)) : combine (map fst l) (map snd l) = l.
Proof. induction l as [|[x y] l IH]; cbn; [|rewrite IH]; reflexivity. Qed.

Lemma checked_in {Y} (keys : list bytes) (values : list Y) k : In k (map fst (combine keys values)) <-> exists v, In (k, v) (combine keys values).
Proof.
  rewrite in_map_iff. split; [intros ([a b] & <- & X); eauto|]. intros [v X]. exists (k, v). auto.
Qed.

Lemma checked_incl {Y} (keys : list bytes) (values : list Y) k : In k (map fst (combine keys values)) -> In k keys.
Proof. intro X. apply checked_in in X as [v X]. now apply in_combine_l in X. Qed.

Lemma lists_refused hint comms keys values root : typed_lists hint keys ->
  (create_verifier_queries hint comms keys values root = Ok None <-> refused hint keys values).
Proof.
  intros (Hk & Hs & Hd). unfold create_verifier_queries, refused. cbv zeta.
  pose proof (verify_keys_none_iff hint keys Hk Hs Hd [] (map fst (combine keys values)) (map snd (combine keys values)) vs_empty
    (checked_incl keys values) ltac:(now rewrite !map_length) (rinv_empty hint keys)) as E.
  rewrite combine_fst_snd in E.
  destruct (stem_statuses (set_of (map (firstn 31) keys)) hint) as [statuses with_ext]. cbn [fst snd] in E. rewrite <- E.
  destruct (verify_keys statuses with_ext (vh_diff hint) vs_empty (combine keys values)) as [[s|]|]; cbn [rbind]; [|tauto|split; discriminate].
  split; [|discriminate]. intro X. exfalso.
  destruct (assertb _); cbn [rbind] in X; [|discriminate]. destruct (assertb _); cbn [rbind] in X; [|discriminate].
  destruct (verifier_queries _ _ _); cbn [rbind] in X; discriminate.
Qed.

Lemma depth_claim hint keys k d e : In (firstn 31 k, d, e) (claims hint keys) -> claim_ok hint keys (firstn 31 k) d e -> (Z.to_nat d <= 31)%nat.
Proof. intros _ Hok. destruct e; cbn [claim_ok] in Hok; lia. Qed.

Lemma lists_in_order hint comms keys values root : typed_lists hint keys ->
  ((exists r, create_verifier_queries hint comms keys values root = Ok (Some r)) <->
   in_order hint comms keys values /\ no_value_under_absent hint keys values).
Proof.
  intros (Hk & Hs & Hd). set (kvs := combine keys values).
  set (used := map fst kvs). set (vs := map snd kvs).
  assert (Ekv : combine used vs = kvs) by apply combine_fst_snd.
  assert (Hin : forall k, In k used -> In k keys) by apply checked_incl.
  assert (Hl : len vs = len used) by (unfold vs, used; now rewrite !map_length).
  set (statuses := fst (stem_statuses (set_of (map (firstn 31) keys)) hint)).
  set (with_ext := snd (stem_statuses (set_of (map (firstn 31) keys)) hint)).
  assert (Es : stem_statuses (set_of (map (firstn 31) keys)) hint = (statuses, with_ext))
    by (unfold statuses, with_ext; now destruct (stem_statuses (set_of (map (firstn 31) keys)) hint)).
  split.
  - intros [r E]. unfold create_verifier_queries in E. rewrite Es in E. cbv zeta in E. fold kvs in E. rewrite <- Ekv in E.
    destruct (verify_keys statuses with_ext (vh_diff hint) vs_empty (combine used vs)) as [[s|]|] eqn:Ek; cbn [rbind] in E; try discriminate.
    destruct (verify_keys_needs hint keys Hk Hs [] used vs vs_empty s Hin Hl Hd (rinv_empty hint keys) Ek) as [I Hall]. cbn [app] in I.
    rewrite Ekv in Hall.
    destruct (stems_eqb (vh_diff hint) (vs_used s)) eqn:Eu; cbn [assertb rbind] in E; [|discriminate].
    apply stems_eqb_eq in Eu.
    destruct (Nat.eqb_spec (len (root :: comms)) (len (vs_paths s))) as [El|]; cbn [assertb rbind] in E; [|discriminate].
    split; [constructor|].
    + intros k v Hkv. destruct (Hall k v Hkv) as (d & e & H1 & H2 & _). eauto.
    + intros t Ht. rewrite Eu in Ht. apply (ri_used _ _ _ _ I) in Ht as (k & d & Hku & Hc & X1 & X2 & X3 & X4).
      apply checked_in in Hku as [v Hkv]. destruct (Hall k v Hkv) as (d' & e' & Hc' & Hok & _).
      destruct (claim_unique hint keys _ _ _ _ _ Hc Hc') as [<- <-].
      rewrite <- (firstn_stem _ k (depth_claim _ _ _ _ _ Hc Hok)) in *. eauto 10.
    + exists (vs_paths s). split; [apply sorted_NoDup, (ri_sorted _ _ _ _ I)|]. split; [symmetry; exact El|].
      intro p. rewrite (ri_paths _ _ _ _ I). split.
      * intros (k & d & e & Hku & X). apply checked_in in Hku as [v Hkv]. eauto 6.
      * intros (k & v & d & e & Hkv & X). exists k, d, e. split; [apply checked_in; eauto|exact X].
    + intros k v d e Hkv Hc. destruct (Hall k (Some v) Hkv) as (d' & e' & Hc' & _ & Hn).
      destruct (claim_unique hint keys _ _ _ _ _ Hc Hc') as [_ ->].
      destruct e'; try reflexivity; exfalso; assert (X : Some v = None) by (apply Hn; discriminate); discriminate.
  - intros [W N].
    assert (Hcl : forall k, In k used -> exists d e, In (firstn 31 k, d, e) (claims hint keys) /\ claim_ok hint keys (firstn 31 k) d e).
    { intros k Hku. apply checked_in in Hku as [v Hkv]. exact (io_claims _ _ _ _ W k v Hkv). }
    unfold create_verifier_queries. rewrite Es. cbv zeta. fold kvs. rewrite <- Ekv.
    destruct (verify_keys_total hint keys Hk Hs [] used vs vs_empty Hin Hcl Hl (rinv_empty hint keys)) as [Ek|(s & Ek & I)].
    { exfalso. apply (verify_keys_none_iff hint keys Hk Hs Hd [] used vs vs_empty Hin Hl (rinv_empty hint keys)) in Ek
        as (pre & k & v & post & d & e & X1 & X2 & X3 & _).
      rewrite Ekv in X1. apply X3. apply (N k v d e); [|exact X2]. fold kvs. rewrite X1. apply in_or_app. right. now left. }
    fold statuses with_ext in Ek. rewrite Ek. cbn [rbind app] in *.
    assert (Eu : vs_used s = vh_diff hint).
    { apply sorted_ext; [apply (ri_used_sorted _ _ _ _ I)|exact Hs|].
      intro t. rewrite (ri_used _ _ _ _ I). split.
      - intros (k & d & _ & _ & X & _). exact X.
      - intro Ht. destruct (io_diff_used _ _ _ _ W t Ht) as (k & v & d & Hkv & Hc & H2 & H3 & H4).
        destruct (io_claims _ _ _ _ W k v Hkv) as (d' & e' & Hc' & Hok).
        destruct (claim_unique hint keys _ _ _ _ _ Hc Hc') as [<- <-].
        rewrite (firstn_stem _ k (depth_claim _ _ _ _ _ Hc Hok)) in *.
        exists k, d. split; [apply checked_in; eauto|]. split; [exact Hc|]. split; auto. }
    rewrite Eu.
    assert (Er : forall l, stems_eqb l l = true) by (induction l as [|x l IH]; cbn [stems_eqb]; [reflexivity|now rewrite beqb_refl]).
    rewrite Er. cbn [assertb rbind].
    destruct (io_comms _ _ _ _ W) as (paths & Np & Hlen & Hp).
    assert (El : len (vs_paths s) = len paths).
    { assert (N' : NoDup (vs_paths s)) by apply sorted_NoDup, (ri_sorted _ _ _ _ I).
      assert (Hi : forall p, In p (vs_paths s) <-> In p paths).
      { intro p. rewrite (ri_paths _ _ _ _ I), Hp. split.
        - intros (k & d & e & Hku & X). apply checked_in in Hku as [v Hkv]. eauto 6.
        - intros (k & v & d & e & Hkv & X). exists k, d, e. split; [apply checked_in; eauto|exact X]. }
      apply Nat.le_antisymm; apply NoDup_incl_length; auto; intros x Hx; apply Hi; exact Hx. }
    cbn [List.length]. rewrite El, Hlen, Nat.eqb_refl. cbn [assertb rbind].
    destruct (verifier_queries_total (vs_leaf s) (map_of (combine (vs_paths s) (root :: comms))) (vs_pzs s)) as [qs ->].
    { intros x Hx. apply map_get_combine; [cbn [List.length]; lia|]. apply (ri_pz _ _ _ _ I). exact Hx. }
    cbn [rbind]. eauto.
Qed.

Lemma in_order_well_formed hint comms keys values : typed hint keys values -> no_value_under_absent hint keys values ->
  (in_order hint comms keys values <-> well_formed hint comms keys values).
Proof.
  intros T N. assert (T' : typed_lists hint keys) by (destruct T as (T1 & _ & T3 & T4); now split).
  pose proof (lists_in_order hint comms keys values gzero T') as X.
  pose proof (queries_exactly hint comms keys values gzero T) as Y. tauto.
Qed.

Context (Hfit : domain_fits 256).

Lemma check_lists_exactly p keys values root : typed_lists (vp_hint p) keys ->
  (proof_check p keys values root <> Panic <->
   refused (vp_hint p) keys values \/
   no_value_under_absent (vp_hint p) keys values /\ in_order (vp_hint p) (vp_comms p) keys values /\
   (len (ipa_L (mp_ipa (vp_proof p))) = 8%nat -> len (ipa_R (mp_ipa (vp_proof p))) = 8%nat)).
Proof.
  intro T. pose proof (lists_refused (vp_hint p) (vp_comms p) keys values root T) as R.
  pose proof (lists_in_order (vp_hint p) (vp_comms p) keys values root T) as Q.
  unfold proof_check. destruct (create_verifier_queries _ _ _ _ _) as [[[qs uh]|]|] eqn:E; cbn [rbind].
  - assert (W : in_order (vp_hint p) (vp_comms p) keys values /\ no_value_under_absent (vp_hint p) keys values) by (apply Q; eauto).
    assert (NR : ~ refused (vp_hint p) keys values) by (intro X; apply R in X; discriminate).
    rewrite (weights256 Hfit). cbn [rbind].
    pose proof (mp_check_panics 256 8 (vp_proof p) trie_crs (weights 256) qs (tr_new (lbl "vt")) Hfit eq_refl eq_refl trie_crs_len (weights256 Hfit)) as M.
    destruct (mp_check _ _ _ _ _) as [ok|]; cbn [rbind].
    + split; [intros _; right; split; [apply W|split; [apply W|]]|discriminate]. intro HL.
      destruct (Nat.eq_dec (len (ipa_R (mp_ipa (vp_proof p)))) 8) as [X|X]; [exact X|].
      assert (Y : Ok ok = @Panic bool) by (apply M; auto). discriminate.
    + split; [congruence|]. intros [X|(_ & _ & X)]; [destruct (NR X)|]. destruct (proj1 M eq_refl) as [Y1 Y2]. destruct (Y2 (X Y1)).
  - split; [intros _; left; now apply R|discriminate].
  - split; [congruence|]. intros [X|(X1 & X2 & _)]; [apply R in X; discriminate|].
    destruct (proj2 Q (conj X2 X1)) as [r X]. discriminate.
Qed.

Lemma refused_answer p keys values root : typed_lists (vp_hint p) keys -> refused (vp_hint p) keys values ->
  proof_check p keys values root = Ok (false, None).
Proof.
  intros T X. apply (lists_refused (vp_hint p) (vp_comms p) keys values root T) in X. unfold proof_check. now rewrite X.
Qed.
End CheckRefused.
