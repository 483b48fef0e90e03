(** Exactly when the check of a proof panics. *)
From Coq Require Import String Sorted Permutation.
From Verif Require Import Base BaseFacts Alg AlgFacts TreeSpec TreeFacts TrieModel TrieProofs TrieTheorems BTree WireModel WireSpec WireProofs
  ProofModel ProofSpec ProofTheorems ProofReject IpaModel LagrangeSpec IpaSpec IpaProofs LagrangeProofs MultiProofs CheckProofs IpaTheorems ReadSpec ReadProofs.
Local Open Scope list_scope.
Notation len := List.length.

Section CheckTotal.
Context {A : Alg} {AL : AlgLaws A} {C : ECodec A} {H : Hasher}.

Lemma challenges_len Ls : forall Rs tr, len (fst (generate_challenges tr Ls Rs)) = Nat.min (len Ls) (len Rs).
Proof.
  induction Ls as [|l Ls IH]; intros [|r Rs] tr; try reflexivity.
  cbn [generate_challenges]. destruct (challenge_scalar _ _) as [x tr1].
  specialize (IH Rs tr1). destruct (generate_challenges tr1 Ls Rs) as [xs tr2]. cbn in *. lia.
Qed.

Lemma bit_product_len bits : forall s xis r, bit_product s bits xis = Ok r -> len bits = len xis.
Proof.
  induction bits as [|b bits IH]; intros s [|xi xis] r E; cbn [bit_product] in E; try discriminate; [easy|].
  cbn [List.length]. now rewrite (IH _ _ _ E).
Qed.

Lemma to_bits_len i k : len (to_bits i k) = k.
Proof. unfold to_bits. now rewrite rev_length, map_length, seq_length. Qed.

Lemma bit_products_len s k xis l : forall r, bit_products s l k xis = Ok r -> len r = len l.
Proof.
  induction l as [|i l IH]; intros r E; cbn [bit_products] in E; [now injection E as <-|].
  destruct (bit_product s (to_bits i k) xis); cbn [rbind] in E; [|discriminate].
  destruct (bit_products s l k xis); cbn [rbind] in E; [|discriminate]. injection E as <-. cbn [List.length]. now rewrite (IH _ eq_refl).
Qed.

Lemma ipa_multiexp_panics p tr crs k b c z y : crs_n crs = (2 ^ k)%nat -> len (crs_G crs) = (2 ^ k)%nat -> len b = (2 ^ k)%nat ->
  (ipa_verify_multiexp p tr crs b c z y = Panic <-> len (ipa_L p) = k /\ len (ipa_R p) <> k).
Proof.
  intros Hn HG Hb. destruct (Nat.eq_dec (len (ipa_L p)) k) as [EL|NL].
  - destruct (Nat.eq_dec (len (ipa_R p)) k) as [ER|NR].
    + destruct (ipa_verifiers_agree p tr crs k b c z y EL ER Hn HG Hb) as (v & _ & E & _). rewrite E. split; [discriminate|tauto].
    + split; [auto|]. intros _. unfold ipa_verify_multiexp. rewrite Hn, EL, Nat.eqb_refl. cbn [negb].
      destruct (ipa_absorb _ c z y) as [w tr1]. pose proof (challenges_len (ipa_L p) (ipa_R p) tr1) as Lx.
      destruct (generate_challenges tr1 (ipa_L p) (ipa_R p)) as [xs tr2]. cbn [fst] in Lx.
      destruct (bit_products (fopp fone) (seq 0 (2 ^ k)) k (batch_inversion xs)) as [bi|] eqn:Eb; cbn [rbind]; [|reflexivity].
      assert (Lk : len xs = k).
      { destruct (2 ^ k)%nat as [|n] eqn:E2; [exfalso; clear - E2; induction k; cbn in E2; lia|].
        cbn [seq bit_products] in Eb. destruct (bit_product _ _ _) as [r|] eqn:Er; cbn [rbind] in Eb; [|discriminate].
        apply bit_product_len in Er. rewrite to_bits_len, batch_inversion_len in Er. congruence. }
      apply bit_products_len in Eb. rewrite seq_length in Eb. unfold msm.
      rewrite !app_length, !map_length, batch_inversion_len, Lk, Eb, HG, EL. cbn [List.length].
      replace (_ =? _)%nat with false by (symmetry; apply Nat.eqb_neq; lia). reflexivity.
  - assert (X : crs_n crs <> (2 ^ len (ipa_L p))%nat) by (rewrite Hn; intro X; apply Nat.pow_inj_r in X; lia).
    destruct (verify_wrong_rounds p tr crs b c z y X) as (_ & E & _). rewrite E. split; [discriminate|tauto].
Qed.

Lemma coefficients_total n t : domain_fits n -> (0 < n)%nat ->
  exists b, evaluate_lagrange_coefficients (weights n) n t = Ok b /\ len b = n.
Proof.
  intros Hfit Hn. unfold evaluate_lagrange_coefficients.
  rewrite (rmap_map _ (fun i => fmul (mfun n i (pt i)) (fsub t (pt i)))).
  2:{ intros i I. apply in_seq in I. rewrite weight_get by (assumption || lia). reflexivity. }
  cbn [rbind]. eexists. split; [reflexivity|]. unfold batch_inversion_and_mul. now rewrite !map_length, seq_length.
Qed.

Lemma powers_from_len x r n : len (powers_from x r n) = n.
Proof. revert x; induction n as [|n IH]; intro x; cbn; [easy|]. now rewrite IH. Qed.

(** The multipoint check panics exactly on proofs with the right number of points to the
    left and a wrong number of points to the right. *)
Lemma mp_check_panics n k p crs pw qs tr : domain_fits n -> n = (2 ^ k)%nat -> crs_n crs = n -> len (crs_G crs) = n ->
  precomputed_weights n = Ok pw ->
  (mp_check p crs pw qs tr = Panic <-> len (ipa_L (mp_ipa p)) = k /\ len (ipa_R (mp_ipa p)) <> k).
Proof.
  intros Hfit En Hcn HG Hpw. assert (Hn : (0 < n)%nat) by (rewrite En; clear; induction k; cbn; lia).
  rewrite weights_ok in Hpw by assumption. injection Hpw as <-. unfold mp_check.
  destruct (challenge_scalar _ (lbl "r")) as [r tr1]. destruct (challenge_scalar _ (lbl "t")) as [t tr2]. cbv zeta.
  rewrite msm_ok.
  2:{ rewrite !map_length, combine_length, batch_inversion_len, map_length. unfold powers_of. rewrite powers_from_len. lia. }
  cbn [rbind]. rewrite Hcn. destruct (coefficients_total n t Hfit Hn) as (b & Eb & Lb). rewrite Eb. cbn [rbind].
  apply ipa_multiexp_panics; congruence.
Qed.

Context {P : Par A} {PL : ParLaws P}.
Hypothesis Hfit : domain_fits 256.
Notation stem k := (firstn 31 k).

Lemma add_different_none st d v we diff s : add_different st d v we diff s = Ok None -> v <> None.
Proof.
  unfold add_different. destruct v; [discriminate|]. destruct (assertb _); cbn [rbind]; [|discriminate].
  cbv zeta. destruct (filter (fun x => beqb (firstn d x) (firstn d st)) we) as [|? [|]]; try discriminate. destruct (unwrap _); cbn [rbind]; discriminate.
Qed.
Lemma add_none_none st d v s : add_none st d v s = Ok None -> v <> None.
Proof.
  unfold add_none. destruct v; [discriminate|]. destruct (_ =? 1)%nat; [destruct (Base.index _ _); cbn [rbind]; discriminate|].
  destruct (slice _ _ _); cbn [rbind]; [|discriminate]. destruct (assertb _); cbn [rbind]; [|discriminate].
  destruct (Base.index _ _); cbn [rbind]; discriminate.
Qed.

Lemma verify_keys_none hint keys kvs : let st := stem_statuses (set_of (map (firstn 31) keys)) hint in forall s,
  verify_keys (fst st) (snd st) (vh_diff hint) s kvs = Ok None ->
  exists k v d e, In (k, Some v) kvs /\ In (stem k, d, e) (claims hint keys) /\ e <> ExtPres.
Proof.
  intro st. induction kvs as [|[k v] kvs IH]; intros s E; cbn [verify_keys] in E; [discriminate|].
  destruct (verify_key _ _ _ s (k, v)) as [[s1|]|] eqn:E1; cbn [rbind] in E; [| |discriminate].
  - destruct (IH s1 E) as (k' & v' & d & e & X1 & X2). exists k', v', d, e. split; [now right|exact X2].
  - clear E. unfold verify_key in E1. cbv zeta in E1.
    destruct (map_get (stem k) (fst st)) as [[e d]|] eqn:Eg; cbn [unwrap rbind] in E1; [|discriminate].
    assert (Hc : In (stem k, d, e) (claims hint keys)).
    { apply (statuses_In hint keys). exact Eg. }
    destruct (add_branches _ _ s) as [s1|]; cbn [rbind] in E1; [|discriminate].
    destruct e.
    + apply add_none_none in E1. destruct v as [v|]; [|congruence]. exists k, v, d, ExtNone. split; [now left|]. split; [exact Hc|discriminate].
    + destruct (slice _ _ _); cbn [rbind] in E1; [|discriminate]. apply add_different_none in E1.
      destruct v as [v|]; [|congruence]. exists k, v, d, ExtDifferentStem. split; [now left|]. split; [exact Hc|discriminate].
    + destruct (slice _ _ _); cbn [rbind] in E1; [|discriminate]. destruct (Base.index _ _); cbn [rbind] in E1; discriminate.
Qed.

Lemma queries_none hint comms keys values root : create_verifier_queries hint comms keys values root = Ok None ->
  ~ no_value_under_absent hint keys values.
Proof.
  unfold create_verifier_queries. cbv zeta.
  destruct (stem_statuses (set_of (map (firstn 31) keys)) hint) as [statuses with_ext] eqn:Es.
  intros E N. destruct (verify_keys statuses with_ext (vh_diff hint) vs_empty (combine keys values)) as [[s|]|] eqn:Ek; cbn [rbind] in E; [| |discriminate].
  - destruct (assertb _); cbn [rbind] in E; [|discriminate]. destruct (assertb _); cbn [rbind] in E; [|discriminate].
    destruct (verifier_queries _ _ _); cbn [rbind] in E; discriminate.
  - pose proof (verify_keys_none hint keys (combine keys values) vs_empty) as X. cbv zeta in X. rewrite Es in X.
    destruct (X Ek) as (k & v & d & e & X1 & X2 & X3). exact (X3 (N _ _ _ _ X1 X2)).
Qed.

(** The verifier gets to the multipoint check exactly on well-formed claims without
    values under absent stems. *)
Lemma queries_exactly hint comms keys values root : typed hint keys values ->
  ((exists r, create_verifier_queries hint comms keys values root = Ok (Some r)) <->
   well_formed hint comms keys values /\ no_value_under_absent hint keys values).
Proof.
  intros (Hk & Hl & Hs & Hd). split.
  - intros [r E]. destruct (queries_need hint comms keys values Hk Hs root r Hl Hd E) as [W N]. split; [exact W|].
    intros k v d e Hkv Hc. destruct (N k v Hkv) as [d' Hc'].
    destruct (claim_unique hint keys _ _ _ _ _ Hc Hc') as [_ ->]. reflexivity.
  - intros [W N]. pose proof (well_formed_total hint comms keys values Hk Hs W root) as T.
    destruct (create_verifier_queries hint comms keys values root) as [[r|]|] eqn:E; [eauto| |congruence].
    destruct (queries_none _ _ _ _ _ E N).
Qed.

Lemma check_panics_exactly p keys values root : typed (vp_hint p) keys values -> no_value_under_absent (vp_hint p) keys values ->
  (proof_check p keys values root <> Panic <->
   well_formed (vp_hint p) (vp_comms p) keys values /\
   (len (ipa_L (mp_ipa (vp_proof p))) = 8%nat -> len (ipa_R (mp_ipa (vp_proof p))) = 8%nat)).
Proof.
  intros T N. pose proof (queries_exactly (vp_hint p) (vp_comms p) keys values root T) as Q.
  unfold proof_check. destruct (create_verifier_queries _ _ _ _ _) as [[[qs uh]|]|] eqn:E; cbn [rbind].
  - assert (W : well_formed (vp_hint p) (vp_comms p) keys values) by (apply Q; eauto).
    rewrite (weights256 Hfit). cbn [rbind].
    pose proof (mp_check_panics 256 8 (vp_proof p) trie_crs (weights 256) qs (tr_new (lbl "vt")) Hfit eq_refl eq_refl trie_crs_len (weights256 Hfit)) as M.
    destruct (mp_check _ _ _ _ _) as [ok|]; cbn [rbind].
    + split; [intros _; split; [exact W|]|discriminate]. intro HL.
      destruct (Nat.eq_dec (len (ipa_R (mp_ipa (vp_proof p)))) 8) as [X|X]; [exact X|].
      assert (Y : Ok ok = @Panic bool) by (apply M; auto). discriminate.
    + split; [congruence|]. intros [_ X]. destruct (proj1 M eq_refl) as [Y1 Y2]. destruct (Y2 (X Y1)).
  - destruct (queries_none _ _ _ _ _ E N).
  - split; [congruence|]. intros [W _]. destruct (proj2 Q (conj W N)) as [r X]. discriminate.
Qed.

(** With a value under an absent stem the proof is refused or the check panics. *)
Lemma check_value_under_absent p keys values root : typed (vp_hint p) keys values -> ~ no_value_under_absent (vp_hint p) keys values ->
  proof_check p keys values root = Ok (false, None) \/ proof_check p keys values root = Panic.
Proof.
  intros T N. pose proof (queries_exactly (vp_hint p) (vp_comms p) keys values root T) as Q.
  unfold proof_check. destruct (create_verifier_queries _ _ _ _ _) as [[r|]|]; cbn [rbind]; auto.
  destruct N. apply Q. eauto.
Qed.

(** Created proofs are well formed. *)
Lemma created_well_formed h (db : MemoryDb) keys qs hint comms : wf_history h -> run_mem h = Ok db -> Forall is_key keys ->
  distinguishable (final_map h) (stems_of h) keys ->
  create_proof_parts db keys = Ok (Some (qs, hint, comms)) ->
  typed hint keys (map (final_map h) keys) ->
  well_formed hint comms keys (map (final_map h) keys) /\ no_value_under_absent hint keys (map (final_map h) keys).
Proof.
  intros Hw E Hk Hd Ep T.
  assert (Nk : keys <> []) by (intros ->; unfold create_proof_parts in Ep; discriminate).
  destruct (honest_queries h db keys Hw E Nk Hk Hd) as (qs' & hint' & comms' & root & uh & Ep' & Er & Ev).
  rewrite Ep in Ep'. injection Ep' as <- <- <-.
  apply (queries_exactly hint comms keys (map (final_map h) keys) root T). eauto.
Qed.
End CheckTotal.

Section ReadThenCheck.
Context {A : Alg} {AL : AlgLaws A} {C : ECodec A} {CL : ECodecLaws C} {H : Hasher} {P : Par A} {PL : ParLaws P}.
Hypothesis Hfit : domain_fits 256.

Lemma fits_typed hint keys values : hint_fits hint -> Forall is_key keys -> len values = len keys -> typed hint keys values.
Proof.
  intros Hf Hk Hl. split; [exact Hk|]. split; [exact Hl|]. split; [apply (hf_sorted _ Hf)|].
  eapply Forall_impl; [|apply (hf_depth _ Hf)]. intros d X. cbn beta in *. lia.
Qed.

Lemma read_check_panics b p keys values root : is_bytes b -> Z.of_nat (len b) < 2 ^ 32 -> proof_read b = Ok (Some p) ->
  Forall is_key keys -> len values = len keys -> no_value_under_absent (vp_hint p) keys values ->
  (proof_check p keys values root <> Panic <-> well_formed (vp_hint p) (vp_comms p) keys values).
Proof.
  intros Hb Lb E Hk Hl N. pose proof (read_fits b p Hb Lb E) as Fp.
  rewrite (check_panics_exactly Hfit p keys values root (fits_typed _ _ _ (pf_hint _ Fp) Hk Hl) N).
  destruct (pf_rounds _ Fp) as [_ R]. split; [tauto|]. intro W. split; [exact W|]. intros _. exact R.
Qed.

Lemma created_wf h (db : MemoryDb) keys order p : wf_history h -> run_mem h = Ok db -> Forall is_key keys ->
  Z.of_nat (len keys) < 2 ^ 32 ->
  distinguishable (final_map h) (stems_of h) keys ->
  create_verkle_proof order db keys = Ok (Some p) ->
  well_formed (vp_hint p) (vp_comms p) keys (map (final_map h) keys) /\
  no_value_under_absent (vp_hint p) keys (map (final_map h) keys).
Proof.
  intros Hw E Hk Hn Hd Cr. unfold create_verkle_proof in Cr.
  destruct (create_proof_parts db keys) as [[[[qs hint] comms]|]|] eqn:Ep; cbn [rbind] in Cr; try discriminate.
  destruct (precomputed_weights 256); cbn [rbind] in Cr; [|discriminate].
  destruct (mp_open _ _ _ _ _) as [[mp s]|]; cbn [rbind] in Cr; [|discriminate]. injection Cr as <-. cbn [vp_hint vp_comms].
  apply (created_well_formed h db keys qs hint comms Hw E Hk Hd Ep). apply fits_typed; [|exact Hk|apply map_length].
  exact (prover_hint_fits h db keys qs hint comms Hw E Hk Hn Ep).
Qed.
End ReadThenCheck.

Section Absent.
Context {A : Alg} {AL : AlgLaws A} {C : ECodec A} {H : Hasher} {P : Par A} {PL : ParLaws P}.
Lemma absent_claim_refused p keys values root stems k v i e :
  sorted stems -> (forall s, In s stems <-> In s (map (firstn 31) keys)) ->
  nth_error stems i = Some (firstn 31 k) -> nth_error (vh_ext (vp_hint p)) i = Some e -> e <> ExtPres ->
  In (k, Some v) (combine keys values) ->
  proof_check p keys values root = Ok (false, None) \/ proof_check p keys values root = Panic.
Proof.
  intros H1 H2 H3 H4 H5 H6. unfold proof_check.
  pose proof (absent_claim_rejected (vp_hint p) (vp_comms p) keys values root stems k v i e H1 H2 H3 H4 H5 H6) as N.
  destruct (create_verifier_queries _ _ _ _ _) as [[r|]|]; cbn [rbind]; auto. destruct (N r eq_refl).
Qed.
End Absent.
