(** Accepted proofs and the tree: the theorems. *)
From Coq Require Import String.
From Verif Require Import Base BaseFacts Alg AlgFacts TreeSpec TreeFacts TrieModel TrieProofs TrieTheorems BTree
  WireModel ProofModel ProofSpec PathProofs OpeningProofs VerifierProofs ProofTheorems ProofReject IpaModel LagrangeSpec LagrangeProofs
  IpaSpec CheckProofs SoundSpec SoundCheck TruthSpec TruthVerifier TruthFacts TruthProofs.
Local Open Scope list_scope.

Section Theorems.
Context {A : Alg} {L : AlgLaws A} {P : Par A} {PL : ParLaws P}.
Notation len := List.length.
Add Field Ffield : F_field.
Add Ring dnring : dn_ring.

Lemma of_Z_small a b : domain_fits 256 -> 0 <= a < 256 -> 0 <= b < 256 -> of_Z a = of_Z b -> a = b.
Proof.
  intros Fit Ba Bb E. assert (X : Z.to_nat a = Z.to_nat b); [|lia].
  apply (pt_inj 256 Fit); [exact eq_refl || lia ..|]. unfold pt. rewrite !Z2Nat.id by lia. exact E.
Qed.

Lemma query_opens m St (qs : list VerifierQuery) vs c z y : domain_fits 256 -> Forall2 opening qs vs -> 0 <= z < 256 ->
  In (mkVQ c (of_Z z) y) qs -> opens_to qs m St vs c z y.
Proof.
  intros Fit Hop Bz Hin.
  assert (X : exists v, In (mkVQ c (of_Z z) y, v) (combine qs vs) /\ opening (mkVQ c (of_Z z) y) v).
  { clear - Hop Hin. induction Hop as [|q v qs vs H Hop IH]; [destruct Hin|]. cbn [combine In].
    destruct Hin as [->|Hin]; [eauto|]. destruct (IH Hin) as (w & H1 & H2). eauto. }
  destruct X as (v & Hv & _ & _ & z' & Bz' & Ep & Er). cbn [vq_point vq_result] in Ep, Er.
  apply of_Z_small in Ep; auto. subst z'. exists (entry v). split; [|now symmetry].
  exact (known_query m St qs vs _ v Hv).
Qed.

Lemma claims_true h (db : MemoryDb) root hint comms keys values qs uh vs :
  domain_fits 256 -> wf_history h -> run_mem h = Ok db -> root_commitment db = Ok root ->
  Forall is_key keys -> NoDup keys -> len values = len keys ->
  create_verifier_queries hint comms keys values root = Ok (Some (qs, uh)) -> Forall2 opening qs vs ->
  coherent hint keys -> ideal (final_map h) (stems_of h) qs vs ->
  scalars_apart (final_map h) (stems_of h) (map (firstn 31) keys ++ vh_diff hint) values ->
  forall k v, In (k, v) (combine keys values) -> trie_get db k = Ok v \/ hidden (stems_of h) hint keys k v.
Proof.
  intros Fit Hw Erun Eroot Hkeys Hdup Hlen Ev Hop Hco Hid Hsc k v Hkv.
  pose proof (run_canon h db Hw Erun) as C. rewrite (root_node h db Hw Erun) in Eroot.
  destruct (queries_final hint comms keys values root qs uh Hkeys Ev) as (s & cm & F & Hp & Hnp & Hr & Hq & _).
  destruct (fi_key _ _ _ _ _ F k v Hkv) as (d & e & Hst & _).
  assert (Hk : is_key k) by (rewrite Forall_forall in Hkeys; apply Hkeys; now apply in_combine_l in Hkv).
  assert (KF : KeyFacts hint keys root qs cm k v d e (final_map h) (stems_of h) vs).
  { apply (key_facts hint keys values root qs Hkeys Hdup Hlen Hco s cm F k v d e Hkv Hst); auto.
    intros p z Hin Bz. destruct (Hq p z Hin) as (c & Hc & Hqin). exists c. split; [exact Hc|]. now apply query_opens. }
  assert (Er : root = node_comm (final_map h) (stems_of h) []) by congruence.
  destruct (key_true db (final_map h) (stems_of h) C qs vs Hid root Er hint keys values Hsc k Hk v d e cm KF) as [H|(H1 & H2 & H3 & H4)].
  - now apply in_combine_l in Hkv.
  - now apply in_combine_r in Hkv.
  - left. rewrite <- H. unfold trie_get. cbn [get_leaf memory_db_ops]. unfold mem_get_leaf. now rewrite (can_leaf _ _ _ C).
  - right. split; [exact H1|]. split; [exact H3|]. exists d. split; [|exact H4].
    apply get_claim in Hst. now rewrite H2 in Hst.
Qed.

Lemma vcommit_diff f g : vcommit (fun i => fsub (f i) (g i)) = gadd (vcommit f) (smul (fsub fzero fone) (vcommit g)).
Proof.
  unfold vcommit. rewrite <- gsum_smul, <- gsum_add. apply gsum_ext. intros i _. module.
Qed.

(** Two openings of one commitment are a relation between the generators. *)
Lemma known_commits m St (qs : list VerifierQuery) vs c f : Forall2 opening qs vs -> known m St qs vs c f -> c = vcommit f.
Proof.
  intros Hop K. destruct K as [q v Hin|p _|].
  - clear - Hop Hin. induction Hop as [|q' v' qs vs H Hop IH]; [destruct Hin|]. destruct Hin as [Hin|Hin]; [|now apply IH].
    assert (q' = q) as -> by congruence. assert (v' = v) as -> by congruence. apply H.
  - reflexivity.
  - symmetry. now apply vcommit_zero.
Qed.
Lemma double_opening m St (qs : list VerifierQuery) vs c f g z : Forall2 opening qs vs ->
  known m St qs vs c f -> known m St qs vs c g -> 0 <= z < 256 -> f z <> g z ->
  relation (crs_G trie_crs) (map (fun i => fsub (f (Z.of_nat i)) (g (Z.of_nat i))) (seq 0 256)).
Proof.
  intros Hop Kf Kg Bz Hne. split; [|split].
  - rewrite map_length, seq_length. symmetry. apply trie_crs_len.
  - apply Exists_exists. exists (fsub (f z) (g z)). split.
    + apply in_map_iff. exists (Z.to_nat z). rewrite Z2Nat.id by lia. split; [reflexivity|]. apply in_seq. lia.
    + intro E. apply Hne. exact (fsub_eq _ _ E).
  - rewrite trie_crs_len. rewrite (commit_vcommit (fun i => fsub (f i) (g i))).
    + pose proof (known_commits _ _ _ _ _ _ Hop Kf) as Ef. pose proof (known_commits _ _ _ _ _ _ Hop Kg) as Eg.
      rewrite vcommit_diff, <- Ef, <- Eg. module.
    + intros i Hi. rewrite (nth_indep _ _ (fsub (f (Z.of_nat 0)) (g (Z.of_nat 0)))) by (rewrite map_length, seq_length; exact Hi).
      rewrite (map_nth (fun i => fsub (f (Z.of_nat i)) (g (Z.of_nat i)))), seq_nth by exact Hi. reflexivity.
Qed.

(** Accepted runs of the argument. *)
Lemma Forall2_nth_error {X Y} (R : X -> Y -> Prop) : forall l l', len l' = len l ->
  (forall i x, nth_error l i = Some x -> exists y, nth_error l' i = Some y /\ R x y) -> Forall2 R l l'.
Proof.
  induction l as [|x l IH]; intros [|y l'] E H; try discriminate; constructor.
  - destruct (H 0%nat x eq_refl) as (y' & H1 & H2). cbn in H1. congruence.
  - apply IH; [cbn in E; lia|]. intros i z Hi. exact (H (S i) z Hi).
Qed.
Lemma Forall2_nth {X Y} (R : X -> Y -> Prop) l l' : Forall2 R l l' -> forall i d y, nth_error l' i = Some y -> R (nth i l d) y.
Proof. induction 1; intros [|i] d z E; cbn in *; try discriminate; [congruence|eauto]. Qed.

Lemma accepted_openings {C : ECodec A} hint comms keys values root qs uh ch p :
  domain_fits 256 -> Forall is_key keys ->
  create_verifier_queries hint comms keys values root = Ok (Some (qs, uh)) ->
  enough_challenges 8 (len qs) ch -> all_checked p hint comms keys values root qs ch ->
  exists zs, points_ok 256 zs qs /\
  match extract_multi 256 zs qs ch (pr_a p) with
  | Opening vs => Forall2 opening qs vs
  | Relation v => relation (crs_G trie_crs ++ [crs_Q trie_crs]) v
  end.
Proof.
  intros Fit K Ev Ec Ac. destruct (check_extraction hint comms keys values root qs uh ch p Fit K Ev Ec Ac) as (zs & Hz & X).
  exists zs. split; [exact Hz|]. destruct (extract_multi 256 zs qs ch (pr_a p)) as [vs|v]; [|exact X]. destruct X as [X1 X2].
  apply Forall2_nth_error; [exact X1|]. intros i q Hi. destruct (X2 i q Hi) as (v & Hv & Lv & Ec' & Er). exists v. split; [exact Hv|].
  pose proof (Forall2_nth _ _ _ Hz i 0%nat q Hi) as [Hlt Hpt]. split; [exact Lv|]. split.
  - rewrite Ec'. apply commit_vcommit. intros j _. unfold entry. now rewrite Nat2Z.id.
  - exists (Z.of_nat (nth i zs 0%nat)). split; [lia|]. split; [exact Hpt|]. unfold entry. rewrite Nat2Z.id. now symmetry.
Qed.

Lemma accepted_true {C : ECodec A} h (db : MemoryDb) root hint comms keys values qs uh ch p :
  domain_fits 256 -> wf_history h -> run_mem h = Ok db -> root_commitment db = Ok root ->
  Forall is_key keys -> NoDup keys -> len values = len keys ->
  create_verifier_queries hint comms keys values root = Ok (Some (qs, uh)) ->
  enough_challenges 8 (len qs) ch -> all_checked p hint comms keys values root qs ch ->
  coherent hint keys ->
  scalars_apart (final_map h) (stems_of h) (map (firstn 31) keys ++ vh_diff hint) values ->
  exists zs, points_ok 256 zs qs /\
  match extract_multi 256 zs qs ch (pr_a p) with
  | Opening vs => ideal (final_map h) (stems_of h) qs vs ->
      forall k v, In (k, v) (combine keys values) -> trie_get db k = Ok v \/ hidden (stems_of h) hint keys k v
  | Relation v => relation (crs_G trie_crs ++ [crs_Q trie_crs]) v
  end.
Proof.
  intros Fit Hw Erun Eroot Hkeys Hdup Hlen Ev Ec Ac Hco Hsc.
  destruct (accepted_openings hint comms keys values root qs uh ch p Fit Hkeys Ev Ec Ac) as (zs & Hz & X). exists zs. split; [exact Hz|].
  destruct (extract_multi 256 zs qs ch (pr_a p)) as [vs|v]; [|exact X]. intros Hid.
  exact (claims_true h db root hint comms keys values qs uh vs Fit Hw Erun Eroot Hkeys Hdup Hlen Ev X Hco Hid Hsc).
Qed.

(** The hints the prover makes. *)
Lemma combine_map2 {X Y Z'} (f : X -> Y) (g : X -> Z') l s d e :
  In (s, d, e) (combine (combine l (map f l)) (map g l)) -> In s l /\ d = f s /\ e = g s.
Proof.
  induction l as [|x l IH]; [intros []|]. cbn [map combine In]. intros [E|H]; [|destruct (IH H); auto].
  assert (s = x) by congruence. subst x. split; [now left|]. split; congruence.
Qed.
Lemma honest_claim St keys s d e : In (s, d, e) (claims (proof_hint St keys) keys) ->
  In s (map (firstn 31) keys) /\ d = Z.of_nat (sd St s) /\ e = status St s.
Proof.
  unfold claims, proof_hint. cbn [vh_depths vh_ext]. intros H. apply combine_map2 in H. destruct H as (H & H1 & H2).
  split; [exact (proj1 (In_set_of _ _) H)|]. now split.
Qed.

Lemma honest_coherent (db : MemoryDb) m St keys : Canon db m St -> Forall is_key keys -> coherent (proof_hint St keys) keys.
Proof.
  intros C Hk. assert (W : wfS St) by apply C.
  assert (HS : forall s, In s (map (firstn 31) keys) -> len s = 31%nat).
  { intros s Hs. apply in_map_iff in Hs. destruct Hs as (k & <- & Hin). rewrite Forall_forall in Hk. apply key_stem, Hk, Hin. }
  assert (E : forall s1 s2, In s1 (map (firstn 31) keys) -> In s2 (map (firstn 31) keys) -> (sd St s1 < sd St s2)%nat ->
    firstn (sd St s1) s1 <> firstn (sd St s1) s2).
  { intros s1 s2 H1 H2 Hlt Eq. destruct (sd_spec St s1 W (HS _ H1)) as (_ & X1 & _). destruct (sd_spec St s2 W (HS _ H2)) as (X2 & _ & _).
    specialize (X2 _ Hlt). rewrite <- Eq in X2. congruence. }
  constructor.
  - intros s1 d1 e1 s2 d2 e2 H1 H2 Hlt. apply honest_claim in H1. apply honest_claim in H2.
    destruct H1 as (I1 & -> & _). destruct H2 as (I2 & -> & _). rewrite !Nat2Z.id in Hlt. rewrite !Nat2Z.id. exact (E s1 s2 I1 I2 Hlt).
  - intros (s1 & d1 & s2 & d2 & H1 & H2 & Hne & Hd & Hp). apply honest_claim in H1. apply honest_claim in H2.
    destruct H1 as (I1 & -> & X1). destruct H2 as (I2 & -> & X2). rewrite !Nat2Z.id in *.
    unfold status in X1, X2. rewrite <- Hd, <- Hp in X2. destruct (stem_at St (firstn (sd St s1) s1)) as [t|]; [|discriminate].
    destruct (beqb t s1) eqn:B1; [|discriminate]. destruct (beqb t s2) eqn:B2; [|discriminate].
    apply beqb_eq in B1. apply beqb_eq in B2. congruence.
  - intros e1 e2 (s1 & d1 & s2 & d2 & H1 & H2 & Hne & Hd & Hp). apply honest_claim in H1. apply honest_claim in H2.
    destruct H1 as (I1 & -> & X1). destruct H2 as (I2 & -> & X2). rewrite !Nat2Z.id in *.
    unfold status in X1, X2. rewrite <- Hd, <- Hp in X2. destruct (stem_at St (firstn (sd St s1) s1)) as [t|]; [|subst; tauto].
    destruct (beqb t s1), (beqb t s2); subst; split; discriminate.
  - intros t Ht. unfold proof_hint in Ht. cbn [vh_diff] in Ht. apply In_proof_diff in Ht. apply Ht.
Qed.

Lemma honest_not_hidden St keys k v : ~ hidden St (proof_hint St keys) keys k v.
Proof. intros (_ & _ & d & H & Hlt). apply honest_claim in H. destruct H as (_ & -> & _). rewrite Nat2Z.id in Hlt. lia. Qed.

Lemma created_hint {C : ECodec A} {H : Hasher} h (db : MemoryDb) keys order p : wf_history h -> run_mem h = Ok db -> Forall is_key keys ->
  create_verkle_proof order db keys = Ok (Some p) -> vp_hint p = proof_hint (stems_of h) keys.
Proof.
  intros Hw E Hk Cr. pose proof (run_canon h db Hw E) as Cn.
  assert (Nk : keys <> []) by (intros ->; unfold create_verkle_proof, create_proof_parts in Cr; cbn in Cr; discriminate).
  destruct (proof_parts_ok db _ _ Cn keys Hk Nk) as (qs & Ep & Hop).
  unfold create_verkle_proof in Cr. rewrite Ep in Cr. cbn [rbind] in Cr.
  destruct (precomputed_weights 256) as [pw|]; cbn [rbind] in Cr; [|discriminate].
  match type of Cr with context [mp_open ?a ?b ?c ?d ?e] => destruct (mp_open a b c d e) as [[mp s]|] end; cbn [rbind] in Cr; [|discriminate].
  injection Cr as <-. reflexivity.
Qed.
Lemma created_coherent {C : ECodec A} {H : Hasher} h (db : MemoryDb) keys order p : wf_history h -> run_mem h = Ok db -> Forall is_key keys ->
  create_verkle_proof order db keys = Ok (Some p) ->
  coherent (vp_hint p) keys /\ forall k v, ~ hidden (stems_of h) (vp_hint p) keys k v.
Proof.
  intros Hw E Hk Cr. rewrite (created_hint h db keys order p Hw E Hk Cr). split.
  - exact (honest_coherent db _ _ keys (run_canon h db Hw E) Hk).
  - intros k v. apply honest_not_hidden.
Qed.

(** In a field with at least 2^248 elements the scalars are apart. *)
Lemma scalars_apart_large m St others values :
  (forall a, 0 < a < 2 ^ 248 -> of_Z a <> fzero) ->
  Forall is_stem St -> Forall is_stem others ->
  (forall k v, m k = Some v -> is_value v) -> (forall v, In (Some v) values -> is_value v) ->
  scalars_apart m St others values.
Proof.
  intros Fit HSt Hot Hm Hv.
  assert (Inj : forall a b, 0 <= a < 2 ^ 248 -> 0 <= b < 2 ^ 248 -> of_Z a = of_Z b -> a = b).
  { assert (X : forall a b, 0 <= a < b -> b < 2 ^ 248 -> of_Z a <> of_Z b).
    { intros a b Hab Hb E. apply (Fit (b - a)); [lia|]. rewrite of_Z_sub, E. ring. }
    intros a b Ha Hb E. destruct (Z.lt_trichotomy a b) as [H|[H|H]]; [|exact H|]; exfalso.
    - exact (X a b ltac:(lia) ltac:(lia) E).
    - exact (X b a ltac:(lia) ltac:(lia) (eq_sym E)). }
  assert (B16 : forall l, is_bytes l -> (len l <= 16)%nat -> 0 <= le_Z l < 2 ^ 128).
  { intros l Bl Ll. pose proof (le_Z_bound l Bl) as X. change (2 ^ 128) with (256 ^ 16).
    assert (256 ^ Z.of_nat (len l) <= 256 ^ 16) by (apply Z.pow_le_mono_r; lia). lia. }
  assert (P1 : 0 < 2 ^ 128) by reflexivity. assert (P2 : 2 ^ 128 + 2 ^ 128 < 2 ^ 248) by reflexivity.
  assert (P3 : 1 < 2 ^ 128) by reflexivity.
  assert (Lo : forall v, is_value v -> 0 <= le_Z (firstn 16 v) < 2 ^ 128).
  { intros v [Lv Bv]. apply B16; [now apply is_bytes_firstn|]. rewrite firstn_length. lia. }
  assert (Hi : forall v, is_value v -> 0 <= le_Z (firstn 16 (skipn 16 v)) < 2 ^ 128).
  { intros v [Lv Bv]. apply B16; [apply is_bytes_firstn; now apply is_bytes_skipn|]. rewrite firstn_length. lia. }
  constructor.
  - intros t s It Is E. rewrite Forall_forall in HSt, Hot. destruct (HSt t It) as [Lt Bt]. destruct (Hot s Is) as [Ls Bs].
    apply le_Z_inj; auto; [congruence|]. pose proof (le_Z_bound t Bt) as X1. pose proof (le_Z_bound s Bs) as X2.
    rewrite Lt in X1. rewrite Ls in X2. change (256 ^ Z.of_nat 31) with (2 ^ 248) in *. now apply Inj.
  - intros v Hin. assert (Vv : is_value v) by (destruct Hin as [[k Hk]|Hin]; eauto).
    pose proof (Lo v Vv) as B. unfold leaf_low. rewrite <- of_Z_add. split.
    + apply Fit. lia.
    + rewrite <- of_Z_1. intros E. apply Inj in E; lia.
  - intros k v w Hk Hw El Eh. pose proof (Hm k v Hk) as Vv. pose proof (Hv w Hw) as Vw.
    unfold leaf_low in El. rewrite <- !of_Z_add in El. unfold leaf_high in Eh.
    pose proof (Lo v Vv). pose proof (Lo w Vw). pose proof (Hi v Vv). pose proof (Hi w Vw).
    apply Inj in El; [|lia|lia]. apply Inj in Eh; [|lia|lia].
    destruct Vv as [Lv Bv], Vw as [Lw Bw].
    assert (E1 : firstn 16 v = firstn 16 w).
    { apply le_Z_inj; [rewrite !firstn_length; lia|now apply is_bytes_firstn|now apply is_bytes_firstn|lia]. }
    assert (E2 : skipn 16 v = skipn 16 w).
    { rewrite <- (firstn_all2 (n := 16) (skipn 16 v)) by (rewrite skipn_length; lia).
      rewrite <- (firstn_all2 (n := 16) (skipn 16 w)) by (rewrite skipn_length; lia).
      apply le_Z_inj; [rewrite !firstn_length, !skipn_length; lia| | |exact Eh]; apply is_bytes_firstn; now apply is_bytes_skipn. }
    rewrite <- (firstn_skipn 16 v), <- (firstn_skipn 16 w). congruence.
Qed.
End Theorems.
