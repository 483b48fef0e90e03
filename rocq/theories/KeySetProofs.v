(** The prover's output depends on the set of keys only. *)
From Coq Require Import Permutation String.
From Verif Require Import Base BaseFacts Alg AlgFacts TreeSpec TreeFacts TrieModel TrieProofs TrieTheorems BTree WireModel ProofModel ProofSpec PathProofs
  OpeningProofs VerifierProofs ProofTheorems IpaModel LagrangeSpec IpaSpec CheckProofs CodecModel VerkleDbModel DbSpec VerkleDbSim DiskProof SameProofs.
Local Open Scope list_scope.
Notation len := List.length.

Lemma set_of_same {K} {CK : Cmp K} {CL : CmpLaws K} (l1 l2 : list K) : (forall x, In x l1 <-> In x l2) -> set_of l1 = set_of l2.
Proof. intro H. apply sorted_ext; try apply sorted_set_of. intro x. rewrite !In_set_of. apply H. Qed.

Section KeySet.
Context {A : Alg} {L : AlgLaws A} {P : Par A} {PL : ParLaws P}.
Opaque vcommit gsum subtree_hash.

Section Lengths.
Context (db : MemoryDb) (m : bytes -> option bytes) (St : list bytes) (C : Canon db m St).
(** The number of values given for the polynomial of an entry. *)
Definition fits (tg : bytes * Z) (q : ProverQuery) : Prop :=
  len (pq_poly q) = match stem_at St (fst tg) with Some _ => 4%nat | None => 256%nat end.

Lemma ext_open_len q t e c1 c2 qs : stem_at St q = Some t -> ext_open_query e c1 c2 = Ok qs ->
  Forall2 fits ([(q, 0); (q, 1)] ++ (if c1 then [(q, 2)] else []) ++ (if c2 then [(q, 3)] else [])) qs.
Proof.
  intros Hq E. unfold ext_open_query in E. destruct (into_stem (eo_meta e)) as [s|]; [|discriminate]. cbn [rbind] in E.
  injection E as <-. cbn [app]. assert (X : forall z c f y, len f = 4%nat -> fits (q, z) (mkPQ c f z y)).
  { intros z c f y Hl. unfold fits. cbn [fst pq_poly]. now rewrite Hq. }
  constructor; [now apply X|]. constructor; [now apply X|]. destruct c1, c2; cbn [app]; repeat (constructor; [now apply X|]); constructor.
Qed.
Lemma half_len t b f : get_half_hashes db t b = Ok f -> len f = 256%nat.
Proof.
  unfold get_half_hashes. destruct (assertb _) as [[]|]; [cbn [rbind]|discriminate]. destruct (half_hashes _ _ _) as [r|]; [cbn [rbind]|discriminate].
  destruct (len r =? 256)%nat eqn:E; cbn [assertb rbind]; [|discriminate]. intro X. injection X as <-. now apply Nat.eqb_eq.
Qed.
Lemma suffix_len q t u sm svs : stem_at St q = Some t -> forall qs, suffix_queries db u sm svs = Ok qs ->
  Forall2 fits (flat_map (fun sv => sv_tags q (fst sv)) svs) qs.
Proof.
  intros Hq. induction svs as [|[s v] svs IH]; intros qs E; cbn [suffix_queries flat_map] in *.
  - injection E as <-. constructor.
  - unfold suffix_query in E. destruct (match v with Some w => _ | None => _ end) as [lo hi].
    destruct (get_half_hashes db u _) as [f|] eqn:Ef; [|discriminate]. cbn [rbind] in E.
    destruct (suffix_queries db u sm svs) as [r|]; [|discriminate]. cbn [rbind] in E. injection E as <-.
    apply half_len in Ef. unfold sv_tags. cbn [fst app].
    assert (X : forall z z' c y, fits (q ++ [hsel s], z) (mkPQ c f z' y)).
    { intros z z' c y. unfold fits. cbn [fst pq_poly]. rewrite (stem_at_child St q t _ Hq). exact Ef. }
    constructor; [apply X|]. constructor; [apply X|now apply IH].
Qed.
Lemma branch_len p c f cs : internal St p = true -> len f = 256%nat -> forall qs, branch_queries c f cs = Ok qs ->
  Forall2 fits (map (fun z => (p, z)) cs) qs.
Proof.
  intros Hp Hf. induction cs as [|i cs IH]; intros qs E; cbn [branch_queries map] in *.
  - injection E as <-. constructor.
  - destruct (Base.index f (Z.to_nat i)) as [y|]; [|discriminate]. cbn [rbind] in E.
    destruct (branch_queries c f cs) as [r|]; [|discriminate]. cbn [rbind] in E. injection E as <-.
    constructor; [|now apply IH]. unfold fits. cbn [fst pq_poly]. unfold stem_at. now rewrite Hp.
Qed.
Lemma children_len p l : forall f, children_hashes db p l = Ok f -> len f = len l.
Proof.
  induction l as [|i l IH]; intros f E; cbn [children_hashes] in E; [injection E as <-; reflexivity|].
  destruct (get_branch_child db p i) as [ch|]; [|discriminate]. cbn [rbind] in E.
  match type of E with rbind ?x _ = _ => destruct x as [y|]; [|discriminate] end. cbn [rbind] in E.
  destruct (children_hashes db p l) as [r|]; [|discriminate]. cbn [rbind] in E. injection E as <-. cbn [List.length]. f_equal. now apply IH.
Qed.
Lemma open_all_len o : forall diff qs d, good m St o -> open_all db o diff = Ok (qs, d) -> Forall2 fits (flat_map tags_of o) qs.
Proof.
  induction o as [|[p op] o IH]; intros diff qs d Hg E; cbn [open_all flat_map] in *.
  - injection E as <- _. constructor.
  - apply (good_cons m St) in Hg as (Hs & Hg & _). cbn [fst snd] in *.
    destruct op as [e svs|mt cs|e]; cbn [shape] in Hs.
    + destruct Hs as (t & Hq & _). destruct (suffix_open_query db e svs) as [q1|] eqn:E1; [|discriminate]. cbn [rbind] in E.
      destruct (open_all db o diff) as [[q2 d2]|] eqn:E2; [|discriminate]. cbn [rbind] in E. injection E as <- _.
      apply Forall2_app; [|now apply (IH _ _ _ Hg E2)]. unfold suffix_open_query in E1.
      destruct (ext_open_query e _ _) as [q3|] eqn:E3; [|discriminate]. cbn [rbind] in E1.
      destruct (into_stem (eo_meta e)) as [sm|]; [|discriminate]. cbn [rbind] in E1.
      destruct (suffix_queries db (eo_stem e) sm svs) as [q4|] eqn:E4; [|discriminate]. cbn [rbind] in E1. injection E1 as <-.
      cbn [tags_of]. rewrite !app_assoc. apply Forall2_app; [|exact (suffix_len p t (eo_stem e) sm svs Hq q4 E4)].
      rewrite <- app_assoc. exact (ext_open_len p t e _ _ q3 Hq E3).
    + destruct Hs as (Hp & _). destruct (branch_open_query db p mt cs) as [q1|] eqn:E1; [|discriminate]. cbn [rbind] in E.
      destruct (open_all db o diff) as [[q2 d2]|] eqn:E2; [|discriminate]. cbn [rbind] in E. injection E as <- _.
      apply Forall2_app; [|now apply (IH _ _ _ Hg E2)]. unfold branch_open_query in E1.
      destruct (into_branch mt) as [bm|]; [|discriminate]. cbn [rbind] in E1.
      destruct (get_branch_children_hashes db p) as [f|] eqn:Ef; [|discriminate]. cbn [rbind] in E1.
      apply children_len in Ef. cbn [tags_of]. exact (branch_len p _ f cs Hp Ef q1 E1).
    + destruct Hs as (t & Hq & _). destruct (ext_open_query e false false) as [q1|] eqn:E1; [|discriminate]. cbn [rbind] in E.
      destruct (open_all db o (set_insert (eo_stem e) diff)) as [[q2 d2]|] eqn:E2; [|discriminate]. cbn [rbind] in E. injection E as <- _.
      apply Forall2_app; [|now apply (IH _ _ _ Hg E2)]. exact (ext_open_len p t e false false q1 Hq E1).
Qed.

(** The query that opens an entry. *)
Lemma opens_unique tg q q' : opens m St tg q -> opens m St tg q' -> fits tg q -> fits tg q' -> q = q'.
Proof.
  intros (H1 & H2 & H3 & H4 & H5) (K1 & K2 & K3 & K4 & K5) Hl Kl. destruct q as [c f z y], q' as [c' f' z' y']. cbn [pq_comm pq_poly pq_point pq_result] in *.
  unfold fits in *. cbn [pq_poly] in *. destruct H5 as (B & _). cbn [pq_poly] in B.
  assert (f = f'). { apply (nth_ext _ _ fzero fzero); [congruence|]. intros i Hi.
    rewrite <- (Nat2Z.id i). rewrite H4, K4 by lia. reflexivity. }
  congruence.
Qed.
Lemma unique_list tags qs qs' : Forall2 (opens m St) tags qs -> Forall2 (opens m St) tags qs' -> Forall2 fits tags qs -> Forall2 fits tags qs' -> qs = qs'.
Proof.
  intro H. revert qs'. induction H as [|tg q tags qs Ho _ IH]; intros qs' H1 H2 H3.
  - inversion H1. reflexivity.
  - inversion H1 as [|? q' ? r' O1 R1 X1 X2]; subst. inversion H2; subst. inversion H3; subst. f_equal; [now apply (opens_unique tg)|now apply IH].
Qed.

Lemma prover_len keys qs hint : Forall is_key keys -> create_prover_queries db keys = Ok (qs, hint) -> Forall2 fits (all_entries St keys) qs.
Proof.
  intros Hk E. unfold create_prover_queries in E. destruct (assertb _) as [[]|]; [|discriminate]. cbn [rbind] in E.
  destruct (collect_ok db m St C keys Hk) as (o & Ec & Hg & Ho). rewrite Ec in E. cbn [rbind od_openings] in E.
  destruct (open_all db o []) as [[q d]|] eqn:Eo; [|discriminate]. cbn [rbind] in E. injection E as <- _.
  rewrite <- (tags_all m St keys o Hg Ho). now apply (open_all_len o _ _ _ Hg Eo).
Qed.

Lemma queries_set keys1 keys2 : Forall is_key keys1 -> (forall k, In k keys1 <-> In k keys2) ->
  create_proof_parts db keys1 = create_proof_parts db keys2.
Proof.
  intros K1 Same. assert (K2 : Forall is_key keys2) by (apply Forall_forall; intros k Hk; apply Same in Hk; rewrite Forall_forall in K1; auto).
  destruct keys1 as [|k1 l1].
  { destruct keys2 as [|k2 l2]; [reflexivity|]. exfalso. apply (proj2 (Same k2)). now left. }
  destruct keys2 as [|k2 l2]; [exfalso; apply (proj1 (Same k1)); now left|].
  set (a := k1 :: l1) in *. set (b := k2 :: l2) in *.
  assert (Na : a <> []) by discriminate. assert (Nb : b <> []) by discriminate.
  destruct (prover_queries_ok db m St C a Na K1) as (q1 & E1 & O1). destruct (prover_queries_ok db m St C b Nb K2) as (q2 & E2 & O2).
  pose proof (prover_len a q1 _ K1 E1) as F1. pose proof (prover_len b q2 _ K2 E2) as F2.
  assert (Ee : all_entries St a = all_entries St b).
  { apply set_of_same. intro x. rewrite !in_flat_map. split; intros (k & Hk & Hx); exists k; (split; [now apply Same|exact Hx]). }
  assert (Es : forall x, In x (map (firstn 31) a) <-> In x (map (firstn 31) b)).
  { intro x. rewrite !in_map_iff. split; intros (k & Hx & Hk); exists k; (split; [exact Hx|now apply Same]). }
  assert (Eh : proof_hint St a = proof_hint St b).
  { unfold proof_hint. rewrite (set_of_same _ _ Es). f_equal.
    apply sorted_ext; try (unfold proof_diff; apply sorted_filter, sorted_set_of). intro t. rewrite !In_proof_diff.
    rewrite (Es t). split; intros ((k & Hk & Hx) & Hn); (split; [exists k; split; [now apply Same|exact Hx]|exact Hn]). }
  rewrite Ee in O1, F1. assert (q1 = q2) by (eapply unique_list; eassumption). subst q2.
  unfold create_proof_parts. unfold a at 1, b at 1. cbn [app]. rewrite E1, E2, Eh. reflexivity.
Qed.
End Lengths.

Theorem parts_key_set h (db : MemoryDb) keys1 keys2 : wf_history h -> run_mem h = Ok db -> Forall is_key keys1 ->
  (forall k, In k keys1 <-> In k keys2) -> create_proof_parts db keys1 = create_proof_parts db keys2.
Proof. intros Hw E. exact (queries_set db _ _ (run_canon h db Hw E) keys1 keys2). Qed.

Context {C : ECodec A} {H : Hasher}.
Lemma proof_key_set h (db : MemoryDb) keys1 keys2 order : wf_history h -> run_mem h = Ok db -> Forall is_key keys1 ->
  (forall k, In k keys1 <-> In k keys2) -> create_verkle_proof order db keys1 = create_verkle_proof order db keys2.
Proof. intros Hw E Hk Hs. unfold create_verkle_proof. now rewrite (parts_key_set h db keys1 keys2 Hw E Hk Hs). Qed.
Lemma same_keys (keys1 keys2 : list bytes) : Forall is_key keys1 -> (forall k, In k keys1 <-> In k keys2) -> Forall is_key keys2.
Proof. intros K Hs. apply Forall_forall. intros k Hk. apply Hs in Hk. rewrite Forall_forall in K. auto. Qed.
Lemma same_opened (m : bytes -> option bytes) St (keys1 keys2 : list bytes) : (forall k, In k keys1 <-> In k keys2) ->
  distinguishable m St keys1 -> distinguishable m St keys2.
Proof.
  intros Hs. unfold distinguishable, opened, all_entries.
  rewrite (set_of_same (flat_map (entries St) keys1) (flat_map (entries St) keys2)); [tauto|].
  intro x. rewrite !in_flat_map. split; intros (k & Hk & Hx); exists k; (split; [now apply Hs|exact Hx]).
Qed.

Context {CL : ECodecLaws C}.
Lemma same_set_proof (Hfit : domain_fits 256) h1 h2 (db1 db2 : MemoryDb) keys1 keys2 order1 order2 p1 : wf_history h1 -> wf_history h2 ->
  (forall k, final_map h1 k = final_map h2 k) -> run_mem h1 = Ok db1 -> run_mem h2 = Ok db2 ->
  Forall is_key keys1 -> (forall k, In k keys1 <-> In k keys2) ->
  (forall l, Permutation (order1 l) l) -> (forall l, Permutation (order2 l) l) ->
  create_verkle_proof order1 db1 keys1 = Ok (Some p1) ->
  exists qs, create_proof_parts db1 keys1 = Ok (Some (qs, vp_hint p1, vp_comms p1)) /\
  (outside_domain 256 (fst (mp_t (tr_new (lbl "vt")) (map public_query qs) (mp_g (vp_proof p1)))) ->
   create_verkle_proof order2 db2 keys2 = Ok (Some p1)).
Proof.
  intros W1 W2 E E1 E2 Hk Hs O1 O2 C1. rewrite <- (proof_key_set h2 db2 keys1 keys2 order2 W2 E2 Hk Hs).
  exact (same_contents_proof Hfit h1 h2 db1 db2 keys1 order1 order2 p1 W1 W2 E E1 E2 Hk O1 O2 C1).
Qed.
Lemma any_listing (Hfit : domain_fits 256) h (db : MemoryDb) keys1 keys2 order p : wf_history h -> run_mem h = Ok db -> keys1 <> [] ->
  Forall is_key keys1 -> (forall k, In k keys1 <-> In k keys2) -> distinguishable (final_map h) (stems_of h) keys1 ->
  (forall l, Permutation (order l) l) -> create_verkle_proof order db keys1 = Ok (Some p) ->
  exists root qs uh, root_commitment db = Ok root /\
    create_verifier_queries (vp_hint p) (vp_comms p) keys2 (map (final_map h) keys2) root = Ok (Some (qs, uh)) /\
    (outside_domain 256 (fst (mp_t (tr_new (lbl "vt")) qs (mp_g (vp_proof p)))) ->
     proof_check p keys2 (map (final_map h) keys2) root = Ok (true, Some uh)).
Proof.
  intros Hw E Nk Hk Hs Hd Ho Cr. rewrite (proof_key_set h db keys1 keys2 order Hw E Hk Hs) in Cr.
  apply (created_accepted Hfit h db keys2 order p Hw E); try assumption.
  - intro X. subst keys2. destruct keys1 as [|k l]; [now apply Nk|]. apply (proj1 (Hs k)). now left.
  - now apply (same_keys keys1).
  - now apply (same_opened _ _ keys1).
Qed.

Context {DC : Codec A} {DL : CodecLaws DC}.
Lemma disk_key_set l v keys1 keys2 order : wf_ops l -> settled_ops l -> no_rewrite l -> run_disk l = Ok v ->
  Forall is_key keys1 -> (forall k, In k keys1 <-> In k keys2) -> create_verkle_proof order v keys1 = create_verkle_proof order v keys2.
Proof.
  intros Hw Hsp Hn E Hk Hs. destruct (disk_proof l Hw Hsp Hn) as (v' & db & E' & Em & _ & Same).
  assert (v' = v) by congruence. subst v'. rewrite (proj2 (Same order keys1)), (proj2 (Same order keys2)).
  exact (proof_key_set (contents l) db keys1 keys2 order (contents_wf l Hw) Em Hk Hs).
Qed.
End KeySet.
