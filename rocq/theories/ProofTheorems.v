(** Consequences for histories, in the form quoted by [PropProof]. *)
From Coq Require Import Permutation Sorted.
From Verif Require Import Base BaseFacts Alg AlgFacts TreeSpec TreeFacts TrieModel TrieProofs TrieTheorems BTree
  WireModel WireSpec ProofModel ProofSpec PathProofs OpeningProofs VerifierProofs.

Section Thms.
Context {A : Alg} {L : AlgLaws A} {P : Par A} {PL : ParLaws P}.
Opaque vcommit gsum subtree_hash.
Notation stem k := (firstn 31 k).

(** ** C19 *)
Lemma firstn_stem i (k : bytes) : (i <= 31)%nat -> firstn i k = firstn i (stem k).
Proof. intro H. rewrite firstn_firstn. f_equal. lia. Qed.

Lemma path_lookup h (db : MemoryDb) k : wf_history h -> run_mem h = Ok db -> is_key k ->
  exists kp d, find_key_path db k = Ok kp /\ (1 <= d <= 31)%nat /\
    (forall i, (i < d)%nat -> branch_required h (firstn i k)) /\ ~ branch_required h (firstn d k) /\
    (forall v, kp_state kp = KFound v <-> trie_get db k = Ok (Some v)) /\
    (kp_state kp = KNotFound NFStemFound <-> stem_in h (stem k) /\ trie_get db k = Ok None) /\
    (forall s, kp_state kp = KNotFound (NFDifferentStem s) <->
       stem_in h s /\ is_prefix (firstn d k) s /\ s <> stem k /\ trie_get db k = Ok None) /\
    (kp_state kp = KNotFound NFEmpty <-> forall s, stem_in h s -> ~ is_prefix (firstn d k) s) /\
    (exists last, map (fun n => (fst (fst n), snd (fst n))) (kp_nodes kp) =
       map (fun i => (firstn i k, nth i k 0)) (seq 0 d) ++ last /\
       last = match kp_state kp with KNotFound NFEmpty => [] | _ => [(firstn d k, nth 31 k 0)] end) /\
    Forall (fun n => match snd n with
       | MBranch bm => branch_table db (fst (fst n)) = Some (CBranch bm)
       | MStem sm => exists s, branch_table db (fst (fst n)) = Some (CStem s) /\ stem_table db s = Some sm
       end) (kp_nodes kp) /\
    kp_depth kp = Z.of_nat (length (kp_nodes kp)).
Proof.
  intros Hw E Hk. pose proof (run_canon h db Hw E) as C. unfold HCanon in C.
  set (m := final_map h) in *. set (St := stems_of h) in *.
  pose proof (can_wf _ _ _ C) as W.
  assert (Hs : is_stem (stem k)) by apply (key_stem k Hk).
  assert (Hl : length (stem k) = 31%nat) by apply Hs.
  destruct (sd_spec St (stem k) W Hl) as (Hi & Hn & Hb).
  exists (key_path_of m St k), (sd St (stem k)).
  split; [apply (find_key_path_ok db m St C k Hk)|]. split; [exact Hb|].
  assert (Eq : firstn (sd St (stem k)) k = firstn (sd St (stem k)) (stem k)) by (apply firstn_stem; lia).
  split. { intros i Hlt. rewrite firstn_stem by lia. apply branch_required_spec; auto. }
  split. { rewrite Eq. intro X. apply branch_required_spec in X; [|exact W]. fold St in X. rewrite X in Hn. discriminate. }
  assert (Eget : forall o, trie_get db k = Ok o <-> m k = o).
  { intro o. unfold trie_get. cbn [get_leaf memory_db_ops]. unfold mem_get_leaf. rewrite (can_leaf _ _ _ C).
    split; [intros [= H]; exact H|intros ->; reflexivity]. }
  assert (Est : kp_state (key_path_of m St k) = key_state_of m St k).
  { unfold key_path_of. destruct (end_stem St (stem k)); reflexivity. }
  pose proof (end_stem_spec db m St C (stem k) Hl) as Hu.
  assert (Hin : forall v, m k = Some v -> end_stem St (stem k) = Some (stem k)).
  { intros v Hv. apply (end_stem_self db m St C). now destruct (can_keys _ _ _ C k v Hv). }
  assert (Hself : In (stem k) St -> end_stem St (stem k) = Some (stem k)) by apply (end_stem_self db m St C).
  assert (HuI : forall t, In t St /\ has_prefix (firstn (sd St (stem k)) (stem k)) t = true <->
     In t (under St (firstn (sd St (stem k)) (stem k)))) by (intro t; symmetry; apply under_In).
  rewrite !Est.
  split.
  { intro v. rewrite Eget. unfold key_state_of. split.
    - destruct (end_stem St (stem k)); [|discriminate]. destruct (m k); [congruence|].
      destruct (beqb _ _); discriminate.
    - intro Hv. rewrite (Hin v Hv), Hv. reflexivity. }
  split.
  { rewrite stem_in_spec. fold St. rewrite Eget. unfold key_state_of. split.
    - destruct (end_stem St (stem k)) as [t|] eqn:Et; [|discriminate]. destruct (m k); [discriminate|].
      destruct (beqb_spec t (stem k)) as [->|]; [|discriminate]. intros _. split; auto.
      now apply (end_stem_In db m St C (stem k)) in Et.
    - intros [H1 H2]. rewrite (Hself H1), H2, beqb_refl. reflexivity. }
  split.
  { intro s. rewrite stem_in_spec, is_prefix_spec, Eq, Eget. fold St. unfold key_state_of. split.
    - destruct (end_stem St (stem k)) as [t|] eqn:Et; [|discriminate]. destruct (m k); [discriminate|].
      destruct (beqb_spec t (stem k)) as [->|Hne]; [discriminate|]. intros [= <-].
      destruct (end_stem_In db m St C (stem k) t Hl Et). auto.
    - intros (H1 & H2 & H3 & H4).
      assert (X : In s (under St (firstn (sd St (stem k)) (stem k)))) by (apply HuI; auto).
      destruct (end_stem St (stem k)) as [t|]; rewrite Hu in X; [|destruct X].
      destruct X as [->|[]]. rewrite H4. apply beqb_neq in H3. now rewrite H3. }
  split.
  { unfold key_state_of. split.
    - destruct (end_stem St (stem k)) as [t|] eqn:Et.
      + destruct (m k); [discriminate|]. destruct (beqb t (stem k)); discriminate.
      + intros _ s Hs1 Hs2. rewrite stem_in_spec in Hs1. rewrite is_prefix_spec, Eq in Hs2.
        assert (X : In s (under St (firstn (sd St (stem k)) (stem k)))) by (apply HuI; auto).
        rewrite Hu in X. destruct X.
    - intro H. destruct (end_stem St (stem k)) as [t|] eqn:Et; [|reflexivity]. exfalso.
      destruct (end_stem_In db m St C (stem k) t Hl Et) as [H1 H2].
      apply (H t); [now apply stem_in_spec|]. rewrite Eq. now apply is_prefix_spec. }
  assert (Hempty : match key_state_of m St k with KNotFound NFEmpty => true | _ => false end
      = match end_stem St (stem k) with None => true | Some _ => false end).
  { unfold key_state_of. destruct (end_stem St (stem k)); auto. destruct (m k); auto. destruct (beqb _ _); auto. }
  assert (Hbr : forall (d : nat), (d <= 31)%nat -> map (fun n => (fst (fst n), snd (fst n)))
      (map (branch_node m St (stem k)) (seq 0 d)) = map (fun i => (firstn i k, nth i k 0)) (seq 0 d)).
  { intros d Hd. rewrite map_map. apply map_ext_in. intros i Hii. apply in_seq in Hii. unfold branch_node.
    cbn [fst snd]. rewrite (firstn_stem i k) by lia. rewrite nth_firstn by lia. reflexivity. }
  assert (Hbn : Forall (fun n => match snd n with
       | MBranch bm => branch_table db (fst (fst n)) = Some (CBranch bm)
       | MStem sm => exists s, branch_table db (fst (fst n)) = Some (CStem s) /\ stem_table db s = Some sm
       end) (map (branch_node m St (stem k)) (seq 0 (sd St (stem k))))).
  { apply Forall_forall. intros n Hnn. apply in_map_iff in Hnn as (i & <- & Hii). apply in_seq in Hii.
    unfold branch_node. cbn [fst snd]. rewrite (can_branch _ _ _ C). unfold cbranch. now rewrite Hi by lia. }
  unfold key_path_of. destruct (end_stem St (stem k)) as [t|] eqn:Et; cbn [kp_nodes kp_depth kp_state].
  - split; [|split].
    + exists [(firstn (sd St (stem k)) k, nth 31 k 0)]. split.
      * rewrite map_app, (Hbr (sd St (stem k))) by lia. cbn [map fst snd]. rewrite Eq. reflexivity.
      * destruct (key_state_of m St k) as [v|[s| |]]; auto. discriminate.
    + apply Forall_app. split; auto. repeat constructor. cbn [fst snd].
      exists t. rewrite (can_branch _ _ _ C), (can_stem _ _ _ C).
      destruct (end_stem_In db m St C (stem k) t Hl Et) as [H1 H2].
      destruct (in_dec bytes_dec t St); [|contradiction]. split; auto.
      unfold end_stem in Et. apply stem_at_spec in Et as (E1 & E2 & E3). unfold cbranch. now rewrite E1, E3, E2.
    + rewrite app_length, map_length, seq_length. cbn [length]. lia.
  - split; [|split]; auto.
    + exists []. split; [rewrite (Hbr (sd St (stem k))) by lia; now rewrite app_nil_r|].
      destruct (key_state_of m St k) as [v|[s| |]]; auto; discriminate.
    + now rewrite map_length, seq_length.
Qed.

(** ** C20 *)
Lemma prover_ok h (db : MemoryDb) keys : wf_history h -> run_mem h = Ok db -> keys <> [] -> Forall is_key keys ->
  exists qs hint comms, create_proof_parts db keys = Ok (Some (qs, hint, comms)) /\
  Forall true_opening qs /\
  map (fun q => (pq_comm q, pq_point q, pq_result q)) qs =
  map (fun e => (node_comm (final_map h) (stems_of h) (fst e), snd e, node_vec (final_map h) (stems_of h) (fst e) (snd e)))
    (all_entries (stems_of h) keys).
Proof.
  intros Hw E Hne Hk. pose proof (run_canon h db Hw E) as C.
  destruct (proof_parts_ok db _ _ C keys Hk Hne) as (qs & Ep & Hq).
  do 3 eexists. split; [exact Ep|]. clear Ep. split.
  - induction Hq as [|x q l qs (_ & _ & _ & _ & H) _ IH]; constructor; auto.
  - induction Hq as [|x q l qs (H1 & H2 & H3 & _) _ IH]; cbn [map]; auto. now rewrite H1, H2, H3, IH.
Qed.

(** ** C21 *)
Lemma root_node h (db : MemoryDb) : wf_history h -> run_mem h = Ok db ->
  root_commitment db = Ok (node_comm (final_map h) (stems_of h) []).
Proof.
  intros Hw E. destruct (root_spec h Hw) as (db' & E' & H & _). assert (db' = db) by congruence. subst db'.
  rewrite H. unfold spec_root, node_comm. rewrite node_vec_inner by reflexivity. reflexivity.
Qed.

Lemma honest_queries h (db : MemoryDb) keys : wf_history h -> run_mem h = Ok db -> keys <> [] -> Forall is_key keys ->
  distinguishable (final_map h) (stems_of h) keys ->
  exists qs hint comms root uh, create_proof_parts db keys = Ok (Some (qs, hint, comms)) /\
    root_commitment db = Ok root /\
    create_verifier_queries hint comms keys (map (final_map h) keys) root =
      Ok (Some (map (fun q => mkVQ (pq_comm q) (of_Z (pq_point q)) (pq_result q)) qs, uh)).
Proof.
  intros Hw E Hne Hk Hd. pose proof (run_canon h db Hw E) as C.
  destruct (proof_parts_ok db _ _ C keys Hk Hne) as (qs & Ep & Hq).
  destruct (verifier_ok db _ _ C keys Hk Hne qs Hq Hd) as (others & Ev & _).
  do 5 eexists. split; [exact Ep|]. split; [apply (root_node h); auto|]. etransitivity; [exact Ev|]. do 3 f_equal.
  clear Ep Ev Hd. induction Hq as [|x q l qs (H1 & H2 & H3 & _) _ IH]; cbn [map]; auto.
  unfold vquery at 1. now rewrite H1, H2, H3, IH.
Qed.

(** ** C15, the hints the prover makes *)
Lemma set_of_length {K} {CK : Cmp K} {CL : CmpLaws K} (l : list K) : (length (set_of l) <= length l)%nat.
Proof.
  apply NoDup_incl_length; [apply sorted_NoDup, sorted_set_of|]. intros x Hx. now apply (proj1 (In_set_of _ _)) in Hx.
Qed.

Lemma filter_len {X} (f : X -> bool) l : (length (filter f l) <= length l)%nat.
Proof. induction l as [|x l IH]; simpl; auto. destruct (f x); simpl; lia. Qed.

Lemma prover_hint_fits h (db : MemoryDb) keys qs hint comms : wf_history h -> run_mem h = Ok db -> Forall is_key keys ->
  Z.of_nat (length keys) < 2 ^ 32 ->
  create_proof_parts db keys = Ok (Some (qs, hint, comms)) -> hint_fits hint.
Proof.
  intros Hw E Hk Hlen Ep. pose proof (run_canon h db Hw E) as C.
  assert (Hne : keys <> []) by (intros ->; discriminate).
  destruct (proof_parts_ok db _ _ C keys Hk Hne) as (qs' & Ep' & Hq). rewrite Ep' in Ep. injection Ep as <- <- <-.
  set (St := stems_of h) in *. rewrite Forall_forall in Hk.
  assert (Hst : forall s, In s (set_of (map (firstn 31) keys)) -> is_stem s).
  { intros s Hs. apply (proj1 (In_set_of _ _)), in_map_iff in Hs as (k & <- & Hin). apply key_stem; auto. }
  assert (Hln : Z.of_nat (length (set_of (map (firstn 31) keys))) < 2 ^ 32).
  { pose proof (set_of_length (map (firstn 31) keys)) as X. rewrite map_length in X. unfold bytes in *. lia. }
  constructor; cbn [proof_hint vh_ext vh_depths vh_diff].
  - now rewrite !map_length.
  - apply Forall_forall. intros d Hd. apply in_map_iff in Hd as (s & <- & Hs).
    destruct (sd_spec St s (can_wf _ _ _ C)) as (_ & _ & Hb); [apply Hst; auto|]. lia.
  - apply Forall_forall. intros t Ht. apply In_proof_diff in Ht as [(k & _ & Ht) _].
    apply stem_at_In in Ht as [Ht _]. apply (wfS_len St); auto. apply (can_wf _ _ _ C).
  - apply sorted_filter, sorted_set_of.
  - assert (X : (length (proof_diff St keys) <= length keys)%nat).
    { unfold proof_diff. etransitivity; [apply filter_len|]. etransitivity; [apply set_of_length|].
      clear. induction keys as [|k l IH]; cbn [flat_map length]; auto. rewrite app_length.
      destruct (stem_at St (qpos St k)); cbn [length]; lia. }
    lia.
  - rewrite map_length. exact Hln.
Qed.

(** ** C22 *)
Lemma verify_keys_absent statuses with_ext diff kvs k v e d : forall s,
  In (k, Some v) kvs -> map_get (stem k) statuses = Some (e, d) -> e <> ExtPres ->
  forall s', verify_keys statuses with_ext diff s kvs <> Ok (Some s').
Proof.
  induction kvs as [|[k0 v0] kvs IH]; intros s Hin Hst He s' H; [destruct Hin|].
  cbn [verify_keys] in H. apply rbind_ok in H as (o & H1 & H2).
  destruct o as [s1|]; [|discriminate].
  destruct Hin as [Heq|Hin]; [|exact (IH s1 Hin Hst He s' H2)].
  injection Heq as -> ->. clear H2. unfold verify_key in H1. rewrite Hst in H1. cbn [unwrap rbind] in H1.
  apply rbind_ok in H1 as (s2 & _ & H1). destruct e; [|  |contradiction].
  - unfold add_none in H1. discriminate.
  - apply rbind_ok in H1 as (p & _ & H1). unfold add_different in H1. discriminate.
Qed.

Lemma verify_keys_unknown statuses with_ext diff kvs k v : forall s,
  In (k, v) kvs -> map_get (stem k) statuses = None ->
  forall s', verify_keys statuses with_ext diff s kvs <> Ok (Some s').
Proof.
  induction kvs as [|[k0 v0] kvs IH]; intros s Hin Hst s' H; [destruct Hin|].
  cbn [verify_keys] in H. apply rbind_ok in H as (o & H1 & H2).
  destruct o as [s1|]; [|discriminate].
  destruct Hin as [Heq|Hin]; [|exact (IH s1 Hin Hst s' H2)].
  injection Heq as -> ->. unfold verify_key in H1. rewrite Hst in H1. discriminate.
Qed.

Lemma statuses_nth (stems : list bytes) hint i s d e : sorted stems ->
  nth_error stems i = Some s -> nth_error (vh_depths hint) i = Some d -> nth_error (vh_ext hint) i = Some e ->
  map_get s (fst (stem_statuses stems hint)) = Some (e, d).
Proof.
  intros Hs H1 H2 H3. unfold stem_statuses. cbn [fst].
  set (l := combine (combine stems (vh_depths hint)) (vh_ext hint)).
  assert (Hin : nth_error l i = Some (s, d, e)).
  { unfold l. clear Hs l. revert H1 H2 H3. generalize (vh_depths hint) (vh_ext hint). revert i.
    induction stems as [|x stems IH]; intros [|i] [|y ds] [|z es]; cbn; try discriminate.
    - congruence.
    - apply IH. }
  assert (Hsorted : sorted (map (fun x : bytes * Z * ExtPresent => fst (fst x)) l)).
  { unfold l. clear - Hs. generalize (vh_depths hint) (vh_ext hint).
    induction stems as [|x stems IH]; intros [|y ds] [|z es]; try constructor.
    - apply IH. now apply StronglySorted_inv in Hs.
    - apply StronglySorted_inv in Hs as [_ Hx]. rewrite Forall_forall in *. intros w Hw. apply Hx.
      cbn [fst]. clear - Hw. revert ds es Hw. induction stems as [|a stems IH]; intros [|b ds] [|c es]; cbn; try tauto.
      intros [H|H]; eauto. }
  assert (E : map_of (map (fun '(s, d, e) => (s, (e, d))) l) = map (fun '(s, d, e) => (s, (e, d))) l).
  { clear Hin. assert (X : map fst (map (fun '(s, d, e) => (s, (e, d))) l) = map (fun x => fst (fst x)) l).
    { rewrite map_map. apply map_ext. intros [[a b] c]. reflexivity. }
    revert X Hsorted. generalize (map (fun '(s, d, e) => (s, (e, d))) l) (map (fun x : bytes * Z * ExtPresent => fst (fst x)) l).
    clear. intros mm ks <- Hs. apply map_ext_get; [apply msorted_map_of|exact Hs|].
    intro k. unfold map_of.
    assert (X : forall acc, (forall x, In x (map fst mm) -> map_get x acc = None) ->
      map_get k (fold_left (fun m p => map_insert (fst p) (snd p) m) mm acc) =
      match map_get k mm with Some v => Some v | None => map_get k acc end).
    { induction mm as [|[a v] mm IH]; intros acc Ha; [reflexivity|].
      cbn [fold_left fst snd]. cbn [map fst] in Hs. apply StronglySorted_inv in Hs as [Hs Hf]. rewrite Forall_forall in Hf.
      rewrite IH; auto.
      - cbn [map_get]. rewrite map_get_insert. destruct (cmp k a) eqn:Ec; auto.
        apply cmp_eq in Ec. subst a. assert (map_get k mm = None) as ->; auto.
        apply map_get_None. intro Hk. apply Hf in Hk. now apply klt_irrefl in Hk.
      - intros x Hx. rewrite map_get_insert_ne; [apply Ha; cbn; auto|].
        intros ->. apply Hf in Hx. now apply klt_irrefl in Hx. }
    rewrite X by reflexivity. destruct (map_get k mm); reflexivity. }
  rewrite E. apply map_get_sorted.
  - unfold msorted. rewrite map_map. erewrite map_ext; [exact Hsorted|]. intros [[a b] c]. reflexivity.
  - apply nth_error_In in Hin. apply in_map_iff. exists (s, d, e). auto.
Qed.

Lemma map_get_short (stems : list bytes) hint i s : sorted stems -> nth_error stems i = Some s ->
  nth_error (vh_depths hint) i = None -> map_get s (fst (stem_statuses stems hint)) = None.
Proof.
  intros Hs H1 H2. apply map_get_None. unfold stem_statuses. cbn [fst].
  intro Hin.
  assert (X : In s (map fst (combine stems (vh_depths hint)))).
  { assert (Y : forall (mm acc : list (bytes * (ExtPresent * Z))) x,
        In x (map fst (fold_left (fun m p => map_insert (fst p) (snd p) m) mm acc)) ->
        In x (map fst mm) \/ In x (map fst acc)).
    { induction mm as [|[a v] mm IH]; intros acc x Hx; cbn [fold_left] in Hx; auto.
      apply IH in Hx as [Hx|Hx]; [left; now right|]. cbn [fst snd] in Hx.
      rewrite keys_map_insert in Hx. apply In_set_insert in Hx as [->|Hx]; auto. left. now left. }
    apply Y in Hin as [Hin|[]]. rewrite map_map in Hin. apply in_map_iff in Hin as ([[a b] c] & <- & Hc).
    apply in_combine_l in Hc. cbn [fst]. apply in_map_iff. exists (a, b). auto. }
  clear Hin. revert i H1 H2 Hs X. generalize (vh_depths hint).
  induction stems as [|x stems IH]; intros [|y ds] [|i] H1 H2 Hs X; cbn in *; try discriminate; try contradiction.
  apply StronglySorted_inv in Hs as [Hs Hx]. destruct X as [->|X]; [|eapply IH; eauto].
  apply nth_error_In in H1. rewrite Forall_forall in Hx. apply Hx in H1. now apply klt_irrefl in H1.
Qed.

Lemma absent_claim_rejected hint comms keys values root stems k v i e :
  sorted stems -> (forall s, In s stems <-> In s (map (firstn 31) keys)) ->
  nth_error stems i = Some (stem k) -> nth_error (vh_ext hint) i = Some e -> e <> ExtPres ->
  In (k, Some v) (combine keys values) ->
  forall r, create_verifier_queries hint comms keys values root <> Ok (Some r).
Proof.
  intros Hs Hi H1 H3 He Hin r H. unfold create_verifier_queries in H.
  assert (Est : set_of (map (firstn 31) keys) = stems).
  { apply sorted_ext; auto; [apply sorted_set_of|]. intro x. rewrite In_set_of. symmetry. apply Hi. }
  rewrite Est in H. destruct (nth_error (vh_depths hint) i) as [d|] eqn:H2.
  - pose proof (statuses_nth stems hint i (stem k) d e Hs H1 H2 H3) as Hst.
    destruct (stem_statuses stems hint) as [statuses with_ext]. cbn [fst] in Hst.
    apply rbind_ok in H as (o & Ho & H). destruct o as [s|]; [|discriminate].
    exact (verify_keys_absent statuses with_ext (vh_diff hint) (combine keys values) k v e d vs_empty Hin Hst He s Ho).
  - pose proof (map_get_short stems hint i (stem k) Hs H1 H2) as Hst.
    destruct (stem_statuses stems hint) as [statuses with_ext]. cbn [fst] in Hst.
    apply rbind_ok in H as (o & Ho & H). destruct o as [s|]; [|discriminate]. clear H.
    exact (verify_keys_unknown statuses with_ext (vh_diff hint) (combine keys values) k (Some v) vs_empty Hin Hst s Ho).
Qed.
End Thms.
