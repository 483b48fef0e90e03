(** The idealisation of C23 holds or an explicit event breaks it. *)
From Coq Require Import Permutation.
From Verif Require Import Base BaseFacts Alg AlgFacts TreeSpec TreeFacts TrieModel TrieProofs TrieTheorems BTree WireModel ProofModel ProofSpec
  OpeningProofs IpaModel LagrangeSpec IpaSpec MultiProofs CheckProofs SoundSpec TruthSpec TruthTheorems StatelessModel StatelessSpec
  StatelessTruth ChainSpec ChainProofs EventSpec.
Local Open Scope list_scope.
Notation len := List.length.

Lemma all_or {X} (Q : Prop) (R : X -> Prop) l : (forall x, In x l -> R x \/ Q) -> (forall x, In x l -> R x) \/ Q.
Proof.
  induction l as [|x l IH]; intro H; [left; intros x []|].
  destruct (H x (or_introl eq_refl)) as [Hx|]; [|right; assumption].
  destruct IH as [IH|]; [intros y Hy; apply H; right; exact Hy| |right; assumption].
  left. intros y [<-|Hy]; [exact Hx|exact (IH y Hy)].
Qed.

Section Events.
Context {A : Alg} {L : AlgLaws A} {P : Par A} {PL : ParLaws P}.

Lemma F_dec (x y : F) : x = y \/ x <> y.
Proof. destruct (feqb x y) eqn:E; [left; apply feqb_true; exact E|right; intro X; apply feqb_true in X; congruence]. Qed.
Lemma G_dec (x y : G) : x = y \/ x <> y.
Proof. destruct (geqb x y) eqn:E; [left; apply geqb_true; exact E|right; intro X; apply geqb_true in X; congruence]. Qed.

(** ** The commitments at hand are finitely many *)
Definition prefixes (St : list bytes) : list bytes := [] :: flat_map (fun s => map (fun n => firstn n s) (seq 0 32)) St.
Definition node_list (St : list bytes) : list bytes :=
  filter (fun p => internal St p || match stem_at St p with Some _ => true | None => false end) (prefixes St) ++
  flat_map (fun q => match stem_at St q with Some _ => [q ++ [2]; q ++ [3]] | None => [] end) (prefixes St).

Lemma prefix_in St p s : Forall is_stem St -> In s St -> has_prefix p s = true -> In p (prefixes St).
Proof.
  intros Hst Hs Hp. right. apply in_flat_map. exists s. split; [exact Hs|]. apply in_map_iff.
  pose proof (has_prefix_length p s Hp) as Hl. exists (len p). split; [symmetry; exact (has_prefix_eq p s Hp)|]. apply in_seq.
  rewrite Forall_forall in Hst. destruct (Hst s Hs) as [E _]. lia.
Qed.
Lemma internal_in St p : Forall is_stem St -> internal St p = true -> In p (prefixes St).
Proof.
  intros Hst H. destruct p as [|b p]; [left; reflexivity|].
  apply internal_many in H; [|discriminate]. destruct (under St (b :: p)) as [|s u] eqn:E; [cbn in H; lia|].
  assert (Hs : In s (under St (b :: p))) by (rewrite E; left; reflexivity).
  unfold under in Hs. apply filter_In in Hs. destruct Hs as [Hs Hp]. exact (prefix_in St _ s Hst Hs Hp).
Qed.
Lemma node_list_is St p : wfS St -> is_node St p <-> In p (node_list St).
Proof.
  intros W. pose proof (proj2 W) as Hst. unfold node_list. rewrite in_app_iff, filter_In, in_flat_map. split.
  - intros [H|[(t & H)|(q & t & H & E)]].
    + left. split; [exact (internal_in St p Hst H)|]. rewrite H. reflexivity.
    + left. rewrite H, orb_true_r. split; [|reflexivity]. destruct (stem_at_In St p t H) as [Ht Hp]. exact (prefix_in St p t Hst Ht Hp).
    + right. exists q. rewrite H. destruct (stem_at_In St q t H) as [Ht Hp]. split; [exact (prefix_in St q t Hst Ht Hp)|].
      destruct E as [->| ->]; [left|right; left]; reflexivity.
  - intros [[_ H]|(q & _ & H)].
    + destruct (internal St p) eqn:E; [left; exact E|]. right. left. destruct (stem_at St p) as [t|] ; [exists t; reflexivity|discriminate H].
    + destruct (stem_at St q) as [t|] eqn:E; [|destruct H]. right. right. exists q, t. split; [exact E|].
      destruct H as [<-|[<-|[]]]; [left|right]; reflexivity.
Qed.

Definition known_list m St (qs : list VerifierQuery) (vs : list (list F)) : list (G * (Z -> F)) :=
  map (fun qv => (vq_comm (fst qv), entry (snd qv))) (combine qs vs) ++
  map (fun p => (node_comm m St p, node_vec m St p)) (node_list St) ++ [(gzero, fun _ => fzero)].
Lemma known_list_is m St qs vs c f : wfS St -> known m St qs vs c f <-> In (c, f) (known_list m St qs vs).
Proof.
  intro W. unfold known_list. rewrite !in_app_iff. split.
  - intros [q v Hq|p Hp|].
    + left. apply in_map_iff. exists (q, v). split; [reflexivity|exact Hq].
    + right. left. apply in_map_iff. exists p. split; [reflexivity|]. apply node_list_is; assumption.
    + right. right. left. reflexivity.
  - intros [H|[H|[H|[]]]].
    + apply in_map_iff in H. destruct H as ([q v] & E & Hq). apply pair_equal_spec in E. destruct E as [<- <-]. apply known_query. exact Hq.
    + apply in_map_iff in H. destruct H as (p & E & Hp). apply pair_equal_spec in E. destruct E as [<- <-]. apply known_node. apply node_list_is; assumption.
    + apply pair_equal_spec in H. destruct H as [<- <-]. apply known_zero.
Qed.

(** ** Each condition or an event *)
Lemma ideal_or_event m St qs vs (dom : list bytes) : wfS St -> (forall k v, m k = Some v -> In k dom) -> Forall2 opening qs vs ->
  ideal m St qs vs \/ event m St qs vs.
Proof.
  intros W Hm Hop. set (kl := known_list m St qs vs).
  assert (K : forall c f, known m St qs vs c f <-> In (c, f) kl) by (intros; apply known_list_is; exact W).
  set (Q := event m St qs vs).
  assert (H1 : (forall x, In x kl -> forall y, In y kl -> forall i, In i (seq 0 256) -> fst x = fst y -> snd x (Z.of_nat i) = snd y (Z.of_nat i)) \/ Q).
  { apply all_or. intros [c f] Hc. apply all_or. intros [c' g] Hc'. apply all_or. intros i Hi. cbn [fst snd].
    destruct (G_dec c c') as [<-|N]; [|left; intro X; destruct (N X)].
    destruct (F_dec (f (Z.of_nat i)) (g (Z.of_nat i))) as [E|N]; [left; intros _; exact E|right].
    apply K in Hc. apply K in Hc'. apply in_seq in Hi.
    apply (ev_openings _ _ _ _ c f g (Z.of_nat i)); auto; [lia|].
    apply (double_opening m St qs vs c f g (Z.of_nat i)); auto. lia. }
  assert (H2 : (forall x, In x kl -> forall y, In y kl -> hash (fst x) = hash (fst y) -> fst x = fst y) \/ Q).
  { apply all_or. intros [c f] Hc. apply all_or. intros [c' g] Hc'. cbn [fst].
    destruct (G_dec c c') as [E|N]; [left; intros _; exact E|].
    destruct (F_dec (hash c) (hash c')) as [E|N']; [|left; intro X; destruct (N' X)]. right. apply ev_hash.
    apply K in Hc. apply K in Hc'. exact (same_hash _ _ _ _ c f c' g Hc Hc' N E). }
  assert (H3 : (forall x, In x kl -> hash (fst x) <> fone) \/ Q).
  { apply all_or. intros [c f] Hc. cbn [fst]. destruct (F_dec (hash c) fone) as [E|N]; [right|left; exact N].
    apply K in Hc. apply ev_hash. exact (hash_marker _ _ _ _ c f Hc E). }
  assert (H4 : (forall x, In x kl -> forall t, In t St -> fst x <> gzero -> hash (fst x) <> of_Z (le_Z t)) \/ Q).
  { apply all_or. intros [c f] Hc. apply all_or. intros t Ht. cbn [fst].
    destruct (G_dec c gzero) as [E|N]; [left; intro X; destruct (X E)|].
    destruct (F_dec (hash c) (of_Z (le_Z t))) as [E|N']; [right|left; intros _; exact N'].
    apply K in Hc. apply ev_hash. exact (hash_stem _ _ _ _ c f t Hc N Ht E). }
  assert (H5 : (forall x, In x kl -> forall k, In k dom -> fst x <> gzero -> forall v, m k = Some v ->
                  hash (fst x) <> leaf_low (Some v) /\ hash (fst x) <> leaf_high (Some v)) \/ Q).
  { apply all_or. intros [c f] Hc. apply all_or. intros k Hk. cbn [fst].
    destruct (G_dec c gzero) as [E|N]; [left; intro X; destruct (X E)|].
    destruct (m k) as [v|] eqn:Ev; [|left; intros _ v X; discriminate X]. apply K in Hc.
    destruct (F_dec (hash c) (leaf_low (Some v))) as [E|N1].
    { right. apply ev_hash. apply (hash_value _ _ _ _ c f k v Hc N Ev). left. exact E. }
    destruct (F_dec (hash c) (leaf_high (Some v))) as [E|N2].
    { right. apply ev_hash. apply (hash_value _ _ _ _ c f k v Hc N Ev). right. exact E. }
    left. intros _ v' X. assert (v' = v) by congruence. subst v'. split; assumption. }
  destruct H1 as [H1|]; [|right; assumption]. destruct H2 as [H2|]; [|right; assumption].
  destruct H3 as [H3|]; [|right; assumption]. destruct H4 as [H4|]; [|right; assumption].
  destruct H5 as [H5|]; [|right; assumption].
  left. constructor.
  - intros c f g z Hf Hg Hz. apply K in Hf. apply K in Hg.
    pose proof (H1 _ Hf _ Hg (Z.to_nat z)) as X. cbn [fst snd] in X. rewrite Z2Nat.id in X by lia. apply X; [apply in_seq; lia|reflexivity].
  - intros c f c' f' Hf Hf' E. apply K in Hf. apply K in Hf'. exact (H2 _ Hf _ Hf' E).
  - intros c f Hf. apply K in Hf. exact (H3 _ Hf).
  - intros c f t Hf N Ht. apply K in Hf. exact (H4 _ Hf t Ht N).
  - intros c f k v Hf N Ev. apply K in Hf. exact (H5 _ Hf k (Hm k v Ev) N v Ev).
Qed.

(** ** The tree of a history *)
Lemma history_event h qs vs : wf_history h -> Forall2 opening qs vs ->
  ideal (final_map h) (stems_of h) qs vs \/ event (final_map h) (stems_of h) qs vs.
Proof.
  intros W. destruct (root_spec h W) as (db & E & _ & _). pose proof (can_wf _ _ _ (run_canon h db W E)) as WS.
  apply (ideal_or_event _ _ _ _ (map fst h)); [exact WS|].
  intros k v Ek. apply final_map_In in Ek. apply in_map_iff. exists (k, v). split; [reflexivity|exact Ek].
Qed.

Lemma claims_or_event h (db : MemoryDb) root hint comms keys values qs uh vs :
  domain_fits 256 -> wf_history h -> run_mem h = Ok db -> root_commitment db = Ok root ->
  Forall is_key keys -> NoDup keys -> len values = len keys ->
  create_verifier_queries hint comms keys values root = Ok (Some (qs, uh)) -> Forall2 opening qs vs ->
  coherent hint keys ->
  scalars_apart (final_map h) (stems_of h) (map (firstn 31) keys ++ vh_diff hint) values ->
  (forall k v, In (k, v) (combine keys values) -> trie_get db k = Ok v \/ hidden (stems_of h) hint keys k v) \/
  event (final_map h) (stems_of h) qs vs.
Proof.
  intros Fit Hw Erun Eroot Hkeys Hdup Hlen Ev Hop Hco Hsc.
  destruct (history_event h qs vs Hw Hop) as [Hid|He]; [left|right; exact He].
  exact (claims_true h db root hint comms keys values qs uh vs Fit Hw Erun Eroot Hkeys Hdup Hlen Ev Hop Hco Hid Hsc).
Qed.

Lemma accepted_or_event {C : ECodec A} h (db : MemoryDb) root hint comms keys values qs uh ch p :
  domain_fits 256 -> wf_history h -> run_mem h = Ok db -> root_commitment db = Ok root ->
  Forall is_key keys -> NoDup keys -> len values = len keys ->
  create_verifier_queries hint comms keys values root = Ok (Some (qs, uh)) ->
  enough_challenges 8 (len qs) ch -> all_checked p hint comms keys values root qs ch ->
  coherent hint keys ->
  scalars_apart (final_map h) (stems_of h) (map (firstn 31) keys ++ vh_diff hint) values ->
  exists zs, points_ok 256 zs qs /\
  match extract_multi 256 zs qs ch (pr_a p) with
  | Opening vs =>
      (forall k v, In (k, v) (combine keys values) -> trie_get db k = Ok v \/ hidden (stems_of h) hint keys k v) \/
      event (final_map h) (stems_of h) qs vs
  | Relation v => relation (crs_G trie_crs ++ [crs_Q trie_crs]) v
  end.
Proof.
  intros Fit Hw Erun Eroot Hkeys Hdup Hlen Ev Ec Ac Hco Hsc.
  destruct (accepted_openings hint comms keys values root qs uh ch p Fit Hkeys Ev Ec Ac) as (zs & Hz & X). exists zs. split; [exact Hz|].
  destruct (extract_multi 256 zs qs ch (pr_a p)) as [vs|v]; [|exact X].
  exact (claims_or_event h db root hint comms keys values qs uh vs Fit Hw Erun Eroot Hkeys Hdup Hlen Ev X Hco Hsc).
Qed.

Lemma update_or_event {C : ECodec A} h (db : MemoryDb) root hint comms keys values qs uh ch p :
  domain_fits 256 -> wf_history h -> run_mem h = Ok db -> root_commitment db = Ok root ->
  Forall is_key keys -> NoDup keys -> len values = len keys -> Z.of_nat (len keys) < 2 ^ 63 ->
  create_verifier_queries hint comms keys values root = Ok (Some (qs, uh)) ->
  enough_challenges 8 (len qs) ch -> all_checked p hint comms keys values root qs ch ->
  coherent hint keys ->
  scalars_apart (final_map h) (stems_of h) (map (firstn 31) keys ++ vh_diff hint) values ->
  exists zs, points_ok 256 zs qs /\
  match extract_multi 256 zs qs ch (pr_a p) with
  | Opening vs =>
      (forall updated order, Z.of_nat (len updated) < 2 ^ 63 -> (forall l, Permutation (order l) l) ->
      let result := update_root order uh keys values updated root in
      (~ writes_empty hint keys updated /\
       exists db' root', trie_insert db (writes keys updated) = Ok db' /\ root_commitment db' = Ok root' /\ result = Ok (VOk root')) \/
      (writes_empty hint keys updated /\ result = Panic)) \/
      event (final_map h) (stems_of h) qs vs
  | Relation v => relation (crs_G trie_crs ++ [crs_Q trie_crs]) v
  end.
Proof.
  intros Fit Hw Erun Eroot Hkeys Hdup Hlen B1 Ev Ec Ac Hco Hsc.
  destruct (accepted_openings hint comms keys values root qs uh ch p Fit Hkeys Ev Ec Ac) as (zs & Hz & X). exists zs. split; [exact Hz|].
  destruct (extract_multi 256 zs qs ch (pr_a p)) as [vs|v]; [|exact X].
  destruct (history_event h qs vs Hw X) as [Hid|He]; [left|right; exact He]. intros updated order B2 Ho.
  exact (claimed_update h db root hint comms keys values updated qs uh vs order Fit Hw Erun Eroot Hkeys Hdup Hlen B1 B2 Ev X Hco Hid Hsc Ho).
Qed.

(** ** Chains *)
Context {C : ECodec A} {H : Hasher}.
Lemma block_or_event open h b : wf_history h -> opened_block open h b -> ideal_block h b \/ block_event open h b.
Proof.
  intros W [Hl Hb].
  destruct (run_mem h) as [db|] eqn:E; [|left; split; [exact Hl|intros; congruence]].
  destruct (root_commitment db) as [root|] eqn:Er; [|left; split; [exact Hl|intros; congruence]].
  destruct (proof_check (bl_proof b) (bl_keys b) (bl_values b) root) as [[[|] uh]|] eqn:Ck;
    [|left; split; [exact Hl|intros db0 root0 qs0 uh0 uh0' E0 Er0 Ck0; assert (db0 = db) by congruence; subst db0;
       assert (root0 = root) by congruence; subst root0; congruence]..].
  destruct (create_verifier_queries (vp_hint (bl_proof b)) (vp_comms (bl_proof b)) (bl_keys b) (bl_values b) root) as [[[qs uh']|]|] eqn:Eq;
    [|left; split; [exact Hl|intros db0 root0 qs0 uh0 uh0' E0 Er0 Ck0 Eq0; assert (db0 = db) by congruence; subst db0;
       assert (root0 = root) by congruence; subst root0; congruence]..].
  destruct (Hb db root qs uh uh' eq_refl Er Ck Eq) as (Hco & Hsc & Hop).
  destruct (history_event h qs (open b) W Hop) as [Hid|He]; [left|right].
  - split; [exact Hl|]. intros db0 root0 qs0 uh0 uh0' E0 Er0 Ck0 Eq0. assert (db0 = db) by congruence. subst db0.
    assert (root0 = root) by congruence. subst root0. assert (qs0 = qs) by congruence. subst qs0.
    split; [exact Hco|]. split; [exact Hsc|]. exists (open b). split; [exact Hop|exact Hid].
  - exists db, root, qs, uh, uh'. split; [exact E|]. split; [exact Er|]. split; [exact Ck|]. split; [exact Eq|exact He].
Qed.

Lemma along_or_event open bs : forall h, wf_history h -> Forall block_fits bs -> along h bs (opened_block open) ->
  along h bs ideal_block \/ exists before b rest, bs = before ++ b :: rest /\ block_event open (after h before) b.
Proof.
  induction bs as [|b bs IH]; intros h W Hf Hh.
  - left. intros [|] ? ? X; discriminate X.
  - apply Forall_cons_iff in Hf as [(Hk & _ & _) Hf]. apply along_cons in Hh as [Hb Hh].
    assert (W' : wf_history (h ++ block_writes b)) by (apply Forall_app; split; [exact W|now apply writes_keys]).
    destruct (block_or_event open h b W Hb) as [Hi|He].
    + destruct (IH _ W' Hf Hh) as [Ha|(before & b' & rest & -> & He)].
      * left. apply along_cons. split; assumption.
      * right. exists (b :: before), b', rest. split; [reflexivity|]. rewrite after_cons. exact He.
    + right. exists [], b, bs. split; [reflexivity|]. unfold after. cbn [flat_map]. rewrite app_nil_r. exact He.
Qed.

Lemma chain_or_event hash_order (Ho : forall l, Permutation (hash_order l) l) (Fit : domain_fits 256) open bs h (db : MemoryDb) root r :
  wf_history h -> run_mem h = Ok db -> root_commitment db = Ok root ->
  Forall block_fits bs -> along h bs (opened_block open) -> follow hash_order root bs = Ok (VOk r) ->
  ((exists db' : MemoryDb, run_mem (after h bs) = Ok db' /\ root_commitment db' = Ok r) /\
   along h bs (fun h' b => forall k v, In (k, v) (combine (bl_keys b) (bl_values b)) ->
     final_map h' k = v \/ hidden (stems_of h') (vp_hint (bl_proof b)) (bl_keys b) k v)) \/
  exists before b rest, bs = before ++ b :: rest /\ block_event open (after h before) b.
Proof.
  intros W E Er Hf Hh Ef. destruct (along_or_event open bs h W Hf Hh) as [Ha|He]; [left|right; exact He].
  exact (chain_any hash_order Ho Fit bs h db root r W E Er Hf Ha Ef).
Qed.
End Events.
