(** C66 and the default curve with events in place of the idealisation. *)
From Coq Require Import Permutation.
From Verif Require Import Base BaseFacts Alg AlgFacts TreeSpec TreeFacts TrieModel TrieProofs TrieTheorems WireModel ProofModel ProofSpec
  IpaModel LagrangeSpec IpaSpec MultiProofs CheckProofs SoundSpec TruthSpec TruthTheorems GoModel GoSpec GoProofs StatelessModel StatelessSpec SpecModel LayoutSpec AccountSpec AccountProofs
  ChainSpec ChainProofs WitnessSpec WitnessProofs WitnessCases EventSpec EventProofs RealSpec RealProofs CollisionCases.
Local Open Scope list_scope.
Notation len := List.length.

Section Witness.
Context {A : Alg} {L : AlgLaws A} {P : Par A} {PL : ParLaws P} {C : ECodec A} {CL : ECodecLaws C} {H : Hasher} {J : Json}.
Context (h64 : bytes -> res bytes) (Htot : hash_total h64).

Lemma witness_or_event open h g : wf_history h -> (forall p, go_says g p -> opened_block open h (witness_block g p)) ->
  (exists p, go_says g p) -> ideal_witness h g \/ exists p, go_says g p /\ block_event open h (witness_block g p).
Proof.
  intros W Hop [p Hp]. destruct (block_or_event open h (witness_block g p) W (Hop p Hp)) as [Hi|He]; [left|right; exists p; split; assumption].
  intros p' Hp'. rewrite (says_unique g p' p Hp' Hp). exact Hi.
Qed.

Lemma witness_says root json wit g : json_de json = Some wit -> witness_means wit g -> go_sized g ->
  verify_execution_witness root json = Ok true -> exists p, go_says g p.
Proof.
  intros Ej Mw Gs V. destruct (verify_accept root json V) as (wit' & g' & p & r' & uh & Ej' & Mw' & Gs' & Hsay & _).
  assert (wit' = wit) by congruence. subst wit'.
  assert (X1 : go_of_witness wit = Ok g) by (apply go_of_witness_ok; auto).
  assert (X2 : go_of_witness wit = Ok g') by (apply go_of_witness_ok; auto).
  assert (g' = g) by congruence. subst g'. exists p. exact Hsay.
Qed.

Lemma witness_true_or_event open w h (db : MemoryDb) r root json wit g : domain_fits 256 ->
  Forall account_item (map fst w) -> insertions h64 w = Ok h -> run_mem h = Ok db -> root_commitment db = Ok r -> hex_means root (el_ser r) ->
  json_de json = Some wit -> witness_means wit g -> go_sized g -> Forall is_key (diff_keys (go_state g)) -> NoDup (diff_keys (go_state g)) ->
  (forall p, go_says g p -> opened_block open h (witness_block g p)) -> verify_execution_witness root json = Ok true ->
  (forall a i k v, account_item (a, i) -> collision_free h64 ((a, i) :: map fst w) -> item_key h64 a i = Ok k ->
    In (k, v) (combine (diff_keys (go_state g)) (diff_current (go_state g))) -> v = written w a i \/ hides h g k v) \/
  exists p, go_says g p /\ block_event open h (witness_block g p).
Proof.
  intros D Hw E Er Rt Hr Ej Mw Gs Hk ND Hop V.
  destruct (insertions_ok h64 Htot w Hw) as (h' & E' & Wf & _). assert (h' = h) by congruence. subst h'.
  destruct (witness_or_event open h g Wf Hop (witness_says root json wit g Ej Mw Gs V)) as [Hi|He]; [left|right; exact He].
  exact (witness_true h64 Htot w h db r root json wit g D Hw E Er Rt Hr Ej Mw Gs Hk ND Hi V).
Qed.

Lemma account_chain_or_event hash_order (Ho : forall l, Permutation (hash_order l) l) open bs ws w w' h (db : MemoryDb) root r : domain_fits 256 ->
  Forall account_item (map fst (w ++ concat ws)) -> Forall account_item (map fst w') -> collision_free h64 (map fst (w ++ concat ws) ++ map fst w') ->
  (forall a i, account_item (a, i) -> written (w ++ concat ws) a i = written w' a i) ->
  insertions h64 w = Ok h -> run_mem h = Ok db -> root_commitment db = Ok root ->
  account_blocks h64 bs ws -> Forall block_fits bs -> along h bs (opened_block open) -> follow hash_order root bs = Ok (VOk r) ->
  (exists h' (db' : MemoryDb), insertions h64 w' = Ok h' /\ run_mem h' = Ok db' /\ root_commitment db' = Ok r) \/
  exists before b rest, bs = before ++ b :: rest /\ block_event open (after h before) b.
Proof.
  intros D F1 F2 Hc Hs E Er Rt Hb Hf Hop V.
  assert (Fw : Forall account_item (map fst w)) by (rewrite map_app in F1; now apply Forall_app in F1).
  destruct (insertions_ok h64 Htot w Fw) as (h0 & E0 & Wf & _). assert (h0 = h) by congruence. subst h0.
  destruct (along_or_event open bs h Wf Hf Hop) as [Ha|He]; [left|right; exact He].
  exact (proj1 (account_chain_any h64 Htot hash_order Ho bs ws w w' h db root r D F1 F2 Hc Hs E Er Rt Hb Hf Ha V)).
Qed.
(** The conditions of C65 give openings. *)
Lemma ideal_opened h b : ideal_block h b -> exists open, opened_block open h b.
Proof.
  intros [Hl Hb].
  destruct (run_mem h) as [db|] eqn:E; [|exists (fun _ => []); split; [exact Hl|intros; congruence]].
  destruct (root_commitment db) as [root|] eqn:Er; [|exists (fun _ => []); split; [exact Hl|intros; congruence]].
  destruct (proof_check (bl_proof b) (bl_keys b) (bl_values b) root) as [[[|] uh]|] eqn:Ck;
    [|exists (fun _ => []); split; [exact Hl|intros db0 root0 qs0 uh0 uh0' E0 Er0 Ck0; assert (db0 = db) by congruence; subst db0;
       assert (root0 = root) by congruence; subst root0; congruence]..].
  destruct (create_verifier_queries (vp_hint (bl_proof b)) (vp_comms (bl_proof b)) (bl_keys b) (bl_values b) root) as [[[qs uh']|]|] eqn:Eq;
    [|exists (fun _ => []); split; [exact Hl|intros db0 root0 qs0 uh0 uh0' E0 Er0 Ck0 Eq0; assert (db0 = db) by congruence; subst db0;
       assert (root0 = root) by congruence; subst root0; congruence]..].
  destruct (Hb db root qs uh uh' eq_refl Er Ck Eq) as (Hco & Hsc & vs & Hop & _). exists (fun _ => vs). split; [exact Hl|].
  intros db0 root0 qs0 uh0 uh0' E0 Er0 Ck0 Eq0. assert (db0 = db) by congruence. subst db0.
  assert (root0 = root) by congruence. subst root0. assert (qs0 = qs) by congruence. subst qs0.
  split; [exact Hco|]. split; [exact Hsc|exact Hop].
Qed.
End Witness.

(** ** The default curve *)
Section Default.
Context {A : Alg} {L : AlgLaws A} {P : Par A} {PL : ParLaws P} {C : ECodec A}.
Lemma large_or_event h (db : MemoryDb) root hint comms keys values qs uh ch p :
  (forall a, 0 < a < 2 ^ 248 -> of_Z a <> fzero) -> domain_fits 256 ->
  wf_history h -> Forall (fun kv => is_value (snd kv)) h -> run_mem h = Ok db -> root_commitment db = Ok root ->
  Forall is_key keys -> NoDup keys -> len values = len keys -> (forall v, In (Some v) values -> is_value v) -> Forall is_stem (vh_diff hint) ->
  create_verifier_queries hint comms keys values root = Ok (Some (qs, uh)) ->
  enough_challenges 8 (len qs) ch -> all_checked p hint comms keys values root qs ch -> coherent hint keys ->
  exists zs, points_ok 256 zs qs /\
  match extract_multi 256 zs qs ch (pr_a p) with
  | Opening vs =>
      (forall k v, In (k, v) (combine keys values) -> trie_get db k = Ok v \/ hidden (stems_of h) hint keys k v) \/
      event (final_map h) (stems_of h) qs vs
  | Relation v => relation (crs_G trie_crs ++ [crs_Q trie_crs]) v
  end.
Proof.
  intros K Fit Hw Hv Erun Eroot Hkeys Hdup Hlen Hval Hdiff Ev Ec Ac Hco.
  apply (accepted_or_event h db root hint comms keys values qs uh ch p); auto.
  apply scalars_apart_large; auto.
  - exact (proj2 (can_wf _ _ _ (run_canon h db Hw Erun))).
  - apply Forall_app. split; [|exact Hdiff]. apply Forall_forall. intros s Hs. apply in_map_iff in Hs. destruct Hs as (k & <- & Hk).
    rewrite Forall_forall in Hkeys. apply key_stem. exact (Hkeys k Hk).
  - intros k v E. apply final_map_In in E. rewrite Forall_forall in Hv. exact (Hv _ E).
Qed.
End Default.
Local Opaque real_par.
Local Notation ops := (@memory_db_ops real_alg).
Lemma default_or_event h (db : @MemoryDb real_alg) root hint comms keys values qs uh ch p :
  wf_history h -> Forall (fun kv => is_value (snd kv)) h -> @run_mem real_alg real_par h = Ok db -> @root_commitment real_alg _ ops db = Ok root ->
  Forall is_key keys -> NoDup keys -> len values = len keys -> (forall v, In (Some v) values -> is_value v) -> Forall is_stem (vh_diff hint) ->
  @create_verifier_queries real_alg real_par hint comms keys values root = Ok (Some (qs, uh)) ->
  @enough_challenges real_alg 8 (len qs) ch -> @all_checked real_alg real_ecodec real_par p hint comms keys values root qs ch -> coherent hint keys ->
  exists zs, @points_ok real_alg 256 zs qs /\
  match @extract_multi real_alg 256 zs qs ch (pr_a p) with
  | Opening vs =>
      (forall k v, In (k, v) (combine keys values) -> @trie_get real_alg _ ops db k = Ok v \/ hidden (stems_of h) hint keys k v) \/
      @event real_alg real_par (final_map h) (stems_of h) qs vs
  | Relation v => @relation real_alg (crs_G (@trie_crs real_alg real_par) ++ [crs_Q (@trie_crs real_alg real_par)]) v
  end.
Proof.
  exact (@large_or_event real_alg (proj1 real_laws) real_par (proj1 (proj2 real_laws)) real_ecodec h db root hint comms keys values qs uh ch p
    bander_large (proj2 (proj2 (proj2 (proj2 (proj2 real_laws)))))).
Qed.
