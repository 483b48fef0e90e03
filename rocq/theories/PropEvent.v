(** C23, C62, C65 and C66 with nothing idealised: the conclusion holds, or one computes an explicit event. *)
From Coq Require Import Permutation.
From Verif Require Import Base Alg AlgInst TreeSpec TrieModel ExData WireModel WireInst ProofModel ProofSpec IpaModel LagrangeSpec IpaSpec MultiProofs CheckProofs IpaInst SoundSpec
  TruthSpec TruthInst GoModel GoSpec StatelessModel StatelessSpec SpecModel LayoutSpec AccountSpec ChainSpec ChainCases WitnessSpec EventSpec EventProofs EventWitness RealSpec PropTruth.
Local Open Scope list_scope.
Notation len := List.length.

Section Properties.
Context {A : Alg} {L : AlgLaws A} {P : Par A} {PL : ParLaws P}.

(** The idealisation of C23 holds or an event breaks it, whatever the tree, the queries and their openings. *)
Theorem C23_ideal_or_event : forall h qs vs, wf_history h -> Forall2 opening qs vs ->
  ideal (final_map h) (stems_of h) qs vs \/ event (final_map h) (stems_of h) qs vs.
Proof. exact history_event. Qed.

(** C23: provers that are accepted for enough challenges give a relation between the generators, or the claims
    are true but for hidden stems, or the openings computed from the provers exhibit an event.
    Partial as [C23_coherent_claims_true_partial] is. *)
Theorem C23_accepted_true_or_event_partial {C : ECodec A} : forall h (db : MemoryDb) root hint comms keys values qs uh ch p,
  domain_fits 256 -> wf_history h -> run_mem h = Ok db -> root_commitment db = Ok root ->
  Forall is_key keys -> NoDup keys -> len values = len keys ->
  create_verifier_queries hint comms keys values root = Ok (Some (qs, uh)) ->
  enough_challenges 8 (len qs) ch -> all_checked p hint comms keys values root qs ch ->
  coherent hint keys ->
  scalars_apart (final_map h) (stems_of h) (map (firstn 31) keys ++ vh_diff hint) values ->
  exists zs, points_ok 256 zs qs /\
  match extract_multi 256 zs qs ch (pr_a p) with
  | Opening vs =>
      (forall k v, In (k, v) (combine keys values) -> trie_get db k = Ok v \/ hidden (stems_of h) hint keys k v) \/
      event (final_map h) (stems_of h) qs vs
  | Relation v => relation (crs_G trie_crs ++ [crs_Q trie_crs]) v
  end.
Proof. exact accepted_or_event. Qed.

(** C62: and the stateless update gives the right root or panics. *)
Theorem C62_update_or_event_partial {C : ECodec A} : forall h (db : MemoryDb) root hint comms keys values qs uh ch p,
  domain_fits 256 -> wf_history h -> run_mem h = Ok db -> root_commitment db = Ok root ->
  Forall is_key keys -> NoDup keys -> len values = len keys -> Z.of_nat (len keys) < 2 ^ 63 ->
  create_verifier_queries hint comms keys values root = Ok (Some (qs, uh)) ->
  enough_challenges 8 (len qs) ch -> all_checked p hint comms keys values root qs ch ->
  coherent hint keys ->
  scalars_apart (final_map h) (stems_of h) (map (firstn 31) keys ++ vh_diff hint) values ->
  exists zs, points_ok 256 zs qs /\
  match extract_multi 256 zs qs ch (pr_a p) with
  | Opening vs =>
      (forall updated hash_order, Z.of_nat (len updated) < 2 ^ 63 -> (forall l, Permutation (hash_order l) l) ->
      let result := update_root hash_order uh keys values updated root in
      (~ writes_empty hint keys updated /\
       exists db' root', trie_insert db (StatelessSpec.writes keys updated) = Ok db' /\ root_commitment db' = Ok root' /\ result = Ok (VOk root')) \/
      (writes_empty hint keys updated /\ result = Panic)) \/
      event (final_map h) (stems_of h) qs vs
  | Relation v => relation (crs_G trie_crs ++ [crs_Q trie_crs]) v
  end.
Proof. exact update_or_event. Qed.

Context {C : ECodec A} {H : Hasher}.
(** C65: the root a client ends with is right and what it was told is true, or some block it accepted exhibits an event. *)
Theorem C65_chain_or_event_partial : forall hash_order, (forall l, Permutation (hash_order l) l) -> domain_fits 256 ->
  forall open bs h (db : MemoryDb) root r, wf_history h -> run_mem h = Ok db -> root_commitment db = Ok root ->
  Forall block_fits bs -> along h bs (opened_block open) -> follow hash_order root bs = Ok (VOk r) ->
  ((exists db' : MemoryDb, run_mem (after h bs) = Ok db' /\ root_commitment db' = Ok r) /\
   along h bs (fun h' b => forall k v, In (k, v) (combine (bl_keys b) (bl_values b)) ->
     final_map h' k = v \/ hidden (stems_of h') (vp_hint (bl_proof b)) (bl_keys b) k v)) \/
  exists before b rest, bs = before ++ b :: rest /\ block_event open (after h before) b.
Proof. exact chain_or_event. Qed.

Context {CL : ECodecLaws C} {J : Json}.
(** C66: an accepted witness says what was last written to every item, or exhibits an event. *)
Theorem C66_witness_or_event_partial : forall h64, hash_total h64 -> forall open w h (db : MemoryDb) r root json wit g, domain_fits 256 ->
  Forall account_item (map fst w) -> insertions h64 w = Ok h -> run_mem h = Ok db -> root_commitment db = Ok r -> hex_means root (el_ser r) ->
  json_de json = Some wit -> witness_means wit g -> go_sized g -> Forall is_key (diff_keys (go_state g)) -> NoDup (diff_keys (go_state g)) ->
  (forall p, go_says g p -> opened_block open h (witness_block g p)) -> verify_execution_witness root json = Ok true ->
  (forall a i k v, account_item (a, i) -> collision_free h64 ((a, i) :: map fst w) -> item_key h64 a i = Ok k ->
    In (k, v) (combine (diff_keys (go_state g)) (diff_current (go_state g))) -> v = written w a i \/ hides h g k v) \/
  exists p, go_says g p /\ block_event open h (witness_block g p).
Proof. exact (fun h64 Ht => witness_true_or_event h64 Ht). Qed.

Theorem C66_account_chain_or_event_partial : forall h64, hash_total h64 -> forall hash_order, (forall l, Permutation (hash_order l) l) ->
  forall open bs ws w w' h (db : MemoryDb) root r, domain_fits 256 ->
  Forall account_item (map fst (w ++ concat ws)) -> Forall account_item (map fst w') -> collision_free h64 (map fst (w ++ concat ws) ++ map fst w') ->
  (forall a i, account_item (a, i) -> written (w ++ concat ws) a i = written w' a i) ->
  insertions h64 w = Ok h -> run_mem h = Ok db -> root_commitment db = Ok root ->
  account_blocks h64 bs ws -> Forall block_fits bs -> along h bs (opened_block open) -> follow hash_order root bs = Ok (VOk r) ->
  (exists h' (db' : MemoryDb), insertions h64 w' = Ok h' /\ run_mem h' = Ok db' /\ root_commitment db' = Ok r) \/
  exists before b rest, bs = before ++ b :: rest /\ block_event open (after h before) b.
Proof. exact (fun h64 Ht ho Ho => account_chain_or_event h64 Ht ho Ho). Qed.
End Properties.

(** C23 on the curve and the generators of the library, where nothing is left to assume about the algebra. *)
Theorem C23_default_true_or_event_partial : forall h (db : @MemoryDb real_alg) root hint comms keys values qs uh ch p,
  wf_history h -> Forall (fun kv => is_value (snd kv)) h -> @run_mem real_alg real_par h = Ok db ->
  @root_commitment real_alg _ (@memory_db_ops real_alg) db = Ok root ->
  Forall is_key keys -> NoDup keys -> len values = len keys -> (forall v, In (Some v) values -> is_value v) -> Forall is_stem (vh_diff hint) ->
  @create_verifier_queries real_alg real_par hint comms keys values root = Ok (Some (qs, uh)) ->
  @enough_challenges real_alg 8 (len qs) ch -> @all_checked real_alg real_ecodec real_par p hint comms keys values root qs ch -> coherent hint keys ->
  exists zs, @points_ok real_alg 256 zs qs /\
  match @extract_multi real_alg 256 zs qs ch (pr_a p) with
  | Opening vs =>
      (forall k v, In (k, v) (combine keys values) ->
         @trie_get real_alg _ (@memory_db_ops real_alg) db k = Ok v \/ hidden (stems_of h) hint keys k v) \/
      @event real_alg real_par (final_map h) (stems_of h) qs vs
  | Relation v => @relation real_alg (crs_G (@trie_crs real_alg real_par) ++ [crs_Q (@trie_crs real_alg real_par)]) v
  end.
Proof. exact default_or_event. Qed.

Print Assumptions C23_ideal_or_event.
Print Assumptions C23_accepted_true_or_event_partial.
Print Assumptions C62_update_or_event_partial.
Print Assumptions C65_chain_or_event_partial.
Print Assumptions C66_witness_or_event_partial.
Print Assumptions C66_account_chain_or_event_partial.
Print Assumptions C23_default_true_or_event_partial.

(** Cases.  The accepted proofs of C23 and C62 are those of [C23_coherent_case].  A block with openings: *)
Example C65_opened_case : exists (db : @MemoryDb ExA) root b open, run_mem ex_h = Ok db /\ root_commitment db = Ok root /\ block_fits b /\
  along ex_h [b] (opened_block open) /\
  forall hash_order, (forall l, Permutation (hash_order l) l) -> exists r, follow hash_order root [b] = Ok (VOk r).
Proof.
  destruct five_block as (db & root & b & E & Er & Hf & Hi & _ & Hfol).
  destruct (ideal_opened (after ex_h []) b (Hi [] b [] eq_refl)) as [open Hop]. exists db, root, b, open.
  split; [exact E|]. split; [exact Er|]. split; [exact Hf|]. split; [|exact Hfol].
  intros before b' rest X. destruct before as [|c before]; [|destruct before; discriminate X]. injection X as -> _. exact Hop.
Qed.
(** In the example group an event does occur: the commitment 0 has another opening. *)
Example C23_event_case :
  let g (i : Z) : @F ExA := @crs ExA ExP i in
  let v := g 1 :: fopp (g 0) :: repeat fzero 254 in
  let q := mkVQ (A := ExA) gzero (of_Z 0) (g 1) in
  Forall2 opening [q] [v] /\ event (fun _ => None) [] [q] [v].
Proof.
  cbv zeta. destruct C23_double_case as (Ho & K1 & K2 & N). split; [exact Ho|].
  refine (ev_openings _ _ _ _ _ _ _ 0 K1 K2 _ N (C23_double_opening_partial _ _ _ _ _ _ _ 0 Ho K1 K2 _ N)); lia.
Qed.
