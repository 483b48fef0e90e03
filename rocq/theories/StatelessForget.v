(** An accepted proof whose claims do not fit one tree makes the stateless update forget a value. *)
From Coq Require Import String Permutation.
From Verif Require Import Base BaseFacts Alg AlgFacts TreeSpec TreeFacts TrieModel TrieProofs TrieTheorems BTree ExData
  WireModel ProofModel ProofSpec PathProofs OpeningProofs VerifierProofs ProofTheorems ProofRefute IpaModel LagrangeSpec LagrangeProofs
  IpaSpec MultiProofs CheckProofs TruthSpec TruthRefute StatelessModel StatelessSpec StatelessProofs.
Local Open Scope list_scope.

Section Forget.
Context {A : Alg} {L : AlgLaws A} {P : Par A} {PL : ParLaws P} {C : ECodec A} {CL : ECodecLaws C} {H : Hasher} (Hfit : domain_fits 256).
Opaque vcommit gsum subtree_hash.
Notation len := List.length.
Add Ring Fring : (F_ring (A := A)).

(** Two keys of one stem are in the tree, one of them is written. *)
Definition kept_k : bytes := repeat 7 31 ++ [8].
Definition forget_h : history := [(lone_k, lone_v); (kept_k, lone_v)].
Definition forget_v : bytes := repeat 3 32.
Notation s := (firstn 31 lone_k).
Notation m := (final_map forget_h).
Notation St := (stems_of forget_h).
Notation m' := (final_map [(lone_k, forget_v)]).

Definition forget_c : G := ext_comm m s.
Definition forget_uh (root c : G) : UpdateHint := mkUH [(s, (ExtDifferentStem, 1))] [([], root); ([7], c)] [([7], s)].
Definition forget_qs (root c : G) : list VerifierQuery :=
  [mkVQ root (of_Z 7) (hash c); mkVQ c (of_Z 0) fone; mkVQ c (of_Z 1) (of_Z (le_Z s))].

Lemma forget_queries root c : create_verifier_queries self_hint [c] [lone_k] [None] root = Ok (Some (forget_qs root c, forget_uh root c)).
Proof. vm_compute. reflexivity. Qed.

Lemma forget_new_stem c1 c2 : new_suffixes [(7, (None, forget_v))] gzero gzero = Some (c1, c2) -> new_stem_comm s c1 c2 = ext_comm m' s.
Proof.
  rewrite new_suffixes_deltas by (intros x o v [E|[]]; congruence).
  pose proof (suffix_deltas s [(7, (None, forget_v))] (fun _ => None) gzero gzero) as D.
  destruct D as [D1 D2].
  - constructor; [intros []|constructor].
  - intros x o v [E|[]]. assert (x = 7) as -> by congruence. assert (o = None) as -> by congruence. split; [lia|reflexivity].
  - destruct (fold_left suffix_delta _ _) as [a b]. cbn [fst snd] in D1, D2. intros E. assert (a = c1) as -> by congruence. assert (b = c2) as -> by congruence.
    rewrite new_stem_comm_eq, ext_comm_eq.
    assert (Z : forall j, suffix_comm (fun _ => None) s j = gzero) by (intro j; apply vcommit_zero; intros i _; unfold suffix_vec; destruct (Z.even i); reflexivity).
    rewrite !Z, !gadd_0_l in D1, D2. rewrite !gadd_0_r in D1, D2. subst c1 c2. reflexivity.
Qed.

Lemma forget_root_upd : node_comm m' (stems_of [(lone_k, forget_v)]) [] =
  gadd (node_comm m St []) (scalar_mul (fsub (hash (ext_comm m' s)) (hash (ext_comm m s))) 7).
Proof.
  unfold node_comm, scalar_mul. rewrite (vcommit_upd (node_vec m St []) (node_vec m' (stems_of [(lone_k, forget_v)]) []) 7).
  - rewrite !node_vec_inner by (vm_compute; reflexivity). 
    assert (E1 : inner_vec m' (stems_of [(lone_k, forget_v)]) [] 7 = hash (ext_comm m' s)) by (apply cval_one; vm_compute; reflexivity).
    assert (E2 : inner_vec m St [] 7 = hash (ext_comm m s)) by (apply cval_one; vm_compute; reflexivity).
    rewrite E1, E2. reflexivity.
  - lia.
  - intros j Hj Hne. rewrite !node_vec_inner by (vm_compute; reflexivity). 
    assert (E0 : forall m0 S0, under S0 ([] ++ [j]) = [] -> inner_vec m0 S0 [] j = fzero) by (intros m0 S0; apply cval_none).
    assert (U : under [s] [j] = []).
    { unfold under. cbn [filter]. destruct (has_prefix [j] s) eqn:X; [|reflexivity]. apply has_prefix_eq in X.
      change ([j] = [7]) in X. congruence. }
    rewrite !E0; [reflexivity|exact U|exact U].
Qed.

Lemma forget_update order : (forall l, Permutation (order l) l) ->
  update_root order (forget_uh (node_comm m St []) forget_c) [lone_k] [None] [Some forget_v] (node_comm m St []) =
  Ok (VOk (node_comm m' (stems_of [(lone_k, forget_v)]) [])).
Proof.
  intro Ho. unfold update_root. 
  change (not_usize (len [@None bytes]) =? Z.of_nat (len [Some forget_v])) with false.
  change (not_usize (len [lone_k]) =? Z.of_nat (len [Some forget_v])) with false.
  change (negb (has_unique_elements [lone_k])) with false. cbv iota.
  change (updated_stems [lone_k] [None] [Some forget_v]) with [(s, [(7, (@None bytes, forget_v))])].
  cbn [process_stems]. unfold process_stem.
  change (map_get s (uh_depths (forget_uh (node_comm m St []) forget_c))) with (Some (ExtDifferentStem, 1)). cbn [unwrap rbind].
  change (slice 0 (Z.to_nat 1) s) with (Ok [7]). cbn [rbind].
  change (map_get [7] (uh_others (forget_uh (node_comm m St []) forget_c))) with (Some s). cbn [unwrap rbind].
  change (add_stem_prefix [7] s (add_stem_prefix [7] s (u_prefix (mkU [] bempty)))) with [([7], [s])].
  destruct (new_suffixes [(7, (None, forget_v))] gzero gzero) as [[c1 c2]|] eqn:En.
  2:{ rewrite new_suffixes_deltas in En by (intros x o v [E|[]]; congruence). discriminate. }
  rewrite (forget_new_stem c1 c2 En). cbn [rbind process_stems u_prefix u_stem process_prefixes].
  unfold process_prefix. 
  assert (Eo : order [s] = [s]) by (apply Permutation_length_1_inv; symmetry; apply Ho). rewrite Eo.
  rewrite upd_same. cbn [unwrap rbind snd].
  unfold update_prefix. change (rev [7]) with [7]. cbn [climb_prefix rev sp_updated forget_uh uh_comms].
  change (bempty []) with (@None G). cbn [map_get].
  change (map_get [7] [([], node_comm m St []); ([7], forget_c)]) with (Some forget_c).
  change (map_get [] [([], node_comm m St []); ([7], forget_c)]) with (Some (node_comm m St [])).
  cbn [unwrap rbind sp_root]. unfold forget_c. rewrite forget_root_upd. reflexivity.
Qed.

Lemma forget_entry : node_vec m St [] 7 = hash forget_c.
Proof. rewrite node_vec_inner by (vm_compute; reflexivity). apply cval_one. vm_compute. reflexivity. Qed.

Lemma forgotten :
  exists h (db : MemoryDb) root hint comms keys values updated qs uh r h' (db' : MemoryDb),
    wf_history h /\ run_mem h = Ok db /\ root_commitment db = Ok root /\ Forall is_key keys /\ NoDup keys /\
    len values = len keys /\ len updated = len keys /\
    ends_apart hint keys /\ single_present hint keys /\ empty_agree hint keys /\
    create_verifier_queries hint comms keys values root = Ok (Some (map public_query qs, uh)) /\
    (usable_challenges qs -> exists mp, forall order, (forall l, Permutation (order l) l) ->
      verify_and_update order (mkVP hint comms mp) root keys values updated = Ok (VOk r)) /\
    wf_history h' /\ run_mem h' = Ok db' /\ root_commitment db' = Ok r /\
    exists k v, ~ In k keys /\ trie_get db k = Ok (Some v) /\ trie_get db' k = Ok None.
Proof.
  assert (W : wf_history forget_h) by (apply keys_okb_ok; vm_compute; reflexivity).
  assert (W' : wf_history [(lone_k, forget_v)]) by (apply keys_okb_ok; vm_compute; reflexivity).
  destruct (root_spec forget_h W) as (db & E & _ & _). destruct (root_spec _ W') as (db' & E' & _ & _).
  assert (Hne : forget_qs (node_comm m St []) forget_c <> []) by discriminate.
  assert (Ht : Forall true_claim (forget_qs (node_comm m St []) forget_c)).
  { apply Forall_cons; [apply (claim_intro (node_vec m St [])); [reflexivity|lia|]; symmetry; apply forget_entry|].
    apply Forall_cons; [apply (claim_intro (ext_vec m s)); [reflexivity|lia|reflexivity]|].
    apply Forall_cons; [apply (claim_intro (ext_vec m s)); [reflexivity|lia|reflexivity]|apply Forall_nil]. }
  destruct (true_claims_accepted Hfit _ _ _ _ _ _ _ (forget_queries (node_comm m St []) forget_c) Hne Ht) as (pqs & Eq & Hp).
  destruct (self_false Hfit) as (_ & N1 & N2 & N3 & N4).
  exists forget_h, db, (node_comm m St []), self_hint, [forget_c], [lone_k], [None], [Some forget_v], pqs, (forget_uh (node_comm m St []) forget_c),
    (node_comm m' (stems_of [(lone_k, forget_v)]) []), [(lone_k, forget_v)], db'.
  split; [exact W|]. split; [exact E|]. split; [exact (root_node _ _ W E)|].
  split; [repeat (apply Forall_cons; [apply key_okb; vm_compute; reflexivity|]); apply Forall_nil|].
  split; [exact N1|]. split; [reflexivity|]. split; [reflexivity|]. split; [exact N2|]. split; [exact N3|]. split; [exact N4|].
  split; [rewrite Eq; apply forget_queries|].
  split.
  - intro Hu. destruct (Hp Hu) as (mp & Ec). exists mp. intros order Ho. unfold verify_and_update. rewrite Ec. cbn [rbind negb unwrap].
    now apply forget_update.
  - split; [exact W'|]. split; [exact E'|]. split; [exact (root_node _ _ W' E')|].
    exists kept_k, lone_v. split; [intros [X|[]]; vm_compute in X; discriminate|].
    unfold trie_get. cbn [get_leaf memory_db_ops]. unfold mem_get_leaf.
    rewrite (can_leaf _ _ _ (run_canon _ _ W E)), (can_leaf _ _ _ (run_canon _ _ W' E')). split; vm_compute; reflexivity.
Qed.
End Forget.
