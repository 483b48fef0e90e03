(** Each condition on the claims is needed. *)
From Coq Require Import String.
From Verif Require Import Base BaseFacts Alg AlgFacts TreeSpec TreeFacts TrieModel TrieProofs TrieTheorems BTree ExData
  WireModel ProofModel ProofSpec PathProofs OpeningProofs VerifierProofs ProofTheorems ProofRefute IpaModel LagrangeSpec LagrangeProofs
  IpaSpec MultiProofs CheckProofs TruthSpec.
Local Open Scope list_scope.

Section Refute.
Context {A : Alg} {L : AlgLaws A} {P : Par A} {PL : ParLaws P} {C : ECodec A} {CL : ECodecLaws C} {H : Hasher} (Hfit : domain_fits 256).
Opaque vcommit gsum subtree_hash.
Notation len := List.length.

(** All trees below hold one value. *)
Definition lone_k : bytes := repeat 7 32.
Definition lone_v : bytes := repeat 1 32.
Definition lone_h : history := [(lone_k, lone_v)].
Notation lm := (final_map lone_h).
Notation ls := (firstn 31 lone_k).
Notation LS := (stems_of lone_h).

Lemma lone_falsehood hint comms keys values (mkqs : G -> list VerifierQuery) :
  Forall is_key keys -> len values = len keys ->
  (forall root, exists uh, create_verifier_queries hint comms keys values root = Ok (Some (mkqs root, uh))) ->
  mkqs (node_comm lm LS []) <> [] -> Forall true_claim (mkqs (node_comm lm LS [])) ->
  (exists k v, In (k, v) (combine keys values) /\ lm k <> v /\ ~ hidden LS hint keys k v) ->
  falsehood hint comms keys values.
Proof.
  intros Hk Hl Ha Hne Ht (k & v & Hin & Hv & Hh).
  assert (Hw : wf_history lone_h) by (apply keys_okb_ok; vm_compute; reflexivity).
  destruct (root_spec lone_h Hw) as (db & E & _ & _).
  pose proof (root_node lone_h db Hw E) as Er.
  destruct (Ha (node_comm lm LS [])) as [uh Ea].
  destruct (true_claims_accepted Hfit _ _ _ _ _ _ _ Ea Hne Ht) as (pqs & Eq & Hp).
  exists lone_h, db, (node_comm lm LS []), pqs, uh.
  split; [exact Hw|]. split; [exact E|]. split; [exact Er|]. split; [exact Hk|]. split; [exact Hl|].
  split; [rewrite Eq; exact Ea|]. split; [exact Hp|].
  exists k, v. split; [exact Hin|]. split; [|exact Hh].
  pose proof (run_canon lone_h db Hw E) as Ca.
  unfold trie_get. cbn [get_leaf memory_db_ops]. unfold mem_get_leaf. rewrite (can_leaf _ _ _ Ca). congruence.
Qed.

Lemma claim_intro w z r c : c = vcommit w -> 0 <= z < 256 -> r = w z -> true_claim (mkVQ c (of_Z z) r).
Proof. intros -> Hz ->. exists w, z. auto. Qed.

Lemma root_entry : node_vec lm LS [] 7 = hash (ext_comm lm ls).
Proof. rewrite node_vec_inner by (vm_compute; reflexivity). apply cval_one. vm_compute. reflexivity. Qed.
Lemma root_empty : node_vec lm LS [] 9 = fzero.
Proof. rewrite node_vec_inner by (vm_compute; reflexivity). apply cval_none. vm_compute. reflexivity. Qed.

(** A key asked for twice: the first value is not checked. *)
Definition twice_values : list (option bytes) := [Some (repeat 2 32); Some lone_v].
Definition twice_hint : VerificationHint := mkHint [1] [ExtPres] [].
Lemma twice_false : falsehood twice_hint [vcommit (ext_vec lm ls); vcommit (suffix_vec lm ls 0)] [lone_k; lone_k] twice_values /\
  coherent twice_hint [lone_k; lone_k].
Proof.
  split.
  - apply (lone_falsehood _ _ _ _ (fun root =>
      [mkVQ root (of_Z 7) (hash (vcommit (ext_vec lm ls)));
       mkVQ (vcommit (ext_vec lm ls)) (of_Z 0) fone; mkVQ (vcommit (ext_vec lm ls)) (of_Z 1) (of_Z (le_Z ls));
       mkVQ (vcommit (ext_vec lm ls)) (of_Z 2) (hash (vcommit (suffix_vec lm ls 0)));
       mkVQ (vcommit (suffix_vec lm ls 0)) (of_Z 14) (value_low lone_v); mkVQ (vcommit (suffix_vec lm ls 0)) (of_Z 15) (value_high lone_v)])).
    + repeat (apply Forall_cons; [apply key_okb; vm_compute; reflexivity|]). apply Forall_nil.
    + reflexivity.
    + intro root. generalize (vcommit (suffix_vec lm ls 0)) (vcommit (ext_vec lm ls)). intros c2 c1. eexists. vm_compute. reflexivity.
    + discriminate.
    + apply Forall_cons; [apply (claim_intro (node_vec lm LS [])); [reflexivity|lia|]; symmetry; apply root_entry|].
      repeat (apply Forall_cons; [eapply claim_intro; [reflexivity|lia|reflexivity]|]). apply Forall_nil.
    + exists lone_k, (Some (repeat 2 32)). split; [now left|]. split; [intro X; vm_compute in X; discriminate|].
      intros (X & _). discriminate.
  - assert (Ec : claims twice_hint [lone_k; lone_k] = [(ls, 1, ExtPres)]) by (vm_compute; reflexivity).
    constructor.
    + intros s1 d1 e1 s2 d2 e2. rewrite Ec. intros [E1|[]] [E2|[]]. assert (d1 = 1) as -> by congruence. assert (d2 = 1) as -> by congruence. lia.
    + intros (s1 & d1 & s2 & d2 & H1 & H2 & Hne & _). rewrite Ec in H1, H2. destruct H1 as [E1|[]], H2 as [E2|[]]. congruence.
    + intros e1 e2 (s1 & d1 & s2 & d2 & H1 & H2 & Hne & _). rewrite Ec in H1, H2. destruct H1 as [E1|[]], H2 as [E2|[]]. congruence.
    + intros t [].
Qed.

(** Two stems present in one slot: the stem of the first is not checked. *)
Definition other_k : bytes := 7 :: repeat 0 30 ++ [7].
Definition both_keys : list bytes := [other_k; lone_k].
Definition both_hint : VerificationHint := mkHint [1; 1] [ExtPres; ExtPres] [].
Lemma both_false : falsehood both_hint [vcommit (ext_vec lm ls); vcommit (suffix_vec lm ls 0)] both_keys [Some lone_v; Some lone_v] /\
  NoDup both_keys /\ ends_apart both_hint both_keys /\ empty_agree both_hint both_keys /\ others_unasked both_hint both_keys.
Proof.
  assert (Ec : claims both_hint both_keys = [(firstn 31 other_k, 1, ExtPres); (ls, 1, ExtPres)]) by (vm_compute; reflexivity).
  split; [|split; [|split; [|split]]].
  - apply (lone_falsehood _ _ _ _ (fun root =>
      [mkVQ root (of_Z 7) (hash (vcommit (ext_vec lm ls)));
       mkVQ (vcommit (ext_vec lm ls)) (of_Z 0) fone; mkVQ (vcommit (ext_vec lm ls)) (of_Z 1) (of_Z (le_Z ls));
       mkVQ (vcommit (ext_vec lm ls)) (of_Z 2) (hash (vcommit (suffix_vec lm ls 0)));
       mkVQ (vcommit (suffix_vec lm ls 0)) (of_Z 14) (value_low lone_v); mkVQ (vcommit (suffix_vec lm ls 0)) (of_Z 15) (value_high lone_v)])).
    + repeat (apply Forall_cons; [apply key_okb; vm_compute; reflexivity|]). apply Forall_nil.
    + reflexivity.
    + intro root. generalize (vcommit (suffix_vec lm ls 0)) (vcommit (ext_vec lm ls)). intros c2 c1. eexists. vm_compute. reflexivity.
    + discriminate.
    + apply Forall_cons; [apply (claim_intro (node_vec lm LS [])); [reflexivity|lia|]; symmetry; apply root_entry|].
      repeat (apply Forall_cons; [eapply claim_intro; [reflexivity|lia|reflexivity]|]). apply Forall_nil.
    + exists other_k, (Some lone_v). split; [now left|]. split; [intro X; vm_compute in X; discriminate|].
      intros (X & _). discriminate.
  - constructor; [|constructor; [intros []|constructor]]. intros [X|[]]. vm_compute in X. discriminate.
  - intros s1 d1 e1 s2 d2 e2. rewrite Ec. intros [E1|[E1|[]]] [E2|[E2|[]]]; assert (d1 = 1) as -> by congruence; assert (d2 = 1) as -> by congruence; lia.
  - intros e1 e2 (s1 & d1 & s2 & d2 & H1 & H2 & _). rewrite Ec in H1, H2.
    destruct H1 as [E1|[E1|[]]], H2 as [E2|[E2|[]]]; assert (e1 = ExtPres) as -> by congruence; assert (e2 = ExtPres) as -> by congruence; tauto.
  - intros t [].
Qed.

(** An empty slot that is also occupied: what is said to be in it is not checked. *)
Definition ghost_k : bytes := repeat 9 32.
Definition ghost_k2 : bytes := 9 :: repeat 0 31.
Definition ghost_v : bytes := repeat 2 32.
Definition ghost_m : bytes -> option bytes := fun k => if beqb k ghost_k then Some ghost_v else None.
Definition ghost_keys : list bytes := [ghost_k; ghost_k2].
Definition ghost_hint : VerificationHint := mkHint [1; 1] [ExtNone; ExtPres] [].
Notation gs := (firstn 31 ghost_k).
Lemma ghost_false : falsehood ghost_hint [vcommit (ext_vec ghost_m gs); vcommit (suffix_vec ghost_m gs 0)] ghost_keys [Some ghost_v; None] /\
  NoDup ghost_keys /\ ends_apart ghost_hint ghost_keys /\ single_present ghost_hint ghost_keys /\ others_unasked ghost_hint ghost_keys.
Proof.
  assert (Ec : claims ghost_hint ghost_keys = [(firstn 31 ghost_k2, 1, ExtNone); (gs, 1, ExtPres)]) by (vm_compute; reflexivity).
  split; [|split; [|split; [|split]]].
  - apply (lone_falsehood _ _ _ _ (fun root =>
      [mkVQ root (of_Z 9) fzero;
       mkVQ (vcommit (ext_vec ghost_m gs)) (of_Z 0) fone; mkVQ (vcommit (ext_vec ghost_m gs)) (of_Z 1) (of_Z (le_Z gs));
       mkVQ (vcommit (ext_vec ghost_m gs)) (of_Z 2) (hash (vcommit (suffix_vec ghost_m gs 0)));
       mkVQ (vcommit (suffix_vec ghost_m gs 0)) (of_Z 18) (value_low ghost_v); mkVQ (vcommit (suffix_vec ghost_m gs 0)) (of_Z 19) (value_high ghost_v)])).
    + repeat (apply Forall_cons; [apply key_okb; vm_compute; reflexivity|]). apply Forall_nil.
    + reflexivity.
    + intro root. generalize (vcommit (suffix_vec ghost_m gs 0)) (vcommit (ext_vec ghost_m gs)). intros c2 c1. eexists. vm_compute. reflexivity.
    + discriminate.
    + apply Forall_cons; [apply (claim_intro (node_vec lm LS [])); [reflexivity|lia|]; symmetry; apply root_empty|].
      repeat (apply Forall_cons; [eapply claim_intro; [reflexivity|lia|reflexivity]|]). apply Forall_nil.
    + exists ghost_k, (Some ghost_v). split; [now left|]. split; [intro X; vm_compute in X; discriminate|].
      intros (X & _). discriminate.
  - constructor; [|constructor; [intros []|constructor]]. intros [X|[]]. vm_compute in X. discriminate.
  - intros s1 d1 e1 s2 d2 e2. rewrite Ec. intros [E1|[E1|[]]] [E2|[E2|[]]]; assert (d1 = 1) as -> by congruence; assert (d2 = 1) as -> by congruence; lia.
  - intros (s1 & d1 & s2 & d2 & H1 & H2 & Hne & _). rewrite Ec in H1, H2.
    destruct H1 as [E1|[E1|[]]], H2 as [E2|[E2|[]]]; congruence.
  - intros t [].
Qed.

(** The stem asked for listed as the other stem in its slot. *)
Definition self_hint : VerificationHint := mkHint [1] [ExtDifferentStem] [ls].
Lemma self_false : falsehood self_hint [vcommit (ext_vec lm ls)] [lone_k] [None] /\
  NoDup [lone_k] /\ ends_apart self_hint [lone_k] /\ single_present self_hint [lone_k] /\ empty_agree self_hint [lone_k].
Proof.
  assert (Ec : claims self_hint [lone_k] = [(ls, 1, ExtDifferentStem)]) by (vm_compute; reflexivity).
  split; [|split; [|split; [|split]]].
  - apply (lone_falsehood _ _ _ _ (fun root =>
      [mkVQ root (of_Z 7) (hash (vcommit (ext_vec lm ls)));
       mkVQ (vcommit (ext_vec lm ls)) (of_Z 0) fone; mkVQ (vcommit (ext_vec lm ls)) (of_Z 1) (of_Z (le_Z ls))])).
    + repeat (apply Forall_cons; [apply key_okb; vm_compute; reflexivity|]). apply Forall_nil.
    + reflexivity.
    + intro root. generalize (vcommit (ext_vec lm ls)). intros c1. eexists. vm_compute. reflexivity.
    + discriminate.
    + apply Forall_cons; [apply (claim_intro (node_vec lm LS [])); [reflexivity|lia|]; symmetry; apply root_entry|].
      repeat (apply Forall_cons; [eapply claim_intro; [reflexivity|lia|reflexivity]|]). apply Forall_nil.
    + exists lone_k, None. split; [now left|]. split; [intro X; vm_compute in X; discriminate|].
      intros (_ & _ & d & X & _). rewrite Ec in X. destruct X as [X|[]]. discriminate.
  - constructor; [intros []|constructor].
  - intros s1 d1 e1 s2 d2 e2. rewrite Ec. intros [E1|[]] [E2|[]]. assert (d1 = 1) as -> by congruence. assert (d2 = 1) as -> by congruence. lia.
  - intros (s1 & d1 & s2 & d2 & H1 & H2 & Hne & _). rewrite Ec in H1, H2. destruct H1 as [E1|[]], H2 as [E2|[]]. congruence.
  - intros e1 e2 (s1 & d1 & s2 & d2 & H1 & H2 & Hne & _). rewrite Ec in H1, H2. destruct H1 as [E1|[]], H2 as [E2|[]]. congruence.
Qed.

(** A claim that goes on below the slot in which another one ends: [forged_value_checked]. *)
Lemma below_false : falsehood forge_hint forge_comms [forge_k1; forge_k2] [Some forge_v1; Some forge_v2] /\
  NoDup [forge_k1; forge_k2] /\ single_present forge_hint [forge_k1; forge_k2] /\ empty_agree forge_hint [forge_k1; forge_k2] /\
  others_unasked forge_hint [forge_k1; forge_k2].
Proof.
  assert (Ec : claims forge_hint [forge_k1; forge_k2] = [(firstn 31 forge_k2, 2, ExtPres); (firstn 31 forge_k1, 1, ExtPres)]) by (vm_compute; reflexivity).
  split; [|split; [|split; [|split]]].
  - apply (lone_falsehood _ _ _ _ (fun root => forge_queries root (vcommit (nth 0 forge_vecs (fun _ => fzero))) (vcommit (nth 1 forge_vecs (fun _ => fzero)))
      (vcommit (nth 2 forge_vecs (fun _ => fzero))) (vcommit (nth 3 forge_vecs (fun _ => fzero))))).
    + repeat (apply Forall_cons; [apply key_okb; vm_compute; reflexivity|]). apply Forall_nil.
    + reflexivity.
    + apply forge_accepted.
    + discriminate.
    + exact forge_true.
    + exists forge_k2, (Some forge_v2). split; [right; now left|]. split; [intro X; vm_compute in X; discriminate|].
      intros (X & _). discriminate.
  - constructor; [|constructor; [intros []|constructor]]. intros [X|[]]. vm_compute in X. discriminate.
  - intros (s1 & d1 & s2 & d2 & H1 & H2 & Hne & Hd & _). rewrite Ec in H1, H2.
    destruct H1 as [E1|[E1|[]]], H2 as [E2|[E2|[]]]; try congruence.
    + assert (d1 = 2) as -> by congruence. assert (d2 = 1) as -> by congruence. discriminate.
    + assert (d1 = 1) as -> by congruence. assert (d2 = 2) as -> by congruence. discriminate.
  - intros e1 e2 (s1 & d1 & s2 & d2 & H1 & H2 & _). rewrite Ec in H1, H2.
    destruct H1 as [E1|[E1|[]]], H2 as [E2|[E2|[]]]; assert (e1 = ExtPres) as -> by congruence; assert (e2 = ExtPres) as -> by congruence; tauto.
  - intros t [].
Qed.
End Refute.
