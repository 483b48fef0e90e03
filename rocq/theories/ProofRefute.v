(** Proofs the verifier accepts, or panics on, although it should not. *)
From Verif Require Import Base BaseFacts Alg AlgFacts TreeSpec TreeFacts TrieModel TrieProofs TrieTheorems BTree ExData
  WireModel WireSpec ProofModel ProofSpec PathProofs OpeningProofs VerifierProofs ProofTheorems.

Section Refute.
Context {A : Alg} {L : AlgLaws A} {P : Par A} {PL : ParLaws P}.
Opaque vcommit gsum subtree_hash.

(** ** Equal commitments in an honest proof *)
Lemma honest_panics h (db : MemoryDb) keys qs hint comms root :
  wf_history h -> run_mem h = Ok db -> Forall is_key keys ->
  create_proof_parts db keys = Ok (Some (qs, hint, comms)) -> root_commitment db = Ok root ->
  ~ distinguishable (final_map h) (stems_of h) keys ->
  create_verifier_queries hint comms keys (map (final_map h) keys) root = Panic.
Proof.
  intros Hw E Hk Ep Er Hd. pose proof (run_canon h db Hw E) as C.
  assert (Hne : keys <> []) by (intros ->; discriminate).
  destruct (proof_parts_ok db _ _ C keys Hk Hne) as (qs' & Ep' & Hq). rewrite Ep' in Ep. injection Ep as <- <- <-.
  rewrite (root_node h db Hw E) in Er. injection Er as <-.
  exact (verifier_short db _ _ C keys Hk Hne qs' Hq Hd).
Qed.

Definition twin_s : bytes := repeat 0 31.
Definition twin_v : bytes := repeat 5 32.
Definition twin_h : history := [(twin_s ++ [0], twin_v); (twin_s ++ [128], twin_v)].
Definition twin_keys : list bytes := [twin_s ++ [0]; twin_s ++ [128]].

Lemma key_okb k : (length k =? 32)%nat && forallb (fun b => (0 <=? b) && (b <? 256)) k = true -> is_key k.
Proof.
  intro H. apply andb_true_iff in H as [H1 H2]. split; [now apply Nat.eqb_eq|].
  apply Forall_forall. intros b Hb. rewrite forallb_forall in H2. specialize (H2 b Hb). unfold is_byte. lia.
Qed.

Lemma twin_map k : final_map twin_h k =
  if beqb k (twin_s ++ [128]) then Some twin_v else if beqb k (twin_s ++ [0]) then Some twin_v else None.
Proof.
  unfold final_map, twin_h. cbn [fold_left fst snd]. unfold upd.
  rewrite (beqb_sym k), (beqb_sym k). cbn [final_map]. destruct (beqb (twin_s ++ [128]) k); reflexivity.
Qed.

Lemma twin_vec i : 0 <= i < 256 ->
  suffix_vec (final_map twin_h) twin_s 0 i = suffix_vec (final_map twin_h) twin_s 1 i.
Proof.
  intro Hi. unfold suffix_vec. rewrite !twin_map.
  assert (H : 0 <= i / 2 < 128) by (split; [apply Z.div_pos|apply Z.div_lt_upper_bound]; lia).
  assert (Hb : forall a b, beqb (twin_s ++ [a]) (twin_s ++ [b]) = (a =? b)).
  { intros a b. destruct (Z.eqb_spec a b) as [->|Hn]; [apply beqb_refl|]. apply beqb_neq. intro X.
    apply app_inv_head in X. congruence. }
  rewrite !Hb. replace (128 * 0 + i / 2 =? 128) with false by (symmetry; apply Z.eqb_neq; lia).
  replace (128 * 1 + i / 2 =? 0) with false by (symmetry; apply Z.eqb_neq; lia).
  destruct (Z.eqb_spec (128 * 0 + i / 2) 0); destruct (Z.eqb_spec (128 * 1 + i / 2) 128); auto; lia.
Qed.

Lemma twin_not_distinguishable : ~ distinguishable (final_map twin_h) (stems_of twin_h) twin_keys.
Proof.
  intros [H _].
  assert (Eo : opened (stems_of twin_h) twin_keys = [[]; [0]; [0; 2]; [0; 3]]) by (vm_compute; reflexivity).
  rewrite Eo in H. cbn [map adjacent_distinct] in H. destruct H as (_ & _ & H & _). apply H. unfold node_comm, node_vec.
  replace (internal (stems_of twin_h) [0; 2]) with false by (vm_compute; reflexivity).
  replace (internal (stems_of twin_h) [0; 3]) with false by (vm_compute; reflexivity).
  replace (stem_at (stems_of twin_h) [0; 2]) with (@None bytes) by (vm_compute; reflexivity).
  replace (stem_at (stems_of twin_h) [0; 3]) with (@None bytes) by (vm_compute; reflexivity).
  cbn [removelast last].
  replace (stem_at (stems_of twin_h) [0]) with (Some twin_s) by (vm_compute; reflexivity).
  change (2 - 2) with 0. change (3 - 2) with 1. apply vcommit_ext. apply twin_vec.
Qed.

Lemma twin_wf : wf_history twin_h.
Proof. apply keys_okb_ok. vm_compute. reflexivity. Qed.
Lemma twin_keys_ok : Forall is_key twin_keys.
Proof. constructor; [|constructor; [|constructor]]; apply key_okb; vm_compute; reflexivity. Qed.

Lemma honest_proof_panics : exists db qs hint comms root,
  run_mem twin_h = Ok db /\ create_proof_parts db twin_keys = Ok (Some (qs, hint, comms)) /\
  root_commitment db = Ok root /\ Forall true_opening qs /\
  create_verifier_queries hint comms twin_keys (map (final_map twin_h) twin_keys) root = Panic.
Proof.
  destruct (root_spec twin_h twin_wf) as (db & E & Er & _).
  destruct (prover_ok twin_h db twin_keys twin_wf E ltac:(discriminate) twin_keys_ok) as (qs & hint & comms & Ep & Ht & _).
  exists db, qs, hint, comms. eexists. split; [exact E|]. split; [exact Ep|]. split; [exact Er|]. split; [exact Ht|].
  exact (honest_panics twin_h db twin_keys qs hint comms _ twin_wf E twin_keys_ok Ep Er twin_not_distinguishable).
Qed.

(** ** A value that is there is proved absent *)
Definition hide_k : bytes := repeat 7 32.
Definition hide_v : bytes := repeat 1 32.
Definition hide_h : history := [(hide_k, hide_v)].
Definition hide_hint : VerificationHint := mkHint [2] [ExtNone] [].
Definition hide_comms : list G := [ext_comm (final_map hide_h) (firstn 31 hide_k)].

Lemma hide_accepted root : exists uh,
  create_verifier_queries hide_hint hide_comms [hide_k] [None] root =
  Ok (Some ([mkVQ root (of_Z 7) (hash (ext_comm (final_map hide_h) (firstn 31 hide_k)));
             mkVQ (ext_comm (final_map hide_h) (firstn 31 hide_k)) (of_Z 7) fzero], uh)).
Proof.
  unfold hide_comms. generalize (ext_comm (final_map hide_h) (firstn 31 hide_k)). intro c.
  eexists. vm_compute. reflexivity.
Qed.

Lemma hide_true : Forall (true_of_tree (final_map hide_h) (stems_of hide_h))
  [mkVQ (node_comm (final_map hide_h) (stems_of hide_h) []) (of_Z 7) (hash (ext_comm (final_map hide_h) (firstn 31 hide_k)));
   mkVQ (ext_comm (final_map hide_h) (firstn 31 hide_k)) (of_Z 7) fzero].
Proof.
  constructor; [|constructor; [|constructor]]; unfold true_of_tree; cbn [vq_comm vq_point vq_result].
  - exists [], 7. split; [left; vm_compute; reflexivity|]. split; [lia|]. split; [reflexivity|]. split; [reflexivity|].
    rewrite node_vec_inner by (vm_compute; reflexivity).
    symmetry. apply cval_one. vm_compute. reflexivity.
  - exists [7], 7.
    assert (Hs : stem_at (stems_of hide_h) [7] = Some (firstn 31 hide_k)) by (vm_compute; reflexivity).
    assert (Hi : internal (stems_of hide_h) [7] = false) by (vm_compute; reflexivity).
    split; [right; left; eexists; exact Hs|]. split; [lia|]. split; [|split; [reflexivity|]].
    + unfold node_comm, node_vec. rewrite Hi, Hs. reflexivity.
    + unfold node_vec. rewrite Hi, Hs. reflexivity.
Qed.

(** ** A value that is not there is proved present *)
Definition forge_k1 : bytes := repeat 7 32.
Definition forge_v1 : bytes := repeat 1 32.
Definition forge_h : history := [(forge_k1, forge_v1)].
Definition forge_k2 : bytes := 7 :: repeat 0 31.
Definition forge_v2 : bytes := repeat 2 32.
Definition forge_m : bytes -> option bytes := fun k => if beqb k forge_k2 then Some forge_v2 else None.
Definition forge_hint : VerificationHint := mkHint [2; 1] [ExtPres; ExtPres] [].
Definition forge_vecs : list (Z -> F) :=
  [ ext_vec (final_map forge_h) (firstn 31 forge_k1);     (* at [7] *)
    ext_vec forge_m (firstn 31 forge_k2);                 (* at [7;0], made up *)
    suffix_vec forge_m (firstn 31 forge_k2) 0;            (* at [7;0;2], made up *)
    suffix_vec (final_map forge_h) (firstn 31 forge_k1) 0 ]. (* at [7;2] *)
Definition forge_comms : list G := map vcommit forge_vecs.

Definition forge_queries (root c1 c2 c3 c4 : G) : list VerifierQuery :=
  [ mkVQ root (of_Z 7) (hash c1);
    mkVQ c1 (of_Z 0) fone; mkVQ c1 (of_Z 1) (of_Z (le_Z (firstn 31 forge_k1))); mkVQ c1 (of_Z 2) (hash c4);
    mkVQ c2 (of_Z 0) fone; mkVQ c2 (of_Z 1) (of_Z (le_Z (firstn 31 forge_k2))); mkVQ c2 (of_Z 2) (hash c3);
    mkVQ c3 (of_Z 0) (value_low forge_v2); mkVQ c3 (of_Z 1) (value_high forge_v2);
    mkVQ c4 (of_Z 14) (value_low forge_v1); mkVQ c4 (of_Z 15) (value_high forge_v1) ].

Lemma forge_accepted root : exists uh,
  create_verifier_queries forge_hint forge_comms [forge_k1; forge_k2] [Some forge_v1; Some forge_v2] root =
  Ok (Some (forge_queries root (vcommit (nth 0 forge_vecs (fun _ => fzero))) (vcommit (nth 1 forge_vecs (fun _ => fzero)))
    (vcommit (nth 2 forge_vecs (fun _ => fzero))) (vcommit (nth 3 forge_vecs (fun _ => fzero))), uh)).
Proof.
  unfold forge_comms, forge_vecs. cbn [map nth].
  generalize (vcommit (ext_vec (final_map forge_h) (firstn 31 forge_k1))).
  generalize (vcommit (ext_vec forge_m (firstn 31 forge_k2))).
  generalize (vcommit (suffix_vec forge_m (firstn 31 forge_k2) 0)).
  generalize (vcommit (suffix_vec (final_map forge_h) (firstn 31 forge_k1) 0)).
  intros c4 c3 c2 c1. eexists. vm_compute. reflexivity.
Qed.

Lemma forge_true : Forall true_claim
  (forge_queries (node_comm (final_map forge_h) (stems_of forge_h) [])
    (vcommit (nth 0 forge_vecs (fun _ => fzero))) (vcommit (nth 1 forge_vecs (fun _ => fzero)))
    (vcommit (nth 2 forge_vecs (fun _ => fzero))) (vcommit (nth 3 forge_vecs (fun _ => fzero)))).
Proof.
  assert (T : forall w z r, 0 <= z < 256 -> r = w z -> true_claim (mkVQ (vcommit w) (of_Z z) r)).
  { intros w z r Hz ->. exists w, z. auto. }
  unfold forge_queries, forge_vecs. cbn [nth].
  constructor.
  { apply T; [lia|]. rewrite node_vec_inner by (vm_compute; reflexivity).
    symmetry. apply cval_one. vm_compute. reflexivity. }
  repeat (constructor; [apply T; [lia|]|]); try constructor; try reflexivity.
Qed.

Lemma hidden_key :
  ~ (forall h (db : MemoryDb) root hint comms keys values qs uh,
      wf_history h -> run_mem h = Ok db -> root_commitment db = Ok root ->
      Forall is_key keys -> NoDup keys -> length values = length keys ->
      create_verifier_queries hint comms keys values root = Ok (Some (qs, uh)) ->
      Forall (true_of_tree (final_map h) (stems_of h)) qs ->
      forall k v, In (k, v) (combine keys values) -> trie_get db k = Ok v).
Proof.
  intro H.
  assert (Hw : wf_history hide_h) by (apply keys_okb_ok; vm_compute; reflexivity).
  destruct (root_spec hide_h Hw) as (db & E & _ & _).
  pose proof (root_node hide_h db Hw E) as Er.
  destruct (hide_accepted (node_comm (final_map hide_h) (stems_of hide_h) [])) as [uh Ea].
  assert (X : trie_get db hide_k = Ok None).
  { eapply (H hide_h db _ hide_hint hide_comms [hide_k] [None] _ uh Hw E Er); [| | |exact Ea|exact hide_true|now left].
    - constructor; [apply key_okb; vm_compute; reflexivity|constructor].
    - constructor; [intros []|constructor].
    - reflexivity. }
  pose proof (run_canon hide_h db Hw E) as C.
  unfold trie_get in X. cbn [get_leaf memory_db_ops] in X. unfold mem_get_leaf in X. rewrite (can_leaf _ _ _ C) in X.
  vm_compute in X. discriminate.
Qed.

Lemma forged_value :
  exists h (db : MemoryDb) root hint comms keys values qs uh k v,
    wf_history h /\ run_mem h = Ok db /\ root_commitment db = Ok root /\
    Forall is_key keys /\ NoDup keys /\ length values = length keys /\
    create_verifier_queries hint comms keys values root = Ok (Some (qs, uh)) /\
    Forall true_claim qs /\
    In (k, Some v) (combine keys values) /\ trie_get db k = Ok None.
Proof.
  assert (Hw : wf_history forge_h) by (apply keys_okb_ok; vm_compute; reflexivity).
  destruct (root_spec forge_h Hw) as (db & E & _ & _).
  pose proof (root_node forge_h db Hw E) as Er.
  destruct (forge_accepted (node_comm (final_map forge_h) (stems_of forge_h) [])) as [uh Ea].
  exists forge_h, db. do 6 eexists. exists uh, forge_k2, forge_v2.
  split; [exact Hw|]. split; [exact E|]. split; [exact Er|]. split; [|split; [|split; [|split; [exact Ea|]]]].
  - constructor; [|constructor; [|constructor]]; apply key_okb; vm_compute; reflexivity.
  - constructor; [|constructor; [intros []|constructor]]. intros [X|[]]. vm_compute in X. discriminate.
  - reflexivity.
  - split; [exact forge_true|]. split; [right; now left|].
    pose proof (run_canon forge_h db Hw E) as C.
    unfold trie_get. cbn [get_leaf memory_db_ops]. unfold mem_get_leaf. rewrite (can_leaf _ _ _ C).
    vm_compute. reflexivity.
Qed.

(** ** Panics *)
Lemma reject_no_statuses k v comms root : create_verifier_queries (mkHint [] [] []) comms [k] [v] root = Panic.
Proof. reflexivity. Qed.

Lemma map_get_one s e d : map_get s (map_of [((s : bytes), (e : ExtPresent, d : Z))]) = Some (e, d).
Proof. unfold map_of. cbn [fold_left fst snd map_insert map_get]. now rewrite cmp_refl. Qed.

Lemma one_status k v d e diff comms root : create_verifier_queries (mkHint [d] [e] diff) comms [k] [v] root =
  let! o := verify_key (map_of [(firstn 31 k, (e, d))]) (snd (stem_statuses [firstn 31 k] (mkHint [d] [e] diff))) diff vs_empty (k, v) in
  match o with
  | None => Ok None
  | Some s =>
      let! _ := assertb (stems_eqb diff (vs_used s)) in
      let! _ := assertb (length (root :: comms) =? length (vs_paths s))%nat in
      let by_path := map_of (combine (vs_paths s) (root :: comms)) in
      let! q := verifier_queries (vs_leaf s) by_path (vs_pzs s) in
      Ok (Some (q, mkUH (map_of [(firstn 31 k, (e, d))]) by_path (vs_others s)))
  end.
Proof.
  unfold create_verifier_queries, stem_statuses. cbn [vh_diff map set_of fold_left set_insert combine vh_depths vh_ext verify_keys snd].
  destruct (verify_key _ _ _ _ _) as [[s|]|]; reflexivity.
Qed.

Lemma reject_depth_zero k comms root : create_verifier_queries (mkHint [0] [ExtNone] []) comms [k] [None] root = Panic.
Proof.
  rewrite one_status. unfold verify_key. cbv zeta.
  match goal with |- context [unwrap ?x] => replace x with (Some (ExtNone, 0)) by (symmetry; apply map_get_one) end.
  cbn [unwrap rbind]. change (Z.to_nat 0) with 0%nat. cbn [seq add_branches rbind add_none Nat.eqb].
  destruct (slice 0 0 (firstn 31 k)); reflexivity.
Qed.

Lemma add_branches_app st l1 l2 : forall s, add_branches st (l1 ++ l2) s = let! s := add_branches st l1 s in add_branches st l2 s.
Proof.
  induction l1 as [|i l1 IH]; intro s; [reflexivity|]. cbn [app add_branches].
  destruct (slice 0 i st); [|reflexivity]. cbn [rbind]. destruct (Base.index st i); [|reflexivity]. cbn [rbind]. apply IH.
Qed.

Lemma reject_depth_32 k v e comms root : is_key k ->
  create_verifier_queries (mkHint [32] [e] []) comms [k] [v] root = Panic.
Proof.
  intro Hk. rewrite one_status. unfold verify_key. cbv zeta.
  match goal with |- context [unwrap ?x] => replace x with (Some (e, 32)) by (symmetry; apply map_get_one) end.
  cbn [unwrap rbind]. change (seq 0 (Z.to_nat 32)) with (seq 0 31 ++ [31%nat]). rewrite add_branches_app.
  destruct (add_branches (firstn 31 k) (seq 0 31) vs_empty) as [s|]; [|reflexivity]. cbn [rbind add_branches].
  destruct (slice 0 31 (firstn 31 k)); [|reflexivity]. cbn [rbind].
  destruct (key_stem k Hk) as [Hl _]. unfold Base.index.
  destruct (nth_error (firstn 31 k) 31) eqn:X; [|reflexivity]. exfalso.
  assert (Y : nth_error (firstn 31 k) 31 <> None) by congruence. apply nth_error_Some in Y. lia.
Qed.

Lemma one_present k v diff comms root : is_key k -> exists s,
  vs_used s = [] /\ length (vs_paths s) = 3%nat /\
  create_verifier_queries (mkHint [1] [ExtPres] diff) comms [k] [v] root =
      let! _ := assertb (stems_eqb diff (vs_used s)) in
      let! _ := assertb (length (root :: comms) =? length (vs_paths s))%nat in
      let by_path := map_of (combine (vs_paths s) (root :: comms)) in
      let! q := verifier_queries (vs_leaf s) by_path (vs_pzs s) in
      Ok (Some (q, mkUH (map_of [(firstn 31 k, (ExtPres, 1))]) by_path (vs_others s))).
Proof.
  intros [Hl _]. rewrite one_status. unfold verify_key. cbv zeta.
  match goal with |- context [unwrap ?x] => replace x with (Some (ExtPres, 1)) by (symmetry; apply map_get_one) end.
  do 32 (destruct k as [|? k]; [discriminate|]). destruct k; [|discriminate].
  destruct v; (eexists; split; [|split; [|reflexivity]]; [reflexivity|]);
  cbv -[Z.compare Z.ltb]; destruct (_ <? 128); rewrite ?Z.compare_refl; reflexivity.
Qed.

Lemma reject_no_comms k v root : is_key k -> create_verifier_queries (mkHint [1] [ExtPres] []) [] [k] [v] root = Panic.
Proof.
  intro Hk. destruct (one_present k v [] [] root Hk) as (s & Hu & Hp & ->). rewrite Hu, Hp. reflexivity.
Qed.

Lemma reject_extra_diff k v t c1 c2 root : is_key k ->
  create_verifier_queries (mkHint [1] [ExtPres] [t]) [c1; c2] [k] [v] root = Panic.
Proof.
  intro Hk. destruct (one_present k v [t] [c1; c2] root Hk) as (s & Hu & Hp & ->). rewrite Hu. reflexivity.
Qed.
End Refute.
