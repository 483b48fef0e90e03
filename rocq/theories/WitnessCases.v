(** A witness about the fields, code and slots of two accounts that meets the conditions of [PropWitness]. *)
From Coq Require Import Permutation.
From Verif Require Import Base BaseFacts Alg AlgFacts AlgInst TreeSpec TreeFacts TrieModel TrieProofs TrieTheorems ExData BTree WireModel WireSpec WireInst ProofModel ProofSpec PathProofs
  OpeningProofs VerifierProofs ProofTheorems ProofRefute ProofExamples IpaModel LagrangeSpec IpaSpec CheckProofs IpaTheorems IpaInst SoundSpec GoModel GoSpec GoProofs GoTrie
  StatelessModel StatelessSpec StatelessProofs TruthSpec TruthVerifier TruthFacts TruthProofs TruthTheorems TruthInst
  MsmModel FfiModel SpecModel LayoutSpec LayoutProofs LayoutInst AccountSpec AccountProofs ChainSpec ChainProofs ChainCases WitnessSpec WitnessProofs.
Local Open Scope list_scope.

Section Generic.
Context {A : Alg} {L : AlgLaws A} {P : Par A} {PL : ParLaws P} {C : ECodec A} {CL : ECodecLaws C} {H : Hasher}.

Lemma map_inj {X Y} (f : X -> Y) l1 l2 : (forall a b, f a = f b -> a = b) -> map f l1 = map f l2 -> l1 = l2.
Proof.
  intros I. revert l2. induction l1 as [|a l1 IH]; intros [|b l2] E; cbn [map] in E; try discriminate; [reflexivity|].
  injection E as E1 E2. f_equal; [now apply I|now apply IH].
Qed.
(** The bytes of a witness say one thing. *)
Lemma says_unique g p p' : go_says g p -> go_says g p' -> p = p'.
Proof.
  intros [E1 D1 S1 C1 G1 L1 R1 F1] [E2 D2 S2 C2 G2 L2 R2 F2].
  destruct p as [[ds es df] cm [[l r a] gg]], p' as [[ds' es' df'] cm' [[l' r' a'] gg']]. cbn [vp_hint vp_comms vp_proof vh_depths vh_ext vh_diff mp_ipa mp_g ipa_L ipa_R ipa_a] in *.
  assert (es = es').
  { clear - E1 E2. revert es' E2. induction E1 as [|b e bs es Hb E1 IH]; intros es' E2; inversion E2; subst; [reflexivity|].
    f_equal; [|now apply IH]. unfold status_means in *. destruct e, y; congruence. }
  assert (df = df') by (apply (sorted_ext df df'); [apply S1|apply S2|]; intro s; rewrite (proj2 S1 s), (proj2 S2 s); reflexivity).
  assert (cm = cm') by (apply (map_inj el_ser); [exact el_ser_inj|congruence]).
  assert (l = l') by (apply (map_inj el_ser); [exact el_ser_inj|congruence]).
  assert (r = r') by (apply (map_inj el_ser); [exact el_ser_inj|congruence]).
  assert (gg = gg') by (apply el_ser_inj; congruence).
  assert (a = a').
  { assert (X : rev (rev (sc_ser a)) = rev (rev (sc_ser a'))) by congruence. rewrite !rev_involutive in X.
    pose proof (sc_rt a) as Y. rewrite X, sc_rt in Y. now injection Y. }
  congruence.
Qed.

Lemma created_parts (db : MemoryDb) order keys p qs hint comms : create_verkle_proof order db keys = Ok (Some p) ->
  create_proof_parts db keys = Ok (Some (qs, hint, comms)) -> vp_hint p = hint /\ vp_comms p = comms.
Proof.
  unfold create_verkle_proof. intros Cr Ep. rewrite Ep in Cr. cbn [rbind] in Cr. destruct (precomputed_weights 256) as [pw|]; cbn [rbind] in Cr; [|discriminate].
  destruct (mp_open _ _ _ _ _) as [[mp tr]|]; cbn [rbind] in Cr; [|discriminate]. injection Cr as <-. split; reflexivity.
Qed.

Lemma honest_ideal h (db : MemoryDb) keys order p updated : wf_history h -> run_mem h = Ok db -> keys <> [] -> Forall is_key keys ->
  distinguishable (final_map h) (stems_of h) keys -> idealb (final_map h) (stems_of h) (map snd h) = true ->
  apartb (stems_of h) (map (firstn 31) keys ++ vh_diff (proof_hint (stems_of h) keys)) (map snd h) (map snd h) = true ->
  create_verkle_proof order db keys = Ok (Some p) -> ideal_block h (mkBlock p keys (map (final_map h) keys) updated).
Proof.
  intros Hw E Nk Hk D Hi Ha Cr. pose proof (run_canon h db Hw E) as Cn.
  destruct (proof_parts_ok db _ _ Cn keys Hk Nk) as (qs & Ep & Hq).
  destruct (honest_queries h db keys Hw E Nk Hk D) as (qs' & hint' & comms' & root & uh & Ep' & Er & Ev).
  rewrite Ep in Ep'.
  assert (X : (qs, proof_hint (stems_of h) keys, comms_of_queries qs (node_comm (final_map h) (stems_of h) [])) = (qs', hint', comms')) by congruence.
  apply pair_equal_spec in X as [X <-]. apply pair_equal_spec in X as [<- <-]. clear Ep'.
  assert (Hn : Forall (fun x => is_node (stems_of h) (fst x)) (all_entries (stems_of h) keys)).
  { apply Forall_forall. intros x Hx. apply (opened_node db (final_map h) (stems_of h) Cn keys Hk).
    apply in_map. exact (proj1 (In_set_of _ _) Hx). }
  destruct (honest_openings db _ _ keys qs Cn Hk Hq Hn) as [Hop Hkn].
  assert (Hv : forall k v, final_map h k = Some v -> In v (map snd h)) by (intros k v; apply TruthInst.final_map_In).
  assert (Hp : vp_hint p = proof_hint (stems_of h) keys /\ vp_comms p = comms_of_queries qs (node_comm (final_map h) (stems_of h) [])).
  { exact (created_parts db _ _ p _ _ _ Cr Ep). }
  destruct Hp as [Hp1 Hp2].
  split; cbn [bl_keys bl_values bl_proof]; [now rewrite map_length|]. rewrite Hp1, Hp2.
  intros db2 root2 qs2 uh2 uh3 E2 Er2 _ Ev2.
  assert (db2 = db) by congruence. subst db2. assert (root2 = root) by congruence. subst root2.
  assert (X : (qs2, uh3) = (map (fun q => mkVQ (pq_comm q) (of_Z (pq_point q)) (pq_result q)) qs, uh)) by congruence. apply pair_equal_spec in X as [-> _].
  split; [exact (honest_coherent db _ _ keys Cn Hk)|]. split.
  - apply (apartb_ok _ _ _ (map snd h) _ (map snd h)); [exact Ha|exact Hv|]. intros v Hin. apply in_map_iff in Hin as (k & Hk' & _). exact (Hv k v Hk').
  - eexists. split; [exact Hop|]. apply (idealb_ok _ _ (map snd h)); [exact (can_wf _ _ _ Cn)|exact Hi|exact Hv|exact Hkn].
Qed.
End Generic.

(** Two accounts; the witness is about a field written twice, a field never written, both chunks of code, a
    slot, and an account that does not exist. *)
Definition acc1 : writes := [(adr 7, Field 2, repeat 1 32); (adr 8, Slot 5, repeat 2 32)].
Definition acc2 : writes := [(adr 7, Field 2, repeat 4 32)].
Definition acc : writes := acc1 ++ code_writes (adr 7) (code_chunks code40) ++ acc2.
Definition acc_items : list (bytes * item) :=
  [(adr 7, Field 2); (adr 7, Field 0); (adr 7, Chunk 0); (adr 7, Chunk 1); (adr 8, Slot 5); (adr 9, Field 0)].
Definition acc_h : history := match insertions toy64 acc with Ok h => h | Panic => [] end.
Definition acc_keys : list bytes := match item_keys toy64 acc_items with Ok l => l | Panic => [] end.
Definition acc_diffs : list StateDiff :=
  map (fun k => mkST (firstn 31 k) [mkSD (nth 31 k 0) (final_map acc_h k) None]) acc_keys.
Lemma acc_ins : insertions toy64 acc = Ok acc_h.
Proof. vm_compute. reflexivity. Qed.
Lemma acc_wf : wf_history acc_h.
Proof. apply keys_okb_ok. vm_compute. reflexivity. Qed.
Lemma acc_targets : Forall account_item (map fst acc).
Proof. repeat (constructor; [split; [reflexivity|split; (reflexivity || discriminate)]|]). constructor. Qed.
Lemma acc_items_ok : Forall account_item acc_items.
Proof. repeat (constructor; [split; [reflexivity|split; (reflexivity || discriminate)]|]). constructor. Qed.
Lemma acc_free : collision_free toy64 (acc_items ++ map fst acc).
Proof. apply collision_freeb_ok. vm_compute. reflexivity. Qed.
Lemma acc_keys_ok : Forall is_key acc_keys.
Proof. apply keysb_ok. vm_compute. reflexivity. Qed.
Lemma acc_keys_eq : item_keys toy64 acc_items = Ok acc_keys.
Proof. vm_compute. reflexivity. Qed.
Lemma acc_nodup : NoDup acc_keys.
Proof. vm_compute. repeat (constructor; [cbn; intuition discriminate|]). constructor. Qed.
Lemma acc_d : distinguishable (A := ExA) (final_map acc_h) (stems_of acc_h) acc_keys.
Proof. apply distinguishableb_ok. vm_compute. reflexivity. Qed.
Lemma acc_i : idealb (A := ExA) (final_map acc_h) (stems_of acc_h) (map snd acc_h) = true.
Proof. vm_compute. reflexivity. Qed.
Lemma acc_a : apartb (A := ExA) (stems_of acc_h) (map (firstn 31) acc_keys ++ vh_diff (proof_hint (stems_of acc_h) acc_keys)) (map snd acc_h) (map snd acc_h) = true.
Proof. vm_compute. reflexivity. Qed.
Lemma acc_diffs_ok : state_sized acc_diffs /\ diff_keys acc_diffs = acc_keys /\ diff_current acc_diffs = map (fun ai => written acc (fst ai) (snd ai)) acc_items.
Proof.
  split; [|split; vm_compute; reflexivity].
  assert (Y : forall n b, (List.length b =? n)%nat && forallb (fun x => (0 <=? x) && (x <? 256)) b = true -> sized n b).
  { intros n b B. apply andb_true_iff in B as [B1 B2]. apply Nat.eqb_eq in B1. split; [|exact B1].
    rewrite forallb_forall in B2. apply Forall_forall. intros x Hx. apply B2 in Hx. apply andb_true_iff in Hx as [X1 X2].
    apply Z.leb_le in X1. apply Z.ltb_lt in X2. unfold is_byte. lia. }
  assert (X : forallb (fun s => ((List.length (st_stem s) =? 31)%nat && forallb (fun x => (0 <=? x) && (x <? 256)) (st_stem s)) &&
    forallb (fun d => let ok o := match o with None => true | Some b => (List.length b =? 32)%nat && forallb (fun x => (0 <=? x) && (x <? 256)) b end in
       ok (sd_current d) && ok (sd_new d)) (st_diffs s)) acc_diffs = true) by (vm_compute; reflexivity).
  rewrite forallb_forall in X. apply Forall_forall. intros s Hs. apply X in Hs. apply andb_true_iff in Hs as [B1 B2].
  split; [now apply Y|]. rewrite forallb_forall in B2. apply Forall_forall. intros d Hd. apply B2 in Hd.
  apply andb_true_iff in Hd as [B3 B4]. unfold value_sized. split; [destruct (sd_current d)|destruct (sd_new d)]; auto.
Qed.

Lemma acc_witness : exists (J : Json) (db : @MemoryDb ExA) r wit p,
  run_mem acc_h = Ok db /\ root_commitment db = Ok r /\ json_de [] = Some wit /\ let g := go_of_proof p acc_diffs in
  witness_means wit g /\ go_sized g /\ ideal_witness acc_h g /\ verify_execution_witness (hex_of (el_ser r)) [] = Ok true.
Proof.
  destruct acc_diffs_ok as (S & Ek & Ec).
  assert (B : forall g : @G ExA, is_bytes (el_ser g)) by (intro g; apply ex_ser_bytes).
  assert (B' : forall g : @F ExA, is_bytes (sc_ser g)) by (intro g; apply ex_ser_bytes).
  assert (Ho : forall l : list Group, Permutation l l) by (intro; apply Permutation_refl).
  assert (Ek' : item_keys toy64 acc_items = Ok (diff_keys acc_diffs)) by (rewrite Ek; exact acc_keys_eq).
  assert (Dd : distinguishable (A := ExA) (final_map acc_h) (stems_of acc_h) (diff_keys acc_diffs)) by (rewrite Ek; exact acc_d).
  pose proof (fun J => account_witness (J := J) toy64 toy_total acc acc_items acc_diffs (fun l => l) (ex_fits 256 ltac:(lia)) B B' acc_targets ltac:(discriminate) acc_items_ok
    acc_free ltac:(vm_compute; reflexivity) Ho S Ek' Ec) as W.
  destruct (W (fun _ => None)) as (h & db & qs & hint & comms & r & Eh & E & Er & _ & K). rewrite acc_ins in Eh. injection Eh as <-.
  destruct (K Dd (ex_usable qs)) as (p & Cr & _).
  assert (Hwit : exists wit, wit = json_of_go (go_of_proof p acc_diffs)) by (eexists; reflexivity). destruct Hwit as (wit & Hwit). exists (fun _ => Some wit), db, r, wit, p.
  destruct (W (fun _ => Some wit)) as (h2 & db2 & qs2 & hint2 & comms2 & r2 & Eh2 & E2 & Er2 & Ep2 & K2). rewrite acc_ins in Eh2. injection Eh2 as <-.
  assert (db2 = db) by congruence. subst db2. assert (r2 = r) by congruence. subst r2.
  destruct (K2 Dd (ex_usable qs2)) as (p2 & Cr2 & V). assert (p2 = p) by congruence. subst p2.
  split; [exact E|]. split; [exact Er|]. split; [reflexivity|]. cbv zeta.
  assert (V' : verify_execution_witness (J := fun _ => Some wit) (hex_of (el_ser r)) [] = Ok true) by (apply V; rewrite <- Hwit; reflexivity).
  destruct (verify_accept (J := fun _ => Some wit) _ _ V') as (wit' & g & p' & r' & uh & Ej & Mw & Gs & Hs & _ & _).
  assert (Q : wit' = wit) by (exact (eq_sym (f_equal (fun o => match o with Some x => x | None => wit end) Ej))). subst wit'.
  assert (Hp : vp_hint p = hint2).
  { exact (proj1 (created_parts db _ _ p qs2 hint2 comms2 Cr Ep2)). }
  assert (HF : hint_fits (vp_hint p)).
  { rewrite Hp. rewrite Ek in Ep2. exact (prover_hint_fits acc_h db acc_keys qs2 hint2 comms2 acc_wf E acc_keys_ok ltac:(vm_compute; reflexivity) Ep2). }
  assert (HD : Forall (sized 31) (vh_diff (vp_hint p))).
  { rewrite Hp. rewrite Ek in Ep2. exact (prover_diff_stems acc_h db acc_keys qs2 hint2 comms2 acc_wf E acc_keys_ok Ep2). }
  assert (GS : go_sized (go_of_proof p acc_diffs)).
  { assert (SZ : forall gs : list (@G ExA), Forall (sized 32) (map el_ser gs)).
    { intro gs. induction gs as [|x gs IH]; cbn [map]; constructor; [split; [apply B|apply el_len]|exact IH]. }
    constructor; cbn [go_of_proof go_state go_comms go_other go_proof go_d go_cl go_cr go_final go_depths]; try exact S; try apply SZ; try exact HD.
    - split; [apply B|apply el_len].
    - split; [apply Forall_rev, B'|rewrite rev_length; apply sc_len].
    - destruct HF as [H1 H2 _ _ _ _]. apply Forall_forall. intros b Hb. apply in_map_iff in Hb as ([d e] & <- & Hin).
      apply in_combine_l in Hin. rewrite Forall_forall in H2. apply H2 in Hin. unfold is_byte. destruct e; cbn [ext_code]; lia. }
  pose proof (json_of_go_ok _ GS) as Ew. rewrite <- Hwit in Ew.
  assert (Eg : go_of_witness wit = Ok g) by (apply go_of_witness_ok; auto).
  assert (Hg : go_of_proof p acc_diffs = g) by congruence. rewrite Hg.
  split; [exact Mw|]. split; [exact Gs|]. split; [|exact V'].
  intros p0 Hs0. assert (Eq : p0 = p); [|subst p0].
  { apply (says_unique g _ _ Hs0). rewrite <- Hg. pose proof (convert_rt p acc_diffs HF S) as R.
    destruct (convert_cases _ GS) as [(_ & X)|(_ & [(_ & X)|(_ & _ & _ & [(_ & X)|(_ & [(_ & X)|(p1 & Hs1 & X)])])])]; try congruence.
  }
  rewrite <- Hg. cbn [go_of_proof go_state]. rewrite Ek, Ec.
  rewrite Ek in Cr. replace (map (fun ai => written acc (fst ai) (snd ai)) acc_items) with (map (final_map acc_h) acc_keys) by (vm_compute; reflexivity).
  exact (honest_ideal acc_h db acc_keys (fun l => l) p [] acc_wf E ltac:(discriminate) acc_keys_ok acc_d acc_i acc_a Cr).
Qed.

(** A block that changes a field, adds a field and a slot, and leaves the code; and another list of writes that
    leaves the same state. *)
Definition acc_updated : list (option bytes) := [Some (repeat 5 32); Some (repeat 6 32); None; None; Some (repeat 7 32)].
Definition acc_block : writes := [(adr 7, Field 2, repeat 5 32); (adr 7, Field 0, repeat 6 32); (adr 8, Slot 5, repeat 7 32)].
Definition acc_other : writes :=
  [(adr 8, Slot 5, repeat 7 32)] ++ code_writes (adr 7) (code_chunks code40) ++ [(adr 7, Field 0, repeat 6 32); (adr 7, Field 2, repeat 5 32)].
Lemma acc_block_writes : insertions toy64 acc_block = Ok (StatelessSpec.writes acc_keys acc_updated).
Proof. vm_compute. reflexivity. Qed.
Lemma written_In w a i : written w a i <> None -> In (a, i) (map fst w).
Proof.
  induction w as [|[[b j] v] w IH]; cbn [written map fst]; [congruence|].
  destruct (written w a i) as [x|]; [intros _; right; apply IH; discriminate|].
  destruct (beqb b a) eqn:B1; cbn [andb]; [|congruence]. destruct (item_eqb j i) eqn:B2; [|congruence].
  apply beqb_eq in B1. apply item_eqb_eq in B2. subst. intros _. now left.
Qed.
Definition same_writtenb (w w' : writes) : bool :=
  forallb (fun ai => match written w (fst ai) (snd ai), written w' (fst ai) (snd ai) with Some x, Some y => beqb x y | None, None => true | _, _ => false end)
    (map fst w ++ map fst w').
Lemma same_writtenb_ok w w' : same_writtenb w w' = true -> forall a i, written w a i = written w' a i.
Proof.
  intros E a i. unfold same_writtenb in E. rewrite forallb_forall in E. specialize (E (a, i)). cbn [fst snd] in E.
  pose proof (written_In w a i) as H1. pose proof (written_In w' a i) as H2.
  destruct (written w a i), (written w' a i); try reflexivity.
  - f_equal. apply beqb_eq, E. apply in_or_app. left. apply H1. discriminate.
  - assert (X : false = true); [apply E, in_or_app; left; apply H1; discriminate|discriminate X].
  - assert (X : false = true); [apply E, in_or_app; right; apply H2; discriminate|discriminate X].
Qed.
Lemma acc_same : forall a i, account_item (a, i) -> written (acc ++ concat [acc_block]) a i = written acc_other a i.
Proof. intros a i _. apply same_writtenb_ok. vm_compute. reflexivity. Qed.
Lemma acc_chain_items : Forall account_item (map fst (acc ++ concat [acc_block])) /\ Forall account_item (map fst acc_other) /\
  collision_free toy64 (map fst (acc ++ concat [acc_block]) ++ map fst acc_other).
Proof.
  split; [|split; [|apply collision_freeb_ok; vm_compute; reflexivity]];
    repeat (constructor; [split; [reflexivity|split; (reflexivity || discriminate)]|]); constructor.
Qed.

Lemma acc_chain : exists (db : @MemoryDb ExA) root b,
  run_mem acc_h = Ok db /\ root_commitment db = Ok root /\ account_blocks toy64 [b] [acc_block] /\ Forall block_fits [b] /\
  along acc_h [b] honest_block /\ along acc_h [b] within_reach /\ along acc_h [b] ideal_block.
Proof.
  destruct (run_mem_canon (A := ExA) acc_h acc_wf) as (db & E & _).
  destruct (honest_accepted (ex_fits 256 ltac:(lia)) acc_h db acc_keys (fun l => l) acc_wf E ltac:(discriminate) acc_keys_ok acc_d (fun l => Permutation_refl l))
    as (qs & hint & comms & root & _ & Er & Hu).
  destruct (Hu (ex_usable qs)) as (p & uh & Cr & _ & _ & Ck).
  exists db, root, (mkBlock p acc_keys (map (final_map acc_h) acc_keys) acc_updated).
  assert (N : forall (b : block) (Q : history -> block -> Prop), Q acc_h b -> along acc_h [b] Q).
  { intros b Q Hq. apply along_cons. split; [exact Hq|]. intros [|] ? ? X; discriminate X. }
  split; [exact E|]. split; [exact Er|]. split; [constructor; [exact acc_block_writes|constructor]|].
  split; [constructor; [split; [exact acc_keys_ok|split; reflexivity]|constructor]|].
  split; [|split].
  - apply N. split; [reflexivity|]. exists db, root, (fun l => l), uh. auto.
  - apply N. split; [exact acc_nodup|]. apply occb_ok; [exact acc_wf|apply writes_keys; exact acc_keys_ok|vm_compute; reflexivity].
  - apply N. exact (honest_ideal acc_h db acc_keys (fun l => l) p acc_updated acc_wf E ltac:(discriminate) acc_keys_ok acc_d acc_i acc_a Cr).
Qed.
