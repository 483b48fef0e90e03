(** An open trie on disk can always give its root, whatever points the records hold: the root is in the
    cache, or it is the record that was read when the trie was opened. *)
From Verif Require Import Base BaseFacts Alg TrieModel CodecModel VerkleDbModel VerkleDbProofs VerkleDbTheorems DiskWeak.

Section Root.
Context {A : Alg} {P : Par A} {C : Codec A}.

Definition root_ok (v : VerkleDb) : Prop :=
  match branch_table (vd_cache v) [] with
  | Some (CBranch m) => branch_table (vd_batch v) [] = Some (CBranch m) \/
      branch_table (vd_batch v) [] = None /\ vd_storage v (branch_dkey []) = Some (branch_meta_to_bytes m)
  | Some (CStem _) => False
  | None => branch_table (vd_batch v) [] = None /\ exists m, disk_get_branch_meta (vd_storage v) [] = Ok (Some m)
  end.
Lemma root_ok_read v : root_ok v -> exists m, vd_get_branch_meta v [] = Ok (Some m).
Proof.
  unfold root_ok, vd_get_branch_meta, mem_get_branch_meta. destruct (branch_table (vd_cache v) []) as [[s|m]|]; [contradiction| |].
  - intros _. exists m. reflexivity.
  - intros [-> [m E]]. exists m. exact E.
Qed.
Lemma root_leaf v k x d : root_ok v -> root_ok (fst (vd_insert_leaf v k x d)).
Proof. unfold root_ok, vd_insert_leaf. cbn. destruct (d <=? CACHE_DEPTH); auto. Qed.
Lemma root_stem v k x d : root_ok v -> root_ok (fst (vd_insert_stem v k x d)).
Proof. unfold root_ok, vd_insert_stem. cbn. destruct (d <=? CACHE_DEPTH); auto. Qed.
Lemma root_branch v p m d : d <= Z.of_nat (length p) + 1 -> root_ok v -> root_ok (fst (vd_insert_branch v p m d)).
Proof.
  intros Hd. unfold root_ok, vd_insert_branch. cbn [mem_insert_branch fst vd_cache vd_batch vd_storage branch_table].
  destruct (d <=? CACHE_DEPTH) eqn:E; cbn [branch_table]; unfold upd.
  - destruct p as [|b p]; cbn [beqb]; auto.
  - destruct p as [|b p]; cbn [beqb]; auto. apply Z.leb_gt in E. cbn [length] in Hd. unfold CACHE_DEPTH in E. lia.
Qed.
Lemma root_add v p i s d : root_ok v -> root_ok (fst (vd_add_stem v (p ++ [i]) s d)).
Proof.
  unfold root_ok, vd_add_stem. cbn [mem_add_stem fst vd_cache vd_batch vd_storage branch_table].
  destruct (d <=? CACHE_DEPTH); cbn [branch_table]; unfold upd; destruct p as [|b p]; cbn [app beqb]; auto.
Qed.

Definition near (i : Ins) : Prop :=
  match i with
  | UpdateLeaf _ _ d b _ => d <= Z.of_nat (length b) + 1
  | ChainInsert d _ b _ _ _ _ _ => d <= Z.of_nat (length b) + 1
  | InternalNodeFallThrough b _ _ _ d => d <= Z.of_nat (length b) + 1
  end.
Lemma create_near (v : VerkleDb) key value rest : forall d cur acc l, d = length cur -> Forall near acc ->
  create_insert_loop v key value rest d cur acc = Ok l -> Forall near l.
Proof.
  induction rest as [|i rest IH]; intros d cur acc l Hd Ha; cbn [create_insert_loop]; [intro E; now injection E as <-|].
  destruct (get_branch_child v cur i) as [c|]; cbn [rbind]; [|discriminate].
  assert (Hn : forall x, near x -> Forall near (acc ++ [x])) by (intros; apply Forall_app; auto).
  destruct c as [[s|m]|].
  - destruct (path_difference s (firstn 31 key)) as [[sp o1] o2]. destruct (length sp =? 31)%nat.
    + destruct (get_leaf v key) as [lv|]; cbn [rbind]; [|discriminate].
      assert (Hu : near (UpdateLeaf key value (Z.of_nat d + 1) cur i)) by (cbn [near]; lia).
      destruct lv as [old|], o1 as [z|]; try (intro E; injection E as <-; now apply Hn);
        (destruct o2; cbn [assertb rbind]; [discriminate|]; destruct (_ && _); intro E; injection E as <-; [constructor|now apply Hn]).
    + destruct (slice_from d sp) as [r|]; cbn [rbind]; [|discriminate]. destruct o1 as [z|]; cbn [unwrap rbind]; [|discriminate].
      destruct o2 as [y|]; cbn [unwrap rbind]; [|discriminate]. intro E; injection E as <-. apply Hn. cbn [near]. lia.
  - intro E. apply (IH (Datatypes.S d) (cur ++ [i]) _ l) in E; [exact E|rewrite app_length; cbn [length]; lia|]. apply Hn. cbn [near]. lia.
  - intro E; injection E as <-. apply Hn. cbn [near]. lia.
Qed.

Lemma root_update_leaf v k x d : root_ok v -> root_ok (fst (update_leaf_table v k x d)).
Proof.
  intro H. unfold update_leaf_table. cbn [insert_leaf verkle_db_ops]. pose proof (root_leaf v k x d H) as X.
  destruct (vd_insert_leaf v k x d) as [w o]. destruct o as [b|]; [destruct (beqb b x)|]; exact X.
Qed.
Lemma root_update_stem v lu d w su : root_ok v -> update_stem_table v lu d = Ok (w, su) -> root_ok w.
Proof.
  intro H. destruct lu as [[old new] key]. unfold update_stem_table. cbn [insert_stem verkle_db_ops].
  destruct old; destruct (get_stem_meta v (firstn 31 key)) as [o|]; cbn [rbind]; try discriminate; destruct o;
    match goal with |- context [vd_insert_stem v ?k ?m d] => pose proof (root_stem v k m d H) as X; destruct (vd_insert_stem v k m d) as [w' o'] end;
    intro E; injection E as <- _; exact X.
Qed.
Lemma root_update_branch v su b i d w h : d <= Z.of_nat (length b) + 1 -> root_ok v -> update_branch_table v su b i d = Ok (w, h) -> root_ok w.
Proof.
  intros Hd H. destruct su as [[old new] stem]. unfold update_branch_table. cbn [insert_branch add_stem_as_branch_child verkle_db_ops].
  destruct (get_branch_meta v b) as [[m|]|]; cbn [rbind unwrap]; try discriminate.
  match goal with |- context [vd_insert_branch v b ?x d] => pose proof (root_branch v b x d Hd H) as X; destruct (vd_insert_branch v b x d) as [w' o'] end.
  cbn [fst] in X. pose proof (root_add w' b i stem d X) as Y. destruct (vd_add_stem w' (b ++ [i]) stem d) as [w'' o'']. intro E; injection E as <- _. exact Y.
Qed.
Lemma root_chain_loop l : forall v below, root_ok v -> root_ok (fst (chain_loop v l below)).
Proof.
  induction l as [|[c p] l IH]; intros v below H; [exact H|]. cbn [chain_loop insert_branch verkle_db_ops].
  match goal with |- context [vd_insert_branch v p ?x ?d] => assert (Hd : d <= Z.of_nat (length p) + 1) by lia; pose proof (root_branch v p x d Hd H) as X; destruct (vd_insert_branch v p x d) as [w' o'] end.
  now apply IH.
Qed.
Lemma root_process l : forall v w, Forall near l -> root_ok v -> process_reversed v l = Ok w -> root_ok w.
Proof.
  induction l as [|i l IH]; intros v w Hl H; cbn [process_reversed]; [intro E; now injection E as <-|].
  inversion_clear Hl as [|? ? Hi Hl']. destruct i; cbn [near] in Hi.
  - pose proof (root_update_leaf v key new_leaf_value depth H) as X. destruct (update_leaf_table v key new_leaf_value depth) as [v1 [lu|]]; cbn [fst] in X;
      [|intro E; now injection E as <-].
    destruct (update_stem_table v1 lu depth) as [[v2 su]|] eqn:E1; cbn [rbind]; [|discriminate].
    destruct (update_branch_table v2 su branch_id branch_child_index depth) as [[v3 h]|] eqn:E2; cbn [rbind]; [|discriminate].
    apply IH; [exact Hl'|]. apply (root_update_branch _ _ _ _ _ _ _ Hi (root_update_stem _ _ _ _ _ X E1) E2).
  - destruct (process_chain_insert v _ _ _ _ _ _ _ _) as [v1|] eqn:E1; cbn [rbind]; [|discriminate]. apply IH; [exact Hl'|].
    revert E1. unfold process_chain_insert. cbn [insert_branch verkle_db_ops].
    destruct (assertb _); cbn [rbind]; [|discriminate]. destruct (expand_path _ _) as [ps|]; cbn [rbind]; [|discriminate].
    destruct (get_branch_child v _ _) as [[oc|]|]; cbn [rbind unwrap]; try discriminate. destruct (child_stem oc) as [os|]; cbn [rbind unwrap]; [|discriminate].
    destruct (hd_error (rev ps)) as [bt|]; cbn [rbind unwrap]; [|discriminate].
    assert (Hd : Z.of_nat (length bt) <= Z.of_nat (length bt) + 1) by lia.
    pose proof (root_branch v bt branch_meta_zero _ Hd H) as X. destruct (vd_insert_branch v bt branch_meta_zero _) as [a1 o1]. cbn [fst] in X.
    pose proof (root_update_leaf a1 new_leaf_key new_leaf_value (Z.of_nat (length bt)) X) as X2. destruct (update_leaf_table a1 new_leaf_key new_leaf_value _) as [a2 [lu|]]; cbn [fst rbind unwrap] in X2 |- *; [|discriminate].
    destruct (update_stem_table a2 lu _) as [[a3 su]|] eqn:E3; cbn [rbind]; [|discriminate]. pose proof (root_update_stem _ _ _ _ _ X2 E3) as X3.
    destruct (update_branch_table a3 su bt new_leaf_index _) as [[a4 h4]|] eqn:E4; cbn [rbind]; [|discriminate]. pose proof (root_update_branch _ _ _ _ _ _ _ Hd X3 E4) as X4.
    destruct (get_stem_meta a4 os) as [[sm|]|]; cbn [rbind unwrap]; try discriminate.
    destruct (update_branch_table a4 _ bt old_leaf_index _) as [[a5 h5]|] eqn:E5; cbn [rbind]; [|discriminate]. pose proof (root_update_branch _ _ _ _ _ _ _ Hd X4 E5) as X5.
    pose proof (root_chain_loop (combine (rev chain_insert_path) (tl (rev ps))) a5 h5 X5) as X6. destruct (chain_loop a5 _ h5) as [a6 h6]. cbn [fst] in X6.
    destruct (get_branch_meta a6 parent_branch_node) as [[tp|]|]; cbn [rbind unwrap]; try discriminate.
    match goal with |- context [vd_insert_branch a6 ?p ?x ?d] => pose proof (root_branch a6 p x d Hi X6) as X7; destruct (vd_insert_branch a6 p x d) as [a7 o7] end.
    intro E; injection E as <-. exact X7.
  - destruct (process_fall_through v _ _ _ _ _) as [v1|] eqn:E1; cbn [rbind]; [|discriminate]. apply IH; [exact Hl'|].
    revert E1. unfold process_fall_through. cbn [insert_branch verkle_db_ops].
    destruct (get_branch_meta v child) as [[m|]|]; cbn [rbind unwrap]; try discriminate.
    match goal with |- context [rbind ?e _] => destruct e as [oh|] end; cbn [rbind]; [|discriminate].
    destruct (get_branch_meta v branch_id) as [[pm|]|]; cbn [rbind unwrap]; try discriminate.
    match goal with |- context [vd_insert_branch v ?p ?x ?d] => pose proof (root_branch v p x d Hi H) as X7; destruct (vd_insert_branch v p x d) as [a7 o7] end.
    intro E; injection E as <-. exact X7.
Qed.
Lemma root_insert v kv w : root_ok v -> insert_single v kv = Ok w -> root_ok w.
Proof.
  intro H. destruct kv as [k x]. unfold insert_single, create_insert_instructions.
  destruct (create_insert_loop v k x k 0 [] []) as [l|] eqn:E; cbn [rbind]; [|discriminate]. unfold process_instructions. intro E2.
  apply (root_process _ _ _ ) in E2; [exact E2| |exact H]. apply Forall_rev. apply (create_near v k x k 0 [] [] l eq_refl (Forall_nil _) E).
Qed.
Lemma root_new d w : trie_new (verkle_open d) = Ok w -> root_ok w.
Proof.
  unfold trie_new, root_is_missing. cbn [get_branch_meta verkle_db_ops]. unfold vd_get_branch_meta, mem_get_branch_meta.
  cbn [verkle_open vd_cache vd_batch vd_storage memory_db_new branch_table]. unfold bempty. cbn [rbind].
  destruct (disk_get_branch_meta d []) as [[m|]|] eqn:E; cbn [rbind]; try discriminate.
  - intro X; injection X as <-. unfold root_ok. cbn [verkle_open vd_cache vd_batch vd_storage memory_db_new branch_table]. split; [reflexivity|]. exists m. exact E.
  - cbn [insert_branch verkle_db_ops]. unfold vd_insert_branch. cbn. intro X; injection X as <-. left. reflexivity.
Qed.
Lemma root_op v o w : root_ok v -> op_step v o = Ok w -> root_ok w.
Proof.
  intro H. destruct o as [k x| |]; cbn [op_step].
  - now apply root_insert.
  - intro E; injection E as <-. unfold root_ok, verkle_flush in *. cbn [vd_cache vd_batch vd_storage memory_db_new branch_table].
    destruct (branch_table (vd_cache v) []) as [[s|m]|]; auto.
    + right. split; [reflexivity|]. rewrite flush_disk_branch. destruct H as [->|[-> E]]; [reflexivity|exact E].
    + destruct H as [Hb [m Hm]]. split; [reflexivity|]. exists m. unfold disk_get_branch_meta in *. rewrite flush_disk_branch, Hb. exact Hm.
  - apply root_new.
Qed.
Lemma root_reached l v : run_disk l = Ok v -> root_ok v.
Proof.
  unfold run_disk. destruct (trie_new (verkle_open bempty)) as [v0|] eqn:E0; cbn [rbind]; [|discriminate].
  pose proof (root_new _ _ E0) as H. clear E0. revert v0 H.
  induction l as [|o l IH]; intros v0 H E; cbn [op_run] in E; [now injection E as <-|].
  destruct (op_step v0 o) as [v1|] eqn:E1; cbn [rbind] in E; [|discriminate]. apply (IH v1); [|exact E]. now apply (root_op v0 o).
Qed.
Theorem root_total l v : run_disk l = Ok v -> exists m, vd_get_branch_meta v [] = Ok (Some m).
Proof. intro E. apply root_ok_read. now apply (root_reached l). Qed.
Corollary root_answers l v : run_disk l = Ok v -> exists c x, root_commitment v = Ok c /\ root_hash v = Ok x.
Proof.
  intro E. destruct (root_total l v E) as [m Hm]. exists (bm_comm m), (bm_hash m). unfold root_commitment, root_hash. cbn [get_branch_meta verkle_db_ops].
  rewrite Hm. split; reflexivity.
Qed.

(** Reopening after a flush reads the record of the root and nothing else. *)
Variable bad : G -> bool.
Hypothesis pt_len : forall g, length (pt_ser g) = 64%nat.
Hypothesis fr_len : forall x, length (fr_ser x) = 32%nat.
Hypothesis fr_back : forall x, fr_de (fr_ser x) = Some x.
Hypothesis pt_back : forall g, pt_de (pt_ser g) = if bad g then None else Some g.
Hypothesis pt_good : forall b g, pt_de b = Some g -> bad g = false.

Lemma read_good b m : branch_meta_from_bytes b = Ok (Some m) -> bad (bm_comm m) = false.
Proof.
  unfold branch_meta_from_bytes. destruct (_ =? _); [discriminate|]. destruct (slice 0 64 b) as [p|]; cbn [rbind]; [|discriminate].
  destruct (slice 64 (64 + 32) b) as [f|]; cbn [rbind]; [|discriminate]. destruct (pt_de p) as [g|] eqn:E; cbn [qbind]; [|discriminate].
  destruct (fr_de f) as [x|]; cbn [qbind]; [|discriminate]. intro X. assert (Y : m = mkBranchMeta g x) by congruence. subst m. exact (pt_good p g E).
Qed.
Theorem reopen_exactly l v c : run_disk l = Ok v -> root_commitment v = Ok c ->
  (run_disk (l ++ [OFlush; OReopen]) = Panic <-> bad c = true).
Proof.
  intros E Ec. assert (S : run_disk (l ++ [OFlush; OReopen]) = trie_new (verkle_open (flush_disk (vd_storage v) (vd_batch v)))).
  { unfold run_disk in E |- *. destruct (trie_new (verkle_open bempty)) as [v0|]; cbn [rbind] in E |- *; [|discriminate].
    rewrite op_run_app, E. cbn [rbind op_run op_step]. cbn [verkle_flush vd_storage]. destruct (trie_new _); reflexivity. }
  rewrite S. clear S. pose proof (root_reached l v E) as H. destruct (root_ok_read v H) as [m Hm].
  assert (X : c = bm_comm m) by (unfold root_commitment in Ec; cbn [get_branch_meta verkle_db_ops] in Ec; rewrite Hm in Ec; cbn [rbind unwrap] in Ec; congruence).
  subst c. clear Ec E.
  unfold trie_new, root_is_missing. cbn [get_branch_meta verkle_db_ops]. unfold vd_get_branch_meta, mem_get_branch_meta.
  cbn [verkle_open vd_cache vd_batch vd_storage memory_db_new branch_table]. unfold bempty. cbn [rbind].
  unfold disk_get_branch_meta. rewrite flush_disk_branch.
  unfold root_ok in H. unfold vd_get_branch_meta, mem_get_branch_meta in Hm.
  destruct (branch_table (vd_cache v) []) as [[s|m']|]; [contradiction| |].
  - cbn [rbind] in Hm. assert (m' = m) by congruence. subst m'.
    assert (R : branch_meta_from_bytes (branch_meta_to_bytes m) = Ok (if bad (bm_comm m) then None else Some m)) by (apply weak_branch; assumption).
    destruct H as [->|[-> ->]]; cbn [branch_child_to_bytes]; rewrite R; unfold unwrap_res; destruct (bad (bm_comm m)); cbn [rbind unwrap]; split; congruence.
  - destruct H as [Hb _]. rewrite Hb in Hm |- *. cbn [rbind] in Hm. unfold disk_get_branch_meta in Hm.
    destruct (vd_storage v (branch_dkey [])) as [b|]; [|discriminate]. unfold unwrap_res in Hm |- *.
    destruct (branch_meta_from_bytes b) as [[m'|]|] eqn:R; cbn [rbind unwrap] in Hm |- *; try discriminate.
    assert (m' = m) by congruence. subst m'. rewrite (read_good b m R). split; discriminate.
Qed.
End Root.
