(** Lemmas behind C12 for the leaves of a stem: what one session from an empty path leaves in the cache
    for a stem whose first four bytes no other inserted stem has. *)
From Verif Require Import Base BaseFacts Alg TrieModel CodecModel VerkleDbModel VerkleDbProofs DbSpec VerkleDbTheorems VerkleDbExamples DiskListing.

Section Stems.
Context {A : Alg} {P : Par A} {C : Codec A}.
Hypothesis Pt64 : forall g, length (pt_ser g) = 64%nat.
Hypothesis Fr32 : forall x, length (fr_ser x) = 32%nat.
Variable s : bytes.
Hypothesis Ls : length s = 31%nat.

Definition stemok (t : bytes) : Prop := firstn 4 t = firstn 4 s -> t = s.
Definition pathok (p : bytes) : Prop := ~ ((4 <= length p)%nat /\ firstn 4 p = firstn 4 s).
Definition good (p : bytes) (c : BranchChild) : Prop :=
  match c with CStem t => length t = 31%nat /\ stemok t | CBranch _ => pathok p end.
Definition disk_child (d : Disk) (p : bytes) : res (option BranchChild) :=
  match d (branch_dkey p) with
  | None => Ok None
  | Some b => let! c := unwrap_res (branch_child_from_bytes b) in Ok (Some c)
  end.
Record Q (v : VerkleDb) : Prop := {
  q_leaf : forall k, firstn 31 k = s -> leaf_table (vd_cache v) k = None ->
    leaf_table (vd_batch v) k = None /\ vd_storage v (leaf_dkey k) = None;
  q_cache : forall p c, branch_table (vd_cache v) p = Some c -> good p c;
  q_batch : forall p c, branch_table (vd_batch v) p = Some c -> good p c;
  q_disk : forall p c, disk_child (vd_storage v) p = Ok (Some c) -> good p c
}.

Lemma q_open : Q (verkle_open bempty).
Proof. split; intros; try discriminate. split; reflexivity. Qed.
Lemma q_child v p i c : Q v -> vd_get_branch_child v p i = Ok (Some c) -> good (p ++ [i]) c.
Proof.
  intros HQ E. unfold vd_get_branch_child, mem_get_branch_child in E.
  destruct (branch_table (vd_cache v) (p ++ [i])) as [x|] eqn:E1; [injection E as <-; exact (q_cache v HQ _ _ E1)|].
  destruct (branch_table (vd_batch v) (p ++ [i])) as [x|] eqn:E2; [injection E as <-; exact (q_batch v HQ _ _ E2)|].
  exact (q_disk v HQ (p ++ [i]) c E).
Qed.
Lemma q_put v p c d : Q v -> good p c -> Q (VerkleDbSim.v_put v p c d).
Proof.
  intros [L1 C1 B1 D1] G. unfold VerkleDbSim.v_put. split; cbn [vd_cache vd_batch vd_storage].
  - intros k Hk N. destruct (d <=? CACHE_DEPTH); cbn [leaf_table] in *; exact (L1 k Hk N).
  - intros q c'. destruct (d <=? CACHE_DEPTH); cbn [branch_table]; [|exact (C1 q c')].
    destruct (beqb_spec p q) as [->|Nq]; [rewrite upd_same; intro X; injection X as <-; exact G|rewrite upd_other by exact Nq; exact (C1 q c')].
  - intros q c'. cbn [branch_table].
    destruct (beqb_spec p q) as [->|Nq]; [rewrite upd_same; intro X; injection X as <-; exact G|rewrite upd_other by exact Nq; exact (B1 q c')].
  - exact D1.
Qed.
Lemma q_branch v p m d : Q v -> pathok p -> Q (fst (vd_insert_branch v p m d)).
Proof. intros HQ Hp. rewrite VerkleDbSim.vd_insert_branch_put. exact (q_put v p (CBranch m) d HQ Hp). Qed.
Lemma q_add v p t d : Q v -> length t = 31%nat -> stemok t -> Q (fst (vd_add_stem v p t d)).
Proof. intros HQ L H. rewrite VerkleDbSim.vd_add_stem_put. exact (q_put v p (CStem t) d HQ (conj L H)). Qed.
Lemma q_ins_leaf v k x d : Q v -> (firstn 31 k = s -> d <= 4) -> Q (fst (vd_insert_leaf v k x d)).
Proof.
  intros [L1 C1 B1 D1] G. unfold vd_insert_leaf, mem_insert_leaf. cbn [fst]. split; cbn [vd_cache vd_batch vd_storage leaf_table branch_table].
  - intros k' Hk. destruct (Z.leb_spec d CACHE_DEPTH) as [Hd|Hd]; cbn [leaf_table].
    + destruct (beqb_spec k k') as [->|Nk]; [rewrite upd_same; discriminate|rewrite !upd_other by exact Nk; exact (L1 k' Hk)].
    + assert (Nk : k <> k'). { intros ->. apply G in Hk. unfold CACHE_DEPTH in Hd. lia. }
      rewrite upd_other by exact Nk. exact (L1 k' Hk).
  - intros q c'. destruct (d <=? CACHE_DEPTH); exact (C1 q c').
  - exact B1.
  - exact D1.
Qed.
Lemma q_ins_stem v k x d : Q v -> Q (fst (vd_insert_stem v k x d)).
Proof.
  intros [L1 C1 B1 D1]. unfold vd_insert_stem, mem_insert_stem. cbn [fst]. split; cbn [vd_cache vd_batch vd_storage leaf_table branch_table];
    [destruct (d <=? CACHE_DEPTH); exact L1|destruct (d <=? CACHE_DEPTH); exact C1|exact B1|exact D1].
Qed.

Lemma q_flush v : Q v -> Q (verkle_flush v).
Proof.
  intros [L1 C1 B1 D1]. unfold verkle_flush. split; cbn [vd_cache vd_batch vd_storage].
  - intros k Hk N. destruct (L1 k Hk N) as [X Y]. split; [reflexivity|]. rewrite flush_disk_leaf, X. exact Y.
  - exact C1.
  - intros; discriminate.
  - intros p c. unfold disk_child. rewrite flush_disk_branch. destruct (branch_table (vd_batch v) p) as [b|] eqn:E; [|exact (D1 p c)].
    pose proof (B1 p b E) as G. destruct b as [t|m]; cbn [branch_child_to_bytes].
    + destruct G as [Lt Ht]. unfold branch_child_from_bytes. rewrite Lt. cbn. intro X. injection X as <-. split; assumption.
    + unfold branch_child_from_bytes.
      assert (Lm : length (branch_meta_to_bytes m) = 96%nat) by (unfold branch_meta_to_bytes; rewrite app_length, Pt64, Fr32; reflexivity).
      rewrite Lm. cbn [Nat.eqb]. destruct (branch_meta_from_bytes (branch_meta_to_bytes m)) as [[m'|]|]; cbn; intro X; try discriminate X.
      injection X as <-. exact G.
Qed.

(** ** Insertion *)
Lemma pathok_prefix p q : pathok (p ++ q) -> pathok p.
Proof.
  intros H [L E]. apply H. split; [rewrite app_length; lia|]. rewrite firstn_app. replace (4 - length p)%nat with 0%nat by lia.
  cbn [firstn]. rewrite app_nil_r. exact E.
Qed.
Lemma qs_update_leaf v k x d : Q v -> (firstn 31 k = s -> d <= 4) -> Q (fst (update_leaf_table (S := VerkleDb) v k x d)).
Proof.
  intros HQ Hd. unfold update_leaf_table. pose proof (q_ins_leaf v k x d HQ Hd) as H. cbn [insert_leaf verkle_db_ops] in *.
  destruct (vd_insert_leaf v k x d) as [v1 [w|]]; [destruct (beqb w x)|]; exact H.
Qed.
Lemma qs_update_stem v lu d v' su : Q v -> update_stem_table (S := VerkleDb) v lu d = Ok (v', su) -> Q v' /\ snd su = firstn 31 (snd lu).
Proof.
  intros HQ E. destruct lu as [[ov nv] key]. unfold update_stem_table in E.
  destruct (match ov with Some val => (value_low val, value_high val) | None => (fzero, fzero) end) as [ol oh].
  cbv zeta in E. apply rbind_ok in E as (sm & E1 & E).
  match type of E with (match ?m with pair _ _ => _ end) = _ => destruct m as [[[[[c1 h1] c2] h2] sc] os] end.
  match type of E with
  | (let '(_, _) := insert_stem ?a ?b ?c ?d in _) = _ => pose proof (q_ins_stem a b c d HQ) as H; cbn [insert_stem verkle_db_ops] in *; destruct (vd_insert_stem a b c d)
  end.
  injection E as <- <-. split; [exact H|reflexivity].
Qed.
Lemma qs_update_branch v su b i d v' r : Q v -> pathok b -> length (snd su) = 31%nat -> stemok (snd su) ->
  update_branch_table (S := VerkleDb) v su b i d = Ok (v', r) -> Q v'.
Proof.
  intros HQ Hb Lt Ht E. destruct su as [[o h] t]. cbn [snd] in *. unfold update_branch_table in E. apply rbind_ok in E as (m & E1 & E). apply rbind_ok in E as (m' & E2 & E).
  match type of E with
  | (let '(_, _) := insert_branch ?a ?b ?c ?d in _) = _ =>
      pose proof (q_branch a b c d HQ Hb) as H; cbn [insert_branch verkle_db_ops] in *; destruct (vd_insert_branch a b c d) as [v1 ?]
  end. cbn [fst] in H.
  pose proof (q_add v1 (b ++ [i]) t d H Lt Ht) as H2. cbn [add_stem_as_branch_child verkle_db_ops] in *.
  destruct (vd_add_stem v1 (b ++ [i]) t d). injection E as <- <-. exact H2.
Qed.
Lemma qs_chain_loop l : forall v below, Forall (fun e => pathok (snd e)) l -> Q v -> Q (fst (chain_loop (S := VerkleDb) v l below)).
Proof.
  induction l as [|[c p] l IH]; intros v below Hl HQ; cbn [chain_loop]; [exact HQ|]. inversion Hl as [|? ? Hp Hl' E]; subst.
  match goal with |- context [insert_branch ?a ?b ?c ?d] => pose proof (q_branch a b c d HQ Hp) as H; cbn [insert_branch verkle_db_ops] in *; destruct (vd_insert_branch a b c d) end.
  apply IH; [exact Hl'|exact H].
Qed.
Lemma qs_fall v b i c o d v' : Q v -> pathok b -> process_fall_through (S := VerkleDb) v b i c o d = Ok v' -> Q v'.
Proof.
  intros HQ Hb E. unfold process_fall_through in E.
  repeat match type of E with rbind _ _ = Ok _ => let x := fresh "x" in let E' := fresh "E" in apply rbind_ok in E as (x & E' & E) end.
  match type of E with
  | (let '(_, _) := insert_branch ?a ?b ?c ?d in _) = _ =>
      pose proof (q_branch a b c d HQ Hb) as H; cbn [insert_branch verkle_db_ops] in *; destruct (vd_insert_branch a b c d)
  end. injection E as <-. exact H.
Qed.
Lemma expand_pathok pn cp l : pathok (pn ++ cp) -> expand_path pn cp = Ok l -> Forall pathok l.
Proof.
  intros H E. unfold expand_path in E. apply rbind_ok in E as (u & _ & E). injection E as <-.
  apply Forall_forall. intros p Hp. apply in_map_iff in Hp as (j & <- & _).
  apply (pathok_prefix (pn ++ firstn (Datatypes.S j) cp) (skipn (Datatypes.S j) cp)).
  rewrite <- app_assoc, firstn_skipn. exact H.
Qed.
Lemma expand_last pn cp l b : expand_path pn cp = Ok l -> hd_error (rev l) = Some b -> b = pn ++ cp.
Proof.
  intros E H. unfold expand_path in E. apply rbind_ok in E as (u & Hu & E). injection E as <-.
  destruct cp as [|x cp]; [discriminate Hu|]. cbn [length] in H. rewrite seq_S, map_app, rev_app_distr in H. cbn [map rev app hd_error] in H.
  injection H as <-. cbn [firstn]. do 2 f_equal. apply firstn_all2. lia.
Qed.
Lemma qs_chain v sd cp pn ci oi k x ni v' : Q v -> length k = 32%nat -> stemok (firstn 31 k) ->
  (firstn 31 k = s -> (length (pn ++ cp) <= 4)%nat) -> pathok (pn ++ cp) ->
  process_chain_insert (S := VerkleDb) v sd cp pn ci oi k x ni = Ok v' -> Q v'.
Proof.
  intros HQ Lk Sk Dk Hp E. unfold process_chain_insert in E.
  assert (Lt : length (firstn 31 k) = 31%nat) by (rewrite firstn_length; lia).
  apply rbind_ok in E as (u & _ & E). apply rbind_ok in E as (paths & Ep & E). pose proof (expand_pathok pn cp paths Hp Ep) as Hps.
  apply rbind_ok in E as (oc & Eo & E). apply rbind_ok in E as (oc' & Eo' & E). apply rbind_ok in E as (os & Es & E).
  assert (Gs : length os = 31%nat /\ stemok os).
  { destruct oc as [oc|]; [|discriminate Eo']. injection Eo' as ->. pose proof (q_child v pn ci oc' HQ Eo) as G.
    destruct oc' as [t|m]; [|discriminate Es]. injection Es as <-. exact G. }
  apply rbind_ok in E as (bt & Eb & E). 
  assert (Hb : bt = pn ++ cp) by (destruct (hd_error (rev paths)) as [b|] eqn:Eh; [injection Eb as <-; exact (expand_last pn cp paths b Ep Eh)|discriminate Eb]). subst bt.
  match type of E with
  | (let '(_, _) := insert_branch ?a ?b ?c ?d in _) = _ =>
      pose proof (q_branch a b c d HQ Hp) as H1; cbn [insert_branch verkle_db_ops] in E; destruct (vd_insert_branch a b c d) as [v1 ?]
  end. cbn [fst] in H1.
  match type of E with
  | (let '(_, _) := update_leaf_table ?a ?b ?c ?d in _) = _ =>
      pose proof (qs_update_leaf a b c d H1 ltac:(intro X; specialize (Dk X); lia)) as Q2;
      pose proof (VerkleDbSim.update_leaf_key a b c d) as K2;
      destruct (update_leaf_table a b c d) as [v2 lu]
  end. cbn [fst snd] in Q2, K2.
  apply rbind_ok in E as (lu' & Eu & E). destruct lu as [lu|]; [|discriminate Eu]. injection Eu as ->. specialize (K2 lu' eq_refl).
  apply rbind_ok in E as ([v3 su] & E6 & E). destruct (qs_update_stem _ _ _ _ _ Q2 E6) as [Q3 S3]. rewrite K2 in S3.
  apply rbind_ok in E as ([v4 r4] & E7 & E).
  pose proof (qs_update_branch _ su _ _ _ _ _ Q3 Hp (eq_trans (f_equal _ S3) Lt) (eq_ind_r stemok Sk S3) E7) as Q4.
  apply rbind_ok in E as (sm & E8 & E). apply rbind_ok in E as (sm' & E9 & E).
  apply rbind_ok in E as ([v5 r5] & E10 & E). pose proof (qs_update_branch _ (None, sm_hash_comm sm', os) _ _ _ _ _ Q4 Hp (proj1 Gs) (proj2 Gs) E10) as Q5.
  match type of E with
  | (let '(_, _) := chain_loop ?a ?b ?c in _) = _ =>
      assert (Hl : Forall (fun e : Z * bytes => pathok (snd e)) b);
      [|pose proof (qs_chain_loop b a c Hl Q5) as Q6; destruct (chain_loop a b c) as [v6 r6]]
  end.
  { apply Forall_forall. intros [c p] Hin. apply in_combine_r in Hin. cbn [snd].
    apply (proj1 (Forall_forall _ _) (Forall_rev Hps)). destruct (rev paths); [destruct Hin|right; exact Hin]. }
  cbn [fst] in Q6. apply rbind_ok in E as (m & F1 & E). apply rbind_ok in E as (m' & F2 & E).
  match type of E with
  | (let '(_, _) := vd_insert_branch ?a ?b ?c ?d in _) = _ =>
      pose proof (q_branch a b c d Q6 (pathok_prefix pn cp Hp)) as H; destruct (vd_insert_branch a b c d)
  end. injection E as <-. exact H.
Qed.

Definition ins_ok (i : Ins) : Prop :=
  match i with
  | UpdateLeaf k _ d b _ => length k = 32%nat /\ stemok (firstn 31 k) /\ (firstn 31 k = s -> d <= 4) /\ pathok b
  | ChainInsert _ cp pn _ _ k _ _ => length k = 32%nat /\ stemok (firstn 31 k) /\ (firstn 31 k = s -> (length (pn ++ cp) <= 4)%nat) /\ pathok (pn ++ cp)
  | InternalNodeFallThrough b _ _ _ _ => pathok b
  end.
Lemma qs_process l : Forall ins_ok l -> forall v v', Q v -> process_reversed (S := VerkleDb) v l = Ok v' -> Q v'.
Proof.
  induction 1 as [|i l Hi Hl IH]; intros v v' HQ E; cbn [process_reversed] in E.
  - congruence.
  - destruct i as [k' x' d b i|sd cp pn ci oi nk nv ni|b i c o d]; cbn [ins_ok] in Hi.
    + destruct Hi as (Lk & Sk & Dk & Hb).
      pose proof (qs_update_leaf v k' x' d HQ Dk) as Q2. pose proof (VerkleDbSim.update_leaf_key v k' x' d) as K2.
      destruct (update_leaf_table v k' x' d) as [v2 lu]. cbn [fst snd] in Q2, K2.
      destruct lu as [lu|]; [|congruence]. specialize (K2 lu eq_refl).
      apply rbind_ok in E as ([v3 su] & E6 & E). destruct (qs_update_stem _ _ _ _ _ Q2 E6) as [Q3 S3]. rewrite K2 in S3.
      apply rbind_ok in E as ([v4 r4] & E7 & E).
      assert (Lt : length (firstn 31 k') = 31%nat) by (rewrite firstn_length; lia).
      pose proof (qs_update_branch _ su _ _ _ _ _ Q3 Hb (eq_trans (f_equal _ S3) Lt) (eq_ind_r stemok Sk S3) E7) as Q4.
      exact (IH _ _ Q4 E).
    + destruct Hi as (Lk & Sk & Dk & Hb). apply rbind_ok in E as (v1 & E1 & E). exact (IH _ _ (qs_chain _ _ _ _ _ _ _ _ _ _ HQ Lk Sk Dk Hb E1) E).
    + apply rbind_ok in E as (v1 & E1 & E). exact (IH _ _ (qs_fall _ _ _ _ _ _ _ HQ Hi E1) E).
Qed.

Lemma path_difference_prefix a : forall b sp x y, path_difference a b = (sp, x, y) ->
  sp = firstn (length sp) a /\ sp = firstn (length sp) b.
Proof.
  induction a as [|z a IH]; intros [|w b] sp x y E; cbn [path_difference] in E; try (injection E as <- <- <-; split; reflexivity).
  destruct (Z.eqb_spec z w) as [->|N]; [|injection E as <- <- <-; split; reflexivity].
  destruct (path_difference a b) as [[sp' x'] y'] eqn:E'. injection E as <- <- <-.
  destruct (IH b sp' x' y' E') as [H1 H2]. cbn [length firstn]. split; f_equal; assumption.
Qed.
Lemma path_difference_self a : path_difference a a = (a, None, None).
Proof. induction a as [|z a IH]; [reflexivity|]. cbn [path_difference]. rewrite Z.eqb_refl, IH. reflexivity. Qed.

Lemma skipn_step d : forall (k : bytes) i r, i :: r = skipn d k -> r = skipn (Datatypes.S d) k.
Proof.
  induction d as [|d IH]; intros k i r E; destruct k as [|z k]; try discriminate E.
  - injection E as _ <-. reflexivity.
  - exact (IH k i r E).
Qed.
Lemma qs_create v k x rest : Q v -> length k = 32%nat -> stemok (firstn 31 k) -> forall d cur acc l,
  cur = firstn d k -> rest = skipn d k -> pathok cur -> Forall ins_ok acc ->
  create_insert_loop (S := VerkleDb) v k x rest d cur acc = Ok l -> Forall ins_ok l.
Proof.
  intros HQ Lk Sk. induction rest as [|i rest IH]; intros d cur acc l Hc Hr Hp Ha E; cbn [create_insert_loop] in E.
  - injection E as <-. exact Ha.
  - assert (Ld : (d < 32)%nat). { destruct (Nat.lt_ge_cases d 32) as [X|X]; [exact X|]. rewrite skipn_all2 in Hr by lia. discriminate Hr. }
    assert (Lc : length cur = d) by (rewrite Hc, firstn_length; lia).
    assert (Hd : firstn 31 k = s -> (d < 4)%nat).
    { intro X. destruct (Nat.lt_ge_cases d 4) as [Y|Y]; [exact Y|]. exfalso. apply Hp. split; [lia|].
      rewrite Hc, <- X, !firstn_firstn. f_equal. lia. }
    apply rbind_ok in E as (c & E1 & E).
    assert (Ha1 : forall y, ins_ok y -> Forall ins_ok (acc ++ [y])).
    { intros y Hy. apply Forall_app. split; [exact Ha|constructor; [exact Hy|constructor]]. }
    assert (Hu : ins_ok (UpdateLeaf k x (Z.of_nat d + 1) cur i)).
    { split; [exact Lk|]. split; [exact Sk|]. split; [intro X; specialize (Hd X); lia|exact Hp]. }
    destruct c as [[t|m]|].
    + destruct (q_child v cur i (CStem t) HQ E1) as [Lt St].
      destruct (path_difference t (firstn 31 k)) as [[sp po] pn] eqn:Ed.
      destruct (Nat.eqb_spec (length sp) 31) as [L31|L31].
      * apply rbind_ok in E as (lv & E2 & E). destruct lv as [old|].
        -- destruct po; [injection E as <-; apply Ha1; exact Hu|].
           apply rbind_ok in E as (u & E3 & E). destruct (beqb old x && true); injection E as <-; [constructor|apply Ha1; exact Hu].
        -- destruct po; [injection E as <-; apply Ha1; exact Hu|].
           apply rbind_ok in E as (u & E3 & E). destruct (beqb (repeat 0 32) x && false); injection E as <-; [constructor|apply Ha1; exact Hu].
      * apply rbind_ok in E as (u1 & E2 & E). apply rbind_ok in E as (u2 & E3 & E). apply rbind_ok in E as (u3 & E4 & E).
        injection E as <-. apply Ha1. destruct (path_difference_prefix _ _ _ _ _ Ed) as [P1 P2].
        assert (Lsp : (length sp <= 31)%nat) by (rewrite P1, firstn_length, Lt; lia).
        assert (Hs : pathok sp).
        { intros [Y1 Y2]. apply L31.
          assert (K1 : firstn 4 t = firstn 4 sp) by (rewrite P1, firstn_firstn; f_equal; lia).
          assert (K2 : firstn 4 (firstn 31 k) = firstn 4 sp) by (rewrite P2, (firstn_firstn _ 4 (length sp)); f_equal; lia).
          rewrite (St (eq_trans K1 Y2)), (Sk (eq_trans K2 Y2)), path_difference_self in Ed. injection Ed as <- _ _. exact Ls. }
        assert (J : cur ++ u1 = sp).
        { unfold slice_from in E2. destruct (Nat.leb_spec d (length sp)) as [Y|Y]; [|discriminate E2]. injection E2 as <-.
          assert (X : cur = firstn d sp).
          { rewrite Hc, P2, !firstn_firstn. f_equal. lia. }
          rewrite X. apply firstn_skipn. }
        cbn [ins_ok]. rewrite J. split; [exact Lk|]. split; [exact Sk|]. split; [|exact Hs].
        intro X. destruct (Nat.le_gt_cases (length sp) 4) as [Y|Y]; [exact Y|]. exfalso. apply Hs. split; [lia|].
        rewrite P2, X, firstn_firstn. f_equal. lia.
    + assert (Hn : cur ++ [i] = firstn (Datatypes.S d) k).
      { rewrite Hc, <- (firstn_skipn d k) at 1. rewrite <- Hr. clear - Lc Hc Hr Lk Ld.
        rewrite <- (firstn_skipn d k) at 2. rewrite <- Hr, <- Hc. replace (Datatypes.S d) with (length cur + 1)%nat by lia.
        rewrite firstn_app_2, firstn_app. rewrite Lc, Nat.sub_diag. cbn [firstn]. rewrite app_nil_r. rewrite firstn_all2 by lia. reflexivity. }
      eapply IH; [exact Hn| |exact (q_child v cur i (CBranch m) HQ E1)|exact (Ha1 (InternalNodeFallThrough cur i (cur ++ [i]) (Some (MBranch m)) (Z.of_nat d + 1)) Hp)|exact E].
      exact (skipn_step d k i rest Hr).
    + injection E as <-. apply Ha1. exact Hu.
Qed.
Lemma qs_insert v k x v' : Q v -> length k = 32%nat -> stemok (firstn 31 k) -> insert_single (S := VerkleDb) v (k, x) = Ok v' -> Q v'.
Proof.
  intros HQ Lk Sk E. unfold insert_single in E. apply rbind_ok in E as (ins & E1 & E).
  unfold process_instructions in E. refine (qs_process (rev ins) _ v v' HQ E). apply Forall_rev.
  refine (qs_create v k x k HQ Lk Sk 0 [] [] ins eq_refl eq_refl _ (Forall_nil _) E1). intros [X _]. cbn in X. lia.
Qed.
Lemma qs_run l : Forall (fun o => match o with OInsert k _ => length k = 32%nat /\ stemok (firstn 31 k) | OFlush => True | OReopen => False end) l ->
  forall v v', Q v -> op_run v l = Ok v' -> Q v'.
Proof.
  induction 1 as [|o l No Hl IH]; intros v v' Sv E; cbn [op_run] in E; [congruence|].
  apply rbind_ok in E as (v1 & E1 & E). refine (IH v1 v' _ E). destruct o as [k x| |]; cbn [op_step] in E1.
  - exact (qs_insert v k x v1 Sv (proj1 No) (proj2 No) E1).
  - injection E1 as <-. exact (q_flush v Sv).
  - destruct No.
Qed.
Lemma qs_history l v : ~ In OReopen l -> (forall k x, In (OInsert k x) l -> length k = 32%nat /\ stemok (firstn 31 k)) ->
  run_disk l = Ok v -> Q v.
Proof.
  intros N H E. unfold run_disk in E. apply rbind_ok in E as (v0 & E0 & E).
  assert (S0 : Q v0).
  { unfold trie_new in E0. apply rbind_ok in E0 as (b & E1 & E0). destruct b; [|injection E0 as <-; exact q_open].
    match type of E0 with
    | (let '(_, _) := insert_branch ?a ?b ?c ?d in _) = _ =>
        pose proof (q_branch a b c d q_open ltac:(intros [X _]; cbn in X; lia)) as H1; cbn [insert_branch verkle_db_ops] in E0; destruct (vd_insert_branch a b c d) as [v1 ?]
    end. apply rbind_ok in E0 as (u & _ & E0). injection E0 as <-. exact H1. }
  refine (qs_run l _ v0 v S0 E). apply Forall_forall. intros [k x| |] Ho; [exact (H k x Ho)|exact I|exact (N Ho)].
Qed.
Lemma qs_listing v l : Q v -> vd_get_stem_children v s = Ok l -> lists l (fun i => vd_get_leaf v (s ++ [i])).
Proof.
  intros HQ E. apply (stem_children_exact v s l E). right. intros i x Hi G.
  assert (K : firstn 31 (s ++ [i]) = s). { rewrite <- Ls at 1. rewrite firstn_app, Nat.sub_diag, firstn_all. apply app_nil_r. }
  unfold vd_get_leaf in G. unfold mem_get_leaf in *. destruct (leaf_table (vd_cache v) (s ++ [i])) as [y|] eqn:Ec; [congruence|].
  destruct (q_leaf v HQ (s ++ [i]) K Ec) as [B D]. rewrite B in G. unfold disk_get_leaf in G. rewrite D in G. discriminate G.
Qed.
End Stems.

(** Two suffixes of a stem inserted before and after a stem with the same first four bytes: the second
    one is not cached, and the listing shows only the first. *)
Definition crowd_ops : list Op := [OInsert kA (val 1); OInsert kB (val 2); OInsert kA2 (val 3)].
Lemma crowd_listing {A : Alg} {P : Par A} {C : Codec A} : exists v l, run_disk crowd_ops = Ok v /\
  vd_get_stem_children v (firstn 31 kA) = Ok l /\ vd_get_leaf v kA2 = Ok (Some (val 3)) /\ ~ In (9, val 3) l.
Proof.
  assert (H : rbind (run_disk crowd_ops) (fun v =>
     let! a := vd_get_stem_children v (firstn 31 kA) in let! b := vd_get_leaf v kA2 in Ok (a, b))
     = Ok ([(7, val 1)], Some (val 3))) by (vm_compute; reflexivity).
  destruct (run_disk crowd_ops) as [v|]; [|discriminate H].
  exists v, [(7, val 1)]. cbn [rbind] in H.
  destruct (vd_get_stem_children v (firstn 31 kA)) as [a|]; [|discriminate H]. cbn [rbind] in H.
  destruct (vd_get_leaf v kA2) as [b|]; [|discriminate H]. cbn [rbind] in H.
  injection H as H1 H2. rewrite H1, H2. repeat split; auto. intros [X|[]]; discriminate X.
Qed.

(** A session in which the hypothesis holds: two suffixes, a flush between them, and a neighbour that
    shares three bytes. *)
Definition kN : bytes := [0; 0; 0; 5; 2] ++ repeat 7 27.
Definition calm_ops : list Op := [OInsert kA (val 1); OInsert kN (val 2); OFlush; OInsert kA2 (val 3)].
Lemma calm_case {A : Alg} {P : Par A} {C : Codec A} : exists v, run_disk calm_ops = Ok v /\
  vd_get_stem_children v (firstn 31 kA) = Ok [(7, val 1); (9, val 3)].
Proof.
  assert (H : rbind (run_disk calm_ops) (fun v => vd_get_stem_children v (firstn 31 kA)) = Ok [(7, val 1); (9, val 3)]) by (vm_compute; reflexivity).
  destruct (run_disk calm_ops) as [v|]; [|discriminate H]. exists v. split; [reflexivity|exact H].
Qed.
Lemma stem_session {A : Alg} {P : Par A} {C : Codec A} ops v s l :
  (forall g, length (pt_ser g) = 64%nat) -> (forall x, length (fr_ser x) = 32%nat) ->
  ~ In OReopen ops -> length s = 31%nat ->
  (forall k x, In (OInsert k x) ops -> length k = 32%nat) ->
  (forall k x, In (OInsert k x) ops -> firstn 4 k = firstn 4 s -> firstn 31 k = s) ->
  run_disk ops = Ok v -> vd_get_stem_children v s = Ok l -> lists l (fun i => vd_get_leaf v (s ++ [i])).
Proof.
  intros H64 H32 N Ls Hk Hs E. apply (qs_listing s Ls). apply (qs_history H64 H32 s Ls ops v N); [|exact E].
  intros k x Hin. split; [exact (Hk k x Hin)|]. unfold stemok. rewrite firstn_firstn. exact (Hs k x Hin).
Qed.
