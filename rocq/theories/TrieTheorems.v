(** Consequences of the canonical-table invariant, in the form quoted by
    [PropTrie]. *)
From Coq Require Import Permutation.
From Verif Require Import Base BaseFacts Alg AlgFacts TreeSpec TreeFacts TrieModel TrieProofs.

(** ** Vocabulary of the statements *)
Definition is_prefix (p s : bytes) : Prop := exists t, s = p ++ t.

Section Vocabulary.
Context {A : Alg} {P : Par A}.

(** The scalar an inner node commits to for its child at index [i], read from
    the stored tables. *)
Definition child_scalar (db : MemoryDb) (p : bytes) (i : Z) : F :=
  match branch_table db (p ++ [i]) with
  | None => fzero
  | Some (CBranch m) => bm_hash m
  | Some (CStem s) =>
      match stem_table db s with Some sm => sm_hash_comm sm | None => fzero end
  end.

Definition same_tables (db1 db2 : MemoryDb) : Prop :=
  (forall k, leaf_table db1 k = leaf_table db2 k) /\
  (forall s, stem_table db1 s = stem_table db2 s) /\
  (forall p, branch_table db1 p = branch_table db2 p).

(** The stems of a history, the inner nodes and the stem pointers they
    require. *)
Definition stem_in (h : history) (s : bytes) : Prop :=
  exists k v, final_map h k = Some v /\ s = firstn 31 k.
Definition branch_required (h : history) (p : bytes) : Prop :=
  p = [] \/ exists s t, stem_in h s /\ stem_in h t /\ s <> t /\ is_prefix p s /\ is_prefix p t.
Definition stem_required (h : history) (p s : bytes) : Prop :=
  p <> [] /\ stem_in h s /\ is_prefix p s /\ ~ branch_required h p /\ branch_required h (removelast p).
End Vocabulary.

Section Thms.
Context {A : Alg} {L : AlgLaws A} {P : Par A} {PL : ParLaws P}.
Add Ring Fring : F_ring.
Add Ring dnring : dn_ring.
Opaque vcommit gsum subtree_hash.

Lemma run_unique h (db db' : MemoryDb) : run_mem h = Ok db -> run_mem h = Ok db' -> db = db'.
Proof. congruence. Qed.

Lemma run_canon h db : wf_history h -> run_mem h = Ok db -> HCanon db h.
Proof. intros Hw E. destruct (run_mem_canon h Hw) as (db' & E' & C). congruence. Qed.

Lemma get_last h : wf_history h ->
  exists db, run_mem h = Ok db /\ forall k, trie_get db k = Ok (final_map h k).
Proof.
  intros Hw. destruct (run_mem_canon h Hw) as (db & E & C). exists db. split; [exact E|].
  intros k. unfold trie_get. cbn [get_leaf memory_db_ops]. unfold mem_get_leaf. rewrite (can_leaf _ _ _ C). reflexivity.
Qed.

Lemma root_spec h : wf_history h ->
  exists db, run_mem h = Ok db /\
    root_commitment db = Ok (spec_root (final_map h) (stems_of h)) /\
    root_hash db = Ok (hash (spec_root (final_map h) (stems_of h))).
Proof.
  intros Hw. destruct (run_mem_canon h Hw) as (db & E & C). exists db. split; [exact E|].
  apply canon_root; exact C.
Qed.

Lemma canon_same_tables db1 db2 m1 m2 S1 S2 : (forall k, m1 k = m2 k) -> Permutation S1 S2 ->
  Canon db1 m1 S1 -> Canon db2 m2 S2 -> same_tables db1 db2.
Proof.
  intros Hm HS C1 C2. apply (Canon_ext db1 m1 m2 S1 S2 Hm HS) in C1. destruct C1 as [_ _ L1 T1 B1], C2 as [_ _ L2 T2 B2].
  split; [|split]; intros x; [rewrite L1, L2|rewrite T1, T2|rewrite B1, B2]; reflexivity.
Qed.

Lemma history_independent h1 h2 : wf_history h1 -> wf_history h2 ->
  (forall k, final_map h1 k = final_map h2 k) ->
  exists db1 db2, run_mem h1 = Ok db1 /\ run_mem h2 = Ok db2 /\
    root_commitment db1 = root_commitment db2 /\ root_hash db1 = root_hash db2 /\ same_tables db1 db2.
Proof.
  intros H1 H2 E. destruct (run_mem_canon h1 H1) as (db1 & E1 & C1). destruct (run_mem_canon h2 H2) as (db2 & E2 & C2).
  exists db1, db2. split; [exact E1|]. split; [exact E2|].
  destruct (canon_root _ _ _ C1) as [R1 R1']. destruct (canon_root _ _ _ C2) as [R2 R2'].
  rewrite R1, R2, R1', R2'.
  rewrite (spec_root_congr (final_map h1) (final_map h2) (stems_of h1) (stems_of h2)) by (auto using stems_of_perm).
  split; [reflexivity|]. split; [reflexivity|].
  apply (canon_same_tables db1 db2 _ _ _ _ E (stems_of_perm h1 h2 E) C1 C2).
Qed.

Lemma no_panic h : wf_history h ->
  exists db, run_mem h = Ok db /\ (exists c, root_commitment db = Ok c) /\ (exists x, root_hash db = Ok x) /\
    (forall k, exists o, trie_get db k = Ok o) /\
    (forall kvs, wf_history kvs -> exists db', trie_insert db kvs = Ok db').
Proof.
  intros Hw. destruct (run_mem_canon h Hw) as (db & E & C). exists db. split; [exact E|].
  destruct (canon_root _ _ _ C) as [R1 R2]. split; [eauto|]. split; [eauto|]. split.
  - intros k. eexists. reflexivity.
  - intros kvs Hk. destruct (hcanon_insert_all kvs db h C Hk) as (db' & E' & _). eauto.
Qed.

Lemma reinsert h db k v : wf_history h -> is_key k -> run_mem h = Ok db ->
  trie_get db k = Ok (Some v) -> insert_single db (k, v) = Ok db.
Proof.
  intros Hw Hk E G0. pose proof (run_canon h db Hw E) as C.
  apply (insert_noop db (final_map h) (stems_of h)); auto.
  unfold trie_get in G0. cbn [get_leaf memory_db_ops] in G0. unfold mem_get_leaf in G0.
  rewrite (can_leaf _ _ _ C) in G0. congruence.
Qed.

Lemma wf_snoc h k v : wf_history h -> is_key k -> wf_history (h ++ [(k, v)]).
Proof. intros H1 H2. apply Forall_app. split; [exact H1|]. constructor; [exact H2|constructor]. Qed.

Lemma le_Z_zeros n : le_Z (repeat 0 n) = 0.
Proof. induction n as [|n IH]; cbn [repeat le_Z]; [reflexivity|rewrite IH; reflexivity]. Qed.

Lemma zero_is_real h k : wf_history h -> is_key k -> final_map h k = None -> of_Z (2 ^ 128) <> fzero ->
  exists db db', run_mem h = Ok db /\ insert_single db (k, repeat 0 32) = Ok db' /\
    trie_get db k = Ok None /\ trie_get db' k = Ok (Some (repeat 0 32)) /\
    let pos := nth 31 k 0 in
    let stem := firstn 31 k in
    suffix_vec (leaf_table db) stem (pos / 128) (2 * (pos mod 128)) = fzero /\
    suffix_vec (leaf_table db') stem (pos / 128) (2 * (pos mod 128)) <> fzero /\
    exists c c', suffix_comm (leaf_table db) stem (pos / 128) = c /\
      suffix_comm (leaf_table db') stem (pos / 128) = c' /\
      c' = gadd c (smul (of_Z (2 ^ 128)) (crs (2 * (pos mod 128)))).
Proof.
  intros Hw Hk Hn H2. destruct (run_mem_canon h Hw) as (db & E & C).
  destruct (hcanon_insert db h k (repeat 0 32) C Hk) as (db' & E' & C').
  exists db, db'. split; [exact E|]. split; [exact E'|].
  pose proof (can_leaf _ _ _ C) as CL. pose proof (can_leaf _ _ _ C') as CL'.
  unfold trie_get. cbn [get_leaf memory_db_ops]. unfold mem_get_leaf.
  split; [rewrite CL, Hn; reflexivity|]. split; [rewrite CL', final_map_snoc, upd_same; reflexivity|].
  cbv zeta. pose proof (key_byte k 31 Hk ltac:(lia)) as Hb. unfold is_byte in Hb.
  pose proof (key_split k Hk) as Ek.
  set (pos := nth 31 k 0) in *. set (stem := firstn 31 k) in *.
  assert (Ei : stem ++ [128 * (pos / 128) + 2 * (pos mod 128) / 2] = k).
  { rewrite (Z.mul_comm 2), Z.div_mul, <- Z.div_mod by lia. symmetry; exact Ek. }
  assert (E0 : Z.even (2 * (pos mod 128)) = true) by (rewrite Z.even_mul; reflexivity).
  assert (Vold : leaf_table db k = None) by (rewrite CL; exact Hn).
  assert (Vnew : leaf_table db' k = Some (repeat 0 32)) by (rewrite CL', final_map_snoc, upd_same; reflexivity).
  assert (Elow : leaf_low (Some (repeat 0 32)) = of_Z (2 ^ 128)).
  { cbn [leaf_low]. replace (firstn 16 (repeat 0 32)) with (repeat 0 16) by reflexivity.
    rewrite le_Z_zeros, of_Z_0. ring. }
  assert (Ehigh : leaf_high (Some (repeat 0 32)) = fzero).
  { cbn [leaf_high]. replace (firstn 16 (skipn 16 (repeat 0 32))) with (repeat 0 16) by reflexivity.
    rewrite le_Z_zeros. apply of_Z_0. }
  split; [|split].
  - unfold suffix_vec. rewrite E0, Ei, Vold. reflexivity.
  - unfold suffix_vec. rewrite E0, Ei, Vnew, Elow. exact H2.
  - do 2 eexists. split; [reflexivity|]. split; [reflexivity|].
    rewrite (suffix_comm_congr (leaf_table db') (upd (leaf_table db) k (repeat 0 32)) stem).
    + pose proof (suffix_comm_upd (leaf_table db) stem pos (repeat 0 32) ltac:(lia)) as X. cbv zeta in X.
      rewrite <- Ek in X. rewrite X, Vold.
      change (value_low (repeat 0 32)) with (leaf_low (Some (repeat 0 32))).
      change (value_high (repeat 0 32)) with (leaf_high (Some (repeat 0 32))).
      rewrite Elow, Ehigh. cbn [leaf_low leaf_high]. module.
    + intros i _. rewrite CL', final_map_snoc. unfold upd. rewrite CL. reflexivity.
    + assert (0 <= pos / 128 < 2) by (split; [apply Z.div_pos; lia|apply Z.div_lt_upper_bound; lia]). lia.
Qed.

(** ** Structure *)
Lemma is_prefix_spec p s : is_prefix p s <-> has_prefix p s = true.
Proof. unfold is_prefix. rewrite has_prefix_spec. reflexivity. Qed.

Lemma stem_in_spec h s : stem_in h s <-> In s (stems_of h).
Proof.
  unfold stem_in. rewrite stems_of_final. split; intros (k & v & H1 & H2); exists k, v; auto.
Qed.

Lemma branch_required_spec h p : wfS (stems_of h) -> (branch_required h p <-> internal (stems_of h) p = true).
Proof.
  intros W. unfold branch_required, internal. rewrite orb_true_iff, Nat.eqb_eq, Nat.leb_le.
  split; intros [H|H].
  - left. subst; reflexivity.
  - right. destruct H as (s & t & Hs & Ht & Hst & Ps & Pt). rewrite stem_in_spec in Hs, Ht. rewrite is_prefix_spec in Ps, Pt.
    assert (Is : In s (under (stems_of h) p)) by (apply under_In; auto).
    assert (It : In t (under (stems_of h) p)) by (apply under_In; auto).
    destruct (under (stems_of h) p) as [|a [|b l]]; simpl in *; try lia; try contradiction.
    destruct Is as [<-|[]]. destruct It as [<-|[]]. contradiction.
  - left. destruct p; [reflexivity|discriminate].
  - right. pose proof (under_NoDup (stems_of h) p W) as N.
    destruct (under (stems_of h) p) as [|a [|b l]] eqn:E; simpl in H; try lia.
    assert (Ia : In a (under (stems_of h) p)) by (rewrite E; left; reflexivity).
    assert (Ib : In b (under (stems_of h) p)) by (rewrite E; right; left; reflexivity).
    apply under_In in Ia as [Ia Pa]. apply under_In in Ib as [Ib Pb].
    exists a, b. rewrite !stem_in_spec, !is_prefix_spec. repeat split; auto.
    intros ->. inversion N as [|? ? Hn _]; subst. apply Hn. left; reflexivity.
Qed.

Lemma structure h db : wf_history h -> run_mem h = Ok db ->
  (forall p, (exists m, branch_table db p = Some (CBranch m)) <-> branch_required h p) /\
  (forall p s, branch_table db p = Some (CStem s) <-> stem_required h p s) /\
  (forall p, branch_table db p <> None -> (length p <= 31)%nat) /\
  (forall s, (exists m, stem_table db s = Some m) <-> stem_in h s) /\
  (forall s, stem_in h s -> exists n, (1 <= n <= 31)%nat /\ branch_table db (firstn n s) = Some (CStem s) /\
     (forall j, (j < n)%nat -> exists m, branch_table db (firstn j s) = Some (CBranch m)) /\
     (forall p, branch_table db p = Some (CStem s) -> p = firstn n s)).
Proof.
  intros Hw E. pose proof (run_canon h db Hw E) as C. destruct C as [CW CK CL CS CB].
  set (S := stems_of h) in *.
  assert (HB : forall p, (exists m, branch_table db p = Some (CBranch m)) <-> internal S p = true).
  { intros p. rewrite CB. unfold cbranch. destruct (internal S p); split; eauto; try discriminate.
    intros [m H]. destruct (under S p) as [|a [|b l]]; try discriminate. destruct (internal S (removelast p)); discriminate. }
  assert (HU : forall p s, stem_required h p s <->
     (p <> [] /\ under S p = [s] /\ internal S (removelast p) = true)).
  { intros p s. unfold stem_required. rewrite stem_in_spec, is_prefix_spec, !branch_required_spec by exact CW.
    fold S. split.
    - intros (Hp & Hs & Ps & Hb & Hr). split; [exact Hp|]. split; [|exact Hr].
      apply not_true_is_false in Hb. assert (X : In s (under S p)) by (apply under_In; auto).
      destruct (internal_false_under S p Hb) as [U|[t U]]; rewrite U in X |- *; [destruct X|].
      destruct X as [->|[]]. reflexivity.
    - intros (Hp & U & Hr). assert (X : In s (under S p)) by (rewrite U; left; reflexivity).
      apply under_In in X as [X1 X2]. repeat split; auto. unfold internal. rewrite U. destruct p; [contradiction|]. discriminate. }
  assert (HSt : forall p s, branch_table db p = Some (CStem s) <-> stem_required h p s).
  { intros p s. rewrite HU, CB. unfold cbranch. split.
    - destruct (internal S p) eqn:I; [discriminate|]. intros H.
      destruct (under S p) as [|a [|b l]] eqn:U; try discriminate.
      destruct (internal S (removelast p)) eqn:R; [|discriminate]. injection H as ->.
      repeat split; auto. intros ->. discriminate I.
    - intros (Hp & U & R). rewrite U, R. unfold internal. rewrite U. destruct p; [contradiction|]. reflexivity. }
  split; [intros p; rewrite HB; symmetry; apply branch_required_spec; exact CW|].
  split; [exact HSt|].
  split; [|split].
  - intros p Hp. destruct (branch_table db p) as [[s|m]|] eqn:Eb; [| |contradiction].
    + apply HSt in Eb. apply HU in Eb as (_ & U & _).
      assert (X : In s (under S p)) by (rewrite U; left; reflexivity). apply under_In in X as [X1 X2].
      apply has_prefix_length in X2. rewrite (wfS_len S s CW X1) in X2. exact X2.
    + assert (I : internal S p = true) by (apply HB; eauto).
      destruct (Nat.le_gt_cases (length p) 31) as [H|H]; [exact H|].
      rewrite internal_long in I by (auto; lia). discriminate.
  - intros s. rewrite stem_in_spec, CS. fold S. destruct (in_dec bytes_dec s S) as [H|H]; split; eauto.
    + intros [m X]; discriminate.
    + intros X; contradiction.
  - intros s Hs. apply stem_in_spec in Hs. fold S in Hs. pose proof (wfS_len S s CW Hs) as Ls.
    destruct (internal_depth S s CW Ls) as (e & He & I0 & I1).
    assert (U : under S (firstn (Datatypes.S e) s) = [s]).
    { assert (X : In s (under S (firstn (Datatypes.S e) s)))
        by (apply under_In; split; [exact Hs|apply has_prefix_firstn]).
      destruct (internal_false_under S _ I1) as [U|[t U]]; rewrite U in X |- *; [destruct X|].
      destruct X as [->|[]]. reflexivity. }
    assert (N : firstn (Datatypes.S e) s <> []).
    { intros X. apply (f_equal (@length Z)) in X. rewrite firstn_length in X. cbn [length] in X. lia. }
    exists (Datatypes.S e). split; [lia|]. split; [|split].
    + apply HSt, HU. rewrite removelast_firstn_S by lia. auto.
    + intros j Hj. apply HB. apply (internal_down S s j e); auto; lia.
    + intros p Hp. apply HSt, HU in Hp as (Np & Up & Rp).
      assert (X : In s (under S p)) by (rewrite Up; left; reflexivity). apply under_In in X as [_ X].
      pose proof (has_prefix_length _ _ X) as Lp. apply has_prefix_eq in X.
      destruct (length p) as [|n] eqn:Lpn; [destruct p; [contradiction|discriminate]|].
      f_equal. rewrite X. f_equal.
      assert (Ip : internal S (firstn (Datatypes.S n) s) = false).
      { rewrite <- X. unfold internal. rewrite Up, Lpn. reflexivity. }
      rewrite X, removelast_firstn_S in Rp by lia.
      destruct (Nat.lt_trichotomy n e) as [H|[H|H]]; [|lia|].
      * rewrite (internal_down S s (Datatypes.S n) e) in Ip; auto; try lia; discriminate.
      * rewrite (internal_down S s (Datatypes.S e) n) in I1; auto; try lia; discriminate.
Qed.

(** ** Coherence *)
Lemma coherent h db : wf_history h -> run_mem h = Ok db ->
  (forall s m, stem_table db s = Some m ->
     sm_c1 m = suffix_comm (leaf_table db) s 0 /\ sm_hash_c1 m = hash (sm_c1 m) /\
     sm_c2 m = suffix_comm (leaf_table db) s 1 /\ sm_hash_c2 m = hash (sm_c2 m) /\
     sm_comm m = ext_comm (leaf_table db) s /\ sm_hash_comm m = hash (sm_comm m)) /\
  (forall p m, branch_table db p = Some (CBranch m) ->
     bm_comm m = vcommit (child_scalar db p) /\ bm_hash m = hash (bm_comm m)).
Proof.
  intros Hw E. pose proof (run_canon h db Hw E) as C. destruct C as [CW CK CL CS CB].
  set (S := stems_of h) in *. split.
  - intros s m. rewrite CS. destruct (in_dec bytes_dec s S) as [Hin|]; [|discriminate]. intros [= <-].
    assert (HL : same_leaves (final_map h) (leaf_table db) s) by (intros i _; symmetry; apply CL).
    unfold cstem. cbn [sm_c1 sm_c2 sm_hash_c1 sm_hash_c2 sm_comm sm_hash_comm].
    rewrite (ext_comm_congr _ _ s HL), !(suffix_comm_congr _ _ s _ HL) by lia. repeat split; reflexivity.
  - intros p m Hm. rewrite CB in Hm. unfold cbranch in Hm.
    destruct (internal S p) eqn:I.
    2:{ destruct (under S p) as [|a [|b l]]; try discriminate. destruct (internal S (removelast p)); discriminate. }
    injection Hm as <-. cbn [cmeta bm_comm bm_hash]. split; [|reflexivity].
    apply vcommit_ext. intros i Hi. unfold inner_vec. fold (cval (final_map h) S (p ++ [i])).
    unfold child_scalar. rewrite CB. unfold cbranch. rewrite removelast_last, I.
    assert (Np : p ++ [i] <> []) by (intros X; apply app_eq_nil in X as [_ X]; discriminate).
    destruct (internal S (p ++ [i])) eqn:I'.
    + rewrite cval_many; [reflexivity|exact CW|apply internal_many; auto].
    + destruct (internal_false_under S _ I') as [U|[t U]]; rewrite U.
      * apply cval_none; exact U.
      * rewrite CS. assert (X : In t (under S (p ++ [i]))) by (rewrite U; left; reflexivity).
        apply under_In in X as [X _]. destruct (in_dec bytes_dec t S); [|contradiction].
        cbn [sm_hash_comm cstem]. apply cval_one; exact U.
Qed.
End Thms.

(** ** Batching, for any backend *)
Lemma insert_app {A : Alg} {P : Par A} {St : Type} {D : DbOps St} (db : St) a b :
  trie_insert db (a ++ b) = let! db1 := trie_insert db a in trie_insert db1 b.
Proof.
  revert db; induction a as [|kv a IH]; intros db; cbn [app trie_insert]; [reflexivity|].
  destruct (insert_single db kv) as [db1|]; cbn [rbind]; [apply IH|reflexivity].
Qed.

Lemma insert_fold {A : Alg} {P : Par A} {St : Type} {D : DbOps St} (db : St) l :
  trie_insert db l = fold_left (fun r kv => let! db := r in insert_single db kv) l (Ok db).
Proof.
  revert db; induction l as [|kv l IH]; intros db; cbn [fold_left trie_insert]; [reflexivity|].
  cbn [rbind]. destruct (insert_single db kv) as [db1|]; cbn [rbind]; [apply IH|].
  clear. induction l as [|kv l IH]; cbn [fold_left rbind]; [reflexivity|exact IH].
Qed.
