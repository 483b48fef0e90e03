(** Lemmas behind C12 for the disk database: the exact condition under which a listing agrees with the
    point reads, and what one session from an empty path leaves in the cache. *)
From Verif Require Import Base BaseFacts Alg TrieModel CodecModel VerkleDbModel VerkleDbProofs DbSpec VerkleDbTheorems VerkleDbExamples.

(** ** Writes of an insertion and their depths *)
Section Depths.
Context {A : Alg} {P : Par A} {S : Type} {D : DbOps S}.
Variable Q : S -> Prop.
(** A branch record is written at its own depth, at the one above, or one below after it was read. *)
Definition depth_ok (db : S) (p : bytes) (d : Z) : Prop :=
  d = Z.of_nat (length p) \/ d = Z.of_nat (length p) - 1 \/
  (d = Z.of_nat (length p) + 1 /\ exists m, get_branch_meta db p = Ok (Some m)).
Hypothesis HL : forall db k v d, Q db -> Q (fst (insert_leaf db k v d)).
Hypothesis HS : forall db k m d, Q db -> Q (fst (insert_stem db k m d)).
Hypothesis HA : forall db p s d, Q db -> depth_ok db p d -> Q (fst (add_stem_as_branch_child db p s d)).
Hypothesis HB : forall db p m d, Q db -> depth_ok db p d -> Q (fst (insert_branch db p m d)).

Ltac inv H := repeat (
  match type of H with
  | rbind _ _ = Ok _ => let x := fresh "x" in let E := fresh "E" in apply rbind_ok in H as (x & E & H)
  end).

Lemma dp_update_leaf db k v d : Q db -> Q (fst (update_leaf_table db k v d)).
Proof.
  intro HQ. unfold update_leaf_table. pose proof (HL db k v d HQ) as H. destruct (insert_leaf db k v d) as [db1 [w|]]; [destruct (beqb w v)|]; exact H.
Qed.
Lemma dp_update_stem db lu d db' su : Q db -> update_stem_table db lu d = Ok (db', su) -> Q db'.
Proof.
  intros HQ E. destruct lu as [[ov nv] key]. unfold update_stem_table in E.
  destruct (match ov with Some val => (value_low val, value_high val) | None => (fzero, fzero) end) as [ol oh].
  cbv zeta in E. apply rbind_ok in E as (sm & E1 & E).
  match type of E with (match ?m with pair _ _ => _ end) = _ => destruct m as [[[[[c1 h1] c2] h2] sc] os] end.
  match type of E with
  | (let '(_, _) := insert_stem ?a ?b ?c ?d in _) = _ => pose proof (HS a b c d HQ) as H; destruct (insert_stem a b c d)
  end.
  injection E as <- <-. exact H.
Qed.
Lemma dp_update_branch db su b i d db' r : Q db -> d = Z.of_nat (length b) \/ d = Z.of_nat (length b) + 1 ->
  update_branch_table db su b i d = Ok (db', r) -> Q db'.
Proof.
  intros HQ Hd E. destruct su as [[o h] s]. unfold update_branch_table in E. apply rbind_ok in E as (m & E1 & E). apply rbind_ok in E as (m' & E2 & E).
  assert (G : exists m, get_branch_meta db b = Ok (Some m)) by (destruct m as [m|]; [eauto|discriminate E2]).
  match type of E with
  | (let '(_, _) := insert_branch ?a ?b ?c ?d in _) = _ =>
      assert (H : Q (fst (insert_branch a b c d))) by (apply HB; [exact HQ|unfold depth_ok; destruct Hd; auto]); destruct (insert_branch a b c d) as [db1 ?]
  end. cbn [fst] in H.
  assert (H2 : Q (fst (add_stem_as_branch_child db1 (b ++ [i]) s d))).
  { apply HA; [exact H|]. unfold depth_ok. rewrite app_length. cbn [length]. destruct Hd; [right; left|left]; lia. }
  destruct (add_stem_as_branch_child db1 (b ++ [i]) s d). injection E as <- <-. exact H2.
Qed.
Lemma dp_chain_loop l : forall db below, Q db -> Q (fst (chain_loop db l below)).
Proof.
  induction l as [|[c p] l IH]; intros db below HQ; cbn [chain_loop]; [exact HQ|].
  match goal with |- context [insert_branch ?a ?b ?c ?d] => assert (H : Q (fst (insert_branch a b c d))) by (apply HB; [exact HQ|left; reflexivity]); destruct (insert_branch a b c d) end.
  apply IH. exact H.
Qed.
Lemma dp_fall db b i c o d db' : Q db -> d = Z.of_nat (length b) + 1 -> process_fall_through db b i c o d = Ok db' -> Q db'.
Proof.
  intros HQ Hd E. unfold process_fall_through in E. inv E.
  match goal with H : get_branch_meta db b = Ok ?m, H' : unwrap ?m = Ok _ |- _ =>
    assert (G : exists m, get_branch_meta db b = Ok (Some m)) by (destruct m as [m'|]; [eauto|discriminate H']) end.
  match type of E with
  | (let '(_, _) := insert_branch ?a ?b ?c ?d in _) = _ =>
      assert (H : Q (fst (insert_branch a b c d))) by (apply HB; [exact HQ|right; right; auto]); destruct (insert_branch a b c d)
  end. injection E as <-. exact H.
Qed.
Lemma dp_chain db sd cp pn ci oi k v ni db' : Q db -> sd = Z.of_nat (length pn) + 1 ->
  process_chain_insert db sd cp pn ci oi k v ni = Ok db' -> Q db'.
Proof.
  intros HQ Hsd E. unfold process_chain_insert in E. inv E.
  match type of E with
  | (let '(_, _) := insert_branch ?a ?b ?c ?d in _) = _ =>
      assert (H1 : Q (fst (insert_branch a b c d))) by (apply HB; [exact HQ|left; reflexivity]); destruct (insert_branch a b c d) as [db1 ?]
  end. cbn [fst] in H1.
  match type of E with
  | (let '(_, _) := update_leaf_table ?a ?b ?c ?d in _) = _ => pose proof (dp_update_leaf a b c d H1) as Q2; destruct (update_leaf_table a b c d) as [db2 lu]
  end. cbn [fst] in Q2.
  apply rbind_ok in E as (lu' & Eu & E).
  apply rbind_ok in E as ([db3 su] & E6 & E). pose proof (dp_update_stem _ _ _ _ _ Q2 E6) as Q3.
  apply rbind_ok in E as ([db4 r4] & E7 & E). pose proof (dp_update_branch _ _ _ _ _ _ _ Q3 (or_introl eq_refl) E7) as Q4.
  apply rbind_ok in E as (sm & E8 & E). apply rbind_ok in E as (sm' & E9 & E).
  apply rbind_ok in E as ([db5 r5] & E10 & E). pose proof (dp_update_branch _ _ _ _ _ _ _ Q4 (or_introl eq_refl) E10) as Q5.
  match type of E with
  | (let '(_, _) := chain_loop ?a ?b ?c in _) = _ => pose proof (dp_chain_loop b a c Q5) as Q6; destruct (chain_loop a b c) as [db6 r6]
  end. cbn [fst] in Q6. apply rbind_ok in E as (m & F1 & E). apply rbind_ok in E as (m' & F2 & E).
  assert (G : exists m, get_branch_meta db6 pn = Ok (Some m)) by (destruct m as [m|]; [eauto|discriminate F2]).
  match type of E with
  | (let '(_, _) := insert_branch ?a ?b ?c ?d in _) = _ =>
      assert (H : Q (fst (insert_branch a b c d))) by (apply HB; [exact Q6|right; right; auto]); destruct (insert_branch a b c d)
  end. injection E as <-. exact H.
Qed.

Definition ins_depth (i : Ins) : Prop :=
  match i with
  | UpdateLeaf _ _ d b _ => d = Z.of_nat (length b) + 1
  | ChainInsert sd _ pn _ _ _ _ _ => sd = Z.of_nat (length pn) + 1
  | InternalNodeFallThrough b _ _ _ d => d = Z.of_nat (length b) + 1
  end.
Lemma create_loop_depth db k v rest : forall d cur acc l, length cur = d -> Forall ins_depth acc ->
  create_insert_loop db k v rest d cur acc = Ok l -> Forall ins_depth l.
Proof.
  induction rest as [|i rest IH]; intros d cur acc l Hd Ha E; cbn [create_insert_loop] in E.
  - injection E as <-. exact Ha.
  - apply rbind_ok in E as (c & E1 & E).
    assert (Ha1 : forall x, ins_depth x -> Forall ins_depth (acc ++ [x])).
    { intros x Hx. apply Forall_app. split; [exact Ha|constructor; [exact Hx|constructor]]. }
    assert (Hz : Z.of_nat d + 1 = Z.of_nat (length cur) + 1) by (rewrite Hd; reflexivity).
    destruct c as [[s|m]|].
    + destruct (path_difference s (firstn 31 k)) as [[sp po] pn].
      destruct (length sp =? 31)%nat.
      * apply rbind_ok in E as (lv & E2 & E). destruct lv as [old|].
        -- destruct po; [injection E as <-; apply Ha1; exact Hz|].
           apply rbind_ok in E as (u & E3 & E). destruct (beqb old v && true); injection E as <-; [constructor|apply Ha1; exact Hz].
        -- destruct po; [injection E as <-; apply Ha1; exact Hz|].
           apply rbind_ok in E as (u & E3 & E). destruct (beqb (repeat 0 32) v && false); injection E as <-; [constructor|apply Ha1; exact Hz].
      * apply rbind_ok in E as (u1 & E2 & E). apply rbind_ok in E as (u2 & E3 & E). apply rbind_ok in E as (u3 & E4 & E).
        injection E as <-. apply Ha1. exact Hz.
    + eapply IH; [|..|exact E]; [rewrite app_length, Hd; cbn [length]; lia|]. apply Ha1. exact Hz.
    + injection E as <-. apply Ha1. exact Hz.
Qed.
Lemma dp_process l : Forall ins_depth l -> forall db db', Q db -> process_reversed db l = Ok db' -> Q db'.
Proof.
  induction 1 as [|i l Hi Hl IH]; intros db db' HQ E; cbn [process_reversed] in E.
  - congruence.
  - destruct i as [k' v' d b i|sd cp pn ci oi nk nv ni|b i c o d]; cbn [ins_depth] in Hi.
    + pose proof (dp_update_leaf db k' v' d HQ) as Q2. destruct (update_leaf_table db k' v' d) as [db2 lu]. cbn [fst] in Q2.
      destruct lu as [lu|]; [|congruence].
      apply rbind_ok in E as ([db3 su] & E6 & E). pose proof (dp_update_stem _ _ _ _ _ Q2 E6) as Q3.
      apply rbind_ok in E as ([db4 r4] & E7 & E). pose proof (dp_update_branch _ _ _ _ _ _ _ Q3 (or_intror Hi) E7) as Q4.
      exact (IH _ _ Q4 E).
    + apply rbind_ok in E as (db1 & E1 & E). exact (IH _ _ (dp_chain _ _ _ _ _ _ _ _ _ _ HQ Hi E1) E).
    + apply rbind_ok in E as (db1 & E1 & E). exact (IH _ _ (dp_fall _ _ _ _ _ _ _ HQ Hi E1) E).
Qed.
Lemma dp_insert db kv db' : Q db -> insert_single db kv = Ok db' -> Q db'.
Proof.
  intros HQ E. destruct kv as [k v]. unfold insert_single in E. apply rbind_ok in E as (ins & E1 & E).
  unfold process_instructions in E. refine (dp_process (rev ins) _ db db' HQ E). apply Forall_rev.
  exact (create_loop_depth db k v k 0 [] [] ins eq_refl (Forall_nil _) E1).
Qed.
Lemma dp_new db db' : Q db -> trie_new db = Ok db' -> Q db'.
Proof.
  intros HQ E. unfold trie_new in E. apply rbind_ok in E as (b & E1 & E). destruct b; [|congruence].
  assert (H : Q (fst (insert_branch db [] branch_meta_zero 0))) by (apply HB; [exact HQ|left; reflexivity]).
  destruct (insert_branch db [] branch_meta_zero 0) as [db1 o]. apply rbind_ok in E as (u & E2 & E). injection E as <-. exact H.
Qed.
End Depths.

(** ** One session *)
Section Session.
Context {A : Alg} {P : Par A} {C : Codec A}.
(** What is known of the branch records of a session from an empty path: down to depth 4 the cache
    has all of them, and below depth 5 it has none. *)
Definition session (v : VerkleDb) : Prop :=
  (forall p, (length p <= 4)%nat -> branch_table (vd_cache v) p = None ->
     branch_table (vd_batch v) p = None /\ vd_storage v (branch_dkey p) = None) /\
  (forall p, (6 <= length p)%nat -> branch_table (vd_cache v) p = None).

Lemma session_open : session (verkle_open bempty).
Proof. split; intros; [split|]; reflexivity. Qed.

Lemma cached_meta v p m : session v -> (length p <= 4)%nat -> vd_get_branch_meta v p = Ok (Some m) -> branch_table (vd_cache v) p <> None.
Proof.
  intros [S1 _] Lp E N. destruct (S1 p Lp N) as [B D]. revert E. unfold vd_get_branch_meta, mem_get_branch_meta. rewrite N. cbn. rewrite B. cbn.
  unfold disk_get_branch_meta. rewrite D. cbn. discriminate.
Qed.

Lemma session_put v p c d : session v -> depth_ok v p d -> session (VerkleDbSim.v_put v p c d).
Proof.
  intros Sv Hd. pose proof Sv as [S1 S2]. unfold VerkleDbSim.v_put, CACHE_DEPTH. split; intros q Lq; cbn [vd_cache vd_batch vd_storage].
  - destruct (Z.leb_spec d 4) as [Dd|Dd]; cbn [branch_table].
    + intro N. destruct (beqb_spec p q) as [->|Nq].
      * unfold upd in N. rewrite beqb_refl in N. discriminate N.
      * rewrite upd_other in N by exact Nq. rewrite upd_other by exact Nq. exact (S1 q Lq N).
    + intro N. destruct (beqb_spec p q) as [->|Nq].
      * destruct Hd as [Hd|[Hd|[Hd [m Hm]]]]; [exfalso; lia|exfalso; lia|]. elim (cached_meta v q m Sv Lq Hm N).
      * rewrite upd_other by exact Nq. exact (S1 q Lq N).
  - destruct (Z.leb_spec d 4) as [Dd|Dd]; cbn [branch_table]; [|exact (S2 q Lq)].
    destruct (beqb_spec p q) as [->|Nq]; [exfalso; destruct Hd as [Hd|[Hd|[Hd _]]]; lia|].
    rewrite upd_other by exact Nq. exact (S2 q Lq).
Qed.
Lemma session_leaf v k x d : session v -> session (fst (vd_insert_leaf v k x d)).
Proof. intros [S1 S2]. unfold vd_insert_leaf, mem_insert_leaf. cbn [fst]. destruct (d <=? CACHE_DEPTH); split; assumption. Qed.
Lemma session_stem v k x d : session v -> session (fst (vd_insert_stem v k x d)).
Proof. intros [S1 S2]. unfold vd_insert_stem, mem_insert_stem. cbn [fst]. destruct (d <=? CACHE_DEPTH); split; assumption. Qed.
Lemma session_flush v : session v -> session (verkle_flush v).
Proof.
  intros [S1 S2]. split; [|exact S2]. intros p Lp N. destruct (S1 p Lp N) as [B D]. split; [reflexivity|].
  unfold verkle_flush. cbn [vd_storage]. rewrite flush_disk_branch, B. exact D.
Qed.

Lemma session_run l : Forall (fun o => o <> OReopen) l -> forall v v', session v -> op_run v l = Ok v' -> session v'.
Proof.
  assert (HA : forall v p s d, session v -> depth_ok v p d -> session (fst (vd_add_stem v p s d))).
  { intros v p s d Sv Hd. rewrite VerkleDbSim.vd_add_stem_put. exact (session_put v p _ d Sv Hd). }
  assert (HB : forall v p s d, session v -> depth_ok v p d -> session (fst (vd_insert_branch v p s d))).
  { intros v p s d Sv Hd. rewrite VerkleDbSim.vd_insert_branch_put. exact (session_put v p _ d Sv Hd). }
  induction 1 as [|o l No Hl IH]; intros v v' Sv E; cbn [op_run] in E; [congruence|].
  apply rbind_ok in E as (v1 & E1 & E). refine (IH v1 v' _ E). destruct o as [k x| |]; cbn [op_step] in E1.
  - exact (dp_insert session session_leaf session_stem HA HB v (k, x) v1 Sv E1).
  - injection E1 as <-. exact (session_flush v Sv).
  - now elim No.
Qed.
Lemma session_history l v : ~ In OReopen l -> run_disk l = Ok v -> session v.
Proof.
  intros N E. unfold run_disk in E. apply rbind_ok in E as (v0 & E0 & E).
  assert (S0 : session v0).
  { refine (dp_new session _ (verkle_open bempty) v0 session_open E0).
    intros v1 p s d Sv Hd. change (session (fst (vd_insert_branch v1 p s d))). rewrite VerkleDbSim.vd_insert_branch_put. exact (session_put v1 p _ d Sv Hd). }
  refine (session_run l _ v0 v S0 E). apply Forall_forall. intros o Ho ->. exact (N Ho).
Qed.

Lemma session_listing l v p cs : ~ In OReopen l -> run_disk l = Ok v -> (length p <= 3 \/ 5 <= length p)%nat -> Z.of_nat (length p) < 256 ->
  vd_get_branch_children v p = Ok cs -> lists cs (vd_get_branch_child v p).
Proof.
  intros N E Lp Hp. destruct (session_history l v N E) as [S1 S2].
  assert (Li : forall i, length (p ++ [i]) = Datatypes.S (length p)) by (intro; rewrite app_length; cbn [length]; lia).
  destruct Lp as [Lp|Lp].
  - apply vd_children_cached; [lia|]. intros i _. unfold vd_get_branch_child, mem_get_branch_child.
    destruct (branch_table (vd_cache v) (p ++ [i])) as [c|] eqn:Ec; [reflexivity|].
    destruct (S1 (p ++ [i])) as [B D]; [rewrite Li; lia|exact Ec|]. rewrite B. unfold disk_get_branch_child. rewrite D. reflexivity.
  - apply vd_children_deep; [lia|]. intro i. apply S2. rewrite Li. lia.
Qed.
End Session.

(** ** When a listing agrees with the point reads *)
Section Exact.
Context {A : Alg} {C : Codec A}.
Lemma children_exact v p l : Z.of_nat (length p) < 256 -> vd_get_branch_children v p = Ok l ->
  (lists l (vd_get_branch_child v p) <->
   if (length p <=? 4)%nat
   then forall i c, 0 <= i < 256 -> vd_get_branch_child v p i = Ok (Some c) -> mem_get_branch_child (vd_cache v) p i = Some c
   else forall i c, 0 <= i < 256 -> mem_get_branch_child (vd_cache v) p i = Some c -> vd_get_branch_child (nocache v) p i = Ok (Some c)).
Proof.
  intros Hp E. unfold vd_get_branch_children in E. rewrite Z.mod_small in E by lia.
  destruct (Nat.leb_spec (length p) 4) as [L|L]; destruct (Z.leb_spec (Z.of_nat (length p)) CACHE_DEPTH) as [L'|L']; unfold CACHE_DEPTH in L'; try (exfalso; lia).
  - injection E as <-. destruct (mem_children_lists (vd_cache v) p) as [N M]. split.
    + intros [_ X] i c Hi G. destruct (proj1 (M i c) (proj2 (X i c) (conj Hi G))) as [_ R]. congruence.
    + intro X. split; [exact N|]. intros i c. rewrite M. split; intros [Hi G]; (split; [exact Hi|]).
      * assert (G' : mem_get_branch_child (vd_cache v) p i = Some c) by congruence. unfold vd_get_branch_child. rewrite G'. reflexivity.
      * rewrite (X i c Hi G). reflexivity.
  - apply rbind_ok in E as (l0 & E0 & E). injection E as <-.
    destruct (merged_lists _ (fun i => branch_table (vd_batch v) (p ++ [i])) l0 E0) as [N M]. split.
    + intros [_ X] i c Hi G. unfold vd_get_branch_child at 1. cbn [nocache vd_cache vd_batch vd_storage mem_get_branch_child memory_db_new branch_table].
      assert (V : vd_get_branch_child v p i = Ok (Some c)) by (unfold vd_get_branch_child; rewrite G; reflexivity).
      exact (proj2 (proj1 (M i c) (proj2 (X i c) (conj Hi V)))).
    + intro X. split; [exact N|]. intros i c. rewrite M.
      change (0 <= i < 256 /\ vd_get_branch_child (nocache v) p i = Ok (Some c) <-> 0 <= i < 256 /\ vd_get_branch_child v p i = Ok (Some c)).
      assert (K : 0 <= i < 256 -> vd_get_branch_child v p i = vd_get_branch_child (nocache v) p i).
      { intro Hi. destruct (mem_get_branch_child (vd_cache v) p i) as [c0|] eqn:G.
        - rewrite (X i c0 Hi G). unfold vd_get_branch_child. rewrite G. reflexivity.
        - unfold vd_get_branch_child at 1. rewrite G. reflexivity. }
      split; intros [Hi G]; (split; [exact Hi|]); [rewrite K|rewrite <- K]; assumption.
Qed.
Lemma stem_children_exact v s l : vd_get_stem_children v s = Ok l ->
  (lists l (fun i => vd_get_leaf v (s ++ [i])) <->
   (forall i, 0 <= i < 256 -> mem_get_leaf (vd_cache v) (s ++ [i]) = None) \/
   (forall i x, 0 <= i < 256 -> vd_get_leaf v (s ++ [i]) = Ok (Some x) -> mem_get_leaf (vd_cache v) (s ++ [i]) = Some x)).
Proof.
  intros E. unfold vd_get_stem_children in E. destruct (mem_stem_children_lists (vd_cache v) s) as [N M].
  destruct (mem_get_stem_children (vd_cache v) s) as [|e r] eqn:Ec.
  - assert (Hn : forall i, 0 <= i < 256 -> mem_get_leaf (vd_cache v) (s ++ [i]) = None).
    { intros i Hi. destruct (mem_get_leaf (vd_cache v) (s ++ [i])) as [x|] eqn:G; [|reflexivity].
      destruct (proj2 (M i x) (conj Hi (f_equal (@Ok _) G))). }
    split; [intros _; left; exact Hn|]. intros _.
    apply rbind_ok in E as (l0 & E0 & E). injection E as <-.
    destruct (merged_lists _ (fun i => leaf_table (vd_batch v) (s ++ [i])) l0 E0) as [N2 M2].
    split; [exact N2|]. intros i c. rewrite M2. split; intros [Hi G]; (split; [exact Hi|]).
    + unfold vd_get_leaf. rewrite Hn by exact Hi. exact G.
    + unfold vd_get_leaf in G. rewrite Hn in G by exact Hi. exact G.
  - injection E as <-. split.
    + intros [_ X]. right. intros i x Hi G. destruct (proj1 (M i x) (proj2 (X i x) (conj Hi G))) as [_ R]. congruence.
    + intros [X|X].
      * destruct e as [i c]. destruct (proj1 (M i c) (or_introl eq_refl)) as [Hi G]. rewrite X in G by exact Hi. discriminate G.
      * split; [exact N|]. intros i c. rewrite M. split; intros [Hi G]; (split; [exact Hi|]).
        -- assert (G' : mem_get_leaf (vd_cache v) (s ++ [i]) = Some c) by congruence. unfold vd_get_leaf. rewrite G'. reflexivity.
        -- rewrite (X i c Hi G). reflexivity.
Qed.
End Exact.

Lemma session_case {A : Alg} {P : Par A} {C : Codec A} : exists v l, ~ In OReopen three_ops /\ run_disk three_ops = Ok v /\
    vd_get_branch_children v [0; 0; 0] = Ok l /\ map fst l = [0].
Proof.
  assert (H : rbind (run_disk three_ops) (fun v => let! l := vd_get_branch_children v [0; 0; 0] in Ok (map fst l)) = Ok [0]) by (vm_compute; reflexivity).
  destruct (run_disk three_ops) as [v|]; [|discriminate H]. cbn [rbind] in H.
  destruct (vd_get_branch_children v [0; 0; 0]) as [l|] eqn:E; [|discriminate H]. cbn [rbind] in H.
  exists v, l. repeat split; [|exact E|congruence]. cbn. intros [X|[X|[X|[]]]]; discriminate X.
Qed.
