(** Lemmas behind C09-C14. *)
From Coq Require Import Permutation.
From Verif Require Import Base BaseFacts Alg AlgFacts TreeSpec TreeFacts TrieModel TrieProofs TrieTheorems
  CodecModel VerkleDbModel VerkleDbProofs DbSpec VerkleDbSim.

(** ** An insertion only performs well-formed writes *)
Section Closed.
Context {A : Alg} {P : Par A} {S : Type} {D : DbOps S}.
Variable Q : S -> Prop.
Hypothesis HL : forall db k v d, Q db -> length v = 32%nat -> Q (fst (insert_leaf db k v d)).
Hypothesis HS : forall db k m d, Q db -> Q (fst (insert_stem db k m d)).
Hypothesis HA : forall db p s d, Q db -> length s = 31%nat -> Q (fst (add_stem_as_branch_child db p s d)).
Hypothesis HB : forall db p m d, Q db -> Q (fst (insert_branch db p m d)).
Hypothesis HR : forall db p i s, Q db -> get_branch_child db p i = Ok (Some (CStem s)) -> length s = 31%nat.

Lemma rbind_ok {X Y} (r : res X) (f : X -> res Y) y : rbind r f = Ok y -> exists x, r = Ok x /\ f x = Ok y.
Proof. destruct r; cbn; [eauto|discriminate]. Qed.

Ltac inv H := repeat (
  match type of H with
  | rbind _ _ = Ok _ => let x := fresh "x" in let E := fresh "E" in apply rbind_ok in H as (x & E & H)
  end).

Lemma cl_update_leaf db k v d db' o : Q db -> length v = 32%nat -> update_leaf_table db k v d = (db', o) ->
  Q db' /\ (forall old nv key, o = Some (old, nv, key) -> key = k).
Proof.
  intros HQ Hv. unfold update_leaf_table. pose proof (HL db k v d HQ Hv) as H.
  destruct (insert_leaf db k v d) as [db1 old]. cbn [fst] in H.
  destruct old as [w|]; [destruct (beqb w v)|]; intros E; injection E as <- <-; (split; [exact H|]); intros; congruence.
Qed.

Lemma cl_update_stem db ov nv key d db' su : Q db -> update_stem_table db (ov, nv, key) d = Ok (db', su) ->
  Q db' /\ snd su = firstn 31 key.
Proof.
  intros HQ E. unfold update_stem_table in E.
  destruct (match ov with Some val => (value_low val, value_high val) | None => (fzero, fzero) end) as [ol oh].
  cbv zeta in E. apply rbind_ok in E as (sm & E1 & E).
  match type of E with (match ?m with pair _ _ => _ end) = _ => destruct m as [[[[[c1 h1] c2] h2] sc] os] end.
  match type of E with
  | (let '(_, _) := insert_stem ?a ?b ?c ?d in _) = _ => pose proof (HS a b c d HQ) as H; destruct (insert_stem a b c d)
  end.
  injection E as <- <-. split; [exact H|reflexivity].
Qed.

Lemma cl_update_branch db o h s b i d db' r : Q db -> length s = 31%nat ->
  update_branch_table db (o, h, s) b i d = Ok (db', r) -> Q db'.
Proof.
  intros HQ Hs E. unfold update_branch_table in E. inv E.
  match type of E with
  | (let '(_, _) := insert_branch ?a ?b ?c ?d in _) = _ => pose proof (HB a b c d HQ) as H; destruct (insert_branch a b c d) as [db1 ?]
  end. cbn [fst] in H.
  pose proof (HA db1 (b ++ [i]) s d H Hs) as H2. destruct (add_stem_as_branch_child db1 (b ++ [i]) s d).
  injection E as <- <-. exact H2.
Qed.

Lemma cl_chain_loop l : forall db below, Q db -> Q (fst (chain_loop db l below)).
Proof.
  induction l as [|[c p] l IH]; intros db below HQ; cbn [chain_loop]; [exact HQ|].
  match goal with |- context [insert_branch ?a ?b ?c ?d] => pose proof (HB a b c d HQ) as H; destruct (insert_branch a b c d) end.
  apply IH. exact H.
Qed.

Lemma cl_fall db b i c o d db' : Q db -> process_fall_through db b i c o d = Ok db' -> Q db'.
Proof.
  intros HQ E. unfold process_fall_through in E. inv E.
  match type of E with
  | (let '(_, _) := insert_branch ?a ?b ?c ?d in _) = _ => pose proof (HB a b c d HQ) as H; destruct (insert_branch a b c d)
  end. injection E as <-. exact H.
Qed.

Lemma cl_chain db sd cp pn ci oi k v ni db' : Q db -> is_key k -> length v = 32%nat ->
  process_chain_insert db sd cp pn ci oi k v ni = Ok db' -> Q db'.
Proof.
  intros HQ Hk Hv E. unfold process_chain_insert in E. inv E.
  rename x1 into oc. rename x2 into oc'.
  match type of E with
  | (let '(_, _) := insert_branch ?a ?b ?c ?d in _) = _ => pose proof (HB a b c d HQ) as H1; destruct (insert_branch a b c d) as [db1 ?]
  end. cbn [fst] in H1.
  match type of E with
  | (let '(_, _) := update_leaf_table ?a ?b ?c ?d in _) = _ => pose proof (cl_update_leaf a b c d) as H2; destruct (update_leaf_table a b c d) as [db2 lu]
  end.
  destruct (H2 _ _ H1 Hv eq_refl) as [Q2 Hkey]. clear H2.
  apply rbind_ok in E as ([[ov nv] key] & Eu & E).
  destruct lu as [[[ov' nv'] key']|]; [|discriminate Eu]. cbn in Eu. injection Eu as -> -> ->.
  specialize (Hkey _ _ _ eq_refl). subst key.
  apply rbind_ok in E as ([db3 su] & E6 & E). destruct (cl_update_stem _ _ _ _ _ _ _ Q2 E6) as [Q3 Hsu].
  destruct su as [[o3 h3] s3]. cbn [snd] in Hsu.
  assert (L31 : length s3 = 31%nat) by (subst s3; rewrite firstn_length; destruct Hk; lia).
  apply rbind_ok in E as ([db4 r4] & E7 & E). pose proof (cl_update_branch _ _ _ _ _ _ _ _ _ Q3 L31 E7) as Q4.
  apply rbind_ok in E as (sm & E8 & E). apply rbind_ok in E as (sm' & E9 & E).
  apply rbind_ok in E as ([db5 r5] & E10 & E).
  assert (Lx : length x3 = 31%nat).
  { apply (HR db pn ci); [exact HQ|]. rewrite E2. destruct oc as [[s|m]|]; cbn in *; try discriminate; try (injection E3 as <-; cbn in E4); congruence. }
  pose proof (cl_update_branch _ _ _ _ _ _ _ _ _ Q4 Lx E10) as Q5.
  match type of E with
  | (let '(_, _) := chain_loop ?a ?b ?c in _) = _ => pose proof (cl_chain_loop b a c Q5) as Q6; destruct (chain_loop a b c) as [db6 r6]
  end. cbn [fst] in Q6. inv E.
  match type of E with
  | (let '(_, _) := insert_branch ?a ?b ?c ?d in _) = _ => pose proof (HB a b c d Q6) as H; destruct (insert_branch a b c d)
  end. injection E as <-. exact H.
Qed.

Definition ins_of (k v : bytes) (i : Ins) : Prop :=
  match i with
  | UpdateLeaf k' v' _ _ _ => k' = k /\ v' = v
  | ChainInsert _ _ _ _ _ k' v' _ => k' = k /\ v' = v
  | InternalNodeFallThrough _ _ _ _ _ => True
  end.

Lemma create_loop_of db k v rest : forall d cur acc l, Forall (ins_of k v) acc ->
  create_insert_loop db k v rest d cur acc = Ok l -> Forall (ins_of k v) l.
Proof.
  induction rest as [|i rest IH]; intros d cur acc l Ha E; cbn [create_insert_loop] in E.
  - injection E as <-. exact Ha.
  - apply rbind_ok in E as (c & E1 & E).
    assert (Ha1 : forall x, ins_of k v x -> Forall (ins_of k v) (acc ++ [x])).
    { intros x Hx. apply Forall_app. split; [exact Ha|constructor; [exact Hx|constructor]]. }
    destruct c as [[s|m]|].
    + destruct (path_difference s (firstn 31 k)) as [[sp po] pn].
      destruct (length sp =? 31)%nat.
      * apply rbind_ok in E as (lv & E2 & E). destruct lv as [old|].
        -- destruct po; [injection E as <-; apply Ha1; cbn; auto|].
           apply rbind_ok in E as (u & E3 & E). destruct (beqb old v && true); injection E as <-; [constructor|apply Ha1; cbn; auto].
        -- destruct po; [injection E as <-; apply Ha1; cbn; auto|].
           apply rbind_ok in E as (u & E3 & E). destruct (beqb (repeat 0 32) v && false); injection E as <-; [constructor|apply Ha1; cbn; auto].
      * apply rbind_ok in E as (u1 & E2 & E). apply rbind_ok in E as (u2 & E3 & E). apply rbind_ok in E as (u3 & E4 & E).
        injection E as <-. apply Ha1. cbn; auto.
    + eapply IH; [|exact E]. apply Ha1. exact I.
    + injection E as <-. apply Ha1. cbn; auto.
Qed.

Lemma cl_process k v l : is_key k -> length v = 32%nat -> Forall (ins_of k v) l -> forall db db', Q db ->
  process_reversed db l = Ok db' -> Q db'.
Proof.
  intros Hk Hv. induction 1 as [|i l Hi Hl IH]; intros db db' HQ E; cbn [process_reversed] in E.
  - congruence.
  - destruct i as [k' v' d b i|sd cp pn ci oi nk nv ni|b i c o d]; cbn [ins_of] in Hi.
    + destruct Hi as [-> ->].
      pose proof (cl_update_leaf db k v d) as H2. destruct (update_leaf_table db k v d) as [db2 lu].
      destruct (H2 _ _ HQ Hv eq_refl) as [Q2 Hkey]. clear H2.
      destruct lu as [[[ov nv] key]|]; [|congruence]. specialize (Hkey _ _ _ eq_refl). subst key.
      apply rbind_ok in E as ([db3 su] & E6 & E). destruct (cl_update_stem _ _ _ _ _ _ _ Q2 E6) as [Q3 Hsu].
      destruct su as [[o3 h3] s3]. cbn [snd] in Hsu.
      assert (L31 : length s3 = 31%nat) by (subst s3; rewrite firstn_length; destruct Hk; lia).
      apply rbind_ok in E as ([db4 r4] & E7 & E). pose proof (cl_update_branch _ _ _ _ _ _ _ _ _ Q3 L31 E7) as Q4.
      eapply IH; eauto.
    + destruct Hi as [-> ->]. apply rbind_ok in E as (db1 & E1 & E). eapply IH; [|exact E].
      eapply cl_chain; eauto.
    + apply rbind_ok in E as (db1 & E1 & E). eapply IH; [|exact E]. eapply cl_fall; eauto.
Qed.

Lemma cl_insert db k v db' : is_key k -> length v = 32%nat -> Q db -> insert_single db (k, v) = Ok db' -> Q db'.
Proof.
  intros Hk Hv HQ E. unfold insert_single in E. apply rbind_ok in E as (l & E1 & E).
  unfold process_instructions in E. eapply cl_process; [exact Hk|exact Hv| |exact HQ|exact E].
  apply Forall_rev. eapply create_loop_of; [|exact E1]. constructor.
Qed.

Lemma cl_new db db' : Q db -> trie_new db = Ok db' -> Q db'.
Proof.
  intros HQ E. unfold trie_new in E. apply rbind_ok in E as (m & E1 & E). destruct m; [|congruence].
  pose proof (HB db [] branch_meta_zero 0 HQ) as H. destruct (insert_branch db [] branch_meta_zero 0) as [db1 o].
  apply rbind_ok in E as (u & _ & E). injection E as <-. exact H.
Qed.
End Closed.

(** ** States reachable on a disk path *)
Section Reach.
Context {A : Alg} {P : Par A} {C : Codec A}.

(** Stem pointers have 31 bytes, values 32. *)
Definition mem_wf (b : MemoryDb) : Prop :=
  (forall k v, leaf_table b k = Some v -> length v = 32%nat) /\
  (forall p s, branch_table b p = Some (CStem s) -> length s = 31%nat).
Definition vd_wf (v : VerkleDb) : Prop := mem_wf (vd_batch v) /\ mem_wf (vd_cache v).

Definition wop_wf (w : WOp) : Prop :=
  match w with WLeaf _ v _ => length v = 32%nat | WAddStem _ s _ => length s = 31%nat | _ => True end.

Lemma mem_wf_new : mem_wf memory_db_new.
Proof. split; intros ? ? E; discriminate E. Qed.

Lemma mem_wf_leaf b k v d : mem_wf b -> length v = 32%nat -> mem_wf (fst (mem_insert_leaf b k v d)).
Proof.
  intros [H1 H2] Hv. split; cbn; [|exact H2]. intros k0 v0. unfold upd. destruct (beqb k k0); [congruence|apply H1].
Qed.
Lemma mem_wf_stem b k v d : mem_wf b -> mem_wf (fst (mem_insert_stem b k v d)).
Proof. intros [H1 H2]. split; cbn; assumption. Qed.
Lemma mem_wf_add b p s d : mem_wf b -> length s = 31%nat -> mem_wf (fst (mem_add_stem b p s d)).
Proof.
  intros [H1 H2] Hv. split; cbn; [exact H1|]. intros k0 v0. unfold upd. destruct (beqb p k0); [congruence|apply H2].
Qed.
Lemma mem_wf_branch b p m d : mem_wf b -> mem_wf (fst (mem_insert_branch b p m d)).
Proof.
  intros [H1 H2]. split; cbn; [exact H1|]. intros k0 v0. unfold upd. destruct (beqb p k0); [congruence|apply H2].
Qed.

Lemma wop_step_wf v w : vd_wf v -> wop_wf w -> vd_wf (wop_step v w).
Proof.
  intros [HB HC] Hw. destruct w; cbn [wop_wf] in Hw; cbn [wop_step].
  - unfold vd_insert_leaf. destruct (mem_insert_leaf (vd_batch v) k v0 depth) as [b o] eqn:E. cbn [fst].
    split; cbn [vd_batch vd_cache].
    + change b with (fst (b, o)). rewrite <- E. apply mem_wf_leaf; auto.
    + destruct (depth <=? CACHE_DEPTH); [apply mem_wf_leaf; auto|exact HC].
  - unfold vd_insert_stem. destruct (mem_insert_stem (vd_batch v) s m depth) as [b o] eqn:E. cbn [fst].
    split; cbn [vd_batch vd_cache].
    + change b with (fst (b, o)). rewrite <- E. apply mem_wf_stem; auto.
    + destruct (depth <=? CACHE_DEPTH); [apply mem_wf_stem; auto|exact HC].
  - unfold vd_add_stem. destruct (mem_add_stem (vd_batch v) p s depth) as [b o] eqn:E. cbn [fst].
    split; cbn [vd_batch vd_cache].
    + change b with (fst (b, o)). rewrite <- E. apply mem_wf_add; auto.
    + destruct (depth <=? CACHE_DEPTH); [apply mem_wf_add; auto|exact HC].
  - unfold vd_insert_branch. destruct (mem_insert_branch (vd_batch v) p m depth) as [b o] eqn:E. cbn [fst].
    split; cbn [vd_batch vd_cache].
    + change b with (fst (b, o)). rewrite <- E. apply mem_wf_branch; auto.
    + destruct (depth <=? CACHE_DEPTH); [apply mem_wf_branch; auto|exact HC].
  - split; [apply mem_wf_new|exact HC].
Qed.

Lemma wop_run_snoc v ws w : wop_run v (ws ++ [w]) = wop_step (wop_run v ws) w.
Proof. unfold wop_run. rewrite fold_left_app. reflexivity. Qed.

(** A state obtained from [v] by a sequence of writes. *)
Definition from (v v' : VerkleDb) : Prop :=
  vd_wf v' /\ exists ws, Forall (fun w => wop_flush w = false /\ wop_wf w) ws /\ v' = wop_run v ws.

Lemma from_step v v' w : wop_flush w = false -> wop_wf w -> from v v' -> from v (wop_step v' w).
Proof.
  intros H1 H2 (Hw & ws & Hf & ->). split; [apply wop_step_wf; auto|].
  exists (ws ++ [w]). split; [apply Forall_app; split; [exact Hf|constructor; [auto|constructor]]|].
  symmetry. apply wop_run_snoc.
Qed.

Lemma disk_child_stem d p i s : disk_get_branch_child d p i = Ok (Some (CStem s)) -> length s = 31%nat.
Proof.
  unfold disk_get_branch_child. destruct (d (branch_dkey (p ++ [i]))) as [b|]; [|discriminate].
  unfold unwrap_res, branch_child_from_bytes. destruct (Nat.eqb_spec (length b) 31) as [E|E].
  - cbn. intros H. injection H as <-. exact E.
  - destruct (branch_meta_from_bytes b) as [[m|]|]; cbn; discriminate.
Qed.

Lemma vd_child_stem v p i s : vd_wf v -> vd_get_branch_child v p i = Ok (Some (CStem s)) -> length s = 31%nat.
Proof.
  intros [[_ HB] [_ HC]]. unfold vd_get_branch_child, mem_get_branch_child.
  destruct (branch_table (vd_cache v) (p ++ [i])) as [c|] eqn:E1.
  - intros H. injection H as ->. eapply HC; eauto.
  - destruct (branch_table (vd_batch v) (p ++ [i])) as [c|] eqn:E2.
    + intros H. injection H as ->. eapply HB; eauto.
    + apply disk_child_stem.
Qed.

Lemma from_insert v v0 k x v' : from v v0 -> is_key k -> length x = 32%nat ->
  insert_single v0 (k, x) = Ok v' -> from v v'.
Proof.
  intros H0 Hk Hx. intros E. apply (cl_insert (D := verkle_db_ops) (from v)) with (db := v0) (k := k) (v := x); auto.
  - intros db k0 v1 d HQ Hl. exact (from_step v db (WLeaf k0 v1 d) eq_refl Hl HQ).
  - intros db k0 m d HQ. exact (from_step v db (WStem k0 m d) eq_refl I HQ).
  - intros db p s d HQ Hl. exact (from_step v db (WAddStem p s d) eq_refl Hl HQ).
  - intros db p m d HQ. exact (from_step v db (WBranch p m d) eq_refl I HQ).
  - intros db p i s [HQ _] Ec. exact (vd_child_stem db p i s HQ Ec).
Qed.

Lemma from_refl v : vd_wf v -> from v v.
Proof. intros H. split; [exact H|]. exists []. split; [constructor|reflexivity]. Qed.

Lemma from_new v v' : vd_wf v -> trie_new v = Ok v' -> from v v'.
Proof.
  intros Hw E. apply (cl_new (D := verkle_db_ops) (from v)) with (db := v); [|apply from_refl; exact Hw|exact E].
  intros db p m d HQ. exact (from_step v db (WBranch p m d) eq_refl I HQ).
Qed.

Lemma open_wf d : vd_wf (verkle_open d).
Proof. split; apply mem_wf_new. Qed.

Lemma op_run_wf l : forall v v', vd_wf v -> wf_ops l -> op_run v l = Ok v' -> vd_wf v'.
Proof.
  induction l as [|o l IH]; intros v v' Hv Hwf E; cbn [op_run] in E; [congruence|].
  apply rbind_ok in E as (v1 & E1 & E). apply IH with v1; auto.
  - destruct o as [k x| |]; cbn [op_step] in E1.
    + destruct (Hwf k x (or_introl eq_refl)). eapply (from_insert v v k x v1); eauto. apply from_refl; exact Hv.
    + injection E1 as <-. destruct Hv. split; [apply mem_wf_new|assumption].
    + apply (from_new _ _ (open_wf _) E1).
  - intros k x Hin. apply (Hwf k x). right; exact Hin.
Qed.

Lemma run_disk_wf l v : wf_ops l -> run_disk l = Ok v -> vd_wf v.
Proof.
  intros Hwf E. unfold run_disk in E. apply rbind_ok in E as (v0 & E0 & E).
  eapply op_run_wf; [|exact Hwf|exact E]. apply (from_new _ _ (open_wf _) E0).
Qed.

Lemma run_disk_encodable {CL : CodecLaws C} l v : wf_ops l -> run_disk l = Ok v -> encodable (vd_batch v).
Proof.
  intros Hwf E. destruct (run_disk_wf l v Hwf E) as [[H1 H2] _]. apply encodable_of_laws; assumption.
Qed.

(** *** Crashes *)
Lemma wop_storage ws : forall v, Forall (fun w => wop_flush w = false) ws -> vd_storage (wop_run v ws) = vd_storage v.
Proof.
  induction ws as [|w ws IH]; intros v H; [reflexivity|]. inversion H as [|? ? H1 H2]; subst.
  unfold wop_run in *. cbn [fold_left]. rewrite IH by exact H2.
  destruct w; cbn [wop_step wop_flush] in *; try discriminate; reflexivity.
Qed.

Lemma insert_is_writes v k x v' : vd_wf v -> is_key k -> length x = 32%nat -> insert_single v (k, x) = Ok v' ->
  exists ws, Forall (fun w => wop_flush w = false) ws /\ v' = wop_run v ws.
Proof.
  intros Hw Hk Hx E. destruct (from_insert v v k x v' (from_refl v Hw) Hk Hx E) as (_ & ws & Hf & ->).
  exists ws. split; [|reflexivity]. eapply Forall_impl; [|exact Hf]. intros w [H _]. exact H.
Qed.

Lemma inserts_storage l : forall v v', vd_wf v -> wf_ops l -> forallb is_insert l = true ->
  op_run v l = Ok v' -> vd_storage v' = vd_storage v.
Proof.
  induction l as [|o l IH]; intros v v' Hv Hwf Hi E; cbn [op_run] in E; [congruence|].
  cbn [forallb] in Hi. apply andb_true_iff in Hi as [Hi1 Hi2]. destruct o as [k x| |]; try discriminate.
  apply rbind_ok in E as (v1 & E1 & E). cbn [op_step] in E1.
  destruct (Hwf k x (or_introl eq_refl)) as [Hk Hx].
  destruct (insert_is_writes v k x v1 Hv Hk Hx E1) as (ws & Hf & ->).
  rewrite (IH (wop_run v ws) v'); [apply wop_storage; exact Hf| | |exact Hi2|exact E].
  - apply (from_insert v v k x _ (from_refl v Hv) Hk Hx E1).
  - intros k0 x0 Hin. apply (Hwf k0 x0). right; exact Hin.
Qed.

Lemma op_run_app l1 : forall v l2, op_run v (l1 ++ l2) = rbind (op_run v l1) (fun v1 => op_run v1 l2).
Proof.
  induction l1 as [|o l1 IH]; intros v l2; [reflexivity|]. cbn [app op_run].
  destruct (op_step v o); cbn [rbind]; [apply IH|reflexivity].
Qed.

Lemma run_disk_app l1 l2 : run_disk (l1 ++ l2) = rbind (run_disk l1) (fun v1 => op_run v1 l2).
Proof. unfold run_disk. destruct (trie_new (verkle_open bempty)); cbn [rbind]; [apply op_run_app|reflexivity]. Qed.

(** The reads of a database whose cache is ignored. *)
Lemma crash_reads {CL : CodecLaws C} l1 l2 v1 v2 ws :
  wf_ops (l1 ++ l2) -> forallb is_insert l2 = true ->
  run_disk (l1 ++ [OFlush]) = Ok v1 -> op_run v1 l2 = Ok v2 ->
  Forall (fun w => wop_flush w = false) ws ->
  vd_storage (wop_run v2 ws) = vd_storage v1 /\
  same_reads (verkle_open (vd_storage (wop_run v2 ws))) (nocache v1).
Proof.
  intros Hwf Hi E1 E2 Hws.
  assert (Hv1 : vd_wf v1).
  { apply (run_disk_wf (l1 ++ [OFlush])); [|exact E1]. intros k x Hin. apply (Hwf k x).
    apply in_app_or in Hin as [Hin|[Hin|[]]]; [apply in_or_app; left; exact Hin|discriminate]. }
  assert (Es : vd_storage (wop_run v2 ws) = vd_storage v1).
  { rewrite wop_storage by exact Hws. apply (inserts_storage l2); auto.
    intros k x Hin. apply (Hwf k x). apply in_or_app; right; exact Hin. }
  split; [exact Es|]. rewrite Es.
  rewrite run_disk_app in E1. apply rbind_ok in E1 as (v0 & _ & E1). cbn in E1. injection E1 as <-.
  unfold nocache, verkle_open, verkle_flush. cbn [vd_storage vd_batch]. repeat split.
Qed.

Lemma crash_before_flush l v ws : wf_ops l -> forallb is_insert l = true -> run_disk l = Ok v ->
  Forall (fun w => wop_flush w = false) ws ->
  vd_storage (wop_run v ws) = bempty /\ trie_new (verkle_open (vd_storage (wop_run v ws))) = run_disk [].
Proof.
  intros Hwf Hi E Hws.
  assert (Es : vd_storage (wop_run v ws) = bempty).
  { rewrite wop_storage by exact Hws. unfold run_disk in E. apply rbind_ok in E as (v0 & E0 & E).
    destruct (from_new _ _ (open_wf _) E0) as (Hv0 & ws0 & Hf & Ev0).
    rewrite (inserts_storage l v0 v Hv0 Hwf Hi E), Ev0, wop_storage; [reflexivity|].
    eapply Forall_impl; [|exact Hf]. intros w [H _]; exact H. }
  split; [exact Es|]. rewrite Es. unfold run_disk. cbn [op_run].
  destruct (trie_new (verkle_open bempty)); reflexivity.
Qed.
End Reach.

(** ** Durable contents *)
Section Durable.
Context {A : Alg} {L : AlgLaws A} {P : Par A} {PL : ParLaws P} {C : Codec A} {CL : CodecLaws C}.

Lemma phases_app l1 : forall fl pe l2,
  phases fl pe (l1 ++ l2) = phases (fst (phases fl pe l1)) (snd (phases fl pe l1)) l2.
Proof. induction l1 as [|o l1 IH]; intros; [reflexivity|]. destruct o; cbn [app phases]; apply IH. Qed.

Lemma contents_reopen l : contents (l ++ [OReopen]) = durable l.
Proof. unfold contents, durable. rewrite phases_app. cbn [phases]. apply app_nil_r. Qed.

Lemma crash_history l : wf_ops l -> settled_ops l -> no_rewrite l ->
  exists v db, run_disk (l ++ [OReopen]) = Ok v /\ run_mem (durable l) = Ok db /\
    root_commitment v = root_commitment db /\ root_hash v = root_hash db /\
    (forall k, trie_get v k = trie_get db k).
Proof.
  intros Hwf Hsp Hnr. rewrite <- contents_reopen.
  assert (Hin : forall k x, In (OInsert k x) (l ++ [OReopen]) -> In (OInsert k x) l).
  { intros k x H. apply in_app_or in H as [H|[H|[]]]; [exact H|discriminate]. }
  assert (Hcut : forall l1 k x l2, l ++ [OReopen] = l1 ++ OInsert k x :: l2 -> exists l3, l = l1 ++ OInsert k x :: l3).
  { intros l1 k x l2 E. destruct (@exists_last _ l2) as (l3 & o & ->).
    + intros ->. assert (X : OReopen = OInsert k x); [|discriminate].
      change (l1 ++ [OInsert k x]) with (l1 ++ [OInsert k x]) in E. apply app_inj_tail in E as [_ E]. exact E.
    + exists l3. change (l1 ++ OInsert k x :: l3 ++ [o]) with (l1 ++ (OInsert k x :: l3) ++ [o]) in E.
      rewrite app_assoc in E. apply app_inj_tail in E as [E _]. exact E. }
  apply disk_like_mem.
  - intros k x H. apply Hwf, Hin, H.
  - intros l1 k x l2 E. destruct (Hcut _ _ _ _ E) as [l3 E3]. exact (Hsp l1 k x l3 E3).
  - intros l1 k x l2 E. destruct (Hcut _ _ _ _ E) as [l3 E3]. exact (Hnr l1 k x l3 E3).
Qed.
End Durable.

(** ** Listing children (C12) *)
Section Listing.
Context {A : Alg} {P : Par A} {C : Codec A}.

Lemma byte_range_In i : In i byte_range <-> 0 <= i < 256.
Proof.
  unfold byte_range. rewrite in_map_iff. split.
  - intros (n & <- & H). apply in_seq in H. lia.
  - intros H. exists (Z.to_nat i). split; [lia|]. apply in_seq. lia.
Qed.
Lemma byte_range_NoDup : NoDup byte_range.
Proof. unfold byte_range. apply FinFun.Injective_map_NoDup; [intros a b; lia|apply seq_NoDup]. Qed.

Lemma collect_In {V} (get : Z -> option V) i c : In (i, c) (collect_children get) <-> 0 <= i < 256 /\ get i = Some c.
Proof.
  unfold collect_children. rewrite in_flat_map. rewrite <- byte_range_In. split.
  - intros (j & Hj & H). destruct (get j) eqn:E; [|destruct H]. destruct H as [H|[]]. injection H as -> ->. auto.
  - intros [H1 H2]. exists i. split; [exact H1|]. rewrite H2. left; reflexivity.
Qed.
Lemma flat_NoDup {V} (get : Z -> option V) l : NoDup l ->
  NoDup (map fst (flat_map (fun i => match get i with Some v => [(i, v)] | None => [] end) l)).
Proof.
  induction 1 as [|i l Hi Hl IH]; [constructor|]. cbn [flat_map]. destruct (get i) as [v|]; [|exact IH].
  cbn [app map fst]. constructor; [|exact IH]. intros H. apply in_map_iff in H as ([j w] & E & H). cbn in E. subst j.
  apply in_flat_map in H as (j & Hj & H). destruct (get j); [|destruct H]. destruct H as [H|[]]. injection H as -> ->. auto.
Qed.
Lemma collect_NoDup {V} (get : Z -> option V) : NoDup (map fst (collect_children get)).
Proof. apply flat_NoDup, byte_range_NoDup. Qed.

(** [HashMap] as an association list without duplicate keys. *)
Lemma hm_insert_In {V} (m : list (Z * V)) i v j w : NoDup (map fst m) ->
  (In (j, w) (hm_insert m i v) <-> (j = i /\ w = v) \/ (j <> i /\ In (j, w) m)).
Proof.
  induction m as [|[a b] m IH]; cbn [hm_insert map fst]; intros H.
  - cbn. split; [intros [E|[]]; injection E as <- <-; auto|intros [[-> ->]|[_ []]]; auto].
  - inversion H as [|? ? Ha Hm]; subst. destruct (Z.eqb_spec i a) as [<-|Hn]; cbn [In].
    + split.
      * intros [E|E]; [injection E as <- <-; auto|]. right. split; [|auto]. intros ->. apply Ha.
        change i with (fst (i, w)). apply in_map. exact E.
      * intros [[-> ->]|[N [E|E]]]; auto. injection E as <- <-. congruence.
    + rewrite IH by exact Hm. split.
      * intros [E|[E|E]]; [injection E as <- <-; right; split; [congruence|auto]|auto|]. right. tauto.
      * intros [E|[N [E|E]]]; auto.
Qed.
Lemma hm_insert_keys {V} (m : list (Z * V)) i v j : In j (map fst (hm_insert m i v)) -> j = i \/ In j (map fst m).
Proof.
  induction m as [|[a b] m IH]; cbn [hm_insert map fst In].
  - intros [E|[]]; auto.
  - destruct (i =? a); cbn [map fst In]; intros [E|E]; auto. destruct (IH E); auto.
Qed.
Lemma hm_insert_NoDup {V} (m : list (Z * V)) i v : NoDup (map fst m) -> NoDup (map fst (hm_insert m i v)).
Proof.
  induction m as [|[a b] m IH]; cbn [hm_insert map fst]; intros H.
  - repeat constructor. intros [].
  - inversion H as [|? ? Ha Hm]; subst. destruct (Z.eqb_spec i a) as [<-|Hn]; cbn [map fst]; constructor; auto.
    intros E. apply hm_insert_keys in E as [E|E]; [congruence|auto].
Qed.
Lemma hm_collect_spec {V} (l : list (Z * V)) : forall m, NoDup (map fst m) -> NoDup (map fst l) ->
  NoDup (map fst (hm_collect m l)) /\
  forall j w, In (j, w) (hm_collect m l) <-> In (j, w) l \/ (~ In j (map fst l) /\ In (j, w) m).
Proof.
  induction l as [|[i v] l IH]; intros m Hm Hl.
  - split; [exact Hm|]. intros j w. cbn. tauto.
  - inversion Hl as [|? ? Hi Hl']; subst. cbn [hm_collect fold_left fst snd].
    destruct (IH (hm_insert m i v) (hm_insert_NoDup m i v Hm) Hl') as [N1 N2].
    split; [exact N1|]. intros j w. unfold hm_collect in *. rewrite N2. rewrite hm_insert_In by exact Hm.
    cbn [In map fst]. split.
    + intros [H|[H [[-> ->]|[H1 H2]]]]; [left; right; exact H|left; left; reflexivity|].
      right. split; [intros [E|E]; auto|exact H2].
    + intros [[E|H]|[H1 H2]]; [|left; exact H|].
      * injection E as <- <-. right. split; [exact Hi|left; auto].
      * right. split; [tauto|]. right. split; [intros ->; apply H1; left; reflexivity|exact H2].
Qed.

Lemma collect_res_spec {V} (get : Z -> res (option V)) l : forall r, collect_res get l = Ok r ->
  (forall i, In i l -> exists o, get i = Ok o) /\
  r = flat_map (fun i => match (match get i with Ok o => o | Panic => None end) with Some v => [(i, v)] | None => [] end) l.
Proof.
  induction l as [|i l IH]; intros r E; cbn [collect_res] in E.
  - injection E as <-. split; [intros i []|reflexivity].
  - apply rbind_ok in E as (o & E1 & E). apply rbind_ok in E as (r1 & E2 & E). destruct (IH r1 E2) as [H1 H2].
    injection E as <-. split.
    + intros j [<-|Hj]; eauto.
    + cbn [flat_map]. rewrite E1, <- H2. destruct o; reflexivity.
Qed.

Lemma mem_children_lists db p : lists (mem_get_branch_children db p) (fun i => Ok (mem_get_branch_child db p i)).
Proof.
  split; [apply collect_NoDup|]. intros i c. unfold mem_get_branch_children. rewrite collect_In.
  unfold mem_get_branch_child. split; intros [H1 H2]; (split; [exact H1|congruence]).
Qed.
Lemma mem_stem_children_lists db s : lists (mem_get_stem_children db s) (fun i => Ok (mem_get_leaf db (s ++ [i]))).
Proof.
  split; [apply collect_NoDup|]. intros i c. unfold mem_get_stem_children. rewrite collect_In.
  unfold mem_get_leaf. split; intros [H1 H2]; (split; [exact H1|congruence]).
Qed.

(** Disk listing overridden by batch listing. *)
Lemma merged_lists {V} (disk : Z -> res (option V)) (batch : Z -> option V) l :
  collect_res disk byte_range = Ok l ->
  lists (hm_collect (hm_collect [] l) (collect_children batch))
    (fun i => match batch i with Some x => Ok (Some x) | None => disk i end).
Proof.
  intros E. apply collect_res_spec in E as [Hok ->].
  set (g := fun i => match disk i with Ok o => o | Panic => None end).
  change (lists (hm_collect (hm_collect [] (collect_children g)) (collect_children batch))
    (fun i => match batch i with Some x => Ok (Some x) | None => disk i end)).
  destruct (hm_collect_spec (collect_children g) [] (NoDup_nil _) (collect_NoDup g)) as [N1 S1].
  destruct (hm_collect_spec (collect_children batch) _ N1 (collect_NoDup batch)) as [N2 S2].
  split; [exact N2|]. intros i c. rewrite S2, S1, !collect_In. cbn [In].
  assert (Hk : In i (map fst (collect_children batch)) <-> 0 <= i < 256 /\ batch i <> None).
  { rewrite in_map_iff. split.
    - intros ([j w] & E & H). cbn in E. subst j. apply collect_In in H as [H1 H2]. split; [exact H1|congruence].
    - intros [H1 H2]. destruct (batch i) as [w|] eqn:E; [|congruence]. exists (i, w). split; [reflexivity|].
      apply collect_In. auto. }
  rewrite Hk. unfold g. split.
  - intros [[H1 H2]|[H1 [[H2 H3]|[_ []]]]].
    + rewrite H2. auto.
    + split; [exact H2|]. destruct (batch i) eqn:Eb; [exfalso; apply H1; split; [exact H2|congruence]|].
      destruct (disk i) as [o|] eqn:Ed; [congruence|discriminate].
  - intros [H1 H2]. destruct (batch i) as [w|] eqn:Eb.
    + left. split; [exact H1|congruence].
    + right. split; [intros [_ X]; congruence|]. left. split; [exact H1|]. rewrite H2. reflexivity.
Qed.

Lemma vd_children_deep v p l : 4 < Z.of_nat (length p) < 256 ->
  (forall i, mem_get_branch_child (vd_cache v) p i = None) ->
  vd_get_branch_children v p = Ok l -> lists l (vd_get_branch_child v p).
Proof.
  intros Hp Hc E. unfold vd_get_branch_children in E. rewrite Z.mod_small in E by lia.
  destruct (Z.leb_spec (Z.of_nat (length p)) CACHE_DEPTH); [unfold CACHE_DEPTH in *; lia|].
  apply rbind_ok in E as (l0 & E0 & E). injection E as <-.
  destruct (merged_lists _ (fun i => branch_table (vd_batch v) (p ++ [i])) l0 E0) as [N M].
  split; [exact N|]. intros i c. unfold vd_get_branch_child. rewrite Hc. apply M.
Qed.
Lemma vd_children_cached v p l : Z.of_nat (length p) <= 4 ->
  (forall i, 0 <= i < 256 -> vd_get_branch_child v p i = Ok (mem_get_branch_child (vd_cache v) p i)) ->
  vd_get_branch_children v p = Ok l -> lists l (vd_get_branch_child v p).
Proof.
  intros Hp Hc E. unfold vd_get_branch_children in E. rewrite Z.mod_small in E by lia.
  destruct (Z.leb_spec (Z.of_nat (length p)) CACHE_DEPTH); [|unfold CACHE_DEPTH in *; lia].
  injection E as <-. destruct (mem_children_lists (vd_cache v) p) as [N M]. split; [exact N|].
  intros i c. rewrite M. split; intros [H1 H2]; (split; [exact H1|]).
  - rewrite Hc by exact H1. exact H2.
  - rewrite Hc in H2 by exact H1. exact H2.
Qed.
Lemma vd_stem_children_uncached v s l : (forall i, mem_get_leaf (vd_cache v) (s ++ [i]) = None) ->
  vd_get_stem_children v s = Ok l -> lists l (fun i => vd_get_leaf v (s ++ [i])).
Proof.
  intros Hc E. unfold vd_get_stem_children in E.
  assert (Hn : mem_get_stem_children (vd_cache v) s = []).
  { destruct (mem_get_stem_children (vd_cache v) s) as [|[i c] r] eqn:En; [reflexivity|].
    destruct (mem_stem_children_lists (vd_cache v) s) as [_ M].
    assert (X : In (i, c) (mem_get_stem_children (vd_cache v) s)) by (rewrite En; left; reflexivity).
    apply M in X as [_ X]. rewrite Hc in X. discriminate. }
  rewrite Hn in E. apply rbind_ok in E as (l0 & E0 & E). injection E as <-.
  destruct (merged_lists _ (fun i => leaf_table (vd_batch v) (s ++ [i])) l0 E0) as [N M].
  split; [exact N|]. intros i c. unfold vd_get_leaf. rewrite Hc. apply M.
Qed.
Lemma vd_stem_children_cached v s l :
  (forall i, 0 <= i < 256 -> vd_get_leaf v (s ++ [i]) = Ok (mem_get_leaf (vd_cache v) (s ++ [i]))) ->
  (exists i, 0 <= i < 256 /\ mem_get_leaf (vd_cache v) (s ++ [i]) <> None) ->
  vd_get_stem_children v s = Ok l -> lists l (fun i => vd_get_leaf v (s ++ [i])).
Proof.
  intros Hc (i0 & Hi0 & H0) E. unfold vd_get_stem_children in E.
  destruct (mem_stem_children_lists (vd_cache v) s) as [N M].
  destruct (mem_get_stem_children (vd_cache v) s) as [|x r] eqn:En.
  - destruct (mem_get_leaf (vd_cache v) (s ++ [i0])) as [w|] eqn:Ew; [|congruence].
    destruct (proj2 (M i0 w)); [split; [exact Hi0|rewrite Ew; reflexivity]|..].
  - injection E as <-. split; [exact N|]. intros i c. rewrite M. split; intros [H1 H2]; (split; [exact H1|]).
    + rewrite Hc by exact H1. exact H2.
    + rewrite Hc in H2 by exact H1. exact H2.
Qed.
End Listing.

(** ** Disk keys (C13) *)
Section Keys.
Context {A : Alg} {P : Par A} {C : Codec A}.

Lemma rec_key_inj r1 r2 : rec_key r1 = rec_key r2 -> r1 = r2.
Proof.
  destruct r1, r2; cbn; unfold leaf_dkey, stem_dkey, branch_dkey, LEAF_TABLE_MARKER, STEM_TABLE_MARKER, BRANCH_TABLE_MARKER;
    intros E; congruence.
Qed.

Lemma disk_flush_app d a b : disk_flush d (a ++ b) = disk_flush (disk_flush d a) b.
Proof. unfold disk_flush. apply fold_left_app. Qed.

Lemma bput_other d b w k : k <> rec_key (bput_rec w) -> disk_flush d (bput b w) k = disk_flush d b k.
Proof.
  intros Hk. destruct w; cbn [bput bput_rec rec_key] in *;
    unfold bw_insert_leaf, bw_insert_stem, bw_add_stem, bw_insert_branch, batch_put; rewrite disk_flush_app;
    unfold disk_flush at 1; cbn [fold_left fst snd]; unfold upd; rewrite (proj2 (beqb_neq _ _)) by congruence; reflexivity.
Qed.

Lemma bput_frame d b w :
  (forall k, RLeaf k <> bput_rec w -> disk_get_leaf (disk_flush d (bput b w)) k = disk_get_leaf (disk_flush d b) k) /\
  (forall s, RStem s <> bput_rec w -> disk_get_stem_meta (disk_flush d (bput b w)) s = disk_get_stem_meta (disk_flush d b) s) /\
  (forall p, RBranch p <> bput_rec w -> disk_get_branch_meta (disk_flush d (bput b w)) p = disk_get_branch_meta (disk_flush d b) p) /\
  (forall p i, RBranch (p ++ [i]) <> bput_rec w ->
     disk_get_branch_child (disk_flush d (bput b w)) p i = disk_get_branch_child (disk_flush d b) p i).
Proof.
  assert (H : forall r, r <> bput_rec w -> disk_flush d (bput b w) (rec_key r) = disk_flush d b (rec_key r)).
  { intros r Hr. apply bput_other. intros E. apply Hr, rec_key_inj, E. }
  repeat split.
  - intros k Hk. unfold disk_get_leaf. pose proof (H (RLeaf k) Hk) as E; cbn [rec_key] in E; rewrite E. reflexivity.
  - intros k Hk. unfold disk_get_stem_meta. pose proof (H (RStem k) Hk) as E; cbn [rec_key] in E; rewrite E. reflexivity.
  - intros k Hk. unfold disk_get_branch_meta. pose proof (H (RBranch k) Hk) as E; cbn [rec_key] in E; rewrite E. reflexivity.
  - intros k i Hk. unfold disk_get_branch_child. pose proof (H (RBranch (k ++ [i])) Hk) as E; cbn [rec_key] in E; rewrite E. reflexivity.
Qed.

Lemma bput_at d b w : disk_flush d (bput b w) (rec_key (bput_rec w)) =
  Some match w with PLeaf _ v => v | PStem _ m => stem_meta_to_bytes m | PAdd _ s => s | PBranch _ m => branch_meta_to_bytes m end.
Proof.
  destruct w; cbn [bput bput_rec rec_key];
    unfold bw_insert_leaf, bw_insert_stem, bw_add_stem, bw_insert_branch, batch_put; rewrite disk_flush_app;
    unfold disk_flush at 1; cbn [fold_left fst snd]; unfold upd; rewrite beqb_refl; reflexivity.
Qed.
Lemma bput_read {CL : CodecLaws C} d b :
  (forall k v, length v = 32%nat -> disk_get_leaf (disk_flush d (bput b (PLeaf k v))) k = Ok (Some v)) /\
  (forall s m, disk_get_stem_meta (disk_flush d (bput b (PStem s m))) s = Ok (Some m)) /\
  (forall p m, disk_get_branch_meta (disk_flush d (bput b (PBranch p m))) p = Ok (Some m)) /\
  (forall p i m, disk_get_branch_child (disk_flush d (bput b (PBranch (p ++ [i]) m))) p i = Ok (Some (CBranch m))) /\
  (forall p i s, length s = 31%nat -> disk_get_branch_child (disk_flush d (bput b (PAdd (p ++ [i]) s))) p i = Ok (Some (CStem s))).
Proof.
  repeat split.
  - intros k v Hv. unfold disk_get_leaf. pose proof (bput_at d b (PLeaf k v)) as E. cbn [bput_rec rec_key] in E.
    rewrite E. unfold disk_value. rewrite Hv. reflexivity.
  - intros s m. unfold disk_get_stem_meta. pose proof (bput_at d b (PStem s m)) as E. cbn [bput_rec rec_key] in E.
    rewrite E. unfold unwrap_res. rewrite stem_meta_rt. reflexivity.
  - intros p m. unfold disk_get_branch_meta. pose proof (bput_at d b (PBranch p m)) as E. cbn [bput_rec rec_key] in E.
    rewrite E. unfold unwrap_res. rewrite branch_meta_rt. reflexivity.
  - intros p i m. unfold disk_get_branch_child. pose proof (bput_at d b (PBranch (p ++ [i]) m)) as E. cbn [bput_rec rec_key] in E.
    rewrite E. unfold unwrap_res. pose proof (branch_child_rt (CBranch m) I) as R. cbn [branch_child_to_bytes] in R. rewrite R. reflexivity.
  - intros p i s Hs. unfold disk_get_branch_child. pose proof (bput_at d b (PAdd (p ++ [i]) s)) as E. cbn [bput_rec rec_key] in E.
    rewrite E. unfold unwrap_res. pose proof (branch_child_rt (CStem s) Hs) as R. cbn [branch_child_to_bytes] in R. rewrite R. reflexivity.
Qed.
End Keys.
