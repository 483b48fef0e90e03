(** [build_subtree] computes the inner node over the given stems. *)
From Coq Require Import Permutation.
From Verif Require Import Base BaseFacts Alg AlgFacts TreeSpec TreeFacts TrieModel TrieProofs BTree WireModel ProofModel IpaModel StatelessModel.

Lemma skipn_plus {X} a b (l : list X) : skipn (a + b) l = skipn b (skipn a l).
Proof. revert l. induction a as [|a IH]; intros [|x l]; cbn; auto. now destruct b. Qed.

Section Subtree.
Context {A : Alg} {L : AlgLaws A} {P : Par A} {PL : ParLaws P}.
Add Ring Fring : F_ring.
Add Ring dnring : dn_ring.
Opaque vcommit gsum subtree_hash.
Context (m : bytes -> option bytes) (p : bytes) (Hp : (length p < 31)%nat).

(** The nodes of the subtree over [S], by path relative to [p]. *)
Definition sint (S : list bytes) (q : bytes) : bool :=
  match q with [] => true | _ => (2 <=? length (under S (p ++ q)))%nat end.
Definition ctree (S : list bytes) (q : bytes) : option SNode :=
  if sint S q then Some (SInner (inner_comm m S (p ++ q)))
  else if sint S (removelast q) then
    match under S (p ++ q) with [t] => Some (SStem t (ext_comm m t)) | _ => None end
  else None.

Lemma has_prefix_cancel q r : has_prefix (p ++ q) (p ++ r) = has_prefix q r.
Proof.
  destruct (has_prefix q r) eqn:E.
  - apply has_prefix_spec in E as [t ->]. apply has_prefix_spec. exists t. now rewrite app_assoc.
  - apply not_true_iff_false. intro H. apply has_prefix_spec in H as [t H]. rewrite <- app_assoc in H.
    apply app_inv_head in H. subst r. apply not_true_iff_false in E. apply E, has_prefix_spec. eauto.
Qed.

Lemma under_cons S s x : under (s :: S) x = if has_prefix x s then s :: under S x else under S x.
Proof. reflexivity. Qed.

(** The first difference of two lists of equal length. *)
Lemma extend_ok : forall (o b : bytes) (tree : STree) path, length o = length b -> o <> b ->
  exists d tree', (d < length b)%nat /\ firstn d o = firstn d b /\ nth d o 0 <> nth d b 0 /\
  sub_extend tree path o b = Ok (tree', path ++ firstn d b, nth d o 0, nth d b 0) /\
  forall q, tree' q = if ((length path <? length q) && (length q <=? length path + d) && has_prefix q (path ++ b))%nat%bool
                      then Some (SInner gzero) else tree q.
Proof.
  induction o as [|x o IH]; intros [|y b] tree path Hl Hn; try discriminate; [contradiction|].
  injection Hl as Hl. cbn [sub_extend]. destruct (Z.eqb_spec x y) as [->|Hxy].
  - assert (Hn' : o <> b) by congruence.
    destruct (IH b (upd tree (path ++ [y]) (SInner gzero)) (path ++ [y]) Hl Hn') as (d & tree' & H1 & H2 & H3 & H4 & H5).
    exists (Datatypes.S d), tree'. cbn [length firstn nth]. split; [lia|]. split; [now rewrite H2|]. split; [exact H3|].
    split; [rewrite H4, <- app_assoc; reflexivity|].
    intro q. rewrite H5, <- app_assoc. cbn [app]. rewrite app_length. cbn [length].
    destruct (has_prefix q (path ++ y :: b)) eqn:Eq; rewrite ?andb_false_r, ?andb_true_r.
    + destruct (Nat.ltb_spec (length path + 1) (length q)) as [C1|C1].
      * destruct (Nat.ltb_spec (length path) (length q)) as [C2|C2]; [|lia]. cbn [andb].
        replace (length path + Datatypes.S d)%nat with (length path + 1 + d)%nat by lia.
        destruct (length q <=? length path + 1 + d)%nat; auto. apply upd_other. intro E.
        apply (f_equal (@length Z)) in E. rewrite app_length in E. cbn in E. lia.
      * cbn [andb]. destruct (Nat.ltb_spec (length path) (length q)) as [C2|C2].
        -- destruct (Nat.leb_spec (length q) (length path + Datatypes.S d)) as [C3|C3]; [|lia]. cbn [andb].
           assert (q = path ++ [y]) as ->.
           { rewrite (has_prefix_eq _ _ Eq). replace (length q) with (length path + 1)%nat by lia.
             now rewrite firstn_app_2. }
           now rewrite upd_same.
        -- cbn [andb]. apply upd_other. intro E. apply (f_equal (@length Z)) in E. rewrite app_length in E. cbn in E. lia.
    + apply upd_other. intro E. rewrite <- E in Eq. apply not_true_iff_false in Eq. apply Eq, has_prefix_spec. exists b.
      now rewrite <- app_assoc.
  - exists 0%nat, tree. cbn [firstn nth length]. rewrite app_nil_r. split; [lia|]. split; [reflexivity|]. split; [exact Hxy|].
    split; [reflexivity|]. intro q.
    destruct (Nat.ltb_spec (length path) (length q)), (Nat.leb_spec (length q) (length path + 0)); cbn [andb]; try lia; auto.
Qed.

Section Step.
Context (S : list bytes) (W : wfS S) (r : bytes) (Hr : is_stem (p ++ r)) (Hnew : ~ In (p ++ r) S).
Let s := p ++ r.
Let S' := s :: S.

Lemma sub_len_r : (length p + length r = 31)%nat.
Proof. destruct Hr as [H _]. rewrite app_length in H. exact H. Qed.

Lemma sub_W' : wfS S'.
Proof. destruct W as [H1 H2]. split; constructor; auto. Qed.

Lemma sub_byte i : (i < length r)%nat -> 0 <= nth i r 0 < 256.
Proof.
  intro H. destruct Hr as [_ H1]. apply is_bytes_app in H1 as [_ H1]. unfold is_bytes in H1.
  rewrite Forall_forall in H1. apply H1, nth_In, H.
Qed.

Lemma under_new q : under S' (p ++ q) = if has_prefix q r then s :: under S (p ++ q) else under S (p ++ q).
Proof. unfold S'. rewrite under_cons. unfold s. now rewrite has_prefix_cancel. Qed.

Lemma hp_firstn i : has_prefix (firstn i r) r = true.
Proof. apply has_prefix_firstn. Qed.

Lemma hp_eq q : has_prefix q r = true -> q = firstn (length q) r.
Proof. apply has_prefix_eq. Qed.

Lemma sint_mono q : sint S q = true -> sint S' q = true.
Proof.
  unfold sint. destruct q; auto. rewrite !Nat.leb_le, under_new. destruct (has_prefix _ r); cbn [length]; lia.
Qed.

Lemma sint_other q : has_prefix q r = false -> sint S' q = sint S q.
Proof. intro H. unfold sint. destruct q; auto. now rewrite under_new, H. Qed.

Lemma inner_other_s q : has_prefix q r = false -> inner_comm m S' (p ++ q) = inner_comm m S (p ++ q).
Proof.
  intro H. apply inner_comm_congr; [rewrite under_new, H; apply Permutation_refl|]. intros t _ i _. reflexivity.
Qed.

Lemma cval_other_s q : has_prefix q r = false -> cval m S' (p ++ q) = cval m S (p ++ q).
Proof.
  intro H. apply cval_congr; [rewrite under_new, H; apply Permutation_refl|]. intros t _ i _. reflexivity.
Qed.

(** Nodes off the path of the new stem, below an unchanged parent. *)
Lemma ctree_other q : has_prefix q r = false ->
  (has_prefix (removelast q) r = true -> sint S' (removelast q) = sint S (removelast q)) ->
  ctree S' q = ctree S q.
Proof.
  intros H H1. unfold ctree. rewrite (sint_other q H), (inner_other_s q H), under_new, H.
  destruct (has_prefix (removelast q) r) eqn:E; [rewrite H1 by reflexivity; reflexivity|].
  now rewrite (sint_other _ E).
Qed.

Lemma cval_many_s T q : wfS T -> q <> [] -> sint T q = true -> cval m T (p ++ q) = hash (inner_comm m T (p ++ q)).
Proof.
  intros WT Hq H. apply cval_many; auto. unfold sint in H. destruct q; [contradiction|]. now apply Nat.leb_le.
Qed.

Lemma firstn_not_nil i : (0 < i)%nat -> (i <= length r)%nat -> firstn i r <> [].
Proof. destruct i, r; cbn; intros; try lia; discriminate. Qed.

Lemma ctree_inner q : sint S q = true -> ctree S q = Some (SInner (inner_comm m S (p ++ q))).
Proof. intro H. unfold ctree. now rewrite H. Qed.

(** One step up. *)
Lemma sub_delta j : (j < length r)%nat ->
  inner_comm m S' (p ++ firstn j r) =
  gadd (inner_comm m S (p ++ firstn j r))
    (smul (fsub (cval m S' (p ++ firstn (Datatypes.S j) r)) (cval m S (p ++ firstn (Datatypes.S j) r))) (crs (nth j r 0))).
Proof.
  intro Hj. rewrite (firstn_S_nth 0) by exact Hj. rewrite app_assoc. unfold inner_comm, inner_vec.
  apply (vcommit_upd (fun i => cval m S ((p ++ firstn j r) ++ [i])) (fun i => cval m S' ((p ++ firstn j r) ++ [i])) (nth j r 0)).
  - apply sub_byte, Hj.
  - intros i Hi Hn. rewrite <- app_assoc. apply cval_other_s. apply not_true_iff_false. intro H.
    apply has_prefix_snoc in H as (_ & _ & H). rewrite firstn_length, Nat.min_l in H by lia. congruence.
Qed.

(** Everything from depth [j] on is done. *)
Definition SMid (j : nat) (tree : STree) : Prop :=
  forall q, tree q = if (length q <? j)%nat then ctree S q else ctree S' q.

Lemma rev_firstn_S j : (j < length r)%nat -> rev (firstn (Datatypes.S j) r) = nth j r 0 :: rev (firstn j r).
Proof. intro H. rewrite (firstn_S_nth 0) by exact H. now rewrite rev_app_distr. Qed.

Lemma removelast_firstn j : (j < length r)%nat -> removelast (firstn (Datatypes.S j) r) = firstn j r.
Proof. apply removelast_firstn_S. Qed.

Lemma removelast_prefix_of q : has_prefix (removelast q) r = true -> q <> [] ->
  (length q <= length r)%nat -> removelast q = firstn (length q - 1) r.
Proof.
  intros H Hq Hl. rewrite (hp_eq _ H) at 1. f_equal.
  rewrite (app_removelast_last 0 Hq) at 2. rewrite app_length. cbn. lia.
Qed.

Lemma sint_down i j : (i <= j)%nat -> (j <= length r)%nat -> sint S (firstn j r) = true -> sint S (firstn i r) = true.
Proof.
  intros Hij Hj H. destruct (Nat.eq_dec i 0) as [->|]; [reflexivity|].
  unfold sint in *. destruct (firstn i r) eqn:E; [reflexivity|]. rewrite <- E.
  destruct (firstn j r) eqn:E2; [apply (f_equal (@length Z)) in E2; rewrite firstn_length in E2; cbn in E2; lia|].
  rewrite <- E2 in H. apply Nat.leb_le in H. apply Nat.leb_le.
  destruct (firstn_le_app i j r Hij) as [x Hx]. rewrite Hx in H.
  pose proof (under_length_app S (p ++ firstn i r) x) as Hu. rewrite <- app_assoc in Hu. lia.
Qed.

Lemma smid_step j tree : (j < length r)%nat -> sint S (firstn j r) = true -> SMid (Datatypes.S j) tree ->
  SMid j (upd tree (firstn j r) (SInner (inner_comm m S' (p ++ firstn j r)))).
Proof.
  intros Hj Hs M q. destruct (list_eq_dec Z.eq_dec (firstn j r) q) as [<-|Hne].
  - rewrite upd_same. rewrite firstn_length, Nat.min_l, Nat.ltb_irrefl by lia.
    unfold ctree. now rewrite (sint_mono _ Hs).
  - rewrite upd_other by exact Hne. rewrite M.
    destruct (Nat.ltb_spec (length q) j), (Nat.ltb_spec (length q) (Datatypes.S j)); try lia; auto.
    symmetry. apply ctree_other.
    + apply not_true_iff_false. intro H1. apply Hne. rewrite (hp_eq q H1). f_equal. lia.
    + intro H1. destruct q as [|x q]; [reflexivity|].
      rewrite (removelast_prefix_of (x :: q) H1) by (try discriminate; lia).
      assert (E : sint S (firstn (length (x :: q) - 1) r) = true) by (apply (sint_down _ j); [lia|lia|exact Hs]).
      rewrite E. now apply sint_mono.
Qed.

Lemma sub_step_ok j tree : (j < length r)%nat -> sint S (firstn j r) = true -> SMid (Datatypes.S j) tree ->
  sub_step (nth j r 0) (rev (firstn j r)) tree (cval m S (p ++ firstn (Datatypes.S j) r)) (cval m S' (p ++ firstn (Datatypes.S j) r)) =
  Ok (upd tree (firstn j r) (SInner (inner_comm m S' (p ++ firstn j r))),
      hash (inner_comm m S (p ++ firstn j r)), hash (inner_comm m S' (p ++ firstn j r))).
Proof.
  intros Hj Hs M. unfold sub_step, add_inner. rewrite rev_involutive, M.
  rewrite firstn_length, Nat.min_l by lia. destruct (Nat.ltb_spec j (Datatypes.S j)); [|lia].
  rewrite (ctree_inner _ Hs). cbn [rbind]. unfold scalar_mul. now rewrite <- sub_delta.
Qed.

Lemma climb_ok j : forall tree, (j <= length r)%nat ->
  (forall i, (i < j)%nat -> sint S (firstn i r) = true) -> SMid j tree ->
  (forall o n, (0 < j)%nat -> o = cval m S (p ++ firstn j r) -> n = cval m S' (p ++ firstn j r) ->
   exists t', climb (rev (firstn j r)) tree o n = Ok t' /\ SMid 0 t') /\
  (j = 0%nat -> forall o n, exists t', climb (rev (firstn j r)) tree o n = Ok t' /\ SMid 0 t').
Proof.
  induction j as [|j IH]; intros tree Hj Hs M.
  - split; [lia|]. intros _ o n. exists tree. split; [reflexivity|exact M].
  - split; [|lia]. intros o n _ -> ->. rewrite rev_firstn_S by lia. cbn [climb].
    rewrite (sub_step_ok j tree) by (auto; lia). cbn [rbind].
    destruct (IH (upd tree (firstn j r) (SInner (inner_comm m S' (p ++ firstn j r))))) as [H1 H2].
    + lia.
    + intros i Hi. apply Hs. lia.
    + apply smid_step; auto; lia.
    + destruct j as [|j]; [apply H2; reflexivity|]. apply H1; [lia| |].
      * symmetry. apply cval_many_s; auto. apply firstn_not_nil; lia.
      * symmetry. apply cval_many_s; [apply sub_W'| |].
        -- apply firstn_not_nil; lia.
        -- apply sint_mono, Hs. lia.
Qed.

(** ** The walk down *)
Lemma sint_end : sint S r = false.
Proof.
  pose proof sub_len_r. unfold sint. destruct r as [|x r'] eqn:E; [cbn in *; lia|]. rewrite <- E in *.
  apply Nat.leb_gt. pose proof (under_long S (p ++ r) W) as H1. rewrite app_length in H1. lia.
Qed.

Lemma skipn_cons i : (i < length r)%nat -> skipn i r = nth i r 0 :: skipn (Datatypes.S i) r.
Proof. apply skipn_nth_cons. Qed.

Lemma walk_ok tree : (forall q, tree q = ctree S q) -> forall n i c, (i + n = length r)%nat ->
  sint S (firstn i r) = true ->
  exists e, (i <= e)%nat /\ (e < length r)%nat /\ sint S (firstn e r) = true /\ sint S (firstn (Datatypes.S e) r) = false /\
  ((under S (p ++ firstn (Datatypes.S e) r) = [] /\ exists c', 
     sub_walk tree (firstn i r) (SInner c) (skipn i r) = Ok (firstn (Datatypes.S e) r, SInner c', skipn (Datatypes.S e) r)) \/
   (exists t, under S (p ++ firstn (Datatypes.S e) r) = [t] /\
     sub_walk tree (firstn i r) (SInner c) (skipn i r) = Ok (firstn (Datatypes.S e) r, SStem t (ext_comm m t), skipn (Datatypes.S e) r))).
Proof.
  intros T. induction n as [|n IH]; intros i c Hi Hs.
  - rewrite Nat.add_0_r in Hi. rewrite Hi, firstn_all, sint_end in Hs. discriminate.
  - rewrite (skipn_cons i) by lia. cbn [sub_walk]. rewrite <- (firstn_S_nth 0) by lia.
    destruct (sint S (firstn (Datatypes.S i) r)) eqn:E.
    + rewrite T, (ctree_inner _ E).
      destruct (IH (Datatypes.S i) (inner_comm m S (p ++ firstn (Datatypes.S i) r)) ltac:(lia) E) as (e & H1 & H2 & H3).
      exists e. split; [lia|]. split; [exact H2|]. exact H3.
    + exists i. split; [lia|]. split; [lia|]. split; [exact Hs|]. split; [exact E|].
      rewrite T. unfold ctree. rewrite E, removelast_firstn, Hs by lia.
      assert (Hu : (length (under S (p ++ firstn (Datatypes.S i) r)) < 2)%nat).
      { unfold sint in E. destruct (firstn (Datatypes.S i) r) eqn:E2; [discriminate|]. now apply Nat.leb_gt in E. }
      destruct (under S (p ++ firstn (Datatypes.S i) r)) as [|t [|u l]] eqn:Eu; [| |cbn in Hu; lia].
      * left. split; [reflexivity|]. exists c. reflexivity.
      * right. exists t. split; [reflexivity|].
        destruct (skipn (Datatypes.S i) r); reflexivity.
Qed.

(** ** A free slot *)
Lemma free_slot tree e : (forall q, tree q = ctree S q) -> (e < length r)%nat -> sint S (firstn e r) = true ->
  under S (p ++ firstn (Datatypes.S e) r) = [] ->
  SMid (Datatypes.S e) (upd tree (firstn (Datatypes.S e) r) (SStem s (ext_comm m s))).
Proof.
  intros T He Hs Hu q.
  assert (Su : forall x, under S (p ++ firstn (Datatypes.S e) r ++ x) = []).
  { intro x. pose proof (under_length_app S (p ++ firstn (Datatypes.S e) r) x) as H. rewrite Hu, <- app_assoc in H.
    apply length_zero_iff_nil. cbn [length] in H. lia. }
  assert (S'1 : forall i, (e < i)%nat -> (i <= length r)%nat -> sint S' (firstn i r) = false /\ under S (p ++ firstn i r) = []).
  { intros i Hi1 Hi2. destruct (firstn_le_app (Datatypes.S e) i r Hi1) as [x Hx].
    assert (Hu1 : under S (p ++ firstn i r) = []) by (rewrite Hx; apply Su). split; [|exact Hu1].
    unfold sint. destruct (firstn i r) eqn:E; [exfalso; revert E; apply firstn_not_nil; lia|].
    rewrite <- E in *. now rewrite under_new, hp_firstn, Hu1. }
  destruct (list_eq_dec Z.eq_dec (firstn (Datatypes.S e) r) q) as [<-|Hne].
  - rewrite upd_same, firstn_length, Nat.min_l, Nat.ltb_irrefl by lia.
    unfold ctree. rewrite (proj1 (S'1 (Datatypes.S e) ltac:(lia) ltac:(lia))), removelast_firstn by lia.
    rewrite (sint_mono _ Hs), under_new, hp_firstn, Hu. reflexivity.
  - rewrite upd_other by exact Hne. rewrite T. destruct (Nat.ltb_spec (length q) (Datatypes.S e)) as [|Hl]; [reflexivity|].
    destruct (has_prefix q r) eqn:Eq.
    + pose proof (has_prefix_length _ _ Eq) as Hlq. rewrite (hp_eq q Eq).
      destruct (Nat.eq_dec (length q) (Datatypes.S e)) as [E|E]; [exfalso; apply Hne; rewrite (hp_eq q Eq); now rewrite E|].
      destruct (S'1 (length q) ltac:(lia) Hlq) as [H1 H2].
      assert (Hq1 : (length q - 1 < length r)%nat) by lia.
      pose proof (removelast_firstn (length q - 1) Hq1) as Hrl.
      replace (Datatypes.S (length q - 1)) with (length q) in Hrl by lia.
      unfold ctree. rewrite H1, Hrl, H2.
      destruct (S'1 (length q - 1)%nat ltac:(lia) ltac:(lia)) as [H3 _]. rewrite H3.
      assert (H4 : sint S (firstn (length q) r) = false).
      { apply not_true_iff_false. intro H. apply sint_mono in H. congruence. }
      rewrite H4. now destruct (sint S (firstn (length q - 1) r)).
    + symmetry. apply ctree_other; [exact Eq|]. intro H1.
      assert (Hq : q <> []) by (intros ->; cbn in Hl; lia).
      pose proof (hp_eq _ H1) as E1.
      assert (El : length (removelast q) = (length q - 1)%nat).
      { rewrite (app_removelast_last 0 Hq) at 2. rewrite app_length. cbn. lia. }
      rewrite El in E1. pose proof (has_prefix_length _ _ H1) as Hl1. rewrite El in Hl1.
      destruct (Nat.eq_dec (length q - 1) e) as [E|E].
      * rewrite E1, E, Hs. now apply sint_mono.
      * destruct (S'1 (length q - 1)%nat ltac:(lia) Hl1) as [H3 _]. rewrite E1, H3. symmetry.
        apply not_true_iff_false. intro H. apply sint_mono in H. congruence.
Qed.

(** ** A slot with a stem *)
Section Chain.
Context (e : nat) (He : (e < length r)%nat) (Hint : sint S (firstn e r) = true).
Context (t : bytes) (Ht : under S (p ++ firstn (Datatypes.S e) r) = [t]).

Lemma sc_t : In t S /\ has_prefix (p ++ firstn (Datatypes.S e) r) t = true.
Proof. apply under_In. rewrite Ht. now left. Qed.

(** The old stem relative to [p]. *)
Definition rt : bytes := skipn (length p) t.
Lemma t_rt : t = p ++ rt.
Proof.
  unfold rt. destruct sc_t as [_ H]. apply has_prefix_app in H. rewrite (has_prefix_eq _ _ H) at 1.
  symmetry. apply firstn_skipn.
Qed.
Lemma t_len : length t = 31%nat. Proof. eapply wfS_len; [exact W|apply sc_t]. Qed.
Lemma rt_len : length rt = length r.
Proof. pose proof t_len as H. rewrite t_rt, app_length in H. pose proof sub_len_r. lia. Qed.
Lemma rt_prefix : has_prefix (firstn (Datatypes.S e) r) rt = true.
Proof. rewrite <- has_prefix_cancel, <- t_rt. apply sc_t. Qed.
Lemma rt_firstn : firstn (Datatypes.S e) rt = firstn (Datatypes.S e) r.
Proof.
  pose proof (has_prefix_eq _ _ rt_prefix) as H. rewrite firstn_length, Nat.min_l in H by lia. now symmetry.
Qed.
Lemma rt_byte i : (i < length r)%nat -> 0 <= nth i rt 0 < 256.
Proof.
  intro H. destruct (wfS_stem _ _ W (proj1 sc_t)) as [_ H1]. rewrite t_rt in H1.
  apply is_bytes_app in H1 as [_ H1]. unfold is_bytes in H1. rewrite Forall_forall in H1. apply H1, nth_In.
  rewrite rt_len. exact H.
Qed.

(** The number [c] of bytes the two stems share. *)
Context (c : nat) (Hec : (e < c)%nat) (Hcr : (c < length r)%nat).
Context (Hshare : firstn c rt = firstn c r) (Hdiff : nth c rt 0 <> nth c r 0).

Lemma sc_under_S q : has_prefix (firstn (Datatypes.S e) r) q = true ->
  under S (p ++ q) = if has_prefix q rt then [t] else [].
Proof.
  intro H. apply has_prefix_spec in H as [x ->]. rewrite app_assoc.
  rewrite (under_sub_t S t (p ++ firstn (Datatypes.S e) r) x Ht), <- app_assoc.
  rewrite t_rt at 1. now rewrite has_prefix_cancel.
Qed.

Lemma sc_under q : has_prefix (firstn (Datatypes.S e) r) q = true ->
  under S' (p ++ q) = (if has_prefix q r then [s] else []) ++ (if has_prefix q rt then [t] else []).
Proof. intro H. rewrite under_new, (sc_under_S q H). now destruct (has_prefix q r). Qed.

Lemma sc_pre i : (e < i)%nat -> has_prefix (firstn (Datatypes.S e) r) (firstn i r) = true.
Proof.
  intro H. apply has_prefix_spec. destruct (firstn_le_app (Datatypes.S e) i r H) as [x Hx]. now exists x.
Qed.

Lemma sc_rt i : (i <= c)%nat -> has_prefix (firstn i r) rt = true.
Proof.
  intro H. replace (firstn i r) with (firstn i rt); [apply has_prefix_firstn|].
  rewrite <- (Nat.min_l i c H), <- !firstn_firstn. now rewrite Hshare.
Qed.

Lemma sc_nth i : (i < c)%nat -> nth i rt 0 = nth i r 0.
Proof. intro H. rewrite <- (nth_firstn 0 i c rt H), Hshare. now apply nth_firstn. Qed.

Lemma sc_int i : (e < i)%nat -> (i <= c)%nat -> sint S' (firstn i r) = true.
Proof.
  intros H1 H2. unfold sint. destruct (firstn i r) eqn:E; [reflexivity|]. rewrite <- E.
  rewrite sc_under by (apply sc_pre, H1). rewrite hp_firstn, sc_rt by lia. reflexivity.
Qed.

(** The nodes of the new tree from the old stem's place on. *)
Lemma sc_below q : has_prefix (firstn (Datatypes.S e) r) q = true -> has_prefix q r && has_prefix q rt = false ->
  sint S' q = false.
Proof.
  intros H1 H2. unfold sint. destruct q as [|x q0] eqn:E.
  - exfalso. apply has_prefix_length in H1. rewrite firstn_length in H1. cbn [length] in H1. lia.
  - rewrite <- E in *. rewrite sc_under by exact H1.
    destruct (has_prefix q r), (has_prefix q rt); auto; discriminate.
Qed.

Lemma snoc_child i b : (i < length r)%nat ->
  has_prefix (firstn i r ++ [b]) r = (b =? nth i r 0).
Proof.
  intro Hi. destruct (Z.eqb_spec b (nth i r 0)) as [->|Hn].
  - apply has_prefix_snoc. rewrite firstn_length, Nat.min_l by lia. repeat split; auto. apply hp_firstn.
  - apply not_true_iff_false. intro H. apply has_prefix_snoc in H as (_ & _ & H).
    rewrite firstn_length, Nat.min_l in H by lia. congruence.
Qed.

Lemma snoc_child_t i b : (i <= c)%nat -> has_prefix (firstn i r ++ [b]) rt = (b =? nth i rt 0).
Proof.
  intro Hi. pose proof rt_len as Hl. destruct (Z.eqb_spec b (nth i rt 0)) as [->|Hn].
  - apply has_prefix_snoc. rewrite firstn_length, Nat.min_l by lia. repeat split; auto; [apply sc_rt; lia|lia].
  - apply not_true_iff_false. intro H. apply has_prefix_snoc in H as (_ & _ & H).
    rewrite firstn_length, Nat.min_l in H by lia. congruence.
Qed.

Lemma sc_bottom : inner_comm m S' (p ++ firstn c r) =
  gadd (smul (hash (ext_comm m t)) (crs (nth c rt 0))) (smul (hash (ext_comm m s)) (crs (nth c r 0))).
Proof.
  assert (U : forall b, under S' ((p ++ firstn c r) ++ [b]) =
     (if b =? nth c r 0 then [s] else []) ++ (if b =? nth c rt 0 then [t] else [])).
  { intro b. rewrite <- app_assoc, sc_under.
    - rewrite snoc_child, snoc_child_t by lia. reflexivity.
    - apply has_prefix_spec. destruct (firstn_le_app (Datatypes.S e) c r Hec) as [x Hx]. exists (x ++ [b]).
      rewrite Hx. now rewrite app_assoc. }
  change (inner_comm m S' (p ++ firstn c r)) with (vcommit (fun i => cval m S' ((p ++ firstn c r) ++ [i]))).
  rewrite (vcommit_two (fun i => cval m S' ((p ++ firstn c r) ++ [i])) (nth c rt 0) (nth c r 0)).
  - rewrite (cval_one m S' _ t), (cval_one m S' _ s); [reflexivity| |].
    + rewrite U, Z.eqb_refl. destruct (Z.eqb_spec (nth c r 0) (nth c rt 0)); [congruence|]. reflexivity.
    + rewrite U, Z.eqb_refl. destruct (Z.eqb_spec (nth c rt 0) (nth c r 0)); [congruence|]. reflexivity.
  - apply rt_byte. lia.
  - apply sub_byte. lia.
  - exact Hdiff.
  - intros j _ Hj1 Hj2. apply cval_none. rewrite U.
    destruct (Z.eqb_spec j (nth c r 0)), (Z.eqb_spec j (nth c rt 0)); try contradiction. reflexivity.
Qed.

Lemma sc_middle i : (e < i)%nat -> (i < c)%nat ->
  inner_comm m S' (p ++ firstn i r) = smul (hash (inner_comm m S' (p ++ firstn (Datatypes.S i) r))) (crs (nth i r 0)).
Proof.
  intros H1 H2. 
  change (inner_comm m S' (p ++ firstn i r)) with (vcommit (fun b => cval m S' ((p ++ firstn i r) ++ [b]))).
  rewrite (vcommit_single (fun b => cval m S' ((p ++ firstn i r) ++ [b])) (nth i r 0)).
  - rewrite <- app_assoc, <- (firstn_S_nth 0) by lia. f_equal.
    apply cval_many_s; [apply sub_W'| |apply sc_int; lia]. apply firstn_not_nil; lia.
  - apply sub_byte. lia.
  - intros j _ Hj. apply cval_none. rewrite <- app_assoc, sc_under.
    + rewrite snoc_child, snoc_child_t, sc_nth by lia. destruct (Z.eqb_spec j (nth i r 0)); [contradiction|]. reflexivity.
    + apply has_prefix_spec. destruct (firstn_le_app (Datatypes.S e) i r H1) as [x Hx]. exists (x ++ [j]).
      rewrite Hx. now rewrite app_assoc.
Qed.

(** The state of the chain: inner nodes from depth [j] on are final, those
    between the old stem's place and [j] are fresh. *)
Definition CMid (j : nat) (tree : STree) : Prop :=
  forall q, tree q =
    if (length q <? Datatypes.S e)%nat then ctree S q
    else if ((length q <? j)%nat && has_prefix q r)%bool then Some (SInner gzero)
    else ctree S' q.

Lemma climb_to_ok d : forall j tree o, (j = d + Datatypes.S e)%nat -> (j <= c)%nat -> CMid j tree -> o = fzero ->
  exists tree', climb_to (firstn (Datatypes.S e) r) (rev (firstn j r)) tree o (hash (inner_comm m S' (p ++ firstn j r))) =
    Ok (tree', rev (firstn (Datatypes.S e) r), hash (inner_comm m S' (p ++ firstn (Datatypes.S e) r))) /\
    SMid (Datatypes.S e) tree'.
Proof.
  induction d as [|d IH]; intros j tree o Ej Hj M ->.
  - cbn [Nat.add] in Ej. subst j. exists tree. split.
    + assert (E : rev (firstn (Datatypes.S e) r) <> []).
      { rewrite rev_firstn_S by lia. discriminate. }
      destruct (rev (firstn (Datatypes.S e) r)) as [|x l] eqn:E1; [contradiction|].
      cbn [climb_to]. rewrite <- E1, rev_involutive, beqb_refl. reflexivity.
    + intro q. rewrite (M q). destruct (Nat.ltb_spec (length q) (Datatypes.S e)); reflexivity.
  - subst j. cbn [Nat.add] in *. rewrite rev_firstn_S by lia. cbn [climb_to].
    rewrite <- rev_firstn_S by lia. rewrite rev_involutive.
    assert (En : beqb (firstn (Datatypes.S (d + Datatypes.S e)) r) (firstn (Datatypes.S e) r) = false).
    { apply beqb_neq. intro E. apply (f_equal (@length Z)) in E. rewrite !firstn_length in E. lia. }
    rewrite En. unfold sub_step, add_inner. rewrite rev_involutive, M.
    rewrite firstn_length, Nat.min_l by lia.
    destruct (Nat.ltb_spec (d + Datatypes.S e) (Datatypes.S e)) as [|_]; [lia|].
    destruct (Nat.ltb_spec (d + Datatypes.S e) (Datatypes.S (d + Datatypes.S e))) as [_|]; [|lia].
    rewrite hp_firstn. cbn [andb rbind].
    assert (Eg : gadd gzero (scalar_mul (fsub (hash (inner_comm m S' (p ++ firstn (Datatypes.S (d + Datatypes.S e)) r))) fzero)
        (nth (d + Datatypes.S e) r 0)) = inner_comm m S' (p ++ firstn (d + Datatypes.S e) r)).
    { rewrite (sc_middle (d + Datatypes.S e)) by lia. unfold scalar_mul. module. }
    rewrite Eg. apply IH; [reflexivity|lia| |apply hash_zero].
    intro q. destruct (list_eq_dec Z.eq_dec (firstn (d + Datatypes.S e) r) q) as [<-|Hne].
    + rewrite upd_same, firstn_length, Nat.min_l by lia.
      destruct (Nat.ltb_spec (d + Datatypes.S e) (Datatypes.S e)) as [|_]; [lia|].
      rewrite Nat.ltb_irrefl. cbn [andb]. unfold ctree. now rewrite sc_int by lia.
    + rewrite upd_other by exact Hne. rewrite M.
      destruct (Nat.ltb_spec (length q) (Datatypes.S e)); [reflexivity|].
      destruct (has_prefix q r) eqn:Eq; rewrite ?andb_false_r, ?andb_true_r; [|reflexivity].
      destruct (Nat.ltb_spec (length q) (Datatypes.S (d + Datatypes.S e))), (Nat.ltb_spec (length q) (d + Datatypes.S e)); try lia; auto.
      exfalso. apply Hne. rewrite (hp_eq q Eq). f_equal. lia.
Qed.

(** The tree right after the two stems have been placed. *)
Lemma chain_start tree tree2 : (forall q, tree q = ctree S q) ->
  (forall q, tree2 q = if ((length (firstn (Datatypes.S e) r) <? length q) && (length q <=? c) && has_prefix q r)%nat%bool
                       then Some (SInner gzero) else upd tree (firstn (Datatypes.S e) r) (SInner gzero) q) ->
  CMid c (upd (upd (upd tree2 (firstn c r ++ [nth c rt 0]) (SStem t (ext_comm m t)))
                   (firstn c r ++ [nth c r 0]) (SStem s (ext_comm m s)))
              (firstn c r) (SInner (inner_comm m S' (p ++ firstn c r)))).
Proof.
  intros T T2 q.
  assert (Lc : length (firstn c r) = c) by (rewrite firstn_length; lia).
  assert (Le : length (firstn (Datatypes.S e) r) = Datatypes.S e) by (rewrite firstn_length; lia).
  assert (Pc : forall b, has_prefix (firstn (Datatypes.S e) r) (firstn c r ++ [b]) = true).
  { intro b. apply has_prefix_spec. destruct (firstn_le_app (Datatypes.S e) c r Hec) as [x Hx]. exists (x ++ [b]).
    rewrite Hx. now rewrite app_assoc. }
  destruct (list_eq_dec Z.eq_dec (firstn c r) q) as [<-|N1].
  { rewrite upd_same, Lc. destruct (Nat.ltb_spec c (Datatypes.S e)); [lia|]. rewrite Nat.ltb_irrefl. cbn [andb].
    unfold ctree. now rewrite sc_int by lia. }
  rewrite upd_other by exact N1.
  destruct (list_eq_dec Z.eq_dec (firstn c r ++ [nth c r 0]) q) as [<-|N2].
  { rewrite upd_same, app_length, Lc. cbn [length]. destruct (Nat.ltb_spec (c + 1) (Datatypes.S e)); [lia|].
    destruct (Nat.ltb_spec (c + 1) c); [lia|]. cbn [andb]. unfold ctree.
    rewrite sc_below; [|apply Pc|].
    - rewrite removelast_last, sc_int by lia. rewrite sc_under by apply Pc.
      rewrite snoc_child, snoc_child_t, Z.eqb_refl by lia.
      destruct (Z.eqb_spec (nth c r 0) (nth c rt 0)); [congruence|]. reflexivity.
    - rewrite snoc_child_t by lia. destruct (Z.eqb_spec (nth c r 0) (nth c rt 0)); [congruence|]. apply andb_false_r. }
  rewrite upd_other by exact N2.
  destruct (list_eq_dec Z.eq_dec (firstn c r ++ [nth c rt 0]) q) as [<-|N3].
  { rewrite upd_same, app_length, Lc. cbn [length]. destruct (Nat.ltb_spec (c + 1) (Datatypes.S e)); [lia|].
    destruct (Nat.ltb_spec (c + 1) c); [lia|]. cbn [andb]. unfold ctree.
    rewrite sc_below; [|apply Pc|].
    - rewrite removelast_last, sc_int by lia. rewrite sc_under by apply Pc.
      rewrite snoc_child, snoc_child_t, Z.eqb_refl by lia.
      destruct (Z.eqb_spec (nth c rt 0) (nth c r 0)); [congruence|]. reflexivity.
    - rewrite snoc_child by lia. destruct (Z.eqb_spec (nth c rt 0) (nth c r 0)); [congruence|]. reflexivity. }
  rewrite upd_other by exact N3. rewrite T2, Le.
  destruct (Nat.ltb_spec (length q) (Datatypes.S e)) as [C1|C1].
  { destruct (Nat.ltb_spec (Datatypes.S e) (length q)); [lia|]. cbn [andb]. rewrite upd_other, T; auto.
    intro E. rewrite <- E, Le in C1. lia. }
  destruct (has_prefix q r) eqn:Eq; rewrite ?andb_true_r, ?andb_false_r.
  - pose proof (hp_eq q Eq) as Eq1. pose proof (has_prefix_length _ _ Eq) as Lq.
    destruct (Nat.ltb_spec (length q) c) as [C2|C2].
    + destruct (Nat.eq_dec (length q) (Datatypes.S e)) as [E|E].
      * destruct (Nat.ltb_spec (Datatypes.S e) (length q)); [lia|]. cbn [andb]. rewrite Eq1, E. apply upd_same.
      * destruct (Nat.ltb_spec (Datatypes.S e) (length q)); [|lia].
        destruct (Nat.leb_spec (length q) c); [|lia]. reflexivity.
    + destruct (Nat.eq_dec (length q) c) as [E|E]; [exfalso; apply N1; rewrite Eq1; now rewrite E|].
      destruct (Nat.leb_spec (length q) c); [lia|]. rewrite andb_false_r. rewrite upd_other, T.
      2:{ intro E1. apply (f_equal (@length Z)) in E1. rewrite Le in E1. lia. }
      (* below the new stem *)
      assert (Hpre : has_prefix (firstn (Datatypes.S e) r) q = true) by (rewrite Eq1; apply sc_pre; lia).
      assert (Hq1 : has_prefix q rt = false).
      { apply not_true_iff_false. intro Hq. pose proof (has_prefix_eq _ _ Hq) as E2.
        apply Hdiff. rewrite <- (nth_firstn 0 c (length q) rt), <- (nth_firstn 0 c (length q) r) by lia. now rewrite <- E2, <- Eq1. }
      unfold ctree. rewrite sc_below by (auto; rewrite Hq1; apply andb_false_r).
      assert (sint S q = false) as ->.
      { apply not_true_iff_false. intro Hq. apply sint_mono in Hq. rewrite sc_below in Hq; [discriminate|auto|rewrite Hq1; apply andb_false_r]. }
      rewrite (sc_under_S q Hpre), Hq1.
      assert (Er : removelast q = firstn (length q - 1) r).
      { rewrite Eq1 at 1. replace (length q) with (Datatypes.S (length q - 1)) at 1 by lia. apply removelast_firstn. lia. }
      assert (Hb : sint S' (removelast q) = false).
      { rewrite Er. apply sc_below; [apply sc_pre; lia|]. rewrite hp_firstn.
        destruct (Nat.eq_dec (length q - 1) c) as [E2|E2].
        - exfalso. apply N2. rewrite <- (firstn_S_nth 0) by lia. rewrite Eq1. f_equal. lia.
        - cbn [andb]. apply not_true_iff_false. intro Hq. pose proof (has_prefix_eq _ _ Hq) as E3.
          rewrite firstn_length, Nat.min_l in E3 by lia.
          apply Hdiff. rewrite <- (nth_firstn 0 c (length q - 1) rt), <- (nth_firstn 0 c (length q - 1) r) by lia. now rewrite <- E3. }
      rewrite Hb. now destruct (sint S (removelast q)).
  - rewrite upd_other, T.
    2:{ intro E1. rewrite <- E1, hp_firstn in Eq. discriminate. }
    (* off the path of the new stem *)
    assert (Hq0 : q <> []) by (intros ->; cbn in C1; lia).
    destruct (has_prefix (removelast q) r) eqn:Er; [|symmetry; apply ctree_other; auto; intro; congruence].
    assert (El : length (removelast q) = (length q - 1)%nat).
    { rewrite (app_removelast_last 0 Hq0) at 2. rewrite app_length. cbn. lia. }
    pose proof (hp_eq _ Er) as Er1. rewrite El in Er1.
    pose proof (has_prefix_length _ _ Er) as Ll. rewrite El in Ll.
    destruct (Nat.eq_dec (length q - 1) e) as [E|E].
    { symmetry. apply ctree_other; auto. intros _. rewrite Er1, E, Hint. apply sint_mono. exact Hint. }
    assert (Hpre1 : has_prefix (firstn (Datatypes.S e) r) (removelast q) = true) by (rewrite Er1; apply sc_pre; lia).
    assert (Hpre : has_prefix (firstn (Datatypes.S e) r) q = true).
    { rewrite (app_removelast_last 0 Hq0). apply has_prefix_spec. apply has_prefix_spec in Hpre1 as [x Hx].
      exists (x ++ [last q 0]). rewrite Hx. now rewrite app_assoc. }
    assert (Hs0 : sint S q = false).
    { apply not_true_iff_false. intro Hq. apply sint_mono in Hq. rewrite sc_below in Hq; [discriminate|auto|now rewrite Eq]. }
    unfold ctree. rewrite Hs0, sc_below by (auto; now rewrite Eq).
    assert (Hs1 : sint S (removelast q) = false).
    { unfold sint. destruct (removelast q) as [|x l] eqn:E1.
      - exfalso. apply has_prefix_length in Hpre1. rewrite Le in Hpre1. cbn [length] in Hpre1. lia.
      - rewrite <- E1 in *. rewrite (sc_under_S _ Hpre1). now destruct (has_prefix (removelast q) rt). }
    rewrite Hs1. destruct (sint S' (removelast q)) eqn:Hs2; [|reflexivity].
    (* the parent is in the chain; the only other child is the old stem *)
    rewrite sc_under, Eq by exact Hpre. cbn [app]. destruct (has_prefix q rt) eqn:Hq1; [|reflexivity]. exfalso.
    assert (Hlc : (length q - 1 <= c)%nat).
    { destruct (Nat.le_gt_cases (length q - 1) c) as [|C2]; auto. exfalso.
      assert (has_prefix (removelast q) rt = true).
      { rewrite (app_removelast_last 0 Hq0) in Hq1. now apply has_prefix_app in Hq1. }
      pose proof (has_prefix_eq _ _ H) as E3. rewrite El in E3.
      apply Hdiff. rewrite <- (nth_firstn 0 c (length q - 1) rt), <- (nth_firstn 0 c (length q - 1) r) by lia. now rewrite <- E3, Er1. }
    assert (Eql : q = firstn (length q - 1) r ++ [last q 0]) by (rewrite (app_removelast_last 0 Hq0) at 1; now rewrite Er1).
    rewrite Eql, snoc_child_t in Hq1 by exact Hlc. apply Z.eqb_eq in Hq1.
    destruct (Nat.eq_dec (length q - 1) c) as [E2|E2].
    + apply N3. rewrite Eql at 1. rewrite E2 in Hq1. now rewrite E2, Hq1.
    + rewrite Eql, snoc_child in Eq by lia. rewrite Hq1, sc_nth, Z.eqb_refl in Eq by lia. discriminate.
Qed.
End Chain.

(** ** One insertion *)
Lemma sub_insert_ok tree : (forall q, tree q = ctree S q) ->
  exists tree', sub_insert p tree (s, ext_comm m s) = Ok tree' /\ forall q, tree' q = ctree S' q.
Proof.
  intro T. pose proof sub_len_r as Lr. unfold sub_insert. unfold slice_from at 1.
  assert (Ls : length s = 31%nat) by (unfold s; rewrite app_length; lia).
  rewrite Ls. destruct (Nat.leb_spec (length p) 31); [|lia]. cbn [rbind].
  assert (Esk : skipn (length p) s = r) by (unfold s; now apply skipn_app_exact). rewrite Esk.
  rewrite T. unfold ctree at 1. cbn [sint unwrap rbind]. rewrite app_nil_r.
  destruct (walk_ok tree T (length r) 0 (inner_comm m S p) eq_refl eq_refl) as (e & _ & He & Hs & Hs1 & Hw).
  change (firstn 0 r) with (@nil Z) in Hw. change (skipn 0 r) with r in Hw.
  assert (Hdown : forall i, (i < Datatypes.S e)%nat -> sint S (firstn i r) = true).
  { intros i Hi. apply (sint_down i e); auto; lia. }
  assert (Hgo : forall tree' o n, SMid (Datatypes.S e) tree' -> o = cval m S (p ++ firstn (Datatypes.S e) r) ->
     n = cval m S' (p ++ firstn (Datatypes.S e) r) ->
     exists t', climb (rev (firstn (Datatypes.S e) r)) tree' o n = Ok t' /\ forall q, t' q = ctree S' q).
  { intros tree' o n M Eo En. destruct (climb_ok (Datatypes.S e) tree' ltac:(lia) Hdown M) as [H1 _].
    destruct (H1 o n ltac:(lia) Eo En) as (t' & E & M0). exists t'. split; [exact E|]. intro q. rewrite (M0 q). reflexivity. }
  destruct Hw as [(Hu & c' & ->)|(t & Hu & ->)]; cbn [rbind].
  - apply Hgo.
    + apply (free_slot tree e T He Hs Hu).
    + symmetry. now apply cval_none.
    + symmetry. apply cval_one. now rewrite under_new, hp_firstn, Hu.
  - pose proof (t_rt e t Hu) as Et. pose proof (rt_len e He t Hu) as Lt. pose proof (rt_firstn e He t Hu) as Ft.
    set (u := rt t) in *.
    unfold slice_from. rewrite firstn_length, Nat.min_l by lia. pose proof (t_len e t Hu) as Tl. rewrite Tl.
    destruct (Nat.leb_spec (length p + Datatypes.S e) 31); [|lia]. cbn [rbind].
    assert (Eo : skipn (length p + Datatypes.S e) t = skipn (Datatypes.S e) u).
    { unfold u, rt. apply skipn_plus. }
    rewrite Eo.
    destruct (extend_ok (skipn (Datatypes.S e) u) (skipn (Datatypes.S e) r) (upd tree (firstn (Datatypes.S e) r) (SInner gzero))
        (firstn (Datatypes.S e) r)) as (d & tree2 & D1 & D2 & D3 & D4 & D5).
    { rewrite !skipn_length. lia. }
    { intro E. apply Hnew. fold s. assert (u = r) as Eu.
      { rewrite <- (firstn_skipn (Datatypes.S e) u), <- (firstn_skipn (Datatypes.S e) r). congruence. }
      unfold s. rewrite <- Eu, <- Et. apply (sc_t e t Hu). }
    rewrite skipn_length in D1.
    set (c := (Datatypes.S e + d)%nat).
    assert (Fc : forall x : bytes, length x = length r -> firstn (Datatypes.S e) x = firstn (Datatypes.S e) r ->
       firstn c x = firstn (Datatypes.S e) r ++ firstn d (skipn (Datatypes.S e) x)).
    { intros x Lx Fx. rewrite <- Fx. rewrite <- (firstn_skipn (Datatypes.S e) x) at 1. unfold c.
      rewrite firstn_app. rewrite firstn_firstn, Nat.min_r by lia. rewrite firstn_length, Nat.min_l by lia. f_equal. f_equal. lia. }
    assert (Nc : forall x : bytes, nth d (skipn (Datatypes.S e) x) 0 = nth c x 0).
    { intros x. unfold c. clear. generalize (Datatypes.S e) as i. intro i. revert x.
      induction i as [|i IH]; intros [|y x]; cbn; auto. destruct d; reflexivity. }
    rewrite !Nc in D3, D4. rewrite D4. rewrite <- (Fc r eq_refl eq_refl). cbn [rbind].
    assert (Hshare : firstn c u = firstn c r) by (rewrite (Fc u Lt Ft), (Fc r eq_refl eq_refl), D2; reflexivity).
    assert (Hec : (e < c)%nat) by (unfold c; lia). assert (Hcr : (c < length r)%nat) by (unfold c; lia).
    unfold add_inner.
    assert (Lc : length (firstn c r) = c) by (rewrite firstn_length; lia).
    assert (E0 : upd (upd tree2 (firstn c r ++ [nth c u 0]) (SStem t (ext_comm m t))) (firstn c r ++ [nth c r 0])
                   (SStem s (ext_comm m s)) (firstn c r) = Some (SInner gzero)).
    { rewrite !upd_other by (intro E; apply (f_equal (@length Z)) in E; rewrite app_length in E; cbn in E; lia).
      rewrite D5, firstn_skipn, hp_firstn, Lc, firstn_length, Nat.min_l by lia. rewrite andb_true_r.
      destruct (Nat.eq_dec d 0) as [->|Hd].
      - destruct (Nat.ltb_spec (Datatypes.S e) c); [unfold c in *; lia|]. cbn [andb]. unfold c. rewrite Nat.add_0_r. apply upd_same.
      - destruct (Nat.ltb_spec (Datatypes.S e) c); [|unfold c in *; lia].
        destruct (Nat.leb_spec c (Datatypes.S e + d)); [|unfold c in *; lia]. reflexivity. }
    rewrite E0. cbn [rbind].
    assert (Eb : gadd gzero (gadd (scalar_mul (hash (ext_comm m t)) (nth c u 0)) (scalar_mul (hash (ext_comm m s)) (nth c r 0)))
                 = inner_comm m S' (p ++ firstn c r)).
    { rewrite (sc_bottom e He t Hu c Hec Hcr Hshare D3). unfold scalar_mul. apply gadd_0_l. }
    rewrite Eb.
    assert (D5' : forall q, tree2 q = if ((length (firstn (Datatypes.S e) r) <? length q) && (length q <=? c) && has_prefix q r)%nat%bool
                       then Some (SInner gzero) else upd tree (firstn (Datatypes.S e) r) (SInner gzero) q).
    { intro q. rewrite D5, firstn_skipn. unfold c. now rewrite firstn_length, Nat.min_l by lia. }
    pose proof (chain_start e He Hs t Hu c Hec Hcr Hshare D3 tree tree2 T D5') as M.
    destruct (climb_to_ok e He t Hu c Hec Hcr Hshare d c _ fzero ltac:(unfold c; lia) (le_n _) M eq_refl) as (tree4 & E4 & M4).
    change (rt t) with u in E4. rewrite E4. cbn [rbind]. rewrite rev_firstn_S by exact He.
    destruct (Hgo tree4 (hash (ext_comm m t)) (hash (inner_comm m S' (p ++ firstn (Datatypes.S e) r))) M4) as (t' & E5 & H5).
    + symmetry. now apply cval_one.
    + symmetry. apply cval_many_s; [apply sub_W'| |apply (sc_int e He t Hu c Hec Hcr Hshare); lia].
      apply firstn_not_nil; lia.
    + rewrite rev_firstn_S in E5 by exact He. cbn [climb] in E5. exists t'. split; [exact E5|exact H5].
Qed.
End Step.

(** ** All insertions *)
Lemma sub_inserts_ok : forall l S tree, wfS S -> Forall is_stem l -> Forall (fun s => has_prefix p s = true) l ->
  NoDup (l ++ S) -> (forall q, tree q = ctree S q) ->
  exists tree', sub_inserts p tree (map (fun s => (s, ext_comm m s)) l) = Ok tree' /\ 
    forall q, tree' q = ctree (rev l ++ S) q.
Proof.
  induction l as [|s l IH]; intros S tree W Hst Hpre Hnd T; cbn [map sub_inserts].
  - exists tree. split; [reflexivity|exact T].
  - inversion Hst; subst. inversion Hpre; subst. cbn [app] in Hnd. inversion Hnd; subst.
    pose proof H3 as H3'. apply has_prefix_spec in H3' as [r ->].
    assert (Hn : ~ In (p ++ r) S) by (intro H; apply H5, in_or_app; now right).
    destruct (sub_insert_ok S W r H1 Hn tree T) as (tree1 & E1 & T1). unfold bytes in *. rewrite E1. cbn [rbind].
    destruct (IH ((p ++ r) :: S) tree1) as (tree2 & E2 & T2); auto.
    + destruct W as [W1 W2]. split; constructor; auto.
    + apply (Permutation_NoDup (l := (p ++ r) :: l ++ S)); [apply Permutation_middle|constructor; auto].
    + exists tree2. split; [exact E2|]. intro q. rewrite T2. cbn [rev]. now rewrite <- app_assoc.
Qed.

Lemma ctree_empty q : upd bempty [] (SInner gzero) q = ctree [] q.
Proof.
  destruct q as [|x q].
  - rewrite upd_same. unfold ctree. cbn [sint]. rewrite app_nil_r. do 2 f_equal. symmetry.
    apply vcommit_zero. intros i _. apply cval_none. reflexivity.
  - rewrite upd_other by discriminate. unfold ctree, sint. cbn [under filter length]. cbn [Nat.leb].
    destruct (removelast (x :: q)); reflexivity.
Qed.

Theorem build_subtree_ok l : Forall is_stem l -> Forall (fun s => has_prefix p s = true) l -> NoDup l ->
  build_subtree p (map (fun s => (s, ext_comm m s)) l) = Ok (inner_comm m l p).
Proof.
  intros H1 H2 H3. unfold build_subtree.
  destruct (sub_inserts_ok l [] (upd bempty [] (SInner gzero))) as (tree & E & T); auto.
  - split; constructor.
  - now rewrite app_nil_r.
  - apply ctree_empty.
  - rewrite E. cbn [rbind]. rewrite T. unfold ctree. cbn [sint]. rewrite !app_nil_r. f_equal.
    apply inner_comm_congr; [apply under_perm; symmetry; apply Permutation_rev|]. intros t _ i _. reflexivity.
Qed.
End Subtree.
