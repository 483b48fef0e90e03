(** The prover's openings on a canonical database: every query is true and the
    entries opened are those of the specification. *)
From Coq Require Import Permutation Sorted.
From Verif Require Import Base BaseFacts Alg AlgFacts TreeSpec TreeFacts TrieModel TrieProofs BTree WireModel ProofModel ProofSpec PathProofs.

(** ** Lists and orders *)
Lemma list_cmp_app_r a b y : list_cmp a b = Lt -> list_cmp a (b ++ y) = Lt.
Proof.
  revert b; induction a as [|x a IH]; intros [|z b] H; cbn in *; try discriminate; auto.
  destruct (x ?= z); auto; discriminate.
Qed.

Lemma list_cmp_app a b x y : list_cmp a b = Lt -> has_prefix a b = false ->
  list_cmp (a ++ x) (b ++ y) = Lt.
Proof.
  unfold has_prefix.
  revert b; induction a as [|c a IH]; intros [|z b] H Hp; cbn in *; try discriminate.
  destruct (c ?= z) eqn:E; auto. apply IH; auto.
  apply Z.compare_eq in E. subst z. rewrite Z.eqb_refl in Hp. exact Hp.
Qed.

Lemma sorted_app {K} {C : Cmp K} {CL : CmpLaws K} (a b : list K) :
  sorted a -> sorted b -> (forall x y, In x a -> In y b -> klt x y) -> sorted (a ++ b).
Proof.
  intros Ha Hb H. induction a as [|x a IH]; cbn; auto.
  apply StronglySorted_inv in Ha as [Ha Hx]. constructor.
  - apply IH; auto. intros u v Hu Hv. apply H; cbn; auto.
  - apply Forall_app. split; auto. apply Forall_forall. intros y Hy. apply H; cbn; auto.
Qed.

Lemma map_insert_graph {K V} {C : Cmp K} {CL : CmpLaws K} (f : K -> V) k l :
  map_insert k (f k) (map (fun x => (x, f x)) l) = map (fun x => (x, f x)) (set_insert k l).
Proof.
  induction l as [|y l IH]; cbn; auto. destruct (cmp k y) eqn:E; cbn; auto.
  - apply cmp_eq in E. now subst.
  - now rewrite IH.
Qed.

Section Openings.
Context {A : Alg} {L : AlgLaws A} {P : Par A} {PL : ParLaws P}.
Opaque vcommit gsum subtree_hash.
Context (db : MemoryDb) (m : bytes -> option bytes) (St : list bytes) (C : Canon db m St).

Let W := can_wf _ _ _ C.

(** ** Positions *)
Lemma internal_app p x : internal St (p ++ x) = true -> internal St p = true.
Proof.
  unfold internal. destruct p as [|a p]; [reflexivity|].
  cbn [length app Nat.eqb orb]. rewrite !Nat.leb_le. pose proof (under_length_app St (a :: p) x) as H. cbn [app] in H. lia.
Qed.

Lemma stem_at_spec p t : stem_at St p = Some t <->
  internal St p = false /\ internal St (removelast p) = true /\ under St p = [t].
Proof.
  unfold stem_at. destruct (internal St p); [split; [discriminate|intros (H & _); discriminate]|].
  destruct (internal St (removelast p)); [|split; [discriminate|intros (_ & H & _); discriminate]].
  destruct (under St p) as [|a [|b l]]; split; try discriminate; try (intros (_ & _ & H); discriminate).
  - intros [= <-]. auto.
  - intros (_ & _ & H). injection H as ->. reflexivity.
Qed.

Lemma stem_at_below q t x : stem_at St q = Some t -> internal St (q ++ x) = false.
Proof.
  intro H. apply stem_at_spec in H as (H & _ & _).
  destruct (internal St (q ++ x)) eqn:E; auto. apply internal_app in E. congruence.
Qed.

Lemma stem_at_child q t z : stem_at St q = Some t -> stem_at St (q ++ [z]) = None.
Proof.
  intro H. unfold stem_at at 1. rewrite (stem_at_below q t [z] H), removelast_last.
  apply stem_at_spec in H as (-> & _ & _). reflexivity.
Qed.

Lemma stem_at_In q t : stem_at St q = Some t -> In t St /\ has_prefix q t = true.
Proof. intro H. apply stem_at_spec in H as (_ & _ & H). apply under_In. rewrite H. now left. Qed.

(** ** Node vectors *)
Lemma node_vec_inner p : internal St p = true -> node_vec m St p = inner_vec m St p.
Proof. intro H. unfold node_vec. now rewrite H. Qed.
Lemma node_vec_ext q t : stem_at St q = Some t -> node_vec m St q = ext_vec m t.
Proof. intro H. unfold node_vec. rewrite H. now apply stem_at_spec in H as (-> & _ & _). Qed.
Lemma node_vec_suffix q t z : stem_at St q = Some t -> node_vec m St (q ++ [z]) = suffix_vec m t (z - 2).
Proof.
  intro H. unfold node_vec. rewrite (stem_at_below q t [z] H), (stem_at_child q t z H), removelast_last, H, last_last.
  reflexivity.
Qed.

(** ** Openings and the entries they stand for *)
Definition hsel (s : Z) : Z := if s <? 128 then 2 else 3.
Definition sv_tags (q : bytes) (s : Z) : list (bytes * Z) :=
  [(q ++ [hsel s], 2 * (s mod 128)); (q ++ [hsel s], 2 * (s mod 128) + 1)].
Definition tags_of (e : bytes * Openings) : list (bytes * Z) :=
  let '(p, op) := e in
  match op with
  | OBranch _ cs => map (fun z => (p, z)) cs
  | OExtension _ => [(p, 0); (p, 1)]
  | OSuffix _ svs =>
      [(p, 0); (p, 1)] ++
      (if existsb (fun sv => fst sv <? 128) svs then [(p, 2)] else []) ++
      (if existsb (fun sv => negb (fst sv <? 128)) svs then [(p, 3)] else []) ++
      flat_map (fun sv => sv_tags p (fst sv)) svs
  end.

Definition shape (p : bytes) (op : Openings) : Prop :=
  match op with
  | OBranch mt cs => internal St p = true /\ mt = MBranch (cmeta m St p) /\ sorted cs /\ Forall is_byte cs
  | OExtension e => exists t, stem_at St p = Some t /\ e = mkExtO t (MStem (cstem m t))
  | OSuffix e svs => exists t, stem_at St p = Some t /\ e = mkExtO t (MStem (cstem m t)) /\
      svs <> [] /\ sorted svs /\ Forall (fun sv => is_byte (fst sv) /\ snd sv = m (t ++ [fst sv])) svs
  end.

Definition good (o : list (bytes * Openings)) : Prop :=
  msorted o /\ forall p op, map_get p o = Some op -> shape p op.
Definition has (o : list (bytes * Openings)) (x : bytes * Z) : Prop :=
  exists p op, map_get p o = Some op /\ In x (tags_of (p, op)).

Lemma has_insert o p op x :
  has (map_insert p op o) x <->
  In x (tags_of (p, op)) \/ exists p' op', p' <> p /\ map_get p' o = Some op' /\ In x (tags_of (p', op')).
Proof.
  split.
  - intros (p' & op' & H & Hx). destruct (bytes_dec p' p) as [->|Hn].
    + rewrite map_get_insert_eq in H. injection H as <-. now left.
    + rewrite map_get_insert_ne in H by auto. right. now exists p', op'.
  - intros [H|(p' & op' & Hn & H & Hx)].
    + exists p, op. split; auto. apply map_get_insert_eq.
    + exists p', op'. split; auto. now rewrite map_get_insert_ne.
Qed.

Lemma has_at o p x :
  has o x <->
  match map_get p o with Some op => In x (tags_of (p, op)) | None => False end \/
  exists p' op', p' <> p /\ map_get p' o = Some op' /\ In x (tags_of (p', op')).
Proof.
  split.
  - intros (p' & op' & H & Hx). destruct (bytes_dec p' p) as [->|Hn].
    + rewrite H. now left.
    + right. now exists p', op'.
  - intros [H|(p' & op' & Hn & H & Hx)].
    + destruct (map_get p o) as [op|] eqn:E; [|destruct H]. now exists p, op.
    + now exists p', op'.
Qed.

Lemma has_update o p op New :
  (forall x, In x (tags_of (p, op)) <->
     match map_get p o with Some op' => In x (tags_of (p, op')) | None => False end \/ New x) ->
  forall x, has (map_insert p op o) x <-> has o x \/ New x.
Proof. intros H x. rewrite has_insert, (has_at o p), H. tauto. Qed.

Lemma good_insert o p op : good o -> shape p op -> good (map_insert p op o).
Proof.
  intros [H1 H2] Hs. split; [now apply msorted_insert|]. intros p' op' H.
  destruct (bytes_dec p' p) as [->|Hn].
  - rewrite map_get_insert_eq in H. injection H as <-. auto.
  - rewrite map_get_insert_ne in H by auto. now apply H2.
Qed.

Lemma good_nil : good [].
Proof. split; [constructor|discriminate]. Qed.
Lemma has_nil x : has [] x <-> False.
Proof. split; [intros (p & op & H & _); discriminate|tauto]. Qed.

Lemma insert_branch_ok o p z : good o -> internal St p = true -> is_byte z ->
  exists o', insert_branch_opening o p z (MBranch (cmeta m St p)) = Ok o' /\ good o' /\
    forall x, has o' x <-> has o x \/ x = (p, z).
Proof.
  intros Hg Hi Hz. unfold insert_branch_opening.
  destruct (map_get p o) as [[e svs|mt cs|e]|] eqn:E.
  - destruct (proj2 Hg _ _ E) as (t & H & _). apply stem_at_spec in H as (H & _). congruence.
  - destruct (proj2 Hg _ _ E) as (_ & -> & Hs & Hb). eexists. split; [reflexivity|]. split.
    + apply good_insert; auto. cbn. repeat split; auto; [now apply sorted_set_insert|].
      apply Forall_forall. intros x Hx. apply In_set_insert in Hx as [->|Hx]; auto.
      rewrite Forall_forall in Hb. auto.
    + apply has_update. intro x. rewrite E. cbn [tags_of]. rewrite !in_map_iff. split.
      * intros (c & <- & Hc). apply In_set_insert in Hc as [->|Hc]; auto. left. eauto.
      * intros [(c & <- & Hc)| ->]; eexists; (split; [reflexivity|]); apply In_set_insert; auto.
  - destruct (proj2 Hg _ _ E) as (t & H & _). apply stem_at_spec in H as (H & _). congruence.
  - eexists. split; [reflexivity|]. split.
    + apply good_insert; auto. cbn. repeat split; auto; repeat constructor; apply Hz.
    + apply has_update. intro x. rewrite E. cbn. intuition congruence.
Qed.

Lemma insert_ext_ok o q t : good o -> stem_at St q = Some t ->
  good (insert_ext_opening o q t (MStem (cstem m t))) /\
  forall x, has (insert_ext_opening o q t (MStem (cstem m t))) x <-> has o x \/ In x [(q, 0); (q, 1)].
Proof.
  intros Hg Hq. unfold insert_ext_opening. destruct (map_get q o) as [op|] eqn:E.
  - split; auto. intro x. split; auto. intros [H|H]; auto. exists q, op. split; auto.
    pose proof (proj2 Hg _ _ E) as Hs. destruct op as [e svs|mt cs|e]; cbn in *.
    + tauto.
    + destruct Hs as (Hs & _). apply stem_at_spec in Hq as (Hq & _). congruence.
    + exact H.
  - split.
    + apply good_insert; auto. cbn. eauto.
    + apply has_update. intro x. rewrite E. cbn. tauto.
Qed.

Lemma stem_meta_eqb_refl x : stem_meta_eqb x x = true.
Proof. unfold stem_meta_eqb. now rewrite !geqb_refl, !feqb_refl. Qed.
Lemma ext_opening_eqb_refl t x : ext_opening_eqb (mkExtO t (MStem x)) (mkExtO t (MStem x)) = true.
Proof. unfold ext_opening_eqb. cbn. now rewrite beqb_refl, stem_meta_eqb_refl. Qed.

Lemma existsb_set_insert {K} {CK : Cmp K} {CL : CmpLaws K} (f : K -> bool) k s :
  existsb f (set_insert k s) = f k || existsb f s.
Proof.
  apply eq_true_iff_eq. rewrite orb_true_iff, !existsb_exists. split.
  - intros (x & Hx & E). apply In_set_insert in Hx as [->|Hx]; eauto.
  - intros [E|(x & Hx & E)]; [exists k|exists x]; split; auto; apply In_set_insert; auto.
Qed.

Lemma suffix_tags_insert q e sv svs x :
  In x (tags_of (q, OSuffix e (set_insert sv svs))) <->
  In x (tags_of (q, OSuffix e svs)) \/ In x ((q, 0) :: (q, 1) :: (q, hsel (fst sv)) :: sv_tags q (fst sv)).
Proof.
  cbn [tags_of]. rewrite !in_app_iff, !existsb_set_insert, !in_flat_map.
  assert (E : (exists y, In y (set_insert sv svs) /\ In x (sv_tags q (fst y))) <->
     In x (sv_tags q (fst sv)) \/ exists y, In y svs /\ In x (sv_tags q (fst y))).
  { split.
    - intros (y & Hy & H). apply In_set_insert in Hy as [->|Hy]; eauto.
    - intros [H|(y & Hy & H)]; [exists sv|exists y]; split; auto; apply In_set_insert; auto. }
  rewrite E. unfold hsel. cbn [In].
  destruct (fst sv <? 128); cbn [negb orb];
    destruct (existsb (fun sv => fst sv <? 128) svs);
    destruct (existsb (fun sv => negb (fst sv <? 128)) svs); cbn [In orb]; tauto.
Qed.

Lemma insert_suffix_ok o q t s : good o -> stem_at St q = Some t -> is_byte s ->
  exists o', insert_suffix_opening o q (mkExtO t (MStem (cstem m t))) (s, m (t ++ [s])) = Ok o' /\ good o' /\
    forall x, has o' x <-> has o x \/ In x ((q, 0) :: (q, 1) :: (q, hsel s) :: sv_tags q s).
Proof.
  intros Hg Hq Hs. unfold insert_suffix_opening.
  destruct (map_get q o) as [[e svs|mt cs|e]|] eqn:E.
  - destruct (proj2 Hg _ _ E) as (t' & Ht & -> & Hne & Hso & Hsv).
    assert (t' = t) by congruence. subst t'.
    rewrite ext_opening_eqb_refl. cbn [assertb rbind]. eexists. split; [reflexivity|]. split.
    + apply good_insert; auto. exists t. repeat split; auto.
      * intro H. assert (X : In (s, m (t ++ [s])) []) by (rewrite <- H; apply In_set_insert; auto). destruct X.
      * now apply sorted_set_insert.
      * apply Forall_forall. intros x Hx. apply In_set_insert in Hx as [->|Hx]; auto.
        rewrite Forall_forall in Hsv. auto.
    + apply has_update. intro x. rewrite E. apply suffix_tags_insert.
  - destruct (proj2 Hg _ _ E) as (H & _). apply stem_at_spec in Hq as (Hq & _). congruence.
  - destruct (proj2 Hg _ _ E) as (t' & Ht & ->). assert (t' = t) by congruence. subst t'.
    rewrite ext_opening_eqb_refl. cbn [assertb rbind]. eexists. split; [reflexivity|]. split.
    + apply good_insert; auto. exists t. repeat split; auto; [discriminate|repeat constructor|].
      repeat constructor; auto; apply Hs.
    + apply has_update. intro x. rewrite E. rewrite suffix_tags_insert. cbn. tauto.
  - eexists. split; [reflexivity|]. split.
    + apply good_insert; auto. exists t. repeat split; auto; [discriminate|repeat constructor|].
      repeat constructor; auto; apply Hs.
    + apply has_update. intro x. rewrite E. rewrite suffix_tags_insert. cbn. tauto.
Qed.

(** ** One key *)
Definition btags (s : bytes) (l : list nat) : list (bytes * Z) := map (fun i => (firstn i s, nth i s 0)) l.

Lemma insert_branches_app o l1 l2 :
  insert_branches o (l1 ++ l2) = let! o := insert_branches o l1 in insert_branches o l2.
Proof.
  revert o; induction l1 as [|[[p z] n] l1 IH]; intro o; cbn [app insert_branches rbind]; auto.
  destruct n; auto. destruct (insert_branch_opening o p z (MBranch m0)); cbn [rbind]; auto.
Qed.

Lemma insert_branches_ok s l o : is_stem s -> good o ->
  Forall (fun i => (i < 31)%nat /\ internal St (firstn i s) = true) l ->
  exists o', insert_branches o (map (branch_node m St s) l) = Ok o' /\ good o' /\
    forall x, has o' x <-> has o x \/ In x (btags s l).
Proof.
  intros Hs. revert o; induction l as [|i l IH]; intros o Hg Hl.
  - exists o. split; [reflexivity|]. split; auto. intro x. cbn. tauto.
  - apply Forall_cons_iff in Hl as [[Hi Hin] Hl]. cbn [map insert_branches branch_node].
    destruct (insert_branch_ok o (firstn i s) (nth i s 0) Hg Hin (stem_byte s i Hs Hi)) as (o1 & E1 & G1 & H1).
    unfold branch_node at 1. rewrite E1. cbn [rbind].
    destruct (IH o1 G1 Hl) as (o2 & E2 & G2 & H2). exists o2. split; auto. split; auto.
    intro x. unfold btags in *. cbn [map In]. rewrite H2, H1.
    split; [intros [[H|H]|H]|intros [H|[H|H]]]; auto.
Qed.

Definition status (s : bytes) : ExtPresent :=
  match stem_at St (firstn (sd St s) s) with
  | None => ExtNone
  | Some t => if beqb t s then ExtPres else ExtDifferentStem
  end.

Lemma ext_pres_state k : is_key k -> ext_pres (key_state_of m St k) = status (firstn 31 k).
Proof.
  intro Hk. unfold key_state_of, status. fold (end_stem St (firstn 31 k)).
  destruct (end_stem St (firstn 31 k)) as [t|] eqn:E; auto.
  destruct (m k) as [v|] eqn:Ev.
  - destruct (can_keys _ _ _ C k v Ev) as [_ Hin].
    rewrite (end_stem_self db m St C _ Hin) in E. injection E as <-. now rewrite beqb_refl.
  - now destruct (beqb t (firstn 31 k)).
Qed.

Lemma collect_one_ok k od : is_key k -> good (od_openings od) ->
  let s := firstn 31 k in
  exists o', collect_one db od k =
    Ok (mkOD o' (map_insert s (status s) (od_ext od)) (map_insert s (Z.of_nat (sd St s)) (od_depths od))) /\
  good o' /\ forall x, has o' x <-> has (od_openings od) x \/ In x (entries St k).
Proof.
  intros Hk Hg s. unfold collect_one.
  rewrite (find_key_path_ok db m St C k Hk). cbn [rbind].
  assert (Hs : is_stem s) by apply (key_stem k Hk).
  assert (Hl : length s = 31%nat) by apply Hs.
  assert (Hkl : length k = 32%nat) by apply Hk.
  destruct (sd_spec St s W Hl) as (Hi & Hn & Hb).
  unfold Base.index. rewrite (nth_error_nth' k 0) by (unfold bytes in *; lia). cbn [unwrap rbind].
  assert (Hlist : Forall (fun i => (i < 31)%nat /\ internal St (firstn i s) = true) (seq 0 (sd St s))).
  { apply Forall_forall. intros i H. apply in_seq in H. split; [lia|]. apply Hi. lia. }
  destruct (insert_branches_ok s (seq 0 (sd St s)) (od_openings od) Hs Hg Hlist) as (o1 & E1 & G1 & H1).
  unfold entries. fold s. unfold key_path_of. fold s.
  change (stem_at St (firstn (sd St s) s)) with (end_stem St s).
  pose proof (ext_pres_state k Hk) as Est. fold s in Est.
  destruct (end_stem St s) as [t|] eqn:Et.
  - cbn [kp_nodes kp_state kp_depth]. rewrite rev_app_distr. cbn [rev app hd_error unwrap rbind fst].
    rewrite insert_branches_app, E1. cbn [rbind insert_branches].
    assert (Ereq : requires_extension_proof (mkKeyPath
        (map (branch_node m St s) (seq 0 (sd St s)) ++ [(firstn (sd St s) s, nth 31 k 0, MStem (cstem m t))])
        (Z.of_nat (sd St s) + 1) (key_state_of m St k)) = true).
    { unfold requires_extension_proof, key_state_of. cbn [kp_state]. fold s. rewrite Et.
      destruct (m k); auto. destruct (beqb t s); auto. }
    rewrite Ereq. cbn [negb assertb rbind].
    replace (Z.of_nat (sd St s) + 1 - 1) with (Z.of_nat (sd St s)) by lia. rewrite Est.
    assert (Eds : different_stem (key_state_of m St k) = if beqb t s then None else Some t).
    { unfold key_state_of. fold s. rewrite Et. destruct (m k) as [v|] eqn:Ev.
      - destruct (can_keys _ _ _ C k v Ev) as [_ Hin]. fold s in Hin.
        rewrite (end_stem_self db m St C s Hin) in Et. injection Et as <-. now rewrite beqb_refl.
      - now destruct (beqb t s). }
    rewrite Eds. destruct (beqb_spec t s) as [->|Hne].
    + assert (Ev : state_value (key_state_of m St k) = m (s ++ [nth 31 k 0])).
      { unfold s. rewrite <- (key_split k Hk). fold s. unfold key_state_of. fold s. rewrite Et, beqb_refl.
        destruct (m k); auto. }
      rewrite Ev.
      destruct (insert_suffix_ok o1 (firstn (sd St s) s) s (nth 31 k 0) G1 Et) as (o2 & E2 & G2 & H2).
      { apply key_byte; auto; lia. }
      rewrite E2. cbn [rbind]. exists o2. split; [reflexivity|]. split; auto.
      intro x. rewrite H2, H1. rewrite in_app_iff. unfold btags, sv_tags, hsel. cbn [app In]. tauto.
    + destruct (insert_ext_ok o1 (firstn (sd St s) s) t G1 Et) as [G2 H2].
      eexists. split; [reflexivity|]. split; auto.
      intro x. rewrite H2, H1, in_app_iff. unfold btags. cbn [app In]. tauto.
  - cbn [kp_nodes kp_state kp_depth].
    assert (Ehd : exists x, hd_error (rev (map (branch_node m St s) (seq 0 (sd St s)))) = Some x).
    { destruct (sd St s) as [|e]; [lia|]. rewrite seq_S, map_app, rev_app_distr. cbn. eauto. }
    destruct Ehd as [[pz mt] ->]. cbn [unwrap rbind]. rewrite E1. cbn [rbind].
    assert (Ereq : requires_extension_proof (mkKeyPath
        (map (branch_node m St s) (seq 0 (sd St s))) (Z.of_nat (sd St s)) (key_state_of m St k)) = false).
    { unfold requires_extension_proof, key_state_of. cbn [kp_state]. fold s. now rewrite Et. }
    rewrite Ereq. cbn [negb]. rewrite Est. eexists. split; [reflexivity|]. split; auto.
    intro x. rewrite H1, in_app_iff. cbn [In]. unfold btags. tauto.
Qed.

(** ** All keys *)
Definition dgraph (l : list bytes) : list (bytes * Z) := map (fun s => (s, Z.of_nat (sd St s))) l.
Definition sgraph (l : list bytes) : list (bytes * ExtPresent) := map (fun s => (s, status s)) l.

Lemma collect_loop_ok keys od l : Forall is_key keys -> good (od_openings od) ->
  od_ext od = sgraph l -> od_depths od = dgraph l ->
  exists o', collect_loop db od keys =
    Ok (mkOD o' (sgraph (fold_left (fun s k => set_insert k s) (map (firstn 31) keys) l))
                (dgraph (fold_left (fun s k => set_insert k s) (map (firstn 31) keys) l))) /\
  good o' /\ forall x, has o' x <-> has (od_openings od) x \/ In x (flat_map (entries St) keys).
Proof.
  revert od l; induction keys as [|k keys IH]; intros od l Hk Hg He Hd.
  - exists (od_openings od). cbn. destruct od; cbn in *. subst. split; auto. split; auto. tauto.
  - apply Forall_cons_iff in Hk as [Hk Hks]. cbn [collect_loop].
    destruct (collect_one_ok k od Hk Hg) as (o1 & E1 & G1 & H1). rewrite E1. cbn [rbind].
    edestruct (IH (mkOD o1 (map_insert (firstn 31 k) (status (firstn 31 k)) (od_ext od))
      (map_insert (firstn 31 k) (Z.of_nat (sd St (firstn 31 k))) (od_depths od)))
      (set_insert (firstn 31 k) l)) as (o2 & E2 & G2 & H2); auto.
    + cbn [od_ext]. rewrite He. exact (map_insert_graph status (firstn 31 k) l).
    + cbn [od_depths]. rewrite Hd. exact (map_insert_graph (fun s => Z.of_nat (sd St s)) (firstn 31 k) l).
    + exists o2. cbn [map fold_left flat_map]. split; [exact E2|]. split; auto.
      intro x. rewrite H2. cbn [od_openings]. rewrite H1, in_app_iff. tauto.
Qed.

Lemma collect_ok keys : Forall is_key keys ->
  let stems := set_of (map (firstn 31) keys) in
  exists o, collect_opening_data db keys = Ok (mkOD o (sgraph stems) (dgraph stems)) /\
  good o /\ forall x, has o x <-> In x (flat_map (entries St) keys).
Proof.
  intros Hk stems. unfold collect_opening_data.
  destruct (collect_loop_ok keys (mkOD [] [] []) [] Hk good_nil eq_refl eq_refl) as (o & E & G & H).
  exists o. split; [exact E|]. split; auto. intro x. rewrite H. cbn [od_openings]. rewrite has_nil. tauto.
Qed.

(** ** Order of the entries *)
Lemma shape_prefix p op p' op' : shape p op -> shape p' op' -> klt p p' ->
  internal St p = false -> has_prefix p p' = false.
Proof.
  intros H1 H2 Hlt Hi. destruct (has_prefix p p') eqn:E; auto.
  apply has_prefix_spec in E as [w ->].
  destruct w as [|a w].
  { rewrite app_nil_r in Hlt. now apply klt_irrefl in Hlt. }
  assert (X : internal St (p ++ a :: w) = true \/ internal St (removelast (p ++ a :: w)) = true).
  { destruct op' as [e svs|mt cs|e]; cbn in H2.
    - destruct H2 as (t & Ht & _). apply stem_at_spec in Ht. tauto.
    - destruct H2; auto.
    - destruct H2 as (t & Ht & _). apply stem_at_spec in Ht. tauto. }
  rewrite removelast_app in X by discriminate.
  destruct X as [X|X]; apply internal_app in X; congruence.
Qed.

Lemma tags_path p op x : In x (tags_of (p, op)) ->
  fst x = p \/ (exists e svs, op = OSuffix e svs) /\ exists z, fst x = p ++ [z].
Proof.
  destruct op as [e svs|mt cs|e]; cbn [tags_of].
  - rewrite !in_app_iff, in_flat_map.
    intros [[<-|[<-|[]]]|[H|[H|(sv & Hsv & H)]]]; auto.
    + destruct (existsb _ svs); [|destruct H]; destruct H as [<-|[]]; auto.
    + destruct (existsb _ svs); [|destruct H]; destruct H as [<-|[]]; auto.
    + right. split; eauto. destruct H as [<-|[<-|[]]]; cbn; eauto.
  - rewrite in_map_iff. intros (z & <- & _). auto.
  - intros [<-|[<-|[]]]; auto.
Qed.

Lemma klt_fst (a b : bytes * Z) : klt (fst a) (fst b) -> klt a b.
Proof. destruct a, b. unfold klt. cbn [fst]. rewrite cmp_pair. now intros ->. Qed.
Lemma klt_snd (p : bytes) (a b : Z) : a < b -> klt (p, a) (p, b).
Proof. intro H. unfold klt. rewrite cmp_pair, cmp_refl. exact H. Qed.

Lemma klt_self_app (p : bytes) z : klt p (p ++ [z]).
Proof. unfold klt, cmp, Cmp_bytes. induction p as [|a p IH]; cbn; auto. now rewrite Z.compare_refl. Qed.

Lemma klt_app_last (p : bytes) a b : a < b -> klt (p ++ [a]) (p ++ [b]).
Proof.
  intro H. unfold klt, cmp, Cmp_bytes. induction p as [|c p IH]; cbn.
  - now rewrite (proj2 (Z.compare_lt_iff a b) H).
  - now rewrite Z.compare_refl.
Qed.

Lemma tags_cross p op p' op' x y : shape p op -> shape p' op' -> klt p p' ->
  In x (tags_of (p, op)) -> In y (tags_of (p', op')) -> klt x y.
Proof.
  intros H1 H2 Hlt Hx Hy. apply klt_fst.
  assert (Hy' : exists w, fst y = p' ++ w).
  { apply tags_path in Hy as [->|(_ & z & ->)]; [exists []; now rewrite app_nil_r|eauto]. }
  destruct Hy' as [w ->].
  apply tags_path in Hx as [->|((e & svs & ->) & z & ->)].
  - now apply list_cmp_app_r.
  - apply list_cmp_app; auto. eapply shape_prefix; eauto.
    destruct H1 as (t & Ht & _). now apply stem_at_spec in Ht.
Qed.

Lemma sv_sorted q (svs : list (Z * option bytes)) t : sorted svs ->
  Forall (fun sv => is_byte (fst sv) /\ snd sv = m (t ++ [fst sv])) svs ->
  sorted (flat_map (fun sv => sv_tags q (fst sv)) svs).
Proof.
  induction svs as [|[s v] svs IH]; intros Hs Hf; cbn [flat_map]; [constructor|].
  apply StronglySorted_inv in Hs as [Hs Hlt]. apply Forall_cons_iff in Hf as [[Hb Hv] Hf].
  apply sorted_app; auto.
  - unfold sv_tags. cbn [fst]. repeat constructor. apply klt_snd. lia.
  - intros x y Hx Hy. apply in_flat_map in Hy as ([s' v'] & Hin & Hy).
    rewrite Forall_forall in Hlt, Hf. pose proof (Hlt _ Hin) as Hl. destruct (Hf _ Hin) as [Hb' Hv'].
    cbn [fst snd] in *.
    assert (Hss : s < s').
    { unfold klt in Hl. rewrite cmp_pair in Hl. destruct (cmp s s') eqn:E; try discriminate; auto.
      apply cmp_eq in E. subst s'. rewrite Hv, Hv', cmp_refl in Hl. discriminate. }
    unfold is_byte in *.
    destruct Hx as [<-|[<-|[]]], Hy as [<-|[<-|[]]]; unfold hsel;
      (destruct (Z.ltb_spec s 128), (Z.ltb_spec s' 128); try lia;
       [apply klt_snd; rewrite !Z.mod_small by lia; lia
       |apply klt_fst; cbn [fst]; apply klt_app_last; lia
       |apply klt_snd; rewrite <- (Z.mod_add s (-1) 128), <- (Z.mod_add s' (-1) 128) by lia;
        rewrite !Z.mod_small by lia; lia]).
Qed.

Lemma tags_sorted1 p op : shape p op -> sorted (tags_of (p, op)).
Proof.
  destruct op as [e svs|mt cs|e]; cbn [tags_of].
  - intros (t & Ht & _ & _ & Hs & Hf).
    rewrite !app_assoc. apply sorted_app.
    + assert (Hsort : sorted [(p, 0); (p, 1); (p, 2); (p, 3)]).
      { repeat (constructor; [|repeat constructor; apply klt_snd; lia]). constructor. }
      destruct (existsb _ svs), (existsb (fun sv => negb _) svs); cbn [app];
        repeat (constructor; [|repeat constructor; apply klt_snd; lia]); constructor.
    + now apply (sv_sorted p svs t).
    + intros x y Hx Hy. apply in_flat_map in Hy as (sv & _ & Hy). apply klt_fst.
      assert (fst x = p) as ->.
      { destruct (existsb _ svs), (existsb (fun sv => negb _) svs); cbn [app In] in Hx;
          repeat (destruct Hx as [<-|Hx]; [reflexivity|]); destruct Hx. }
      destruct Hy as [<-|[<-|[]]]; cbn [fst]; apply klt_self_app.
  - intros (_ & _ & Hs & _). induction cs as [|c cs IH]; cbn [map]; [constructor|].
    apply StronglySorted_inv in Hs as [Hs Hc]. constructor; [now apply IH|].
    apply Forall_forall. intros x Hx. apply in_map_iff in Hx as (z & <- & Hz).
    apply klt_snd. rewrite Forall_forall in Hc. apply Hc. auto.
  - intros _. repeat constructor. apply klt_snd. lia.
Qed.

Lemma good_cons e o : good (e :: o) ->
  shape (fst e) (snd e) /\ good o /\ Forall (klt (fst e)) (map fst o).
Proof.
  destruct e as [p op]. intros [Hs H]. unfold msorted in Hs. cbn [map] in Hs.
  apply StronglySorted_inv in Hs as [Hs Hp]. split; [|split; [split|]]; auto.
  - apply H. cbn. now rewrite cmp_refl.
  - intros p' op' E. apply H. cbn. destruct (cmp p' p) eqn:Ec; auto.
    apply cmp_eq in Ec. subst p'. exfalso. apply map_get_In in E.
    rewrite Forall_forall in Hp. apply (klt_irrefl p), Hp, in_map_iff. now exists (p, op').
Qed.

Lemma tags_sorted o : good o -> sorted (flat_map tags_of o).
Proof.
  induction o as [|[p op] o IH]; intro Hg; cbn [flat_map]; [constructor|].
  apply good_cons in Hg as (Hs & Hg & Hp). cbn [fst snd] in *.
  apply sorted_app; auto; [now apply tags_sorted1|].
  intros x y Hx Hy. apply in_flat_map in Hy as ([p' op'] & Hin & Hy).
  rewrite Forall_forall in Hp. eapply tags_cross; [exact Hs| | |exact Hx|exact Hy].
  - apply (proj2 Hg). apply map_get_sorted; auto. apply Hg.
  - apply Hp, in_map_iff. now exists (p', op').
Qed.

Lemma has_flat o x : good o -> has o x <-> In x (flat_map tags_of o).
Proof.
  intros [Hs _]. rewrite in_flat_map. split.
  - intros (p & op & H & Hx). exists (p, op). split; auto. now apply map_get_In.
  - intros ([p op] & H & Hx). exists p, op. split; auto. now apply map_get_sorted.
Qed.

Lemma tags_all keys o : good o -> (forall x, has o x <-> In x (flat_map (entries St) keys)) ->
  flat_map tags_of o = all_entries St keys.
Proof.
  intros Hg H. apply sorted_ext; [now apply tags_sorted|apply sorted_set_of|].
  intro x. unfold all_entries. rewrite In_set_of, <- H. symmetry. now apply has_flat.
Qed.

(** ** The polynomials *)
Definition all_z : list Z := map Z.of_nat (seq 0 256).

Lemma nth_all_z (f : Z -> F) i d : 0 <= i < 256 -> nth (Z.to_nat i) (map f all_z) d = f i.
Proof.
  intro H. unfold all_z. rewrite map_map.
  rewrite (nth_indep _ d (f (Z.of_nat 0))) by (rewrite map_length, seq_length; lia).
  rewrite (map_nth (fun x => f (Z.of_nat x))), seq_nth by lia. f_equal. lia.
Qed.

Lemma pairs_flat {X} (f g : nat -> X) n a :
  flat_map (fun i => [f i; g i]) (seq a n) =
  map (fun j => if Nat.even j then f (Nat.div2 j) else g (Nat.div2 j)) (seq (2 * a) (2 * n)).
Proof.
  revert a; induction n as [|n IH]; intro a; [reflexivity|].
  replace (2 * S n)%nat with (S (S (2 * n)))%nat by lia.
  cbn [seq flat_map app map]. rewrite IH.
  assert (E1 : Nat.even (2 * a) = true) by (apply Nat.even_spec; now exists a).
  assert (E2 : Nat.even (S (2 * a)) = false).
  { rewrite Nat.even_succ. rewrite <- Nat.negb_even, E1. reflexivity. }
  rewrite E1, E2, Nat.div2_double, Nat.div2_succ_double.
  replace (2 * S a)%nat with (S (S (2 * a)))%nat by lia. reflexivity.
Qed.

Lemma half_hashes_flat t l :
  half_hashes db t l = Ok (flat_map (fun i => [leaf_low (m (t ++ [i])); leaf_high (m (t ++ [i]))]) l).
Proof.
  induction l as [|i l IH]; cbn [half_hashes flat_map]; auto.
  cbn [get_leaf memory_db_ops]. unfold mem_get_leaf. cbn [rbind]. rewrite (can_leaf _ _ _ C), IH.
  destruct (m (t ++ [i])) as [v|]; cbn [rbind app]; auto.
  change (le_Z (firstn 16 (repeat 0 32))) with 0.
  change (le_Z (firstn 16 (skipn 16 (repeat 0 32)))) with 0.
  rewrite of_Z_0. reflexivity.
Qed.

Lemma get_half_hashes_ok t b : b = 0 \/ b = 1 ->
  get_half_hashes db t (128 * b) = Ok (map (suffix_vec m t b) all_z).
Proof.
  intro Hb. unfold get_half_hashes.
  assert ((128 * b =? 0) || (128 * b =? 128) = true) as -> by (destruct Hb as [->| ->]; reflexivity).
  cbn [assertb rbind]. rewrite half_hashes_flat. cbn [rbind].
  assert (E : flat_map (fun i => [leaf_low (m (t ++ [i])); leaf_high (m (t ++ [i]))])
     (map (fun i : nat => 128 * b + Z.of_nat i) (seq 0 128)) = map (suffix_vec m t b) all_z).
  { assert (forall {X Y Z0} (f : X -> Y) (g : Y -> list Z0) l, flat_map g (map f l) = flat_map (fun x => g (f x)) l) as FM.
    { intros X Y Z0 f g l. induction l as [|x l IH]; cbn; auto. now rewrite IH. }
    rewrite FM.
    rewrite (pairs_flat (fun i => leaf_low (m (t ++ [128 * b + Z.of_nat i])))
                        (fun i => leaf_high (m (t ++ [128 * b + Z.of_nat i]))) 128 0).
    unfold all_z. rewrite map_map. change (2 * 0)%nat with 0%nat. change (2 * 128)%nat with 256%nat.
    apply map_ext. intro j. unfold suffix_vec.
    assert (Ev : Z.even (Z.of_nat j) = Nat.even j).
    { apply eq_true_iff_eq. rewrite Z.even_spec, Nat.even_spec. split.
      - intros [x Hx]. exists (Z.to_nat x). lia.
      - intros [x ->]. exists (Z.of_nat x). lia. }
    rewrite Ev, Nat.div2_div, Nat2Z.inj_div. reflexivity. }
  rewrite E. rewrite map_length. unfold all_z at 1. rewrite map_length, seq_length. reflexivity.
Qed.

Lemma children_hashes_ok p l : internal St p = true ->
  children_hashes db p l = Ok (map (inner_vec m St p) l).
Proof.
  intro Hi. induction l as [|i l IH]; cbn [children_hashes map]; auto.
  cbn [get_branch_child memory_db_ops]. unfold mem_get_branch_child. cbn [rbind]. rewrite (can_branch _ _ _ C).
  unfold cbranch. rewrite removelast_last, Hi. rewrite IH. cbn [rbind].
  change (inner_vec m St p i) with (cval m St (p ++ [i])).
  assert (Np : p ++ [i] <> []) by (intros X; apply app_eq_nil in X as [_ X]; discriminate).
  destruct (internal St (p ++ [i])) eqn:E.
  - rewrite cval_many; [reflexivity|exact W|apply internal_many; auto].
  - destruct (internal_false_under St _ E) as [U|[t U]]; rewrite U.
    + rewrite (cval_none m St _ U). reflexivity.
    + cbn [get_stem_meta memory_db_ops]. unfold mem_get_stem_meta. cbn [rbind]. rewrite (can_stem _ _ _ C).
      assert (X : In t (under St (p ++ [i]))) by (rewrite U; left; reflexivity).
      apply under_In in X as [X _]. destruct (in_dec bytes_dec t St); [|contradiction].
      cbn [unwrap rbind]. rewrite (cval_one m St _ t U). reflexivity.
Qed.

(** A query opens the entry [tg] of the tree, truthfully. *)
Definition opens (tg : bytes * Z) (q : ProverQuery) : Prop :=
  pq_comm q = node_comm m St (fst tg) /\ pq_point q = snd tg /\
  pq_result q = node_vec m St (fst tg) (snd tg) /\
  (forall i, 0 <= i < 256 -> nth (Z.to_nat i) (pq_poly q) fzero = node_vec m St (fst tg) i) /\
  true_opening q.

Lemma opens_intro p z c (f : list F) y :
  c = node_comm m St p -> y = node_vec m St p z -> 0 <= z < 256 -> (length f <= 256)%nat ->
  (forall i, 0 <= i < 256 -> nth (Z.to_nat i) f fzero = node_vec m St p i) ->
  (Z.to_nat z < length f)%nat -> opens (p, z) (mkPQ c f z y).
Proof.
  intros Hc Hy Hz Hl Hf Hlt. unfold opens, true_opening. cbn [fst snd pq_comm pq_poly pq_point pq_result].
  repeat split; auto; try lia.
  - rewrite Hc. unfold node_comm. apply vcommit_ext. intros i Hi. now rewrite Hf.
  - rewrite (nth_error_nth' f fzero) by auto. now rewrite Hf, Hy.
Qed.

Lemma ext_poly t i : 0 <= i < 256 ->
  nth (Z.to_nat i) [fone; of_Z (le_Z t); hash (suffix_comm m t 0); hash (suffix_comm m t 1)] fzero = ext_vec m t i.
Proof.
  intro Hi. unfold ext_vec.
  destruct (Z.eqb_spec i 0) as [->|]; [reflexivity|].
  destruct (Z.eqb_spec i 1) as [->|]; [reflexivity|].
  destruct (Z.eqb_spec i 2) as [->|]; [reflexivity|].
  destruct (Z.eqb_spec i 3) as [->|]; [reflexivity|].
  apply nth_overflow. cbn [length]. lia.
Qed.

Lemma ext_open_ok q t c1 c2 : stem_at St q = Some t ->
  exists qs, ext_open_query (mkExtO t (MStem (cstem m t))) c1 c2 = Ok qs /\
  Forall2 opens ([(q, 0); (q, 1)] ++ (if c1 then [(q, 2)] else []) ++ (if c2 then [(q, 3)] else [])) qs.
Proof.
  intro Hq. unfold ext_open_query. cbn [eo_meta eo_stem into_stem rbind].
  eexists. split; [reflexivity|]. cbn [cstem sm_comm sm_hash_c1 sm_hash_c2].
  assert (H : forall z, 0 <= z < 4 -> opens (q, z) (mkPQ (ext_comm m t)
     [fone; of_Z (le_Z t); hash (suffix_comm m t 0); hash (suffix_comm m t 1)] z (ext_vec m t z))).
  { intros z Hz. apply opens_intro; try (cbn [length]; lia).
    - unfold node_comm. rewrite (node_vec_ext q t Hq). reflexivity.
    - now rewrite (node_vec_ext q t Hq).
    - intros i Hi. rewrite (node_vec_ext q t Hq). now apply ext_poly. }
  pose proof (H 0 ltac:(lia)) as H0. pose proof (H 1 ltac:(lia)) as H1.
  pose proof (H 2 ltac:(lia)) as H2. pose proof (H 3 ltac:(lia)) as H3.
  cbn [app]. constructor; [exact H0|]. constructor; [exact H1|].
  destruct c1, c2; cbn [app]; repeat (constructor; auto).
Qed.

Lemma suffix_vec_low t s : is_byte s ->
  suffix_vec m t (s / 128) (2 * (s mod 128)) = leaf_low (m (t ++ [s])) /\
  suffix_vec m t (s / 128) (2 * (s mod 128) + 1) = leaf_high (m (t ++ [s])).
Proof.
  intro Hs. unfold suffix_vec. rewrite Z.even_mul. cbn [Z.even orb].
  replace (Z.even (2 * (s mod 128) + 1)) with false
    by (rewrite Z.add_comm, Z.even_add_mul_2; reflexivity).
  rewrite (Z.mul_comm 2 (s mod 128)), Z.div_mul by lia.
  rewrite Z.div_add_l by lia. change (1 / 2) with 0. rewrite Z.add_0_r.
  rewrite <- (Z.div_mod s 128) by lia. auto.
Qed.

Lemma suffix_query_ok q t s : stem_at St q = Some t -> is_byte s ->
  exists qs, suffix_query db t (cstem m t) (s, m (t ++ [s])) = Ok qs /\ Forall2 opens (sv_tags q s) qs.
Proof.
  intros Hq Hs. unfold suffix_query, is_byte in *.
  set (b := s / 128).
  assert (Eb : (if s <? 128 then 0 else 128) = 128 * b /\ (b = 0 \/ b = 1) /\ hsel s = b + 2 /\
    (if s <? 128 then suffix_comm m t 0 else suffix_comm m t 1) = suffix_comm m t b).
  { unfold b, hsel. destruct (Z.ltb_spec s 128).
    - rewrite Z.div_small by lia. auto.
    - replace (s / 128) with 1 by (apply Z.div_unique with (s - 128); lia). auto. }
  destruct Eb as (Eb1 & Eb2 & Eb3 & Eb4). rewrite Eb1, (get_half_hashes_ok t b Eb2).
  cbn [cstem sm_c1 sm_c2]. rewrite Eb4.
  destruct (suffix_vec_low t s Hs) as [El Eh]. fold b in El, Eh.
  assert (Ev : match m (t ++ [s]) with Some v => (value_low v, value_high v) | None => (fzero, fzero) end =
    (suffix_vec m t b (2 * (s mod 128)), suffix_vec m t b (2 * (s mod 128) + 1))).
  { rewrite El, Eh. now destruct (m (t ++ [s])). }
  rewrite Ev. cbn [rbind]. eexists. split; [reflexivity|].
  assert (Hm : 0 <= s mod 128 < 128) by (apply Z.mod_pos_bound; lia).
  assert (Enode : node_vec m St (q ++ [hsel s]) = suffix_vec m t b).
  { rewrite (node_vec_suffix q t _ Hq), Eb3. f_equal. lia. }
  assert (Hlen : length (map (suffix_vec m t b) all_z) = 256%nat)
    by (unfold all_z; rewrite !map_length, seq_length; reflexivity).
  assert (H : forall z, 0 <= z < 256 -> opens (q ++ [hsel s], z)
      (mkPQ (suffix_comm m t b) (map (suffix_vec m t b) all_z) z (suffix_vec m t b z))).
  { intros z Hz. apply opens_intro; rewrite ?Hlen; try lia.
    - unfold node_comm. rewrite Enode. reflexivity.
    - now rewrite Enode.
    - intros i Hi. rewrite Enode. apply nth_all_z; lia. }
  unfold sv_tags. constructor; [|constructor; [|constructor]]; apply H; lia.
Qed.

Lemma suffix_queries_ok q t svs : stem_at St q = Some t ->
  Forall (fun sv => is_byte (fst sv) /\ snd sv = m (t ++ [fst sv])) svs ->
  exists qs, suffix_queries db t (cstem m t) svs = Ok qs /\
  Forall2 opens (flat_map (fun sv => sv_tags q (fst sv)) svs) qs.
Proof.
  intro Hq. induction svs as [|[s v] svs IH]; intro Hf; cbn [suffix_queries flat_map].
  - eexists. split; [reflexivity|constructor].
  - apply Forall_cons_iff in Hf as [[Hs Hv] Hf]. cbn [fst snd] in *. subst v.
    destruct (suffix_query_ok q t s Hq Hs) as (q1 & -> & H1). destruct (IH Hf) as (q2 & -> & H2).
    cbn [rbind]. eexists. split; [reflexivity|]. now apply Forall2_app.
Qed.

Lemma branch_queries_ok p cs : internal St p = true -> Forall is_byte cs ->
  exists qs, branch_queries (inner_comm m St p) (map (inner_vec m St p) all_z) cs = Ok qs /\
  Forall2 opens (map (fun z => (p, z)) cs) qs.
Proof.
  intros Hp. induction cs as [|c cs IH]; intro Hf; cbn [branch_queries map].
  - eexists. split; [reflexivity|constructor].
  - apply Forall_cons_iff in Hf as [Hc Hf]. destruct (IH Hf) as (qs & -> & H). unfold is_byte in Hc.
    assert (Hlen : length (map (inner_vec m St p) all_z) = 256%nat)
      by (unfold all_z; rewrite !map_length, seq_length; reflexivity).
    unfold Base.index. rewrite (nth_error_nth' _ fzero) by (rewrite Hlen; lia).
    rewrite nth_all_z by lia. cbn [unwrap rbind]. eexists. split; [reflexivity|]. constructor; auto.
    apply opens_intro; rewrite ?Hlen; try lia.
    + unfold node_comm. now rewrite (node_vec_inner p Hp).
    + now rewrite (node_vec_inner p Hp).
    + intros i Hi. rewrite (node_vec_inner p Hp). now apply nth_all_z.
Qed.

Definition ext_stems (o : list (bytes * Openings)) : list bytes :=
  flat_map (fun e => match snd e with OExtension x => [eo_stem x] | _ => [] end) o.

Lemma open_all_ok o diff : good o ->
  exists qs, open_all db o diff = Ok (qs, fold_left (fun s k => set_insert k s) (ext_stems o) diff) /\
  Forall2 opens (flat_map tags_of o) qs.
Proof.
  revert diff; induction o as [|[p op] o IH]; intros diff Hg; cbn [open_all flat_map ext_stems].
  - eexists. split; [reflexivity|constructor].
  - apply good_cons in Hg as (Hs & Hg & _). cbn [fst snd] in *.
    destruct op as [e svs|mt cs|e]; cbn [shape] in Hs.
    + destruct Hs as (t & Hq & -> & _ & _ & Hf). unfold suffix_open_query. cbn [eo_stem eo_meta into_stem].
      edestruct (ext_open_ok p t) as (q1 & -> & H1); [exact Hq|]. cbn [rbind].
      destruct (suffix_queries_ok p t svs Hq Hf) as (q2 & -> & H2). cbn [rbind].
      destruct (IH diff Hg) as (q3 & -> & H3). cbn [rbind app].
      eexists. split; [reflexivity|]. apply Forall2_app; auto. cbn [tags_of].
      rewrite !app_assoc. apply Forall2_app; auto.
    + destruct Hs as (Hp & -> & _ & Hb). unfold branch_open_query, get_branch_children_hashes.
      cbn [into_branch rbind]. rewrite (children_hashes_ok p byte_range Hp). cbn [rbind cmeta bm_comm].
      destruct (branch_queries_ok p cs Hp Hb) as (q1 & E1 & H1).
      change byte_range with all_z. rewrite E1. cbn [rbind].
      destruct (IH diff Hg) as (q3 & -> & H3). cbn [rbind app].
      eexists. split; [reflexivity|]. apply Forall2_app; auto.
    + destruct Hs as (t & Hq & ->). cbn [eo_stem].
      edestruct (ext_open_ok p t false false) as (q1 & -> & H1); [exact Hq|]. cbn [rbind].
      destruct (IH (set_insert t diff) Hg) as (q3 & -> & H3). cbn [rbind app fold_left].
      eexists. split; [reflexivity|]. apply Forall2_app; auto.
Qed.

(** ** Which entries belong to which node *)
Definition qpos (k : bytes) : bytes := firstn (sd St (firstn 31 k)) (firstn 31 k).

Lemma entries_cases k p z : is_key k -> In (p, z) (entries St k) <->
  (exists i, (i < sd St (firstn 31 k))%nat /\ p = firstn i (firstn 31 k) /\ z = nth i (firstn 31 k) 0) \/
  (p = qpos k /\ exists t, stem_at St p = Some t /\
     (z = 0 \/ z = 1 \/ (t = firstn 31 k /\ z = hsel (nth 31 k 0)))) \/
  (p = qpos k ++ [hsel (nth 31 k 0)] /\ stem_at St (qpos k) = Some (firstn 31 k) /\
     (z = 2 * (nth 31 k 0 mod 128) \/ z = 2 * (nth 31 k 0 mod 128) + 1)).
Proof.
  intro Hk. unfold entries. fold (qpos k). fold (hsel (nth 31 k 0)). rewrite in_app_iff, in_map_iff.
  assert (E1 : (exists x : nat, (firstn x (firstn 31 k), nth x (firstn 31 k) 0) = (p, z) /\
     In x (seq 0 (sd St (firstn 31 k)))) <->
     exists i, (i < sd St (firstn 31 k))%nat /\ p = firstn i (firstn 31 k) /\ z = nth i (firstn 31 k) 0).
  { split; intros (i & H1 & H2).
    - injection H1 as <- <-. apply in_seq in H2. exists i. repeat split. lia.
    - destruct H2 as [-> ->]. exists i. split; auto. apply in_seq. lia. }
  rewrite E1. destruct (stem_at St (qpos k)) as [t|] eqn:Et.
  - rewrite in_app_iff. destruct (beqb_spec t (firstn 31 k)) as [Ht|Ht]; cbn [In]; split.
    + intros [H|[[H|[H|[]]]|[H|[H|[H|[]]]]]]; auto; injection H as H H'; subst p z;
        try (right; left; split; auto; exists t; auto; fail); right; right; subst t; auto.
    + intros [H|[(Hp & t' & Ht' & H)|(Hp & Ht' & H)]]; auto; right.
      * subst p. assert (t' = t) by congruence. subst t'.
        destruct H as [->|[->|[_ ->]]]; auto.
      * subst p. destruct H as [->| ->]; auto.
    + intros [H|[[H|[H|[]]]|[]]]; auto; injection H as H H'; subst p z; right; left; split; auto; exists t; auto.
    + intros [H|[(Hp & t' & Ht' & H)|(Hp & Ht' & H)]]; auto; right.
      * subst p. assert (t' = t) by congruence. subst t'.
        destruct H as [->|[->|[? ->]]]; auto; contradiction.
      * congruence.
  - cbn [In]. split; [tauto|]. intros [H|[(-> & t' & Ht' & H)|(-> & Ht' & H)]]; auto; congruence.
Qed.

Lemma stem_at_unique p q t : stem_at St p = Some t -> stem_at St q = Some t -> p = q.
Proof.
  assert (X : forall p q, stem_at St p = Some t -> stem_at St q = Some t -> (length p < length q)%nat -> False).
  { clear p q. intros p q Hp Hq Hlt.
    destruct (stem_at_In p t Hp) as [_ Pp]. destruct (stem_at_In q t Hq) as [_ Pq].
    apply stem_at_spec in Hp as (Hp & _ & _). apply stem_at_spec in Hq as (_ & Hq & _).
    apply has_prefix_spec in Pp as [u Hu]. apply has_prefix_spec in Pq as [v Hv].
    assert (E : q = p ++ firstn (length q - length p) u).
    { rewrite Hu in Hv. apply (f_equal (firstn (length q))) in Hv.
      rewrite firstn_app, (firstn_all2 p), (firstn_app_exact q) in Hv by (auto; lia). auto. }
    remember (firstn (length q - length p) u) as w. destruct w as [|a w].
    { rewrite app_nil_r in E. subst q. lia. }
    rewrite E, removelast_app in Hq by discriminate. apply internal_app in Hq. congruence. }
  intros Hp Hq. destruct (lt_eq_lt_dec (length p) (length q)) as [[Hl|Hl]|Hl].
  - exfalso. eauto.
  - destruct (stem_at_In p t Hp) as [_ Pp]. destruct (stem_at_In q t Hq) as [_ Pq].
    apply has_prefix_eq in Pp, Pq. rewrite Pp, Pq, Hl. reflexivity.
  - exfalso. eauto.
Qed.

Lemma stem_pos q t : stem_at St q = Some t -> q = firstn (sd St t) t.
Proof.
  intro H. apply (stem_at_unique q _ t H). apply (end_stem_self db m St C t). now apply (stem_at_In q).
Qed.

(** An entry of the openings lies at a stem position only if that position holds a
    stem opening. *)
Lemma has_at_stem o q t z : good o -> stem_at St q = Some t ->
  has o (q, z) <-> exists op, map_get q o = Some op /\ In (q, z) (tags_of (q, op)).
Proof.
  intros Hg Hq. split.
  - intros (p & op & H & Hx). destruct (tags_path p op _ Hx) as [E|((e & svs & ->) & y & E)]; cbn [fst] in E.
    + subst p. eauto.
    + exfalso. destruct (proj2 Hg _ _ H) as (t' & Ht' & _).
      rewrite E, (stem_at_child p t' y Ht') in Hq. discriminate.
  - intros (op & H & Hx). exists q, op. auto.
Qed.

Lemma entries_stem_pos k q t z : is_key k -> stem_at St q = Some t -> In (q, z) (entries St k) ->
  q = qpos k /\ (z = 0 \/ z = 1 \/ (t = firstn 31 k /\ z = hsel (nth 31 k 0))).
Proof.
  intros Hk Hq H. apply entries_cases in H; auto.
  assert (Hl : length (firstn 31 k) = 31%nat) by apply (key_stem k Hk).
  destruct H as [(i & Hi & -> & _)|[(-> & t' & Ht' & H)|(-> & Ht' & _)]].
  - destruct (sd_spec St (firstn 31 k) W Hl) as (Hin & _).
    apply stem_at_spec in Hq as (Hq & _). rewrite (Hin i Hi) in Hq. discriminate.
  - assert (t' = t) by congruence. subst t'. auto.
  - rewrite (stem_at_child _ _ _ Ht') in Hq. discriminate.
Qed.

(** The stems opened only to show that a slot is taken. *)
Lemma ext_stems_spec o keys t : Forall is_key keys -> good o ->
  (forall x, has o x <-> In x (flat_map (entries St) keys)) ->
  In t (ext_stems o) <->
  (exists k, In k keys /\ stem_at St (qpos k) = Some t) /\ ~ In t (map (firstn 31) keys).
Proof.
  intros Hks Hg Ho. rewrite Forall_forall in Hks. unfold ext_stems. rewrite in_flat_map.
  assert (Hent : forall q z, stem_at St q = Some t -> has o (q, z) ->
     exists k, In k keys /\ q = qpos k /\ (z = 0 \/ z = 1 \/ (t = firstn 31 k /\ z = hsel (nth 31 k 0)))).
  { intros q z Hq H. apply Ho, in_flat_map in H as (k & Hk & H).
    exists k. split; auto. apply entries_stem_pos; auto. }
  split.
  - intros ([q op] & Hin & Ht). cbn [snd] in Ht. destruct op as [| |e]; [destruct Ht|destruct Ht|]. destruct Ht as [H|[]].
    apply (map_get_sorted q) in Hin; [|apply Hg].
    destruct (proj2 Hg _ _ Hin) as (t' & Hq & ->). cbn [eo_stem] in H. subst t'. split.
    + destruct (Hent q 0 Hq) as (k & Hk & -> & _); eauto.
      apply (has_at_stem o q t 0 Hg Hq). eexists. split; [exact Hin|]. cbn. auto.
    + intro H. apply in_map_iff in H as (k & Es & Hk). 
      assert (Eq : qpos k = q).
      { unfold qpos. rewrite Es. symmetry. now apply stem_pos. }
      assert (X : has o (q, hsel (nth 31 k 0))).
      { apply Ho, in_flat_map. exists k. split; auto. apply entries_cases; auto.
        right; left. split; auto. exists t. auto. }
      apply (has_at_stem o q t _ Hg Hq) in X as (op & Hop & X). rewrite Hin in Hop. injection Hop as <-.
      unfold hsel in X. cbn in X. destruct (nth 31 k 0 <? 128); destruct X as [X|[X|[]]]; discriminate.
  - intros [(k & Hk & Hq) Hn].
    assert (X : has o (qpos k, 0)).
    { apply Ho, in_flat_map. exists k. split; auto. apply entries_cases; auto.
      right; left. split; auto. exists t. auto. }
    apply (has_at_stem o _ t _ Hg Hq) in X as (op & Hop & X).
    pose proof (proj2 Hg _ _ Hop) as Hs. destruct op as [e svs|mt cs|e]; cbn [shape] in Hs.
    + exfalso. destruct Hs as (t' & Ht' & _ & Hne & _). assert (t' = t) by congruence. subst t'.
      destruct svs as [|[s v] svs]; [contradiction|].
      assert (Y : has o (qpos k, hsel s)).
      { apply (has_at_stem o _ t _ Hg Hq). eexists. split; [exact Hop|]. cbn [tags_of].
        rewrite !in_app_iff. unfold hsel. cbn [existsb fst]. destruct (s <? 128); cbn [negb orb In]; auto. }
      destruct (Hent _ _ Hq Y) as (k' & Hk' & _ & Hz).
      destruct Hz as [Hz|[Hz|[Hz _]]].
      * unfold hsel in Hz. destruct (s <? 128); discriminate.
      * unfold hsel in Hz. destruct (s <? 128); discriminate.
      * apply Hn. rewrite Hz. now apply in_map.
    + destruct Hs as (Hs & _). apply stem_at_spec in Hq as (Hq & _). congruence.
    + destruct Hs as (t' & Ht' & ->). assert (t' = t) by congruence. subst t'.
      exists (qpos k, OExtension (mkExtO t (MStem (cstem m t)))). split; [now apply map_get_In|].
      cbn. auto.
Qed.

(** ** The prover's output *)
Definition proof_diff (keys : list bytes) : list bytes :=
  filter (fun t => negb (existsb (fun k => beqb (firstn 31 k) t) keys))
    (set_of (flat_map (fun k => match stem_at St (qpos k) with Some t => [t] | None => [] end) keys)).
Definition proof_hint (keys : list bytes) : VerificationHint :=
  let stems := set_of (map (firstn 31) keys) in
  mkHint (map (fun s => Z.of_nat (sd St s)) stems) (map status stems) (proof_diff keys).

Lemma sorted_filter {K} {CK : Cmp K} (f : K -> bool) (l : list K) : sorted l -> sorted (filter f l).
Proof.
  unfold sorted. induction 1 as [|x l Hl IH Hx]; cbn; [constructor|]. destruct (f x); auto.
  constructor; auto. apply Forall_forall. intros y Hy. apply filter_In in Hy as [Hy _].
  rewrite Forall_forall in Hx. auto.
Qed.

Lemma In_proof_diff keys t : In t (proof_diff keys) <->
  (exists k, In k keys /\ stem_at St (qpos k) = Some t) /\ ~ In t (map (firstn 31) keys).
Proof.
  unfold proof_diff. rewrite filter_In, In_set_of, in_flat_map, negb_true_iff. split.
  - intros [(k & Hk & Ht) Hn]. split.
    + exists k. split; auto. destruct (stem_at St (qpos k)); [|destruct Ht]. destruct Ht as [->|[]]. reflexivity.
    + intro H. apply in_map_iff in H as (k' & E & Hk'). apply not_true_iff_false in Hn. apply Hn.
      apply existsb_exists. exists k'. split; auto. apply beqb_eq. auto.
  - intros [(k & Hk & Ht) Hn]. split.
    + exists k. split; auto. rewrite Ht. now left.
    + apply not_true_iff_false. intro H. apply existsb_exists in H as (k' & Hk' & E). apply beqb_eq in E.
      apply Hn. rewrite <- E. now apply in_map.
Qed.

Lemma prover_queries_ok keys : keys <> [] -> Forall is_key keys ->
  exists qs, create_prover_queries db keys = Ok (qs, proof_hint keys) /\
  Forall2 opens (all_entries St keys) qs.
Proof.
  intros Hne Hk. unfold create_prover_queries.
  assert ((length keys =? 0)%nat = false) as -> by (destruct keys; [contradiction|reflexivity]).
  cbn [negb assertb rbind]. destruct (collect_ok keys Hk) as (o & E & Hg & Ho). rewrite E. cbn [rbind].
  destruct (open_all_ok o [] Hg) as (qs & E2 & H2). cbn [od_openings]. rewrite E2. cbn [rbind].
  exists qs. rewrite <- (tags_all keys o Hg Ho). split; auto.
  cbn [od_depths od_ext]. unfold dgraph, sgraph, proof_hint. rewrite !map_map.
  do 3 f_equal. change (set_of (ext_stems o) = proof_diff keys).
  apply sorted_ext; [apply sorted_set_of|apply sorted_filter, sorted_set_of|].
  intro t. rewrite In_set_of, In_proof_diff. now apply ext_stems_spec.
Qed.
End Openings.
