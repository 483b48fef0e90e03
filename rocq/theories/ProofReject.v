(** The verifier does not panic on well-formed claims. *)
From Coq Require Import Sorted.
From Verif Require Import Base BaseFacts Alg AlgFacts TreeSpec TreeFacts TrieModel TrieProofs TrieTheorems BTree
  WireModel WireSpec ProofModel ProofSpec PathProofs OpeningProofs VerifierProofs ProofTheorems.

Lemma map_of_In {K V} {C : Cmp K} {CL : CmpLaws K} (l : list (K * V)) k v : map_get k (map_of l) = Some v -> In (k, v) l.
Proof.
  unfold map_of. assert (X : forall l acc, map_get k (fold_left (fun m p => map_insert (fst p) (snd p) m) l acc) = Some v ->
      In (k, v) l \/ map_get k acc = Some v).
  { induction l0 as [|[a b] l0 IH]; intros acc H; cbn [fold_left] in H; auto.
    apply IH in H as [H|H]; [left; now right|]. cbn [fst snd] in H.
    rewrite map_get_insert in H. destruct (cmp k a) eqn:E; auto.
    apply cmp_eq in E. subst a. injection H as ->. left. now left. }
  intro H. apply X in H as [H|H]; [exact H|discriminate].
Qed.

Section Reject.
Context {A : Alg} {P : Par A}.
Notation stem k := (firstn 31 k).

Definition paths_ok (s : VState) : Prop := forall x, In x (vs_pzs s) -> In (fst x) (vs_paths s).

Lemma pok_leaf p z y s : paths_ok s -> paths_ok (add_leaf p z y s).
Proof. intros H x. exact (H x). Qed.
Lemma pok_path p s : paths_ok s -> paths_ok (add_path p s).
Proof. intros H x Hx. cbn [add_path vs_paths]. apply In_set_insert. right. exact (H x Hx). Qed.
Lemma pok_pz p z s : In p (vs_paths s) -> paths_ok s -> paths_ok (add_pz p z s).
Proof. intros Hp H x Hx. cbn [add_pz vs_pzs vs_paths] in *. apply In_set_insert in Hx as [->|Hx]; auto. Qed.

Lemma add_branches_ok st l : length st = 31%nat -> (forall i, In i l -> (i < 31)%nat) -> forall s,
  paths_ok s -> exists s', add_branches st l s = Ok s' /\ paths_ok s' /\ vs_used s' = vs_used s /\
    (sorted (vs_paths s) -> sorted (vs_paths s')) /\
    forall p, In p (vs_paths s') <-> In p (vs_paths s) \/ In p (map (fun i => firstn i st) l).
Proof.
  intro Hl. induction l as [|i l IH]; intros Hi s Hp.
  - exists s. cbn [add_branches map In]. repeat split; auto. tauto.
  - cbn [add_branches]. assert (Hlt : (i < 31)%nat) by (apply Hi; now left).
    assert (E1 : slice 0 i st = Ok (firstn i st)).
    { unfold slice. rewrite (proj2 (Nat.leb_le 0 i)) by lia. rewrite (proj2 (Nat.leb_le i (length st))) by lia.
      cbn [andb]. cbn [skipn]. now rewrite Nat.sub_0_r. }
    assert (E2 : Base.index st i = Ok (nth i st 0)).
    { unfold Base.index. destruct (nth_error st i) eqn:E; [|apply nth_error_None in E; lia].
      now rewrite (nth_error_nth _ _ 0 E). }
    rewrite E1, E2. cbn [rbind].
    destruct (IH (fun j Hj => Hi j (or_intror Hj)) (add_pz (firstn i st) (nth i st 0) (add_path (firstn i st) s)))
      as (s' & E & P1 & U & Sr & I).
    { intros x Hx. cbn [add_pz add_path vs_pzs vs_paths] in *. apply In_set_insert in Hx as [->|Hx]; apply In_set_insert; auto. }
    exists s'. split; [exact E|]. split; [exact P1|]. split; [exact U|]. split.
    + intro H. apply Sr. cbn [add_pz add_path vs_paths]. now apply sorted_set_insert.
    + intro p. rewrite I. cbn [add_pz add_path vs_paths map In]. rewrite In_set_insert. intuition congruence.
Qed.

Lemma combine3_In {X Y Z} (l1 : list X) : forall (l2 : list Y) (l3 : list Z) x, In x l1 ->
  (length l1 <= length l2)%nat -> (length l1 <= length l3)%nat ->
  exists y z, In (x, y, z) (combine (combine l1 l2) l3).
Proof.
  induction l1 as [|a l1 IH]; intros l2 l3 x Hin H1 H2; [destruct Hin|].
  destruct l2 as [|b l2]; [cbn in H1; lia|]. destruct l3 as [|c l3]; [cbn in H2; lia|].
  cbn [length combine In] in *. destruct Hin as [->|Hin]; [eauto|].
  destruct (IH l2 l3 x Hin) as (d & e & H); [lia|lia|]. eauto.
Qed.

Context (hint : VerificationHint) (comms : list G) (keys : list bytes) (values : list (option bytes)).
Context (Hkeys : Forall is_key keys) (Hsorted : sorted (vh_diff hint)).

Let stems := set_of (map (firstn 31) keys).
Let statuses := fst (stem_statuses stems hint).
Let with_ext := snd (stem_statuses stems hint).

Lemma stems_sorted : sorted stems.
Proof. apply sorted_set_of. Qed.

Lemma claim_get s d e : In (s, d, e) (claims hint keys) -> map_get s statuses = Some (e, d).
Proof.
  intro H. apply In_nth_error in H as [i H]. unfold claims in H. fold stems in H.
  assert (X : nth_error stems i = Some s /\ nth_error (vh_depths hint) i = Some d /\ nth_error (vh_ext hint) i = Some e).
  { revert H. generalize stems (vh_depths hint) (vh_ext hint). clear. revert i. unfold bytes.
    intros i l1 l2 l3. revert i l2 l3. induction l1 as [|a l1 IH]; intros [|i] [|b l2] [|c l3]; cbn; try discriminate.
    - intros [= -> -> ->]. auto.
    - apply IH. }
  destruct X as (H1 & H2 & H3). exact (statuses_nth stems hint i s d e stems_sorted H1 H2 H3).
Qed.

Lemma with_ext_In s : In s with_ext <-> exists d, In (s, d, ExtPres) (claims hint keys).
Proof.
  unfold with_ext, stem_statuses. cbn [snd]. fold (claims hint keys). rewrite In_set_of, in_map_iff.
  split.
  - intros ([[a d] e] & Hx & Hf). apply filter_In in Hf as [Hf Hp]. destruct e; try discriminate. subst a. eauto.
  - intros [d H]. exists (s, d, ExtPres). split; auto. apply filter_In. auto.
Qed.

Lemma with_ext_NoDup : NoDup with_ext.
Proof. apply sorted_NoDup, sorted_set_of. Qed.

Definition used_for (t : bytes) (s : bytes) (d : Z) : Prop :=
  In t (vh_diff hint) /\ firstn (Z.to_nat d) t = firstn (Z.to_nat d) s /\
  (forall t', In t' (vh_diff hint) -> firstn (Z.to_nat d) t' = firstn (Z.to_nat d) s -> t' = t \/ klt t' t) /\
  (forall s1 d1, In (s1, d1, ExtPres) (claims hint keys) -> firstn (Z.to_nat d) s1 <> firstn (Z.to_nat d) s).

(** What the verifier needs of the claim about a stem. *)
Definition claim_ok (s : bytes) (d : Z) (e : ExtPresent) : Prop :=
  match e with
  | ExtPres => 0 <= d <= 31
  | ExtNone => 1 <= d <= 31
  | ExtDifferentStem => 0 <= d <= 30 /\
      (forall s1 d1 s2 d2, In (s1, d1, ExtPres) (claims hint keys) -> In (s2, d2, ExtPres) (claims hint keys) ->
         firstn (Z.to_nat d) s1 = firstn (Z.to_nat d) s -> firstn (Z.to_nat d) s2 = firstn (Z.to_nat d) s -> s1 = s2) /\
      ((exists s1 d1, In (s1, d1, ExtPres) (claims hint keys) /\ firstn (Z.to_nat d) s1 = firstn (Z.to_nat d) s) \/
       (exists t, In t (vh_diff hint) /\ firstn (Z.to_nat d) t = firstn (Z.to_nat d) s))
  end.

Record RInv (K : list bytes) (s : VState) : Prop := {
  ri_pz : paths_ok s;
  ri_sorted : sorted (vs_paths s);
  ri_paths : forall p, In p (vs_paths s) <->
    exists k d e, In k K /\ In (stem k, d, e) (claims hint keys) /\ In p (claim_paths k d e);
  ri_used_sorted : sorted (vs_used s);
  ri_used : forall t, In t (vs_used s) <->
    exists k d, In k K /\ In (stem k, d, ExtDifferentStem) (claims hint keys) /\ used_for t (stem k) d
}.

Lemma claim_unique s d e d' e' : In (s, d, e) (claims hint keys) -> In (s, d', e') (claims hint keys) -> d = d' /\ e = e'.
Proof. intros H H'. apply claim_get in H, H'. rewrite H in H'. injection H' as -> ->. auto. Qed.

Lemma last_filter (f : bytes -> bool) (l : list bytes) : sorted l -> (exists t, In t l /\ f t = true) ->
  exists t, hd_error (rev (filter f l)) = Some t /\ In t l /\ f t = true /\
    forall t', In t' l -> f t' = true -> t' = t \/ klt t' t.
Proof.
  intros Hs (t & Ht & Hf). assert (X : filter f l <> []).
  { intro E. assert (Y : In t (filter f l)) by (apply filter_In; auto). rewrite E in Y. destruct Y. }
  destruct (exists_last X) as (l' & x & E). rewrite E. exists x. rewrite rev_app_distr. split; [reflexivity|].
  assert (Hx : In x (filter f l)) by (rewrite E; apply in_or_app; right; now left).
  apply filter_In in Hx as [H1 H2]. split; [exact H1|]. split; [exact H2|]. intros t' Ht' Hf'.
  assert (Y : In t' (filter f l)) by (apply filter_In; auto). rewrite E in Y. apply in_app_or in Y as [Y|[->|[]]]; auto.
  right. assert (Hs' : sorted (l' ++ [x])) by (rewrite <- E; now apply sorted_filter).
  clear - Hs' Y. induction l' as [|a l' IH]; [destruct Y|]. cbn [app] in Hs'. apply StronglySorted_inv in Hs' as [H1 H2].
  destruct Y as [->|Y]; auto. rewrite Forall_forall in H2. apply H2. apply in_or_app. right. now left.
Qed.

Lemma firstn_stem_eq (k : bytes) (n : nat) : (n <= 31)%nat -> firstn n (stem k) = firstn n k.
Proof. intro H. rewrite firstn_firstn. f_equal. lia. Qed.

Lemma slice_stem (k : bytes) n : is_key k -> (n <= 31)%nat -> slice 0 n (stem k) = Ok (firstn n k).
Proof.
  intros Hk H. destruct (key_stem k Hk) as [Hl _]. unfold slice. rewrite (proj2 (Nat.leb_le 0 n)) by lia.
  rewrite (proj2 (Nat.leb_le n (length (stem k)))) by lia. cbn [andb skipn]. rewrite Nat.sub_0_r. now rewrite firstn_stem_eq.
Qed.

Lemma seq_paths (k : bytes) n : (n <= 31)%nat ->
  map (fun i => firstn i (stem k)) (seq 0 n) = map (fun i => firstn i k) (seq 0 n).
Proof. intro H. apply map_ext_in. intros i Hi. apply in_seq in Hi. apply firstn_stem_eq. lia. Qed.

Lemma rinv_step K k d e s s' : In (stem k, d, e) (claims hint keys) -> RInv K s ->
  paths_ok s' -> sorted (vs_paths s') ->
  (forall p, In p (vs_paths s') <-> In p (vs_paths s) \/ In p (claim_paths k d e)) ->
  sorted (vs_used s') ->
  (forall t, In t (vs_used s') <-> In t (vs_used s) \/ (e = ExtDifferentStem /\ used_for t (stem k) d)) ->
  RInv (K ++ [k]) s'.
Proof.
  intros Hc I H1 H2 H3 H4 H5. constructor; auto.
  - intro p. rewrite H3, (ri_paths _ _ I). split.
    + intros [(k1 & d1 & e1 & X1 & X2 & X3)|X].
      * exists k1, d1, e1. split; auto. apply in_or_app; auto.
      * exists k, d, e. split; auto. apply in_or_app; right; now left.
    + intros (k1 & d1 & e1 & X1 & X2 & X3). apply in_app_or in X1 as [X1|[<-|[]]]; [left; eauto 6|].
      right. destruct (claim_unique _ _ _ _ _ Hc X2) as [<- <-]. exact X3.
  - intro t. rewrite H5, (ri_used _ _ I). split.
    + intros [(k1 & d1 & X1 & X2 & X3)|[-> X]].
      * exists k1, d1. split; auto. apply in_or_app; auto.
      * exists k, d. split; auto. apply in_or_app; right; now left.
    + intros (k1 & d1 & X1 & X2 & X3). apply in_app_or in X1 as [X1|[<-|[]]]; [left; eauto 6|].
      right. destruct (claim_unique _ _ _ _ _ Hc X2) as [<- ->]. auto.
Qed.

Lemma verify_key_total K s k v d e : In k keys -> In (stem k, d, e) (claims hint keys) -> claim_ok (stem k) d e -> RInv K s ->
  verify_key statuses with_ext (vh_diff hint) s (k, v) = Ok None \/
  exists s', verify_key statuses with_ext (vh_diff hint) s (k, v) = Ok (Some s') /\ RInv (K ++ [k]) s'.
Proof.
  intros Hk Hc Hok I. assert (Hkey : is_key k) by (rewrite Forall_forall in Hkeys; auto).
  pose proof (claim_get _ _ _ Hc) as Hg.
  assert (Hd : match e with ExtPres => 0 <= d <= 31 | ExtDifferentStem => 0 <= d <= 30 | ExtNone => 1 <= d <= 31 end)
    by (destruct e; cbn [claim_ok] in Hok; tauto).
  destruct (key_stem k Hkey) as [Hl _].
  assert (Hn : (Z.to_nat d <= 31)%nat) by (destruct e; lia).
  unfold verify_key. cbv zeta.
  match goal with |- context [unwrap ?x] => replace x with (Some (e, d)) by (symmetry; exact Hg) end. cbn [unwrap rbind].
  destruct (add_branches_ok (stem k) (seq 0 (Z.to_nat d)) Hl) with (s := s) as (s1 & -> & P1 & U1 & Sr1 & I1).
  { intros i Hi. apply in_seq in Hi. lia. }
  { apply (ri_pz _ _ I). }
  rewrite (seq_paths k) in I1 by lia. specialize (Sr1 (ri_sorted _ _ I)).
  cbn [rbind]. destruct e.
  - (* no extension *)
    unfold add_none. destruct v as [v|]; [left; reflexivity|]. right.
    assert (Hidx : forall i, (i < 31)%nat -> Base.index (stem k) i = Ok (nth i (stem k) 0)).
    { intros i Hi. unfold Base.index. destruct (nth_error (stem k) i) eqn:E; [|apply nth_error_None in E; lia].
      now rewrite (nth_error_nth _ _ 0 E). }
    assert (Hfin : forall p z, RInv (K ++ [k]) (add_leaf p z fzero s1)).
    { intros p z. apply (rinv_step K k d ExtNone s); auto.
      - intro q. cbn [add_leaf vs_paths]. rewrite I1. unfold claim_paths. rewrite app_nil_r. reflexivity.
      - cbn [add_leaf vs_used]. rewrite U1. apply (ri_used_sorted _ _ I).
      - intro t. cbn [add_leaf vs_used]. rewrite U1. split; [auto|]. intros [H|[H _]]; [auto|discriminate]. }
    destruct (Nat.eqb_spec (Z.to_nat d) 1) as [E1|E1].
    + rewrite (Hidx 0%nat) by lia. cbn [rbind]. eexists. split; [reflexivity|]. apply Hfin.
    + rewrite (slice_stem k _ Hkey Hn). cbn [rbind].
      replace (Z.to_nat d =? 0)%nat with false by (symmetry; apply Nat.eqb_neq; lia). cbn [negb assertb rbind].
      rewrite Hidx by lia. cbn [rbind]. eexists. split; [reflexivity|]. apply Hfin.
  - (* a different stem *)
    rewrite (slice_stem k _ Hkey Hn). cbn [rbind].
    set (q := firstn (Z.to_nat d) k) in *.
    set (s2 := add_leaf q 0 fone (add_pz q 1 (add_pz q 0 (add_path q s1)))).
    assert (P2 : paths_ok s2).
    { intros x Hx. cbn [s2 add_leaf add_pz add_path vs_pzs vs_paths] in *.
      apply In_set_insert in Hx as [->|Hx]; [apply In_set_insert; auto|].
      apply In_set_insert in Hx as [->|Hx]; apply In_set_insert; auto. }
    assert (Hp2 : forall p, In p (vs_paths s2) <-> In p (vs_paths s) \/ In p (claim_paths k d ExtDifferentStem)).
    { intro p. cbn [s2 add_leaf add_pz add_path vs_paths]. rewrite In_set_insert, I1.
      unfold claim_paths. fold q. rewrite in_app_iff. cbn [In]. intuition congruence. }
    assert (Hs2 : sorted (vs_paths s2)) by (cbn [s2 add_leaf add_pz add_path vs_paths]; now apply sorted_set_insert).
    assert (Hu2 : vs_used s2 = vs_used s) by exact U1.
    unfold add_different. destruct v as [v|]; [left; reflexivity|]. right.
    rewrite Hl. replace (Z.to_nat d =? 31)%nat with false by (symmetry; apply Nat.eqb_neq; lia). cbn [negb assertb rbind].
    set (same := fun x => beqb (firstn (Z.to_nat d) x) (firstn (Z.to_nat d) (stem k))).
    assert (Hsame : forall x, same x = true <-> firstn (Z.to_nat d) x = firstn (Z.to_nat d) (stem k)).
    { intro x. unfold same. destruct (beqb_spec (firstn (Z.to_nat d) x) (firstn (Z.to_nat d) (stem k))); split; congruence. }
    destruct (filter same with_ext) as [|o1 [|o2 rest]] eqn:Ef.
    + (* none present *)
      assert (Hno : forall s1 d1, In (s1, d1, ExtPres) (claims hint keys) ->
          firstn (Z.to_nat d) s1 <> firstn (Z.to_nat d) (stem k)).
      { intros t dt Ht Hf. assert (X : In t (filter same with_ext)).
        { apply filter_In. split; [apply with_ext_In; eauto|now apply Hsame]. }
        rewrite Ef in X. destruct X. }
      destruct (last_filter same (vh_diff hint) Hsorted) as (t & Et & Ht1 & Ht2 & Ht3).
      { destruct (proj2 (proj2 Hok)) as [(t & dt & Ht & Hf)|(t & Ht & Hf)].
        - exfalso. exact (Hno t dt Ht Hf).
        - exists t. split; auto. now apply Hsame. }
      match goal with |- context [unwrap ?x] => replace x with (Some t) by (symmetry; exact Et) end.
      cbn [unwrap rbind]. eexists. split; [reflexivity|].
      assert (Hfor : used_for t (stem k) d).
      { split; [exact Ht1|]. split; [now apply Hsame|]. split; [|exact Hno].
        intros t' Ht' Hf'. apply Ht3; auto. now apply Hsame. }
      apply (rinv_step K k d ExtDifferentStem s); auto.
      * cbn [add_other add_leaf add_used vs_used]. rewrite Hu2. apply sorted_set_insert, (ri_used_sorted _ _ I).
      * intro t'. cbn [add_other add_leaf add_used vs_used]. rewrite In_set_insert, Hu2. split.
        -- intros [->|H]; auto.
        -- intros [H|[_ (X1 & X2 & X3 & X4)]]; auto. left.
           apply Hsame in X2. destruct (Ht3 _ X1 X2) as [|Hlt]; auto. exfalso.
           apply Hsame in Ht2. destruct (X3 _ Ht1 Ht2) as [->|Hlt']; [now apply klt_irrefl in Hlt|].
           apply (klt_irrefl t). eapply klt_trans; eauto.
    + eexists. split; [reflexivity|].
      assert (Ho : In o1 (filter same with_ext)) by (rewrite Ef; now left). apply filter_In in Ho as [Ho1 Ho2].
      apply with_ext_In in Ho1 as [do Ho1]. apply Hsame in Ho2.
      apply (rinv_step K k d ExtDifferentStem s); auto.
      * cbn [add_other vs_used]. rewrite Hu2. apply (ri_used_sorted _ _ I).
      * intro t'. cbn [add_other vs_used]. rewrite Hu2. split; [auto|].
        intros [H|[_ (_ & _ & _ & X4)]]; auto. exfalso. exact (X4 _ _ Ho1 Ho2).
    + exfalso. assert (N : NoDup (filter same with_ext)) by apply NoDup_filter, with_ext_NoDup.
      assert (Ho1 : In o1 (filter same with_ext)) by (rewrite Ef; now left).
      assert (Ho2 : In o2 (filter same with_ext)) by (rewrite Ef; right; now left).
      rewrite Ef in N. apply NoDup_cons_iff in N as [N _]. apply N. left.
      apply filter_In in Ho1 as [H1 H1']. apply filter_In in Ho2 as [H2 H2'].
      apply with_ext_In in H1 as [d1 H1]. apply with_ext_In in H2 as [d2 H2].
      symmetry. apply (proj1 (proj2 Hok) _ _ _ _ H1 H2); now apply Hsame.
  - (* present *)
    rewrite (slice_stem k _ Hkey Hn). cbn [rbind].
    assert (Hidx : Base.index k 31 = Ok (nth 31 k 0)).
    { destruct Hkey as [Hkl _]. unfold Base.index. destruct (nth_error k 31) eqn:E; [|apply nth_error_None in E; lia].
      now rewrite (nth_error_nth _ _ 0 E). }
    rewrite Hidx. cbn [rbind]. right. eexists. split; [reflexivity|].
    set (q := firstn (Z.to_nat d) k) in *.
    apply (rinv_step K k d ExtPres s); auto.
    + unfold add_present. destruct v as [v|]; repeat first [apply pok_leaf|apply pok_pz|apply pok_path]; auto;
      cbn [add_leaf add_pz add_path vs_paths]; rewrite ?In_set_insert; auto.
    + unfold add_present. destruct v as [v|]; cbn [add_leaf add_pz add_path vs_paths]; now repeat apply sorted_set_insert.
    + intro p. unfold add_present. destruct v as [v|]; cbn [add_leaf add_pz add_path vs_paths];
      rewrite !In_set_insert, I1; unfold claim_paths; fold q; rewrite in_app_iff; cbn [In]; intuition congruence.
    + unfold add_present. destruct v as [v|]; cbn [add_leaf add_pz add_path vs_used]; rewrite U1; apply (ri_used_sorted _ _ I).
    + intro t. unfold add_present. destruct v as [v|]; cbn [add_leaf add_pz add_path vs_used]; rewrite U1;
      (split; [auto|]; intros [H|[H _]]; [auto|discriminate]).
Qed.

Lemma verify_keys_total K1 K2 vs s : (forall k, In k K2 -> In k keys) ->
  (forall k, In k K2 -> exists d e, In (stem k, d, e) (claims hint keys) /\ claim_ok (stem k) d e) -> length vs = length K2 -> RInv K1 s ->
  verify_keys statuses with_ext (vh_diff hint) s (combine K2 vs) = Ok None \/
  exists s', verify_keys statuses with_ext (vh_diff hint) s (combine K2 vs) = Ok (Some s') /\ RInv (K1 ++ K2) s'.
Proof.
  revert K1 vs s; induction K2 as [|k K2 IH]; intros K1 [|v vs] s Hin Hcl Hl I; cbn [combine verify_keys]; try discriminate.
  - right. exists s. rewrite app_nil_r. auto.
  - destruct (Hcl k (or_introl eq_refl)) as (d & e & Hc & Hok).
    destruct (verify_key_total K1 s k v d e (Hin k (or_introl eq_refl)) Hc Hok I) as [->|(s1 & -> & I1)]; cbn [rbind]; auto.
    destruct (IH (K1 ++ [k]) vs s1) as [H|(s2 & E2 & I2)]; auto.
    + intros x Hx. apply Hin. now right.
    + intros x Hx. apply Hcl. now right.
    + right. exists s2. rewrite <- app_assoc in I2. auto.
Qed.

Lemma map_get_combine (ps : list bytes) (cs : list G) p : (length ps <= length cs)%nat -> In p ps ->
  map_get p (map_of (combine ps cs)) <> None.
Proof.
  intros Hl Hp. unfold map_of.
  assert (Y : forall (mm acc : list (bytes * G)) x, In x (map fst mm) \/ In x (map fst acc) ->
        In x (map fst (fold_left (fun m p => map_insert (fst p) (snd p) m) mm acc))).
  { induction mm as [|[a v] mm IH]; intros acc x Hx; cbn [fold_left]; [destruct Hx as [[]|Hx]; auto|].
    apply IH. cbn [fst snd map In] in *. rewrite keys_map_insert, In_set_insert. intuition. }
  intro H. apply map_get_None in H. apply H. apply Y. left. clear - Hl Hp.
  revert cs Hl. induction ps as [|a ps IH]; intros [|c cs] Hl; cbn in *; try lia; try contradiction.
  destruct Hp as [->|Hp]; auto. right. apply IH; auto. lia.
Qed.

Lemma verifier_queries_total leaf cm pzs : (forall x, In x pzs -> map_get (fst x) cm <> None) ->
  exists qs, verifier_queries leaf cm pzs = Ok qs.
Proof.
  induction pzs as [|x pzs IH]; intro H; cbn [verifier_queries]; [eauto|].
  destruct (map_get (fst x) cm) as [c|] eqn:E; [|exfalso; exact (H x (or_introl eq_refl) E)].
  cbn [unwrap rbind]. destruct IH as [qs ->]; [intros y Hy; apply H; now right|]. cbn [rbind]. eauto.
Qed.

(** Conversely, a step that succeeds had a good claim. *)
Lemma statuses_In s d e : map_get s statuses = Some (e, d) -> In (s, d, e) (claims hint keys).
Proof.
  intro Hg. assert (Hin : In (s, (e, d)) (map (fun '(s, d, e) => (s, (e, d))) (claims hint keys))).
  { apply map_of_In. exact Hg. }
  apply in_map_iff in Hin as ([[s' d'] e'] & Heq & Hin). injection Heq as -> -> ->. exact Hin.
Qed.

Lemma add_branches_bound st l : length st = 31%nat -> forall s s', add_branches st l s = Ok s' ->
  forall i, In i l -> (i < 31)%nat.
Proof.
  intro Hl. induction l as [|j l IH]; intros s s' E i Hi; [destruct Hi|]. cbn [add_branches] in E.
  destruct (slice 0 j st) as [p|]; cbn [rbind] in E; [|discriminate].
  destruct (Base.index st j) as [z|] eqn:Ez; cbn [rbind] in E; [|discriminate].
  destruct Hi as [<-|Hi]; [|exact (IH _ _ E i Hi)].
  unfold Base.index in Ez. destruct (nth_error st j) eqn:En; [|discriminate].
  assert (X : nth_error st j <> None) by congruence. apply nth_error_Some in X. lia.
Qed.

Lemma verify_key_needs s k v s' : is_key k -> Forall (fun d => 0 <= d) (vh_depths hint) ->
  verify_key statuses with_ext (vh_diff hint) s (k, v) = Ok (Some s') ->
  exists d e, In (stem k, d, e) (claims hint keys) /\ claim_ok (stem k) d e /\ (e <> ExtPres -> v = None).
Proof.
  intros Hkey Hdep E. destruct (key_stem k Hkey) as [Hl _]. unfold verify_key in E. cbv zeta in E.
  destruct (map_get (stem k) statuses) as [[e d]|] eqn:Eg; cbn [unwrap rbind] in E; [|discriminate].
  pose proof (statuses_In _ _ _ Eg) as Hc. exists d, e. split; [exact Hc|].
  assert (Hd0 : 0 <= d).
  { rewrite Forall_forall in Hdep. apply Hdep. unfold claims in Hc. apply in_combine_l in Hc. now apply in_combine_r in Hc. }
  destruct (add_branches (stem k) (seq 0 (Z.to_nat d)) s) as [s1|] eqn:Eb; cbn [rbind] in E; [|discriminate].
  assert (Hd31 : d <= 31).
  { destruct (Z_le_gt_dec d 31) as [H|H]; [exact H|]. exfalso.
    pose proof (add_branches_bound _ _ Hl _ _ Eb 31%nat) as X. assert (Y : (31 < 31)%nat) by (apply X; apply in_seq; lia). lia. }
  destruct e; cbn [claim_ok].
  - unfold add_none in E. destruct v as [v|]; [discriminate|]. split; [|auto]. split; [|exact Hd31].
    destruct (Nat.eqb_spec (Z.to_nat d) 1) as [E1|E1]; [lia|].
    destruct (slice 0 (Z.to_nat d) (stem k)); cbn [rbind] in E; [|discriminate].
    destruct (Nat.eqb_spec (Z.to_nat d) 0) as [E0|E0]; [cbn [negb assertb rbind] in E; discriminate|lia].
  - destruct (slice 0 (Z.to_nat d) (stem k)); cbn [rbind] in E; [|discriminate].
    unfold add_different in E. destruct v as [v|]; [discriminate|]. split; [|auto].
    rewrite Hl in E. destruct (Nat.eqb_spec (Z.to_nat d) 31) as [E1|E1]; [cbn [negb assertb rbind] in E; discriminate|].
    cbn [negb assertb rbind] in E. split; [lia|].
    set (same := fun x => beqb (firstn (Z.to_nat d) x) (firstn (Z.to_nat d) (stem k))) in *.
    assert (Hsame : forall x, same x = true <-> firstn (Z.to_nat d) x = firstn (Z.to_nat d) (stem k)).
    { intro x. unfold same. destruct (beqb_spec (firstn (Z.to_nat d) x) (firstn (Z.to_nat d) (stem k))); split; congruence. }
    assert (Hin : forall t dt, In (t, dt, ExtPres) (claims hint keys) ->
        firstn (Z.to_nat d) t = firstn (Z.to_nat d) (stem k) -> In t (filter same with_ext)).
    { intros t dt Ht Hf. apply filter_In. split; [apply with_ext_In; eauto|now apply Hsame]. }
    destruct (filter same with_ext) as [|o1 [|o2 rest]] eqn:Ef.
    + split; [intros t dt t2 dt2 Ht _ Hf; destruct (Hin _ _ Ht Hf)|].
      right. destruct (hd_error (rev (filter same (vh_diff hint)))) as [t|] eqn:Et.
      * exists t. assert (X : In t (filter same (vh_diff hint))).
        { apply in_rev. destruct (rev (filter same (vh_diff hint))) as [|a0 l0]; [discriminate|].
          cbn [hd_error] in Et. injection Et as ->. now left. }
        apply filter_In in X as [X1 X2]. split; [exact X1|now apply Hsame].
      * cbn [unwrap rbind] in E. discriminate.
    + split.
      * intros t dt t2 dt2 Ht Ht2 Hf Hf2. destruct (Hin _ _ Ht Hf) as [<-|[]]. destruct (Hin _ _ Ht2 Hf2) as [<-|[]]. reflexivity.
      * left. assert (Ho : In o1 (filter same with_ext)) by (rewrite Ef; now left). apply filter_In in Ho as [Ho1 Ho2].
        apply with_ext_In in Ho1 as [do Ho1]. apply Hsame in Ho2. eauto.
    + discriminate.
  - split; [lia|]. intro X. now destruct X.
Qed.

Lemma verify_keys_needs K1 K2 vs s s' : (forall k, In k K2 -> In k keys) -> length vs = length K2 ->
  Forall (fun d => 0 <= d) (vh_depths hint) -> RInv K1 s ->
  verify_keys statuses with_ext (vh_diff hint) s (combine K2 vs) = Ok (Some s') ->
  RInv (K1 ++ K2) s' /\
  forall k v, In (k, v) (combine K2 vs) ->
    exists d e, In (stem k, d, e) (claims hint keys) /\ claim_ok (stem k) d e /\ (e <> ExtPres -> v = None).
Proof.
  intros Hin Hl Hdep. revert K1 vs s Hin Hl. induction K2 as [|k K2 IH]; intros K1 [|v vs] s Hin Hl I E; try discriminate.
  - cbn [combine verify_keys] in E. injection E as <-. rewrite app_nil_r. split; [exact I|]. intros k v [].
  - cbn [combine verify_keys] in E.
    assert (Hkey : is_key k) by (rewrite Forall_forall in Hkeys; apply Hkeys, Hin; now left).
    destruct (verify_key statuses with_ext (vh_diff hint) s (k, v)) as [[s1|]|] eqn:E1; cbn [rbind] in E; try discriminate.
    destruct (verify_key_needs s k v s1 Hkey Hdep E1) as (d & e & Hc & Hok & Hv).
    destruct (verify_key_total K1 s k v d e (Hin k (or_introl eq_refl)) Hc Hok I) as [X|(s1' & X & I1)];
      [rewrite E1 in X; discriminate|].
    rewrite E1 in X. injection X as <-.
    destruct (IH (K1 ++ [k]) vs s1) as [I2 H2]; auto.
    { intros x Hx. apply Hin. now right. }
    rewrite <- app_assoc in I2. split; [exact I2|].
    intros k' v' [X|X]; [|exact (H2 k' v' X)]. injection X as <- <-. eauto 6.
Qed.

Lemma rinv_empty : RInv [] vs_empty.
Proof.
  constructor; cbn [vs_empty vs_pzs vs_paths vs_used].
  - intros x [].
  - constructor.
  - intro p. split; [intros []|]. intros (k & _ & _ & [] & _).
  - constructor.
  - intro t. split; [intros []|]. intros (k & _ & [] & _).
Qed.

Lemma stems_eqb_eq l : forall l', stems_eqb l l' = true -> l = l'.
Proof.
  induction l as [|x l IH]; intros [|y l']; cbn [stems_eqb]; try discriminate; auto.
  intro H. apply andb_true_iff in H as [H1 H2]. apply beqb_eq in H1. rewrite H1, (IH _ H2). reflexivity.
Qed.

Lemma nodup_prefix {X Y Z} (l1 : list X) : forall (l2 : list Y) (l3 : list Z), NoDup l1 ->
  (forall x, In x l1 -> exists y z, In (x, y, z) (combine (combine l1 l2) l3)) ->
  (length l1 <= length l2)%nat /\ (length l1 <= length l3)%nat.
Proof.
  intros l2 l3 N Hx. assert (L : incl l1 (map (fun p => fst (fst p)) (combine (combine l1 l2) l3))).
  { intros x Hin. destruct (Hx x Hin) as (y & z & Hi). apply in_map_iff. exists (x, y, z). auto. }
  pose proof (NoDup_incl_length N L) as Hle. rewrite map_length, !combine_length in Hle. lia.
Qed.

Lemma queries_need root r : length values = length keys -> Forall (fun d => 0 <= d) (vh_depths hint) ->
  create_verifier_queries hint comms keys values root = Ok (Some r) ->
  well_formed hint comms keys values /\
  forall k v, In (k, Some v) (combine keys values) -> exists d, In (stem k, d, ExtPres) (claims hint keys).
Proof.
  intros Hl Hdep E. unfold create_verifier_queries in E. fold stems in E.
  assert (Es : stem_statuses stems hint = (statuses, with_ext)) by (unfold statuses, with_ext; now destruct (stem_statuses stems hint)).
  rewrite Es in E.
  destruct (verify_keys statuses with_ext (vh_diff hint) vs_empty (combine keys values)) as [[s|]|] eqn:Ek; cbn [rbind] in E; try discriminate.
  destruct (verify_keys_needs [] keys values vs_empty s (fun k H => H) Hl Hdep rinv_empty Ek) as [I Hall]. cbn [app] in I.
  destruct (stems_eqb (vh_diff hint) (vs_used s)) eqn:Eu; cbn [assertb rbind] in E; [|discriminate].
  apply stems_eqb_eq in Eu.
  destruct (Nat.eqb_spec (length (root :: comms)) (length (vs_paths s))) as [El|]; cbn [assertb rbind] in E; [|discriminate].
  assert (Hclaim : forall k, In k keys -> exists d e, In (stem k, d, e) (claims hint keys) /\ claim_ok (stem k) d e).
  { intros k Hk. destruct (In_nth_error _ _ Hk) as [i Hi].
    destruct (nth_error values i) as [v|] eqn:Ev.
    - destruct (Hall k v) as (d & e & H1 & H2 & _); [|eauto].
      clear - Hi Ev. revert i values Hi Ev. induction keys as [|a ks IH]; intros [|i] [|b vs] Hi Ev; try discriminate; cbn in *.
      + injection Hi as ->. injection Ev as ->. now left.
      + right. eapply IH; eauto.
    - apply nth_error_None in Ev. assert (X : nth_error keys i <> None) by congruence. apply nth_error_Some in X. lia. }
  assert (Hstem : forall x d e, In (x, d, e) (claims hint keys) -> exists k, In k keys /\ x = stem k).
  { intros x d e Hc. unfold claims in Hc. apply in_combine_l, in_combine_l in Hc.
    apply (proj1 (In_set_of _ _)), in_map_iff in Hc as (k & <- & Hk). eauto. }
  assert (Hok : forall x d e, In (x, d, e) (claims hint keys) -> claim_ok x d e).
  { intros x d e Hc. destruct (Hstem _ _ _ Hc) as (k & Hk & ->). destruct (Hclaim k Hk) as (d' & e' & H1 & H2).
    destruct (claim_unique _ _ _ _ _ Hc H1) as [-> ->]. exact H2. }
  destruct (nodup_prefix stems (vh_depths hint) (vh_ext hint) (sorted_NoDup _ stems_sorted)) as [L1 L2].
  { intros x Hx. apply (proj1 (In_set_of _ _)), in_map_iff in Hx as (k & <- & Hk).
    destruct (Hclaim k Hk) as (d & e & Hc & _). exists d, e. exact Hc. }
  split.
  - constructor.
    + exact Hl.
    + exact L1.
    + exact L2.
    + intros x d e Hc. specialize (Hok _ _ _ Hc). destruct e; cbn [claim_ok] in Hok; tauto.
    + intros x d s1 d1 s2 d2 Hc. exact (proj1 (proj2 (Hok _ _ _ Hc)) s1 d1 s2 d2).
    + intros x d Hc. exact (proj2 (proj2 (Hok _ _ _ Hc))).
    + exact Hsorted.
    + intros t Ht. rewrite Eu in Ht. apply (ri_used _ _ I) in Ht as (k & d & Hk & Hc & _ & H2 & H3 & H4). eauto 8.
    + exists (vs_paths s). split; [apply sorted_NoDup, (ri_sorted _ _ I)|]. split; [symmetry; exact El|].
      apply (ri_paths _ _ I).
  - intros k v Hkv. destruct (Hall k (Some v) Hkv) as (d & e & Hc & _ & Hn). exists d.
    destruct e; try exact Hc; exfalso; assert (X : Some v = None) by (apply Hn; discriminate); discriminate.
Qed.

Context (W : well_formed hint comms keys values).

Lemma key_claim k : In k keys -> exists d e, In (stem k, d, e) (claims hint keys).
Proof.
  intro Hk. assert (H : In (stem k) stems) by (apply In_set_of; now apply (in_map (firstn 31))).
  pose proof (wp_claims _ _ _ _ W) as H1. pose proof (wp_status _ _ _ _ W) as H2. fold stems in H1.
  unfold claims. fold stems. apply combine3_In; [exact H|exact H1|exact H2].
Qed.

Lemma well_formed_total root : create_verifier_queries hint comms keys values root <> Panic.
Proof.
  unfold create_verifier_queries. fold stems.
  assert (Es : stem_statuses stems hint = (statuses, with_ext)) by (unfold statuses, with_ext; now destruct (stem_statuses stems hint)).
  rewrite Es.
  pose proof rinv_empty as I0.
  assert (Hcl : forall k, In k keys -> exists d e, In (stem k, d, e) (claims hint keys) /\ claim_ok (stem k) d e).
  { intros k Hk. destruct (key_claim k Hk) as (d & e & Hc). exists d, e. split; [exact Hc|].
    pose proof (wp_depth _ _ _ _ W _ _ _ Hc) as Hd. destruct e; cbn [claim_ok]; auto.
    split; [exact Hd|]. split; [|exact (wp_other _ _ _ _ W _ _ Hc)].
    intros s1 d1 s2 d2. exact (wp_one _ _ _ _ W _ _ _ _ _ _ Hc). }
  destruct (verify_keys_total [] keys values vs_empty (fun k H => H) Hcl (wp_values _ _ _ _ W) I0) as [->|(s & -> & I)];
    cbn [rbind app] in *; [discriminate|].
  assert (Eu : vs_used s = vh_diff hint).
  { apply sorted_ext; [apply (ri_used_sorted _ _ I)|apply (wp_diff_sorted _ _ _ _ W)|].
    intro t. rewrite (ri_used _ _ I). split.
    - intros (k & d & _ & _ & H & _). exact H.
    - intro Ht. destruct (wp_diff_used _ _ _ _ W t Ht) as (s0 & d & Hc & H2 & H3 & H4).
      assert (Hs0 : In s0 stems).
      { unfold claims in Hc. apply in_combine_l in Hc. now apply in_combine_l in Hc. }
      apply (proj1 (In_set_of _ _)), in_map_iff in Hs0 as (k & <- & Hk). exists k, d. split; auto. split; auto.
      split; auto. }
  rewrite Eu.
  assert (Er : forall l, stems_eqb l l = true) by (induction l as [|x l IH]; cbn [stems_eqb]; [reflexivity|now rewrite beqb_refl]).
  rewrite Er. cbn [assertb rbind].
  destruct (wp_comms _ _ _ _ W) as (paths & N & Hlen & Hp).
  assert (El : length (vs_paths s) = length paths).
  { assert (N' : NoDup (vs_paths s)) by apply sorted_NoDup, (ri_sorted _ _ I).
    assert (Hi : forall p, In p (vs_paths s) <-> In p paths) by (intro p; rewrite (ri_paths _ _ I), Hp; reflexivity).
    apply Nat.le_antisymm; apply NoDup_incl_length; auto; intros x Hx; apply Hi; exact Hx. }
  cbn [length]. rewrite El, Hlen, Nat.eqb_refl. cbn [assertb rbind].
  destruct (verifier_queries_total (vs_leaf s) (map_of (combine (vs_paths s) (root :: comms))) (vs_pzs s)) as [qs ->].
  { intros x Hx. apply map_get_combine; [cbn [length]; lia|]. apply (ri_pz _ _ I). exact Hx. }
  cbn [rbind]. discriminate.
Qed.
End Reject.
