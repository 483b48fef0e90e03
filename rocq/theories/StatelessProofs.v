(** The stateless update computes the root of the updated tree. *)
From Coq Require Import Permutation.
From Verif Require Import Base BaseFacts Alg AlgFacts TreeSpec TreeFacts TrieModel TrieProofs BTree WireModel ProofModel ProofSpec PathProofs OpeningProofs VerifierProofs IpaModel StatelessModel StatelessSpec SubtreeProofs.

Lemma has_unique_ok l : forall seen, unique_from seen l = true <-> NoDup l /\ forall x, In x l -> ~ In x seen.
Proof.
  induction l as [|x l IH]; intro seen; cbn [unique_from].
  - split; auto. intros _. split; [constructor|]. intros x [].
  - destruct (existsb (beqb x) seen) eqn:E.
    + apply existsb_exists in E as (y & Hy & E). apply beqb_eq in E. subst y. split; [discriminate|].
      intros [_ H]. exfalso. apply (H x); auto. now left.
    + rewrite IH. assert (Hx : ~ In x seen).
      { intro H. apply not_true_iff_false in E. apply E. apply existsb_exists. exists x. split; auto. apply beqb_refl. }
      split.
      * intros [H1 H2]. split.
        -- constructor; auto. intro H. apply (H2 x H). now left.
        -- intros y [<-|Hy]; auto. intro H. apply (H2 y Hy). now right.
      * intros [H1 H2]. inversion H1; subst. split; auto. intros y Hy [<-|H]; [contradiction|].
        apply (H2 y); auto. now right.
Qed.

Lemma has_unique_NoDup l : has_unique_elements l = true <-> NoDup l.
Proof. unfold has_unique_elements. rewrite has_unique_ok. intuition. Qed.

Lemma final_map_app h U k : final_map (h ++ U) k = match final_map U k with Some v => Some v | None => final_map h k end.
Proof.
  induction h as [|[k1 v1] h IH]; cbn [app final_map]; [now destruct (final_map U k)|].
  rewrite IH. now destruct (final_map U k).
Qed.

Lemma final_map_filter f (U : history) k :
  final_map (filter (fun kv => f (fst kv)) U) k = if f k then final_map U k else None.
Proof.
  induction U as [|[k1 v1] U IH]; cbn [filter fst final_map]; [now destruct (f k)|].
  destruct (f k1) eqn:E1; cbn [final_map]; rewrite IH.
  - destruct (f k) eqn:E; auto. destruct (beqb_spec k1 k) as [->|]; auto. congruence.
  - destruct (f k) eqn:E; auto. destruct (beqb_spec k1 k) as [->|]; [congruence|]. now destruct (final_map U k).
Qed.

Lemma writes_In keys : forall updated k v, In (k, v) (writes keys updated) -> In k keys.
Proof.
  induction keys as [|k0 keys IH]; intros [|[v0|] updated] k v H; cbn [writes] in H; try destruct H.
  - injection H as -> ->. now left.
  - right. eapply IH; eauto.
  - right. eapply IH; eauto.
Qed.

Lemma writes_nodup keys : forall updated, NoDup keys -> NoDup (map fst (writes keys updated)).
Proof.
  induction keys as [|k0 keys IH]; intros [|[v0|] updated] H; cbn [writes map]; try constructor; inversion H; subst.
  - intro Hi. apply in_map_iff in Hi as ([k v] & E & Hi). cbn [fst] in *. subst k. apply writes_In in Hi. contradiction.
  - now apply IH.
  - now apply IH.
Qed.

Lemma final_map_nodup (U : history) k v : NoDup (map fst U) -> final_map U k = Some v <-> In (k, v) U.
Proof.
  intro H. split; [apply final_map_In|]. induction U as [|[k1 v1] U IH]; [intros []|].
  cbn [map fst] in H. inversion H as [|? ? Hn Hd]; subst. cbn [final_map]. intros [[= -> ->]|Hi].
  - destruct (final_map U k) as [w|] eqn:E; [|now rewrite beqb_refl].
    exfalso. apply Hn. apply final_map_In in E. apply in_map_iff. now exists (k, w).
  - now rewrite (IH Hd Hi).
Qed.

(** ** The suffixes of one stem *)
Section Suffixes.
Context {A : Alg} {L : AlgLaws A} {P : Par A} {PL : ParLaws P}.
Add Ring Fring : F_ring.
Add Ring dnring : dn_ring.
Opaque vcommit gsum subtree_hash.

Fixpoint app_su (m : bytes -> option bytes) (s : bytes) (su : SuffixUpdate) : bytes -> option bytes :=
  match su with
  | [] => m
  | (x, (_, v)) :: su' => app_su (upd m (s ++ [x]) v) s su'
  end.

Lemma app_su_other s su : forall m k, (forall x o v, In (x, (o, v)) su -> k <> s ++ [x]) -> app_su m s su k = m k.
Proof.
  induction su as [|[x [o v]] su IH]; intros m k H; cbn [app_su]; auto. rewrite IH.
  - apply upd_other. intro E. apply (H x o v); [now left|now symmetry].
  - intros y o' v' Hi. apply (H y o' v'). now right.
Qed.

Lemma app_su_in s su : forall m x o v, NoDup (map fst su) -> In (x, (o, v)) su -> app_su m s su (s ++ [x]) = Some v.
Proof.
  induction su as [|[y [o1 v1]] su IH]; intros m x o v Hn Hi; [destruct Hi|]. cbn [map fst] in Hn.
  inversion Hn as [|? ? Hy Hn']; subst. cbn [app_su]. destruct Hi as [[= -> -> ->]|Hi].
  - rewrite app_su_other; [apply upd_same|]. intros z o' v' Hz E. apply app_inv_head in E. apply sing_inj in E. subst z.
    apply Hy. apply in_map_iff. now exists (x, (o', v')).
  - eapply IH; eauto.
Qed.

Lemma suffix_delta_eq d1 d2 x o v : suffix_delta (d1, d2) (x, (o, v)) =
  let g := gadd (scalar_mul (fsub (value_low v) (leaf_low o)) (2 * (x mod 128)))
                (scalar_mul (fsub (value_high v) (leaf_high o)) (2 * (x mod 128) + 1)) in
  if x <? 128 then (gadd d1 g, d2) else (d1, gadd d2 g).
Proof. unfold suffix_delta. destruct o; cbn [fst snd leaf_low leaf_high]; destruct (x <? 128); reflexivity. Qed.

(** The sums computed are the differences of the two halves. *)
Lemma suffix_deltas s su : forall m d1 d2, NoDup (map fst su) ->
  (forall x o v, In (x, (o, v)) su -> 0 <= x < 256 /\ o = m (s ++ [x])) ->
  let a := fold_left suffix_delta su (d1, d2) in
  gadd (suffix_comm m s 0) (fst a) = gadd (suffix_comm (app_su m s su) s 0) d1 /\
  gadd (suffix_comm m s 1) (snd a) = gadd (suffix_comm (app_su m s su) s 1) d2.
Proof.
  induction su as [|[x [o v]] su IH]; intros m d1 d2 Hn Ho; cbn [fold_left app_su]; [split; reflexivity|].
  cbn [map fst] in Hn. inversion Hn as [|? ? Hx Hn']; subst.
  destruct (Ho x o v (or_introl eq_refl)) as [Bx Eo].
  rewrite suffix_delta_eq. set (g := gadd (scalar_mul (fsub (value_low v) _) _) _).
  pose proof (suffix_comm_upd m s x v Bx) as Hu. cbv zeta in Hu. rewrite <- Eo in Hu.
  assert (Hrest : forall x0 o0 v0, In (x0, (o0, v0)) su -> 0 <= x0 < 256 /\ o0 = upd m (s ++ [x]) v (s ++ [x0])).
  { intros x0 o0 v0 Hi. destruct (Ho x0 o0 v0 (or_intror Hi)) as [B0 E0]. split; auto. rewrite upd_other; auto.
    intro E. apply app_inv_head in E. apply sing_inj in E. subst x0. apply Hx. apply in_map_iff. now exists (x, (o0, v0)). }
  destruct (Z.ltb_spec x 128) as [Hlt|Hge].
  - assert (Hd : x / 128 = 0) by (apply Z.div_small; lia). rewrite Hd in Hu.
    assert (H2 : suffix_comm (upd m (s ++ [x]) v) s 1 = suffix_comm m s 1) by (apply suffix_comm_upd_other; lia).
    destruct (IH (upd m (s ++ [x]) v) (gadd d1 g) d2 Hn' Hrest) as [H3 H4]. rewrite H2 in H4. split; [|exact H4].
    rewrite Hu in H3. set (a := fold_left suffix_delta su (gadd d1 g, d2)) in *.
    apply (gadd_cancel_l g).
    transitivity (gadd (suffix_comm (app_su (upd m (s ++ [x]) v) s su) s 0) (gadd d1 g)); [|module].
    rewrite <- H3. unfold g, scalar_mul. module.
  - assert (Hd : x / 128 = 1) by (symmetry; apply (Z.div_unique x 128 1 (x - 128)); lia). rewrite Hd in Hu.
    assert (H2 : suffix_comm (upd m (s ++ [x]) v) s 0 = suffix_comm m s 0) by (apply suffix_comm_upd_other; lia).
    destruct (IH (upd m (s ++ [x]) v) d1 (gadd d2 g) Hn' Hrest) as [H3 H4]. rewrite H2 in H3. split; [exact H3|].
    rewrite Hu in H4. set (a := fold_left suffix_delta su (d1, gadd d2 g)) in *.
    apply (gadd_cancel_l g).
    transitivity (gadd (suffix_comm (app_su (upd m (s ++ [x]) v) s su) s 1) (gadd d2 g)); [|module].
    rewrite <- H4. unfold g, scalar_mul. module.
Qed.

Lemma deltas_low su : forall d1 d2, (forall x o v, In (x, (o, v)) su -> 128 <= x) -> fst (fold_left suffix_delta su (d1, d2)) = d1.
Proof.
  induction su as [|[x [o v]] su IH]; intros d1 d2 H; cbn [fold_left]; auto. unfold suffix_delta at 2.
  pose proof (H x o v (or_introl eq_refl)). destruct o; cbn [fst snd]; (destruct (Z.ltb_spec x 128); [lia|]);
    apply IH; intros; eapply H; right; eauto.
Qed.
Lemma deltas_high su : forall d1 d2, (forall x o v, In (x, (o, v)) su -> x < 128) -> snd (fold_left suffix_delta su (d1, d2)) = d2.
Proof.
  induction su as [|[x [o v]] su IH]; intros d1 d2 H; cbn [fold_left]; auto. unfold suffix_delta at 2.
  pose proof (H x o v (or_introl eq_refl)). destruct o; cbn [fst snd]; (destruct (Z.ltb_spec x 128); [|lia]);
    apply IH; intros; eapply H; right; eauto.
Qed.

Lemma new_suffixes_deltas su : forall c1 c2, (forall x o v, In (x, (o, v)) su -> o = None) ->
  new_suffixes su c1 c2 = Some (fold_left suffix_delta su (c1, c2)).
Proof.
  induction su as [|[x [o v]] su IH]; intros c1 c2 H; cbn [fold_left new_suffixes]; auto.
  rewrite (H x o v (or_introl eq_refl)). unfold suffix_delta at 2. cbn [fst snd].
  assert (E : forall y : F, fsub y fzero = y) by (intro; ring). rewrite !E.
  destruct (x <? 128); apply IH; intros; eapply H; right; eauto.
Qed.

Lemma new_suffixes_populated su : forall c1 c2, (exists x o v, In (x, (Some o, v)) su) -> new_suffixes su c1 c2 = None.
Proof.
  induction su as [|[x [o v]] su IH]; intros c1 c2 (y & w & u & H); [destruct H|]. cbn [new_suffixes].
  destruct o; [reflexivity|]. destruct H as [[=]|H].
  destruct (x <? 128); apply IH; eauto.
Qed.

Lemma new_stem_comm_eq s c1 c2 : new_stem_comm s c1 c2 =
  gadd (gadd (gadd (crs 0) (smul (of_Z (le_Z s)) (crs 1))) (smul (hash c1) (crs 2))) (smul (hash c2) (crs 3)).
Proof. unfold new_stem_comm, commit_sparse, scalar_mul. cbn [fold_left fst snd]. module. Qed.
End Suffixes.

(** ** Collecting the updates *)
Section Collect.

Record UInv (E : list (bytes * option bytes * option bytes)) (us : list (bytes * SuffixUpdate)) : Prop := {
  ui_sorted : msorted us;
  ui_in : forall s l, map_get s us = Some l -> msorted l /\ l <> [] /\
    forall x o v, In (x, (o, v)) l <-> exists k, In (k, o, Some v) E /\ firstn 31 k = s /\ nth 31 k 0 = x;
  ui_all : forall k o v, In (k, o, Some v) E -> map_get (firstn 31 k) us <> None
}.

Lemma collect_inv E : Forall (fun e => is_key (fst (fst e))) E -> NoDup (map (fun e => fst (fst e)) E) ->
  UInv E (fold_left collect_update E []).
Proof.
  induction E as [|[[k o] n] E IH] using rev_ind; intros Hk Hn.
  - constructor; cbn.
    + constructor.
    + discriminate.
    + intros k o v [].
  - rewrite map_app in Hn. cbn [map fst] in Hn. apply Forall_app in Hk as [Hk Hk1]. inversion Hk1 as [|? ? Hkk _]; subst. cbn [fst] in Hkk.
    assert (Hn1 : NoDup (map (fun e : bytes * option bytes * option bytes => fst (fst e)) E)) by (apply NoDup_remove_1 in Hn; now rewrite app_nil_r in Hn).
    assert (Hnew : forall o v, ~ In (k, o, Some v) E).
    { intros o' v' H. apply NoDup_remove_2 in Hn. rewrite app_nil_r in Hn. apply Hn. apply in_map_iff. now exists (k, o', Some v'). }
    specialize (IH Hk Hn1). rewrite fold_left_app. cbn [fold_left]. set (us := fold_left collect_update E []) in *.
    unfold collect_update. destruct n as [v|].
    2:{ constructor.
        - apply (ui_sorted _ _ IH).
        - intros s l H. destruct (ui_in _ _ IH s l H) as (H1 & H2 & H3). split; auto. split; auto.
          intros x o' v'. rewrite H3. split; intros (k' & Hi & Hr); exists k'; (split; [|exact Hr]).
          + apply in_or_app. now left.
          + apply in_app_or in Hi as [Hi|[[=]|[]]]. exact Hi.
        - intros k' o' v' Hi. apply in_app_or in Hi as [Hi|[[=]|[]]]. eapply ui_all; eauto. }
    set (cur := match map_get (firstn 31 k) us with Some l => l | None => [] end).
    assert (Hcur : msorted cur /\ forall x o v, In (x, (o, v)) cur <-> exists k0, In (k0, o, Some v) E /\ firstn 31 k0 = firstn 31 k /\ nth 31 k0 0 = x).
    { unfold cur. destruct (map_get (firstn 31 k) us) as [l|] eqn:El.
      - destruct (ui_in _ _ IH _ _ El) as (H1 & _ & H3). split; auto.
      - split; [constructor|]. intros x o' v'. split; [intros []|]. intros (k0 & Hi & E1 & _).
        exfalso. apply (ui_all _ _ IH k0 o' v' Hi). now rewrite E1. }
    destruct Hcur as [Hc1 Hc2].
    constructor.
    + apply msorted_insert, (ui_sorted _ _ IH).
    + intros s l H. destruct (list_eq_dec Z.eq_dec s (firstn 31 k)) as [->|Hne].
      * rewrite map_get_insert_eq in H. injection H as <-. split; [now apply msorted_insert|]. split.
        { intro E0. apply (f_equal (map_get (nth 31 k 0))) in E0. rewrite map_get_insert_eq in E0. discriminate. }
        intros x o' v'. rewrite <- map_get_sorted by now apply msorted_insert.
        destruct (Z.eq_dec x (nth 31 k 0)) as [->|Hx].
        -- rewrite map_get_insert_eq. split.
           ++ intros [= <- <-]. exists k. split; [apply in_or_app; right; now left|auto].
           ++ intros (k0 & Hi & E1 & E2). apply in_app_or in Hi as [Hi|[[= <- <- <-]|[]]]; [|reflexivity].
              exfalso. assert (k0 = k) as ->.
              { rewrite Forall_forall in Hk. pose proof (Hk _ Hi) as Hk0. cbn [fst] in Hk0.
                rewrite (key_split k0 Hk0), (key_split k Hkk). congruence. }
              eapply Hnew; eauto.
        -- rewrite map_get_insert_ne by exact Hx. rewrite map_get_sorted, Hc2 by exact Hc1.
           split; intros (k0 & Hi & E1 & E2); exists k0; (split; [|split; auto]).
           ++ apply in_or_app. now left.
           ++ apply in_app_or in Hi as [Hi|[[= <- <- <-]|[]]]; [exact Hi|]. congruence.
      * rewrite map_get_insert_ne in H by exact Hne.
        destruct (ui_in _ _ IH s l H) as (H1 & H2 & H3). split; auto. split; auto.
        intros x o' v'. rewrite H3. split; intros (k' & Hi & E1 & E2); exists k'; (split; [|split; auto]).
        -- apply in_or_app. now left.
        -- apply in_app_or in Hi as [Hi|[[= <- <- <-]|[]]]; [exact Hi|]. congruence.
    + intros k' o' v' Hi. destruct (list_eq_dec Z.eq_dec (firstn 31 k') (firstn 31 k)) as [E1|Hne].
      * rewrite E1, map_get_insert_eq. discriminate.
      * rewrite map_get_insert_ne by exact Hne. apply in_app_or in Hi as [Hi|[[= <- <- <-]|[]]]; [|congruence].
        eapply ui_all; eauto.
Qed.

(** The triples zipped together, when the old values are those of a map. *)
Lemma zip_In (m : bytes -> option bytes) keys : forall updated k o v, length updated = length keys ->
  In (k, o, Some v) (combine (combine keys (map m keys)) updated) <-> o = m k /\ In (k, v) (writes keys updated).
Proof.
  induction keys as [|k0 keys IH]; intros [|[v0|] updated] k o v Hl; try discriminate; cbn [map combine writes In].
  - tauto.
  - injection Hl as Hl. rewrite (IH updated k o v Hl). split.
    + intros [[= <- <- <-]|[-> H]]; auto.
    + intros [-> [[= <- <-]|H]]; auto.
  - injection Hl as Hl. rewrite (IH updated k o v Hl). split.
    + intros [[=]|H]; auto.
    + auto.
Qed.

Lemma zip_keys {Y Z0} keys : forall (values : list Y) (updated : list Z0),
  exists n, map (fun e => fst (fst e)) (combine (combine keys values) updated) = firstn n (keys : list bytes).
Proof.
  induction keys as [|k0 keys IH]; intros [|y values] [|z updated]; try (exists 0%nat; reflexivity).
  destruct (IH values updated) as [n E]. exists (S n). cbn [combine map fst firstn]. now rewrite E.
Qed.
End Collect.
