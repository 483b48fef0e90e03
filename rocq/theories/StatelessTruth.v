(** The stateless update by an accepted proof, whoever made it. *)
From Coq Require Import Permutation.
From Verif Require Import Base BaseFacts Alg AlgFacts TreeSpec TreeFacts TrieModel TrieProofs TrieTheorems BTree
  WireModel ProofModel ProofSpec PathProofs OpeningProofs VerifierProofs ProofTheorems ProofReject IpaModel LagrangeSpec IpaSpec CheckProofs
  SoundSpec StatelessModel StatelessSpec StatelessProofs HybridProofs StatelessUpdate StatelessTheorems StatelessExact
  TruthSpec TruthVerifier TruthFacts TruthProofs TruthTheorems.
Local Open Scope list_scope.
Notation len := List.length.
Notation stem k := (firstn 31 k).

(** The update does not look at the old values of keys that are not written. *)
Lemma collect_agree {A : Alg} {P : Par A} keys : forall values values' updated us,
  (forall i k v, nth_error keys i = Some k -> nth_error updated i = Some (Some v) -> nth_error values i = nth_error values' i) ->
  len values = len keys -> len values' = len keys ->
  fold_left collect_update (combine (combine keys values) updated) us = fold_left collect_update (combine (combine keys values') updated) us.
Proof.
  induction keys as [|k keys IH]; intros [|a values] [|b values'] updated us Hv L1 L2; try discriminate; [reflexivity|].
  destruct updated as [|u updated]; [reflexivity|]. cbn [combine fold_left].
  assert (E : collect_update us (k, a, u) = collect_update us (k, b, u)).
  { destruct u as [x|]; [|reflexivity]. specialize (Hv 0%nat k x eq_refl eq_refl). cbn in Hv. now assert (a = b) as -> by congruence. }
  rewrite E. apply IH; [|cbn in L1; lia|cbn in L2; lia]. intros i k' v' H1 H2. exact (Hv (S i) k' v' H1 H2).
Qed.

Lemma nth_combine {X Y} (l : list X) : forall (l' : list Y) i x y, nth_error l i = Some x -> nth_error l' i = Some y -> In (x, y) (combine l l').
Proof.
  induction l as [|a l IH]; intros [|b l'] [|i] x y H1 H2; cbn in *; try discriminate.
  - left. congruence.
  - right. eapply IH; eauto.
Qed.

Lemma writes_nth keys : forall updated i k v, nth_error keys i = Some k -> nth_error updated i = Some (Some v) -> In (k, v) (writes keys updated).
Proof.
  induction keys as [|a keys IH]; intros [|b updated] [|i] k v H1 H2; cbn in H1, H2; try discriminate.
  - injection H1 as ->. injection H2 as ->. now left.
  - pose proof (IH _ _ _ _ H1 H2). destruct b; cbn [writes]; [now right|assumption].
Qed.

Section Truth.
Context {A : Alg} {L : AlgLaws A} {P : Par A} {PL : ParLaws P}.
Opaque vcommit gsum subtree_hash.

Context (h : history) (Wh : wf_history h) (db : MemoryDb) (C : Canon db (final_map h) (stems_of h)).
Notation m := (final_map h).
Notation St := (stems_of h).
Context (root : G) (Hroot : root = node_comm m St []).
Context (hint : VerificationHint) (keys : list bytes) (values : list (option bytes)) (qs : list VerifierQuery) (vs : list (list F)).
Context (Hkeys : Forall is_key keys) (Hdup : NoDup keys) (Hlen : len values = len keys).
Context (Hco : coherent hint keys) (Hid : ideal m St qs vs).
Context (Hsc : scalars_apart m St (map (firstn 31) keys ++ vh_diff hint) values).
Notation st := (fst (stem_statuses (set_of (map (firstn 31) keys)) hint)).
Notation we := (snd (stem_statuses (set_of (map (firstn 31) keys)) hint)).
Context (s : VState) (cm : list (bytes * G)) (Fin : Final st we (vh_diff hint) (combine keys values) s).
Context (Hpath : forall p, In p (vs_paths s) -> exists c, map_get p cm = Some c).
Context (Hnopath : forall p, ~ In p (vs_paths s) -> map_get p cm = None).
Context (Hr : In [] (vs_paths s) -> map_get [] cm = Some root).
Context (Hquery : forall p z, In (p, z) (vs_pzs s) -> 0 <= z < 256 ->
  exists c, map_get p cm = Some c /\ opens_to qs m St vs c z (expected_y (vs_leaf s) cm (p, z))).
Context (updated : list (option bytes)) (Hul : len updated = len keys).
Notation U := (writes keys updated).

Lemma facts k v d e : In (k, v) (combine keys values) -> map_get (stem k) st = Some (e, d) ->
  KeyFacts hint keys root qs cm k v d e m St vs.
Proof. intros H1 H2. apply (key_facts hint keys values root qs Hkeys Hdup Hlen Hco s cm Fin k v d e H1 H2); auto. Qed.
Lemma in_keys k : In k keys -> is_key k.
Proof. rewrite Forall_forall in Hkeys. apply Hkeys. Qed.
Lemma has_value k : In k keys -> exists v, In (k, v) (combine keys values).
Proof.
  intro Hi. apply In_nth_error in Hi as (i & Hi). destruct (nth_error values i) as [v|] eqn:Ev.
  - exists v. eapply nth_combine; eauto.
  - exfalso. apply nth_error_None in Ev. assert (i < len keys)%nat by (apply nth_error_Some; congruence). lia.
Qed.
Lemma has_claim k : In k keys -> exists v d e, In (k, v) (combine keys values) /\ map_get (stem k) st = Some (e, d).
Proof.
  intro Hi. destruct (has_value k Hi) as (v & Hv). destruct (fi_key _ _ _ _ _ Fin k v Hv) as (d & e & He & _). eauto.
Qed.
Lemma cm_path q c : map_get q cm = Some c -> In q (vs_paths s).
Proof.
  intro H. destruct (in_dec bytes_dec q (vs_paths s)) as [|N]; [assumption|]. rewrite (Hnopath q N) in H. discriminate.
Qed.

(** One key, with what the previous files say about it. *)
Section Key.
Context (k : bytes) (v : option bytes) (d : Z) (e : ExtPresent).
Context (Hkv : In (k, v) (combine keys values)) (Hst : map_get (stem k) st = Some (e, d)).
Let Hk : is_key k.
Proof. exact (in_keys k (in_combine_l _ _ _ _ Hkv)). Qed.
Let Hin : In k keys.
Proof. exact (in_combine_l _ _ _ _ Hkv). Qed.
Let Hvin : In v values.
Proof. exact (in_combine_r _ _ _ _ Hkv). Qed.
Let KF := facts k v d e Hkv Hst.

Lemma k_walk i : (i <= sd St (stem k))%nat -> (i < Z.to_nat d)%nat \/ (i = Z.to_nat d /\ e <> ExtNone) ->
  comm_at cm k i = node_comm m St (firstn i (stem k)).
Proof. exact (walk db m St C qs vs Hid root Hroot hint keys k Hk v d e cm KF i). Qed.
Lemma k_slot : e <> ExtNone -> Z.to_nat d = sd St (stem k) /\ exists t, stem_at St (firstn (Z.to_nat d) (stem k)) = Some t /\
  comm_at cm k (Z.to_nat d) = node_comm m St (firstn (Z.to_nat d) (stem k)).
Proof. exact (slot_is_stem db m St C qs vs Hid root Hroot hint keys values Hsc k Hk v d e cm KF). Qed.
Lemma k_diff : e = ExtDifferentStem -> exists t, stem_at St (firstn (Z.to_nat d) (stem k)) = Some t /\
  slot_other we (vh_diff hint) (Z.to_nat d) k = Some t /\ t <> stem k /\ ~ In (stem k) St.
Proof. exact (diff_stem db m St C qs vs Hid root Hroot hint keys values Hsc k Hk v d e cm KF). Qed.
Lemma k_pres : e = ExtPres -> stem_at St (firstn (Z.to_nat d) (stem k)) = Some (stem k) /\
  map_get (firstn (Z.to_nat d) (stem k) ++ [hsel (nth 31 k 0)]) cm = Some (suffix_comm m (stem k) (hsel (nth 31 k 0) - 2)) /\ m k = v.
Proof. exact (pres_stem db m St C qs vs Hid root Hroot hint keys values Hsc k Hk v d e cm KF Hin Hvin). Qed.
Lemma k_true : e <> ExtNone -> m k = v.
Proof.
  intro He. destruct (key_true db m St C qs vs Hid root Hroot hint keys values Hsc k Hk v d e cm KF Hin Hvin) as [X|(_ & X & _)]; congruence.
Qed.
Lemma k_len : (Z.to_nat d <= 31)%nat.
Proof. exact (kf_len _ _ _ _ _ _ _ _ _ _ _ _ KF). Qed.
Lemma k_claim : e <> ExtNone -> (e, d) = (status St (stem k), Z.of_nat (sd St (stem k))).
Proof.
  intro He. destruct (k_slot He) as (En & _). destruct (sd_spec St (stem k) (stems_wf h Wh) (proj1 (key_stem k Hk))) as (_ & _ & Hb).
  f_equal; [|lia]. unfold status. rewrite <- En. pose proof k_diff as Hd. pose proof k_pres as Hp. clear KF.
  destruct e eqn:Ee; [congruence| |].
  - destruct (Hd eq_refl) as (t & -> & _ & Hn & _). destruct (beqb_spec t (stem k)); [congruence|reflexivity].
  - destruct (Hp eq_refl) as (-> & _). now rewrite beqb_refl.
Qed.
Lemma k_get i : (i < Z.to_nat d)%nat \/ (i = Z.to_nat d /\ e <> ExtNone) ->
  map_get (firstn i (stem k)) cm = Some (comm_at cm k i).
Proof.
  intro H. apply (at_path_get s cm Hpath). exact (branch_path hint keys values Hlen s Fin k v d e Hkv Hst i H).
Qed.
End Key.

Lemma written_key k v : In (k, v) U -> In k keys.
Proof. apply writes_In. Qed.

(** If no written stem is said to be in an empty slot, the hints are true. *)
Lemma hints_true : (forall k v d, In (k, v) U -> map_get (stem k) st <> Some (ExtNone, d)) ->
  hint_true h U (mkUH st cm (vs_others s)).
Proof.
  intro Hocc.
  assert (Hs : forall t, In t (stems_of U) -> exists k v d e, t = stem k /\ In (k, v) (combine keys values) /\
    map_get (stem k) st = Some (e, d) /\ e <> ExtNone).
  { intros t Ht. apply stems_of_In in Ht as ([k x] & Hi & <-). cbn [fst].
    destruct (has_claim k (written_key k x Hi)) as (v & d & e & Hv & He). exists k, v, d, e. repeat split; auto.
    intros ->. exact (Hocc k x d Hi He). }
  constructor; cbn [uh_depths uh_comms uh_others].
  - intros t Ht. destruct (Hs t Ht) as (k & v & d & e & -> & Hkv & Hst & He).
    rewrite <- (k_claim k v d e Hkv Hst He). exact Hst.
  - intros q c Iq Hc. pose proof (cm_path q c Hc) as Hq. apply (fi_paths _ _ _ _ _ Fin) in Hq as (k & v & d & e & Hkv & Hst & Hq).
    assert (Hk : is_key k) by (apply in_keys; now apply in_combine_l in Hkv).
    destruct (sd_spec St (stem k) (stems_wf h Wh) (proj1 (key_stem k Hk))) as (_ & Hnn & Hb).
    assert (Hl : len (stem k) = 31%nat) by apply (key_stem k Hk).
    assert (Hsd : forall i, internal St (firstn i (stem k)) = true -> (i < sd St (stem k))%nat).
    { intros i Hi. destruct (Nat.lt_ge_cases i (sd St (stem k))) as [|Hge]; [assumption|exfalso].
      assert (E : firstn i (stem k) = firstn (sd St (stem k)) (stem k) ++ skipn (sd St (stem k)) (firstn i (stem k))).
      { rewrite <- (firstn_skipn (sd St (stem k)) (firstn i (stem k))) at 1. rewrite firstn_firstn. now rewrite Nat.min_l by lia. }
      rewrite E in Hi. apply internal_app in Hi. congruence. }
    unfold at_paths in Hq. apply in_app_or in Hq as [Hq|Hq].
    + apply in_map_iff in Hq as (i & <- & Hi). apply in_seq in Hi. pose proof (Hsd i Iq) as Hi'.
      assert (Hi0 : (i < Z.to_nat d)%nat \/ (i = Z.to_nat d /\ e <> ExtNone)) by lia.
      assert (Ec : Some c = Some (comm_at cm k i)) by (etransitivity; [symmetry; exact Hc|exact (k_get k v d e Hkv Hst i Hi0)]).
      rewrite <- (k_walk k v d e Hkv Hst i ltac:(lia) Hi0). congruence.
    + exfalso. destruct e; [destruct Hq| |].
      * destruct Hq as [<-|[]]. destruct (k_slot k v d ExtDifferentStem Hkv Hst ltac:(discriminate)) as (En & _).
        rewrite En in Iq. congruence.
      * destruct (k_pres k v d ExtPres Hkv Hst eq_refl) as (Hsa & _). apply stem_at_spec in Hsa as (Hsa & _).
        destruct Hq as [<-|[<-|[]]]; [congruence|]. apply internal_app in Iq. congruence.
  - intros t i Ht Hi. destruct (Hs t Ht) as (k & v & d & e & -> & Hkv & Hst & He).
    destruct (k_slot k v d e Hkv Hst He) as (En & _). rewrite (k_get k v d e Hkv Hst i); [discriminate|]. left. lia.
  - intros t x Ht Hx. destruct (Hs t Ht) as (k & v & d & e & -> & Hkv & Hst & He).
    destruct (k_slot k v d e Hkv Hst He) as (En & y & Hy & Hc). unfold HybridProofs.slot in *. rewrite <- En in *.
    etransitivity; [exact (k_get k v d e Hkv Hst (Z.to_nat d) (or_intror (conj eq_refl He)))|]. rewrite Hc. unfold node_comm. now rewrite (node_vec_ext m St _ x Hx).
  - intros t x w Hi Ht Hx Hsa. pose proof (written_key _ _ Hi) as Hk. destruct (stem_key t x Ht Hx) as [_ Es].
    destruct (has_claim _ Hk) as (v & d & e & Hkv & Hst).
    assert (He : e <> ExtNone) by (intros ->; exact (Hocc _ _ d Hi Hst)).
    destruct (k_slot _ v d e Hkv Hst He) as (En & _).
    assert (Ep : e = ExtPres).
    { destruct e; [congruence|exfalso|reflexivity].
      destruct (k_diff _ v d _ Hkv Hst eq_refl) as (y & Hy & _ & Hn & _). rewrite Es in *. unfold HybridProofs.slot in Hsa.
      rewrite En in Hy. congruence. }
    subst e. destruct (k_pres _ v d _ Hkv Hst eq_refl) as (_ & Hh & _). rewrite Es in *. rewrite En in Hh.
    assert (Ex : nth 31 (t ++ [x]) 0 = x).
    { destruct Ht as [Hl _]. rewrite app_nth2 by lia. rewrite Hl. reflexivity. }
    rewrite Ex in Hh. exact Hh.
  - intros t Ht Hn. exfalso. destruct (Hs t Ht) as (k & v & d & e & -> & Hkv & Hst & He).
    destruct (k_slot k v d e Hkv Hst He) as (En & y & Hy & _). unfold HybridProofs.slot in Hn. rewrite <- En in Hn. congruence.
  - intros t x Ht Hx Hne. destruct (Hs t Ht) as (k & v & d & e & -> & Hkv & Hst & He).
    destruct (k_slot k v d e Hkv Hst He) as (En & _). unfold HybridProofs.slot in *. rewrite <- En in *.
    assert (Ed : e = ExtDifferentStem).
    { destruct e; [congruence|reflexivity|exfalso]. destruct (k_pres k v d _ Hkv Hst eq_refl) as (Hy & _). congruence. }
    subst e. pose proof (fi_other _ _ _ _ _ Fin k v d Hkv Hst) as Ho.
    destruct (map_get (firstn (Z.to_nat d) (stem k)) (vs_others s)) as [o|] eqn:Eo; [|exfalso; now apply Ho].
    destruct (fi_others _ _ _ _ _ Fin _ _ Eo) as (k1 & v1 & d1 & Hkv1 & Hst1 & Ep & Hso).
    destruct (k_diff k1 v1 d1 _ Hkv1 Hst1 eq_refl) as (y & Hy & Hso1 & _). rewrite <- Ep in Hy.
    assert (o = y) by congruence. assert (X : Some x = Some y) by (etransitivity; [symmetry; exact Hx|exact Hy]).
    assert (o = x) as <- by congruence. first [exact Eo|reflexivity].
Qed.

Lemma values_agree order : (forall k v d, In (k, v) U -> map_get (stem k) st <> Some (ExtNone, d)) -> forall uh,
  update_root order uh keys values updated root = update_root order uh keys (map m keys) updated root.
Proof.
  intros Hocc uh. unfold update_root. rewrite map_length, Hlen.
  assert (E : updated_stems keys values updated = updated_stems keys (map m keys) updated); [|now rewrite E].
  unfold updated_stems. apply collect_agree; [|exact Hlen|now rewrite map_length].
  intros i k w Hi Hw. pose proof (writes_nth _ _ _ _ _ Hi Hw) as Hu. rewrite (map_nth_error m _ _ Hi).
  destruct (nth_error values i) as [v|] eqn:Ev; [|exfalso; apply nth_error_None in Ev; assert (i < len keys)%nat by (apply nth_error_Some; congruence); lia].
  pose proof (nth_combine _ _ _ _ _ Hi Ev) as Hkv. destruct (fi_key _ _ _ _ _ Fin k v Hkv) as (d & e & Hst & _).
  f_equal. symmetry. apply (k_true k v d e Hkv Hst). intros ->. exact (Hocc k w d Hu Hst).
Qed.

Lemma opt_in {X} (o : option (list X)) y : In y (match o with Some l => l | None => [] end) -> exists l, o = Some l /\ In y l.
Proof. destruct o as [l|]; [eauto|intros []]. Qed.
Lemma in_opt {X} (o : option (list X)) y l : o = Some l -> In y l -> In y (match o with Some l => l | None => [] end).
Proof. now intros ->. Qed.

(** A written stem that is said to be in an empty slot stops the update. *)
Record NInv (T : list bytes) (u : Updates) : Prop := {
  ni_stem : forall x, u_stem u x <> None -> exists e d, map_get x st = Some (e, d) /\ e <> ExtNone;
  ni_sorted : msorted (u_prefix u);
  ni_in : forall p l x, map_get p (u_prefix u) = Some l -> In x l ->
    (exists e d, map_get x st = Some (e, d) /\ p = firstn (Z.to_nat d) x) \/
    (exists y d, map_get y st = Some (ExtDifferentStem, d) /\ p = firstn (Z.to_nat d) y);
  ni_all : forall x, In x T -> exists e d l, map_get x st = Some (e, d) /\ map_get (firstn (Z.to_nat d) x) (u_prefix u) = Some l /\ In x l
}.

Lemma get_stem_key x e d : map_get x st = Some (e, d) -> exists k v, x = stem k /\ In (k, v) (combine keys values) /\ is_key k.
Proof.
  intro H. apply get_claim in H. unfold claims in H. apply in_combine_l, in_combine_l in H. apply (proj1 (In_set_of _ _)) in H.
  apply in_map_iff in H as (k & <- & Hk). destruct (has_value k Hk) as (v & Hv). exists k, v. repeat split; auto; now apply in_keys.
Qed.

Lemma slice_stem x e d : map_get x st = Some (e, d) -> slice 0 (Z.to_nat d) x = Ok (firstn (Z.to_nat d) x) /\ len (firstn (Z.to_nat d) x) = Z.to_nat d.
Proof.
  intro H. destruct (get_stem_key x e d H) as (k & v & -> & Hkv & Hk). pose proof (k_len k v d e Hkv H) as Hl.
  pose proof (proj1 (key_stem k Hk)) as L31. split; [apply slice_ok; unfold bytes in *; lia|]. rewrite firstn_length. unfold bytes in *. lia.
Qed.

Lemma ni_add T u x e d : NInv T u -> map_get x st = Some (e, d) ->
  NInv (T ++ [x]) (mkU (add_stem_prefix (firstn (Z.to_nat d) x) x (u_prefix u)) (u_stem u)).
Proof.
  intros I Hx. constructor; cbn [u_stem u_prefix].
  - apply I.
  - apply msorted_insert, I.
  - intros p l y. rewrite get_add_prefix. destruct (bytes_dec p (firstn (Z.to_nat d) x)) as [->|Hp]; [|apply (ni_in _ _ I)].
    intros [= <-] Hy. apply In_set_insert in Hy as [->|Hy]; [left; eauto|].
    apply opt_in in Hy as (l & El & Hy). exact (ni_in _ _ I _ _ _ El Hy).
  - intros y Hy. apply in_app_or in Hy as [Hy|[<-|[]]].
    + destruct (ni_all _ _ I y Hy) as (e1 & d1 & l & H1 & H2 & H3).
      destruct (bytes_dec (firstn (Z.to_nat d1) y) (firstn (Z.to_nat d) x)) as [Ep|Hp].
      * exists e1, d1. eexists. split; [exact H1|]. rewrite get_add_prefix, Ep. destruct (bytes_dec _ _) as [_|X]; [|congruence].
        split; [reflexivity|]. rewrite Ep in H2. apply In_set_insert. right. exact (in_opt _ _ _ H2 H3).
      * exists e1, d1, l. rewrite get_add_prefix. destruct (bytes_dec _ _); [congruence|]. auto.
    + exists e, d. eexists. split; [exact Hx|]. rewrite get_add_prefix. destruct (bytes_dec _ _) as [_|X]; [|congruence].
      split; [reflexivity|]. apply In_set_insert. now left.
Qed.

Lemma ni_put T u p y : NInv T u ->
  (exists e d, map_get y st = Some (e, d) /\ p = firstn (Z.to_nat d) y) \/
  (exists z d, map_get z st = Some (ExtDifferentStem, d) /\ p = firstn (Z.to_nat d) z) ->
  NInv T (mkU (add_stem_prefix p y (u_prefix u)) (u_stem u)).
Proof.
  intros I Hy. constructor; cbn [u_stem u_prefix].
  - apply I.
  - apply msorted_insert, I.
  - intros q l x. rewrite get_add_prefix. destruct (bytes_dec q p) as [->|Hq]; [|apply (ni_in _ _ I)].
    intros [= <-] Hx. apply In_set_insert in Hx as [->|Hx]; [exact Hy|].
    apply opt_in in Hx as (l & El & Hx). exact (ni_in _ _ I _ _ _ El Hx).
  - intros x Hx. destruct (ni_all _ _ I x Hx) as (e1 & d1 & l & H1 & H2 & H3).
    destruct (bytes_dec (firstn (Z.to_nat d1) x) p) as [Ep|Hp].
    + exists e1, d1. eexists. split; [exact H1|]. rewrite get_add_prefix. destruct (bytes_dec _ _) as [_|X]; [|congruence].
      split; [reflexivity|]. rewrite Ep in H2. apply In_set_insert. right. exact (in_opt _ _ _ H2 H3).
    + exists e1, d1, l. rewrite get_add_prefix. destruct (bytes_dec _ _); [congruence|]. auto.
Qed.
Lemma ni_upd T b f x v e d : NInv T (mkU b f) -> map_get x st = Some (e, d) -> e <> ExtNone -> NInv T (mkU b (upd f x v)).
Proof.
  intros I Hx He. constructor; cbn [u_stem u_prefix]; [|apply (ni_sorted _ _ I)|apply (ni_in _ _ I)|apply (ni_all _ _ I)].
  intros y Hy. destruct (bytes_dec y x) as [->|Hne]; [eauto|]. rewrite upd_other in Hy by congruence. exact (ni_stem _ _ I y Hy).
Qed.

Notation us' := (updated_stems keys values updated).
Lemma us_inv' : UInv (combine (combine keys values) updated) us'.
Proof.
  destruct (zip_keys keys values updated) as [n E]. apply collect_inv.
  - apply Forall_forall. intros e He. apply in_keys.
    assert (Hi : In (fst (fst e)) (firstn n keys)) by (rewrite <- E; apply in_map_iff; eauto).
    eapply firstn_In_l; eauto.
  - rewrite E. now apply NoDup_firstn.
Qed.
Lemma us_olds x su d : In (x, su) us' -> map_get x st = Some (ExtDifferentStem, d) -> forall i o w, In (i, (o, w)) su -> o = None.
Proof.
  intros Hi Hx i o w Hsu. apply map_get_sorted in Hi; [|apply us_inv']. destruct (ui_in _ _ us_inv' x su Hi) as (_ & _ & H3).
  apply H3 in Hsu as (k & Hk & <- & _). apply in_combine_l in Hk.
  exact (kf_val _ _ _ _ _ _ _ _ _ _ _ _ (facts k o d _ Hk Hx) ltac:(discriminate)).
Qed.

Notation uh := (mkUH st cm (vs_others s)).
Lemma process_stem_inv T u x su : NInv T u -> In (x, su) us' ->
  process_stem uh u (x, su) = Panic \/ exists u', process_stem uh u (x, su) = Ok (Some u') /\ NInv (T ++ [x]) u'.
Proof.
  intros I Hi. unfold process_stem. cbn [uh_depths uh_comms uh_others].
  destruct (map_get x st) as [[e d]|] eqn:Hx; cbn [unwrap rbind]; [|now left].
  destruct (slice_stem x e d Hx) as [-> _]. cbn [rbind]. pose proof (ni_add T u x e d I Hx) as I1.
  destruct e.
  - right. eexists. split; [reflexivity|exact I1].
  - destruct (map_get (firstn (Z.to_nat d) x) (vs_others s)) as [o|]; cbn [unwrap rbind]; [|now left].
    rewrite new_suffixes_deltas by exact (us_olds x su d Hi Hx).
    destruct (fold_left suffix_delta su (gzero, gzero)) as [c1 c2]. right. eexists. split; [reflexivity|].
    eapply ni_upd; [|exact Hx|discriminate].
    exact (ni_put _ _ (firstn (Z.to_nat d) x) o I1 (or_intror (ex_intro _ x (ex_intro _ d (conj Hx eq_refl))))).
  - destruct (update_present cm (firstn (Z.to_nat d) x) su) as [c|]; cbn [rbind]; [|now left].
    right. eexists. split; [reflexivity|]. eapply ni_upd; [exact I1|exact Hx|discriminate].
Qed.
Lemma process_stems_inv l : forall T u, NInv T u -> (forall e, In e l -> In e us') ->
  process_stems uh u l = Panic \/ exists u', process_stems uh u l = Ok (Some u') /\ NInv (T ++ map fst l) u'.
Proof.
  induction l as [|[x su] l IH]; intros T u I Hl; cbn [process_stems map fst].
  - right. exists u. rewrite app_nil_r. auto.
  - destruct (process_stem_inv T u x su I (Hl _ (or_introl eq_refl))) as [E|(u1 & E & I1)]; rewrite E; cbn [rbind]; [now left|].
    destruct (IH (T ++ [x]) u1 I1) as [E2|(u2 & E2 & I2)]; [intros; apply Hl; now right|now left|].
    right. exists u2. split; [exact E2|]. now rewrite <- app_assoc in I2.
Qed.

Lemma prefixes_panic order comms0 by_stem e l : In e l -> (forall T, process_prefix order comms0 by_stem T e = Panic) ->
  forall T, process_prefixes order comms0 by_stem T l = Panic.
Proof.
  intros Hi Hp. induction l as [|e1 l IH]; intro T; [destruct Hi|]. cbn [process_prefixes]. destruct Hi as [->|Hi]; [now rewrite Hp|].
  destruct (process_prefix order comms0 by_stem T e1) as [T1|]; cbn [rbind]; [now apply IH|reflexivity].
Qed.

Lemma writes_pos ks : forall ups k w, In (k, w) (writes ks ups) -> exists i, nth_error ks i = Some k /\ nth_error ups i = Some (Some w).
Proof.
  induction ks as [|a ks IH]; intros [|[b|] ups] k w Hi; cbn [writes] in Hi; try (destruct Hi; fail).
  - destruct Hi as [[= <- <-]|Hi]; [exists 0%nat; auto|]. destruct (IH _ _ _ Hi) as (i & H1 & H2). exists (S i). auto.
  - destruct (IH _ _ _ Hi) as (i & H1 & H2). exists (S i). auto.
Qed.
Lemma nth_error_combine {X Y} (l : list X) : forall (l' : list Y) i x y, nth_error l i = Some x -> nth_error l' i = Some y ->
  nth_error (combine l l') i = Some (x, y).
Proof. induction l as [|a l IH]; intros [|b l'] [|i] x y H1 H2; cbn in *; try discriminate; [congruence|auto]. Qed.

Lemma empty_claim_panics order k w d : (forall l, Permutation (order l) l) ->
  In (k, w) U -> map_get (stem k) st = Some (ExtNone, d) -> update_root order uh keys values updated root = Panic.
Proof.
  intros Ho Hu Hst. unfold update_root. rewrite Hlen, Hul, not_usize_equal, (proj2 (has_unique_NoDup keys) Hdup). cbn [negb].
  assert (N0 : NInv [] (mkU [] bempty)).
  { constructor; cbn [u_stem u_prefix]; [intros x X; destruct (X eq_refl)|constructor|discriminate|intros x []]. }
  destruct (process_stems_inv us' [] _ N0 (fun e H => H)) as [->|(u & -> & I)]; [reflexivity|]. cbn [rbind uh_comms].
  cbn [app] in I. destruct (writes_pos _ _ _ _ Hu) as (i & H1 & H2).
  destruct (nth_error values i) as [v|] eqn:H3; [|exfalso; apply nth_error_None in H3; assert (i < len keys)%nat by (apply nth_error_Some; congruence); lia].
  pose proof (nth_combine _ _ _ _ _ H1 H3) as Hkv.
  pose proof (nth_combine _ _ _ _ _ (nth_error_combine _ _ _ _ _ H1 H3) H2) as Hz.
  assert (Hx : In (stem k) (map fst us')).
  { pose proof (ui_all _ _ us_inv' k v w Hz) as X. destruct (map_get (stem k) us') as [su|] eqn:Es; [|exfalso; now apply X].
    apply map_get_fst in Es; [exact Es|apply us_inv']. }
  destruct (ni_all _ _ I _ Hx) as (e1 & d1 & l & H4 & H5 & H6).
  assert (E1 : Some (e1, d1) = Some (ExtNone, d)) by (etransitivity; [symmetry; exact H4|exact Hst]).
  assert (e1 = ExtNone) as -> by congruence. assert (d1 = d) as -> by congruence. clear E1 H4.
  assert (Hc : map_get (firstn (Z.to_nat d) (stem k)) cm = None).
  { apply Hnopath. exact (empty_slot hint keys values Hkeys Hlen Hco s Fin k v d ExtNone Hkv Hst eq_refl). }
  pose proof (proj2 (slice_stem _ _ _ Hst)) as Hl.
  assert (Hother : forall z e2 d2, map_get z st = Some (e2, d2) -> firstn (Z.to_nat d) (stem k) = firstn (Z.to_nat d2) z -> e2 = ExtNone).
  { intros z e2 d2 Hz2 Ep. destruct (bytes_dec z (stem k)) as [->|Hne].
    - assert (X : Some (e2, d2) = Some (ExtNone, d)) by (etransitivity; [symmetry; exact Hz2|exact Hst]). congruence.
    - pose proof (proj2 (slice_stem _ _ _ Hz2)) as Hl2.
      assert (Ed : Z.to_nat d2 = Z.to_nat d) by (rewrite <- Hl, <- Hl2; now rewrite Ep).
      apply get_claim in Hz2. apply get_claim in Hst.
      destruct (co_slot _ _ Hco _ _ _ _ _ _ Hz2 Hst Hne Ed) as [_ X]; [rewrite <- Ep; now rewrite Ed|]. now apply X. }
  assert (Hnone : forall x, In x l -> u_stem u x = None).
  { intros x Hxl. destruct (u_stem u x) as [c|] eqn:Eu; [exfalso|reflexivity].
    destruct (ni_stem _ _ I x ltac:(congruence)) as (e2 & d2 & Hx2 & He2).
    destruct (ni_in _ _ I _ _ _ H5 Hxl) as [(e3 & d3 & Hx3 & Ep)|(z & d3 & Hz3 & Ep)].
    - assert (X : Some (e2, d2) = Some (e3, d3)) by (etransitivity; [symmetry; exact Hx2|exact Hx3]).
      pose proof (Hother _ _ _ Hx3 Ep). congruence.
    - pose proof (Hother _ _ _ Hz3 Ep). discriminate. }
  rewrite (prefixes_panic order cm (u_stem u) (firstn (Z.to_nat d) (stem k), l)); [reflexivity| |].
  - apply map_get_sorted; [apply I|exact H5].
  - intro T. unfold process_prefix.
    assert (Hso : In (stem k) (order l)) by (apply (Permutation_in _ (Permutation_sym (Ho l))); exact H6).
    assert (Hu2 : forall x, In x (order l) -> u_stem u x = None) by (intros x Hx2; apply Hnone; now apply (Permutation_in _ (Ho l))).
    destruct (order l) as [|a [|b r]]; [destruct Hso| |].
    + rewrite (Hu2 a (or_introl eq_refl)). reflexivity.
    + cbn [subtree_elements]. rewrite (Hu2 a (or_introl eq_refl)). cbn [rbind].
      replace (map_get (firstn (Z.to_nat d) (stem k)) cm) with (@None G) by (symmetry; exact Hc). reflexivity.
Qed.
End Truth.

Section Theorems.
Context {A : Alg} {L : AlgLaws A} {P : Par A} {PL : ParLaws P}.
Notation stem k := (firstn 31 k).

Lemma writes_empty_dec hint keys updated : Forall is_key keys -> writes_empty hint keys updated \/ ~ writes_empty hint keys updated.
Proof.
  intro Hk. unfold writes_empty. generalize (writes keys updated) as ws. induction ws as [|[k v] ws IH].
  - right. intros (k & v & d & [] & _).
  - destruct IH as [(k1 & v1 & d1 & H1 & H2)|IH]; [left; exists k1, v1, d1; split; [now right|exact H2]|].
    destruct (existsb (fun c => match c with (x, _, ExtNone) => beqb x (stem k) | _ => false end) (claims hint keys)) eqn:Ex.
    + left. apply existsb_exists in Ex as ([[x d] e] & Hi & Hb). destruct e; try discriminate. apply beqb_eq in Hb. subst x.
      exists k, v, d. split; [now left|exact Hi].
    + right. intros (k1 & v1 & d1 & [H1|H1] & H2); [|apply IH; eauto 6].
      apply not_true_iff_false in Ex. apply Ex. apply existsb_exists. exists (stem k1, d1, ExtNone). split; [exact H2|].
      apply beqb_eq. congruence.
Qed.

Lemma claimed_update h (db : MemoryDb) root hint comms keys values updated qs uh vs order :
  domain_fits 256 -> wf_history h -> run_mem h = Ok db -> root_commitment db = Ok root ->
  Forall is_key keys -> NoDup keys -> len values = len keys ->
  Z.of_nat (len keys) < 2 ^ 63 -> Z.of_nat (len updated) < 2 ^ 63 ->
  create_verifier_queries hint comms keys values root = Ok (Some (qs, uh)) -> Forall2 opening qs vs ->
  coherent hint keys -> ideal (final_map h) (stems_of h) qs vs ->
  scalars_apart (final_map h) (stems_of h) (map (firstn 31) keys ++ vh_diff hint) values ->
  (forall l, Permutation (order l) l) ->
  let result := update_root order uh keys values updated root in
  (~ writes_empty hint keys updated /\
   exists db' root', trie_insert db (writes keys updated) = Ok db' /\ root_commitment db' = Ok root' /\ result = Ok (VOk root')) \/
  (writes_empty hint keys updated /\ result = Panic).
Proof.
  intros Fit Hw Erun Eroot Hkeys Hdup Hlen B1 B2 Ev Hop Hco Hid Hsc Ho result.
  pose proof (run_canon h db Hw Erun) as C. rewrite (root_node h db Hw Erun) in Eroot.
  assert (Er : root = node_comm (final_map h) (stems_of h) []) by congruence.
  destruct (queries_final hint comms keys values root qs uh Hkeys Ev) as (s & cm & F & Hp & Hnp & Hr & Hq & ->).
  assert (Hq' : forall p z, In (p, z) (vs_pzs s) -> 0 <= z < 256 ->
    exists c, map_get p cm = Some c /\ opens_to qs (final_map h) (stems_of h) vs c z (expected_y (vs_leaf s) cm (p, z))).
  { intros p z Hin Bz. destruct (Hq p z Hin) as (c & Hc & Hqin). exists c. split; [exact Hc|]. now apply query_opens. }
  pose proof (fitted_length keys updated) as Hul.
  assert (Hwf : forall ups, Forall (fun kv : bytes * bytes => is_key (fst kv)) (writes keys ups)).
  { intro ups. apply Forall_forall. intros [k v] Hi. apply writes_In in Hi. rewrite Forall_forall in Hkeys. now apply Hkeys. }
  unfold result. rewrite update_fitted by (rewrite ?Hlen; assumption).
  destruct (writes_empty_dec hint keys updated Hkeys) as [We|We]; [right|left]; (split; [exact We|]).
  - destruct We as (k & v & d & Hi & Hc). rewrite <- writes_fitted in Hi.
    apply (empty_claim_panics h root hint keys values qs vs Hkeys Hdup Hlen Hco s cm F Hp Hnp Hr Hq' (fitted keys updated) Hul
      order k v d Ho Hi). now apply get_claim.
  - assert (Hocc : forall k v d, In (k, v) (writes keys (fitted keys updated)) ->
      map_get (stem k) (fst (stem_statuses (set_of (map (firstn 31) keys)) hint)) <> Some (ExtNone, d)).
    { intros k v d Hi Hst. apply We. exists k, v, d. rewrite writes_fitted in Hi. split; [exact Hi|]. now apply get_claim. }
    rewrite (values_agree h db C root Er hint keys values qs vs Hkeys Hdup Hlen Hco Hid Hsc s cm F Hp Hnp Hr Hq' (fitted keys updated) Hul order Hocc).
    pose proof (hints_true h Hw db C root Er hint keys values qs vs Hkeys Hdup Hlen Hco Hid Hsc s cm F Hp Hnp Hr Hq' (fitted keys updated) Hul Hocc) as HT.
    destruct (update_root_true h db keys (fitted keys updated) _ order Hw C Hkeys Hdup Hul HT Ho) as [H1 _].
    rewrite writes_fitted in *.
    destruct (hcanon_insert_all (writes keys updated) db h C (Hwf updated)) as (db' & E' & C').
    exists db', (spec_root (final_map (h ++ writes keys updated)) (stems_of (h ++ writes keys updated))).
    split; [exact E'|]. split; [exact (proj1 (canon_root _ _ _ C'))|]. rewrite Er. apply H1.
    intros k v Hi. assert (Hs : In (stem k) (stems_of (writes keys updated))) by (apply stems_of_In; now exists (k, v)).
    assert (Hk : In k keys) by (eapply writes_In; eauto).
    destruct (has_claim hint keys values Hlen s F (fitted keys updated) Hul k Hk) as (w & d & e & Hkv & Hst).
    assert (He : e <> ExtNone) by (intros ->; exact (Hocc k v d Hi Hst)).
    destruct (k_slot h db C root Er hint keys values qs vs Hkeys Hdup Hlen Hco Hid Hsc s cm F Hp Hnp Hr Hq' k w d e Hkv Hst He) as (En & t & Ht & _).
    unfold qpos. rewrite <- En. congruence.
Qed.

(** The whole call. *)
Lemma claimed_verify {C : ECodec A} {H : Hasher} h (db : MemoryDb) root p keys values updated uh qs uh' vs order :
  domain_fits 256 -> wf_history h -> run_mem h = Ok db -> root_commitment db = Ok root ->
  Forall is_key keys -> len values = len keys ->
  Z.of_nat (len keys) < 2 ^ 63 -> Z.of_nat (len updated) < 2 ^ 63 ->
  proof_check p keys values root = Ok (true, uh) ->
  create_verifier_queries (vp_hint p) (vp_comms p) keys values root = Ok (Some (qs, uh')) -> Forall2 opening qs vs ->
  coherent (vp_hint p) keys -> ideal (final_map h) (stems_of h) qs vs ->
  scalars_apart (final_map h) (stems_of h) (map (firstn 31) keys ++ vh_diff (vp_hint p)) values ->
  (forall l, Permutation (order l) l) ->
  let result := verify_and_update order p root keys values updated in
  (~ NoDup keys /\ result = Ok (VErr DuplicateKeys)) \/
  (NoDup keys /\ ~ writes_empty (vp_hint p) keys updated /\
   exists db' root', trie_insert db (writes keys updated) = Ok db' /\ root_commitment db' = Ok root' /\ result = Ok (VOk root')) \/
  (NoDup keys /\ writes_empty (vp_hint p) keys updated /\ result = Panic).
Proof.
  intros Fit Hw Erun Eroot Hkeys Hlen B1 B2 Eck Ev Hop Hco Hid Hsc Ho result.
  assert (Eu : uh = Some uh').
  { unfold proof_check in Eck. rewrite Ev in Eck. cbn [rbind] in Eck. destruct (precomputed_weights 256); cbn [rbind] in Eck; [|discriminate].
    destruct (mp_check _ _ _ _ _); cbn [rbind] in Eck; [|discriminate]. congruence. }
  assert (Er : result = update_root order uh' keys values updated root).
  { unfold result, verify_and_update. rewrite Eck, Eu. reflexivity. }
  rewrite Er. destruct (ListDec.NoDup_dec bytes_dec keys) as [ND|ND]; [right|left].
  - destruct (claimed_update h db root _ _ keys values updated qs uh' vs order Fit Hw Erun Eroot Hkeys ND Hlen B1 B2 Ev Hop Hco Hid Hsc Ho)
      as [[H1 H2]|[H1 H2]]; [left|right]; auto.
  - split; [exact ND|]. apply duplicates_rejected; auto. now rewrite Hlen.
Qed.

(** From provers that are accepted for enough challenges. *)
Lemma accepted_update {C : ECodec A} h (db : MemoryDb) root hint comms keys values qs uh ch p :
  domain_fits 256 -> wf_history h -> run_mem h = Ok db -> root_commitment db = Ok root ->
  Forall is_key keys -> NoDup keys -> len values = len keys -> Z.of_nat (len keys) < 2 ^ 63 ->
  create_verifier_queries hint comms keys values root = Ok (Some (qs, uh)) ->
  enough_challenges 8 (len qs) ch -> all_checked p hint comms keys values root qs ch ->
  coherent hint keys ->
  scalars_apart (final_map h) (stems_of h) (map (firstn 31) keys ++ vh_diff hint) values ->
  exists zs, points_ok 256 zs qs /\
  match extract_multi 256 zs qs ch (pr_a p) with
  | Opening vs => ideal (final_map h) (stems_of h) qs vs ->
      forall updated order, Z.of_nat (len updated) < 2 ^ 63 -> (forall l, Permutation (order l) l) ->
      let result := update_root order uh keys values updated root in
      (~ writes_empty hint keys updated /\
       exists db' root', trie_insert db (writes keys updated) = Ok db' /\ root_commitment db' = Ok root' /\ result = Ok (VOk root')) \/
      (writes_empty hint keys updated /\ result = Panic)
  | Relation v => relation (crs_G trie_crs ++ [crs_Q trie_crs]) v
  end.
Proof.
  intros Fit Hw Erun Eroot Hkeys Hdup Hlen B1 Ev Ec Ac Hco Hsc.
  destruct (accepted_openings hint comms keys values root qs uh ch p Fit Hkeys Ev Ec Ac) as (zs & Hz & X). exists zs. split; [exact Hz|].
  destruct (extract_multi 256 zs qs ch (pr_a p)) as [vs|v]; [|exact X]. intros Hid updated order B2 Ho.
  exact (claimed_update h db root hint comms keys values updated qs uh vs order Fit Hw Erun Eroot Hkeys Hdup Hlen B1 B2 Ev X Hco Hid Hsc Ho).
Qed.
End Theorems.
