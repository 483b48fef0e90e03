(** Accepted proofs with claims that fit one tree tell the truth, up to one exception. *)
From Verif Require Import Base BaseFacts Alg AlgFacts TreeSpec TreeFacts TrieModel TrieProofs TrieTheorems BTree
  WireModel ProofModel ProofSpec PathProofs OpeningProofs VerifierProofs ProofTheorems ProofReject LagrangeSpec TruthSpec TruthVerifier
  TruthFacts.

Section Walk.
Context {A : Alg} {L : AlgLaws A} {P : Par A} {PL : ParLaws P}.
Opaque vcommit gsum subtree_hash.
Notation stem k := (firstn 31 k).

Lemma ext_present_dec (e : ExtPresent) : {e = ExtNone} + {e <> ExtNone}.
Proof. destruct e; [left|right|right]; congruence. Qed.
Lemma G_dec (a b : G) : {a = b} + {a <> b}.
Proof. destruct (geqb a b) eqn:E; [left; now apply geqb_true|right; now apply geqb_false]. Qed.

Context (db : MemoryDb) (m : bytes -> option bytes) (St : list bytes) (C : Canon db m St).
Context (qs : list VerifierQuery) (vs : list (list F)).
Context (Hid : ideal m St qs vs).
Let W := can_wf _ _ _ C.
Notation opens_to := (opens_to qs m St vs).
Notation known := (known m St qs vs).

Lemma opens_fun c z y y' : opens_to c z y -> opens_to c z y' -> 0 <= z < 256 -> y = y'.
Proof. intros (f & K1 & <-) (g & K2 & <-) B. exact (id_binding _ _ _ _ Hid c f g z K1 K2 B). Qed.
Lemma opens_known c z y : opens_to c z y -> exists f, known c f.
Proof. intros (f & K & _). eauto. Qed.
Lemma opens_node p z : is_node St p -> opens_to (node_comm m St p) z (node_vec m St p z).
Proof. intro H. exists (node_vec m St p). split; [now constructor|reflexivity]. Qed.
Lemma opens_zero z : opens_to gzero z fzero.
Proof. exists (fun _ => fzero). split; [constructor|reflexivity]. Qed.
Lemma hash_is_zero c : (exists f, known c f) -> hash c = fzero -> c = gzero.
Proof.
  intros (f & K) H. apply (id_hash _ _ _ _ Hid c f gzero (fun _ => fzero) K (known_zero _ _ _ _)).
  now rewrite Alg.hash_zero.
Qed.
Lemma not_node p : ~ is_node St p -> internal St p = false /\ stem_at St p = None /\ (forall t, stem_at St (removelast p) = Some t -> p = [] \/ (last p 0 <> 2 /\ last p 0 <> 3)).
Proof.
  intro H. split; [destruct (internal St p) eqn:E; auto; exfalso; apply H; now left|].
  split; [destruct (stem_at St p) as [t|] eqn:E; auto; exfalso; apply H; right; left; eauto|].
  intros t Ht. destruct (list_eq_dec Z.eq_dec p []) as [->|Hp]; [now left|]. right.
  split; intro El; apply H; right; right; exists (removelast p), t; (split; [exact Ht|]);
    [left|right]; rewrite <- El; apply app_removelast_last; exact Hp.
Qed.

(** Entries on the way down an inner node. *)
Lemma inner_child p z : internal St p = true -> node_vec m St p z = hash (node_comm m St (p ++ [z])) /\
  (is_node St (p ++ [z]) \/ node_comm m St (p ++ [z]) = gzero).
Proof.
  intro Hp. rewrite (node_vec_inner m St p Hp). change (inner_vec m St p z) with (cval m St (p ++ [z])).
  destruct (internal St (p ++ [z])) eqn:Ei.
  - split; [|left; now left]. unfold node_comm. rewrite (node_vec_inner m St _ Ei). fold (inner_comm m St (p ++ [z])).
    apply cval_many; auto. apply internal_many; auto. now destruct p.
  - destruct (internal_false_under St _ Ei) as [E|[t E]].
    + assert (Z0 : node_comm m St (p ++ [z]) = gzero).
      { unfold node_comm, node_vec, stem_at. rewrite Ei, removelast_last, Hp, E. apply vcommit_zero. reflexivity. }
      split; [|now right]. rewrite Z0, Alg.hash_zero. now apply cval_none.
    + assert (Hs : stem_at St (p ++ [z]) = Some t) by (apply stem_at_spec; rewrite removelast_last; auto).
      split; [|left; right; left; eauto]. unfold node_comm. rewrite (node_vec_ext m St _ t Hs). fold (ext_comm m t).
      now apply cval_one.
Qed.
Lemma child_known p z : internal St p = true -> exists f, known (node_comm m St (p ++ [z])) f.
Proof.
  intro Hp. destruct (inner_child p z Hp) as [_ [H|H]].
  - exists (node_vec m St (p ++ [z])). now constructor.
  - rewrite H. exists (fun _ => fzero). constructor.
Qed.

(** Nodes with stems below are not zero. *)
Lemma ext_nonzero p t : stem_at St p = Some t -> node_comm m St p <> gzero.
Proof.
  intros Hs E. assert (Hn : is_node St p) by (right; left; eauto).
  pose proof (opens_node p 0 Hn) as H1. rewrite E in H1. pose proof (opens_fun _ _ _ _ H1 (opens_zero 0) ltac:(lia)) as H.
  rewrite (node_vec_ext m St p t Hs) in H. cbn in H. now apply fone_neq_0 in H.
Qed.
Lemma inner_nonzero j : forall p, (31 <= j + length p)%nat -> internal St p = true -> under St p <> [] -> node_comm m St p <> gzero.
Proof.
  induction j as [|j IH]; intros p Hj Hp Hu E.
  - rewrite internal_long in Hp; [discriminate|exact W|lia].
  - destruct (under St p) as [|t r] eqn:Eu; [now apply Hu|].
    assert (Ht : In t (under St p)) by (rewrite Eu; now left). apply under_In in Ht as [Ht Hpre].
    assert (Lt : length t = 31%nat) by now apply (wfS_len St). assert (Bt : is_stem t) by now apply (wfS_stem St).
    assert (Lp : (length p < 31)%nat).
    { destruct (le_lt_dec 31 (length p)); auto. rewrite internal_long in Hp; [discriminate|exact W|exact l]. }
    set (z := nth (length p) t 0).
    assert (Bz : 0 <= z < 256) by (pose proof (stem_byte t (length p) Bt Lp) as B; unfold is_byte in B; exact B).
    assert (Hc : In t (under St (p ++ [z]))) by (apply under_In; split; auto; apply has_prefix_snoc; repeat split; auto; lia).
    pose proof (opens_node p z (or_introl Hp)) as H1. rewrite E in H1.
    pose proof (opens_fun _ _ _ _ H1 (opens_zero z) Bz) as H. destruct (inner_child p z Hp) as [Hv _]. rewrite Hv in H.
    apply hash_is_zero in H; [|now apply child_known]. revert H.
    destruct (internal St (p ++ [z])) eqn:Ei.
    + apply IH; auto; [rewrite app_length; cbn [length]; lia|]. intro X. rewrite X in Hc. destruct Hc.
    + destruct (internal_false_under St _ Ei) as [X|[t' X]]; [rewrite X in Hc; destruct Hc|].
      apply (ext_nonzero _ t'). apply stem_at_spec. rewrite removelast_last. auto.
Qed.

(** ** One key *)
Context (root : G) (Hroot : root = node_comm m St []).
Context (hint : VerificationHint) (keys : list bytes) (values : list (option bytes)).
Context (Hsc : scalars_apart m St (map (firstn 31) keys ++ vh_diff hint) values).
Context (k : bytes) (Hk : is_key k) (v : option bytes) (d : Z) (e : ExtPresent) (cm : list (bytes * G)).
Context (KF : KeyFacts hint keys root qs cm k v d e m St vs).
Context (Hkin : In k keys) (Hvin : In v values).
Let s := stem k.
Let n := Z.to_nat d.
Notation c := (comm_at cm k).
Let Ls : length s = 31%nat.
Proof. apply (key_stem k Hk). Qed.
Let Bs i : (i < 31)%nat -> 0 <= nth i s 0 < 256.
Proof. intro Hi. exact (stem_byte s i (key_stem k Hk) Hi). Qed.
Let path i : (i < 31)%nat -> firstn i s ++ [nth i s 0] = firstn (S i) s.
Proof. intro Hi. symmetry. apply (firstn_S_nth 0 i s). lia. Qed.

Lemma step i : (i < n)%nat -> (S i < n)%nat \/ e <> ExtNone -> opens_to (c i) (nth i s 0) (hash (c (S i))).
Proof. apply (kf_step _ _ _ _ _ _ _ _ _ _ _ _ KF). Qed.
Lemma next_known i : (i < n)%nat -> (S i < n)%nat \/ e <> ExtNone -> exists f, known (c (S i)) f.
Proof.
  intros Hi Hor. destruct (Nat.eq_dec (S i) n) as [En|En].
  - destruct Hor as [|He]; [lia|]. pose proof (kf_mark _ _ _ _ _ _ _ _ _ _ _ _ KF He) as H. fold n in H. rewrite En.
    eapply opens_known. exact H.
  - destruct (Nat.eq_dec (S (S i)) n) as [En2|En2].
    + destruct (ext_present_dec e) as [He|He].
      * pose proof (kf_none _ _ _ _ _ _ _ _ _ _ _ _ KF He) as H. fold n in H. replace (n - 1)%nat with (S i) in H by lia.
        eapply opens_known. exact H.
      * eapply opens_known. apply (step (S i)); [lia|auto].
    + eapply opens_known. apply (step (S i)); lia.
Qed.

(** Down the inner nodes of the tree. *)
Lemma walk i : (i <= sd St s)%nat -> (i < n)%nat \/ (i = n /\ e <> ExtNone) -> c i = node_comm m St (firstn i s).
Proof.
  destruct (sd_spec St s W Ls) as (Hi & _ & Hb).
  induction i as [|i IH]; intros Hle Hor.
  - rewrite (kf_root _ _ _ _ _ _ _ _ _ _ _ _ KF), Hroot. reflexivity.
  - assert (Hin : (i < n)%nat) by lia. assert (Hor' : (S i < n)%nat \/ e <> ExtNone) by (destruct Hor as [|[]]; auto).
    pose proof (step i Hin Hor') as H. rewrite IH in H by lia.
    assert (Hint : internal St (firstn i s) = true) by (apply Hi; lia).
    destruct (inner_child (firstn i s) (nth i s 0) Hint) as [Hv _]. rewrite path in Hv by lia.
    pose proof (opens_fun _ _ _ _ H (opens_node _ _ (or_introl Hint)) (Bs i ltac:(lia))) as E. rewrite Hv in E.
    destruct (next_known i Hin Hor') as (f & Kf). destruct (child_known (firstn i s) (nth i s 0) Hint) as (g & Kg).
    rewrite path in Kg by lia. exact (id_hash _ _ _ _ Hid _ _ _ _ Kf Kg E).
Qed.

(** Below a zero there are zeros only, so no stem. *)
Lemma zero_chain i : (i <= n)%nat -> e <> ExtNone -> c i = gzero -> False.
Proof.
  intros Hi He. remember (n - i)%nat as j eqn:Ej. revert i Hi Ej. induction j as [|j IH]; intros i Hi Ej E.
  - assert (i = n) as -> by lia. pose proof (kf_mark _ _ _ _ _ _ _ _ _ _ _ _ KF He) as H. fold n in H. rewrite E in H.
    pose proof (opens_fun _ _ _ _ H (opens_zero 0) ltac:(lia)) as X. now apply fone_neq_0 in X.
  - pose proof (step i ltac:(lia) (or_intror He)) as H. rewrite E in H.
    pose proof (kf_len _ _ _ _ _ _ _ _ _ _ _ _ KF) as Bn. fold n in Bn.
    pose proof (opens_fun _ _ _ _ H (opens_zero _) (Bs i ltac:(lia))) as X.
    apply hash_is_zero in X; [|apply next_known; auto; lia]. apply (IH (S i)); [lia|lia|exact X].
Qed.

Let Vin w : v = Some w -> In (Some w) values.
Proof. intros <-. exact Hvin. Qed.

(** Extension nodes are where the claims put them. *)
Lemma not_too_deep : e <> ExtNone -> (n <= sd St s)%nat.
Proof.
  intro He. destruct (le_lt_dec n (sd St s)) as [|Hlt]; [assumption|exfalso].
  pose proof (kf_len _ _ _ _ _ _ _ _ _ _ _ _ KF) as Bn. fold n in Bn.
  pose proof (walk (sd St s) ltac:(lia) (or_introl Hlt)) as Hc. set (q := firstn (sd St s) s) in *.
  pose proof (step (sd St s) Hlt (or_intror He)) as H. rewrite Hc in H.
  pose proof (next_known (sd St s) Hlt (or_intror He)) as (f & Kf).
  set (z := nth (sd St s) s 0) in *. assert (Bz : 0 <= z < 256) by (apply Bs; lia).
  assert (Hzero : hash (c (S (sd St s))) = fzero -> False).
  { intro E. apply hash_is_zero in E; [|eauto]. apply (zero_chain (S (sd St s))); auto. }
  destruct (stem_at St q) as [t|] eqn:Et.
  - assert (Hnode : is_node St q) by (right; left; eauto).
    pose proof (opens_fun _ _ _ _ H (opens_node q z Hnode) Bz) as E. rewrite (node_vec_ext m St q t Et) in E. unfold ext_vec in E.
    destruct (stem_at_In St q t Et) as [Ht _].
    destruct (Z.eqb_spec z 0) as [Z0|Z0]; [exact (id_marker _ _ _ _ Hid _ _ Kf E)|].
    destruct (Z.eqb_spec z 1) as [Z1|Z1].
    { destruct (G_dec (c (S (sd St s))) gzero) as [Eg|Ng].
      - apply Hzero. rewrite Eg. apply Alg.hash_zero.
      - exact (id_stem _ _ _ _ Hid _ _ t Kf Ng Ht E). }
    assert (Hsuf : forall half, half = 2 \/ half = 3 -> hash (c (S (sd St s))) = hash (suffix_comm m t (half - 2)) -> False).
    { intros half Hh Eh. assert (Hns : is_node St (q ++ [half])) by (right; right; exists q, t; split; auto; destruct Hh as [-> | ->]; auto).
      assert (Ens : node_comm m St (q ++ [half]) = suffix_comm m t (half - 2))
        by (unfold node_comm; now rewrite (node_vec_suffix m St q t half Et)).
      rewrite <- Ens in Eh.
      pose proof (id_hash _ _ _ _ Hid _ _ _ _ Kf (known_node _ _ _ _ _ Hns) Eh) as Ec.
      assert (Hleaf : forall i, suffix_vec m t (half - 2) i = fzero \/ exists k' w, m k' = Some w /\
                (suffix_vec m t (half - 2) i = leaf_low (Some w) \/ suffix_vec m t (half - 2) i = leaf_high (Some w))).
      { intro i. unfold suffix_vec. destruct (m (t ++ [128 * (half - 2) + i / 2])) as [w|] eqn:Ew.
        - right. exists (t ++ [128 * (half - 2) + i / 2]), w. split; [exact Ew|]. destruct (Z.even i); auto.
        - left. destruct (Z.even i); reflexivity. }
      destruct (Nat.eq_dec (S (sd St s)) n) as [En|En].
      - pose proof (kf_mark _ _ _ _ _ _ _ _ _ _ _ _ KF He) as Hm. fold n in Hm. rewrite <- En, Ec in Hm.
        pose proof (opens_fun _ _ _ _ Hm (opens_node _ 0 Hns) ltac:(lia)) as X.
        rewrite (node_vec_suffix m St q t half Et) in X. unfold suffix_vec in X. cbn [Z.even] in X.
        destruct (m (t ++ [128 * (half - 2) + 0 / 2])) as [w|] eqn:Ew.
        + apply (proj2 (sa_marked _ _ _ _ Hsc w (or_introl (ex_intro _ _ Ew)))). now symmetry.
        + now apply fone_neq_0 in X.
      - pose proof (step (S (sd St s)) ltac:(lia) (or_intror He)) as H2. rewrite Ec in H2.
        pose proof (next_known (S (sd St s)) ltac:(lia) (or_intror He)) as (f2 & Kf2).
        pose proof (opens_fun _ _ _ _ H2 (opens_node _ _ Hns) (Bs (S (sd St s)) ltac:(lia))) as X.
        rewrite (node_vec_suffix m St q t half Et) in X.
        assert (Hz2 : hash (c (S (S (sd St s)))) <> fzero).
        { intro E2. apply hash_is_zero in E2; [|eauto]. apply (zero_chain (S (S (sd St s)))); [lia|exact He|exact E2]. }
        destruct (Hleaf (nth (S (sd St s)) s 0)) as [Y|(k' & w & Ew & Y)]; [exfalso; apply Hz2; congruence|].
        assert (Ng : c (S (S (sd St s))) <> gzero) by (intro Eg; apply Hz2; rewrite Eg; apply Alg.hash_zero).
        destruct (id_value _ _ _ _ Hid _ _ k' w Kf2 Ng Ew) as [Y1 Y2]. destruct Y as [Y|Y]; [apply Y1|apply Y2]; congruence. }
    destruct (Z.eqb_spec z 2) as [Z2|Z2]; [apply (Hsuf 2); auto|].
    destruct (Z.eqb_spec z 3) as [Z3|Z3]; [apply (Hsuf 3); auto|].
    now apply Hzero.
  - assert (Eg : node_comm m St q = gzero).
    { destruct (sd_spec St s W Ls) as (Hi & Hnn & Hb). unfold node_comm, node_vec. fold q in Hnn. rewrite Hnn, Et.
      destruct (sd St s) as [|j] eqn:Esd; [lia|].
      assert (Er : removelast q = firstn j s) by (unfold q; rewrite removelast_firstn_S by lia; reflexivity).
      rewrite Er. unfold stem_at. rewrite (Hi j) by lia. apply vcommit_zero. reflexivity. }
    rewrite Eg in H. apply Hzero. exact (opens_fun _ _ _ _ H (opens_zero z) Bz).
Qed.

Lemma slot_is_stem : e <> ExtNone -> n = sd St s /\ exists t, stem_at St (firstn n s) = Some t /\
  c n = node_comm m St (firstn n s).
Proof.
  intro He. pose proof (not_too_deep He) as Hle. destruct (sd_spec St s W Ls) as (Hi & Hnn & Hb).
  pose proof (walk n Hle (or_intror (conj eq_refl He))) as Hc.
  pose proof (kf_mark _ _ _ _ _ _ _ _ _ _ _ _ KF He) as H. fold n in H.
  destruct (Nat.eq_dec n (sd St s)) as [En|En].
  - split; [exact En|]. destruct (stem_at St (firstn n s)) as [t|] eqn:Et; [eauto|]. exfalso.
    apply (zero_chain n (le_n n) He). rewrite Hc. rewrite En in Et |- *.
    unfold node_comm, node_vec. rewrite Hnn, Et. destruct (sd St s) as [|j] eqn:Esd; [lia|].
    rewrite removelast_firstn_S by lia. unfold stem_at. rewrite (Hi j) by lia. apply vcommit_zero. reflexivity.
  - exfalso. assert (Hint : internal St (firstn n s) = true) by (apply Hi; lia).
    rewrite Hc in H. pose proof (opens_fun _ _ _ _ H (opens_node _ 0 (or_introl Hint)) ltac:(lia)) as E.
    destruct (inner_child (firstn n s) 0 Hint) as [Hv _]. rewrite Hv in E.
    destruct (child_known (firstn n s) 0 Hint) as (f & Kf). symmetry in E. exact (id_marker _ _ _ _ Hid _ _ Kf E).
Qed.

Notation we := (snd (stem_statuses (set_of (map (firstn 31) keys)) hint)).

Lemma diff_stem : e = ExtDifferentStem -> exists t, stem_at St (firstn n s) = Some t /\
  slot_other we (vh_diff hint) n k = Some t /\ t <> s /\ ~ In s St.
Proof.
  intro Ee. assert (He : e <> ExtNone) by congruence.
  destruct (slot_is_stem He) as (En & t & Et & Ec). destruct (stem_at_In St _ t Et) as [Ht _].
  assert (Hnode : is_node St (firstn n s)) by (right; left; eauto).
  destruct (kf_diff _ _ _ _ _ _ _ _ _ _ _ _ KF Ee) as (t' & Hso & Hne & Hin & Ho). fold n in Ho, Hso. rewrite Ec in Ho.
  pose proof (opens_fun _ _ _ _ Ho (opens_node _ 1 Hnode) ltac:(lia)) as E. rewrite (node_vec_ext m St _ t Et) in E.
  cbn in E. symmetry in E. apply (sa_stem _ _ _ _ Hsc t t' Ht Hin) in E. subst t'.
  exists t. split; [exact Et|]. split; [exact Hso|]. split; [exact Hne|]. intro Hs. apply Hne.
  pose proof (end_stem_self db m St C s Hs) as X. unfold end_stem in X. rewrite <- En in X. fold s. congruence.
Qed.

Lemma pres_stem : e = ExtPres -> stem_at St (firstn n s) = Some s /\
  map_get (firstn n s ++ [hsel (nth 31 k 0)]) cm = Some (suffix_comm m s (hsel (nth 31 k 0) - 2)) /\ m k = v.
Proof.
  intro Ee. assert (He : e <> ExtNone) by congruence.
  destruct (slot_is_stem He) as (En & t & Et & Ec). destruct (stem_at_In St _ t Et) as [Ht _].
  assert (Hnode : is_node St (firstn n s)) by (right; left; eauto).
  destruct (kf_pres _ _ _ _ _ _ _ _ _ _ _ _ KF Ee) as (Ho & cs & Hcs & Hl & Hlow & Hhigh). fold n in Ho, Hl, Hcs. rewrite Ec in Ho, Hl.
  pose proof (opens_fun _ _ _ _ Ho (opens_node _ 1 Hnode) ltac:(lia)) as E. rewrite (node_vec_ext m St _ t Et) in E.
  cbn in E. symmetry in E.
  apply (sa_stem _ _ _ _ Hsc t (stem k) Ht) in E; [|apply in_or_app; left; now apply in_map].
  fold s in E. subst t.
  assert (Bk : is_byte (nth 31 k 0)) by (apply key_byte; auto; lia).
  assert (Bm : 0 <= nth 31 k 0 mod 128 < 128) by (apply Z.mod_pos_bound; lia).
  assert (Hh : hsel (nth 31 k 0) = 2 \/ hsel (nth 31 k 0) = 3) by (unfold hsel; destruct (nth 31 k 0 <? 128); auto).
  assert (Hns : is_node St (firstn n s ++ [hsel (nth 31 k 0)])).
  { right; right. exists (firstn n s), s. split; auto. destruct Hh as [-> | ->]; auto. }
  pose proof (opens_fun _ _ _ _ Hl (opens_node _ _ Hnode) ltac:(lia)) as El. rewrite (node_vec_ext m St _ s Et) in El.
  assert (Ens : node_comm m St (firstn n s ++ [hsel (nth 31 k 0)]) = suffix_comm m s (hsel (nth 31 k 0) - 2))
    by (unfold node_comm; now rewrite (node_vec_suffix m St _ s _ Et)).
  assert (Eh : hash cs = hash (node_comm m St (firstn n s ++ [hsel (nth 31 k 0)]))).
  { rewrite El, Ens. destruct Hh as [-> | ->]; reflexivity. }
  destruct (opens_known _ _ _ Hlow) as (f & Kf).
  pose proof (id_hash _ _ _ _ Hid _ _ _ _ Kf (known_node _ _ _ _ _ Hns) Eh) as Ecs. rewrite Ecs in Hlow, Hhigh.
  split; [exact Et|]. split; [rewrite <- Ens, <- Ecs; exact Hcs|].
  pose proof (opens_fun _ _ _ _ Hlow (opens_node _ _ Hns) ltac:(lia)) as Elow.
  pose proof (opens_fun _ _ _ _ Hhigh (opens_node _ _ Hns) ltac:(lia)) as Ehigh.
  rewrite (node_vec_suffix m St _ s _ Et) in Elow, Ehigh.
  assert (Ehalf : hsel (nth 31 k 0) - 2 = nth 31 k 0 / 128).
  { unfold hsel, is_byte in *. destruct (Z.ltb_spec (nth 31 k 0) 128).
    - now rewrite Z.div_small by lia.
    - apply (Z.div_unique _ _ _ (nth 31 k 0 - 128)); lia. }
  rewrite Ehalf in Elow, Ehigh. destruct (suffix_vec_low m s (nth 31 k 0) Bk) as [Sl Sh]. rewrite Sl in Elow. rewrite Sh in Ehigh.
  unfold s in Elow, Ehigh. rewrite <- (key_split k Hk) in Elow, Ehigh.
  destruct (m k) as [w|] eqn:Ew, v as [u|] eqn:Ev.
  * f_equal. apply (sa_value _ _ _ _ Hsc k w u Ew); [now apply Vin|congruence|congruence].
  * exfalso. apply (proj1 (sa_marked _ _ _ _ Hsc w (or_introl (ex_intro _ k Ew)))). now symmetry.
  * exfalso. apply (proj1 (sa_marked _ _ _ _ Hsc u (or_intror (Vin u eq_refl)))). exact Elow.
  * reflexivity.
Qed.

Lemma key_true : m k = v \/ (v = None /\ e = ExtNone /\ In s St /\ (sd St s < n)%nat).
Proof.
  pose proof (kf_val _ _ _ _ _ _ _ _ _ _ _ _ KF) as Pv.
  assert (Habs : ~ In s St -> m k = None).
  { intro Hni. destruct (m k) as [w|] eqn:Ew; [|reflexivity]. exfalso. apply Hni. now apply (can_keys _ _ _ C k w). }
  destruct (ext_present_dec e) as [He|He].
  - (* said to be empty *)
    rewrite (Pv ltac:(congruence)).
    destruct (in_dec bytes_dec s St) as [Hs|Hs]; [|left; now apply Habs].
    destruct (le_lt_dec n (sd St s)) as [Hle|Hlt]; [exfalso|right; auto].
    destruct (sd_spec St s W Ls) as (Hi & Hnn & Hb).
    pose proof (kf_pos _ _ _ _ _ _ _ _ _ _ _ _ KF He) as Pn. fold n in Pn.
    pose proof (kf_none _ _ _ _ _ _ _ _ _ _ _ _ KF He) as H. fold n in H. fold s in H.
    rewrite (walk (n - 1)) in H by lia.
    assert (Hint : internal St (firstn (n - 1) s) = true) by (apply Hi; lia).
    pose proof (opens_fun _ _ _ _ H (opens_node _ _ (or_introl Hint)) (Bs (n - 1)%nat ltac:(lia))) as E.
    destruct (inner_child (firstn (n - 1) s) (nth (n - 1) s 0) Hint) as [Hv _].
    pose proof (child_known (firstn (n - 1) s) (nth (n - 1) s 0) Hint) as Kf.
    rewrite path in Hv, Kf by lia. replace (S (n - 1)) with n in Hv, Kf by lia.
    rewrite Hv in E. symmetry in E. apply hash_is_zero in E; [|exact Kf]. revert E.
    assert (Hu : In s (under St (firstn n s))) by (apply under_In; split; auto; apply has_prefix_firstn).
    destruct (internal St (firstn n s)) eqn:Ei.
    + apply (inner_nonzero 31); [lia|exact Ei|]. intro X. rewrite X in Hu. destruct Hu.
    + destruct (internal_false_under St _ Ei) as [X|[t X]]; [rewrite X in Hu; destruct Hu|].
      apply (ext_nonzero _ t). apply stem_at_spec. split; [exact Ei|]. split; [|exact X].
      replace n with (S (n - 1)) by lia. rewrite removelast_firstn_S by lia. exact Hint.
  - (* said to hold a stem *)
    left. pose proof diff_stem as Hd. pose proof pres_stem as Hp. destruct e eqn:Ee; [congruence| |].
    + rewrite (Pv ltac:(congruence)). destruct (Hd eq_refl) as (_ & _ & _ & _ & Hn). now apply Habs.
    + now destruct (Hp eq_refl) as (_ & _ & Hv).
Qed.
End Walk.
