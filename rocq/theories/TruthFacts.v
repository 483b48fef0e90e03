(** What an accepted proof with claims that fit one tree establishes about one key. *)
From Verif Require Import Base BaseFacts Alg AlgFacts TreeSpec TreeFacts TrieModel TrieProofs BTree
  WireModel ProofModel ProofSpec PathProofs OpeningProofs VerifierProofs ProofTheorems ProofReject TruthSpec TruthVerifier.

Lemma co_slot hint keys : coherent hint keys -> forall s1 d1 e1 s2 d2 e2,
  In (s1, d1, e1) (claims hint keys) -> In (s2, d2, e2) (claims hint keys) -> s1 <> s2 ->
  Z.to_nat d1 = Z.to_nat d2 -> firstn (Z.to_nat d1) s1 = firstn (Z.to_nat d1) s2 ->
  ~ (e1 = ExtPres /\ e2 = ExtPres) /\ (e1 = ExtNone <-> e2 = ExtNone).
Proof.
  intros Hco s1 d1 e1 s2 d2 e2 H1 H2 Hne Hd Hp.
  assert (S : share_slot hint keys e1 e2) by (exists s1, d1, s2, d2; auto).
  split; [|exact (co_empty _ _ Hco e1 e2 S)]. intros [-> ->]. exact (co_present _ _ Hco S).
Qed.

Section Facts.
Context {A : Alg} {P : Par A}.
Notation stem k := (firstn 31 k).

Context (hint : VerificationHint) (comms : list G) (keys : list bytes) (values : list (option bytes)) (root : G).
Context (qs : list VerifierQuery).
Context (Hkeys : Forall is_key keys) (Hdup : NoDup keys) (Hlen : length values = length keys).
Context (Hco : coherent hint keys).
Let st := fst (stem_statuses (set_of (map (firstn 31) keys)) hint).
Let we := snd (stem_statuses (set_of (map (firstn 31) keys)) hint).

Lemma we_In s : In s we <-> exists d, In (s, d, ExtPres) (claims hint keys).
Proof. apply with_ext_In. Qed.

Lemma claims_sorted : sorted (map (fun x : bytes * Z * ExtPresent => fst (fst x)) (claims hint keys)).
Proof.
  unfold claims. generalize (sorted_set_of (map (firstn 31) keys)). generalize (set_of (map (firstn 31) keys)).
  generalize (vh_depths hint) (vh_ext hint). clear. intros ds es l. revert ds es.
  induction l as [|x l IH]; intros [|y ds] [|z es] Hs; try constructor.
  - apply IH. now apply Sorted.StronglySorted_inv in Hs.
  - apply Sorted.StronglySorted_inv in Hs as [_ Hx]. rewrite Forall_forall in *. intros w Hw. apply Hx.
    cbn [fst]. clear - Hw. revert ds es Hw. induction l as [|a l IH]; intros [|b ds] [|c es]; cbn; try tauto.
    intros [H|H]; eauto.
Qed.

Lemma get_claim s d e : map_get s st = Some (e, d) <-> In (s, d, e) (claims hint keys).
Proof.
  split; [|apply claim_get]. intro H. unfold st, stem_statuses in H. cbn [fst] in H. fold (claims hint keys) in H.
  unfold map_of in H. apply (proj1 (map_ins_get _ _ _)) in H as [H|H]; [|discriminate H].
  apply in_map_iff in H as ([[s1 d1] e1] & H1 & H2). cbn in H1.
  assert (s1 = s) as -> by congruence. assert (d1 = d) as -> by congruence. now assert (e1 = e) as -> by congruence.
Qed.

Lemma kv_claim k v d e : In (k, v) (combine keys values) -> map_get (stem k) st = Some (e, d) ->
  is_key k /\ In (stem k, d, e) (claims hint keys).
Proof.
  intros H1 H2. apply in_combine_l in H1. rewrite Forall_forall in Hkeys. split; [auto|now apply get_claim].
Qed.

(** Two claims whose slots are on one path end in one slot. *)
Lemma ends_same s1 d1 e1 s2 d2 e2 i : In (s1, d1, e1) (claims hint keys) -> In (s2, d2, e2) (claims hint keys) ->
  length s1 = 31%nat -> length s2 = 31%nat -> (Z.to_nat d1 <= 31)%nat -> (i <= 31)%nat ->
  firstn (Z.to_nat d1) s1 = firstn i s2 -> (i <= Z.to_nat d2)%nat -> Z.to_nat d1 = Z.to_nat d2 /\ i = Z.to_nat d2.
Proof.
  intros H1 H2 L1 L2 B1 Bi E Hi.
  assert (i = Z.to_nat d1) as -> by (apply (f_equal (@length Z)) in E; rewrite !firstn_length in E; lia).
  destruct (Nat.eq_dec (Z.to_nat d1) (Z.to_nat d2)) as [Ed|Ed]; [auto|].
  exfalso. apply (co_ends _ _ Hco _ _ _ _ _ _ H1 H2 ltac:(lia)). exact E.
Qed.
Lemma last_eq {X} (a b : list X) x y : a ++ [x] = b ++ [y] -> a = b /\ x = y.
Proof. intro H. now apply app_inj_tail in H. Qed.

Section OneKey.
Context (s : VState) (cm : list (bytes * G)) (Fin : Final st we (vh_diff hint) (combine keys values) s).
Context (k : bytes) (v : option bytes) (d : Z) (e : ExtPresent).
Context (Hkv : In (k, v) (combine keys values)) (Hst : map_get (stem k) st = Some (e, d)).
Let n := Z.to_nat d.

Lemma Hkey : is_key k.
Proof. apply (kv_claim k v d e Hkv Hst). Qed.
Lemma Hclaim : In (stem k, d, e) (claims hint keys).
Proof. apply (kv_claim k v d e Hkv Hst). Qed.
Lemma Hpassed : passed we (vh_diff hint) k v n e.
Proof.
  destruct (fi_key _ _ _ _ _ Fin k v Hkv) as (d1 & e1 & H1 & H2). unfold n.
  assert (d1 = d) as <- by congruence. now assert (e1 = e) as <- by congruence.
Qed.
Lemma Hn : (n <= 31)%nat.
Proof. apply Hpassed. Qed.

(** Entries on the way to the slot are forced only for an empty slot right below the root. *)
Lemma forced_branch i y : (i < n)%nat -> map_get (firstn i (stem k), nth i (stem k) 0) (vs_leaf s) = Some y ->
  n = 1%nat /\ e = ExtNone /\ y = fzero.
Proof.
  intros Hi H. apply (fi_leaf _ _ _ _ _ Fin) in H as (k1 & v1 & d1 & e1 & H1 & H2 & H3).
  destruct (kv_claim _ _ _ _ H1 H2) as [Hk1 Hc1]. pose proof Hclaim as Hc. pose proof Hn as Bn.
  assert (L1 : length (stem k1) = 31%nat) by apply (key_stem k1 Hk1).
  assert (L : length (stem k) = 31%nat) by apply (key_stem k Hkey).
  assert (Lk1 : @length Z k1 = 32%nat) by apply Hk1. assert (Lk : @length Z k = 32%nat) by apply Hkey.
  destruct (fi_key _ _ _ _ _ Fin k1 v1 H1) as (d1' & e1' & X1 & X2).
  assert (d1' = d1) as -> by congruence. assert (e1' = e1) as -> by congruence. clear X1.
  destruct X2 as (B1 & _ & Hd1 & _).
  assert (Hq : firstn (Z.to_nat d1) (stem k1) <> firstn i (stem k)).
  { intro E. destruct (ends_same _ _ _ _ _ _ i Hc1 Hc L1 L B1 ltac:(lia) E ltac:(fold n; lia)) as [_ X]. fold n in X. lia. }
  assert (Hqs : forall z, firstn (Z.to_nat d1) (stem k1) ++ [z] <> firstn i (stem k)).
  { intros z E. assert (Ei : i = S (Z.to_nat d1)).
    { apply (f_equal (@length Z)) in E. rewrite app_length, !firstn_length in E. cbn [length] in E. lia. }
    subst i. assert (E2 : firstn (Z.to_nat d1) (stem k1) = firstn (Z.to_nat d1) (stem k)).
    { rewrite (firstn_S_nth 0 (Z.to_nat d1) (stem k)) in E by lia. now apply last_eq in E. }
    destruct (ends_same _ _ _ _ _ _ (Z.to_nat d1) Hc1 Hc L1 L B1 ltac:(lia) E2 ltac:(fold n; lia)) as [_ X]. fold n in X. lia. }
  destruct e1; cbn [forced] in H3.
  - destruct H3 as [H3|[]]. specialize (Hd1 eq_refl).
    destruct (Nat.eqb_spec (Z.to_nat d1) 1) as [E1|E1]; [|exfalso; apply Hq; congruence].
    assert (Ei : i = 0%nat).
    { assert (X : ([] : bytes) = firstn i (stem k)) by congruence. apply (f_equal (@length Z)) in X.
      rewrite firstn_length in X. cbn [length] in X. lia. }
    subst i. rewrite E1 in H3. cbn [Nat.sub] in H3.
    assert (E0 : nth 0 (stem k1) 0 = nth 0 (stem k) 0) by congruence.
    assert (Ef : firstn (Z.to_nat d1) (stem k1) = firstn 1 (stem k)).
    { rewrite E1, (firstn_S_nth 0 0 (stem k1)), (firstn_S_nth 0 0 (stem k)) by lia. now rewrite E0. }
    destruct (ends_same _ _ _ _ _ _ 1 Hc1 Hc L1 L B1 ltac:(lia) Ef ltac:(fold n; lia)) as [X1 X2]. fold n in X1, X2.
    split; [lia|]. split; [|congruence].
    destruct (bytes_dec (stem k1) (stem k)) as [Es|Es].
    + rewrite Es in Hc1. now destruct (claim_unique hint keys _ _ _ _ _ Hc Hc1) as [_ ->].
    + destruct (co_slot _ _ Hco _ _ _ _ _ _ Hc1 Hc Es ltac:(fold n; lia)) as [_ X]; [|now apply X].
      rewrite Ef. f_equal. lia.
  - exfalso. destruct H3 as [H3|H3]; [apply Hq; congruence|].
    destruct (filter (same_slot (Z.to_nat d1) k1) we); [|destruct H3].
    destruct (hd_error (rev (filter (same_slot (Z.to_nat d1) k1) (vh_diff hint)))); [|destruct H3].
    destruct H3 as [H3|[]]. apply Hq. congruence.
  - exfalso. assert (X : forall (a b : bytes) (x y : Z) (u w : F), ((a, x), u) = ((b, y), w) -> a = b) by congruence.
    destruct H3 as [H3|[H3|[H3|[H3|[]]]]]; apply X in H3; [now apply Hq|now apply Hq|now apply Hqs in H3|now apply Hqs in H3].
Qed.

Lemma slot_ext k2 k1 j : firstn n (stem k2) = firstn j (stem k1) -> j = n -> same_slot n k2 = same_slot j k1.
Proof. intros E <-. unfold same_slot. now rewrite E. Qed.

(** What is forced in the slot of a stem that is there or is not. *)
Lemma forced_slot z y : e <> ExtNone -> map_get (firstn n (stem k), z) (vs_leaf s) = Some y ->
  (z = 0 /\ y = fone) \/
  (z = 1 /\ (e = ExtPres -> y = of_Z (le_Z (stem k))) /\
   (e = ExtDifferentStem -> exists t, slot_other we (vh_diff hint) n k = Some t /\ t <> stem k /\
      In t (map (firstn 31) keys ++ vh_diff hint) /\ y = of_Z (le_Z t))).
Proof.
  intros He H. apply (fi_leaf _ _ _ _ _ Fin) in H as (k1 & v1 & d1 & e1 & H1 & H2 & H3).
  destruct (kv_claim _ _ _ _ H1 H2) as [Hk1 Hc1]. pose proof Hclaim as Hc. pose proof Hn as Bn.
  assert (L1 : length (stem k1) = 31%nat) by apply (key_stem k1 Hk1).
  assert (L : length (stem k) = 31%nat) by apply (key_stem k Hkey).
  assert (Lk1 : @length Z k1 = 32%nat) by apply Hk1. assert (Lk : @length Z k = 32%nat) by apply Hkey.
  destruct (fi_key _ _ _ _ _ Fin k1 v1 H1) as (d1' & e1' & X1 & X2).
  assert (d1' = d1) as -> by congruence. assert (e1' = e1) as -> by congruence. clear X1.
  destruct X2 as (B1 & _ & Hd1 & Hdiff).
  assert (Hq : firstn (Z.to_nat d1) (stem k1) = firstn n (stem k) -> Z.to_nat d1 = n).
  { intro E. now destruct (ends_same _ _ _ _ _ _ n Hc1 Hc L1 L B1 ltac:(lia) E ltac:(fold n; lia)) as [X _]. }
  assert (Hqs : forall z, firstn (Z.to_nat d1) (stem k1) ++ [z] <> firstn n (stem k)).
  { intros z0 E. assert (Ei : n = S (Z.to_nat d1)).
    { apply (f_equal (@length Z)) in E. rewrite app_length, !firstn_length in E. cbn [length] in E. lia. }
    assert (E2 : firstn (Z.to_nat d1) (stem k1) = firstn (Z.to_nat d1) (stem k)).
    { rewrite Ei, (firstn_S_nth 0 (Z.to_nat d1) (stem k)) in E by lia. now apply last_eq in E. }
    destruct (ends_same _ _ _ _ _ _ (Z.to_nat d1) Hc1 Hc L1 L B1 ltac:(lia) E2 ltac:(fold n; lia)) as [_ X]. fold n in X. lia. }
  assert (Hone : firstn (Z.to_nat d1) (stem k1) = firstn n (stem k) -> stem k1 <> stem k ->
             ~ (e1 = ExtPres /\ e = ExtPres) /\ (e1 = ExtNone <-> e = ExtNone)).
  { intros E Es. pose proof (Hq E) as En. apply (co_slot _ _ Hco _ _ _ _ _ _ Hc1 Hc Es En). rewrite E. f_equal. symmetry. exact En. }
  assert (Hun : stem k1 = stem k -> e1 = e /\ d1 = d).
  { intro Es. rewrite Es in Hc1. now destruct (claim_unique hint keys _ _ _ _ _ Hc Hc1). }
  destruct e1; cbn [forced] in H3.
  - exfalso. destruct H3 as [H3|[]]. specialize (Hd1 eq_refl).
    destruct (Nat.eqb_spec (Z.to_nat d1) 1) as [E1|E1].
    + assert (E0 : ([] : bytes) = firstn n (stem k)) by congruence. apply (f_equal (@length Z)) in E0.
      rewrite firstn_length in E0. cbn [length] in E0.
      apply (co_ends _ _ Hco _ _ _ _ _ _ Hc Hc1); [fold n; lia|]. replace (Z.to_nat d) with 0%nat by (fold n; lia). reflexivity.
    + assert (E0 : firstn (Z.to_nat d1) (stem k1) = firstn n (stem k)) by congruence.
      destruct (bytes_dec (stem k1) (stem k)) as [Es|Es].
      * destruct (Hun Es) as [X _]. congruence.
      * destruct (Hone E0 Es) as [_ X]. now apply He, X.
  - destruct H3 as [H3|H3]; [left; split; congruence|]. right.
    destruct (filter (same_slot (Z.to_nat d1) k1) we) as [|] eqn:Ef; [|destruct H3].
    destruct (hd_error (rev (filter (same_slot (Z.to_nat d1) k1) (vh_diff hint)))) as [o|] eqn:Eo; [|destruct H3].
    destruct H3 as [H3|[]]. split; [congruence|].
    assert (E0 : firstn (Z.to_nat d1) (stem k1) = firstn n (stem k)) by congruence.
    split.
    + intro Ep. exfalso. assert (X : In (stem k) (filter (same_slot (Z.to_nat d1) k1) we)).
      { apply filter_In. split; [apply we_In; exists d; now rewrite <- Ep|].
        unfold same_slot. apply beqb_eq. rewrite E0. f_equal. now apply Hq. }
      rewrite Ef in X. destruct X.
    + intros Ep. exists o. split.
      { unfold slot_other. rewrite (slot_ext k k1 (Z.to_nat d1) (eq_sym E0) (Hq E0)).
        now rewrite Ef, Eo. }
      assert (Ho : In o (vh_diff hint)).
      { assert (X : In o (rev (filter (same_slot (Z.to_nat d1) k1) (vh_diff hint)))).
        { destruct (rev (filter (same_slot (Z.to_nat d1) k1) (vh_diff hint))); [discriminate Eo|].
          cbn [hd_error] in Eo. left. congruence. }
        apply in_rev, filter_In in X. now destruct X. }
      split; [|split; [apply in_or_app; auto|congruence]]. intro Es. apply (co_diff _ _ Hco _ Ho). rewrite Es.
      apply in_map. now apply in_combine_l in Hkv.
  - destruct H3 as [H3|[H3|[H3|[H3|[]]]]].
    + left. split; congruence.
    + right. split; [congruence|]. assert (E0 : firstn (Z.to_nat d1) (stem k1) = firstn n (stem k)) by congruence.
      destruct (bytes_dec (stem k1) (stem k)) as [Es|Es].
      * destruct (Hun Es) as [X _]. rewrite <- Es. split; [congruence|]. intro. congruence.
      * destruct (Hone E0 Es) as [X _]. split; [intro; exfalso; auto|]. intro Ep. exists (stem k1).
        split.
        { pose proof Hpassed as (_ & _ & _ & Pd). unfold slot_other.
          assert (Y : In (stem k1) (filter (same_slot n k) we)).
          { apply filter_In. split; [apply we_In; exists d1; exact Hc1|].
            unfold same_slot. apply beqb_eq. rewrite <- (Hq E0). rewrite E0. f_equal. symmetry. now apply Hq. }
          destruct (Pd Ep) as [(o & Eo)|(Eo & _)]; rewrite Eo in Y; [|destruct Y].
          destruct Y as [Y|[]]. now rewrite Eo, Y. }
        split; [exact Es|]. split; [|congruence]. apply in_or_app. left. apply in_map. now apply in_combine_l in H1.
    + exfalso. eapply Hqs. assert (X : forall (a b : bytes) (x y : Z) (u w : F), ((a, x), u) = ((b, y), w) -> a = b) by congruence.
      exact (X _ _ _ _ _ _ H3).
    + exfalso. eapply Hqs. assert (X : forall (a b : bytes) (x y : Z) (u w : F), ((a, x), u) = ((b, y), w) -> a = b) by congruence.
      exact (X _ _ _ _ _ _ H3).
Qed.

(** What is forced among the values. *)
Lemma combine_functional (ks : list bytes) (vs : list (option bytes)) a x y : NoDup ks ->
  In (a, x) (combine ks vs) -> In (a, y) (combine ks vs) -> x = y.
Proof.
  intro N. revert vs. induction ks as [|b ks IH]; intros [|w vs] H1 H2; try (destruct H1; fail).
  apply NoDup_cons_iff in N as [Nb N]. cbn [combine In] in H1, H2.
  destruct H1 as [H1|H1], H2 as [H2|H2]; try congruence.
  - exfalso. apply Nb. apply in_combine_l in H2. congruence.
  - exfalso. apply Nb. apply in_combine_l in H1. congruence.
  - now apply (IH N vs).
Qed.

Lemma hsel_inj a b : is_byte a -> is_byte b -> hsel a = hsel b -> a mod 128 = b mod 128 -> a = b.
Proof.
  unfold is_byte, hsel. intros Ba Bb. destruct (Z.ltb_spec a 128), (Z.ltb_spec b 128); try discriminate; intros _ E.
  - now rewrite !Z.mod_small in E by lia.
  - replace a with (a - 128 + 1 * 128) in E by lia. replace b with (b - 128 + 1 * 128) in E by lia.
    rewrite !Z.mod_add, !Z.mod_small in E by lia. lia.
Qed.

Lemma forced_value z y : e = ExtPres -> map_get (firstn n (stem k) ++ [hsel (nth 31 k 0)], z) (vs_leaf s) = Some y ->
  (z = 2 * (nth 31 k 0 mod 128) -> y = leaf_low v) /\ (z = 2 * (nth 31 k 0 mod 128) + 1 -> y = leaf_high v).
Proof.
  intros He H. apply (fi_leaf _ _ _ _ _ Fin) in H as (k1 & v1 & d1 & e1 & H1 & H2 & H3).
  destruct (kv_claim _ _ _ _ H1 H2) as [Hk1 Hc1]. pose proof Hclaim as Hc. pose proof Hn as Bn.
  assert (L1 : length (stem k1) = 31%nat) by apply (key_stem k1 Hk1).
  assert (L : length (stem k) = 31%nat) by apply (key_stem k Hkey).
  assert (Lk1 : @length Z k1 = 32%nat) by apply Hk1. assert (Lk : @length Z k = 32%nat) by apply Hkey.
  destruct (fi_key _ _ _ _ _ Fin k1 v1 H1) as (d1' & e1' & X1 & X2).
  assert (d1' = d1) as -> by congruence. assert (e1' = e1) as -> by congruence. clear X1.
  destruct X2 as (B1 & _ & Hd1 & Hdiff).
  assert (Hq : firstn (Z.to_nat d1) (stem k1) <> firstn n (stem k) ++ [hsel (nth 31 k 0)]).
  { intro E. assert (Ei : Z.to_nat d1 = S n).
    { apply (f_equal (@length Z)) in E. rewrite app_length, !firstn_length in E. cbn [length] in E. lia. }
    assert (E2 : firstn n (stem k) = firstn n (stem k1)).
    { rewrite Ei, (firstn_S_nth 0 n (stem k1)) in E by lia. apply last_eq in E as [E _]. now symmetry. }
    apply (co_ends _ _ Hco _ _ _ _ _ _ Hc Hc1); [fold n; lia|exact E2]. }
  assert (X : forall (a b : bytes) (x y : Z) (u w : F), ((a, x), u) = ((b, y), w) -> a = b /\ x = y /\ u = w)
    by (intros; repeat split; congruence).
  assert (Hval : forall z1 y1, firstn (Z.to_nat d1) (stem k1) ++ [hsel (nth 31 k1 0)] = firstn n (stem k) ++ [hsel (nth 31 k 0)] ->
     z1 = 2 * (nth 31 k1 0 mod 128) -> y1 = z - z1 -> y1 = 0 \/ y1 = 1 -> e1 = ExtPres ->
     (z = 2 * (nth 31 k 0 mod 128) -> y1 = 0 /\ v1 = v) /\ (z = 2 * (nth 31 k 0 mod 128) + 1 -> y1 = 1 /\ v1 = v)).
  { intros z1 y1 E -> -> Hz E1. apply last_eq in E as [E Eh].
    destruct (ends_same _ _ _ _ _ _ n Hc1 Hc L1 L B1 ltac:(lia) E ltac:(fold n; lia)) as [En _]. fold n in En.
    assert (Es : stem k1 = stem k).
    { destruct (bytes_dec (stem k1) (stem k)) as [Es|Es]; [exact Es|exfalso].
      destruct (co_slot _ _ Hco _ _ _ _ _ _ Hc1 Hc Es En) as [Y _]; [|now apply Y]. rewrite E. f_equal. symmetry. exact En. }
    assert (Ey : nth 31 k1 0 mod 128 = nth 31 k 0 mod 128 -> v1 = v).
    { intro Em. assert (Ek : k1 = k).
      { rewrite (key_split k1 Hk1), (key_split k Hkey), Es. f_equal. f_equal.
        apply hsel_inj; auto; apply key_byte; auto using Hkey; lia. }
      apply (combine_functional keys values k); auto. now rewrite <- Ek at 1. }
    split; intro Ez; (split; [lia|apply Ey; lia]). }
  destruct e1; cbn [forced] in H3.
  - exfalso. destruct H3 as [H3|[]]. apply X in H3 as (H3 & _ & _).
    destruct (Nat.eqb_spec (Z.to_nat d1) 1) as [E1|E1]; [|now apply Hq].
    apply (f_equal (@length Z)) in H3. rewrite app_length in H3. cbn [length] in H3. lia.
  - exfalso. destruct H3 as [H3|H3]; [apply X in H3 as (H3 & _); now apply Hq|].
    destruct (filter (same_slot (Z.to_nat d1) k1) we); [|destruct H3].
    destruct (hd_error (rev (filter (same_slot (Z.to_nat d1) k1) (vh_diff hint)))); [|destruct H3].
    destruct H3 as [H3|[]]. apply X in H3 as (H3 & _). now apply Hq.
  - destruct H3 as [H3|[H3|[H3|[H3|[]]]]]; apply X in H3 as (H3 & Hz & Hy).
    + exfalso. now apply Hq.
    + exfalso. now apply Hq.
    + destruct (Hval _ _ H3 eq_refl eq_refl ltac:(lia) eq_refl) as [V1 V2]. subst y. split; intro E.
      * now destruct (V1 E) as [_ ->].
      * destruct (V2 E). lia.
    + destruct (Hval _ _ H3 eq_refl eq_refl ltac:(lia) eq_refl) as [V1 V2]. subst y. split; intro E.
      * destruct (V1 E). lia.
      * now destruct (V2 E) as [_ ->].
Qed.

(** ** All queries of the key *)
Context (m : bytes -> option bytes) (St : list bytes) (vs : list (list F)).
Definition opens_to (c : G) (z : Z) (y : F) : Prop := exists f, known m St qs vs c f /\ f z = y.
Context (Hpath : forall p, In p (vs_paths s) -> exists c, map_get p cm = Some c).
Context (Hnopath : forall p, ~ In p (vs_paths s) -> map_get p cm = None).
Context (Hroot : In [] (vs_paths s) -> map_get [] cm = Some root).
Context (Hquery : forall p z, In (p, z) (vs_pzs s) -> 0 <= z < 256 ->
  exists c, map_get p cm = Some c /\ opens_to c z (expected_y (vs_leaf s) cm (p, z))).

Definition at_path (p : bytes) : G := match map_get p cm with Some c => c | None => gzero end.
Definition comm_at (i : nat) : G := at_path (firstn i (stem k)).

Record KeyFacts : Prop := {
  kf_len : (n <= 31)%nat;
  kf_pos : e = ExtNone -> (1 <= n)%nat;
  kf_val : e <> ExtPres -> v = None;
  kf_root : comm_at 0 = root;
  kf_step : forall i, (i < n)%nat -> (S i < n)%nat \/ e <> ExtNone ->
    opens_to (comm_at i) (nth i (stem k) 0) (hash (comm_at (S i)));
  kf_none : e = ExtNone -> opens_to (comm_at (n - 1)) (nth (n - 1) (stem k) 0) fzero;
  kf_mark : e <> ExtNone -> opens_to (comm_at n) 0 fone;
  kf_pres : e = ExtPres -> opens_to (comm_at n) 1 (of_Z (le_Z (stem k))) /\
    exists c, map_get (firstn n (stem k) ++ [hsel (nth 31 k 0)]) cm = Some c /\ opens_to (comm_at n) (hsel (nth 31 k 0)) (hash c) /\
      opens_to c (2 * (nth 31 k 0 mod 128)) (leaf_low v) /\ opens_to c (2 * (nth 31 k 0 mod 128) + 1) (leaf_high v);
  kf_diff : e = ExtDifferentStem -> exists t, slot_other we (vh_diff hint) n k = Some t /\ t <> stem k /\ In t (map (firstn 31) keys ++ vh_diff hint) /\
    opens_to (comm_at n) 1 (of_Z (le_Z t))
}.

Lemma pz_in x : In x (asked k n e) -> In x (vs_pzs s).
Proof. intro H. apply (fi_pzs _ _ _ _ _ Fin). exists k, v, d, e. auto. Qed.
Lemma path_in x : In x (at_paths k n e) -> In x (vs_paths s).
Proof. intro H. apply (fi_paths _ _ _ _ _ Fin). exists k, v, d, e. auto. Qed.
Lemma branch_path i : (i < n)%nat \/ (i = n /\ e <> ExtNone) -> In (firstn i (stem k)) (vs_paths s).
Proof.
  intro H. apply path_in. unfold at_paths. apply in_or_app. destruct H as [H|[-> He]].
  - left. apply (in_map (fun i => firstn i (stem k))). apply in_seq. lia.
  - right. destruct e; [congruence|now left|now left].
Qed.
Lemma branch_pz i : (i < n)%nat -> In (firstn i (stem k), nth i (stem k) 0) (vs_pzs s).
Proof.
  intro H. apply pz_in. unfold asked. apply in_or_app. left.
  apply (in_map (fun i => (firstn i (stem k), nth i (stem k) 0))). apply in_seq. lia.
Qed.
Lemma at_path_get p : In p (vs_paths s) -> map_get p cm = Some (at_path p).
Proof. intro H. unfold at_path. destruct (Hpath _ H) as [c ->]. reflexivity. Qed.
Lemma comm_at_get i c : In (firstn i (stem k)) (vs_paths s) -> map_get (firstn i (stem k)) cm = Some c -> c = comm_at i.
Proof. intros H E. apply at_path_get in H. unfold bytes in *. unfold comm_at. congruence. Qed.
Lemma expected_child p z : map_get (p, z) (vs_leaf s) = None ->
  expected_y (vs_leaf s) cm (p, z) = match map_get (p ++ [z] : bytes) cm with Some c => hash c | None => fzero end.
Proof. intro E. unfold expected_y. rewrite E. reflexivity. Qed.
Lemma expected_forced p z y : map_get (p, z) (vs_leaf s) = Some y -> expected_y (vs_leaf s) cm (p, z) = y.
Proof. intro E. unfold expected_y. now rewrite E. Qed.

Lemma empty_slot : e = ExtNone -> ~ In (firstn n (stem k)) (vs_paths s).
Proof.
  intros He H. apply (fi_paths _ _ _ _ _ Fin) in H as (k1 & v1 & d1 & e1 & H1 & H2 & H3).
  destruct (kv_claim _ _ _ _ H1 H2) as [Hk1 Hc1]. pose proof Hclaim as Hc. pose proof Hn as Bn.
  assert (L1 : length (stem k1) = 31%nat) by apply (key_stem k1 Hk1).
  assert (L : length (stem k) = 31%nat) by apply (key_stem k Hkey).
  assert (Lk1 : @length Z k1 = 32%nat) by apply Hk1. assert (Lk : @length Z k = 32%nat) by apply Hkey.
  destruct (fi_key _ _ _ _ _ Fin k1 v1 H1) as (d1' & e1' & X1 & X2).
  assert (d1' = d1) as -> by congruence. assert (e1' = e1) as -> by congruence. clear X1.
  destruct X2 as (B1 & _ & Hd1 & _).
  assert (Hq : e1 <> ExtNone -> firstn (Z.to_nat d1) (stem k1) <> firstn n (stem k)).
  { intros He1 E. destruct (ends_same _ _ _ _ _ _ n Hc1 Hc L1 L B1 ltac:(lia) E ltac:(fold n; lia)) as [En _]. fold n in En.
    destruct (bytes_dec (stem k1) (stem k)) as [Es|Es].
    - rewrite Es in Hc1. destruct (claim_unique hint keys _ _ _ _ _ Hc Hc1) as [_ X]. congruence.
    - destruct (co_slot _ _ Hco _ _ _ _ _ _ Hc1 Hc Es En) as [_ X]; [rewrite E; f_equal; symmetry; exact En|].
      apply He1, X, He. }
  unfold at_paths in H3. apply in_app_or in H3 as [H3|H3].
  - apply in_map_iff in H3 as (i & E & Hi). apply in_seq in Hi.
    assert (Ei : i = n) by (apply (f_equal (@length Z)) in E; rewrite !firstn_length in E; lia).
    subst i. apply (co_ends _ _ Hco _ _ _ _ _ _ Hc Hc1); [fold n; lia|]. symmetry. exact E.
  - destruct e1; [destruct H3|destruct H3 as [H3|[]]; now apply Hq|].
    destruct H3 as [H3|[H3|[]]]; [now apply Hq|].
    assert (Ei : n = S (Z.to_nat d1)).
    { apply (f_equal (@length Z)) in H3. rewrite app_length, !firstn_length in H3. cbn [length] in H3. lia. }
    rewrite Ei, (firstn_S_nth 0 (Z.to_nat d1) (stem k)) in H3 by lia. apply last_eq in H3 as [H3 _].
    apply (co_ends _ _ Hco _ _ _ _ _ _ Hc1 Hc); [fold n; lia|exact H3].
Qed.

Lemma key_facts : KeyFacts.
Proof.
  pose proof Hkey as Hk. pose proof Hn as Bn. pose proof Hpassed as (_ & Pv & Pn & Pd). pose proof Hclaim as Hc.
  assert (L : length (stem k) = 31%nat) by apply (key_stem k Hk).
  assert (Bs : forall i, (i < 31)%nat -> 0 <= nth i (stem k) 0 < 256).
  { intros i Hi. pose proof (stem_byte (stem k) i (key_stem k Hk) Hi) as B. unfold is_byte in B. lia. }
  assert (Bk : 0 <= nth 31 k 0 < 256) by (pose proof (key_byte k 31 Hk ltac:(lia)) as B; unfold is_byte in B; lia).
  assert (Bm : 0 <= nth 31 k 0 mod 128 < 128) by (apply Z.mod_pos_bound; lia).
  assert (Epath : forall i, (i < 31)%nat -> firstn i (stem k) ++ [nth i (stem k) 0] = firstn (S i) (stem k)).
  { intros i Hi. symmetry. apply (firstn_S_nth 0 i (stem k)). lia. }
  assert (Hslot : e <> ExtNone -> In (firstn n (stem k), 0) (vs_pzs s) /\ In (firstn n (stem k), 1) (vs_pzs s)).
  { intro He. split; apply pz_in; unfold asked; apply in_or_app; right; destruct e; try congruence; cbn [In]; auto. }
  constructor; auto.
  - (* root *)
    assert (H0 : In (firstn 0 (stem k)) (vs_paths s)).
    { apply branch_path. destruct (Nat.eq_dec n 0) as [E0|E0]; [|lia]. right. split; [auto|]. intro He. specialize (Pn He). lia. }
    symmetry. exact (comm_at_get 0 root H0 (Hroot H0)).
  - (* step *)
    intros i Hi Hor. destruct (Hquery _ _ (branch_pz i Hi) (Bs i ltac:(lia))) as (c & Ec & Ho).
    rewrite (comm_at_get i c (branch_path i (or_introl Hi)) Ec) in Ho. clear c Ec.
    destruct (map_get (firstn i (stem k), nth i (stem k) 0) (vs_leaf s)) as [y|] eqn:Ey.
    + exfalso. destruct (forced_branch i y Hi Ey) as (X1 & X2 & _). destruct Hor as [Hor|Hor]; [lia|congruence].
    + rewrite (expected_child _ _ Ey) in Ho. rewrite Epath in Ho by lia. rewrite at_path_get in Ho; [exact Ho|].
      apply branch_path. destruct (Nat.eq_dec (S i) n) as [En|En]; [|lia]. right. split; [exact En|].
      destruct Hor as [Hor|Hor]; [lia|exact Hor].
  - (* empty *)
    intro He. specialize (Pn He).
    destruct (Hquery _ _ (branch_pz (n - 1) ltac:(lia)) (Bs (n - 1)%nat ltac:(lia))) as (c & Ec & Ho).
    rewrite (comm_at_get (n - 1) c (branch_path (n - 1) ltac:(lia)) Ec) in Ho. clear c Ec.
    destruct (map_get (firstn (n - 1) (stem k), nth (n - 1) (stem k) 0) (vs_leaf s)) as [y|] eqn:Ey.
    + destruct (forced_branch (n - 1) y ltac:(lia) Ey) as (_ & _ & X). now rewrite (expected_forced _ _ _ Ey), X in Ho.
    + rewrite (expected_child _ _ Ey) in Ho. rewrite Epath in Ho by lia. replace (S (n - 1)) with n in Ho by lia.
      rewrite (Hnopath _ (empty_slot He)) in Ho. exact Ho.
  - (* marker *)
    intro He. destruct (Hslot He) as [H0 _]. destruct (Hquery _ _ H0 ltac:(lia)) as (c & Ec & Ho).
    rewrite (comm_at_get n c (branch_path n ltac:(auto)) Ec) in Ho. clear c Ec.
    destruct (map_get (firstn n (stem k), 0) (vs_leaf s)) as [y|] eqn:Ey.
    + destruct (forced_slot 0 y He Ey) as [[_ X]|[X _]]; [now rewrite (expected_forced _ _ _ Ey), X in Ho|lia].
    + exfalso. revert Ey. apply (fi_forced _ _ _ _ _ Fin _ k v d e Hkv Hst). fold n.
      destruct e; [congruence|now left|now left].
  - (* present *)
    intro He. assert (He' : e <> ExtNone) by congruence. destruct (Hslot He') as [_ H1]. split.
    + destruct (Hquery _ _ H1 ltac:(lia)) as (c & Ec & Ho).
      rewrite (comm_at_get n c (branch_path n ltac:(auto)) Ec) in Ho. clear c Ec.
      destruct (map_get (firstn n (stem k), 1) (vs_leaf s)) as [y|] eqn:Ey.
      * destruct (forced_slot 1 y He' Ey) as [[X _]|(_ & X & _)]; [lia|now rewrite (expected_forced _ _ _ Ey), (X He) in Ho].
      * exfalso. revert Ey. apply (fi_forced _ _ _ _ _ Fin _ k v d e Hkv Hst). fold n. rewrite He. right. now left.
    + assert (Hh : 0 <= hsel (nth 31 k 0) < 256 /\ hsel (nth 31 k 0) <> 0 /\ hsel (nth 31 k 0) <> 1)
        by (unfold hsel; destruct (nth 31 k 0 <? 128); lia).
      assert (Hz : In (firstn n (stem k), hsel (nth 31 k 0)) (vs_pzs s) /\
                   In (firstn n (stem k) ++ [hsel (nth 31 k 0)], 2 * (nth 31 k 0 mod 128)) (vs_pzs s) /\
                   In (firstn n (stem k) ++ [hsel (nth 31 k 0)], 2 * (nth 31 k 0 mod 128) + 1) (vs_pzs s)).
      { repeat split; apply pz_in; unfold asked; rewrite He; apply in_or_app; right; cbn [In]; auto 8. }
      destruct Hz as (Z1 & Z2 & Z3).
      assert (Hp : In (firstn n (stem k) ++ [hsel (nth 31 k 0)]) (vs_paths s)).
      { apply path_in. unfold at_paths. rewrite He. apply in_or_app. right. right. now left. }
      destruct (Hpath _ Hp) as (cs & Ecs). exists cs. split; [exact Ecs|].
      destruct (Hquery _ _ Z1 (proj1 Hh)) as (c & Ec & Ho).
      rewrite (comm_at_get n c (branch_path n ltac:(auto)) Ec) in Ho. clear c Ec.
      split; [|split].
      * destruct (map_get (firstn n (stem k), hsel (nth 31 k 0)) (vs_leaf s)) as [y|] eqn:Ey.
        -- exfalso. destruct (forced_slot _ y He' Ey) as [[X _]|(X & _)]; tauto.
        -- rewrite (expected_child _ _ Ey) in Ho. rewrite Ecs in Ho. exact Ho.
      * destruct (Hquery _ _ Z2 ltac:(lia)) as (c & Ec & Ho2). rewrite Ecs in Ec. assert (c = cs) as -> by congruence.
        destruct (map_get (firstn n (stem k) ++ [hsel (nth 31 k 0)], 2 * (nth 31 k 0 mod 128)) (vs_leaf s)) as [y|] eqn:Ey.
        -- destruct (forced_value _ y He Ey) as [X _]. now rewrite (expected_forced _ _ _ Ey), (X eq_refl) in Ho2.
        -- exfalso. revert Ey. apply (fi_forced _ _ _ _ _ Fin _ k v d e Hkv Hst). fold n. rewrite He. right. right. now left.
      * destruct (Hquery _ _ Z3 ltac:(lia)) as (c & Ec & Ho2). rewrite Ecs in Ec. assert (c = cs) as -> by congruence.
        destruct (map_get (firstn n (stem k) ++ [hsel (nth 31 k 0)], 2 * (nth 31 k 0 mod 128) + 1) (vs_leaf s)) as [y|] eqn:Ey.
        -- destruct (forced_value _ y He Ey) as [_ X]. now rewrite (expected_forced _ _ _ Ey), (X eq_refl) in Ho2.
        -- exfalso. revert Ey. apply (fi_forced _ _ _ _ _ Fin _ k v d e Hkv Hst). fold n. rewrite He. right. right. right. now left.
  - (* another stem *)
    intro He. assert (He' : e <> ExtNone) by congruence. destruct (Hslot He') as [_ H1].
    destruct (Hquery _ _ H1 ltac:(lia)) as (c & Ec & Ho).
    rewrite (comm_at_get n c (branch_path n ltac:(auto)) Ec) in Ho. clear c Ec.
    destruct (map_get (firstn n (stem k), 1) (vs_leaf s)) as [y|] eqn:Ey.
    + destruct (forced_slot 1 y He' Ey) as [[X _]|(_ & _ & X)]; [lia|]. destruct (X He) as (t & X0 & X1 & X2 & X3).
      exists t. split; [exact X0|]. split; [exact X1|]. split; [exact X2|]. rewrite (expected_forced _ _ _ Ey) in Ho. now rewrite <- X3.
    + exfalso. revert Ey. destruct (Pd He) as [(o & Eo)|(Eo & t & Et)].
      * assert (Ho1 : In o (filter (same_slot n k) we)) by (rewrite Eo; now left).
        apply filter_In in Ho1 as [Ho1 Ho2]. apply we_In in Ho1 as (do & Ho1).
        unfold same_slot in Ho2. apply beqb_eq in Ho2.
        assert (Hok : exists ko, In ko keys /\ stem ko = o).
        { unfold claims in Ho1. apply in_combine_l, in_combine_l in Ho1. apply (proj1 (In_set_of _ _)) in Ho1.
          apply in_map_iff in Ho1 as (ko & X1 & X2). eauto. }
        destruct Hok as (ko & Hko & Eko).
        assert (Hvo : exists vo, In (ko, vo) (combine keys values)).
        { apply In_nth_error in Hko as (j & Hj). destruct (nth_error values j) as [vo|] eqn:Ev.
          - exists vo. clear - Hj Ev. revert j values Hj Ev. unfold bytes in *.
            induction keys as [|a l IH]; intros [|j] [|b l2] Hj Ev; cbn in *; try discriminate.
            + left. congruence.
            + right. eapply IH; eauto.
          - exfalso. apply nth_error_None in Ev. assert (j < length keys)%nat by (apply nth_error_Some; congruence). lia. }
        destruct Hvo as (vo & Hvo).
        assert (Ed : Z.to_nat do = n).
        { destruct (lt_eq_lt_dec (Z.to_nat do) n) as [[Hlt|Heq]|Hlt]; [exfalso|exact Heq|exfalso].
          - apply (co_ends _ _ Hco _ _ _ _ _ _ Ho1 Hc); [exact Hlt|].
            apply (f_equal (firstn (Z.to_nat do))) in Ho2. rewrite !firstn_firstn in Ho2.
            replace (Nat.min (Z.to_nat do) n) with (Z.to_nat do) in Ho2 by lia.
            rewrite firstn_firstn. exact Ho2.
          - apply (co_ends _ _ Hco _ _ _ _ _ _ Hc Ho1); [exact Hlt|]. fold n. symmetry. exact Ho2. }
        apply (fi_forced _ _ _ _ _ Fin _ ko vo do ExtPres Hvo).
        -- rewrite Eko. now apply get_claim.
        -- rewrite Ed. right. left. cbn [fst]. rewrite Eko. f_equal. exact Ho2.
      * apply (fi_forced _ _ _ _ _ Fin _ k v d e Hkv Hst). fold n. rewrite He. cbn [forced].
        rewrite Eo, Et. right. now left.
Qed.
End OneKey.
End Facts.
