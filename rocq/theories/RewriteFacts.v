(** When the summed entries are the values, and when they cannot be. *)
From Coq Require Import Permutation.
From Verif Require Import Base BaseFacts Alg AlgFacts TreeSpec TreeFacts TrieModel TrieProofs TrieTheorems
  CodecModel VerkleDbModel DbSpec VerkleDbProofs VerkleDbSim TruthSpec TruthTheorems CollisionSpec CollisionProofs
  RewriteSpec RewriteSim RewriteProofs.
Local Open Scope list_scope.
Notation len := List.length.

(** ** The tally alone *)
Lemma tally_snoc l o : tally (l ++ [o]) = tally_step (tally l) o.
Proof. unfold tally. rewrite fold_left_app. reflexivity. Qed.

Lemma counted_written l : forall k y, In y (ta_now (tally l) k) \/ In y (ta_disk (tally l) k) -> In (OInsert k y) l.
Proof.
  induction l as [|o l IH] using rev_ind; [intros k y [[]|[]]|]. intros k y. rewrite tally_snoc.
  assert (IH' : In y (ta_now (tally l) k) \/ In y (ta_disk (tally l) k) -> In (OInsert k y) (l ++ [o]))
    by (intro X; apply in_or_app; left; apply IH; exact X).
  destruct o as [k0 x| |]; cbn [tally_step].
  - destruct (same_value x (ta_now (tally l) k0)); [exact IH'|]. cbn [ta_now ta_disk].
    destruct (beqb_spec k0 k) as [->|]; [|exact IH']. intros [H|H]; [|apply IH'; right; exact H].
    unfold tally_write in H.
    assert (X : y = x \/ In y (ta_now (tally l) k)).
    { destruct (ta_wait (tally l) k); destruct H as [<-|H]; auto. right.
      destruct (ta_now (tally l) k); [destruct H|right; exact H]. }
    destruct X as [->|X]; [apply in_or_app; right; left; reflexivity|apply IH'; left; exact X].
  - cbn [ta_now ta_disk]. intros H. apply IH'. left. destruct H; assumption.
  - cbn [ta_now ta_disk]. intros H. apply IH'. right. destruct H; assumption.
Qed.

Lemma counted_length l : forall k, (len (ta_now (tally l) k) <= len l)%nat /\ (len (ta_disk (tally l) k) <= len l)%nat.
Proof.
  induction l as [|o l IH] using rev_ind; [intros k; split; apply Nat.le_refl|]. intros k. rewrite tally_snoc, app_length. cbn [length].
  destruct (IH k) as [H1 H2]. destruct o as [k0 x| |]; cbn [tally_step].
  - destruct (same_value x (ta_now (tally l) k0)); [lia|]. cbn [ta_now ta_disk].
    destruct (beqb_spec k0 k) as [->|]; [|lia]. unfold tally_write. split; [|lia].
    destruct (ta_wait (tally l) k); cbn [length]; [|lia]. destruct (ta_now (tally l) k); cbn [tl length] in *; lia.
  - cbn [ta_now ta_disk]. lia.
  - cbn [ta_now ta_disk]. lia.
Qed.

(** A key for which several values count on disk stays so. *)
Lemma damage_stays l' : forall t k, (2 <= len (ta_now t k))%nat -> (2 <= len (ta_disk t k))%nat ->
  (2 <= len (ta_now (fold_left tally_step l' t) k))%nat.
Proof.
  induction l' as [|o l' IH]; intros t k H1 H2; [exact H1|]. cbn [fold_left]. apply IH.
  - destruct o as [k0 x| |]; cbn [tally_step]; auto. destruct (same_value x (ta_now t k0)); [exact H1|]. cbn [ta_now].
    destruct (beqb_spec k0 k) as [->|]; [|exact H1]. unfold tally_write.
    destruct (ta_wait t k); cbn [length]; [|lia]. destruct (ta_now t k); cbn [tl length] in *; lia.
  - destruct o as [k0 x| |]; cbn [tally_step]; auto. destruct (same_value x (ta_now t k0)); exact H2.
Qed.
Lemma damage_permanent l k l' : (2 <= len (counted l k))%nat -> (2 <= len (counted (l ++ OFlush :: l') k))%nat.
Proof.
  intros H. unfold counted, tally. rewrite fold_left_app. cbn [fold_left tally_step]. apply damage_stays; exact H.
Qed.

Definition opt_list {X} (o : option X) : list X := match o with Some x => [x] | None => [] end.

Record Fresh (l : list Op) : Prop := {
  fr_now : forall k, ta_now (tally l) k = opt_list (final_map (contents l) k);
  fr_disk : forall k, ta_disk (tally l) k = opt_list (final_map (durable l) k);
  fr_wait : forall k, ta_wait (tally l) k = true -> final_map (durable l) k = None;
  fr_idle : forall k, ta_wait (tally l) k = false -> final_map (contents l) k = final_map (durable l) k
}.

Lemma phases_snoc l : forall o f p, phases f p (l ++ [o]) =
  match o with
  | OInsert k v => (fst (phases f p l), snd (phases f p l) ++ [(k, v)])
  | OFlush => (fst (phases f p l) ++ snd (phases f p l), [])
  | OReopen => (fst (phases f p l), [])
  end.
Proof.
  induction l as [|o' l IH]; intros o f p; [destruct o; reflexivity|].
  destruct o'; cbn [app phases]; apply IH.
Qed.

Lemma no_rewrite_fresh l : no_rewrite l -> Fresh l.
Proof.
  induction l as [|o l IH] using rev_ind; intros Hn; [constructor; try reflexivity; discriminate|].
  assert (Hn' : no_rewrite l).
  { intros l1 k v l2 E. apply (Hn l1 k v (l2 ++ [o])). rewrite E, <- app_assoc. reflexivity. }
  destruct (IH Hn') as [F1 F2 F3 F4]. clear IH.
  assert (Ec : contents (l ++ [o]) = match o with OInsert k v => contents l ++ [(k, v)] | OFlush => contents l | OReopen => durable l end).
  { rewrite !contents_eq, phases_snoc. unfold durable. destruct o; cbn [fst snd]; rewrite ?app_nil_r, ?app_assoc; reflexivity. }
  assert (Ed : durable (l ++ [o]) = match o with OFlush => contents l | _ => durable l end).
  { unfold durable. rewrite phases_snoc, contents_eq. destruct o; reflexivity. }
  destruct o as [k x| |].
  - pose proof (Hn l k x [] eq_refl) as Hk.
    assert (Hf : forall k0, final_map (contents (l ++ [OInsert k x])) k0 = upd (final_map (contents l)) k x k0)
      by (intros k0; rewrite Ec; apply final_map_snoc).
    destruct (same_value x (ta_now (tally l) k)) eqn:Es.
    + assert (Hx : final_map (contents l) k = Some x).
      { rewrite F1 in Es. destruct (final_map (contents l) k) as [y|]; [|discriminate Es]. cbn in Es. apply beqb_eq in Es. congruence. }
      assert (Hf' : forall k0, final_map (contents (l ++ [OInsert k x])) k0 = final_map (contents l) k0).
      { intros k0. rewrite Hf. unfold upd. destruct (beqb_spec k k0) as [<-|]; congruence. }
      constructor; rewrite tally_snoc; cbn [tally_step]; rewrite Es; intros k0; rewrite ?Hf', ?Ed; auto.
    + assert (Hd : final_map (durable l) k = None).
      { destruct Hk as [Hk|Hk]; [exact Hk|]. exfalso.
        destruct (ta_wait (tally l) k) eqn:Ew; [rewrite (F3 k Ew) in Hk; discriminate Hk|].
        rewrite F1, (F4 k Ew), Hk in Es. cbn in Es. rewrite beqb_refl in Es. discriminate Es. }
      constructor; rewrite tally_snoc; cbn [tally_step]; rewrite Es; intros k0; cbn [ta_now ta_wait ta_disk]; rewrite ?Hf, ?Ed; auto.
      * unfold upd. destruct (beqb_spec k k0) as [<-|]; [|apply F1]. unfold tally_write.
        destruct (ta_wait (tally l) k) eqn:Ew; rewrite F1.
        -- destruct (final_map (contents l) k); reflexivity.
        -- rewrite (F4 k Ew), Hd. reflexivity.
      * destruct (beqb_spec k k0) as [<-|]; [intros _; exact Hd|apply F3].
      * unfold upd. destruct (beqb k k0); [discriminate|apply F4].
  - constructor; rewrite tally_snoc; cbn [tally_step ta_now ta_wait ta_disk]; intros k0; rewrite ?Ec, ?Ed; auto. discriminate.
  - constructor; rewrite tally_snoc; cbn [tally_step ta_now ta_wait ta_disk]; intros k0; rewrite ?Ec, ?Ed; auto. discriminate.
Qed.

Lemma fresh_single l : no_rewrite l -> ~ rewrites l.
Proof.
  intros H [k Hk]. unfold counted in Hk. rewrite (fr_now _ (no_rewrite_fresh l H)) in Hk.
  destruct (final_map (contents l) k); cbn in Hk; lia.
Qed.

(** The first change of a flushed value. *)
Lemma changed_flushed l k x y : no_rewrite l -> final_map (durable l) k = Some y -> x <> y ->
  counted (l ++ [OInsert k x]) k = [x; y].
Proof.
  intros H Hd Hne. destruct (no_rewrite_fresh l H) as [F1 F2 F3 F4].
  assert (Ew : ta_wait (tally l) k = false).
  { destruct (ta_wait (tally l) k) eqn:Ew; [rewrite (F3 k Ew) in Hd; discriminate Hd|reflexivity]. }
  unfold counted. rewrite tally_snoc. cbn [tally_step]. rewrite F1, (F4 k Ew), Hd. cbn [opt_list same_value].
  destruct (beqb_spec y x) as [->|_]; [congruence|]. cbn [ta_now]. rewrite beqb_refl, Ew. reflexivity.
Qed.

(** ** Roots *)
Section Roots.
Context {A : Alg} {L : AlgLaws A} {P : Par A} {PL : ParLaws P} {C : Codec A} {CL : CodecLaws C}.
Add Ring Fring_rf : (F_ring (A := A)).

Lemma single_map l : ~ rewrites l -> (forall k, hd_error (counted l k) = final_map (contents l) k) ->
  forall k, final_map (tallied l) k = final_map (contents l) k.
Proof.
  intros Hn Hh k. rewrite (tallied_map l Hh), <- Hh. destruct (counted l k) as [|y [|z c]] eqn:E; [reflexivity|reflexivity|].
  exfalso. apply Hn. exists k. rewrite E. cbn. lia.
Qed.

Lemma right_root l : wf_ops l -> settled_ops l -> ~ rewrites l ->
  exists v db, run_disk l = Ok v /\ run_mem (contents l) = Ok db /\
    root_commitment v = root_commitment db /\ root_hash v = root_hash db.
Proof.
  intros Hwf Hst Hn. destruct (rewrite_exact l Hwf Hst) as (v & E & _ & Rc & Rh & Hh & _).
  destruct (run_mem_canon (contents l) (contents_wf l Hwf)) as (db & Em & Cn). destruct (canon_root _ _ _ Cn) as [A1 A2].
  exists v, db. split; [exact E|]. split; [exact Em|]. rewrite Rc, Rh, A1, A2.
  rewrite (spec_root_congr _ _ _ _ (single_map l Hn Hh) (Permutation_refl _)). split; reflexivity.
Qed.

Lemma zsum_bound (f : bytes -> Z) B c : (forall y, In y c -> 0 <= f y < B) -> 0 < B -> 0 <= zsum (map f c) <= B * Z.of_nat (len c).
Proof.
  induction c as [|y c IH]; intros H HB; cbn [map zsum length]; [lia|].
  assert (X : 0 <= f y < B) by (apply H; left; reflexivity).
  assert (Y : 0 <= zsum (map f c) <= B * Z.of_nat (len c)) by (apply IH; [intros z Hz; apply H; right; exact Hz|exact HB]). lia.
Qed.

Lemma value_low_int v : is_value v -> 0 <= low_int v < 2 ^ 128.
Proof.
  intros [Lv Bv]. unfold low_int. pose proof (le_Z_bound (firstn 16 v) (is_bytes_firstn 16 v Bv)) as X.
  rewrite firstn_length, Lv in X. exact X.
Qed.

Lemma wrong_root l : (forall a, 0 < a < 2 ^ 248 -> of_Z a <> fzero) -> wf_ops l -> settled_ops l ->
  (forall k v, In (OInsert k v) l -> is_value v) -> Z.of_nat (len l) < 2 ^ 100 -> rewrites l ->
  exists v db, run_disk l = Ok v /\ run_mem (contents l) = Ok db /\
    (root_hash v <> root_hash db \/ collision (contents l) (tallied l)).
Proof.
  intros Fit Hwf Hst Hval Hlen [k2 Hk2]. destruct (rewrite_exact l Hwf Hst) as (v & E & _ & Rc & Rh & Hh & Hc).
  pose proof (contents_wf l Hwf) as Hw1.
  destruct (run_mem_canon (contents l) Hw1) as (db & Em & Cn). destruct (canon_root _ _ _ Cn) as [A1 A2].
  exists v, db. split; [exact E|]. split; [exact Em|].
  assert (Hw2 : wf_history (tallied l)).
  { apply Forall_forall. intros [k e] Hin. unfold tallied in Hin. apply in_map_iff in Hin as ([k0 y] & Ek & Hin).
    cbn [fst] in Ek. injection Ek as -> _. unfold wf_history in Hw1. rewrite Forall_forall in Hw1. exact (Hw1 _ Hin). }
  destruct (run_mem_canon (tallied l) Hw2) as (db2 & Em2 & Cn2).
  pose proof (tallied_map l Hh) as Ht.
  assert (Hcv : forall k y, In y (counted l k) -> is_value y).
  { intros k y Hy. apply (Hval k y). apply counted_written. left; exact Hy. }
  assert (Hmv : forall k y, final_map (contents l) k = Some y -> is_value y).
  { intros k y Hy. rewrite <- Hh in Hy. apply (Hcv k). destruct (counted l k); [discriminate Hy|]. injection Hy as ->. left; reflexivity. }
  assert (Hent : forall w, In (Some w) (map (fun kv : bytes * bytes => Some (snd kv)) (tallied l)) ->
            exists k, counted l k <> [] /\ sum_entry (counted l k) = Some w).
  { intros w Hin. apply in_map_iff in Hin as ([k e] & Ew & Hin). cbn [snd] in Ew. injection Ew as ->.
    destruct (final_map_some _ _ _ Hin) as [z Hz]. rewrite Ht in Hz.
    unfold tallied in Hin. apply in_map_iff in Hin as ([k0 y] & Ek & _). cbn [fst] in Ek. injection Ek as -> Ek.
    rewrite Hz in Ek. subst z. exists k. split; [intro X; rewrite X in Hz; discriminate Hz|exact Hz]. }
  pose proof (scalars_apart_large (final_map (contents l)) (stems_of (contents l)) (stems_of (contents l)) [] Fit
     (proj2 (can_wf _ _ _ Cn)) (proj2 (can_wf _ _ _ Cn)) Hmv ltac:(intros w [])) as [S1 S2 _].
  assert (Inj : forall a b, 0 <= a < b -> b < 2 ^ 248 -> of_Z a <> of_Z b).
  { intros a b Hab Hb X. apply (Fit (b - a)); [lia|]. rewrite of_Z_sub, X. ring. }
  assert (P0 : 0 < 2 ^ 128) by reflexivity.
  assert (P1 : 2 ^ 128 * 2 ^ 100 + 2 ^ 128 * 2 ^ 100 < 2 ^ 248) by reflexivity.
  assert (Hlow : forall c w, (forall y, In y c -> is_value y) -> Z.of_nat (len c) < 2 ^ 100 -> sum_entry c = Some w ->
     exists z, leaf_low (Some w) = of_Z z /\ 2 ^ 128 * Z.of_nat (len c) <= z < 2 ^ 248).
  { intros c w Hv Lc Ew. exists (zsum (map low_int c) + 2 ^ 128 * Z.of_nat (len c)). split.
    - rewrite <- Ew, sum_low. apply fsum_low.
    - assert (X := zsum_bound low_int (2 ^ 128) c (fun y Hy => value_low_int y (Hv y Hy)) P0).
      assert (Y : 2 ^ 128 * Z.of_nat (len c) <= 2 ^ 128 * 2 ^ 100) by (apply Z.mul_le_mono_nonneg_l; lia).
      generalize dependent (2 ^ 128 * 2 ^ 100). generalize dependent (2 ^ 128 * Z.of_nat (len c)). generalize dependent (2 ^ 248).
      intros. lia. }
  assert (Hlc : forall k, Z.of_nat (len (counted l k)) < 2 ^ 100).
  { intros k. destruct (counted_length l k) as [X _]. unfold counted. generalize dependent (2 ^ 100). intros. lia. }
  assert (Hsc : scalars_apart (final_map (contents l)) (stems_of (contents l)) (stems_of (tallied l))
            (map (fun kv => Some (snd kv)) (tallied l))).
  { rewrite tallied_stems. constructor.
    - exact S1.
    - intros w [Hw|Hw]; [apply S2; left; exact Hw|]. destruct (Hent w Hw) as (k & Hne & Ew).
      destruct (Hlow _ _ (Hcv k) (Hlc k) Ew) as (z & -> & Hz).
      assert (Y : 1 < z).
      { assert (1 <= Z.of_nat (len (counted l k))) by (destruct (counted l k); [congruence|cbn [length]; lia]).
        assert (1 < 2 ^ 128) by reflexivity.
        assert (2 ^ 128 * 1 <= 2 ^ 128 * Z.of_nat (len (counted l k))) by (apply Z.mul_le_mono_nonneg_l; lia). lia. }
      split; [apply Fit; lia|]. rewrite <- of_Z_1. intro X. symmetry in X. revert X. apply Inj; lia.
    - intros k y w Hy Hw Elo Ehi. destruct (Hent w Hw) as (k' & Hne & Ew).
      destruct (counted l k') as [|a [|b c]] eqn:Ec; [congruence| |].
      + cbn [sum_entry] in Ew. injection Ew as ->.
        assert (Vw : is_value w) by (apply (Hcv k'); rewrite Ec; left; reflexivity).
        destruct (scalars_apart_large (final_map (contents l)) (stems_of (contents l)) (stems_of (contents l)) [Some w] Fit
           (proj2 (can_wf _ _ _ Cn)) (proj2 (can_wf _ _ _ Cn)) Hmv) as [_ _ S3]; [intros u [X|[]]; injection X as <-; exact Vw|].
        apply (S3 k y w Hy (or_introl eq_refl) Elo Ehi).
      + exfalso. rewrite <- Ec in Ew. destruct (Hlow _ _ (Hcv k') (Hlc k') Ew) as (z & Ez & Hz).
        rewrite Ec in Hz. cbn [length] in Hz. rewrite Ez in Elo.
        pose proof (value_low_int y (Hmv k y Hy)) as By. cbn [leaf_low] in Elo. rewrite <- of_Z_add in Elo. fold (low_int y) in Elo.
        revert Elo. apply Inj; [|lia]. split; [lia|].
        assert (2 ^ 128 * 2 <= 2 ^ 128 * Z.of_nat (S (S (len c)))) by (apply Z.mul_le_mono_nonneg_l; lia). lia. }
  destruct (feqb (hash (spec_root (final_map (contents l)) (stems_of (contents l))))
                 (hash (spec_root (final_map (tallied l)) (stems_of (contents l))))) eqn:Eq.
  - right. apply feqb_true in Eq. rewrite <- (tallied_stems l) in Eq at 2.
    destruct (same_root_hash (contents l) (tallied l) (can_keys _ _ _ Cn) (can_keys _ _ _ Cn2) (can_wf _ _ _ Cn) (can_wf _ _ _ Cn2) Hsc) as [H|H];
      [|exact Eq| |exact H].
    + intros k w Hw. apply in_map_iff. exists (k, w). split; [reflexivity|]. now apply map_value_In.
    + exfalso. specialize (H k2). rewrite Ht, <- Hh in H. destruct (counted l k2) as [|a [|b c]] eqn:Ec; [cbn in Hk2; lia|cbn in Hk2; lia|].
      cbn [hd_error] in H. symmetry in H. assert (Hl : forall y, In y (a :: b :: c) -> len y = 32%nat) by (intros y Hy; rewrite <- Ec in Hy; apply (Hcv k2 y Hy)).
      pose proof (sum_entry_len (a :: b :: c) a Hl H) as X. destruct (Hcv k2 a) as [La _]; [rewrite Ec; left; reflexivity|].
      rewrite La in X. cbn [length] in X. lia.
  - left. rewrite Rh, A2. revert Eq. generalize (hash (spec_root (final_map (contents l)) (stems_of (contents l)))).
    generalize (hash (spec_root (final_map (tallied l)) (stems_of (contents l)))). intros f2 f1 Eq X. injection X as ->.
    assert (Y : feqb f1 f1 = true) by (apply feqb_true; reflexivity). congruence.
Qed.
End Roots.
