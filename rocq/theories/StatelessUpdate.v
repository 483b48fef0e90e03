(** The stateless update on hints that are true of the tree, as those of an honest proof are. *)
From Coq Require Import Permutation.
From Verif Require Import Base BaseFacts Alg AlgFacts TreeSpec TreeFacts TrieModel TrieProofs BTree WireModel ProofModel ProofSpec PathProofs OpeningProofs VerifierProofs IpaModel StatelessModel StatelessSpec SubtreeProofs StatelessProofs HybridProofs.

Lemma firstn_In_l {X} n (l : list X) x : In x (firstn n l) -> In x l.
Proof. intro H. rewrite <- (firstn_skipn n l). apply in_or_app. now left. Qed.

Lemma NoDup_firstn {X} n (l : list X) : NoDup l -> NoDup (firstn n l).
Proof.
  revert n. induction l as [|x l IH]; intros n H; [now rewrite firstn_nil|]. destruct n as [|n]; [constructor|].
  inversion H; subst. cbn [firstn]. constructor; [|now apply IH]. intro Hi. apply H2. eapply firstn_In_l; eauto.
Qed.

Lemma map_get_fst {K V} {CK : Cmp K} {CL : CmpLaws K} (mm : list (K * V)) k v : msorted mm -> map_get k mm = Some v -> In k (map fst mm).
Proof. intros Hs H. apply map_get_sorted in H; auto. apply in_map_iff. now exists (k, v). Qed.

(** What the update uses of its hints: for the stems written, the claims are those of
    the tree, and so are the commitments on the way to their slots. *)
Record hint_true {A : Alg} {P : Par A} (h : history) (U : history) (hint : UpdateHint) : Prop := {
  ht_claim : forall s, In s (stems_of U) ->
    map_get s (uh_depths hint) = Some (status (stems_of h) s, Z.of_nat (sd (stems_of h) s));
  ht_inner : forall q c, internal (stems_of h) q = true -> map_get q (uh_comms hint) = Some c ->
    c = node_comm (final_map h) (stems_of h) q;
  ht_pre : forall s i, In s (stems_of U) -> (i < sd (stems_of h) s)%nat -> map_get (firstn i s) (uh_comms hint) <> None;
  ht_slot : forall s t, In s (stems_of U) -> stem_at (stems_of h) (slot h s) = Some t ->
    map_get (slot h s) (uh_comms hint) = Some (ext_comm (final_map h) t);
  ht_half : forall s x v, In (s ++ [x], v) U -> is_stem s -> 0 <= x < 256 -> stem_at (stems_of h) (slot h s) = Some s ->
    map_get (slot h s ++ [hsel x]) (uh_comms hint) = Some (suffix_comm (final_map h) s (hsel x - 2));
  ht_empty : forall s, In s (stems_of U) -> stem_at (stems_of h) (slot h s) = None ->
    map_get (slot h s) (uh_comms hint) = None;
  ht_others : forall s t, In s (stems_of U) -> stem_at (stems_of h) (slot h s) = Some t -> t <> s ->
    map_get (slot h s) (uh_others hint) = Some t
}.

Section Update.
Context {A : Alg} {L : AlgLaws A} {P : Par A} {PL : ParLaws P}.
Add Ring Fring : F_ring.
Add Ring dnring : dn_ring.
Opaque vcommit gsum subtree_hash.

Context (h : history) (Wh : wf_history h) (db : MemoryDb) (C : Canon db (final_map h) (stems_of h)).
Context (keys : list bytes) (Hkeys : Forall is_key keys) (Hnd : NoDup keys).
Context (updated : list (option bytes)) (Hlen : length updated = length keys).
Notation m := (final_map h).
Notation St := (stems_of h).
Notation U := (writes keys updated).
Notation m' := (final_map (h ++ writes keys updated)).
Notation St' := (stems_of (h ++ writes keys updated)).
Notation us := (updated_stems keys (map (final_map h) keys) updated).
Notation slot := (slot h).
Context (hint : UpdateHint) (HT : hint_true h (writes keys updated) hint).
Notation comms := (uh_comms hint).

Lemma WU : wf_history U.
Proof.
  apply Forall_forall. intros [k v] Hi. apply writes_In in Hi. rewrite Forall_forall in Hkeys. now apply Hkeys.
Qed.
Lemma UN : NoDup (map fst U). Proof. now apply writes_nodup. Qed.

Lemma keys_in k : In k keys -> is_key k.
Proof. rewrite Forall_forall in Hkeys. apply Hkeys. Qed.

Lemma us_inv : UInv (combine (combine keys (map m keys)) updated) us.
Proof.
  destruct (zip_keys keys (map m keys) updated) as [n E]. apply collect_inv.
  - apply Forall_forall. intros e He. apply keys_in.
    assert (Hi : In (fst (fst e)) (firstn n keys)) by (rewrite <- E; apply in_map_iff; eauto).
    eapply firstn_In_l; eauto.
  - rewrite E. now apply NoDup_firstn.
Qed.

Record good_su (s : bytes) (su : SuffixUpdate) : Prop := {
  gs_stem : is_stem s;
  gs_nd : NoDup (map fst su);
  gs_ne : su <> [];
  gs_in : forall x o v, In (x, (o, v)) su <-> 0 <= x < 256 /\ o = m (s ++ [x]) /\ In (s ++ [x], v) U
}.

Lemma us_in s su : In (s, su) us -> good_su s su /\ In s (stems_of U).
Proof.
  intro Hi. apply map_get_sorted in Hi; [|apply us_inv].
  destruct (ui_in _ _ us_inv s su Hi) as (H1 & H2 & H3).
  assert (Hex : exists k v, In (k, v) U /\ firstn 31 k = s).
  { destruct su as [|[x [o v]] su]; [congruence|]. destruct (proj1 (H3 x o v) (or_introl eq_refl)) as (k & Hk & E & _).
    apply zip_In in Hk as [_ Hk]; auto. eauto. }
  destruct Hex as (k0 & v0 & Hk0 & E0).
  assert (Hs : is_stem s) by (rewrite <- E0; apply key_stem, keys_in; eapply writes_In; eauto).
  split.
  - constructor; auto.
    + now apply sorted_NoDup.
    + intros x o v. rewrite H3. split.
      * intros (k & Hk & E1 & E2). apply zip_In in Hk as [Ho Hk]; auto.
        pose proof (keys_in k (writes_In _ _ _ _ Hk)) as Kk. pose proof (key_split k Kk) as Ek. rewrite E1, E2 in Ek.
        split; [subst x; apply key_byte; auto; lia|]. now rewrite <- Ek.
      * intros (Hx & Ho & Hk). destruct (stem_key s x Hs Hx) as [Kk Ek]. exists (s ++ [x]). split; [|split; auto].
        -- apply zip_In; auto.
        -- destruct Hs as [Hl _]. rewrite app_nth2 by lia. rewrite Hl. reflexivity.
  - apply stems_of_In. now exists (k0, v0).
Qed.

Lemma us_all s : In s (stems_of U) -> exists su, In (s, su) us.
Proof.
  intro Hi. apply stems_of_In in Hi as ([k v] & Hi & E). cbn [fst] in E.
  assert (Hz : In (k, m k, Some v) (combine (combine keys (map m keys)) updated)) by (apply zip_In; auto).
  pose proof (ui_all _ _ us_inv _ _ _ Hz) as Hg. rewrite E in Hg. destruct (map_get s us) as [su|] eqn:Eg; [|exfalso; apply Hg; exact Eg].
  exists su. apply map_get_sorted in Eg; [exact Eg|apply us_inv].
Qed.

Lemma stem_U_key s : In s (stems_of U) -> exists k, In k keys /\ firstn 31 k = s /\ is_stem s.
Proof.
  intro Hs. apply stems_of_In in Hs as ([k v] & Hi & E). cbn [fst] in E. exists k.
  pose proof (writes_In _ _ _ _ Hi) as Hk. split; auto. split; auto.
  rewrite <- E. apply key_stem, keys_in, Hk.
Qed.

(** ** The new values of a stem *)
Lemma new_leaf k : m' k = match final_map U k with Some v => Some v | None => m k end.
Proof. apply final_map_app. Qed.

Lemma app_su_new s su : good_su s su -> same_leaves (app_su m s su) m' s.
Proof.
  intros Gs i Hi. rewrite new_leaf.
  destruct (final_map U (s ++ [i])) as [v|] eqn:E.
  - apply final_map_In in E. assert (Hin : In (i, (m (s ++ [i]), v)) su) by (apply (gs_in _ _ Gs); auto).
    eapply app_su_in; [apply Gs|exact Hin].
  - apply app_su_other. intros x o v Hx Ex. apply app_inv_head, sing_inj in Ex. subst x.
    apply (gs_in _ _ Gs) in Hx as (_ & _ & Hx). apply (final_map_nodup _ _ _ UN) in Hx. congruence.
Qed.

Lemma su_sums s su : good_su s su ->
  let a := fold_left suffix_delta su (gzero, gzero) in
  gadd (suffix_comm m s 0) (fst a) = suffix_comm m' s 0 /\
  gadd (suffix_comm m s 1) (snd a) = suffix_comm m' s 1.
Proof.
  intros Gs a. destruct (suffix_deltas s su m gzero gzero (gs_nd _ _ Gs)) as [H1 H2].
  { intros x o v Hx. apply (gs_in _ _ Gs) in Hx as (Hb & Ho & _). auto. }
  rewrite (suffix_comm_congr _ m' s 0 (app_su_new s su Gs)) in H1 by lia.
  rewrite (suffix_comm_congr _ m' s 1 (app_su_new s su Gs)) in H2 by lia.
  rewrite gadd_0_r in H1, H2. split; [exact H1|exact H2].
Qed.

Lemma half_delta path b s d : gadd (suffix_comm m s b) d = suffix_comm m' s b ->
  (d <> gzero -> map_get path comms = Some (suffix_comm m s b)) ->
  half_hash_delta comms path d = Ok (fsub (hash (suffix_comm m' s b)) (hash (suffix_comm m s b))).
Proof.
  intros Hd Hg. unfold half_hash_delta. destruct (geqb d gzero) eqn:E.
  - apply geqb_true in E. subst d. rewrite <- Hd, gadd_0_r. f_equal. ring.
  - apply geqb_false in E. rewrite (Hg E). cbn [unwrap rbind]. now rewrite Hd.
Qed.

Lemma half_opened s su x o v : good_su s su -> stem_at St (slot s) = Some s -> In (x, (o, v)) su ->
  map_get (slot s ++ [hsel x]) comms = Some (suffix_comm m s (hsel x - 2)).
Proof.
  intros Gs Hs Hx. apply (gs_in _ _ Gs) in Hx as (Hb & _ & Hk). exact (ht_half _ _ _ HT s x v Hk (gs_stem _ _ Gs) Hb Hs).
Qed.

Lemma update_present_ok s su : good_su s su -> In s (stems_of U) -> stem_at St (slot s) = Some s ->
  update_present comms (slot s) su = Ok (ext_comm m' s).
Proof.
  intros Gs Hu Hs. unfold update_present. destruct (su_sums s su Gs) as [H1 H2].
  destruct (fold_left suffix_delta su (gzero, gzero)) as [d1 d2] eqn:Ed. cbn [fst snd] in H1, H2.
  rewrite (half_delta (slot s ++ [2]) 0 s d1 H1), (half_delta (slot s ++ [3]) 1 s d2 H2).
  - cbn [rbind]. rewrite (ht_slot _ _ _ HT s s Hu Hs). cbn [unwrap rbind]. rewrite (ext_comm_eq m s), (ext_comm_eq m' s). unfold scalar_mul.
    apply f_equal. module.
  - intro Hne. destruct (existsb (fun e => negb (fst e <? 128)) su) eqn:Ex.
    + apply existsb_exists in Ex as ([x [o v]] & Hx & Hge). cbn [fst] in Hge.
      pose proof (half_opened s su x o v Gs Hs Hx) as Hh. unfold hsel in Hh. destruct (x <? 128); [discriminate|exact Hh].
    + exfalso. apply Hne. pose proof (deltas_high su gzero gzero) as Hh. rewrite Ed in Hh. apply Hh.
      intros x o v Hx. destruct (Z.ltb_spec x 128) as [|Hge]; auto. exfalso.
      apply not_true_iff_false in Ex. apply Ex. apply existsb_exists. exists (x, (o, v)). split; auto. cbn [fst].
      now rewrite (proj2 (Z.ltb_ge x 128) Hge).
  - intro Hne. destruct (existsb (fun e => fst e <? 128) su) eqn:Ex.
    + apply existsb_exists in Ex as ([x [o v]] & Hx & Hlt). cbn [fst] in Hlt.
      pose proof (half_opened s su x o v Gs Hs Hx) as Hh. unfold hsel in Hh. rewrite Hlt in Hh. exact Hh.
    + exfalso. apply Hne. pose proof (deltas_low su gzero gzero) as Hh. rewrite Ed in Hh. apply Hh.
      intros x o v Hx. destruct (Z.ltb_spec x 128) as [Hlt|]; auto. exfalso.
      apply not_true_iff_false in Ex. apply Ex. apply existsb_exists. exists (x, (o, v)). split; auto. cbn [fst].
      now rewrite (proj2 (Z.ltb_lt x 128) Hlt).
Qed.

Lemma fresh_none s x : ~ In s St -> is_stem s -> 0 <= x < 256 -> m (s ++ [x]) = None.
Proof.
  intros Hn Hs Hx. destruct (m (s ++ [x])) as [v|] eqn:E; auto. exfalso.
  destruct (stem_key s x Hs Hx) as [_ Ek]. apply (can_keys _ _ _ C) in E as [_ E]. rewrite Ek in E. contradiction.
Qed.

Lemma new_stem_ok s su : good_su s su -> ~ In s St ->
  exists c1 c2, new_suffixes su gzero gzero = Some (c1, c2) /\ new_stem_comm s c1 c2 = ext_comm m' s.
Proof.
  intros Gs Hn. destruct (su_sums s su Gs) as [H1 H2].
  assert (He : same_leaves m bempty s) by (intros i Hi; apply fresh_none; auto; apply Gs).
  rewrite (suffix_comm_empty m s 0) in H1 by (auto; lia). rewrite (suffix_comm_empty m s 1) in H2 by (auto; lia).
  rewrite new_suffixes_deltas.
  - destruct (fold_left suffix_delta su (gzero, gzero)) as [c1 c2]. cbn [fst snd] in H1, H2.
    exists c1, c2. split; auto. rewrite new_stem_comm_eq, ext_comm_eq, <- H1, <- H2, !gadd_0_l. reflexivity.
  - intros x o v Hx. apply (gs_in _ _ Gs) in Hx as (Hb & -> & _). apply fresh_none; auto. apply Gs.
Qed.

(** ** The second loop *)
Record SInv (T : list bytes) (u : Updates) : Prop := {
  si_stem : forall s, u_stem u s = if in_dec bytes_dec s T then
      match stem_at St (slot s) with Some _ => Some (ext_comm m' s, hash (ext_comm m' s)) | None => None end
    else None;
  si_sorted : msorted (u_prefix u);
  si_in : forall p l, map_get p (u_prefix u) = Some l -> sorted l /\ (exists s, In s T /\ slot s = p) /\
    forall x, In x l <-> (In x T /\ slot x = p) \/ stem_at St p = Some x;
  si_all : forall s, In s T -> map_get (slot s) (u_prefix u) <> None
}.

Lemma get_add_prefix p q s u : map_get p (add_stem_prefix q s u) =
  if bytes_dec p q then Some (set_insert s (match map_get q u with Some l => l | None => [] end)) else map_get p u.
Proof.
  unfold add_stem_prefix. destruct (bytes_dec p q) as [->|Hne]; [apply map_get_insert_eq|now apply map_get_insert_ne].
Qed.

Lemma none_stem_T (f : bmap (G * F)) T s : (forall x, f x = if in_dec bytes_dec x T then
      match stem_at St (slot x) with Some _ => Some (ext_comm m' x, hash (ext_comm m' x)) | None => None end else None) ->
  stem_at St (slot s) = None ->
  forall x, f x = if in_dec bytes_dec x (T ++ [s]) then
      match stem_at St (slot x) with Some _ => Some (ext_comm m' x, hash (ext_comm m' x)) | None => None end else None.
Proof.
  intros Hf Hs x. rewrite Hf.
  destruct (in_dec bytes_dec x T) as [Hi|Hn]; destruct (in_dec bytes_dec x (T ++ [s])) as [Hi'|Hn']; try reflexivity.
  - exfalso. apply Hn', in_or_app. now left.
  - apply in_app_or in Hi' as [|[<-|[]]]; [contradiction|]. rewrite Hs. reflexivity.
Qed.

Lemma upd_stem_T (f : bmap (G * F)) T s v t : (forall x, f x = if in_dec bytes_dec x T then
      match stem_at St (slot x) with Some _ => Some (ext_comm m' x, hash (ext_comm m' x)) | None => None end else None) ->
  v = (ext_comm m' s, hash (ext_comm m' s)) -> stem_at St (slot s) = Some t ->
  forall x, upd f s v x = if in_dec bytes_dec x (T ++ [s]) then
      match stem_at St (slot x) with Some _ => Some (ext_comm m' x, hash (ext_comm m' x)) | None => None end else None.
Proof.
  intros Hf -> Ht x. destruct (bytes_dec x s) as [->|Hne].
  - rewrite upd_same, Ht. destruct (in_dec bytes_dec s (T ++ [s])) as [|Hn]; [reflexivity|]. exfalso. apply Hn, in_or_app. right. now left.
  - rewrite upd_other by congruence. rewrite Hf.
    destruct (in_dec bytes_dec x T) as [Hi|Hn]; destruct (in_dec bytes_dec x (T ++ [s])) as [Hi'|Hn']; try reflexivity; exfalso.
    + apply Hn', in_or_app. now left.
    + apply in_app_or in Hi' as [|[|[]]]; congruence.
Qed.

Lemma process_stem_ok T u s su : SInv T u -> In (s, su) us ->
  exists u', process_stem hint u (s, su) = Ok (Some u') /\ SInv (T ++ [s]) u'.
Proof.
  intros I Hi. destruct (us_in s su Hi) as [Gs Hu]. destruct (stem_U_key s Hu) as (k & Hk & Ek & Hst).
  unfold process_stem. rewrite (ht_claim _ _ _ HT s Hu).
  cbn [unwrap rbind]. rewrite Nat2Z.id.
  destruct (sd_spec St s (stems_wf h Wh) (proj1 Hst)) as (_ & _ & Hsd).
  assert (Esl : slice 0 (sd St s) s = Ok (slot s)).
  { unfold slice. rewrite (proj2 (Nat.leb_le (sd St s) (length s))) by (rewrite (proj1 Hst); lia).
    cbn [Nat.leb andb skipn]. now rewrite Nat.sub_0_r. }
  rewrite Esl. cbn [rbind]. unfold status. fold (slot s).
  destruct (stem_at St (slot s)) as [t|] eqn:Ht.
  2:{ eexists. split; [reflexivity|]. constructor; cbn [u_stem u_prefix].
    + apply (none_stem_T _ _ _ (si_stem _ _ I) Ht).
    + apply msorted_insert, I.
    + intros p l. rewrite get_add_prefix. destruct (bytes_dec p (slot s)) as [->|Hp].
      * intros [= <-]. split; [|split].
        -- apply sorted_set_insert. destruct (map_get (slot s) (u_prefix u)) as [l|] eqn:El; [apply (si_in _ _ I _ _ El)|constructor].
        -- exists s. split; auto. apply in_or_app. right. now left.
        -- intro x. rewrite In_set_insert. rewrite in_app_iff. cbn [In].
           destruct (map_get (slot s) (u_prefix u)) as [l|] eqn:El.
           ++ destruct (si_in _ _ I _ _ El) as (_ & _ & Hl). rewrite Hl. split.
              ** intros [->|[[H1 H2]|H]]; auto.
              ** intros [[[H1|[<-|[]]] H2]|H]; auto.
           ++ cbn [In]. split.
              ** intros [->|[]]. auto.
              ** intros [[[H1|[<-|[]]] H2]|H]; auto.
                 --- exfalso. apply (si_all _ _ I x H1). now rewrite H2.
                 --- congruence.
      * intro El. destruct (si_in _ _ I _ _ El) as (H1 & (s0 & H2 & H3) & H4). split; auto. split.
        -- exists s0. split; auto. apply in_or_app. now left.
        -- intro x. rewrite H4, in_app_iff. cbn [In]. split; intros [[Hx Hy]|Hx]; auto.
           destruct Hx as [Hx|[<-|[]]]; auto. congruence.
    + intros x Hx. rewrite get_add_prefix. destruct (bytes_dec (slot x) (slot s)); [discriminate|].
      apply in_app_or in Hx as [Hx|[<-|[]]]; [now apply (si_all _ _ I)|congruence]. }
  destruct (beqb_spec t s) as [->|Hne].
  - rewrite (update_present_ok s su Gs Hu Ht). cbn [rbind].
    eexists. split; [reflexivity|]. constructor; cbn [u_stem u_prefix].
    + apply (upd_stem_T _ _ _ _ _ (si_stem _ _ I) eq_refl Ht).
    + apply msorted_insert, I.
    + intros p l. rewrite get_add_prefix. destruct (bytes_dec p (slot s)) as [->|Hp].
      * intros [= <-]. split; [|split].
        -- apply sorted_set_insert. destruct (map_get (slot s) (u_prefix u)) as [l|] eqn:El; [apply (si_in _ _ I _ _ El)|constructor].
        -- exists s. split; auto. apply in_or_app. right. now left.
        -- intro x. rewrite In_set_insert. rewrite in_app_iff. cbn [In].
           destruct (map_get (slot s) (u_prefix u)) as [l|] eqn:El.
           ++ destruct (si_in _ _ I _ _ El) as (_ & _ & Hl). rewrite Hl. split.
              ** intros [->|[[H1 H2]|H]]; auto.
              ** intros [[[H1|[<-|[]]] H2]|H]; auto.
           ++ cbn [In]. split.
              ** intros [->|[]]. auto.
              ** intros [[[H1|[<-|[]]] H2]|H]; auto.
                 --- exfalso. apply (si_all _ _ I x H1). now rewrite H2.
                 --- left. congruence.
      * intro El. destruct (si_in _ _ I _ _ El) as (H1 & (s0 & H2 & H3) & H4). split; auto. split.
        -- exists s0. split; auto. apply in_or_app. now left.
        -- intro x. rewrite H4, in_app_iff. cbn [In]. split; intros [[Hx Hy]|Hx]; auto.
           destruct Hx as [Hx|[<-|[]]]; auto. congruence.
    + intros x Hx. rewrite get_add_prefix. destruct (bytes_dec (slot x) (slot s)); [discriminate|].
      apply in_app_or in Hx as [Hx|[<-|[]]]; [now apply (si_all _ _ I)|congruence].
  - pose proof (ht_others _ _ _ HT s t Hu Ht Hne) as Eo.
    match goal with |- context [unwrap ?x] => replace x with (Some t) by (symmetry; exact Eo) end. cbn [unwrap rbind].
    assert (Hn : ~ In s St).
    { intro Hin. pose proof (end_stem_self db m St C s Hin) as E. unfold end_stem in E. fold (slot s) in E. congruence. }
    destruct (new_stem_ok s su Gs Hn) as (c1 & c2 & En & Ec). rewrite En, Ec.
    eexists. split; [reflexivity|]. constructor; cbn [u_stem u_prefix].
    + apply (upd_stem_T _ _ _ _ _ (si_stem _ _ I) eq_refl Ht).
    + apply msorted_insert, msorted_insert, I.
    + intros p l. rewrite get_add_prefix. destruct (bytes_dec p (slot s)) as [->|Hp].
      * rewrite get_add_prefix. destruct (bytes_dec (slot s) (slot s)) as [_|]; [|congruence]. intros [= <-]. split; [|split].
        -- apply sorted_set_insert, sorted_set_insert.
           destruct (map_get (slot s) (u_prefix u)) as [l|] eqn:El; [apply (si_in _ _ I _ _ El)|constructor].
        -- exists s. split; auto. apply in_or_app. right. now left.
        -- intro x. rewrite !In_set_insert, in_app_iff. cbn [In].
           destruct (map_get (slot s) (u_prefix u)) as [l|] eqn:El.
           ++ destruct (si_in _ _ I _ _ El) as (_ & _ & Hl). rewrite Hl. split.
              ** intros [->|[->|[[H1 H2]|H]]]; auto.
              ** intros [[[H1|[<-|[]]] H2]|H]; auto.
           ++ cbn [In]. split.
              ** intros [->|[->|[]]]; auto.
              ** intros [[[H1|[<-|[]]] H2]|H]; auto.
                 --- exfalso. apply (si_all _ _ I x H1). now rewrite H2.
                 --- left. congruence.
      * rewrite get_add_prefix. destruct (bytes_dec p (slot s)); [congruence|].
        intro El. destruct (si_in _ _ I _ _ El) as (H1 & (s0 & H2 & H3) & H4). split; auto. split.
        -- exists s0. split; auto. apply in_or_app. now left.
        -- intro x. rewrite H4, in_app_iff. cbn [In]. split; intros [[Hx Hy]|Hx]; auto.
           destruct Hx as [Hx|[<-|[]]]; auto. congruence.
    + intros x Hx. rewrite !get_add_prefix. destruct (bytes_dec (slot x) (slot s)); [discriminate|].
      apply in_app_or in Hx as [Hx|[<-|[]]]; [now apply (si_all _ _ I)|congruence].
Qed.

Lemma process_stems_ok l : forall T u, SInv T u -> (forall e, In e l -> In e us) ->
  exists u', process_stems hint u l = Ok (Some u') /\ SInv (T ++ map fst l) u'.
Proof.
  induction l as [|[s su] l IH]; intros T u I Hl; cbn [process_stems map fst].
  - exists u. rewrite app_nil_r. auto.
  - destruct (process_stem_ok T u s su I (Hl _ (or_introl eq_refl))) as (u1 & E1 & I1). rewrite E1. cbn [rbind].
    destruct (IH (T ++ [s]) u1 I1) as (u2 & E2 & I2); [intros; apply Hl; now right|].
    exists u2. split; auto. now rewrite <- app_assoc in I2.
Qed.

Lemma SInv_nil : SInv [] (mkU [] bempty).
Proof. constructor; cbn [u_stem u_prefix]; [reflexivity|constructor|discriminate|intros s []]. Qed.

(** ** The third loop *)
Context (order : list bytes -> list bytes) (Horder : forall l, Permutation (order l) l).
Context (u : Updates) (Iu : SInv (map fst us) u).

Lemma T_U s : In s (map fst us) <-> In s (stems_of U).
Proof.
  split.
  - intro Hi. apply in_map_iff in Hi as ([s0 su] & <- & Hi). now apply us_in in Hi.
  - intro Hi. apply us_all in Hi as (su & Hi). apply in_map_iff. now exists (s, su).
Qed.

Lemma wf' : wf_history (h ++ U).
Proof. apply Forall_app. split; [exact Wh|apply WU]. Qed.

Lemma stems' s : In s St' <-> In s St \/ In s (stems_of U).
Proof.
  rewrite !stems_of_In. split.
  - intros (kv & Hi & E). apply in_app_or in Hi as [Hi|Hi]; eauto.
  - intros [(kv & Hi & E)|(kv & Hi & E)]; exists kv; (split; [apply in_or_app|]); auto.
Qed.

Lemma slot_stems p l t : map_get p (u_prefix u) = Some l -> stem_at St p = Some t ->
  exists s, In s l /\ In s (stems_of U) /\ slot s = p /\ Permutation l (under St' p).
Proof.
  intros Hl Ht. destruct (si_in _ _ Iu p l Hl) as (H1 & (s & H2 & H3) & H4). apply T_U in H2.
  exists s.
  split; [apply H4; left; split; auto; now apply T_U|]. split; auto. split; auto.
  apply NoDup_Permutation; [now apply sorted_NoDup|apply under_NoDup, stems_wf, wf'|].
  intro x. rewrite H4, under_In, stems', T_U. split.
  - intros [[Hx Hs]|Hx].
    + split; auto. rewrite <- Hs. apply slot_prefix.
    + apply stem_at_In in Hx as [Hx Hy]. auto.
  - intros [[Hx|Hx] Hy].
    + right. apply stem_at_spec in Ht as Hsp. destruct Hsp as (_ & _ & Eu).
      assert (Hin : In x (under St p)) by (apply under_In; auto). rewrite Eu in Hin. destruct Hin as [<-|[]]. exact Ht.
    + left. split; auto. apply (slot_of h Wh p t); auto.
      exact (wfS_len _ _ (stems_wf _ WU) Hx).
Qed.

Lemma unwritten t : In t St -> ~ In t (stems_of U) -> ext_comm m t = ext_comm m' t.
Proof.
  intros Ht Hn. apply ext_comm_congr. intros i Hi. rewrite new_leaf.
  destruct (stem_key t i (wfS_stem _ _ (stems_wf h Wh) Ht) Hi) as [Kk Ek].
  rewrite (no_write U); [reflexivity|exact Kk|now rewrite Ek].
Qed.

Lemma elements_ok p l t : stem_at St p = Some t -> map_get p comms = Some (ext_comm m t) ->
  (forall s, In s l -> In s (stems_of U) /\ slot s = p \/ s = t) ->
  subtree_elements comms (u_stem u) p l = Ok (map (fun s => (s, ext_comm m' s)) l).
Proof.
  intros Ht Hc. induction l as [|s l IH]; intro Hl; cbn [subtree_elements map]; auto.
  rewrite (si_stem _ _ Iu s). destruct (in_dec bytes_dec s (map fst us)) as [Hi|Hn].
  - assert (Esl : slot s = p).
    { destruct (Hl s (or_introl eq_refl)) as [[_ E]| ->]; auto. symmetry. unfold HybridProofs.slot. now apply (stem_pos db m St C). }
    rewrite Esl, Ht. cbn [rbind]. rewrite IH by (intros; apply Hl; now right). reflexivity.
  - rewrite Hc. cbn [unwrap rbind]. rewrite IH by (intros; apply Hl; now right). cbn [rbind].
    destruct (Hl s (or_introl eq_refl)) as [[Hu _]| ->]; [exfalso; now apply Hn, T_U|].
    rewrite (unwritten t); [reflexivity|now apply stem_at_In in Ht|intro; now apply Hn, T_U].
Qed.

Lemma under_self p (l : list bytes) : (forall s, In s l -> has_prefix p s = true) -> under l p = l.
Proof.
  induction l as [|s l IH]; intro H; auto. unfold under. cbn [filter]. rewrite (H s (or_introl eq_refl)). f_equal.
  apply IH. intros; apply H; now right.
Qed.

Lemma process_prefix_ok (D : bytes -> bool) p l t (T : Sparse) : map_get p (u_prefix u) = Some l -> stem_at St p = Some t -> D p = false ->
  (forall q, internal St q = true -> map_get q comms <> None ->
     lookup comms (sp_updated T) q = Some (inner_comm (final_map (hist h U D)) (stems_of (hist h U D)) q)) ->
  exists T', process_prefix order comms (u_stem u) T (p, l) = Ok T' /\
  (forall q, internal St q = true -> map_get q comms <> None ->
     lookup comms (sp_updated T') q = Some (inner_comm (final_map (hist h U (D1 D p))) (stems_of (hist h U (D1 D p))) q)) /\
  sp_root T' = inner_comm (final_map (hist h U (D1 D p))) (stems_of (hist h U (D1 D p))) [].
Proof.
  intros Hl Ht HD Hinv. destruct (slot_stems p l t Hl Ht) as (s & Hs & Hsu & Esl & Hperm).
  destruct (si_in _ _ Iu p l Hl) as (_ & _ & Hin).
  assert (Hc : map_get p comms = Some (ext_comm m t)).
  { rewrite <- Esl. apply (ht_slot _ _ _ HT); auto. now rewrite Esl. }
  assert (Hc2 : forall j, (j < length p)%nat -> map_get (firstn j p) comms <> None).
  { intros j Hj. destruct (stem_U_key s Hsu) as (k & Hk & Ek & Hst).
    assert (Hlp : length p = sd St s).
    { rewrite <- Esl. unfold HybridProofs.slot. apply firstn_length_le. rewrite (proj1 Hst).
      apply (sd_spec St s (stems_wf h Wh) (proj1 Hst)). }
    rewrite <- Esl. unfold HybridProofs.slot. rewrite firstn_firstn, Nat.min_l by lia.
    apply (ht_pre _ _ _ HT); auto. lia. }
  destruct (update_prefix_ok h U Wh WU D p t Ht HD comms Hc2 T Hinv) as (T' & E1 & E2 & E3).
  exists T'. split; [|split; [exact E2|exact E3]].
  unfold process_prefix. rewrite Hc.
  assert (Eold : node_comm m St p = ext_comm m t) by (unfold node_comm; now rewrite (node_vec_ext m St _ _ Ht)).
  rewrite Eold in E1.
  assert (Hperm2 : Permutation (order l) (under St' p)) by (etransitivity; [apply Horder|exact Hperm]).
  assert (Hio : forall x, In x (order l) -> In x (stems_of U) /\ slot x = p \/ x = t).
  { intros x Hx. apply (Permutation_in _ (Horder l)) in Hx. apply Hin in Hx as [[Hx Hy]|Hx]; [left; split; [now apply T_U|exact Hy]|right; congruence]. }
  assert (Hnew : match order l with
    | [s0] => let! c := unwrap (u_stem u s0) in Ok (snd c)
    | l0 => let! elements := subtree_elements comms (u_stem u) p l0 in let! c := build_subtree p elements in Ok (hash c)
    end = Ok (cval m' St' p)).
  { assert (Hso : In s (order l)) by (apply (Permutation_in _ (Permutation_sym (Horder l))); exact Hs).
    destruct (order l) as [|a [|b r]] eqn:Eo; [destruct Hso| |].
    - destruct Hso as [->|[]]. apply Permutation_length_1_inv in Hperm2. rewrite (cval_one m' St' p s Hperm2).
      rewrite (si_stem _ _ Iu s). destruct (in_dec bytes_dec s (map fst us)) as [|Hn]; [rewrite Esl, Ht; reflexivity|].
      exfalso. now apply Hn, T_U.
    - set (l0 := a :: b :: r) in *. rewrite (elements_ok p l0 t Ht Hc Hio). cbn [rbind].
      assert (Hpre : forall x, In x l0 -> has_prefix p x = true /\ is_stem x).
      { intros x Hx. apply (Permutation_in _ Hperm2) in Hx. apply under_In in Hx as [Hx Hy]. split; auto.
        exact (wfS_stem _ _ (stems_wf _ wf') Hx). }
      rewrite build_subtree_ok.
      + cbn [rbind]. assert (Ei : inner_comm m' l0 p = inner_comm m' St' p).
        { apply inner_comm_congr; [|intros; intros ? ?; reflexivity]. rewrite under_self by (intros; now apply Hpre). exact Hperm2. }
        rewrite Ei. rewrite cval_many; [reflexivity|apply stems_wf, wf'|].
        rewrite <- (Permutation_length Hperm2). cbn [l0 length]. lia.
      + destruct (Nat.lt_ge_cases (length p) 31) as [|Hge]; auto. exfalso.
        pose proof (under_long St' p (stems_wf _ wf') Hge) as Hu. rewrite <- (Permutation_length Hperm2) in Hu. cbn [l0 length] in Hu. lia.
      + apply Forall_forall. intros x Hx. now apply Hpre.
      + apply Forall_forall. intros x Hx. now apply Hpre.
      + apply (Permutation_NoDup (Permutation_sym Hperm2)). apply under_NoDup, stems_wf, wf'. }
  rewrite Hnew. cbn [rbind]. rewrite E1. reflexivity.
Qed.

Lemma process_prefix_empty p l (T : Sparse) : map_get p (u_prefix u) = Some l -> stem_at St p = None ->
  process_prefix order comms (u_stem u) T (p, l) = Panic.
Proof.
  intros Hl Hn. destruct (si_in _ _ Iu p l Hl) as (_ & (s & H2 & H3) & Hin).
  assert (Hs : In s l) by (apply Hin; auto).
  assert (Hc : map_get p comms = None).
  { rewrite <- H3. apply (ht_empty _ _ _ HT); [now apply T_U|now rewrite H3]. }
  assert (Hu : forall x, In x (order l) -> u_stem u x = None).
  { intros x Hx. apply (Permutation_in _ (Horder l)) in Hx. apply Hin in Hx as [[_ Hx]|Hx]; [|congruence].
    rewrite (si_stem _ _ Iu x), Hx, Hn. now destruct (in_dec bytes_dec x (map fst us)). }
  assert (Hso : In s (order l)) by (apply (Permutation_in _ (Permutation_sym (Horder l))); exact Hs).
  unfold process_prefix. rewrite Hc.
  destruct (order l) as [|a [|b r]]; [destruct Hso| |].
  - rewrite (Hu a (or_introl eq_refl)). reflexivity.
  - cbn [subtree_elements]. rewrite (Hu a (or_introl eq_refl)), Hc. reflexivity.
Qed.

Definition Dl (ps : list bytes) : bytes -> bool := fun x => existsb (beqb x) ps.

Lemma hist_ext D D' : (forall x, D x = D' x) -> hist h U D = hist h U D'.
Proof. intro H. unfold hist. f_equal. apply filter_ext. intro; apply H. Qed.

Lemma process_prefixes_ok l2 : forall l1 (T : Sparse), u_prefix u = l1 ++ l2 ->
  (forall p, In p (map fst l2) -> stem_at St p <> None) ->
  (forall q, internal St q = true -> map_get q comms <> None ->
     lookup comms (sp_updated T) q = Some (inner_comm (final_map (hist h U (Dl (map fst l1)))) (stems_of (hist h U (Dl (map fst l1)))) q)) ->
  sp_root T = inner_comm (final_map (hist h U (Dl (map fst l1)))) (stems_of (hist h U (Dl (map fst l1)))) [] ->
  exists T', process_prefixes order comms (u_stem u) T l2 = Ok T' /\
    sp_root T' = inner_comm (final_map (hist h U (Dl (map fst (u_prefix u))))) (stems_of (hist h U (Dl (map fst (u_prefix u))))) [].
Proof.
  induction l2 as [|[p l] l2 IH]; intros l1 T E Hoc Hinv Hroot; cbn [process_prefixes].
  - exists T. split; [reflexivity|]. rewrite E, app_nil_r. exact Hroot.
  - assert (Hp : map_get p (u_prefix u) = Some l).
    { apply map_get_sorted; [apply Iu|]. rewrite E. apply in_or_app. right. now left. }
    assert (Hnp : Dl (map fst l1) p = false).
    { apply not_true_iff_false. intro Hx. apply existsb_exists in Hx as (y & Hy & Ey). apply beqb_eq in Ey. subst y.
      pose proof (sorted_NoDup _ (si_sorted _ _ Iu)) as Hn. rewrite E, map_app in Hn. cbn [map fst] in Hn.
      apply NoDup_remove_2 in Hn. apply Hn, in_or_app. now left. }
    destruct (stem_at St p) as [t|] eqn:Ht; [|exfalso; apply (Hoc p); [now left|exact Ht]].
    destruct (process_prefix_ok (Dl (map fst l1)) p l t T Hp Ht Hnp Hinv) as (T1 & E1 & E2 & E3).
    rewrite E1. cbn [rbind].
    assert (ED : hist h U (D1 (Dl (map fst l1)) p) = hist h U (Dl (map fst (l1 ++ [(p, l)])))).
    { apply hist_ext. intro x. unfold D1, Dl. rewrite map_app, existsb_app. cbn [map fst existsb]. now rewrite orb_false_r. }
    rewrite ED in E2, E3. apply (IH (l1 ++ [(p, l)]) T1); [now rewrite <- app_assoc|intros q Hq; apply Hoc; now right|exact E2|exact E3].
Qed.

Lemma process_prefixes_empty l2 : forall l1 (T : Sparse), u_prefix u = l1 ++ l2 ->
  (exists p, In p (map fst l2) /\ stem_at St p = None) ->
  (forall q, internal St q = true -> map_get q comms <> None ->
     lookup comms (sp_updated T) q = Some (inner_comm (final_map (hist h U (Dl (map fst l1)))) (stems_of (hist h U (Dl (map fst l1)))) q)) ->
  process_prefixes order comms (u_stem u) T l2 = Panic.
Proof.
  induction l2 as [|[p l] l2 IH]; intros l1 T E (p0 & Hp0 & Hn0) Hinv; [destruct Hp0|]. cbn [process_prefixes].
  assert (Hp : map_get p (u_prefix u) = Some l).
  { apply map_get_sorted; [apply Iu|]. rewrite E. apply in_or_app. right. now left. }
  destruct (stem_at St p) as [t|] eqn:Ht; [|rewrite (process_prefix_empty p l T Hp Ht); reflexivity].
  assert (Hnp : Dl (map fst l1) p = false).
  { apply not_true_iff_false. intro Hx. apply existsb_exists in Hx as (y & Hy & Ey). apply beqb_eq in Ey. subst y.
    pose proof (sorted_NoDup _ (si_sorted _ _ Iu)) as Hn. rewrite E, map_app in Hn. cbn [map fst] in Hn.
    apply NoDup_remove_2 in Hn. apply Hn, in_or_app. now left. }
  destruct (process_prefix_ok (Dl (map fst l1)) p l t T Hp Ht Hnp Hinv) as (T1 & E1 & E2 & _).
  rewrite E1. cbn [rbind].
  assert (ED : hist h U (D1 (Dl (map fst l1)) p) = hist h U (Dl (map fst (l1 ++ [(p, l)])))).
  { apply hist_ext. intro x. unfold D1, Dl. rewrite map_app, existsb_app. cbn [map fst existsb]. now rewrite orb_false_r. }
  rewrite ED in E2. apply (IH (l1 ++ [(p, l)]) T1); [now rewrite <- app_assoc| |exact E2].
  exists p0. split; [|exact Hn0]. destruct Hp0 as [Hp0|Hp0]; auto. cbn [fst] in Hp0. congruence.
Qed.

Lemma last_hist : inner_comm (final_map (hist h U (Dl (map fst (u_prefix u))))) (stems_of (hist h U (Dl (map fst (u_prefix u))))) []
  = spec_root m' St'.
Proof.
  rewrite (hyb_inner h U Wh WU _ (fun _ => true)); [now rewrite hist_all|].
  intros s Hs _. apply existsb_exists. exists (slot s). split; [|apply beqb_refl].
  apply T_U in Hs. pose proof (si_all _ _ Iu s Hs) as Hg. destruct (map_get (slot s) (u_prefix u)) as [l|] eqn:E; [|congruence].
  apply map_get_fst in E; [exact E|apply Iu].
Qed.

Lemma first_hist q : internal St q = true -> map_get q comms <> None ->
  lookup comms bempty q = Some (inner_comm (final_map (hist h U (Dl []))) (stems_of (hist h U (Dl []))) q).
Proof.
  intros Iq Hq. unfold Dl. cbn [existsb]. rewrite hist_none. unfold lookup. cbn [bempty].
  rewrite inner_old by exact Iq. destruct (map_get q comms) as [c|] eqn:Ec; [|congruence].
  now rewrite (ht_inner _ _ _ HT q c Iq Ec).
Qed.

Lemma prefixes_occupied : (forall k v, In (k, v) U -> stem_at St (qpos St k) <> None) <->
  forall p, In p (map fst (u_prefix u)) -> stem_at St p <> None.
Proof.
  split.
  - intros Ho p Hp. apply in_map_iff in Hp as ([p0 l] & <- & Hi). cbn [fst].
    apply map_get_sorted in Hi; [|apply Iu]. destruct (si_in _ _ Iu p0 l Hi) as (_ & (s & H2 & <-) & _).
    apply T_U, stems_of_In in H2 as ([k v] & Hk & <-). cbn [fst]. rewrite <- qpos_slot. exact (Ho k v Hk).
  - intros Ho k v Hk. rewrite qpos_slot. apply Ho.
    assert (Hs : In (firstn 31 k) (map fst us)) by (apply T_U, stems_of_In; now exists (k, v)).
    pose proof (si_all _ _ Iu _ Hs) as Hg. destruct (map_get (slot (firstn 31 k)) (u_prefix u)) as [l|] eqn:E; [|congruence].
    apply map_get_fst in E; [exact E|apply Iu].
Qed.
End Update.

Section Root.
Context {A : Alg} {L : AlgLaws A} {P : Par A} {PL : ParLaws P}.
Opaque vcommit gsum subtree_hash.

Lemma not_usize_equal n : (not_usize n =? Z.of_nat n) = false.
Proof. unfold not_usize. apply Z.eqb_neq. lia. Qed.

(** With hints that are true. *)
Lemma update_root_true h db keys updated hint order :
  wf_history h -> Canon db (final_map h) (stems_of h) -> Forall is_key keys -> NoDup keys ->
  length updated = length keys -> hint_true h (writes keys updated) hint ->
  (forall l, Permutation (order l) l) ->
  let U := writes keys updated in
  let r := update_root order hint keys (map (final_map h) keys) updated (node_comm (final_map h) (stems_of h) []) in
  ((forall k v, In (k, v) U -> stem_at (stems_of h) (qpos (stems_of h) k) <> None) ->
   r = Ok (VOk (spec_root (final_map (h ++ U)) (stems_of (h ++ U))))) /\
  ((exists k v, In (k, v) U /\ stem_at (stems_of h) (qpos (stems_of h) k) = None) -> r = Panic).
Proof.
  intros Wh C Hk Hnd Hl HT Hord U r.
  destruct (process_stems_ok h Wh db C keys Hk Hnd updated Hl hint HT _ [] _ (SInv_nil h keys updated) (fun e H => H)) as (u & E & Iu).
  cbn [app] in Iu.
  assert (Er : r = let! t := process_prefixes order (uh_comms hint) (u_stem u) (mkSparse (node_comm (final_map h) (stems_of h) []) bempty) (u_prefix u) in
     Ok (VOk (sp_root t))).
  { unfold r, update_root. rewrite map_length, Hl, not_usize_equal.
    rewrite (proj2 (has_unique_NoDup keys) Hnd). cbn [negb]. rewrite E. reflexivity. }
  rewrite Er. clear Er r.
  pose proof (first_hist h keys updated hint HT) as H0.
  split.
  - intro Hoc. pose proof (proj1 (prefixes_occupied h keys Hk Hnd updated Hl u Iu) Hoc) as Hoc'.
    destruct (process_prefixes_ok h Wh db C keys Hk Hnd updated Hl hint HT order Hord u Iu (u_prefix u) []
      (mkSparse (node_comm (final_map h) (stems_of h) []) bempty) eq_refl Hoc' H0) as (T' & E1 & E2).
    + cbn [map sp_root]. unfold Dl. cbn [existsb]. rewrite hist_none. rewrite inner_old; reflexivity.
    + rewrite E1. cbn [rbind]. rewrite E2. rewrite (last_hist h Wh keys Hk Hnd updated Hl u Iu). reflexivity.
  - intros (k & v & Hi & Hn).
    rewrite (process_prefixes_empty h Wh db C keys Hk Hnd updated Hl hint HT order Hord u Iu (u_prefix u) []
      (mkSparse (node_comm (final_map h) (stems_of h) []) bempty) eq_refl); [reflexivity| |exact H0].
    assert (Hs : In (firstn 31 k) (map fst (updated_stems keys (map (final_map h) keys) updated)))
      by (apply T_U; auto; apply stems_of_In; now exists (k, v)).
    exists (slot h (firstn 31 k)). split; [|rewrite <- qpos_slot; exact Hn].
    pose proof (si_all _ _ _ _ _ Iu _ Hs) as Hg.
    destruct (map_get (slot h (firstn 31 k)) (u_prefix u)) as [l|] eqn:El; [|congruence].
    apply map_get_fst in El; [exact El|apply Iu].
Qed.

(** The hints of an honest proof are true. *)
Section Honest.
Context (h : history) (Wh : wf_history h) (db : MemoryDb) (C : Canon db (final_map h) (stems_of h)).
Context (keys : list bytes) (Hkeys : Forall is_key keys).
Notation m := (final_map h).
Notation St := (stems_of h).
Notation comms := (comm_graph (final_map h) (stems_of h) keys).

Lemma comm_get p : In p (opened St keys) -> map_get p comms = Some (node_comm m St p).
Proof. intro H. unfold comm_graph. now rewrite map_get_graph_In. Qed.
Lemma opened_entry k p z : In k keys -> In (p, z) (entries St k) -> In p (opened St keys).
Proof.
  intros Hk He. apply In_opened. apply in_map_iff. exists (p, z). split; auto. apply in_flat_map. eauto.
Qed.
Lemma is_key_in k : In k keys -> is_key k.
Proof. rewrite Forall_forall in Hkeys. apply Hkeys. Qed.
Lemma opened_slot k t : In k keys -> stem_at St (qpos St k) = Some t -> In (qpos St k) (opened St keys).
Proof.
  intros Hk Ht. apply (opened_entry k _ 0 Hk). apply entries_cases; [now apply is_key_in|]. right. left. split; auto. eauto.
Qed.
Lemma opened_pre k i : In k keys -> (i < sd St (firstn 31 k))%nat -> In (firstn i (firstn 31 k)) (opened St keys).
Proof.
  intros Hk Hi. apply (opened_entry k _ (nth i (firstn 31 k) 0) Hk). apply entries_cases; [now apply is_key_in|]. left. eauto.
Qed.
Lemma opened_half k : In k keys -> stem_at St (qpos St k) = Some (firstn 31 k) ->
  In (qpos St k ++ [hsel (nth 31 k 0)]) (opened St keys).
Proof.
  intros Hk Ht. apply (opened_entry k _ (2 * (nth 31 k 0 mod 128)) Hk). apply entries_cases; [now apply is_key_in|]. right. right. auto.
Qed.

Lemma honest_true updated others :
  (forall p t, map_get p others = Some t <->
    stem_at St p = Some t /\ exists k, In k keys /\ p = qpos St k /\ t <> firstn 31 k) ->
  hint_true h (writes keys updated) (mkUH (stat_graph St keys) comms others).
Proof.
  intro Ho.
  assert (Hs : forall s, In s (stems_of (writes keys updated)) -> exists k, In k keys /\ firstn 31 k = s /\ is_stem s)
    by (apply stem_U_key; exact Hkeys).
  constructor; cbn [uh_depths uh_comms uh_others].
  - intros s Hi. destruct (Hs s Hi) as (k & Hk & Ek & _). unfold stat_graph.
    apply (map_get_graph_In (fun s => (status St s, Z.of_nat (sd St s)))). apply In_set_of, in_map_iff. eauto.
  - intros q c Iq Hc. unfold comm_graph in Hc. rewrite (map_get_graph (node_comm m St)) in Hc.
    destruct (set_mem q (opened St keys)); congruence.
  - intros s i Hi Hl. destruct (Hs s Hi) as (k & Hk & <- & _). rewrite comm_get; [discriminate|]. now apply opened_pre.
  - intros s t Hi Ht. destruct (Hs s Hi) as (k & Hk & E & _). rewrite comm_get.
    + unfold node_comm. now rewrite (node_vec_ext m St _ _ Ht).
    + rewrite <- E, <- qpos_slot. apply (opened_slot k t Hk). rewrite qpos_slot, E. exact Ht.
  - intros s x v Hk Sx Hb Ht. apply writes_In in Hk. destruct (stem_key s x Sx Hb) as [Kk Ek].
    pose proof (opened_half (s ++ [x]) Hk) as Hop. rewrite qpos_slot, Ek in Hop.
    assert (En : nth 31 (s ++ [x]) 0 = x).
    { destruct Sx as [Hl _]. rewrite app_nth2 by lia. rewrite Hl. reflexivity. }
    rewrite En in Hop. rewrite comm_get by exact (Hop Ht). unfold node_comm. rewrite (node_vec_suffix m St _ _ _ Ht). reflexivity.
  - intros s Hi Hn. unfold comm_graph. apply (map_get_graph_notIn (node_comm m St)). intro Hop. apply In_opened in Hop.
    apply (opened_node db m St C keys Hkeys) in Hop. destruct (Hs s Hi) as (k & _ & _ & Hst).
    exact (empty_not_node db m St C s Hst Hn Hop).
  - intros s t Hi Ht Hne. destruct (Hs s Hi) as (k & Hk & Ek & _). apply Ho. split; auto. exists k. split; auto.
    split; [now rewrite qpos_slot, Ek|]. now rewrite Ek.
Qed.
End Honest.

Lemma update_root_ok h db keys updated others order :
  wf_history h -> Canon db (final_map h) (stems_of h) -> Forall is_key keys -> NoDup keys ->
  length updated = length keys ->
  (forall p t, map_get p others = Some t <->
    stem_at (stems_of h) p = Some t /\ exists k, In k keys /\ p = qpos (stems_of h) k /\ t <> firstn 31 k) ->
  (forall l, Permutation (order l) l) ->
  let hint := mkUH (stat_graph (stems_of h) keys) (comm_graph (final_map h) (stems_of h) keys) others in
  let U := writes keys updated in
  let r := update_root order hint keys (map (final_map h) keys) updated (node_comm (final_map h) (stems_of h) []) in
  ((forall k v, In (k, v) U -> stem_at (stems_of h) (qpos (stems_of h) k) <> None) ->
   r = Ok (VOk (spec_root (final_map (h ++ U)) (stems_of (h ++ U))))) /\
  ((exists k v, In (k, v) U /\ stem_at (stems_of h) (qpos (stems_of h) k) = None) -> r = Panic).
Proof.
  intros Wh C Hk Hnd Hl Ho Hord hint U r. apply update_root_true with (db := db); auto. now apply (honest_true h db C keys Hk).
Qed.
End Root.
