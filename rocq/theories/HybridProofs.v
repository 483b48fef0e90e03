(** Trees in which only some of the slots of a tree have been updated. *)
From Coq Require Import Permutation.
From Verif Require Import Base BaseFacts Alg AlgFacts TreeSpec TreeFacts TrieModel TrieProofs BTree WireModel ProofModel ProofSpec PathProofs OpeningProofs VerifierProofs IpaModel StatelessModel StatelessSpec SubtreeProofs StatelessProofs.

Section Hybrid.
Context {A : Alg} {L : AlgLaws A} {P : Par A} {PL : ParLaws P}.
Add Ring Fring : F_ring.
Add Ring dnring : dn_ring.
Opaque vcommit gsum subtree_hash.

Context (h U : history) (Wh : wf_history h) (WU : wf_history U).
Notation m := (final_map h).
Notation St := (stems_of h).

Definition slot (s : bytes) : bytes := firstn (sd St s) s.
Lemma qpos_slot k : qpos St k = slot (firstn 31 k). Proof. reflexivity. Qed.

Lemma stems_wf h0 : wf_history h0 -> wfS (stems_of h0).
Proof.
  intro W. split; [apply stems_of_NoDup|]. apply Forall_forall. intros s Hs. apply stems_of_In in Hs as (kv & Hi & <-).
  apply key_stem. unfold wf_history in W. rewrite Forall_forall in W. now apply W.
Qed.

Lemma slot_of p t s : stem_at St p = Some t -> length s = 31%nat -> has_prefix p s = true -> slot s = p.
Proof.
  intros Hp Hs Hpre. apply stem_at_spec in Hp as (I0 & I1 & _).
  destruct (sd_spec St s (stems_wf h Wh) Hs) as (S1 & S2 & S3). unfold slot.
  pose proof (has_prefix_length p s Hpre) as Hl. apply has_prefix_eq in Hpre.
  assert (Hp0 : p <> []) by (intros ->; discriminate).
  destruct (Nat.lt_trichotomy (sd St s) (length p)) as [Hlt|[Heq|Hgt]].
  - exfalso. assert (E : internal St (firstn (sd St s) s) = true); [|congruence].
    assert (Hr : removelast p = firstn (length p - 1) s).
    { rewrite Hpre at 1. destruct (length p) as [|n] eqn:En; [destruct p; [congruence|discriminate]|].
      rewrite removelast_firstn_S by lia. f_equal. lia. }
    rewrite Hr in I1. eapply internal_down; [| |exact I1]; lia.
  - now rewrite Heq.
  - exfalso. specialize (S1 (length p) Hgt). rewrite <- Hpre in S1. congruence.
Qed.

Lemma slot_prefix s : has_prefix (slot s) s = true.
Proof. apply has_prefix_firstn. Qed.

(** The history with the writes to the slots in [D]. *)
Definition hist (D : bytes -> bool) : history := h ++ filter (fun kv => D (qpos St (fst kv))) U.
Notation mD D := (final_map (hist D)).
Notation SD D := (stems_of (hist D)).

Lemma hist_wf D : wf_history (hist D).
Proof.
  apply Forall_app. split; auto. apply Forall_forall. intros kv Hi. apply filter_In in Hi as [Hi _].
  unfold wf_history in WU. rewrite Forall_forall in WU. now apply WU.
Qed.

Lemma hist_map D k : mD D k = match (if D (qpos St k) then final_map U k else None) with Some v => Some v | None => m k end.
Proof. unfold hist. rewrite final_map_app, (final_map_filter (fun k => D (qpos St k))). reflexivity. Qed.

Lemma hist_stem D s : In s (SD D) <-> In s St \/ (D (slot s) = true /\ In s (stems_of U)).
Proof.
  unfold hist. rewrite !stems_of_In. split.
  - intros (kv & Hi & E). apply in_app_or in Hi as [Hi|Hi]; [left; eauto|right].
    apply filter_In in Hi as [Hi Hd]. rewrite qpos_slot, E in Hd. eauto.
  - intros [(kv & Hi & E)|(Hd & kv & Hi & E)]; exists kv; (split; [apply in_or_app|exact E]); auto.
    right. apply filter_In. split; auto. now rewrite qpos_slot, E.
Qed.

Lemma no_write k : is_key k -> ~ In (firstn 31 k) (stems_of U) -> final_map U k = None.
Proof.
  intros Hk Hn. destruct (final_map U k) as [v|] eqn:E; auto. exfalso. apply Hn. apply final_map_In in E.
  apply stems_of_In. now exists (k, v).
Qed.

Lemma stem_key s i : is_stem s -> 0 <= i < 256 -> is_key (s ++ [i]) /\ firstn 31 (s ++ [i]) = s.
Proof.
  intros [Hl Hb] Hi. split.
  - split; [rewrite app_length, Hl; reflexivity|]. apply Forall_app. split; [exact Hb|]. constructor; [exact Hi|constructor].
  - now apply firstn_app_exact.
Qed.

Lemma hyb_congr D D' q :
  (forall s, In s (stems_of U) -> has_prefix q s = true -> D (slot s) = D' (slot s)) ->
  Permutation (under (SD D) q) (under (SD D') q) /\
  (forall s, In s (under (SD D) q) -> same_leaves (mD D) (mD D') s).
Proof.
  intro H. split.
  - apply NoDup_Permutation; [apply under_NoDup, stems_wf, hist_wf|apply under_NoDup, stems_wf, hist_wf|].
    intro s. rewrite !under_In, !hist_stem. split; intros [[Hs|[Hd Hs]] Hq]; (split; [|exact Hq]); auto;
      right; (split; [|exact Hs]); rewrite <- Hd; [symmetry|]; auto.
  - intros s Hs i Hi. apply under_In in Hs as [Hs Hq].
    destruct (stem_key s i (wfS_stem _ _ (stems_wf _ (hist_wf D)) Hs) Hi) as [Hk Ek].
    rewrite !hist_map, !qpos_slot, Ek.
    destruct (in_dec bytes_dec s (stems_of U)) as [Hu|Hu].
    + now rewrite (H s Hu Hq).
    + rewrite no_write by (auto; now rewrite Ek). now destruct (D (slot s)), (D' (slot s)).
Qed.

Lemma hyb_cval D D' q :
  (forall s, In s (stems_of U) -> has_prefix q s = true -> D (slot s) = D' (slot s)) ->
  cval (mD D) (SD D) q = cval (mD D') (SD D') q.
Proof. intro H. destruct (hyb_congr D D' q H). now apply cval_congr. Qed.
Lemma hyb_inner D D' q :
  (forall s, In s (stems_of U) -> has_prefix q s = true -> D (slot s) = D' (slot s)) ->
  inner_comm (mD D) (SD D) q = inner_comm (mD D') (SD D') q.
Proof. intro H. destruct (hyb_congr D D' q H). now apply inner_comm_congr. Qed.

Lemma filter_all {X} (l : list X) : filter (fun _ => true) l = l.
Proof. induction l; cbn; congruence. Qed.
Lemma filter_none {X} (l : list X) : filter (fun _ => false) l = [].
Proof. induction l; cbn; congruence. Qed.
Lemma hist_all : hist (fun _ => true) = h ++ U.
Proof. unfold hist. now rewrite filter_all. Qed.
Lemma hist_none : hist (fun _ => false) = h.
Proof. unfold hist. now rewrite filter_none, app_nil_r. Qed.

Lemma hyb_internal D q : internal St q = true -> q <> [] -> (2 <= length (under (SD D) q))%nat.
Proof.
  intros I0 Hq. apply internal_many in I0; auto. etransitivity; [exact I0|].
  apply NoDup_incl_length; [apply under_NoDup, stems_wf, Wh|]. intros s Hs. apply under_In in Hs as [Hs Hp].
  apply under_In. split; auto. apply hist_stem. now left.
Qed.

Lemma inner_old q : internal St q = true -> inner_comm m St q = node_comm m St q.
Proof. intro I0. unfold node_comm. now rewrite node_vec_inner. Qed.

(** ** Updating one more slot *)
Section OneSlot.
Context (D : bytes -> bool) (p t : bytes) (Hp : stem_at St p = Some t) (HD : D p = false).
Definition D1 : bytes -> bool := fun x => D x || beqb x p.

Lemma os_pre : In t St /\ has_prefix p t = true /\ length t = 31%nat /\ p <> [].
Proof.
  destruct (stem_at_In St _ _ Hp) as [H1 H2]. split; auto. split; auto. split; [exact (wfS_len _ _ (stems_wf h Wh) H1)|].
  intros ->. apply stem_at_spec in Hp as (I0 & _). discriminate.
Qed.

Lemma os_byte j : (j < length p)%nat -> 0 <= nth j p 0 < 256.
Proof.
  intro Hj. destruct os_pre as (H1 & H2 & H3 & _). pose proof (has_prefix_length _ _ H2). apply has_prefix_eq in H2. rewrite H2, nth_firstn by exact Hj.
  apply (stem_byte t j); [|lia]. exact (wfS_stem _ _ (stems_wf h Wh) H1).
Qed.

Lemma os_int j : (j < length p)%nat -> internal St (firstn j p) = true.
Proof.
  intro Hj. destruct os_pre as (H1 & H2 & H3 & H0). apply stem_at_spec in Hp as (_ & I1 & _).
  destruct (exists_last H0) as (p' & x & E). rewrite E in *. rewrite removelast_last in I1.
  rewrite app_length in Hj. cbn [length] in Hj.
  rewrite firstn_app, (proj2 (Nat.sub_0_le j (length p'))) by lia. cbn [firstn]. rewrite app_nil_r.
  eapply (internal_down St p' j (length p')); [lia|lia|]. now rewrite firstn_all.
Qed.

Lemma os_slot s : length s = 31%nat -> slot s = p <-> has_prefix p s = true.
Proof. intro Hs. split; [intros <-; apply slot_prefix|]. now apply (slot_of p t). Qed.

Lemma stems_U_len s : In s (stems_of U) -> length s = 31%nat.
Proof. apply wfS_len, stems_wf, WU. Qed.

Lemma os_old : cval (mD D) (SD D) p = hash (node_comm m St p).
Proof.
  rewrite (hyb_cval D (fun _ => false)).
  - rewrite hist_none. apply stem_at_spec in Hp as Hu. rewrite (cval_one _ _ _ t) by apply Hu.
    unfold node_comm. now rewrite (node_vec_ext m St _ _ Hp).
  - intros s Hs Hq. apply stems_U_len in Hs. apply os_slot in Hq; auto. now rewrite Hq.
Qed.

Lemma os_new : cval (mD D1) (SD D1) p = cval (final_map (h ++ U)) (stems_of (h ++ U)) p.
Proof.
  rewrite (hyb_cval D1 (fun _ => true)).
  - now rewrite hist_all.
  - intros s Hs Hq. apply stems_U_len in Hs. apply os_slot in Hq; auto. unfold D1. rewrite Hq, beqb_refl. apply orb_true_r.
Qed.

Lemma os_other q : internal St q = true -> has_prefix q p = false ->
  inner_comm (mD D1) (SD D1) q = inner_comm (mD D) (SD D) q.
Proof.
  intros I0 Hq. apply hyb_inner. intros s Hs Hqs. unfold D1. destruct (beqb_spec (slot s) p) as [E|]; [|apply orb_false_r].
  exfalso. apply os_slot in E; [|now apply stems_U_len].
  apply has_prefix_spec in Hqs as (x & Ex). apply has_prefix_spec in E as (y & Ey). rewrite Ex in Ey.
  apply stem_at_spec in Hp as (I1 & _).
  assert (Hlen : (length p <= length q \/ length q <= length p)%nat) by lia.
  destruct Hlen as [Hle|Hle].
  - assert (E : q = p ++ skipn (length p) q).
    { rewrite <- (firstn_skipn (length p) q) at 1. f_equal.
      apply (f_equal (firstn (length p))) in Ey. rewrite firstn_app in Ey.
      rewrite (proj2 (Nat.sub_0_le _ _) Hle) in Ey. cbn [firstn] in Ey. rewrite app_nil_r, firstn_app_exact in Ey by reflexivity. exact Ey. }
    rewrite E in I0. apply internal_app in I0. congruence.
  - assert (has_prefix q p = true); [|congruence]. apply has_prefix_spec. exists (skipn (length q) p).
    rewrite <- (firstn_skipn (length q) p) at 1. f_equal.
    apply (f_equal (firstn (length q))) in Ey. rewrite firstn_app_exact, firstn_app in Ey by reflexivity.
    rewrite (proj2 (Nat.sub_0_le _ _) Hle) in Ey. cbn [firstn] in Ey. rewrite app_nil_r in Ey. now symmetry.
Qed.

Lemma os_delta j : (j < length p)%nat ->
  inner_comm (mD D1) (SD D1) (firstn j p) =
  gadd (inner_comm (mD D) (SD D) (firstn j p))
    (smul (fsub (cval (mD D1) (SD D1) (firstn (S j) p)) (cval (mD D) (SD D) (firstn (S j) p))) (crs (nth j p 0))).
Proof.
  intro Hj. assert (Es : firstn (S j) p = firstn j p ++ [nth j p 0]).
  { rewrite <- (firstn_skipn j (firstn (S j) p)). rewrite firstn_firstn, Nat.min_l by lia. f_equal.
    rewrite skipn_firstn_comm. replace (S j - j)%nat with 1%nat by lia. rewrite (skipn_nth_cons 0 j p Hj). reflexivity. }
  rewrite Es. unfold inner_comm at 1 2. apply (vcommit_upd (inner_vec (mD D) (SD D) (firstn j p)) (inner_vec (mD D1) (SD D1) (firstn j p))).
  - now apply os_byte.
  - intros b Hb Hne. change (cval (mD D1) (SD D1) (firstn j p ++ [b]) = cval (mD D) (SD D) (firstn j p ++ [b])).
    apply hyb_cval. intros s Hs Hq. unfold D1. destruct (beqb_spec (slot s) p) as [E|]; [|apply orb_false_r].
    exfalso. apply os_slot in E; [|now apply stems_U_len]. apply Hne.
    apply has_prefix_snoc in Hq as (_ & _ & <-). rewrite firstn_length_le by lia.
    apply has_prefix_eq in E. rewrite E, nth_firstn by exact Hj. reflexivity.
Qed.

(** Climbing from the slot to the root. *)
Context (comms : list (bytes * G)).
Definition lookup (updated : bmap G) (q : bytes) : option G :=
  match updated q with Some c => Some c | None => map_get q comms end.
Context (Hcomms : forall j, (j < length p)%nat -> map_get (firstn j p) comms <> None).

Lemma lookup_upd updated q c q' : lookup (upd updated q c) q' = if beqb q q' then Some c else lookup updated q'.
Proof.
  unfold lookup. destruct (beqb_spec q q') as [->|Hne]; [now rewrite upd_same|]. now rewrite upd_other.
Qed.

Lemma climb_prefix_ok j : (j <= length p)%nat -> forall updated cur,
  (forall q, internal St q = true -> map_get q comms <> None ->
     lookup updated q = Some (if has_prefix q p && (j <=? length q)%nat then inner_comm (mD D1) (SD D1) q else inner_comm (mD D) (SD D) q)) ->
  exists updated' cur', climb_prefix comms (rev (firstn j p)) updated (fsub (cval (mD D1) (SD D1) (firstn j p)) (cval (mD D) (SD D) (firstn j p))) cur
    = Ok (updated', cur') /\
   (forall q, internal St q = true -> map_get q comms <> None -> lookup updated' q = Some (inner_comm (mD D1) (SD D1) q)) /\
   cur' = match j with O => cur | _ => Some (inner_comm (mD D1) (SD D1) []) end.
Proof.
  induction j as [|j IH]; intros Hj updated cur Hl.
  - exists updated, cur. cbn [firstn rev climb_prefix]. split; [reflexivity|]. split; [|reflexivity]. intros q I0 Hq. rewrite (Hl q I0 Hq).
    destruct (has_prefix q p) eqn:E; cbn [andb Nat.leb]; [reflexivity|]. rewrite (os_other q I0 E). reflexivity.
  - assert (Er : rev (firstn (S j) p) = nth j p 0 :: rev (firstn j p)).
    { rewrite <- (rev_involutive (nth j p 0 :: _)). f_equal. cbn [rev]. rewrite rev_involutive.
      rewrite <- (firstn_skipn j (firstn (S j) p)) at 1. rewrite firstn_firstn, Nat.min_l by lia. f_equal.
      rewrite skipn_firstn_comm. replace (S j - j)%nat with 1%nat by lia. rewrite (skipn_nth_cons 0 j p) by lia. reflexivity. }
    rewrite Er. cbn [climb_prefix]. rewrite rev_involutive.
    pose proof (Hl (firstn j p) (os_int j Hj) (Hcomms j Hj)) as Hlj.
    rewrite firstn_length_le in Hlj by lia. rewrite (proj2 (Nat.leb_gt (S j) j)), andb_false_r in Hlj by lia.
    assert (Eold : match updated (firstn j p) with Some c => Ok c | None => unwrap (map_get (firstn j p) comms) end
                   = Ok (inner_comm (mD D) (SD D) (firstn j p))).
    { unfold lookup in Hlj. destruct (updated (firstn j p)) as [c|]; [injection Hlj as ->; reflexivity|]. exact (f_equal unwrap Hlj). }
    rewrite Eold. cbn [rbind]. unfold scalar_mul. rewrite <- os_delta by exact Hj.
    set (new := inner_comm (mD D1) (SD D1) (firstn j p)).
    assert (Edelta : fsub (hash new) (hash (inner_comm (mD D) (SD D) (firstn j p)))
       = fsub (cval (mD D1) (SD D1) (firstn j p)) (cval (mD D) (SD D) (firstn j p)) \/ j = 0%nat).
    { destruct j as [|j]; [now right|left]. destruct os_pre as (_ & _ & _ & H0).
      rewrite !cval_many; [reflexivity| | | |]; try apply stems_wf, hist_wf;
        (apply hyb_internal; [apply os_int; lia|]; destruct p; [congruence|discriminate]). }
    destruct (IH ltac:(lia) (upd updated (firstn j p) new) (Some new)) as (u' & cur' & E1 & E2 & E3).
    { intros q I0 Hq. rewrite lookup_upd. destruct (beqb_spec (firstn j p) q) as [<-|Hne].
      - rewrite firstn_length_le by lia. rewrite has_prefix_firstn, Nat.leb_refl. cbn [andb]. reflexivity.
      - rewrite (Hl q I0 Hq).
        destruct (has_prefix q p) eqn:E; cbn [andb]; [|reflexivity].
        assert (length q <> j).
        { intros <-. apply Hne. symmetry. now apply has_prefix_eq. }
        assert (Eb : (S j <=? length q)%nat = (j <=? length q)%nat).
        { destruct (Nat.leb_spec (S j) (length q)), (Nat.leb_spec j (length q)); try reflexivity; exfalso; lia. }
        rewrite Eb. reflexivity. }
    destruct Edelta as [Ed|Ez].
    + rewrite Ed, E1. exists u', cur'. split; [reflexivity|]. split; [exact E2|]. rewrite E3. destruct j; reflexivity.
    + subst j. cbn [firstn rev climb_prefix] in E1 |- *. injection E1 as <- <-. eexists _, _. split; [reflexivity|]. split; [exact E2|reflexivity].
Qed.

Lemma update_prefix_ok (T : Sparse) :
  (forall q, internal St q = true -> map_get q comms <> None -> lookup (sp_updated T) q = Some (inner_comm (mD D) (SD D) q)) ->
  exists T', update_prefix comms T p (hash (node_comm m St p)) (cval (final_map (h ++ U)) (stems_of (h ++ U)) p) = Ok (Some T') /\
  (forall q, internal St q = true -> map_get q comms <> None -> lookup (sp_updated T') q = Some (inner_comm (mD D1) (SD D1) q)) /\
  sp_root T' = inner_comm (mD D1) (SD D1) [].
Proof.
  intro Hl. unfold update_prefix. destruct os_pre as (_ & _ & _ & H0).
  assert (Em : forall X (a b : X), match p with [] => a | _ :: _ => b end = b) by (intros; destruct p; congruence).
  rewrite Em. rewrite <- os_old, <- os_new.
  destruct (climb_prefix_ok (length p) (le_n _) (sp_updated T) None) as (u' & cur' & E1 & E2 & E3).
  { intros q I0 Hq. rewrite (Hl q I0 Hq). destruct (has_prefix q p) eqn:E; cbn [andb]; [|reflexivity].
    destruct (Nat.leb_spec (length p) (length q)); [|reflexivity]. exfalso.
    pose proof (has_prefix_length _ _ E). assert (E' : q = p) by (apply has_prefix_same_len; auto; lia).
    subst q. apply stem_at_spec in Hp as (I1 & _). congruence. }
  rewrite firstn_all in E1. rewrite E1. cbn [rbind].
  destruct p as [|x p0] eqn:Ep; [congruence|]. cbn [length] in E3. subst cur'. cbn [unwrap rbind].
  eexists. split; [reflexivity|]. split; [exact E2|reflexivity].
Qed.
End OneSlot.
End Hybrid.
