(** The prover of a trie on disk whose flushed values were written again (C69). *)
From Coq Require Import Permutation Ring.
From Verif Require Import Base BaseFacts Alg AlgFacts TreeSpec TreeFacts TrieModel TrieProofs TrieTheorems BTree
  CodecModel VerkleDbModel DbSpec VerkleDbProofs VerkleDbSim VerkleDbTheorems WireModel ProofModel ProofSpec PathProofs OpeningProofs
  IpaModel LagrangeSpec IpaSpec MultiProofs CheckProofs
  DiskProof CollisionSpec CollisionProofs RewriteSpec RewriteSim RewriteProofs RewriteFacts RewriteTruth RewriteProofSpec RewriteProver.
Notation len := List.length.

Section Told.
Context {A : Alg} {L : AlgLaws A} {P : Par A} {PL : ParLaws P} {C : Codec A} {CL : CodecLaws C} {EC : ECodec A} {H : Hasher}.
Opaque vcommit gsum subtree_hash.
Add Ring FringTo : (@F_ring A L).

(** Everything a prover reads. *)
Lemma rewritten_reads l : wf_ops l -> settled_ops l ->
  exists v b c, run_disk l = Ok v /\ run_mem (tallied l) = Ok b /\ run_mem (contents l) = Ok c /\
    Canon b (final_map (tallied l)) (stems_of (contents l)) /\ Canon c (final_map (contents l)) (stems_of (contents l)) /\
    (forall k, get_leaf v k = get_leaf c k) /\ (forall s, get_stem_meta v s = get_stem_meta b s) /\
    (forall p, get_branch_meta v p = get_branch_meta b p) /\ (forall p i, get_branch_child v p i = get_branch_child b p i) /\
    (forall k, hd_error (counted l k) = final_map (contents l) k).
Proof.
  intros Hwf Hst. destruct (rewrite_run l Hwf Hst) as (v & E & [(gdb & HG) _ IH _ _ _ _ _ _]).
  rewrite <- contents_eq in HG. assert (Hh : forall k, hd_error (counted l k) = final_map (contents l) k) by (intros k; rewrite contents_eq; apply IH).
  pose proof (tallied_map l Hh) as Ht.
  assert (Cn : Canon gdb (final_map (tallied l)) (stems_of (contents l))).
  { refine (Canon_ext _ _ _ _ _ _ (Permutation_refl _) (gs_canon _ _ _ _ _ _ HG)). intros k. symmetry. apply Ht. }
  destruct (run_mem_canon (tallied l) (tallied_wf l Hwf)) as (b & Eb & Cb). unfold HCanon in Cb. rewrite tallied_stems in Cb.
  destruct (run_mem_canon (contents l) (contents_wf l Hwf)) as (c & Ec & Cc).
  exists v, b, c. split; [exact E|]. split; [exact Eb|]. split; [exact Ec|]. split; [exact Cb|]. split; [exact Cc|].
  destruct (canon_same _ _ _ _ Cn Cb) as (_ & T2 & T3). pose proof (gs_trunk _ _ _ _ _ _ HG) as T.
  split; [|split; [|split; [|split; [|exact Hh]]]].
  - intro k. cbn [get_leaf verkle_db_ops memory_db_ops]. unfold mem_get_leaf. rewrite (gs_leaf _ _ _ _ _ _ HG), (can_leaf _ _ _ Cc). reflexivity.
  - intro s. cbn [get_stem_meta verkle_db_ops memory_db_ops]. unfold mem_get_stem_meta. now rewrite (tr_stem _ _ T), T2.
  - intro p. cbn [get_branch_meta verkle_db_ops memory_db_ops]. rewrite (tr_meta _ _ T). unfold mem_get_branch_meta. now rewrite T3.
  - intros p i. cbn [get_branch_child verkle_db_ops memory_db_ops]. unfold mem_get_branch_child. now rewrite (tr_child _ _ T), T3.
Qed.

(** The queries are those of the trie of the tallied contents, with the values that are read put in. *)
Theorem rewritten_parts l keys : wf_ops l -> settled_ops l -> keys <> [] -> Forall is_key keys ->
  exists v b qs hint comms, run_disk l = Ok v /\ run_mem (tallied l) = Ok b /\
    create_proof_parts b keys = Ok (Some (qs, hint, comms)) /\
    create_proof_parts v keys =
      Ok (Some (all_with_values (final_map (contents l)) (stems_of (contents l)) (all_entries (stems_of (contents l)) keys) qs, hint, comms)) /\
    root_commitment v = root_commitment b.
Proof.
  intros Hwf Hst Hne Hk. destruct (rewritten_reads l Hwf Hst) as (v & b & c & E & Eb & _ & Cb & Cc & R1 & R2 & R3 & R4 & Hh).
  assert (Hd : forall k, final_map (contents l) k = None <-> final_map (tallied l) k = None).
  { intro k. rewrite (tallied_map l Hh). symmetry. exact (head_dom _ _ Hh k). }
  destruct (parts_mixed v b c _ _ _ Cb Cc R1 R2 R3 R4 Hd keys Hk Hne) as (qs & hint & comms & P1 & P2 & _).
  exists v, b, qs, hint, comms. split; [exact E|]. split; [exact Eb|]. split; [exact P1|]. split; [exact P2|].
  unfold root_commitment. now rewrite R3.
Qed.

Lemma untouched_same l k : (forall k, hd_error (counted l k) = final_map (contents l) k) -> untouched l k ->
  forall k', half_mates k k' -> final_map (tallied l) k' = final_map (contents l) k'.
Proof.
  intros Hh Hu k' Hm. rewrite (tallied_map l Hh), <- Hh. specialize (Hu k' Hm).
  destruct (counted l k') as [|x [|y c]]; cbn in *; auto; lia.
Qed.

Lemma half_entry l k i : (forall k, hd_error (counted l k) = final_map (contents l) k) -> untouched l k -> is_key k ->
  let s := nth 31 k 0 in
  suffix_vec (final_map (contents l)) (firstn 31 k) (hsel s - 2) (Z.of_nat i) =
  suffix_vec (final_map (tallied l)) (firstn 31 k) (hsel s - 2) (Z.of_nat i) \/ (256 <= i)%nat.
Proof.
  intros Hh Hu Hk s. destruct (Nat.lt_ge_cases i 256) as [Hi|Hi]; [left|right; exact Hi].
  unfold suffix_vec. set (x := 128 * (hsel s - 2) + Z.of_nat i / 2).
  assert (E : final_map (tallied l) (firstn 31 k ++ [x]) = final_map (contents l) (firstn 31 k ++ [x])).
  { apply (untouched_same l k Hh Hu). unfold half_mates.
    assert (Hl : length (firstn 31 k) = 31%nat) by apply (key_stem k Hk).
    split.
    - rewrite firstn_app, Hl, Nat.sub_diag, app_nil_r, firstn_firstn. reflexivity.
    - rewrite app_nth2, Hl, Nat.sub_diag by (unfold bytes in *; lia). cbn [nth]. unfold x, hsel, s.
      assert (0 <= Z.of_nat i / 2 < 128) by (split; [apply Z.div_pos; lia|apply Z.div_lt_upper_bound; lia]).
      destruct (Z.ltb_spec (nth 31 k 0) 128); [apply Z.ltb_lt|apply Z.ltb_ge]; lia. }
  now rewrite E.
Qed.

(** Keys whose half stems were left alone are proved with their values. *)
Theorem untouched_accepted l keys order : domain_fits 256 -> wf_ops l -> settled_ops l -> keys <> [] -> Forall is_key keys ->
  Forall (untouched l) keys -> distinguishable (final_map (tallied l)) (stems_of (contents l)) keys ->
  (forall l, Permutation (order l) l) ->
  exists v qs hint comms root, run_disk l = Ok v /\ create_proof_parts v keys = Ok (Some (qs, hint, comms)) /\
    root_commitment v = Ok root /\ Forall true_opening qs /\
    (usable_challenges qs -> exists p uh,
       create_verkle_proof order v keys = Ok (Some p) /\ vp_hint p = hint /\ vp_comms p = comms /\
       proof_check p keys (map (final_map (contents l)) keys) root = Ok (true, Some uh)).
Proof.
  intros Dom Hwf Hst Hne Hk Hu Hd Ho.
  destruct (rewritten_reads l Hwf Hst) as (v & b & c & E & Eb & _ & Cb & Cc & R1 & R2 & R3 & R4 & Hh).
  set (St := stems_of (contents l)) in *.
  assert (Hdm : forall k, final_map (contents l) k = None <-> final_map (tallied l) k = None).
  { intro k. rewrite (tallied_map l Hh). symmetry. exact (head_dom _ _ Hh k). }
  destruct (parts_mixed v b c _ _ _ Cb Cc R1 R2 R3 R4 Hdm keys Hk Hne) as (qs & hint & comms & P1 & P2 & F1 & F2).
  assert (Esame : all_with_values (final_map (contents l)) St (all_entries St keys) qs = qs).
  { assert (Hin : forall e, In e (all_entries St keys) -> holds_values St (fst e) = true ->
       exists k, In k keys /\ stem_at St (qpos St k) = Some (firstn 31 k) /\ fst e = qpos St k ++ [hsel (nth 31 k 0)] /\ 0 <= snd e < 256).
    { intros [p z] He Hv. unfold all_entries in He. rewrite In_set_of in He. apply in_flat_map in He as (k & Hkin & He).
      rewrite Forall_forall in Hk. specialize (Hk k Hkin). apply (entries_cases St k p z Hk) in He.
      assert (Hl : length (firstn 31 k) = 31%nat) by apply (key_stem k Hk).
      destruct (sd_spec St (firstn 31 k) (can_wf _ _ _ Cb) Hl) as (Hi & _ & _).
      unfold holds_values in Hv. cbn [fst snd] in *.
      destruct He as [(i & Hlt & -> & _)|[(-> & t & Ht & _)|(-> & Ht & Hz)]].
      - rewrite (Hi i Hlt) in Hv. discriminate.
      - rewrite Ht, andb_false_r in Hv. discriminate.
      - exists k. split; [exact Hkin|]. split; [exact Ht|]. split; [reflexivity|].
        assert (0 <= nth 31 k 0 mod 128 < 128) by (apply Z.mod_pos_bound; lia). lia. }
    assert (Hq : forall e q, In e (all_entries St keys) -> opens (final_map (tallied l)) St e q ->
       poly_of (final_map (tallied l)) St e q -> with_values (final_map (contents l)) St e q = q).
    { intros e q He (Hc & Hp & Hr & _ & _) Hpoly. unfold with_values. unfold poly_of in Hpoly.
      destruct (holds_values St (fst e)) eqn:Ev; [|reflexivity]. specialize (Hpoly eq_refl).
      destruct (Hin e He Ev) as (k & Hkin & Ht & Ep & Hz).
      rewrite Forall_forall in Hk, Hu. specialize (Hk k Hkin). specialize (Hu k Hkin).
      assert (Hn : forall i, (i < 256)%nat -> node_vec (final_map (contents l)) St (fst e) (Z.of_nat i) = node_vec (final_map (tallied l)) St (fst e) (Z.of_nat i)).
      { intros i Hi. rewrite Ep, !(node_vec_suffix _ St _ _ _ Ht).
        destruct (half_entry l k i Hh Hu Hk) as [X|X]; [exact X|lia]. }
      destruct q as [qc qf qp qr]. cbn [pq_comm pq_poly pq_point pq_result] in *. f_equal.
      - rewrite Hpoly. apply map_ext_in. intros i Hi. apply in_seq in Hi. apply Hn. lia.
      - rewrite Hr. rewrite <- (Z2Nat.id (snd e)) by lia. apply Hn. lia. }
    clear - Hq F1 F2. revert Hq F1 F2. generalize (all_entries St keys). intros es Hq F1.
    unfold all_with_values. induction F1 as [|e q es qs Ho F1 IH]; intro F2; cbn [combine map]; [reflexivity|].
    inversion F2 as [|? ? ? ? Hp F2']; subst. cbn [fst snd]. rewrite Hq; [|now left|exact Ho|exact Hp]. f_equal.
    apply IH; auto. intros. apply Hq; auto. now right. }
  rewrite Esame in P2.
  assert (Hd' : distinguishable (final_map (tallied l)) (stems_of (tallied l)) keys) by (rewrite tallied_stems; exact Hd).
  destruct (honest_accepted Dom (tallied l) b keys order (tallied_wf l Hwf) Eb Hne Hk Hd' Ho) as (qs' & hint' & comms' & root & Q1 & Q2 & Q3).
  rewrite P1 in Q1.
  assert (Ok3 : forall (u u' : list ProverQuery) (x x' : VerificationHint) (w w' : list G),
    Ok (Some (u, x, w)) = Ok (Some (u', x', w')) -> u = u' /\ x = x' /\ w = w')
    by (intros u u' x x' w w' X; injection X; auto).
  apply Ok3 in Q1 as (<- & <- & <-).
  exists v, qs, hint, comms, root. split; [exact E|]. split; [exact P2|].
  split; [unfold root_commitment in *; now rewrite R3|]. split.
  { clear - F1. induction F1 as [|e q es qs (_ & _ & _ & _ & X) F1 IH]; constructor; auto. }
  intro Us. destruct (Q3 Us) as (p & uh & S1 & S2 & S3 & S4). exists p, uh.
  split; [|split; [exact S2|split; [exact S3|]]].
  - revert S1. unfold create_verkle_proof. rewrite P1, P2. exact (fun x => x).
  - rewrite <- S4. f_equal. apply map_ext_in. intros k Hkin. symmetry.
    rewrite Forall_forall in Hu. apply (untouched_same l k Hh (Hu k Hkin)). split; reflexivity.
Qed.

(** A half stem in which a flushed value was changed: the prover opens it to values its commitment is not for. *)
Theorem touched_false l keys k k' : (forall a, 0 < a < 2 ^ 248 -> of_Z a <> fzero) -> wf_ops l -> settled_ops l ->
  (forall k v, In (OInsert k v) l -> is_value v) -> Z.of_nat (len l) < 2 ^ 100 ->
  Forall is_key keys -> In k keys -> is_key k' -> half_mates k k' -> (2 <= len (counted l k'))%nat ->
  exists v qs hint comms, run_disk l = Ok v /\ create_proof_parts v keys = Ok (Some (qs, hint, comms)) /\
    ((exists q, In q qs /\ ~ true_opening q) \/
     (exists j z, 0 <= z < 256 /\
        suffix_vec (final_map (contents l)) (firstn 31 k) j z <> suffix_vec (final_map (tallied l)) (firstn 31 k) j z /\
        vcommit (suffix_vec (final_map (contents l)) (firstn 31 k) j) = vcommit (suffix_vec (final_map (tallied l)) (firstn 31 k) j))).
Proof.
  intros Fit Hwf Hst Hval Hlen Hk Hkin Hk' [Hm1 Hm2] H2.
  destruct (rewritten_reads l Hwf Hst) as (v & b & c & E & Eb & _ & Cb & Cc & R1 & R2 & R3 & R4 & Hh).
  set (St := stems_of (contents l)) in *.
  assert (Hne : keys <> []) by (intro X; subst keys; exact Hkin).
  assert (Hdm : forall k, final_map (contents l) k = None <-> final_map (tallied l) k = None).
  { intro x. rewrite (tallied_map l Hh). symmetry. exact (head_dom _ _ Hh x). }
  destruct (parts_mixed v b c _ _ _ Cb Cc R1 R2 R3 R4 Hdm keys Hk Hne) as (qs & hint & comms & P1 & P2 & F1 & F2).
  do 4 eexists. split; [exact E|]. split; [exact P2|].
  assert (Hkk : is_key k) by (rewrite Forall_forall in Hk; exact (Hk k Hkin)).
  set (s := nth 31 k 0) in *. set (s' := nth 31 k' 0) in *. set (t := firstn 31 k) in *.
  assert (Ek' : k' = t ++ [s']) by (rewrite <- Hm1; apply TrieProofs.key_split; exact Hk').
  destruct (final_map (contents l) k') as [x|] eqn:Ex; [|rewrite <- Hh in Ex; destruct (counted l k'); [cbn in H2; lia|discriminate]].
  assert (Hin : In t St).
  { rewrite <- Hm1. apply (can_keys _ _ _ Cc k' x Ex). }
  assert (Hst' : stem_at St (qpos St k) = Some t).
  { unfold qpos. fold t. exact (end_stem_self b _ St Cb t Hin). }
  set (p := qpos St k ++ [hsel s]). set (z := 2 * (s mod 128)).
  assert (He : In (p, z) (all_entries St keys)).
  { unfold all_entries. rewrite In_set_of. apply in_flat_map. exists k. split; [exact Hkin|].
    apply (entries_cases St k p z Hkk). right. right. split; [reflexivity|]. split; [exact Hst'|]. left. reflexivity. }
  assert (Hq : exists q, In q qs /\ In (with_values (final_map (contents l)) St (p, z) q) (all_with_values (final_map (contents l)) St (all_entries St keys) qs) /\
     opens (final_map (tallied l)) St (p, z) q).
  { clear - F1 He. revert He. unfold all_with_values. induction F1 as [|e q es qs Ho F1 IH]; intro He; [destruct He|].
    destruct He as [->|He].
    - exists q. split; [now left|]. split; [now left|exact Ho].
    - destruct (IH He) as (q' & I1 & I2 & I3). exists q'. split; [now right|]. split; [now right|exact I3]. }
  destruct Hq as (q & _ & Hw & (Hc & _ & _ & _ & _)).
  assert (Hv : holds_values St p = true).
  { unfold holds_values, p. rewrite (stem_at_below St _ t _ Hst'), (stem_at_child St _ t _ Hst'). reflexivity. }
  pose proof (node_vec_suffix (final_map (tallied l)) St (qpos St k) t (hsel s) Hst') as Ng. fold p in Ng.
  pose proof (node_vec_suffix (final_map (contents l)) St (qpos St k) t (hsel s) Hst') as Nm. fold p in Nm.
  unfold with_values in Hw. cbn [fst snd] in Hw. rewrite Hv in Hw.
  (* the entry of the changed key *)
  assert (Bs' : is_byte s') by (apply (key_byte k' 31 Hk'); lia).
  assert (Hj : hsel s - 2 = s' / 128).
  { unfold hsel. rewrite <- Hm2. unfold is_byte in Bs'. destruct (Z.ltb_spec s' 128).
    - rewrite Z.div_small by lia. reflexivity.
    - replace (s' / 128) with 1 by (apply Z.div_unique with (s' - 128); lia). reflexivity. }
  destruct (suffix_vec_low (final_map (contents l)) t s' Bs') as [Lm _].
  destruct (suffix_vec_low (final_map (tallied l)) t s' Bs') as [Lg _].
  rewrite <- Hj in Lm, Lg. rewrite <- Ek' in Lm, Lg.
  assert (Hdiff : leaf_low (final_map (contents l) k') <> leaf_low (final_map (tallied l) k')).
  { assert (Hcv : forall y, In y (counted l k') -> is_value y).
    { intros y Hy. apply (Hval k' y). apply counted_written. left; exact Hy. }
    assert (Hlc : Z.of_nat (len (counted l k')) < 2 ^ 100).
    { destruct (counted_length l k') as [X _]. unfold counted. generalize dependent (2 ^ 100). intros. lia. }
    rewrite (tallied_map l Hh), sum_low, fsum_low, <- Hh.
    destruct (counted l k') as [|y0 [|y1 cs]] eqn:Ec; [cbn in H2; lia|cbn in H2; lia|].
    assert (P0 : 0 < 2 ^ 128) by reflexivity.
    assert (P1' : 2 ^ 128 * 2 ^ 100 + 2 ^ 128 * 2 ^ 100 < 2 ^ 248) by reflexivity.
    pose proof (zsum_bound low_int (2 ^ 128) (y0 :: y1 :: cs) (fun y Hy => value_low_int y (Hcv y Hy)) P0) as Hz.
    pose proof (value_low_int y0 (Hcv y0 (or_introl eq_refl))) as By.
    set (n := Z.of_nat (len (y0 :: y1 :: cs))) in *.
    assert (Hn : 2 <= n) by (unfold n; cbn [length]; lia).
    assert (Y : 2 ^ 128 * n <= 2 ^ 128 * 2 ^ 100) by (apply Z.mul_le_mono_nonneg_l; lia).
    assert (Y2 : 2 ^ 128 * 2 <= 2 ^ 128 * n) by (apply Z.mul_le_mono_nonneg_l; lia).
    cbn [hd_error leaf_low]. rewrite <- of_Z_add. fold (low_int y0).
    set (u := low_int y0 + 2 ^ 128) in *. set (w := zsum (map low_int (y0 :: y1 :: cs)) + 2 ^ 128 * n) in *.
    assert (Huw : 0 <= u < w /\ w < 2 ^ 248).
    { unfold u, w. generalize dependent (2 ^ 128 * 2 ^ 100). generalize dependent (2 ^ 128 * n). generalize dependent (2 ^ 248).
      generalize dependent (2 ^ 128). generalize (zsum (map low_int (y0 :: y1 :: cs))). intros. lia. }
    intro X. apply (Fit (w - u)); [lia|]. rewrite of_Z_sub, <- X. ring. }
  destruct (G_dec (vcommit (suffix_vec (final_map (contents l)) t (hsel s - 2))) (vcommit (suffix_vec (final_map (tallied l)) t (hsel s - 2)))) as [Eq|Nq].
  - right. exists (hsel s - 2), (2 * (s' mod 128)). split.
    { assert (0 <= s' mod 128 < 128) by (apply Z.mod_pos_bound; lia). lia. }
    split; [rewrite Lm, Lg; exact Hdiff|exact Eq].
  - left. eexists. split; [exact Hw|]. intros (_ & _ & T & _). cbn [pq_comm pq_poly] in T. apply Nq.
    rewrite Hc in T. cbn [fst] in T. unfold node_comm in T. rewrite Ng in T. rewrite T. apply vcommit_ext.
    intros i Hi. rewrite (nth_indep _ fzero (node_vec (final_map (contents l)) St p (Z.of_nat 0))) by (rewrite map_length, seq_length; lia).
    rewrite (map_nth (fun j => node_vec (final_map (contents l)) St p (Z.of_nat j))), seq_nth by lia.
    cbn [Nat.add]. rewrite Z2Nat.id by lia. now rewrite Nm.
Qed.
End Told.
