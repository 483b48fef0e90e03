(** Tries with the same root hash, on disk and in memory. *)
From Coq Require Import Permutation.
From Verif Require Import Base BaseFacts Alg AlgFacts TreeSpec TreeFacts TrieModel TrieProofs TrieTheorems
  CodecModel VerkleDbModel DbSpec VerkleDbProofs VerkleDbSim TruthSpec TruthTheorems CollisionSpec CollisionProofs
  RewriteSpec RewriteSim RewriteProofs RewriteFacts AgreeSpec.
Local Open Scope list_scope.
Local Notation len := length.

Section Agree.
Context {A : Alg} {L : AlgLaws A} {P : Par A} {PL : ParLaws P} {C : Codec A} {CL : CodecLaws C}.
Add Ring Fring_ag : (F_ring (A := A)).

(** ** The root depends on the scalars of the leaves only *)
Definition same_scalars (m m2 : bytes -> option bytes) : Prop :=
  forall k, leaf_low (m k) = leaf_low (m2 k) /\ leaf_high (m k) = leaf_high (m2 k).
Lemma suffix_scalars m m2 s j : same_scalars m m2 -> suffix_comm m s j = suffix_comm m2 s j.
Proof.
  intros H. apply vcommit_ext. intros i _. unfold suffix_vec. destruct (H (s ++ [128 * j + i / 2])) as [-> ->]. reflexivity.
Qed.
Lemma ext_scalars m m2 s : same_scalars m m2 -> ext_comm m s = ext_comm m2 s.
Proof.
  intros H. apply vcommit_ext. intros i _. unfold ext_vec. rewrite !(suffix_scalars m m2 s _ H). reflexivity.
Qed.
Lemma subtree_scalars m m2 S n : same_scalars m m2 -> forall p, subtree_hash n m S p = subtree_hash n m2 S p.
Proof.
  intros H. induction n as [|n IH]; intros p; cbn [subtree_hash]; destruct (under S p) as [|s [|t u]].
  - reflexivity.
  - now rewrite (ext_scalars m m2 s H).
  - reflexivity.
  - reflexivity.
  - now rewrite (ext_scalars m m2 s H).
  - f_equal. apply vcommit_ext. intros i _. apply IH.
Qed.
Lemma root_scalars m m2 S : same_scalars m m2 -> spec_root m S = spec_root m2 S.
Proof. intros H. apply vcommit_ext. intros i _. unfold inner_vec. now apply subtree_scalars. Qed.

(** ** Entries *)
Lemma Some_inj {X} (a b : X) : Some a = Some b -> a = b.
Proof. intros [= ->]. reflexivity. Qed.
Lemma zsum_marked c : zsum (map (fun v => 2 ^ 128 + low_int v) c) = zsum (map low_int c) + 2 ^ 128 * Z.of_nat (len c).
Proof.
  generalize (2 ^ 128). intro M. induction c as [|v c IH]; [cbn; lia|]. cbn [map zsum length]. rewrite IH. lia.
Qed.
Lemma entry_low t : leaf_low (Some (total_entry t)) = of_Z (fst t).
Proof.
  unfold total_entry. cbn [leaf_low]. rewrite le_Z_head, <- of_Z_add. f_equal. generalize (2 ^ 128). intro. lia.
Qed.
Lemma entry_high t : leaf_high (Some (total_entry t)) = of_Z (snd t).
Proof.
  unfold total_entry. cbn [leaf_high]. replace (snd t :: repeat 0 15) with (snd t :: repeat 0 15 ++ []) by now rewrite app_nil_r.
  rewrite le_Z_second. reflexivity.
Qed.
Lemma entry_inj t u : total_entry t = total_entry u -> t = u.
Proof.
  destruct t as [a b], u as [a2 b2]. unfold total_entry. cbn [fst snd repeat app]. generalize (2 ^ 128). intros M E.
  injection E as E1 E2. f_equal; lia.
Qed.

Lemma summed_map l : (forall k, hd_error (counted l k) = final_map (contents l) k) ->
  forall k, final_map (summed l) k = option_map total_entry (totals l k).
Proof.
  intros H k. destruct (totals l k) as [t|] eqn:E; cbn [option_map].
  - assert (X : In k (map fst (contents l))).
    { unfold totals in E. destruct (counted l k) as [|y c] eqn:Ec; [discriminate E|]. specialize (H k). rewrite Ec in H. cbn in H. symmetry in H.
      apply final_map_In in H. apply in_map_iff. exists (k, y). auto. }
    assert (Y : exists w, final_map (summed l) k = Some w).
    { apply in_map_iff in X as ([k0 y] & <- & Hin). eapply final_map_some. unfold summed. apply in_map_iff. exists (k0, y). split; [reflexivity|exact Hin]. }
    destruct Y as [w Hw]. rewrite Hw. apply final_map_In in Hw. unfold summed in Hw. apply in_map_iff in Hw as ([k0 y] & Ek & _).
    cbn [fst] in Ek. injection Ek as -> Ek. rewrite E in Ek. now rewrite Ek.
  - destruct (final_map (summed l) k) as [w|] eqn:Ew; [|reflexivity]. exfalso.
    apply final_map_In in Ew. unfold summed in Ew. apply in_map_iff in Ew as ([k0 y] & Ek & Hin). cbn [fst] in Ek. injection Ek as -> _.
    unfold totals in E. specialize (H k). destruct (counted l k); [|discriminate E]. cbn in H. symmetry in H.
    destruct (final_map_some _ _ _ Hin) as [z Hz]. congruence.
Qed.
Lemma summed_stems l : stems_of (summed l) = stems_of (contents l).
Proof. unfold stems_of, summed. rewrite map_map. reflexivity. Qed.
Lemma mapped_wf (f : bytes -> bytes) h : wf_history h -> wf_history (map (fun kv => (fst kv, f (fst kv))) h).
Proof.
  unfold wf_history. rewrite !Forall_forall. intros H kv Hin. apply in_map_iff in Hin as (kw & <- & Hin). exact (H kw Hin).
Qed.
Lemma summed_wf l : wf_ops l -> wf_history (summed l).
Proof.
  intros W. unfold summed. apply (mapped_wf (fun k => match totals l k with Some t => total_entry t | None => [] end)). now apply contents_wf.
Qed.
Lemma tallied_wf l : wf_ops l -> wf_history (tallied l).
Proof.
  intros W. unfold tallied. apply (mapped_wf (fun k => match sum_entry (counted l k) with Some t => t | None => [] end)). now apply contents_wf.
Qed.

Lemma summed_scalars l : (forall k, hd_error (counted l k) = final_map (contents l) k) ->
  same_scalars (final_map (tallied l)) (final_map (summed l)).
Proof.
  intros H k. rewrite (tallied_map l H), (summed_map l H), sum_low, sum_high, fsum_low, fsum_high, <- zsum_marked.
  unfold totals. destruct (counted l k) as [|y c]; [cbn; rewrite of_Z_0; split; reflexivity|].
  cbn [option_map]. rewrite entry_low, entry_high. split; reflexivity.
Qed.

(** The root of a trie on disk, from the totals. *)
Lemma summed_root l : wf_ops l -> settled_ops l ->
  exists v, run_disk l = Ok v /\ (forall k, trie_get v k = Ok (final_map (contents l) k)) /\
    root_commitment v = Ok (spec_root (final_map (summed l)) (stems_of (summed l))) /\
    root_hash v = Ok (hash (spec_root (final_map (summed l)) (stems_of (summed l)))) /\
    (forall k, hd_error (counted l k) = final_map (contents l) k).
Proof.
  intros W S. destruct (rewrite_exact l W S) as (v & E & G & Rc & Rh & Hh & _). exists v. split; [exact E|]. split; [exact G|].
  rewrite Rc, Rh, summed_stems, (root_scalars _ _ _ (summed_scalars l Hh)). split; [reflexivity|]. split; [reflexivity|exact Hh].
Qed.

(** ** The same totals: the same roots *)
Lemma totals_root l1 l2 : wf_ops l1 -> settled_ops l1 -> wf_ops l2 -> settled_ops l2 ->
  (forall k, totals l1 k = totals l2 k) ->
  exists v1 v2, run_disk l1 = Ok v1 /\ run_disk l2 = Ok v2 /\
    root_commitment v1 = root_commitment v2 /\ root_hash v1 = root_hash v2.
Proof.
  intros W1 S1 W2 S2 H. destruct (summed_root l1 W1 S1) as (v1 & E1 & _ & C1 & H1 & Hd1).
  destruct (summed_root l2 W2 S2) as (v2 & E2 & _ & C2 & H2 & Hd2). exists v1, v2. split; [exact E1|]. split; [exact E2|].
  assert (X : forall k, final_map (summed l1) k = final_map (summed l2) k).
  { intros k. rewrite (summed_map l1 Hd1), (summed_map l2 Hd2), H. reflexivity. }
  rewrite C1, C2, H1, H2, (spec_root_congr _ _ _ _ X (stems_of_perm _ _ X)). split; reflexivity.
Qed.

(** ** The same root hash: the same totals *)
Hypothesis Fit : forall a, 0 < a < 2 ^ 248 -> of_Z a <> fzero.

Lemma of_Z_apart a b : 0 <= a < 2 ^ 248 -> 0 <= b < 2 ^ 248 -> of_Z a = of_Z b -> a = b.
Proof.
  intros Ha Hb E. destruct (Z.lt_trichotomy a b) as [X|[X|X]]; [|exact X|]; exfalso.
  - apply (Fit (b - a)); [lia|]. rewrite of_Z_sub, E. ring.
  - apply (Fit (a - b)); [lia|]. rewrite of_Z_sub, E. ring.
Qed.
Lemma value_high_int v : is_value v -> 0 <= high_int v < 2 ^ 128.
Proof.
  intros [Lv Bv]. unfold high_int. pose proof (le_Z_bound (firstn 16 (skipn 16 v)) (is_bytes_firstn 16 _ (is_bytes_skipn 16 v Bv))) as X.
  rewrite firstn_length, skipn_length, Lv in X. exact X.
Qed.

(** The totals of a history of fewer than 2^100 operations fit in the field. *)
Lemma totals_bound l k t : (forall k v, In (OInsert k v) l -> is_value v) -> Z.of_nat (len l) < 2 ^ 100 -> totals l k = Some t ->
  2 ^ 128 * Z.of_nat (len (counted l k)) <= fst t < 2 ^ 248 /\ 0 <= snd t < 2 ^ 248 /\ 1 <= Z.of_nat (len (counted l k)).
Proof.
  intros Hval Hlen E.
  assert (Hv : forall y, In y (counted l k) -> is_value y) by (intros y Hy; apply (Hval k y); apply counted_written; left; exact Hy).
  assert (Lc : Z.of_nat (len (counted l k)) < 2 ^ 100).
  { destruct (counted_length l k) as [X _]. unfold counted. generalize dependent (2 ^ 100). intros. lia. }
  assert (E2 : t = (zsum (map low_int (counted l k)) + 2 ^ 128 * Z.of_nat (len (counted l k)), zsum (map high_int (counted l k)))).
  { rewrite <- zsum_marked. unfold totals in E. destruct (counted l k); [discriminate E|]. apply Some_inj in E. rewrite <- E. reflexivity. }
  assert (N : 1 <= Z.of_nat (len (counted l k))) by (unfold totals in E; destruct (counted l k); [discriminate E|cbn [length]; lia]).
  assert (P0 : 0 < 2 ^ 128) by reflexivity. assert (P1 : 2 ^ 128 * 2 ^ 100 + 2 ^ 128 * 2 ^ 100 < 2 ^ 248) by reflexivity.
  assert (X := zsum_bound low_int (2 ^ 128) _ (fun y Hy => value_low_int y (Hv y Hy)) P0).
  assert (X2 := zsum_bound high_int (2 ^ 128) _ (fun y Hy => value_high_int y (Hv y Hy)) P0).
  assert (Y : 2 ^ 128 * Z.of_nat (len (counted l k)) <= 2 ^ 128 * 2 ^ 100) by (apply Z.mul_le_mono_nonneg_l; lia).
  subst t. cbn [fst snd]. split; [|split; [|exact N]].
  - clear N X2. generalize dependent (2 ^ 128 * 2 ^ 100). generalize dependent (2 ^ 128 * Z.of_nat (len (counted l k))). generalize dependent (2 ^ 248). intros. lia.
  - clear N X. generalize dependent (2 ^ 128 * 2 ^ 100). generalize dependent (2 ^ 128 * Z.of_nat (len (counted l k))). generalize dependent (2 ^ 248). intros. lia.
Qed.
Lemma marker_large z n : 2 ^ 128 * n <= z -> 1 <= n -> 1 < z.
Proof.
  intros H1 H2. assert (1 < 2 ^ 128) by reflexivity. assert (2 ^ 128 * 1 <= 2 ^ 128 * n) by (apply Z.mul_le_mono_nonneg_l; lia). lia.
Qed.

Lemma summed_values l w : (forall k, hd_error (counted l k) = final_map (contents l) k) ->
  In (Some w) (map (fun kv : bytes * bytes => Some (snd kv)) (summed l)) -> exists k t, totals l k = Some t /\ w = total_entry t.
Proof.
  intros Hh Hin. apply in_map_iff in Hin as ([k e] & Ew & Hin). cbn [snd] in Ew. injection Ew as ->.
  destruct (final_map_some _ _ _ Hin) as [z Hz]. rewrite (summed_map l Hh) in Hz.
  unfold summed in Hin. apply in_map_iff in Hin as ([k0 y] & Ek & _). cbn [fst] in Ek. injection Ek as -> Ek.
  destruct (totals l k) as [t|] eqn:Et; [|discriminate Hz]. exists k, t. split; [exact Et|]. symmetry. exact Ek.
Qed.

Lemma root_totals l1 l2 v1 v2 : wf_ops l1 -> settled_ops l1 -> wf_ops l2 -> settled_ops l2 ->
  (forall k v, In (OInsert k v) (l1 ++ l2) -> is_value v) -> Z.of_nat (len (l1 ++ l2)) < 2 ^ 100 ->
  run_disk l1 = Ok v1 -> run_disk l2 = Ok v2 -> root_hash v1 = root_hash v2 ->
  (forall k, totals l1 k = totals l2 k) \/ collision (summed l1) (summed l2).
Proof.
  intros W1 S1 W2 S2 HV Hn E1' E2' ER.
  assert (HV1 : forall k v, In (OInsert k v) l1 -> is_value v) by (intros k v H; apply (HV k v), in_or_app; left; exact H).
  assert (HV2 : forall k v, In (OInsert k v) l2 -> is_value v) by (intros k v H; apply (HV k v), in_or_app; right; exact H).
  rewrite app_length, Nat2Z.inj_add in Hn.
  assert (Hn1 : Z.of_nat (len l1) < 2 ^ 100) by (generalize dependent (2 ^ 100); intros; lia).
  assert (Hn2 : Z.of_nat (len l2) < 2 ^ 100) by (generalize dependent (2 ^ 100); intros; lia).
  destruct (summed_root l1 W1 S1) as (v1' & E1 & _ & _ & H1 & Hd1). destruct (summed_root l2 W2 S2) as (v2' & E2 & _ & _ & H2 & Hd2).
  rewrite E1 in E1'. injection E1' as <-. rewrite E2 in E2'. injection E2' as <-.
  rewrite H1, H2 in ER.
  assert (EH : hash (spec_root (final_map (summed l1)) (stems_of (summed l1))) = hash (spec_root (final_map (summed l2)) (stems_of (summed l2)))).
  { revert ER. generalize (hash (spec_root (final_map (summed l1)) (stems_of (summed l1)))).
    generalize (hash (spec_root (final_map (summed l2)) (stems_of (summed l2)))). intros a b X. injection X as ->. reflexivity. }
  destruct (run_mem_canon (summed l1) (summed_wf l1 W1)) as (db1 & _ & Cn1).
  destruct (run_mem_canon (summed l2) (summed_wf l2 W2)) as (db2 & _ & Cn2).
  pose proof (summed_map l1 Hd1) as M1. pose proof (summed_map l2 Hd2) as M2.
  assert (Hsc : scalars_apart (final_map (summed l1)) (stems_of (summed l1)) (stems_of (summed l2))
            (map (fun kv => Some (snd kv)) (summed l2))).
  { destruct (scalars_apart_large (fun _ => None) (stems_of (summed l1)) (stems_of (summed l2)) [] Fit
      (proj2 (can_wf _ _ _ Cn1)) (proj2 (can_wf _ _ _ Cn2)) ltac:(discriminate) ltac:(intros w [])) as [T _ _].
    assert (Mk : forall l k t, (forall k v, In (OInsert k v) l -> is_value v) -> Z.of_nat (len l) < 2 ^ 100 -> totals l k = Some t ->
       leaf_low (Some (total_entry t)) <> fzero /\ leaf_low (Some (total_entry t)) <> fone).
    { intros l k t V N Et. destruct (totals_bound l k t V N Et) as ([B1 B2] & _ & B3). pose proof (marker_large _ _ B1 B3) as B.
      rewrite entry_low. split; [apply Fit; lia|]. rewrite <- of_Z_1. intro X. apply of_Z_apart in X; lia. }
    constructor.
    - exact T.
    - intros w [[k Hk]|Hw].
      + rewrite M1 in Hk. destruct (totals l1 k) as [t|] eqn:Et; [|discriminate Hk]. apply Some_inj in Hk. rewrite <- Hk. exact (Mk l1 k t HV1 Hn1 Et).
      + destruct (summed_values l2 w Hd2 Hw) as (k & t & Et & ->). exact (Mk l2 k t HV2 Hn2 Et).
    - intros k y w Hy Hw Elo Ehi. destruct (summed_values l2 w Hd2 Hw) as (k' & t2 & Et2 & ->).
      rewrite M1 in Hy. destruct (totals l1 k) as [t1|] eqn:Et1; [|discriminate Hy]. apply Some_inj in Hy. subst y.
      rewrite !entry_low in Elo. rewrite !entry_high in Ehi.
      destruct (totals_bound l1 k t1 HV1 Hn1 Et1) as ([A1 A2] & A3 & A4). pose proof (marker_large _ _ A1 A4).
      destruct (totals_bound l2 k' t2 HV2 Hn2 Et2) as ([B1 B2] & B3 & B4). pose proof (marker_large _ _ B1 B4).
      f_equal. destruct t1 as [a b], t2 as [a2 b2]. cbn [fst snd] in *.
      rewrite (of_Z_apart a a2 ltac:(lia) ltac:(lia) Elo), (of_Z_apart b b2 A3 B3 Ehi). reflexivity. }
  destruct (same_root_hash (summed l1) (summed l2) (can_keys _ _ _ Cn1) (can_keys _ _ _ Cn2) (can_wf _ _ _ Cn1) (can_wf _ _ _ Cn2) Hsc) as [H|H];
    [|exact EH| |right; exact H].
  - intros k w Hw. apply in_map_iff. exists (k, w). split; [reflexivity|]. now apply map_value_In.
  - left. intros k. specialize (H k). rewrite M1, M2 in H.
    destruct (totals l1 k) as [t|], (totals l2 k) as [u|]; try discriminate H; [|reflexivity].
    apply Some_inj in H. f_equal. now apply entry_inj.
Qed.

(** ** A trie on disk with the root hash of a trie in memory *)
Lemma memory_binds l h v db : wf_ops l -> settled_ops l -> (forall k v, In (OInsert k v) l -> is_value v) -> Z.of_nat (len l) < 2 ^ 100 ->
  wf_history h -> Forall (fun kv => is_value (snd kv)) h ->
  run_disk l = Ok v -> run_mem h = Ok db -> root_hash v = root_hash db ->
  (forall k, trie_get v k = trie_get db k) /\ ~ rewrites l \/ collision h (tallied l).
Proof.
  intros W S HV Hn Wh Vh E' Em' ER.
  destruct (rewrite_exact l W S) as (v' & E & G & _ & Rh & Hh & _). rewrite E in E'. injection E' as <-.
  destruct (run_mem_canon h Wh) as (db' & Em & Cn). rewrite Em in Em'. injection Em' as <-.
  destruct (canon_root _ _ _ Cn) as [_ A2]. destruct (run_mem_canon (tallied l) (tallied_wf l W)) as (db2 & Em2 & Cn2).
  pose proof (tallied_map l Hh) as Ht.
  assert (EH : hash (spec_root (final_map h) (stems_of h)) = hash (spec_root (final_map (tallied l)) (stems_of (tallied l)))).
  { rewrite Rh, A2 in ER. rewrite tallied_stems. revert ER. generalize (hash (spec_root (final_map h) (stems_of h))).
    generalize (hash (spec_root (final_map (tallied l)) (stems_of (contents l)))). intros a b X. injection X as ->. reflexivity. }
  assert (Hcv : forall k y, In y (counted l k) -> is_value y) by (intros k y Hy; apply (HV k y); apply counted_written; left; exact Hy).
  assert (Hmv : forall k y, final_map h k = Some y -> is_value y).
  { intros k y Hy. apply final_map_In in Hy. rewrite Forall_forall in Vh. exact (Vh _ Hy). }
  assert (Hent : forall w, In (Some w) (map (fun kv : bytes * bytes => Some (snd kv)) (tallied l)) ->
            exists k, sum_entry (counted l k) = Some w).
  { intros w Hin. apply in_map_iff in Hin as ([k e] & Ew & Hin). cbn [snd] in Ew. injection Ew as ->.
    destruct (final_map_some _ _ _ Hin) as [z Hz]. rewrite Ht in Hz.
    unfold tallied in Hin. apply in_map_iff in Hin as ([k0 y] & Ek & _). cbn [fst] in Ek. injection Ek as -> Ek.
    rewrite Hz in Ek. subst z. exists k. exact Hz. }
  assert (Hlow : forall k w, sum_entry (counted l k) = Some w -> exists z, leaf_low (Some w) = of_Z z /\
            2 ^ 128 * Z.of_nat (len (counted l k)) <= z < 2 ^ 248 /\ 1 < z).
  { intros k w Ew. destruct (totals l k) as [t|] eqn:Et.
    2:{ exfalso. unfold totals in Et. destruct (counted l k); [discriminate Ew|discriminate Et]. }
    destruct (totals_bound l k t HV Hn Et) as ([B1 B2] & _ & B3). exists (fst t). split; [|split; [split; [exact B1|exact B2]|exact (marker_large _ _ B1 B3)]].
    rewrite <- Ew, sum_low, fsum_low, <- zsum_marked. unfold totals in Et. destruct (counted l k); [discriminate Et|]. apply Some_inj in Et. rewrite <- Et. reflexivity. }
  assert (Hsc : scalars_apart (final_map h) (stems_of h) (stems_of (tallied l)) (map (fun kv => Some (snd kv)) (tallied l))).
  { pose proof (scalars_apart_large (final_map h) (stems_of h) (stems_of (tallied l)) [] Fit
     (proj2 (can_wf _ _ _ Cn)) (proj2 (can_wf _ _ _ Cn2)) Hmv ltac:(intros w [])) as [S1 S2 _].
    constructor.
    - exact S1.
    - intros w [Hw|Hw]; [apply S2; left; exact Hw|]. destruct (Hent w Hw) as (k & Ew). destruct (Hlow k w Ew) as (z & -> & B & B1).
      split; [apply Fit; lia|]. rewrite <- of_Z_1. intro X. apply of_Z_apart in X; lia.
    - intros k y w Hy Hw Elo Ehi. destruct (Hent w Hw) as (k' & Ew).
      destruct (Hlow k' w Ew) as (z & Ez & B & B1).
      destruct (counted l k') as [|a [|b c]] eqn:Ec; [discriminate Ew| |].
      + cbn [sum_entry] in Ew. injection Ew as ->.
        assert (Vw : is_value w) by (apply (Hcv k'); rewrite Ec; left; reflexivity).
        destruct (scalars_apart_large (final_map h) (stems_of h) (stems_of (tallied l)) [Some w] Fit
           (proj2 (can_wf _ _ _ Cn)) (proj2 (can_wf _ _ _ Cn2)) Hmv) as [_ _ S3]; [intros u [X|[]]; injection X as <-; exact Vw|].
        apply (S3 k y w Hy (or_introl eq_refl) Elo Ehi).
      + exfalso. rewrite Ez in Elo. cbn [length] in B. pose proof (value_low_int y (Hmv k y Hy)) as By. cbn [leaf_low] in Elo.
        rewrite <- of_Z_add in Elo. fold (low_int y) in Elo.
        assert (Q : 2 ^ 128 * 2 <= 2 ^ 128 * Z.of_nat (Datatypes.S (Datatypes.S (len c)))) by (apply Z.mul_le_mono_nonneg_l; lia).
        apply of_Z_apart in Elo; [lia|lia|lia]. }
  destruct (same_root_hash h (tallied l) (can_keys _ _ _ Cn) (can_keys _ _ _ Cn2) (can_wf _ _ _ Cn) (can_wf _ _ _ Cn2) Hsc) as [H|H];
    [|exact EH| |right; exact H].
  - intros k w Hw. apply in_map_iff. exists (k, w). split; [reflexivity|]. now apply map_value_In.
  - left.
    assert (One : forall k, (len (counted l k) <= 1)%nat).
    { intros k. specialize (H k). rewrite Ht in H. destruct (counted l k) as [|a [|b c]] eqn:Ec; [cbn; lia|cbn; lia|exfalso].
      symmetry in H. destruct (final_map h k) as [y|] eqn:Ey; [|discriminate H].
      assert (Hl : forall x, In x (a :: b :: c) -> len x = 32%nat) by (intros x Hx; rewrite <- Ec in Hx; apply (Hcv k x Hx)).
      symmetry in H. pose proof (sum_entry_len (a :: b :: c) y Hl ltac:(symmetry; exact H)) as X.
      destruct (Hmv k y Ey) as [Ly _]. rewrite Ly in X. cbn [length] in X. lia. }
    split; [|intros [k Hk]; specialize (One k); lia].
    intros k. rewrite (G k). destruct (get_last h Wh) as (db3 & E3 & G3). rewrite Em in E3. injection E3 as <-. rewrite (G3 k).
    rewrite (H k), Ht, <- Hh. specialize (One k). destruct (counted l k) as [|a [|b c]]; [reflexivity|reflexivity|cbn in One; lia].
Qed.
End Agree.
