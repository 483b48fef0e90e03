(** The trie on coordinates is the trie on group elements: [Refine] and [RefineDb] for the elements of
    the curve. *)
From Verif Require Import Base BaseFacts Alg TreeSpec TrieModel TrieTheorems CodecModel VerkleDbModel VerkleDbProofs DbSpec VerkleDbSim VerkleDbTheorems
  MsmModel MsmInt WireModel IpaModel ElementModel ElementSpec ElementProofs CurveModel CurveSpec CurveProofs CurveAlg CurveRep RepSpec CoordSpec RepDisk Refine RefineDb RootTotal.
Local Open Scope Z_scope.

Section Rep.
Context {B : BaseField} {BL : BaseFieldLaws B} {CL : CurveLaws B} {A : Alg} {AL : AlgLaws A} {I : FrInt A} {SL : ScalarLaws B A I}.
Local Notation RA := (@rep_alg B BL A I).
Local Notation CA := (@curve_alg B BL A I).
Local Notation RC := (@rep_codec B BL A I).
Local Notation CC := (@curve_codec B BL A I).

Lemma co_group (g : Coord) : group_element (of_affine (coords g)).
Proof. apply group_valid. exists (coords g). split; [apply holds_of_affine|apply co_valid]. Qed.
Lemma elem_same g : same_element (point (elem g)) (coords g).
Proof. apply group_of_same; [apply holds_of_affine|apply co_valid]. Qed.
Lemma elem_unique g p : same_element (point p) (coords g) -> p = elem g.
Proof. apply group_of_unique; [apply holds_of_affine|apply co_valid]. Qed.
Lemma elem_zero : elem co_zero = pt_zero.
Proof. symmetry. apply elem_unique. apply same_refl. Qed.
Lemma elem_add g h : elem (co_add g h) = pt_add (elem g) (elem h).
Proof. symmetry. apply elem_unique. rewrite point_add, coords_add. apply sum_respects; apply elem_same || apply co_valid || apply pt_valid. Qed.
Lemma elem_opp g : elem (co_opp g) = pt_opp (elem g).
Proof. symmetry. apply elem_unique. rewrite point_opp, coords_opp. apply inverse_respects; apply elem_same || apply co_valid || apply pt_valid. Qed.
Lemma elem_mul s g : elem (@co_mul B BL A I s g) = @pt_mul B BL A I s (elem g).
Proof. symmetry. apply elem_unique. rewrite point_mul, coords_mul. apply multiple_same; apply elem_same || apply co_valid || apply pt_valid. Qed.
Lemma elem_eqb g h : co_eqb g h = pt_eqb (elem g) (elem h).
Proof.
  apply eq_true_iff_eq. unfold co_eqb. rewrite (group_of_eq _ _ (co_group g) (co_group h)). symmetry. exact (@geqb_true CA curve_laws (elem g) (elem h)).
Qed.
Lemma elem_hash g : @co_hash B A g = @pt_hash B A (elem g).
Proof. unfold co_hash. now rewrite (hash_of _ (co_group g)). Qed.
Lemma elem_read b : @pt_de CA CC b = option_map elem (@pt_de RA RC b).
Proof.
  cbn [pt_de curve_codec rep_codec]. unfold deserialize_uncompressed.
  destruct (fq_de b) as [x|]; [|reflexivity]. destruct (fq_de (skipn 32 b)) as [y|]; [|reflexivity].
  destruct (point_check (mkAff x y)) eqn:E; [|reflexivity].
  rewrite (to_affine_ok _ _ (holds_of_affine (mkAff x y))). pose proof (proj1 (point_check_iff _) E) as [OC O].
  unfold pt_opt, co_opt. destruct (pointb (mkAff x y)) eqn:Pb.
  - pose proof (proj1 (proj1 (pointb_iff _) Pb)) as V. rewrite (proj2 (coordb_iff _) V). cbn [option_map]. f_equal. apply elem_unique.
    rewrite (pt_of_point _ Pb), (co_of_coords _ V). apply same_refl.
  - destruct (coordb (mkAff x y)) eqn:Cb; [|reflexivity]. exfalso. apply coordb_iff in Cb.
    rewrite (proj2 (pointb_iff _) (conj Cb O)) in Pb. discriminate.
Qed.

Context {RP : Par RA} {CP : Par CA}.
Hypothesis rhash_is : forall p, @hash RA RP p = @co_hash B A p.
Hypothesis hash_is : forall p, @hash CA CP p = @pt_hash B A p.
Hypothesis crs_is : forall i, @crs CA CP i = elem (@crs RA RP i).

Definition coord_rel : @MemoryDb RA -> @MemoryDb CA -> Prop := @MemRel CA Coord co_zero co_add co_opp (@co_mul B BL A I) co_eqb elem.
Lemma coord_hash p : @hash RA RP p = @hash CA CP (elem p).
Proof. rewrite rhash_is, hash_is. apply elem_hash. Qed.
Lemma coord_mem kvs : rr False coord_rel (@run_mem RA RP kvs) (@run_mem CA CP kvs).
Proof.
  exact (@cover_run_mem CA CP Coord co_zero co_add co_opp (@co_mul B BL A I) co_eqb RP elem elem_zero elem_add elem_mul coord_hash (fun i => eq_sym (crs_is i)) kvs).
Qed.

(** ** Observations *)
Lemma coord_root db1 db2 : coord_rel db1 db2 ->
  @root_hash RA _ _ db1 = @root_hash CA _ _ db2 /\ rr False (fun (g : @G RA) e => elem g = e) (@root_commitment RA _ _ db1) (@root_commitment CA _ _ db2) /\
  forall k, @trie_get RA _ _ db1 k = @trie_get CA _ _ db2 k.
Proof.
  intro HR. split; [|split].
  - assert (X : rr False (@eq (@F CA)) (@root_hash RA _ _ db1) (@root_hash CA _ _ db2))
      by exact (@cover_root_hash CA Coord co_zero co_add co_opp (@co_mul B BL A I) co_eqb elem _ _ _ _ _ False (mem_sim elem False) db1 db2 HR).
    destruct (@root_hash RA _ _ db1), (@root_hash CA _ _ db2); cbn [rr] in X; try contradiction; [exact (f_equal Ok X)|reflexivity].
  - exact (@cover_root_commitment CA Coord co_zero co_add co_opp (@co_mul B BL A I) co_eqb elem _ _ _ _ _ False (mem_sim elem False) db1 db2 HR).
  - intro k. unfold trie_get, mem_get_leaf. cbn [get_leaf memory_db_ops mem_get_leaf]. f_equal. symmetry. apply (mr_leaf _ _ _ HR).
Qed.

(** C02 on coordinates. *)
Lemma coord_trie h : wf_history h -> exists db c, @run_mem RA RP h = Ok db /\ (forall k, @trie_get RA _ _ db k = Ok (final_map h k)) /\
  @root_commitment RA _ _ db = Ok c /\ elem c = @spec_root CA CP (final_map h) (stems_of h) /\ @root_hash RA _ _ db = Ok (@hash RA RP c).
Proof.
  intro W. assert (PL : ParLaws CP).
  { constructor. rewrite hash_is. exact (@hash_zero CA _ (curve_par_laws (fun _ => pt_zero) pt_zero)). }
  destruct (@root_spec CA curve_laws CP PL h W) as (d2 & E2 & C2 & H2).
  destruct (@get_last CA curve_laws CP PL h W) as (d2' & E2' & G2). assert (d2' = d2) by congruence. subst d2'.
  pose proof (coord_mem h) as X. rewrite E2 in X. destruct (@run_mem RA RP h) as [d1|] eqn:E1; [|contradiction].
  destruct (coord_root d1 d2 X) as (RH & RC' & GE). rewrite C2 in RC'. destruct (@root_commitment RA _ _ d1) as [c|] eqn:E3; [|contradiction].
  cbn [rr] in RC'. exists d1, c. split; [reflexivity|]. split; [intro k; rewrite GE; apply G2|]. split; [exact E3|].
  split; [exact RC'|]. rewrite RH, H2, coord_hash, RC'. reflexivity.
Qed.

(** ** On disk *)
Definition coord_refused : Disk -> Prop := @refused CA Coord co_zero co_add co_opp (@co_mul B BL A I) co_eqb RC.
Definition coord_vd : @VerkleDb RA -> @VerkleDb CA -> Prop := @VdRel CA Coord co_zero co_add co_opp (@co_mul B BL A I) co_eqb elem CC RC.
Lemma coord_sim d : @DbSim CA Coord co_zero co_add co_opp (@co_mul B BL A I) co_eqb elem _ _ (@verkle_db_ops RA RC) (@verkle_db_ops CA CC)
  (fun v1 v2 => vd_storage v1 = d /\ coord_vd v1 v2) (coord_refused d).
Proof.
  refine (@vd_sim CA Coord co_zero co_add co_opp (@co_mul B BL A I) co_eqb elem CC RC twisted _ _ _ _ _ _ _ _ _ d).
  - exact (@rd_pt_len B BL A I).
  - exact (@pt_ser_len CA CC curve_codec_laws).
  - intro x. reflexivity.
  - intro x. reflexivity.
  - exact (@fr_ser_len CA CC curve_codec_laws).
  - exact (@fr_rt CA CC curve_codec_laws).
  - exact rep_pt_de.
  - exact (@pt_rt CA CC curve_codec_laws).
  - exact elem_read.
Qed.
Lemma coord_disk l : match @run_disk RA RP RC l, @run_disk CA CP CC l with
  | Ok v1, Ok v2 => coord_vd v1 v2
  | Panic, Panic => True
  | Panic, Ok _ => exists l1 l2 v, l = l1 ++ l2 /\ @run_disk RA RP RC l1 = Ok v /\ coord_refused (vd_storage v)
  | Ok _, Panic => False
  end.
Proof.
  refine (@cover_run_disk CA CP Coord co_zero co_add co_opp (@co_mul B BL A I) co_eqb RP elem elem_zero elem_add elem_mul coord_hash (fun i => eq_sym (crs_is i))
    CC RC twisted _ _ _ _ _ _ _ _ _ l).
  - exact (@rd_pt_len B BL A I).
  - exact (@pt_ser_len CA CC curve_codec_laws).
  - intro x. reflexivity.
  - intro x. reflexivity.
  - exact (@fr_ser_len CA CC curve_codec_laws).
  - exact (@fr_rt CA CC curve_codec_laws).
  - exact rep_pt_de.
  - exact (@pt_rt CA CC curve_codec_laws).
  - exact elem_read.
Qed.
Lemma coord_leaf v1 v2 k : coord_vd v1 v2 -> @trie_get RA _ (@verkle_db_ops RA RC) v1 k = @trie_get CA _ (@verkle_db_ops CA CC) v2 k.
Proof.
  intro HR. unfold trie_get. cbn [get_leaf verkle_db_ops]. unfold vd_get_leaf, mem_get_leaf.
  assert (E1 : leaf_table (vd_cache v2) k = @leaf_table RA (vd_cache v1) k) by exact (mr_leaf _ _ _ (vr_cache _ _ _ HR) k).
  assert (E2 : leaf_table (vd_batch v2) k = @leaf_table RA (vd_batch v1) k) by exact (mr_leaf _ _ _ (vr_batch _ _ _ HR) k).
  assert (E3 : vd_storage v2 (leaf_dkey k) = @vd_storage RA v1 (leaf_dkey k)) by exact (dr_leaf _ _ _ (vr_storage _ _ _ HR) k).
  rewrite E1, E2. unfold disk_get_leaf. rewrite E3. reflexivity.
Qed.

#[local] Existing Instance rep_codec.
#[local] Existing Instance curve_codec.
(** C09 on coordinates: the trie agrees with an in-memory trie, or it stopped at a record that was refused. *)
Lemma coord_history l : wf_ops l -> settled_ops l -> no_rewrite l ->
  (exists v db c x, @run_disk RA RP RC l = Ok v /\ @run_mem RA RP (contents l) = Ok db /\
     (forall k, @trie_get RA _ _ v k = @trie_get RA _ _ db k) /\
     @root_commitment RA _ _ v = Ok c /\ @root_hash RA _ _ v = Ok x /\
     (exists c', @root_commitment RA _ _ db = Ok c' /\ element_eqb (of_affine (coords c)) (of_affine (coords c')) = true) /\
     @root_hash RA _ _ db = Ok x) \/
  (@run_disk RA RP RC l = Panic /\ exists l1 l2 v, l = l1 ++ l2 /\ @run_disk RA RP RC l1 = Ok v /\ coord_refused (vd_storage v)).
Proof.
  intros W S N. assert (PL : ParLaws CP).
  { constructor. rewrite hash_is. exact (@hash_zero CA _ (curve_par_laws (fun _ => pt_zero) pt_zero)). }
  destruct (@disk_like_mem CA curve_laws CP PL CC curve_codec_laws l W S N) as (v2 & d2 & E2 & M2 & C2 & H2 & G2).
  pose proof (coord_disk l) as X. rewrite E2 in X. destruct (@run_disk RA RP RC l) as [v1|] eqn:E1; [left|right; split; [reflexivity|exact X]].
  pose proof (coord_mem (contents l)) as Y. rewrite M2 in Y. destruct (@run_mem RA RP (contents l)) as [d1|] eqn:M1; [|contradiction].
  destruct (@root_answers RA RP RC l v1 E1) as (c & x & Rc & Rx).
  destruct (coord_root d1 d2 Y) as (RH & RC' & GE).
  assert (X1 : rr (coord_refused (vd_storage v1)) (fun (g : @G RA) e => elem g = e) (@root_commitment RA _ _ v1) (@root_commitment CA _ _ v2)).
  { exact (@cover_root_commitment CA Coord co_zero co_add co_opp (@co_mul B BL A I) co_eqb elem _ _ _ _ _ _ (coord_sim (vd_storage v1)) v1 v2 (conj eq_refl X)). }
  assert (X2 : rr (coord_refused (vd_storage v1)) (@eq (@F CA)) (@root_hash RA _ _ v1) (@root_hash CA _ _ v2)).
  { exact (@cover_root_hash CA Coord co_zero co_add co_opp (@co_mul B BL A I) co_eqb elem _ _ _ _ _ _ (coord_sim (vd_storage v1)) v1 v2 (conj eq_refl X)). }
  exists v1, d1, c, x. split; [reflexivity|]. split; [reflexivity|]. split; [|split; [exact Rc|split; [exact Rx|split]]].
  - intro k. rewrite GE, <- G2. apply coord_leaf. exact X.
  - rewrite Rc, C2 in X1. destruct (@root_commitment CA _ _ d2) as [c2|]; [|contradiction].
    destruct (@root_commitment RA _ _ d1) as [c'|] eqn:E3; [|contradiction]. exists c'. split; [reflexivity|].
    apply (group_of_eq _ _ (co_group c) (co_group c')). cbn [rr] in X1, RC'. exact (eq_trans X1 (eq_sym RC')).
  - rewrite Rx, H2 in X2. rewrite RH. destruct (@root_hash CA _ _ d2) as [x2|]; [|contradiction]. cbn [rr] in X2. now rewrite X2.
Qed.

Lemma read_untwisted b g : @pt_de RA RC b = Some g -> twisted g = false.
Proof.
  cbn [pt_de rep_codec]. unfold deserialize_uncompressed.
  destruct (fq_de b) as [x|]; [|discriminate]. destruct (fq_de (skipn 32 b)) as [y|]; [|discriminate].
  destruct (point_check (mkAff x y)) eqn:E; [|discriminate]. rewrite (to_affine_ok _ _ (holds_of_affine (mkAff x y))).
  unfold co_opt. destruct (coordb (mkAff x y)) eqn:Cb; [|discriminate]. intro X. assert (Y : g = co_of (mkAff x y)) by congruence. subst g.
  unfold twisted. rewrite (co_of_coords _ (proj1 (coordb_iff _) Cb)), E. reflexivity.
Qed.
(** Reopening after a flush. *)
Lemma coord_reopen l v c : @run_disk RA RP RC l = Ok v -> @root_commitment RA _ _ v = Ok c ->
  (@run_disk RA RP RC (l ++ [OFlush; OReopen]) = Panic <-> point_check (coords c) = false).
Proof.
  intros E Ec. rewrite (@reopen_exactly RA RP RC twisted rd_pt_len rd_fr_len rd_fr_back rep_pt_de read_untwisted l v c E Ec).
  unfold twisted. now rewrite negb_true_iff.
Qed.
(** Every history, with what can be seen of it. *)
Lemma coord_disk_seen l : match @run_disk RA RP RC l, @run_disk CA CP CC l with
  | Ok v1, Ok v2 => (forall k, @trie_get RA _ _ v1 k = @trie_get CA _ _ v2 k) /\
      (exists c x, @root_commitment RA _ _ v1 = Ok c /\ @root_commitment CA _ _ v2 = Ok (elem c) /\
         @root_hash RA _ _ v1 = Ok x /\ @root_hash CA _ _ v2 = Ok x)
  | Panic, Panic => True
  | Panic, Ok _ => exists l1 l2 v, l = l1 ++ l2 /\ @run_disk RA RP RC l1 = Ok v /\ coord_refused (vd_storage v)
  | Ok _, Panic => False
  end.
Proof.
  pose proof (coord_disk l) as X. destruct (@run_disk RA RP RC l) as [v1|] eqn:E1, (@run_disk CA CP CC l) as [v2|] eqn:E2; auto.
  split; [intro k; now apply coord_leaf|]. destruct (@root_answers RA RP RC l v1 E1) as (c & x & Rc & Rx). exists c, x.
  assert (X1 : rr (coord_refused (vd_storage v1)) (fun (g : @G RA) e => elem g = e) (@root_commitment RA _ _ v1) (@root_commitment CA _ _ v2)).
  { exact (@cover_root_commitment CA Coord co_zero co_add co_opp (@co_mul B BL A I) co_eqb elem _ _ _ _ _ _ (coord_sim (vd_storage v1)) v1 v2 (conj eq_refl X)). }
  assert (X2 : rr (coord_refused (vd_storage v1)) (@eq (@F CA)) (@root_hash RA _ _ v1) (@root_hash CA _ _ v2)).
  { exact (@cover_root_hash CA Coord co_zero co_add co_opp (@co_mul B BL A I) co_eqb elem _ _ _ _ _ _ (coord_sim (vd_storage v1)) v1 v2 (conj eq_refl X)). }
  rewrite Rc in X1. rewrite Rx in X2. destruct (@root_commitment CA _ _ v2) as [c2|]; [|contradiction]. destruct (@root_hash CA _ _ v2) as [x2|]; [|contradiction].
  cbn [rr] in X1, X2. rewrite <- X1, <- X2. repeat split; assumption.
Qed.
(** Every list of insertions in memory, with the tables it leaves. *)
Lemma coord_mem_seen h : match @run_mem RA RP h, @run_mem CA CP h with
  | Ok d1, Ok d2 => (forall k, leaf_table d1 k = leaf_table d2 k) /\
      (forall s, stem_table d2 s = option_map (fun m : @StemMeta RA => @mkStemMeta CA (elem (sm_c1 m)) (sm_hash_c1 m) (elem (sm_c2 m)) (sm_hash_c2 m) (elem (sm_comm m)) (sm_hash_comm m)) (stem_table d1 s)) /\
      (forall p, branch_table d2 p = option_map (fun c : @BranchChild RA => match c with CStem s => @CStem CA s | CBranch m => CBranch (@mkBranchMeta CA (elem (bm_comm m)) (bm_hash m)) end) (branch_table d1 p))
  | Panic, Panic => True
  | _, _ => False
  end.
Proof.
  pose proof (coord_mem h) as X. destruct (@run_mem RA RP h) as [d1|], (@run_mem CA CP h) as [d2|]; auto. destruct X as [L S Br].
  split; [intro k; symmetry; apply L|]. split; [exact S|]. intro p. pose proof (Br p) as E. exact E.
Qed.
(** Two histories with the same contents. *)
Lemma coord_same_root h1 h2 : wf_history h1 -> wf_history h2 -> (forall k, final_map h1 k = final_map h2 k) ->
  exists db1 db2 c1 c2 x, @run_mem RA RP h1 = Ok db1 /\ @run_mem RA RP h2 = Ok db2 /\
    @root_commitment RA _ _ db1 = Ok c1 /\ @root_commitment RA _ _ db2 = Ok c2 /\
    element_eqb (of_affine (coords c1)) (of_affine (coords c2)) = true /\ to_bytes (of_affine (coords c1)) = to_bytes (of_affine (coords c2)) /\
    @root_hash RA _ _ db1 = Ok x /\ @root_hash RA _ _ db2 = Ok x.
Proof.
  intros W1 W2 E. assert (PL : ParLaws CP).
  { constructor. rewrite hash_is. exact (@hash_zero CA _ (curve_par_laws (fun _ => pt_zero) pt_zero)). }
  destruct (coord_trie h1 W1) as (d1 & c1 & E1 & _ & C1 & S1 & H1). destruct (coord_trie h2 W2) as (d2 & c2 & E2 & _ & C2 & S2 & H2).
  destruct (@history_independent CA curve_laws CP PL h1 h2 W1 W2 E) as (e1 & e2 & F1 & F2 & Rc & Rh & _).
  destruct (@root_spec CA curve_laws CP PL h1 W1) as (e1' & F1' & Q1 & _). destruct (@root_spec CA curve_laws CP PL h2 W2) as (e2' & F2' & Q2 & _).
  assert (e1' = e1) by congruence. assert (e2' = e2) by congruence. subst e1' e2'. rewrite Q1, Q2 in Rc.
  assert (EE : elem c1 = elem c2) by congruence.
  exists d1, d2, c1, c2, (@hash RA RP c1). repeat (split; [assumption|]).
  split; [apply (group_of_eq _ _ (co_group c1) (co_group c2)); exact EE|].
  split; [rewrite (bytes_of _ (co_group c1)), (bytes_of _ (co_group c2)); unfold elem in EE; now rewrite EE|].
  split; [exact H1|]. rewrite H2, !coord_hash, EE. reflexivity.
Qed.
End Rep.
