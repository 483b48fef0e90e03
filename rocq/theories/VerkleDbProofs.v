(** Lemmas about [CodecModel] and [VerkleDbModel]. *)
From Coq Require Import Permutation.
From Verif Require Import Base BaseFacts Alg AlgFacts TreeSpec TreeFacts TrieModel TrieProofs CodecModel VerkleDbModel DbSpec.

(** ** Slices *)
Lemma slice_app_mid {X} (a b c : list X) i j : length a = i -> (length a + length b = j)%nat ->
  slice i j (a ++ b ++ c) = Ok b.
Proof.
  intros <- <-. unfold slice. rewrite !app_length.
  rewrite (proj2 (Nat.leb_le _ _)), (proj2 (Nat.leb_le _ _)) by lia. cbn [andb].
  rewrite skipn_app_exact by reflexivity. rewrite firstn_app_exact by lia. reflexivity.
Qed.
Lemma slice_app_first {X} (b c : list X) j : length b = j -> slice 0 j (b ++ c) = Ok b.
Proof. intros H. apply (slice_app_mid [] b c 0 j); [reflexivity|exact H]. Qed.
Lemma slice_app_last {X} (a b : list X) i j : length a = i -> (length a + length b = j)%nat ->
  slice i j (a ++ b) = Ok b.
Proof. intros H1 H2. rewrite <- (app_nil_r b) at 1. apply slice_app_mid; assumption. Qed.
Lemma slice_ok {X} (l : list X) i j : (i <= j)%nat -> (j <= length l)%nat ->
  slice i j l = Ok (firstn (j - i) (skipn i l)).
Proof. intros H1 H2. unfold slice. rewrite !(proj2 (Nat.leb_le _ _)) by lia. reflexivity. Qed.
Lemma slice_panic {X} (l : list X) i j : (length l < j)%nat -> slice i j l = Panic.
Proof.
  intros H. unfold slice. rewrite (proj2 (Nat.leb_gt j _)) by lia. rewrite andb_false_r. reflexivity.
Qed.

Section Codecs.
Context {A : Alg} {P : Par A} {C : Codec A}.

Lemma stem_meta_wrong_length b : length b <> 288%nat -> stem_meta_from_bytes b = Ok None.
Proof.
  intros H. unfold stem_meta_from_bytes. destruct (Nat.eqb_spec (length b) (64 * 3 + 32 * 3)); [|reflexivity].
  exfalso; apply H. assumption.
Qed.

Lemma stem_meta_total b : exists o, stem_meta_from_bytes b = Ok o.
Proof.
  unfold stem_meta_from_bytes. destruct (Nat.eqb_spec (length b) (64 * 3 + 32 * 3)) as [E|E]; [|eexists; reflexivity].
  cbn [negb].
  assert (Hb : forall i j (l : bytes), (i <= j)%nat -> (j <= length l)%nat -> exists y, slice i j l = Ok y)
    by (intros; eexists; apply slice_ok; assumption).
  rewrite (slice_ok b 0 (64 * 3)) by lia. cbn [rbind]. set (pb := firstn _ _).
  assert (Lp : length pb = 192%nat) by (unfold pb; rewrite firstn_length, skipn_length; lia).
  destruct (Hb (0 * 64) (1 * 64) pb)%nat as [y1 ->]; [lia|lia|]. cbn [rbind]. destruct (pt_de y1); [|eexists; reflexivity]. cbn [qbind].
  destruct (Hb (1 * 64) (2 * 64) pb)%nat as [y2 ->]; [lia|lia|]. cbn [rbind]. destruct (pt_de y2); [|eexists; reflexivity]. cbn [qbind].
  destruct (Hb (2 * 64) (3 * 64) pb)%nat as [y3 ->]; [lia|lia|]. cbn [rbind]. destruct (pt_de y3); [|eexists; reflexivity]. cbn [qbind].
  unfold slice_from. rewrite (proj2 (Nat.leb_le _ _)) by lia. cbn [rbind]. set (sb := skipn _ _).
  assert (Lq : length sb = 96%nat) by (unfold sb; rewrite skipn_length; lia).
  destruct (Hb (0 * 32) (1 * 32) sb)%nat as [z1 ->]; [lia|lia|]. cbn [rbind]. destruct (fr_de z1); [|eexists; reflexivity]. cbn [qbind].
  destruct (Hb (1 * 32) (2 * 32) sb)%nat as [z2 ->]; [lia|lia|]. cbn [rbind]. destruct (fr_de z2); [|eexists; reflexivity]. cbn [qbind].
  destruct (Hb (2 * 32) (3 * 32) sb)%nat as [z3 ->]; [lia|lia|]. cbn [rbind]. destruct (fr_de z3); eexists; reflexivity.
Qed.

(** The length test of [BranchMeta::from_bytes] can only fire on a vector of
    2^64 - 97 bytes, more than any Rust allocation ([isize::MAX]). *)
Definition rust_vec (b : bytes) : Prop := Z.of_nat (length b) < 2 ^ 63.

Lemma branch_meta_test b : rust_vec b -> ((2 ^ 64 - 1 - Z.of_nat (length b)) =? 32 + 64) = false.
Proof. unfold rust_vec. intros H. apply Z.eqb_neq. lia. Qed.

Lemma branch_meta_short b : (length b < 96)%nat -> branch_meta_from_bytes b = Panic.
Proof.
  intros H. unfold branch_meta_from_bytes. rewrite branch_meta_test by (unfold rust_vec; lia).
  destruct (Nat.le_gt_cases 64 (length b)).
  - rewrite slice_ok by lia. cbn [rbind]. rewrite slice_panic by lia. reflexivity.
  - rewrite slice_panic by lia. reflexivity.
Qed.

Lemma branch_meta_prefix b : rust_vec b -> (96 <= length b)%nat ->
  branch_meta_from_bytes b = branch_meta_from_bytes (firstn 96 b).
Proof.
  intros Hr H. unfold branch_meta_from_bytes.
  assert (L : length (firstn 96 b) = 96%nat) by (rewrite firstn_length; lia).
  rewrite !branch_meta_test by (unfold rust_vec in *; rewrite ?L; lia).
  rewrite !slice_ok by lia. cbn [rbind].
  rewrite !skipn_firstn_comm, !firstn_firstn. reflexivity.
Qed.

Context {CL : CodecLaws C}.

Lemma stem_meta_rt m : stem_meta_from_bytes (stem_meta_to_bytes m) = Ok (Some m).
Proof.
  destruct m as [c1 h1 c2 h2 c h]. unfold stem_meta_to_bytes, stem_meta_from_bytes. cbn [sm_c1 sm_c2 sm_comm sm_hash_c1 sm_hash_c2 sm_hash_comm].
  rewrite !app_length, !pt_ser_len, !fr_ser_len. cbn [Nat.add Nat.mul Nat.eqb negb].
  set (b := pt_ser c1 ++ _).
  assert (E : b = (pt_ser c1 ++ pt_ser c2 ++ pt_ser c) ++ fr_ser h1 ++ fr_ser h2 ++ fr_ser h)
    by (unfold b; rewrite <- !app_assoc; reflexivity).
  assert (E1 : slice 0 192 b = Ok (pt_ser c1 ++ pt_ser c2 ++ pt_ser c)).
  { rewrite E. apply (slice_app_mid [] _ _ 0 192); [reflexivity|]. rewrite !app_length, !pt_ser_len. reflexivity. }
  rewrite E1. cbn [rbind].
  rewrite (slice_app_first (pt_ser c1) _ 64) by apply pt_ser_len. cbn [rbind].
  rewrite pt_rt. cbn [qbind].
  rewrite (slice_app_mid (pt_ser c1) (pt_ser c2) (pt_ser c) 64 128) by (rewrite ?pt_ser_len; reflexivity). cbn [rbind].
  rewrite pt_rt. cbn [qbind].
  assert (E3 : slice 128 192 (pt_ser c1 ++ pt_ser c2 ++ pt_ser c) = Ok (pt_ser c)).
  { rewrite (app_assoc (pt_ser c1)).
    apply slice_app_last; rewrite app_length, ?pt_ser_len; reflexivity. }
  rewrite E3. cbn [rbind]. rewrite pt_rt. cbn [qbind].
  assert (E4 : slice_from 192 b = Ok (fr_ser h1 ++ fr_ser h2 ++ fr_ser h)).
  { rewrite E. unfold slice_from. rewrite !app_length, !pt_ser_len, !fr_ser_len. cbn [Nat.add Nat.leb].
    rewrite skipn_app_exact; [reflexivity|]. rewrite !app_length, !pt_ser_len. reflexivity. }
  rewrite E4. cbn [rbind].
  rewrite (slice_app_first (fr_ser h1) _ 32) by apply fr_ser_len. cbn [rbind].
  rewrite fr_rt. cbn [qbind].
  rewrite (slice_app_mid (fr_ser h1) (fr_ser h2) (fr_ser h) 32 64) by (rewrite ?fr_ser_len; reflexivity). cbn [rbind].
  rewrite fr_rt. cbn [qbind].
  assert (E5 : slice 64 96 (fr_ser h1 ++ fr_ser h2 ++ fr_ser h) = Ok (fr_ser h)).
  { rewrite (app_assoc (fr_ser h1)).
    apply slice_app_last; rewrite app_length, ?fr_ser_len; reflexivity. }
  rewrite E5. cbn [rbind]. rewrite fr_rt. reflexivity.
Qed.

Lemma stem_meta_len m : length (stem_meta_to_bytes m) = 288%nat.
Proof. unfold stem_meta_to_bytes. rewrite !app_length, !pt_ser_len, !fr_ser_len. reflexivity. Qed.

Lemma branch_meta_len m : length (branch_meta_to_bytes m) = 96%nat.
Proof. unfold branch_meta_to_bytes. rewrite app_length, pt_ser_len, fr_ser_len. reflexivity. Qed.

Lemma branch_meta_rt m : branch_meta_from_bytes (branch_meta_to_bytes m) = Ok (Some m).
Proof.
  unfold branch_meta_from_bytes. rewrite branch_meta_test by (unfold rust_vec; rewrite branch_meta_len; reflexivity).
  destruct m as [c h]. unfold branch_meta_to_bytes. cbn [bm_comm bm_hash].
  rewrite (slice_app_first (pt_ser c) _ 64) by apply pt_ser_len. cbn [rbind].
  assert (E : slice 64 (64 + 32) (pt_ser c ++ fr_ser h) = Ok (fr_ser h)).
  { apply slice_app_last; rewrite ?pt_ser_len, ?fr_ser_len; reflexivity. }
  rewrite E. cbn [rbind]. rewrite pt_rt. cbn [qbind]. rewrite fr_rt. reflexivity.
Qed.

Definition child_wf (c : BranchChild) : Prop :=
  match c with CStem s => length s = 31%nat | CBranch _ => True end.

Lemma branch_child_rt c : child_wf c -> branch_child_from_bytes (branch_child_to_bytes c) = Ok (Some c).
Proof.
  unfold branch_child_from_bytes. destruct c as [s|m]; cbn [child_wf branch_child_to_bytes]; intros H.
  - rewrite H. reflexivity.
  - rewrite branch_meta_len. cbn [Nat.eqb]. rewrite branch_meta_rt. reflexivity.
Qed.

End Codecs.

(** ** The flush loop *)
Section Flush.
Context {A : Alg} {P : Par A} {C : Codec A}.

(** [l] lists the entries of the table [t], each once, in any order. *)
Definition enumerates {V} (l : list (bytes * V)) (t : bmap V) : Prop :=
  NoDup (map fst l) /\ forall k v, In (k, v) l <-> t k = Some v.

Definition write_all {V} (f : V -> bytes) (mk : bytes -> bytes) (l : list (bytes * V)) (d : Disk) : Disk :=
  fold_left (fun d e => upd d (mk (fst e)) (f (snd e))) l d.

Lemma write_all_spec {V} (f : V -> bytes) m (t : bmap V) l d : enumerates l t ->
  forall dk, write_all f (cons m) l d dk =
    match dk with
    | [] => d []
    | b :: k => if b =? m then match t k with Some v => Some (f v) | None => d dk end else d dk
    end.
Proof.
  intros [ND HI].
  assert (G : forall l d, NoDup (map fst l) -> forall dk, write_all f (cons m) l d dk =
     match dk with
     | [] => d []
     | b :: k => if b =? m then
         match find (fun e => beqb (fst e) k) l with Some e => Some (f (snd e)) | None => d dk end else d dk end).
  { clear. induction l as [|[k0 v0] l IH]; intros d ND dk.
    - cbn [write_all fold_left find]. destruct dk as [|b k]; [reflexivity|]. destruct (b =? m); reflexivity.
    - inversion ND as [|? ? Hn ND']; subst. 
      change (write_all f (cons m) ((k0, v0) :: l) d) with (write_all f (cons m) l (upd d (m :: k0) (f v0))).
      rewrite IH by exact ND'. destruct dk as [|b k]; [reflexivity|]. cbn [find fst snd].
      destruct (Z.eqb_spec b m) as [->|Hb].
      + destruct (beqb_spec k0 k) as [->|Hk].
        * replace (find (fun e : bytes * V => beqb (fst e) k) l) with (@None (bytes * V)).
          -- rewrite upd_same. reflexivity.
          -- symmetry. destruct (find _ l) as [[k1 v1]|] eqn:E; [|reflexivity].
             apply find_some in E as [E1 E2]. cbn [fst] in E2. apply beqb_eq in E2. subst k1.
             exfalso. apply Hn. apply in_map_iff. exists (k, v1). auto.
        * rewrite upd_other by congruence. reflexivity.
      + rewrite upd_other by congruence. reflexivity. }
  intros dk. rewrite G by exact ND. destruct dk as [|b k]; [reflexivity|]. destruct (b =? m); [|reflexivity].
  destruct (find _ l) as [[k1 v1]|] eqn:E.
  - apply find_some in E as [E1 E2]. cbn [fst] in E2. apply beqb_eq in E2. subst k1.
    apply HI in E1. rewrite E1. reflexivity.
  - destruct (t k) as [v|] eqn:Et; [|reflexivity]. apply HI in Et.
    pose proof (find_none _ _ E _ Et) as X. cbn [fst] in X. rewrite beqb_refl in X. discriminate.
Qed.

Lemma flush_disk_is_loop d b leaves stems branches :
  enumerates leaves (leaf_table b) -> enumerates stems (stem_table b) -> enumerates branches (branch_table b) ->
  forall dk, flush_loop d leaves stems branches dk = flush_disk d b dk.
Proof.
  intros H1 H2 H3 dk.
  assert (W : forall {V} (put : V -> bytes) (mk : bytes -> bytes) (l : list (bytes * V)) w,
     fold_left (fun w e => batch_put w (mk (fst e)) (put (snd e))) l w =
     w ++ map (fun e => (mk (fst e), put (snd e))) l).
  { clear. intros V put mk l. induction l as [|e l IH]; intros w; cbn [fold_left map].
    - rewrite app_nil_r. reflexivity.
    - rewrite IH. unfold batch_put. rewrite <- app_assoc. reflexivity. }
  assert (D : forall {V} (put : V -> bytes) (mk : bytes -> bytes) (l : list (bytes * V)) d,
     disk_flush d (map (fun e => (mk (fst e), put (snd e))) l) = write_all put mk l d).
  { clear. intros V put mk l. induction l as [|e l IH]; intros d; [reflexivity|].
    cbn [map]. unfold disk_flush, write_all. cbn [fold_left fst snd]. apply IH. }
  assert (App : forall d w1 w2, disk_flush d (w1 ++ w2) = disk_flush (disk_flush d w1) w2)
    by (intros; unfold disk_flush; apply fold_left_app).
  unfold flush_loop, bw_insert_leaf, bw_insert_stem, bw_add_stem, bw_insert_branch. cbv zeta.
  rewrite (W _ (fun v => v) leaf_dkey leaves []), (W _ stem_meta_to_bytes stem_dkey stems).
  assert (Eb : forall w, fold_left (fun w (e : bytes * BranchChild) => match snd e with
       | CStem s => batch_put w (branch_dkey (fst e)) s
       | CBranch m => batch_put w (branch_dkey (fst e)) (branch_meta_to_bytes m) end) branches w =
     fold_left (fun w e => batch_put w (branch_dkey (fst e)) (branch_child_to_bytes (snd e))) branches w).
  { clear. induction branches as [|[p c] l IH]; intros w; [reflexivity|]. cbn [fold_left fst snd].
    rewrite IH. destruct c; reflexivity. }
  rewrite Eb, (W _ branch_child_to_bytes branch_dkey branches). cbn [app].
  rewrite !App, (D _ branch_child_to_bytes branch_dkey branches), (D _ stem_meta_to_bytes stem_dkey stems).
  pose proof (D _ (fun v : bytes => v) leaf_dkey leaves d) as D0. cbv beta in D0. rewrite D0.
  set (d1 := write_all (fun v : bytes => v) leaf_dkey leaves d).
  set (d2 := write_all stem_meta_to_bytes stem_dkey stems d1).
  pose proof (write_all_spec (fun v : bytes => v) LEAF_TABLE_MARKER (leaf_table b) _ d H1 dk) as S1.
  pose proof (write_all_spec stem_meta_to_bytes STEM_TABLE_MARKER (stem_table b) _ d1 H2 dk) as S2.
  pose proof (write_all_spec branch_child_to_bytes BRANCH_TABLE_MARKER (branch_table b) _ d2 H3 dk) as S3.
  change (write_all branch_child_to_bytes branch_dkey branches d2 dk)
    with (write_all branch_child_to_bytes (cons BRANCH_TABLE_MARKER) branches d2 dk).
  change (d1 dk = match dk with
    | [] => d []
    | b0 :: k => if b0 =? LEAF_TABLE_MARKER then match leaf_table b k with Some v => Some v | None => d dk end else d dk
    end) in S1.
  change (d2 dk = match dk with
    | [] => d1 []
    | b0 :: k => if b0 =? STEM_TABLE_MARKER then
        match stem_table b k with Some v => Some (stem_meta_to_bytes v) | None => d1 dk end else d1 dk
    end) in S2.
  rewrite S3. clear S3. unfold flush_disk. destruct dk as [|m k].
  - rewrite S2, S1. reflexivity.
  - rewrite S2, S1. clear S1 S2.
    unfold LEAF_TABLE_MARKER, STEM_TABLE_MARKER, BRANCH_TABLE_MARKER.
    destruct (Z.eqb_spec m 0) as [->|N0]; [reflexivity|].
    destruct (Z.eqb_spec m 1) as [->|N1]; [reflexivity|].
    destruct (Z.eqb_spec m 2) as [->|N2]; reflexivity.
Qed.

(** *** Point reads and flush *)

Lemma flush_disk_leaf d b k : flush_disk d b (leaf_dkey k) =
  match leaf_table b k with Some v => Some v | None => d (leaf_dkey k) end.
Proof. reflexivity. Qed.
Lemma flush_disk_stem d b k : flush_disk d b (stem_dkey k) =
  match stem_table b k with Some v => Some (stem_meta_to_bytes v) | None => d (stem_dkey k) end.
Proof. reflexivity. Qed.
Lemma flush_disk_branch d b k : flush_disk d b (branch_dkey k) =
  match branch_table b k with Some v => Some (branch_child_to_bytes v) | None => d (branch_dkey k) end.
Proof. reflexivity. Qed.

(** Decoding a branch record as metadata, from its decoding as a child. *)
Lemma child_as_meta c : branch_child_from_bytes (branch_child_to_bytes c) = Ok (Some c) ->
  branch_meta_from_bytes (branch_child_to_bytes c) =
  match c with CStem _ => Panic | CBranch m => Ok (Some m) end.
Proof.
  unfold branch_child_from_bytes. destruct (Nat.eqb_spec (length (branch_child_to_bytes c)) 31) as [E|E].
  - intros H. destruct c as [s|m]; [|discriminate]. apply branch_meta_short. lia.
  - destruct (branch_meta_from_bytes (branch_child_to_bytes c)) as [[m|]|]; cbn [rbind qbind]; try discriminate.
    intros H. injection H as H. subst c. reflexivity.
Qed.

Lemma flush_reads v : encodable (vd_batch v) -> same_reads (verkle_flush v) v.
Proof.
  intros (H1 & H2 & H3). repeat split.
  - intros k. unfold vd_get_leaf, verkle_flush. cbn [vd_cache vd_batch vd_storage mem_get_leaf leaf_table memory_db_new bempty].
    destruct (mem_get_leaf (vd_cache v) k); [reflexivity|].
    unfold mem_get_leaf. unfold disk_get_leaf. rewrite flush_disk_leaf. unfold bempty.
    destruct (leaf_table (vd_batch v) k) as [x|] eqn:E; [|reflexivity].
    unfold disk_value. rewrite (H1 _ _ E). reflexivity.
  - intros s. unfold vd_get_stem_meta, verkle_flush. cbn [vd_cache vd_batch vd_storage].
    destruct (mem_get_stem_meta (vd_cache v) s); [reflexivity|].
    unfold mem_get_stem_meta, disk_get_stem_meta. cbn [stem_table memory_db_new]. unfold bempty.
    rewrite flush_disk_stem. destruct (stem_table (vd_batch v) s) as [x|] eqn:E; [|reflexivity].
    unfold unwrap_res. rewrite (H2 _ _ E). reflexivity.
  - intros p. unfold vd_get_branch_meta, verkle_flush. cbn [vd_cache vd_batch vd_storage].
    destruct (mem_get_branch_meta (vd_cache v) p) as [[|]|]; cbn [rbind]; try reflexivity.
    unfold mem_get_branch_meta. cbn [branch_table memory_db_new]. unfold bempty. cbn [rbind].
    unfold disk_get_branch_meta. rewrite flush_disk_branch.
    destruct (branch_table (vd_batch v) p) as [x|] eqn:E; [|reflexivity].
    unfold unwrap_res. rewrite (child_as_meta x (H3 _ _ E)). destruct x; reflexivity.
  - intros p i. unfold vd_get_branch_child, verkle_flush. cbn [vd_cache vd_batch vd_storage].
    destruct (mem_get_branch_child (vd_cache v) p i); [reflexivity|].
    unfold mem_get_branch_child, disk_get_branch_child. cbn [branch_table memory_db_new]. unfold bempty.
    rewrite flush_disk_branch. destruct (branch_table (vd_batch v) (p ++ [i])) as [x|] eqn:E; [|reflexivity].
    unfold unwrap_res. rewrite (H3 _ _ E). reflexivity.
Qed.

Lemma flush_on_disk v : encodable (vd_batch v) ->
  let d := vd_storage (verkle_flush v) in
  (forall k x, leaf_table (vd_batch v) k = Some x -> disk_get_leaf d k = Ok (Some x)) /\
  (forall s m, stem_table (vd_batch v) s = Some m -> disk_get_stem_meta d s = Ok (Some m)) /\
  (forall p m, branch_table (vd_batch v) p = Some (CBranch m) -> disk_get_branch_meta d p = Ok (Some m)) /\
  (forall p i c, branch_table (vd_batch v) (p ++ [i]) = Some c -> disk_get_branch_child d p i = Ok (Some c)).
Proof.
  intros (H1 & H2 & H3). cbv zeta. unfold verkle_flush. cbn [vd_storage]. repeat split.
  - intros k x E. unfold disk_get_leaf. rewrite flush_disk_leaf, E. unfold disk_value. rewrite (H1 _ _ E). reflexivity.
  - intros s m E. unfold disk_get_stem_meta. rewrite flush_disk_stem, E. unfold unwrap_res. rewrite (H2 _ _ E). reflexivity.
  - intros p m E. unfold disk_get_branch_meta. rewrite flush_disk_branch, E. unfold unwrap_res.
    rewrite (child_as_meta _ (H3 _ _ E)). reflexivity.
  - intros p i c E. unfold disk_get_branch_child. rewrite flush_disk_branch, E. unfold unwrap_res.
    rewrite (H3 _ _ E). reflexivity.
Qed.

Lemma encodable_of_laws {CL : CodecLaws C} (b : MemoryDb) :
  (forall k v, leaf_table b k = Some v -> length v = 32%nat) ->
  (forall p s, branch_table b p = Some (CStem s) -> length s = 31%nat) -> encodable b.
Proof.
  intros H1 H2. repeat split.
  - exact H1.
  - intros s m _. apply stem_meta_rt.
  - intros p c E. apply branch_child_rt. destruct c; cbn [child_wf]; [eapply H2; eauto|exact I].
Qed.

End Flush.
