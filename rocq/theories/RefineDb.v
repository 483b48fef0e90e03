(** Computing on a cover of the group, continued: the in-memory database and the database on disk, whose
    records of commitments are read with a check that may refuse some of the values of an element. *)
From Verif Require Import Base BaseFacts Alg TrieModel CodecModel VerkleDbModel VerkleDbProofs DiskWeak Refine.

Section Cover.
Context {A : Alg} {P : Par A}.
Context {H : Type} {hz : H} {ha : H -> H -> H} {ho : H -> H} {hm : F -> H -> H} {he : H -> H -> bool}.
Local Notation A1 := (cover A H hz ha ho hm he).
Context {P1 : Par A1}.
Variable phi : H -> G.
Hypothesis phi_zero : phi hz = gzero.
Hypothesis phi_add : forall x y, phi (ha x y) = gadd (phi x) (phi y).
Hypothesis phi_mul : forall s x, phi (hm s x) = smul s (phi x).
Hypothesis phi_hash : forall x, @hash A1 P1 x = hash (phi x).
Hypothesis phi_crs : forall i, phi (@crs A1 P1 i) = crs i.
Local Notation smm := (@sm_map A H hz ha ho hm he phi).
Local Notation bmm := (@bm_map A H hz ha ho hm he phi).
Local Notation chm := (@ch_map A H hz ha ho hm he phi).

(** ** In memory *)
Record MemRel (d1 : @MemoryDb A1) (d2 : @MemoryDb A) : Prop := {
  mr_leaf : forall k, leaf_table d2 k = leaf_table d1 k;
  mr_stem : forall k, stem_table d2 k = option_map smm (stem_table d1 k);
  mr_branch : forall k, branch_table d2 k = option_map chm (branch_table d1 k)
}.
Lemma mem_rel_new : MemRel (@memory_db_new A1) (@memory_db_new A).
Proof. constructor; reflexivity. Qed.
Lemma upd_map {X Y} (f : X -> Y) m1 m2 k x : (forall j, m2 j = option_map f (m1 j)) -> forall j, upd m2 k (f x) j = option_map f (upd m1 k x j).
Proof. intros E j. unfold upd. destruct (beqb k j); [reflexivity|apply E]. Qed.
Lemma upd_same_map {X} (m1 m2 : bmap X) k x : (forall j, m2 j = m1 j) -> forall j, upd m2 k x j = upd m1 k x j.
Proof. intros E j. unfold upd. destruct (beqb k j); [reflexivity|apply E]. Qed.
Lemma mem_rel_leaf d1 d2 k x d : MemRel d1 d2 -> MemRel (fst (mem_insert_leaf d1 k x d)) (fst (mem_insert_leaf d2 k x d)).
Proof. intros [L S B]. constructor; cbn [mem_insert_leaf fst leaf_table stem_table branch_table]; auto. now apply upd_same_map. Qed.
Lemma mem_rel_stem d1 d2 k m d : MemRel d1 d2 -> MemRel (fst (mem_insert_stem d1 k m d)) (fst (mem_insert_stem d2 k (smm m) d)).
Proof. intros [L S B]. constructor; cbn [mem_insert_stem fst leaf_table stem_table branch_table]; auto. now apply upd_map. Qed.
Lemma mem_rel_branch d1 d2 k m d : MemRel d1 d2 -> MemRel (fst (mem_insert_branch d1 k m d)) (fst (mem_insert_branch d2 k (bmm m) d)).
Proof.
  intros [L S B]. constructor; cbn [mem_insert_branch fst leaf_table stem_table branch_table]; auto.
  change (CBranch (bmm m)) with (chm (CBranch m)). now apply upd_map.
Qed.
Lemma mem_rel_add d1 d2 k s d : MemRel d1 d2 -> MemRel (fst (mem_add_stem d1 k s d)) (fst (mem_add_stem d2 k s d)).
Proof.
  intros [L S B]. constructor; cbn [mem_add_stem fst leaf_table stem_table branch_table]; auto.
  change (@CStem A s) with (chm (CStem s)). now apply upd_map.
Qed.
Lemma mem_rel_meta (weak : Prop) d1 d2 p : MemRel d1 d2 -> rr weak (fun a b => b = option_map bmm a) (mem_get_branch_meta d1 p) (mem_get_branch_meta d2 p).
Proof. intros HR. unfold mem_get_branch_meta. rewrite (mr_branch _ _ HR). destruct (branch_table d1 p) as [[s|m]|]; cbn; auto. Qed.
Lemma mem_rel_old d1 d2 k m d : MemRel d1 d2 -> snd (mem_insert_branch d2 k (bmm m) d) = option_map bmm (snd (mem_insert_branch d1 k m d)).
Proof. intros HR. cbn [mem_insert_branch snd]. rewrite (mr_branch _ _ HR). destruct (branch_table d1 k) as [[s|x]|]; reflexivity. Qed.

Lemma mem_sim weak : DbSim phi (S1 := @MemoryDb A1) (S2 := @MemoryDb A) MemRel weak.
Proof.
  constructor; intros v1 v2; intros; cbn [get_stem_meta get_branch_meta get_branch_child get_leaf insert_leaf insert_stem insert_branch add_stem_as_branch_child memory_db_ops].
  - apply (mr_stem v1 v2). assumption.
  - now apply mem_rel_meta.
  - apply (mr_branch v1 v2). assumption.
  - symmetry. apply (mr_leaf v1 v2). assumption.
  - split; [now apply mem_rel_leaf|]. symmetry. apply (mr_leaf v1 v2). assumption.
  - now apply mem_rel_stem.
  - split; [now apply mem_rel_branch|now apply mem_rel_old].
  - now apply mem_rel_add.
Qed.
Lemma cover_run_mem kvs : rr False MemRel (@run_mem A1 P1 kvs) (@run_mem A P kvs).
Proof.
  unfold run_mem, run. eapply rr_bind.
  - eapply (cover_new phi phi_zero MemRel False (mem_sim False)). apply mem_rel_new.
  - intros x y HR. now apply (cover_insert phi phi_zero phi_add phi_mul phi_hash phi_crs MemRel False (mem_sim False)).
Qed.

(** ** On disk *)
Context {C : Codec A} {C1 : Codec A1}.
Variable bad : H -> bool.
Hypothesis pt_len1 : forall g, length (@pt_ser A1 C1 g) = 64%nat.
Hypothesis pt_len : forall g, length (@pt_ser A C g) = 64%nat.
Hypothesis fr_same : forall x, @fr_ser A1 C1 x = @fr_ser A C x.
Hypothesis fr_read : forall b, @fr_de A1 C1 b = @fr_de A C b.
Hypothesis fr_len : forall x, length (@fr_ser A C x) = 32%nat.
Hypothesis fr_back : forall x, @fr_de A C (@fr_ser A C x) = Some x.
Hypothesis pt_back1 : forall g, @pt_de A1 C1 (@pt_ser A1 C1 g) = if bad g then None else Some g.
Hypothesis pt_back : forall g, @pt_de A C (@pt_ser A C g) = Some g.
Hypothesis pt_read : forall b, @pt_de A C b = option_map phi (@pt_de A1 C1 b).

Lemma branch_read b : rr False (fun x y => y = option_map bmm x) (@branch_meta_from_bytes A1 C1 b) (@branch_meta_from_bytes A C b).
Proof.
  unfold branch_meta_from_bytes. destruct (_ =? _); [reflexivity|].
  apply (rr_bind _ eq); [apply rr_same|]. intros p _ <-. apply (rr_bind _ eq); [apply rr_same|]. intros s _ <-.
  rewrite pt_read, fr_read. destruct (@pt_de A1 C1 p) as [g|]; cbn [option_map qbind]; [|reflexivity]. destruct (fr_de s); reflexivity.
Qed.
Lemma child_read b : rr False (fun x y => y = option_map chm x) (@branch_child_from_bytes A1 C1 b) (@branch_child_from_bytes A C b).
Proof.
  unfold branch_child_from_bytes. destruct (_ =? _)%nat; [reflexivity|].
  apply (rr_bind _ _ _ _ _ _ _ (branch_read b)). intros o ? ->. destruct o; reflexivity.
Qed.
Lemma fr_len1 x : length (@fr_ser A1 C1 x) = 32%nat.
Proof. rewrite fr_same. apply fr_len. Qed.
Lemma fr_back1 x : @fr_de A1 C1 (@fr_ser A1 C1 x) = Some x.
Proof. rewrite fr_same, fr_read. apply fr_back. Qed.

(** Records of the same node: equal leaves, metadata of the same elements. *)
Record DiskRel (d1 d2 : Disk) : Prop := {
  dr_leaf : forall k, d2 (leaf_dkey k) = d1 (leaf_dkey k);
  dr_stem : forall s, exists o : option (@StemMeta A1),
    d1 (stem_dkey s) = option_map (@stem_meta_to_bytes A1 C1) o /\
    d2 (stem_dkey s) = option_map (fun m => @stem_meta_to_bytes A C (smm m)) o;
  dr_branch : forall p, exists o : option (@BranchChild A1),
    d1 (branch_dkey p) = option_map (@branch_child_to_bytes A1 C1) o /\
    d2 (branch_dkey p) = option_map (fun c => @branch_child_to_bytes A C (chm c)) o
}.
(** A record that the reader refuses. *)
Definition refused (d1 : Disk) : Prop :=
  (exists s b, d1 (stem_dkey s) = Some b /\ @stem_meta_from_bytes A1 C1 b = Ok None) \/
  (exists p b, d1 (branch_dkey p) = Some b /\ @branch_meta_from_bytes A1 C1 b = Ok None).

Lemma disk_stem d1 d2 s : DiskRel d1 d2 ->
  rr (refused d1) (fun a b => b = option_map smm a) (@disk_get_stem_meta A1 C1 d1 s) (@disk_get_stem_meta A C d2 s).
Proof.
  intro HR. destruct (dr_stem _ _ HR s) as (o & E1 & E2). unfold disk_get_stem_meta. rewrite E1, E2.
  destruct o as [m|]; cbn [option_map]; [|reflexivity].
  pose proof (@weak_stem A1 C1 bad pt_len1 fr_len1 fr_back1 pt_back1 m) as W1.
  pose proof (@weak_stem A C (fun _ => false) pt_len fr_len fr_back pt_back (smm m)) as W2. cbn [orb] in W2.
  rewrite W2. unfold unwrap_res. rewrite W1. destruct (bad _ || bad _ || bad _); cbn [rbind unwrap rr option_map]; [|reflexivity].
  left. exists s, (@stem_meta_to_bytes A1 C1 m). now rewrite E1.
Qed.
Lemma disk_branch d1 d2 p : DiskRel d1 d2 ->
  rr (refused d1) (fun a b => b = option_map bmm a) (@disk_get_branch_meta A1 C1 d1 p) (@disk_get_branch_meta A C d2 p).
Proof.
  intro HR. destruct (dr_branch _ _ HR p) as (o & E1 & E2). unfold disk_get_branch_meta. rewrite E1, E2.
  destruct o as [[s|m]|]; cbn [option_map branch_child_to_bytes ch_map]; [| |reflexivity].
  - unfold unwrap_res. apply (rr_bind _ (fun x y => y = bmm x)); [|intros x ? ->; reflexivity].
    apply (rr_bind _ (fun x y => y = option_map bmm x)); [|intros x y E; now apply rr_unwrap].
    eapply rr_mono; [| |apply branch_read]; [contradiction|intros ? ? E; exact E].
  - pose proof (@weak_branch A1 C1 bad pt_len1 fr_len1 fr_back1 pt_back1 m) as W1.
    pose proof (@weak_branch A C (fun _ => false) pt_len fr_len fr_back pt_back (bmm m)) as W2.
    rewrite W2. unfold unwrap_res. rewrite W1. destruct (bad _); cbn [rbind unwrap rr option_map]; [|reflexivity].
    right. exists p, (@branch_meta_to_bytes A1 C1 m). now rewrite E1.
Qed.
Lemma record_len (C' : Alg) (X : Codec C') m : (forall g, length (@pt_ser C' X g) = 64%nat) -> (forall x, length (@fr_ser C' X x) = 32%nat) ->
  (length (@branch_meta_to_bytes C' X m) =? 31)%nat = false.
Proof. intros H1 H2. unfold branch_meta_to_bytes. now rewrite app_length, H1, H2. Qed.
Lemma disk_child d1 d2 p i : DiskRel d1 d2 ->
  rr (refused d1) (fun a b => b = option_map chm a) (@disk_get_branch_child A1 C1 d1 p i) (@disk_get_branch_child A C d2 p i).
Proof.
  intro HR. destruct (dr_branch _ _ HR (p ++ [i])) as (o & E1 & E2). unfold disk_get_branch_child. rewrite E1, E2.
  destruct o as [[s|m]|]; cbn [option_map branch_child_to_bytes ch_map]; [| |reflexivity].
  - unfold unwrap_res. apply (rr_bind _ (fun x y => y = chm x)); [|intros x ? ->; reflexivity].
    apply (rr_bind _ (fun x y => y = option_map chm x)); [|intros x y E; now apply rr_unwrap].
    eapply rr_mono; [| |apply child_read]; [contradiction|intros ? ? E; exact E].
  - pose proof (@weak_branch A1 C1 bad pt_len1 fr_len1 fr_back1 pt_back1 m) as W1.
    pose proof (@weak_branch A C (fun _ => false) pt_len fr_len fr_back pt_back (bmm m)) as W2.
    unfold branch_child_from_bytes. rewrite !record_len by (assumption || apply fr_len1). rewrite W2. unfold unwrap_res. rewrite W1.
    destruct (bad _); cbn [rbind qbind unwrap rr option_map ch_map]; [|reflexivity].
    right. exists (p ++ [i]), (@branch_meta_to_bytes A1 C1 m). now rewrite E1.
Qed.
Lemma disk_leaf weak d1 d2 k : DiskRel d1 d2 -> rr weak eq (disk_get_leaf d1 k) (disk_get_leaf d2 k).
Proof. intro HR. unfold disk_get_leaf. rewrite (dr_leaf _ _ HR). apply rr_same. Qed.
Lemma disk_rel_flush d1 d2 m1 m2 : DiskRel d1 d2 -> MemRel m1 m2 -> DiskRel (@flush_disk A1 C1 d1 m1) (@flush_disk A C d2 m2).
Proof.
  intros [L S B] HM. constructor.
  - intro k. rewrite !flush_disk_leaf, (mr_leaf _ _ HM), L. reflexivity.
  - intro s. rewrite !flush_disk_stem, (mr_stem _ _ HM). destruct (stem_table m1 s) as [m|]; [|exact (S s)]. exists (Some m). split; reflexivity.
  - intro p. rewrite !flush_disk_branch, (mr_branch _ _ HM). destruct (branch_table m1 p) as [m|]; [|exact (B p)]. exists (Some m). split; reflexivity.
Qed.
Lemma disk_rel_empty : DiskRel bempty bempty.
Proof. constructor; intros; try reflexivity; exists None; split; reflexivity. Qed.

Record VdRel (v1 : @VerkleDb A1) (v2 : @VerkleDb A) : Prop := {
  vr_storage : DiskRel (vd_storage v1) (vd_storage v2);
  vr_batch : MemRel (vd_batch v1) (vd_batch v2);
  vr_cache : MemRel (vd_cache v1) (vd_cache v2)
}.
Definition VdAt (d : Disk) v1 v2 : Prop := vd_storage v1 = d /\ VdRel v1 v2.

Lemma vd_sim d : DbSim phi (S1 := @VerkleDb A1) (S2 := @VerkleDb A) (D1 := @verkle_db_ops A1 C1) (D2 := @verkle_db_ops A C) (VdAt d) (refused d).
Proof.
  constructor; intros v1 v2.
  - intros s [<- HR]. cbn [get_stem_meta verkle_db_ops]. unfold vd_get_stem_meta, mem_get_stem_meta. rewrite (mr_stem _ _ (vr_cache _ _ HR)), (mr_stem _ _ (vr_batch _ _ HR)).
    destruct (stem_table (vd_cache v1) s); [reflexivity|]. cbn [option_map]. destruct (stem_table (vd_batch v1) s); [reflexivity|]. apply disk_stem, HR.
  - intros p [<- HR]. cbn [get_branch_meta verkle_db_ops]. unfold vd_get_branch_meta.
    apply (rr_bind _ _ _ _ _ _ _ (mem_rel_meta _ _ _ p (vr_cache _ _ HR))). intros a ? ->. destruct a; [reflexivity|]. cbn [option_map].
    apply (rr_bind _ _ _ _ _ _ _ (mem_rel_meta _ _ _ p (vr_batch _ _ HR))). intros a ? ->. destruct a; [reflexivity|]. cbn [option_map]. apply disk_branch, HR.
  - intros p i [<- HR]. cbn [get_branch_child verkle_db_ops]. unfold vd_get_branch_child, mem_get_branch_child.
    rewrite (mr_branch _ _ (vr_cache _ _ HR)), (mr_branch _ _ (vr_batch _ _ HR)).
    destruct (branch_table (vd_cache v1) _); [reflexivity|]. cbn [option_map]. destruct (branch_table (vd_batch v1) _); [reflexivity|]. apply disk_child, HR.
  - intros k [<- HR]. cbn [get_leaf verkle_db_ops]. unfold vd_get_leaf, mem_get_leaf. rewrite (mr_leaf _ _ (vr_cache _ _ HR)), (mr_leaf _ _ (vr_batch _ _ HR)).
    destruct (leaf_table (vd_cache v1) _); [reflexivity|]. destruct (leaf_table (vd_batch v1) _); [reflexivity|]. apply disk_leaf, HR.
  - intros k x e [<- [RS RB RC]]. cbn [insert_leaf verkle_db_ops]. unfold vd_insert_leaf.
    split; [|symmetry; apply (mr_leaf _ _ RB)]. split; [reflexivity|]. constructor; cbn [fst vd_storage vd_batch vd_cache mem_insert_leaf].
    + exact RS.
    + exact (mem_rel_leaf _ _ k x e RB).
    + destruct (e <=? CACHE_DEPTH); [exact (mem_rel_leaf _ _ k x e RC)|exact RC].
  - intros k m e [<- [RS RB RC]]. cbn [insert_stem verkle_db_ops]. unfold vd_insert_stem.
    split; [reflexivity|]. constructor; cbn [fst vd_storage vd_batch vd_cache mem_insert_stem].
    + exact RS.
    + exact (mem_rel_stem _ _ k m e RB).
    + destruct (e <=? CACHE_DEPTH); [exact (mem_rel_stem _ _ k m e RC)|exact RC].
  - intros k m e [<- [RS RB RC]]. cbn [insert_branch verkle_db_ops]. unfold vd_insert_branch.
    split; [|exact (mem_rel_old _ _ k m e RB)].
    split; [reflexivity|]. constructor; cbn [fst vd_storage vd_batch vd_cache mem_insert_branch].
    + exact RS.
    + exact (mem_rel_branch _ _ k m e RB).
    + destruct (e <=? CACHE_DEPTH); [exact (mem_rel_branch _ _ k m e RC)|exact RC].
  - intros k s e [<- [RS RB RC]]. cbn [add_stem_as_branch_child verkle_db_ops]. unfold vd_add_stem.
    split; [reflexivity|]. constructor; cbn [fst vd_storage vd_batch vd_cache mem_add_stem].
    + exact RS.
    + exact (mem_rel_add _ _ k s e RB).
    + destruct (e <=? CACHE_DEPTH); [exact (mem_rel_add _ _ k s e RC)|exact RC].
Qed.

Lemma vd_rel_open d1 d2 : DiskRel d1 d2 -> VdRel (@verkle_open A1 d1) (@verkle_open A d2).
Proof. intro. constructor; [assumption|apply mem_rel_new..]. Qed.
Lemma cover_step v1 v2 o : VdRel v1 v2 -> rr (refused (vd_storage v1)) VdRel (@op_step A1 P1 C1 v1 o) (@op_step A P C v2 o).
Proof.
  intro HR. assert (HA : VdAt (vd_storage v1) v1 v2) by (split; [reflexivity|exact HR]). destruct o as [k x| |]; cbn [op_step].
  - eapply rr_mono; [intro W; exact W| |apply (cover_insert_single phi phi_zero phi_add phi_mul phi_hash phi_crs _ _ (vd_sim (vd_storage v1)) _ _ (k, x) HA)].
    intros ? ? [_ X]. exact X.
  - destruct HR as [RS RB RC]. constructor; cbn [verkle_flush vd_storage vd_batch vd_cache]; [now apply disk_rel_flush|apply mem_rel_new|exact RC].
  - eapply rr_mono; [intro W; exact W| |eapply (cover_new phi phi_zero _ _ (vd_sim (vd_storage v1)))].
    + intros ? ? [_ X]. exact X.
    + split; [reflexivity|]. apply vd_rel_open, HR.
Qed.

(** The run on the cover gives a related state, or stopped at a step that found a refused record. *)
Definition cover_result (r : list Op -> res (@VerkleDb A1)) (l : list Op) (b : res (@VerkleDb A)) : Prop :=
  match r l, b with
  | Ok v1, Ok v2 => VdRel v1 v2
  | Panic, Panic => True
  | Panic, Ok _ => exists l1 l2 v, l = l1 ++ l2 /\ r l1 = Ok v /\ refused (vd_storage v)
  | Ok _, Panic => False
  end.
Lemma cover_op_run l : forall v1 v2, VdRel v1 v2 -> cover_result (@op_run A1 P1 C1 v1) l (@op_run A P C v2 l).
Proof.
  induction l as [|o l IH]; intros v1 v2 HR; [exact HR|]. unfold cover_result. cbn [op_run].
  pose proof (cover_step v1 v2 o HR) as St. destruct (@op_step A1 P1 C1 v1 o) as [w1|] eqn:E1, (@op_step A P C v2 o) as [w2|] eqn:E2; cbn [rbind]; try contradiction; auto.
  - pose proof (IH w1 w2 St) as X. unfold cover_result in X.
    destruct (@op_run A1 P1 C1 w1 l) as [x1|], (@op_run A P C w2 l) as [x2|]; auto. destruct X as (l1 & l2 & v & -> & Er & Rf).
    exists (o :: l1), l2, v. split; [reflexivity|]. split; [|exact Rf]. cbn [op_run]. rewrite E1. exact Er.
  - destruct (@op_run A P C w2 l); [|exact I]. exists [], (o :: l), v1. split; [reflexivity|]. split; [reflexivity|exact St].
Qed.
Lemma not_refused_empty : ~ refused bempty.
Proof. intros [(s & b & E & _)|(p & b & E & _)]; discriminate. Qed.
Lemma cover_run_disk l : cover_result (@run_disk A1 P1 C1) l (@run_disk A P C l).
Proof.
  unfold cover_result, run_disk.
  assert (HA : VdAt bempty (@verkle_open A1 bempty) (@verkle_open A bempty)) by (split; [reflexivity|apply vd_rel_open, disk_rel_empty]).
  pose proof (cover_new phi phi_zero _ _ (vd_sim bempty) _ _ HA) as St.
  destruct (@trie_new A1 _ _ (@verkle_open A1 bempty)) as [w1|] eqn:E1, (@trie_new A _ _ (@verkle_open A bempty)) as [w2|] eqn:E2; cbn [rbind]; try contradiction; auto.
  - exact (cover_op_run l w1 w2 (proj2 St)).
  - exfalso. exact (not_refused_empty St).
Qed.
End Cover.
