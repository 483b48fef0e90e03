(** Counterexamples for C09, C11, C12 and C14. *)
From Verif Require Import Base BaseFacts Alg AlgInst TreeSpec TrieModel CodecModel VerkleDbModel DbSpec
  VerkleDbProofs CodecInst.

(** Two keys whose stems differ first at byte 4. *)
Definition kA : bytes := [0; 0; 0; 0; 1] ++ repeat 7 27.
Definition kB : bytes := [0; 0; 0; 0; 2] ++ repeat 7 27.
Definition val (n : Z) : bytes := repeat n 32.

(** Decidable form of [wf_ops] for concrete sequences. *)
Fixpoint ops_okb (l : list Op) : bool :=
  match l with
  | [] => true
  | OInsert k v :: l' =>
      (length k =? 32)%nat && forallb (fun b => (0 <=? b) && (b <? 256)) k && (length v =? 32)%nat && ops_okb l'
  | _ :: l' => ops_okb l'
  end.
Lemma ops_okb_ok l : ops_okb l = true -> wf_ops l.
Proof.
  induction l as [|o l IH]; intros H k v Hin; [destruct Hin|].
  destruct Hin as [->|Hin].
  - cbn [ops_okb] in H. apply andb_true_iff in H as [H H4]. apply andb_true_iff in H as [H H3].
    apply andb_true_iff in H as [H1 H2]. apply Nat.eqb_eq in H1, H3. split; [|exact H3]. split; [exact H1|].
    apply Forall_forall. intros b Hb. rewrite forallb_forall in H2. specialize (H2 b Hb). unfold is_byte. lia.
  - assert (H' : ops_okb l = true).
    { destruct o; cbn [ops_okb] in H; [apply andb_true_iff in H as [_ H]|..]; exact H. }
    exact (IH H' k v Hin).
Qed.

Section Generic.
Context {A : Alg} {P : Par A} {C : Codec A}.

Definition stale_ops : list Op := [OInsert kA (val 1); OInsert kB (val 2); OInsert kB (val 3)].

Lemma stale_read : exists v, run_disk stale_ops = Ok v /\ trie_get v kB = Ok (Some (val 2)) /\
  final_map (contents stale_ops) kB = Some (val 3).
Proof.
  assert (H : rbind (run_disk stale_ops) (fun v => trie_get v kB) = Ok (Some (val 2))) by (vm_compute; reflexivity).
  destruct (run_disk stale_ops) as [v|]; [|discriminate H]. exists v. split; [reflexivity|]. split; [exact H|].
  vm_compute. reflexivity.
Qed.

Lemma stale_crash : exists v, run_disk (stale_ops ++ [OFlush]) = Ok v /\ trie_get v kB = Ok (Some (val 2)) /\
  trie_get (verkle_open (vd_storage v)) kB = Ok (Some (val 3)).
Proof.
  assert (H : rbind (run_disk (stale_ops ++ [OFlush])) (fun v =>
     let! a := trie_get v kB in let! b := trie_get (verkle_open (vd_storage v)) kB in Ok (a, b))
     = Ok (Some (val 2), Some (val 3))) by (vm_compute; reflexivity).
  destruct (run_disk (stale_ops ++ [OFlush])) as [v|]; [|discriminate H]. exists v. cbn [rbind] in H.
  destruct (trie_get v kB) as [a|]; [|discriminate H]. cbn [rbind] in H.
  destruct (trie_get (verkle_open (vd_storage v)) kB) as [b|]; [|discriminate H]. cbn [rbind] in H.
  injection H as H1 H2. subst. auto.
Qed.

(** The branch at path [0,0,0,0] has three children; only two are listed. *)
Definition kC : bytes := [0; 0; 0; 0; 3] ++ repeat 7 27.
Definition three_ops : list Op := [OInsert kA (val 1); OInsert kB (val 2); OInsert kC (val 3)].
Lemma listing_misses : exists v l c, run_disk three_ops = Ok v /\
  vd_get_branch_children v [0; 0; 0; 0] = Ok l /\ vd_get_branch_child v [0; 0; 0; 0] 3 = Ok (Some c) /\ ~ In (3, c) l.
Proof.
  assert (H : rbind (run_disk three_ops) (fun v =>
     let! a := vd_get_branch_children v [0; 0; 0; 0] in
     let! b := vd_get_branch_child v [0; 0; 0; 0] 3 in Ok (a, b))
     = Ok ([(1, CStem (firstn 31 kA)); (2, CStem (firstn 31 kB))], Some (CStem (firstn 31 kC)))) by (vm_compute; reflexivity).
  destruct (run_disk three_ops) as [v|]; [|discriminate H].
  exists v, [(1, CStem (firstn 31 kA)); (2, CStem (firstn 31 kB))], (CStem (firstn 31 kC)). cbn [rbind] in H.
  destruct (vd_get_branch_children v [0; 0; 0; 0]) as [a|]; [|discriminate H]. cbn [rbind] in H.
  destruct (vd_get_branch_child v [0; 0; 0; 0] 3) as [b|]; [|discriminate H]. cbn [rbind] in H.
  injection H as H1 H2. rewrite H1, H2. repeat split; auto. intros [X|[X|[]]]; discriminate X.
Qed.

(** A stem record whose commitment does not decode makes every later read of
    that stem panic once it is on disk and no longer cached. *)
Lemma undecodable_stem_panics v s m : (forall g, length (pt_ser g) = 64%nat) -> (forall x, length (fr_ser x) = 32%nat) ->
  stem_table (vd_batch v) s = Some m -> pt_de (pt_ser (sm_comm m)) = None ->
  vd_get_stem_meta (verkle_open (vd_storage (verkle_flush v))) s = Panic.
Proof.
  intros Hp Hf Es N3. unfold vd_get_stem_meta, verkle_open, verkle_flush. cbn [vd_cache vd_batch vd_storage].
  unfold mem_get_stem_meta, memory_db_new, bempty. cbn [stem_table]. unfold disk_get_stem_meta. rewrite flush_disk_stem, Es.
  destruct m as [c1 h1 c2 h2 c h]. cbn [sm_comm] in N3.
  unfold unwrap_res, stem_meta_from_bytes, stem_meta_to_bytes. cbn [sm_c1 sm_c2 sm_comm sm_hash_c1 sm_hash_c2 sm_hash_comm].
  rewrite !app_length, !Hp, !Hf. cbn [Nat.eqb Nat.add Nat.mul negb].
  set (b := pt_ser c1 ++ _).
  assert (E : b = (pt_ser c1 ++ pt_ser c2 ++ pt_ser c) ++ fr_ser h1 ++ fr_ser h2 ++ fr_ser h)
    by (unfold b; rewrite <- !app_assoc; reflexivity).
  assert (E1 : slice 0 192 b = Ok (pt_ser c1 ++ pt_ser c2 ++ pt_ser c)).
  { rewrite E. apply (slice_app_mid [] _ _ 0 192); [reflexivity|]. rewrite !app_length, !Hp. reflexivity. }
  rewrite E1. cbn [rbind].
  rewrite (slice_app_first (pt_ser c1) _ 64) by apply Hp. cbn [rbind].
  destruct (pt_de (pt_ser c1)); [|reflexivity]. cbn [qbind].
  rewrite (slice_app_mid (pt_ser c1) (pt_ser c2) (pt_ser c) 64 128) by (rewrite ?Hp; reflexivity). cbn [rbind].
  destruct (pt_de (pt_ser c2)); [|reflexivity]. cbn [qbind].
  assert (E3 : slice 128 192 (pt_ser c1 ++ pt_ser c2 ++ pt_ser c) = Ok (pt_ser c)).
  { rewrite (app_assoc (pt_ser c1)).
    apply slice_app_last; rewrite app_length, ?Hp; reflexivity. }
  rewrite E3. cbn [rbind]. rewrite N3. reflexivity.
Qed.
End Generic.

(** Updating a flushed leaf computes the delta against nothing. *)
Definition rewrite_ops : list Op := [OInsert kA (val 1); OFlush; OInsert kA (val 2)].
Lemma rewrite_wrong_root : exists v db, run_disk rewrite_ops = Ok v /\ run_mem (contents rewrite_ops) = Ok db /\
  root_commitment v <> root_commitment db.
Proof.
  assert (H : rbind (run_disk rewrite_ops) (fun v => rbind (run_mem (contents rewrite_ops)) (fun db =>
     let! a := root_commitment v in let! b := root_commitment db in Ok (zval p31 a =? zval p31 b)))
     = Ok false) by (vm_compute; reflexivity).
  destruct (run_disk rewrite_ops) as [v|]; [|discriminate H].
  destruct (run_mem (contents rewrite_ops)) as [db|]; [|discriminate H]. exists v, db. cbn [rbind] in H.
  split; [reflexivity|]. split; [reflexivity|]. intros E. rewrite E in H.
  destruct (root_commitment db) as [b|]; [|discriminate H]. cbn [rbind] in H. rewrite Z.eqb_refl in H. discriminate H.
Qed.

(** After reopening, the root has a child that is not listed. *)
Definition reopen_ops : list Op := [OInsert kA (val 1); OFlush; OReopen].
Lemma reopen_listing : exists v c, run_disk reopen_ops = Ok v /\
  vd_get_branch_children v [] = Ok [] /\ vd_get_branch_child v [] 0 = Ok (Some c).
Proof.
  assert (H : rbind (run_disk reopen_ops) (fun v =>
     let! a := vd_get_branch_children v [] in let! b := vd_get_branch_child v [] 0 in
     Ok (length a, match b with Some (CStem s) => s | _ => [] end))
     = Ok (0%nat, firstn 31 kA)) by (vm_compute; reflexivity).
  destruct (run_disk reopen_ops) as [v|]; [|discriminate H].
  exists v, (CStem (firstn 31 kA)). cbn [rbind] in H.
  destruct (vd_get_branch_children v []) as [a|]; [|discriminate H]. cbn [rbind] in H.
  destruct (vd_get_branch_child v [] 0) as [b|]; [|discriminate H]. cbn [rbind] in H.
  injection H as H1 H2. destruct a; [|discriminate H1]. destruct b as [[s|m]|]; try discriminate H2.
  subst s. auto.
Qed.

(** After reopening and adding one suffix, the listing of the stem forgets the
    suffixes on disk. *)
Definition kA2 : bytes := [0; 0; 0; 0; 1] ++ repeat 7 26 ++ [9].
Definition suffix_ops : list Op := [OInsert kA (val 1); OFlush; OReopen; OInsert kA2 (val 2)].
Lemma reopen_stem_listing : exists v l, run_disk suffix_ops = Ok v /\
  vd_get_stem_children v (firstn 31 kA) = Ok l /\ vd_get_leaf v kA = Ok (Some (val 1)) /\ ~ In (7, val 1) l.
Proof.
  assert (H : rbind (run_disk suffix_ops) (fun v =>
     let! a := vd_get_stem_children v (firstn 31 kA) in let! b := vd_get_leaf v kA in Ok (a, b))
     = Ok ([(9, val 2)], Some (val 1))) by (vm_compute; reflexivity).
  destruct (run_disk suffix_ops) as [v|]; [|discriminate H].
  exists v, [(9, val 2)]. cbn [rbind] in H.
  destruct (vd_get_stem_children v (firstn 31 kA)) as [a|]; [|discriminate H]. cbn [rbind] in H.
  destruct (vd_get_leaf v kA) as [b|]; [|discriminate H]. cbn [rbind] in H.
  injection H as H1 H2. rewrite H1, H2. repeat split; auto. intros [X|[]]; discriminate X.
Qed.

(** With generator 0 held by a representative arkworks refuses: a key is
    inserted and flushed; after reopening, inserting next to it panics. *)
Definition tA : bytes := 1 :: repeat 7 31.
Definition tB : bytes := 1 :: repeat 7 30 ++ [9].
Definition torsion_ops : list Op := [OInsert tA (val 1); OFlush; OReopen].
Lemma torsion_panics : exists v, @run_disk ExTA ExTP ExTC torsion_ops = Ok v /\
  @trie_get ExTA _ (@verkle_db_ops ExTA ExTC) v tA = Ok (Some (val 1)) /\
  @insert_single ExTA ExTP _ (@verkle_db_ops ExTA ExTC) v (tB, val 2) = Panic.
Proof.
  assert (H : rbind (@run_disk ExTA ExTP ExTC torsion_ops) (fun v =>
     let! a := @trie_get ExTA _ (@verkle_db_ops ExTA ExTC) v tA in
     Ok (a, match @insert_single ExTA ExTP _ (@verkle_db_ops ExTA ExTC) v (tB, val 2) with Panic => true | Ok _ => false end))
     = Ok (Some (val 1), true)) by (vm_compute; reflexivity).
  destruct (@run_disk ExTA ExTP ExTC torsion_ops) as [v|]; [|discriminate H]. exists v. cbn [rbind] in H.
  destruct (@trie_get ExTA _ (@verkle_db_ops ExTA ExTC) v tA) as [a|]; [|discriminate H]. cbn [rbind] in H.
  destruct (@insert_single ExTA ExTP _ (@verkle_db_ops ExTA ExTC) v (tB, val 2)); [discriminate H|].
  injection H as H1. subst. auto.
Qed.

(** A sequence meeting the hypotheses of the C09 theorem: six insertions over
    four stems, two flushes, two reopenings (the second loses an insertion). *)
Definition e1 : bytes := 1 :: repeat 0 31.
Definition e2 : bytes := 1 :: repeat 0 30 ++ [200].
Definition e3 : bytes := [1; 5] ++ repeat 0 30.
Definition e4 : bytes := [1; 5; 9] ++ repeat 2 29.
Definition e5 : bytes := repeat 250 32.
Definition ok_ops : list Op :=
  [OInsert e1 (val 1); OInsert e3 (val 3); OInsert e3 (val 4); OFlush; OInsert e2 (val 2); OInsert e1 (val 1);
   OFlush; OReopen; OInsert e5 (val 5); OReopen; OInsert e4 (val 6); OInsert e4 (val 7)].

Fixpoint spreadb (ks : list bytes) : bool :=
  match ks with
  | [] => true
  | k :: r => forallb (fun k' => negb (beqb (firstn 4 k) (firstn 4 k')) || beqb (firstn 31 k) (firstn 31 k')) r && spreadb r
  end.
Definition op_keys (l : list Op) : list bytes := flat_map (fun o => match o with OInsert k _ => [k] | _ => [] end) l.
Lemma spreadb_ok l : spreadb (op_keys l) = true -> spread_ops l.
Proof.
  intros H k1 v1 k2 v2 H1 H2.
  assert (I1 : In k1 (op_keys l)) by (apply in_flat_map; eexists; split; [exact H1|left; reflexivity]).
  assert (I2 : In k2 (op_keys l)) by (apply in_flat_map; eexists; split; [exact H2|left; reflexivity]).
  clear H1 H2 v1 v2. revert H I1 I2. generalize (op_keys l) as ks. clear l.
  induction ks as [|k r IH]; intros H I1 I2 E; [destruct I1|].
  cbn [spreadb] in H. apply andb_true_iff in H as [H1 H2]. rewrite forallb_forall in H1.
  destruct I1 as [->|I1], I2 as [->|I2]; [reflexivity| | |exact (IH H2 I1 I2 E)].
  - specialize (H1 _ I2). apply orb_true_iff in H1 as [H1|H1]; [|apply beqb_eq; exact H1].
    rewrite E, beqb_refl in H1. discriminate.
  - specialize (H1 _ I1). apply orb_true_iff in H1 as [H1|H1]; [|symmetry; apply beqb_eq; exact H1].
    rewrite E, beqb_refl in H1. discriminate.
Qed.

Definition crowdedb (h : history) (q : bytes) : bool :=
  existsb (fun kv => beqb (firstn 4 (fst kv)) q &&
    existsb (fun kv' => beqb (firstn 4 (fst kv')) q && negb (beqb (firstn 31 (fst kv)) (firstn 31 (fst kv')))) h) h.
Lemma crowdedb_iff h q : crowdedb h q = true <-> crowded h q.
Proof.
  unfold crowdedb, crowded. rewrite existsb_exists. split.
  - intros ([k1 v1] & H1 & E). apply andb_true_iff in E as [E1 E]. apply existsb_exists in E as ([k2 v2] & H2 & E).
    apply andb_true_iff in E as [E2 E]. apply beqb_eq in E1, E2. apply negb_true_iff in E.
    exists k1, v1, k2, v2. repeat (split; [assumption|]). cbn [fst] in E. intro X. rewrite X, beqb_refl in E. discriminate.
  - intros (k1 & v1 & k2 & v2 & H1 & H2 & Q1 & Q2 & N). exists (k1, v1). split; [exact H1|]. cbn [fst].
    rewrite Q1, beqb_refl. apply existsb_exists. exists (k2, v2). split; [exact H2|]. cbn [fst]. rewrite Q2, beqb_refl.
    destruct (beqb_spec (firstn 31 k1) (firstn 31 k2)); [contradiction|reflexivity].
Qed.
Fixpoint settledb (before l : list Op) : bool :=
  match l with
  | [] => true
  | o :: l' =>
      (match o with
       | OInsert k v => (match final_map (contents before) k with Some w => beqb w v | None => false end)
                        || negb (crowdedb (contents before) (firstn 4 k)) || crowdedb (last_open before) (firstn 4 k)
       | _ => true end)
      && settledb (before ++ [o]) l'
  end.
Lemma settledb_ok l : settledb [] l = true -> settled_ops l.
Proof.
  enough (G : forall l b, settledb b l = true -> forall l1 k v l2, l = l1 ++ OInsert k v :: l2 ->
    final_map (contents (b ++ l1)) k = Some v \/
    (crowded (contents (b ++ l1)) (firstn 4 k) -> crowded (last_open (b ++ l1)) (firstn 4 k))).
  { intros H l1 k v l2 E. exact (G l [] H l1 k v l2 E). }
  clear l. induction l as [|o l IH]; intros b H l1 k v l2 E; [destruct l1; discriminate|].
  cbn [settledb] in H. apply andb_true_iff in H as [H1 H2]. destruct l1 as [|o1 l1]; cbn [app] in E; injection E as -> ->.
  - rewrite app_nil_r. rewrite !orb_true_iff in H1. destruct H1 as [[H1|H1]|H1].
    + left. destruct (final_map (contents b) k) as [w|]; [|discriminate]. apply beqb_eq in H1. subst w. reflexivity.
    + right. intros X. apply crowdedb_iff in X. rewrite X in H1. discriminate.
    + right. intros _. apply crowdedb_iff. exact H1.
  - specialize (IH _ H2 l1 k v l2 eq_refl). rewrite <- app_assoc in IH. exact IH.
Qed.

(** Stems that share ten bytes: two in the first session; more, an added suffix, a value changed
    before it is flushed and a lost insertion after reopening. *)
Definition dk (i j s : Z) : bytes := repeat 3 10 ++ [i] ++ repeat j 20 ++ [s].
Definition deep_ops : list Op :=
  [OInsert e1 (val 9); OInsert (dk 1 0 0) (val 1); OInsert (dk 2 0 0) (val 2); OInsert (dk 1 0 0) (val 1); OFlush;
   OReopen; OInsert (dk 2 0 7) (val 3); OInsert (dk 1 1 0) (val 4); OInsert (dk 1 1 0) (val 5); OFlush;
   OInsert (dk 3 0 0) (val 6); OInsert (dk 1 0 8) (val 7); OReopen; OInsert (dk 1 1 5) (val 8)].

(** Two stems that come to share ten bytes, then a third one in the same session; and two that part at
    the fifth byte, then a third one next to the second. *)
Definition hot_ops : list Op := [OInsert e1 (val 9); OFlush; OReopen; OInsert (dk 1 0 0) (val 1); OFlush; OInsert (dk 2 0 0) (val 2)].
Definition part (i j : Z) : bytes := repeat 3 4 ++ [i] ++ repeat j 27.
Definition part_ops : list Op := [OInsert (part 1 0) (val 1); OInsert (part 2 0) (val 2)].
Definition root_of (l : list Op) : option Z :=
  match run_disk (A := ExA) l with Ok v => match root_commitment v with Ok c => Some (zval _ c) | Panic => None end | Panic => None end.
Definition mem_root_of (h : history) : option Z :=
  match run_mem (A := ExA) h with Ok db => match root_commitment db with Ok c => Some (zval _ c) | Panic => None end | Panic => None end.

Definition opt_is (o : option bytes) (v : bytes) : bool := match o with None => true | Some w => beqb w v end.
Fixpoint no_rewriteb (before l : list Op) : bool :=
  match l with
  | [] => true
  | o :: l' =>
      (match o with OInsert k v => opt_is (final_map (durable before) k) v | _ => true end)
      && no_rewriteb (before ++ [o]) l'
  end.
Lemma no_rewriteb_ok l : no_rewriteb [] l = true -> no_rewrite l.
Proof.
  enough (G : forall l b, no_rewriteb b l = true -> forall l1 k v l2, l = l1 ++ OInsert k v :: l2 ->
    final_map (durable (b ++ l1)) k = None \/ final_map (durable (b ++ l1)) k = Some v).
  { intros H l1 k v l2 E. exact (G l [] H l1 k v l2 E). }
  clear l. induction l as [|o l IH]; intros b H l1 k v l2 E; [destruct l1; discriminate|].
  cbn [no_rewriteb] in H. apply andb_true_iff in H as [H1 H2]. destruct l1 as [|o1 l1]; cbn [app] in E; injection E as -> ->.
  - rewrite app_nil_r. unfold opt_is in H1. destruct (final_map (durable b) k) as [w|]; [|auto].
    apply beqb_eq in H1. subst w. auto.
  - specialize (IH _ H2 l1 k v l2 eq_refl). rewrite <- app_assoc in IH. exact IH.
Qed.
