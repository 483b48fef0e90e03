(** One key on disk under a codec that may refuse points: inserting, flushing, reopening, and inserting
    below the same stem again. *)
From Verif Require Import Base BaseFacts Alg TreeSpec TrieModel CodecModel VerkleDbModel VerkleDbProofs DbSpec RepSpec.

Section Weak.
Context {A : Alg} {P : Par A} {C : Codec A}.
Variable bad : G -> bool.
Hypothesis bad_zero : bad gzero = false.
Hypothesis pt_len : forall g, length (pt_ser g) = 64%nat.
Hypothesis fr_len : forall x, length (fr_ser x) = 32%nat.
Hypothesis fr_back : forall x, fr_de (fr_ser x) = Some x.
Hypothesis pt_back : forall g, pt_de (pt_ser g) = if bad g then None else Some g.

Lemma weak_stem m : stem_meta_from_bytes (stem_meta_to_bytes m) =
  Ok (if bad (sm_c1 m) || bad (sm_c2 m) || bad (sm_comm m) then None else Some m).
Proof.
  destruct m as [c1 h1 c2 h2 c h]. unfold stem_meta_from_bytes, stem_meta_to_bytes. cbn [sm_c1 sm_c2 sm_comm sm_hash_c1 sm_hash_c2 sm_hash_comm].
  rewrite !app_length, !pt_len, !fr_len. cbn [Nat.add Nat.mul Nat.eqb negb].
  rewrite (app_assoc (pt_ser c2)), (app_assoc (pt_ser c1)).
  rewrite slice_app_first by (rewrite !app_length, !pt_len; reflexivity). cbn [rbind].
  rewrite slice_app_first by (rewrite pt_len; reflexivity). cbn [rbind]. rewrite pt_back.
  destruct (bad c1); cbn [orb qbind]; [reflexivity|].
  rewrite slice_app_mid by (rewrite !pt_len; reflexivity). cbn [rbind]. rewrite pt_back.
  destruct (bad c2); cbn [orb qbind]; [reflexivity|].
  rewrite (app_assoc (pt_ser c1)), slice_app_last by (rewrite ?app_length, !pt_len; reflexivity). cbn [rbind]. rewrite pt_back.
  destruct (bad c); cbn [orb qbind]; [reflexivity|]. unfold slice_from. rewrite <- (app_assoc (pt_ser c1)).
  rewrite !app_length, !pt_len, !fr_len. cbn [Nat.add Nat.leb].
  replace (skipn 192 _) with (fr_ser h1 ++ fr_ser h2 ++ fr_ser h).
  2:{ rewrite (app_assoc (pt_ser c1)), skipn_app, skipn_all2, app_length, app_length, !pt_len by (rewrite !app_length, !pt_len; lia). reflexivity. }
  cbn [rbind].
  rewrite slice_app_first by (rewrite fr_len; reflexivity). cbn [rbind]. rewrite fr_back. cbn [qbind].
  rewrite slice_app_mid by (rewrite !fr_len; reflexivity). cbn [rbind]. rewrite fr_back. cbn [qbind].
  rewrite app_assoc, slice_app_last by (rewrite ?app_length, !fr_len; reflexivity). cbn [rbind]. rewrite fr_back. reflexivity.
Qed.
Lemma weak_branch m : branch_meta_from_bytes (branch_meta_to_bytes m) = Ok (if bad (bm_comm m) then None else Some m).
Proof.
  destruct m as [c h]. unfold branch_meta_from_bytes, branch_meta_to_bytes. cbn [bm_comm bm_hash].
  rewrite app_length, pt_len, fr_len. change (2 ^ 64 - 1 - Z.of_nat (64 + 32) =? 32 + 64) with false. cbv iota.
  rewrite slice_app_first by (rewrite pt_len; reflexivity). cbn [rbind].
  rewrite slice_app_last by (rewrite ?pt_len, ?fr_len; reflexivity). cbn [rbind]. rewrite pt_back, fr_back.
  destruct (bad c); reflexivity.
Qed.

(** What the first insertion writes. *)
Definition key_meta (k x : bytes) : StemMeta :=
  if nth 31 k 0 <? 128 then mkStemMeta (key_half k x) (hash (key_half k x)) gzero (hash gzero) (key_stem k x) (hash (key_stem k x))
  else mkStemMeta gzero (hash gzero) (key_half k x) (hash (key_half k x)) (key_stem k x) (hash (key_stem k x)).

Definition one_key (k x : bytes) : MemoryDb := mkMemoryDb
  (upd bempty k x) (upd bempty (firstn 31 k) (key_meta k x))
  (upd (upd (upd bempty [] (CBranch branch_meta_zero)) [] (CBranch (mkBranchMeta (key_root k x) (hash (key_root k x))))) [nth 0 k 0] (CStem (firstn 31 k))).

Lemma first_insert k x : length k = 32%nat -> run_disk [OInsert k x] = Ok (mkVerkleDb bempty (one_key k x) (one_key k x)).
Proof.
  intro Hk. destruct k as [|k0 k']; [discriminate|].
  unfold run_disk. set (v0 := mkVerkleDb bempty (mkMemoryDb bempty bempty (upd bempty [] (CBranch branch_meta_zero)))
                            (mkMemoryDb bempty bempty (upd bempty [] (CBranch branch_meta_zero)))).
  assert (E : trie_new (verkle_open bempty) = Ok v0) by reflexivity. rewrite E. cbn [rbind op_run op_step].
  unfold insert_single, create_insert_instructions. cbn [create_insert_loop get_branch_child verkle_db_ops].
  unfold vd_get_branch_child, mem_get_branch_child, disk_get_branch_child, v0. cbn [vd_cache vd_batch vd_storage branch_table app].
  unfold upd at 1 2, bempty at 1 2 3. cbn [beqb rbind].
  change (Z.of_nat 0 + 1) with 1. unfold process_instructions. cbn [rev app process_reversed].
  unfold update_leaf_table. cbn [insert_leaf verkle_db_ops vd_insert_leaf vd_storage vd_batch vd_cache mem_insert_leaf leaf_table stem_table branch_table fst].
  change (1 <=? CACHE_DEPTH) with true. cbv iota. unfold bempty at 1. cbv iota beta.
  unfold update_stem_table. cbn [get_stem_meta verkle_db_ops vd_get_stem_meta].
  unfold vd_get_stem_meta, mem_get_stem_meta, disk_get_stem_meta. cbn [vd_cache vd_batch vd_storage stem_table].
  unfold bempty at 1 2 3. cbn [rbind]. fold (key_half (k0 :: k') x).
  match goal with |- context [insert_stem _ _ ?m 1] => assert (Em : m = key_meta (k0 :: k') x) end.
  { unfold key_meta, key_stem. destruct (nth 31 (k0 :: k') 0 <? 128); reflexivity. }
  rewrite Em. clear Em. cbn [insert_stem verkle_db_ops vd_insert_stem]. unfold vd_insert_stem. cbn [vd_storage vd_batch vd_cache mem_insert_stem leaf_table stem_table branch_table fst].
  change (1 <=? CACHE_DEPTH) with true. cbv iota. cbn [rbind].
  unfold update_branch_table. cbn [get_branch_meta verkle_db_ops]. unfold vd_get_branch_meta, mem_get_branch_meta. cbn [vd_cache vd_batch vd_storage branch_table].
  unfold upd at 1. cbn [beqb rbind unwrap]. 
  assert (Eh : sm_hash_comm (key_meta (k0 :: k') x) = hash (key_stem (k0 :: k') x)) by (unfold key_meta; destruct (nth 31 (k0 :: k') 0 <? 128); reflexivity).
  rewrite Eh. cbn [insert_branch add_stem_as_branch_child verkle_db_ops]. unfold vd_insert_branch, vd_add_stem.
  cbn [vd_storage vd_batch vd_cache mem_insert_branch mem_add_stem leaf_table stem_table branch_table fst].
  change (1 <=? CACHE_DEPTH) with true. cbv iota. cbn [vd_storage vd_batch vd_cache mem_insert_branch mem_add_stem leaf_table stem_table branch_table fst rbind].
  reflexivity.
Qed.

Lemma path_difference_self s : path_difference s s = (s, None, None).
Proof. induction s as [|b s IH]; [reflexivity|]. cbn [path_difference]. now rewrite Z.eqb_refl, IH. Qed.

(** The disk left by a flush after it. *)
Definition one_disk (k x : bytes) : Disk := flush_disk bempty (one_key k x).
Lemma one_root k x : disk_get_branch_meta (one_disk k x) [] =
  if bad (key_root k x) then Panic else Ok (Some (mkBranchMeta (key_root k x) (hash (key_root k x)))).
Proof.
  unfold disk_get_branch_meta, one_disk. rewrite flush_disk_branch. cbn [one_key branch_table]. unfold upd at 1 2. cbn [beqb].
  cbn [branch_child_to_bytes]. rewrite weak_branch. cbn [bm_comm]. destruct (bad (key_root k x)); reflexivity.
Qed.
Lemma one_child k x : length k = 32%nat -> disk_get_branch_child (one_disk k x) [] (nth 0 k 0) = Ok (Some (CStem (firstn 31 k))).
Proof.
  intro Hk. unfold disk_get_branch_child, one_disk. rewrite flush_disk_branch. cbn [one_key branch_table app]. rewrite upd_same.
  cbn [branch_child_to_bytes]. unfold branch_child_from_bytes. rewrite firstn_length, Hk. reflexivity.
Qed.
Lemma one_stem k x : disk_get_stem_meta (one_disk k x) (firstn 31 k) =
  if bad (key_half k x) || bad (key_stem k x) then Panic else Ok (Some (key_meta k x)).
Proof.
  unfold disk_get_stem_meta, one_disk. rewrite flush_disk_stem. cbn [one_key stem_table]. rewrite upd_same, weak_stem.
  unfold key_meta. destruct (nth 31 k 0 <? 128); cbn [sm_c1 sm_c2 sm_comm unwrap_res]; rewrite bad_zero;
    destruct (bad (key_half k x)), (bad (key_stem k x)); reflexivity.
Qed.
Lemma one_leaf k x k2 : length x = 32%nat -> disk_get_leaf (one_disk k x) k2 = Ok (if beqb k k2 then Some x else None).
Proof.
  intro Hx. unfold disk_get_leaf, one_disk. rewrite flush_disk_leaf. cbn [one_key leaf_table]. unfold upd.
  destruct (beqb k k2); [|reflexivity]. unfold disk_value. rewrite Hx. reflexivity.
Qed.

Lemma reopen_insert k x k2 x2 : is_key k -> is_key k2 -> length x = 32%nat ->
  firstn 31 k2 = firstn 31 k -> (k2, x2) <> (k, x) ->
  (run_disk [OInsert k x; OFlush; OReopen; OInsert k2 x2] = Panic <->
   bad (key_half k x) = true \/ bad (key_stem k x) = true \/ bad (key_root k x) = true).
Proof.
  intros [Hk _] [Hk2 _] Hx Es Nd.
  assert (E : run_disk [OInsert k x; OFlush; OReopen; OInsert k2 x2] =
    let! v := trie_new (verkle_open (one_disk k x)) in let! v := insert_single v (k2, x2) in Ok v).
  { pose proof (first_insert k x Hk) as F. unfold run_disk in F |- *. destruct (trie_new (verkle_open bempty)) as [v0|]; [|discriminate].
    cbn [rbind op_run op_step] in F |- *. match type of F with rbind ?e _ = _ => destruct e as [v|] end; cbn [rbind op_run] in F |- *; [|discriminate F].
    assert (X : v = mkVerkleDb bempty (one_key k x) (one_key k x)) by congruence. subst v. reflexivity. }
  rewrite E. clear E. unfold trie_new at 1, root_is_missing. cbn [get_branch_meta verkle_db_ops]. unfold vd_get_branch_meta at 1, mem_get_branch_meta.
  cbn [verkle_open vd_cache vd_batch vd_storage memory_db_new branch_table]. unfold bempty at 1 2. cbn [rbind].
  pose proof (one_root k x) as RR. rewrite RR. destruct (bad (key_root k x)) eqn:BR; cbn [rbind]; [split; [auto|reflexivity]|].
  unfold insert_single, create_insert_instructions.
  assert (K0 : nth 0 k2 0 = nth 0 k 0).
  { destruct k as [|a k']; [discriminate|]. destruct k2 as [|b k2']; [discriminate|]. cbn [firstn] in Es. now injection Es. }
  destruct k2 as [|b k2'] eqn:Ek2; [discriminate|]. rewrite <- Ek2 in *.
  set (w := verkle_open (one_disk k x)).
  assert (CI : create_insert_loop w k2 x2 k2 0 [] [] = Ok [UpdateLeaf k2 x2 1 [] (nth 0 k 0)]).
  { rewrite Ek2 at 2. cbn [create_insert_loop get_branch_child verkle_db_ops].
    assert (Eb : b = nth 0 k 0) by (rewrite <- K0, Ek2; reflexivity). rewrite Eb.
    unfold vd_get_branch_child, mem_get_branch_child, w. cbn [verkle_open vd_cache vd_batch vd_storage memory_db_new branch_table].
    unfold bempty. rewrite one_child by exact Hk. cbn [rbind]. rewrite Es, path_difference_self, firstn_length, Hk.
    change (Nat.min 31 32 =? 31)%nat with true. cbv iota. cbn [get_leaf verkle_db_ops].
    unfold vd_get_leaf, mem_get_leaf. cbn [vd_cache vd_batch vd_storage memory_db_new leaf_table].
    cbn [verkle_open vd_cache vd_batch vd_storage memory_db_new leaf_table]. unfold bempty. rewrite one_leaf by exact Hx. cbn [rbind]. destruct (beqb k k2) eqn:EE; cbn [rbind assertb].
    - apply beqb_eq in EE. destruct (beqb x x2) eqn:EX; [|reflexivity]. apply beqb_eq in EX. congruence.
    - rewrite Bool.andb_false_r. reflexivity. }
  rewrite CI. cbn [rbind]. unfold process_instructions. cbn [rev app process_reversed].
  unfold update_leaf_table. cbn [insert_leaf verkle_db_ops]. unfold vd_insert_leaf, w.
  cbn [verkle_open vd_storage vd_batch vd_cache mem_insert_leaf memory_db_new leaf_table stem_table branch_table fst].
  change (1 <=? CACHE_DEPTH) with true. cbv iota. unfold bempty. cbv iota beta.
  unfold update_stem_table. cbn [get_stem_meta verkle_db_ops]. unfold vd_get_stem_meta, mem_get_stem_meta. cbn [vd_cache vd_batch vd_storage stem_table].
  cbn [verkle_open vd_cache vd_batch vd_storage memory_db_new stem_table]. rewrite Es, one_stem.
  destruct (bad (key_half k x)) eqn:BH; cbn [orb rbind]; [split; [auto|reflexivity]|].
  destruct (bad (key_stem k x)) eqn:BS; cbn [orb rbind]; [split; [auto|reflexivity]|].
  split; [|intros [X|[X|X]]; discriminate].
  match goal with |- context [insert_stem ?d _ ?m 1] => generalize m end. intro m.
  cbn [insert_stem verkle_db_ops]. unfold vd_insert_stem. cbn [vd_storage vd_batch vd_cache mem_insert_stem leaf_table stem_table branch_table fst rbind].
  unfold update_branch_table. cbn [get_branch_meta verkle_db_ops]. unfold vd_get_branch_meta, mem_get_branch_meta.
  change (1 <=? CACHE_DEPTH) with true. cbv iota. cbn [vd_cache vd_batch vd_storage branch_table].
  unfold bempty. cbn [rbind]. rewrite RR. cbn [rbind unwrap]. discriminate.
Qed.
End Weak.
