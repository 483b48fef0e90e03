(** Outcome of reading every stored byte string (C14). *)
From Verif Require Import Base BaseFacts Alg TreeSpec TrieModel CodecModel VerkleDbModel DbSpec VerkleDbProofs.

(** ** Specification *)
Section Spec.
Context {A : Alg} {C : Codec A}.
(** The fields of a stem record: three points of 64 bytes, then three scalars of 32 bytes. *)
Definition is_stem_record (b : bytes) (m : StemMeta) : Prop :=
  exists p1 p2 p3 f1 f2 f3, b = p1 ++ p2 ++ p3 ++ f1 ++ f2 ++ f3 /\
    length p1 = 64%nat /\ length p2 = 64%nat /\ length p3 = 64%nat /\ length f1 = 32%nat /\ length f2 = 32%nat /\ length f3 = 32%nat /\
    pt_de p1 = Some (sm_c1 m) /\ pt_de p2 = Some (sm_c2 m) /\ pt_de p3 = Some (sm_comm m) /\
    fr_de f1 = Some (sm_hash_c1 m) /\ fr_de f2 = Some (sm_hash_c2 m) /\ fr_de f3 = Some (sm_hash_comm m).
(** A branch record: a point, a scalar, and anything after them. *)
Definition starts_branch_record (b : bytes) (m : BranchMeta) : Prop :=
  exists p f r, b = p ++ f ++ r /\ length p = 64%nat /\ length f = 32%nat /\
    pt_de p = Some (bm_comm m) /\ fr_de f = Some (bm_hash m).
(** What is stored under a path: 31 bytes are a stem, anything else is a branch record. *)
Definition is_child_record (b : bytes) (c : BranchChild) : Prop :=
  match c with CStem s => b = s /\ length s = 31%nat | CBranch m => length b <> 31%nat /\ starts_branch_record b m end.
End Spec.

Section Total.
Context {A : Alg} {C : Codec A}.

Lemma cut (n : nat) (b : bytes) : (n <= length b)%nat -> exists x y, b = x ++ y /\ length x = n /\ length y = (length b - n)%nat.
Proof.
  intro H. exists (firstn n b), (skipn n b). split; [symmetry; apply firstn_skipn|]. rewrite firstn_length, skipn_length. lia.
Qed.
Lemma slice_at (x y z : bytes) i j : i = length x -> j = (i + length y)%nat -> slice i j (x ++ y ++ z) = Ok y.
Proof.
  intros -> ->. unfold slice. rewrite !app_length.
  replace (length x <=? length x + length y)%nat with true by (symmetry; apply Nat.leb_le; lia).
  replace (length x + length y <=? length x + (length y + length z))%nat with true by (symmetry; apply Nat.leb_le; lia).
  cbn [andb]. rewrite skipn_app, skipn_all, Nat.sub_diag. cbn [app skipn]. rewrite firstn_app.
  replace (length x + length y - length x)%nat with (length y) by lia. rewrite firstn_all, Nat.sub_diag. cbn [firstn]. now rewrite app_nil_r.
Qed.
Lemma slice_from_at (x y : bytes) i : i = length x -> slice_from i (x ++ y) = Ok y.
Proof.
  intros ->. unfold slice_from. rewrite app_length. replace (length x <=? length x + length y)%nat with true by (symmetry; apply Nat.leb_le; lia).
  rewrite skipn_app, skipn_all, Nat.sub_diag. reflexivity.
Qed.

Lemma app_eq_len {X} (a b c d : list X) : a ++ b = c ++ d -> length a = length c -> a = c /\ b = d.
Proof.
  revert c. induction a as [|x a IH]; intros [|y c] E L; cbn in *; try discriminate; [now split|].
  injection E as -> E. destruct (IH c E) as [-> ->]; [lia|now split].
Qed.
Lemma stem_parts p1 p2 p3 f1 f2 f3 : length p1 = 64%nat -> length p2 = 64%nat -> length p3 = 64%nat ->
  length f1 = 32%nat -> length f2 = 32%nat -> length f3 = 32%nat ->
  stem_meta_from_bytes (p1 ++ p2 ++ p3 ++ f1 ++ f2 ++ f3) =
  Ok (match pt_de p1, pt_de p2, pt_de p3, fr_de f1, fr_de f2, fr_de f3 with
      | Some c1, Some c2, Some c, Some h1, Some h2, Some h => Some (mkStemMeta c1 h1 c2 h2 c h)
      | _, _, _, _, _, _ => None end).
Proof.
  intros L1 L2 L3 M1 M2 M3. unfold stem_meta_from_bytes. rewrite !app_length, L1, L2, L3, M1, M2, M3.
  change (negb (64 + (64 + (64 + (32 + (32 + 32)))) =? 64 * 3 + 32 * 3)%nat) with false. cbv iota.
  assert (E0 : slice 0 (64 * 3) (p1 ++ p2 ++ p3 ++ f1 ++ f2 ++ f3) = Ok (p1 ++ p2 ++ p3)).
  { rewrite (app_assoc p2), (app_assoc p1). rewrite <- (app_nil_l ((p1 ++ p2 ++ p3) ++ _)).
    apply slice_at; [reflexivity|]. rewrite !app_length, L1, L2, L3. reflexivity. }
  rewrite E0. cbn [rbind].
  assert (E1 : slice (0 * 64) (1 * 64) (p1 ++ p2 ++ p3) = Ok p1).
  { rewrite <- (app_nil_l (p1 ++ _)). apply slice_at; [reflexivity|]. rewrite L1. reflexivity. }
  assert (E2 : slice (1 * 64) (2 * 64) (p1 ++ p2 ++ p3) = Ok p2).
  { apply slice_at; [rewrite L1; reflexivity|rewrite L2; reflexivity]. }
  assert (E3 : slice (2 * 64) (3 * 64) (p1 ++ p2 ++ p3) = Ok p3).
  { replace (p1 ++ p2 ++ p3) with ((p1 ++ p2) ++ p3 ++ []) by (now rewrite app_nil_r, <- app_assoc). apply slice_at; [rewrite app_length, L1, L2; reflexivity|rewrite L3; reflexivity]. }
  rewrite E1. cbn [rbind]. destruct (pt_de p1); [|reflexivity]. cbn [qbind]. rewrite E2. cbn [rbind].
  destruct (pt_de p2); [|reflexivity]. cbn [qbind]. rewrite E3. cbn [rbind]. destruct (pt_de p3); [|reflexivity]. cbn [qbind].
  assert (E4 : slice_from (64 * 3) (p1 ++ p2 ++ p3 ++ f1 ++ f2 ++ f3) = Ok (f1 ++ f2 ++ f3)).
  { rewrite (app_assoc p2), (app_assoc p1). apply slice_from_at. rewrite !app_length, L1, L2, L3. reflexivity. }
  rewrite E4. cbn [rbind].
  assert (E5 : slice (0 * 32) (1 * 32) (f1 ++ f2 ++ f3) = Ok f1).
  { rewrite <- (app_nil_l (f1 ++ _)). apply slice_at; [reflexivity|]. rewrite M1. reflexivity. }
  assert (E6 : slice (1 * 32) (2 * 32) (f1 ++ f2 ++ f3) = Ok f2).
  { apply slice_at; [rewrite M1; reflexivity|rewrite M2; reflexivity]. }
  assert (E7 : slice (2 * 32) (3 * 32) (f1 ++ f2 ++ f3) = Ok f3).
  { replace (f1 ++ f2 ++ f3) with ((f1 ++ f2) ++ f3 ++ []) by (now rewrite app_nil_r, <- app_assoc). apply slice_at; [rewrite app_length, M1, M2; reflexivity|rewrite M3; reflexivity]. }
  rewrite E5. cbn [rbind]. destruct (fr_de f1); [|reflexivity]. cbn [qbind]. rewrite E6. cbn [rbind].
  destruct (fr_de f2); [|reflexivity]. cbn [qbind]. rewrite E7. cbn [rbind]. destruct (fr_de f3); reflexivity.
Qed.

Lemma stem_record_exact b m : stem_meta_from_bytes b = Ok (Some m) <-> is_stem_record b m.
Proof.
  split.
  - intro E. destruct (Nat.eq_dec (length b) 288) as [L|L].
    2:{ rewrite (stem_meta_wrong_length b L) in E. discriminate. }
    destruct (cut 64 b ltac:(lia)) as (p1 & r1 & -> & L1 & R1).
    destruct (cut 64 r1 ltac:(lia)) as (p2 & r2 & -> & L2 & R2).
    destruct (cut 64 r2 ltac:(lia)) as (p3 & r3 & -> & L3 & R3).
    destruct (cut 32 r3 ltac:(lia)) as (f1 & r4 & -> & M1 & R4).
    destruct (cut 32 r4 ltac:(lia)) as (f2 & f3 & -> & M2 & R5).
    assert (M3 : length f3 = 32%nat) by lia.
    rewrite stem_parts in E by assumption. exists p1, p2, p3, f1, f2, f3.
    destruct (pt_de p1), (pt_de p2), (pt_de p3), (fr_de f1), (fr_de f2), (fr_de f3); try discriminate E.
    injection E as <-. cbn. repeat split; assumption.
  - intros (p1 & p2 & p3 & f1 & f2 & f3 & -> & L1 & L2 & L3 & M1 & M2 & M3 & D1 & D2 & D3 & D4 & D5 & D6).
    rewrite stem_parts by assumption. rewrite D1, D2, D3, D4, D5, D6. destruct m; reflexivity.
Qed.

Lemma branch_parts p f r : rust_vec (p ++ f ++ r) -> length p = 64%nat -> length f = 32%nat ->
  branch_meta_from_bytes (p ++ f ++ r) =
  Ok (match pt_de p, fr_de f with Some c, Some h => Some (mkBranchMeta c h) | _, _ => None end).
Proof.
  intros HV Lp Lf. unfold branch_meta_from_bytes.
  replace (2 ^ 64 - 1 - Z.of_nat (length (p ++ f ++ r)) =? 32 + 64) with false.
  2:{ symmetry. apply Z.eqb_neq. unfold rust_vec in HV. lia. }
  assert (E1 : slice 0 64 (p ++ f ++ r) = Ok p).
  { rewrite <- (app_nil_l (p ++ _)). apply slice_at; [reflexivity|]. rewrite Lp. reflexivity. }
  assert (E2 : slice 64 (64 + 32) (p ++ f ++ r) = Ok f).
  { apply slice_at; [now rewrite Lp|now rewrite Lf]. }
  rewrite E1. cbn [rbind]. rewrite E2. cbn [rbind]. destruct (pt_de p); [|reflexivity]. cbn [qbind]. destruct (fr_de f); reflexivity.
Qed.
Lemma branch_record_exact b : rust_vec b ->
  (forall m, branch_meta_from_bytes b = Ok (Some m) <-> starts_branch_record b m) /\
  (branch_meta_from_bytes b = Panic <-> (length b < 96)%nat).
Proof.
  intro HV. destruct (Nat.lt_ge_cases (length b) 96) as [L|L].
  - rewrite (branch_meta_short b L). split; [|now split]. intro m. split; [discriminate|].
    intros (p & f & r & -> & Lp & Lf & _). rewrite !app_length, Lp, Lf in L. lia.
  - destruct (cut 64 b ltac:(lia)) as (p & r1 & -> & Lp & R1). destruct (cut 32 r1 ltac:(lia)) as (f & r & -> & Lf & R2).
    rewrite branch_parts by assumption. split; [|split; [discriminate|lia]]. intro m. split.
    + intro E. exists p, f, r. destruct (pt_de p) as [c|] eqn:E1; [|discriminate]. destruct (fr_de f) as [h|] eqn:E2; [|discriminate].
      injection E as <-. cbn. repeat split; assumption.
    + intros (p' & f' & r' & E & Lp' & Lf' & D1 & D2). apply app_eq_len in E as [-> E]; [|congruence].
      apply app_eq_len in E as [-> ->]; [|congruence]. rewrite D1, D2. destruct m; reflexivity.
Qed.
Lemma child_record_exact b : rust_vec b ->
  (forall c, branch_child_from_bytes b = Ok (Some c) <-> is_child_record b c) /\
  (branch_child_from_bytes b = Panic <-> length b <> 31%nat /\ (length b < 96)%nat).
Proof.
  intro HV. destruct (branch_record_exact b HV) as [B1 B2]. unfold branch_child_from_bytes.
  destruct (Nat.eqb_spec (length b) 31) as [L|L].
  - split; [|split; [discriminate|easy]]. intros [s|m]; cbn.
    + split; [intros [= ->]; now split|intros [-> _]; reflexivity].
    + split; [discriminate|intros [X _]; easy].
  - split.
    + intros [s|m]; cbn.
      * split; [|intros [-> X]; easy]. destruct (branch_meta_from_bytes b) as [[m|]|]; discriminate.
      * rewrite <- B1. destruct (branch_meta_from_bytes b) as [[m'|]|]; cbn; split; try discriminate; try (intros [_ X]; discriminate X).
        -- intros [= ->]. now split.
        -- intros [_ [= ->]]. reflexivity.
    + rewrite <- B2. destruct (branch_meta_from_bytes b) as [[m'|]|]; cbn; split; try discriminate; try easy; intros [_ X]; discriminate X.
Qed.

(** Lookups in a store with any contents. *)
Definition stored_ok (d : Disk) : Prop := forall k b, d k = Some b -> rust_vec b.
Lemma leaf_exact d k : match d (leaf_dkey k) with
  | None => disk_get_leaf d k = Ok None
  | Some b => (length b = 32%nat /\ disk_get_leaf d k = Ok (Some b)) \/ (length b <> 32%nat /\ disk_get_leaf d k = Panic) end.
Proof.
  unfold disk_get_leaf, disk_value. destruct (d (leaf_dkey k)) as [b|]; [|reflexivity].
  destruct (Nat.eqb_spec (length b) 32); [left|right]; now split.
Qed.
Lemma stem_exact d s : match d (stem_dkey s) with
  | None => disk_get_stem_meta d s = Ok None
  | Some b => (exists m, is_stem_record b m /\ disk_get_stem_meta d s = Ok (Some m)) \/
              ((forall m, ~ is_stem_record b m) /\ disk_get_stem_meta d s = Panic) end.
Proof.
  unfold disk_get_stem_meta. destruct (d (stem_dkey s)) as [b|]; [|reflexivity].
  destruct (stem_meta_total b) as [[m|] E]; rewrite E; cbn.
  - left. exists m. split; [now apply stem_record_exact|reflexivity].
  - right. split; [|reflexivity]. intros m X. apply stem_record_exact in X. congruence.
Qed.
Lemma child_exact d p i : stored_ok d -> match d (branch_dkey (p ++ [i])) with
  | None => disk_get_branch_child d p i = Ok None
  | Some b => (exists c, is_child_record b c /\ disk_get_branch_child d p i = Ok (Some c)) \/
              ((forall c, ~ is_child_record b c) /\ disk_get_branch_child d p i = Panic) end.
Proof.
  intro HD. unfold disk_get_branch_child. destruct (d (branch_dkey (p ++ [i]))) as [b|] eqn:E; [|reflexivity].
  destruct (child_record_exact b (HD _ _ E)) as [B _]. destruct (branch_child_from_bytes b) as [[c|]|] eqn:EB; cbn.
  - left. exists c. split; [now apply B|reflexivity].
  - right. split; [|reflexivity]. intros c X. apply B in X. congruence.
  - right. split; [|reflexivity]. intros c X. apply B in X. congruence.
Qed.
Lemma branch_exact d p : stored_ok d -> match d (branch_dkey p) with
  | None => disk_get_branch_meta d p = Ok None
  | Some b => (exists m, starts_branch_record b m /\ disk_get_branch_meta d p = Ok (Some m)) \/
              ((forall m, ~ starts_branch_record b m) /\ disk_get_branch_meta d p = Panic) end.
Proof.
  intro HD. unfold disk_get_branch_meta. destruct (d (branch_dkey p)) as [b|] eqn:E; [|reflexivity].
  destruct (branch_record_exact b (HD _ _ E)) as [B _]. destruct (branch_meta_from_bytes b) as [[c|]|] eqn:EB; cbn.
  - left. exists c. split; [now apply B|reflexivity].
  - right. split; [|reflexivity]. intros c X. apply B in X. congruence.
  - right. split; [|reflexivity]. intros c X. apply B in X. congruence.
Qed.
End Total.
