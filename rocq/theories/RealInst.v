(** Concrete cases on the real curve with the default generators: a record that cannot be read after
    reopening, one that can, and an update whose bytes are not those of a new commitment. *)
From Coq Require Import Znumtheory.
From Verif Require Import Base BaseFacts Alg AlgInst TreeSpec TrieModel CodecModel VerkleDbModel DbSpec MsmModel MsmSpec MsmProofs MsmInst MsmInt WireModel IpaModel IpaSpec LagrangeSpec IpaInst IpaTheorems
  FfiModel FfiSpec ElementModel ElementSpec ElementProofs ElementInst CurveModel CurveSpec CurveProofs CurveAlg CurveRep CurveCount CurveOrder RepSpec RepFfi DiskWeak RepDisk
  Bander CrsModel DefaultCrs RealSpec CrsCheck CrsCert CrsProofs HalfCert RealProofs.
Local Open Scope Z_scope.
#[local] Existing Instance bander_laws.
#[local] Existing Instance bander_curve.
#[local] Existing Instance bander_scalars.
#[local] Existing Instance BanderF_laws.
Local Notation RA := (@rep_alg Bander bander_laws BanderF BanderI).
Local Notation RI := (@rep_int Bander bander_laws BanderF BanderI).
Local Notation RC := (@rep_codec Bander bander_laws BanderF BanderI).
Local Notation int := (@fr_int RA RI).
Local Notation P := default_par.
Local Notation bpt := (pt bander_q bander_a bander_d bander_order).
Local Notation red := (zred bander_q).

Lemma default_hash g : @hash RA P g = @co_hash Bander BanderF g.
Proof. unfold default_par. destruct (crs_from_bytes default_crs_bytes) as [[gens Q]|]; reflexivity. Qed.

Local Opaque default_par edwards_multiple.

Definition key_1 : bytes := 1 :: repeat 0 31.
Definition key_2 : bytes := 1 :: repeat 0 30 ++ [1].
Definition value_0 : bytes := repeat 0 32.
Definition value_1 : bytes := 1 :: repeat 0 31.

Lemma half_chain : @edwards_multiple Bander (Z.to_nat (2 ^ 128)) (bpt 0x1587ad1336675eb912550ec2a28eb8923b824b490dd2ba82e48f14590a298a0 0x4c5c0482ac202cf6740bba9148fc310f8cce6e00de71efd9cf67ea4e2f3fc483) = bpt half_x half_y.
Proof.
  set (gx := 0x1587ad1336675eb912550ec2a28eb8923b824b490dd2ba82e48f14590a298a0).
  set (gy := 0x4c5c0482ac202cf6740bba9148fc310f8cce6e00de71efd9cf67ea4e2f3fc483).
  assert (V : @valid_point Bander (bpt gx gy)).
  { pose proof (default_valid (nth 0 certs (mkCert 0 0 false 0 0 0 0 0 0 0 0))) as C.
    refine (proj1 (cert_sound _ (C _))). now left. }
  assert (S : forall l cur c, chain bander_q bander_a bander_d gx gy cur l = Some c ->
    at_multiple bander_q bander_a bander_d bander_order (bpt gx gy) cur -> at_multiple bander_q bander_a bander_d bander_order (bpt gx gy) c).
  { intros l cur c E H. exact (@chain_sound bander_q q_prime bander_a bander_d bander_order bander_laws bander_root gx gy l cur c V H E). }
  assert (H0 : at_multiple bander_q bander_a bander_d bander_order (bpt gx gy) (1, gx, gy)).
  { split; [apply Z.leb_le; reflexivity|]. exact (@multiple_1 Bander bander_laws (bpt gx gy)). }
  apply (S _ _ _ half_0), (S _ _ _ half_1), (S _ _ _ half_2), (S _ _ _ half_3), (S _ _ _ half_4), (S _ _ _ half_5), (S _ _ _ half_6), (S _ _ _ half_7) in H0.
  exact (proj2 H0).
Qed.
Lemma one_term (s1 s2 : @F RA) (g1 g2 : @G RA) n : int s1 = n -> int s2 = 0 ->
  coords (gadd (gadd gzero (smul s1 g1)) (smul s2 g2)) = edwards_multiple (Z.to_nat n) (coords g1).
Proof.
  intros E1 E2. pose proof (@rep_module Bander _ _ BanderF _ BanderI _) as M.
  rewrite (@im_smul_0 RA RI _ M s2 _ E2), (@im_zero_r RA RI _ M), (@im_zero RA RI _ M).
  etransitivity; [apply (@coords_mul Bander _ _ BanderF BanderI)|]. now rewrite <- E1.
Qed.
Lemma half_coords : coords (@key_half RA P key_1 value_0) = bpt half_x half_y.
Proof.
  unfold key_half, scalar_mul. rewrite !(@sub_zero Bander _ BanderF _ BanderI).
  change (2 * (nth 31 key_1 0 mod 128)) with 0. change (0 + 1) with 1.
  assert (E1 : int (value_low value_0) = 2 ^ 128).
  { unfold value_low, two_pow_128. change (le_Z (firstn 16 value_0)) with 0.
    assert (X : @fadd RA (of_Z 0) (of_Z (2 ^ 128)) = of_Z (0 + 2 ^ 128)) by (symmetry; exact (@of_Z_add BanderF _ _ _)).
    rewrite X. apply (@int_small Bander _ BanderF _ BanderI _). split; [apply Z.leb_le; reflexivity|].
    eapply Z.lt_trans; [|exact bander_big']. reflexivity. }
  assert (E2 : int (value_high value_0) = 0).
  { unfold value_high. change (le_Z (firstn 16 (skipn 16 value_0))) with 0. apply (@int_small Bander _ BanderF _ BanderI _).
    split; [apply Z.leb_le; reflexivity|]. eapply Z.lt_trans; [|exact bander_big']. reflexivity. }
  etransitivity; [exact (one_term _ _ (@crs RA P 0) (@crs RA P 1) _ E1 E2)|]. clear E1 E2.
  destruct (default_gen 0) as (t & Et & ->). { split; [apply Z.leb_le|]; reflexivity. }
  apply (f_equal (fun o => match o with Some t => t | None => t end)) in Et.
  rewrite <- Et. exact half_chain.
Qed.

Lemma co_hash_is {B : BaseField} {BL : BaseFieldLaws B} {A : Alg} (g : Coord) (w : Fq) : qdiv (ax (coords g)) (ay (coords g)) = w -> @co_hash B A g = of_Z (q_int w).
Proof. intros <-. unfold co_hash. now rewrite (scalar_ok _ (coords g) (holds_of_affine _) (proj1 (co_valid g))). Qed.
Lemma half_hash : Z.odd (int (@hash RA P (@key_half RA P key_1 value_0))) = true.
Proof.
  destruct half_quotient as (Q1 & Q2 & Q3 & Q4). rewrite default_hash.
  assert (N : red half_y <> @qzero Bander). { intros E. apply (f_equal (zval bander_q)) in E. change (half_y mod bander_q = 0) in E. apply Z.eqb_neq in Q2. now apply Q2. }
  assert (M : @qmul Bander (red half_w) (red half_y) = red half_x).
  { unfold Bander. rewrite (red_mul bander_q q_prime). apply Z.mod_divide in Q1 as [k Hk]; [|discriminate].
    apply (red_cong bander_q _ _ k). exact Hk. }
  rewrite (@co_hash_is Bander bander_laws BanderF (@key_half RA P key_1 value_0) (red half_w)).
  2: { rewrite half_coords. exact (@div_is Bander bander_laws _ _ (red half_w) N M). }
  assert (E : @q_int Bander (red half_w) = half_w) by (change (half_w mod bander_q = half_w); now apply Z.mod_small).
  rewrite E. exact Q3.
Qed.

Lemma case_keys : is_key key_1 /\ is_key key_2 /\ firstn 31 key_2 = firstn 31 key_1 /\ is_value value_0 /\ is_value value_1 /\ forall x, (key_2, x) <> (key_1, value_0) /\ (key_2, x) <> (key_1, value_1).
Proof.
  assert (Z0 : forall n, is_bytes (repeat 0 n)) by (intros n; apply Forall_forall; intros y Hy; apply repeat_spec in Hy; subst; unfold is_byte; lia).
  repeat split; try reflexivity; try (intros E; apply (f_equal (fun kv => nth 31 (fst kv) 0)) in E; discriminate E).
  - constructor; [unfold is_byte; lia|apply (Z0 31%nat)].
  - constructor; [unfold is_byte; lia|]. apply Forall_app. split; [apply (Z0 30%nat)|]. constructor; [unfold is_byte; lia|constructor].
  - apply (Z0 32%nat).
  - constructor; [unfold is_byte; lia|apply (Z0 31%nat)].
Qed.
(** The value 1 is lost: the trie cannot be used after reopening.  The value 0 is not. *)
Lemma reopen_cases x2 :
  @run_disk RA P RC [OInsert key_1 value_1; OFlush; OReopen; OInsert key_2 x2] = Panic /\
  @run_disk RA P RC [OInsert key_1 value_0; OFlush; OReopen; OInsert key_2 x2] <> Panic.
Proof.
  destruct case_keys as (K1 & K2 & K3 & [L0 B0] & [L1 B1] & N). destruct (N x2) as [N0 N1]. split.
  - apply (default_reopen key_1 value_1 key_2 x2 K1 K2 L1 B1 K3 N1). left. vm_compute. reflexivity.
  - intros E. apply (default_reopen key_1 value_0 key_2 x2 K1 K2 L0 B0 K3 N0) in E. destruct E as [E|[E|[_ E]]].
    + vm_compute in E. discriminate E.
    + rewrite half_hash in E. discriminate E.
    + vm_compute in E. discriminate E.
Qed.

Local Notation RE := (@rep_ecodec Bander bander_laws BanderF BanderI).
Local Notation order := (Z.of_nat (@q_order Bander)).
#[local] Existing Instance rep_int.
#[local] Existing Instance rep_ecodec.
#[local] Existing Instance default_par.
#[local] Instance rep_wnaf : Wnaf RA := @ArkWnaf RA RI.
#[local] Instance rep_wnaf_laws : WnafLaws rep_wnaf := @im_wnaf_laws RA RI order (@rep_module Bander _ _ BanderF _ BanderI _).

Lemma int_0 : int (of_Z 0) = 0.
Proof. apply (@int_small Bander _ BanderF _ BanderI _). split; [apply Z.leb_le; reflexivity|]. eapply Z.lt_trans; [|exact bander_big']. reflexivity. Qed.
Lemma int_1 : int (of_Z 1) = 1.
Proof. apply (@int_small Bander _ BanderF _ BanderI _). split; [apply Z.leb_le; reflexivity|]. eapply Z.lt_trans; [|exact bander_big']. reflexivity. Qed.

Local Notation s0 := (of_Z 0 : @F RA).
Local Notation s1 := (of_Z 1 : @F RA).
(** The vector [1], then its entry lowered to 0: other bytes than those of the commitment to [0]; raised
    from 0 to 1: the same bytes.  The commitment to [1] cannot be read back with the check. *)
Lemma update_cases : exists (cx : @Context_ RA) (c0 c1 down up : bytes), context_new = Ok cx /\
  commit_to_scalars Whole cx (scalars_bytes [s0]) = Ok (FOk c0) /\
  commit_to_scalars Whole cx (scalars_bytes [s1]) = Ok (FOk c1) /\
  update_commitment cx c1 0 (sc_ser s1) (sc_ser s0) = Ok (FOk down) /\ down <> c0 /\
  update_commitment cx c0 0 (sc_ser s0) (sc_ser s1) = Ok (FOk up) /\ up = c1 /\
  ~ (exists e r, @deserialize_uncompressed Bander c1 = Some (e, r)).
Proof.
  destruct default_context as (cx & Hc).
  assert (L : forall s : @F RA, (length [s] <= 256)%nat) by (intros s; cbn; lia).
  pose proof (@r_commit Bander _ _ BanderF _ BanderI _ P _ _ bander_big Whole cx [s0] Hc (L _)) as E0.
  pose proof (@r_commit Bander _ _ BanderF _ BanderI _ P _ _ bander_big Whole cx [s1] Hc (L _)) as E1.
  match type of E0 with _ = Ok (FOk ?c) => set (c0 := c) in * end.
  match type of E1 with _ = Ok (FOk ?c) => set (c1 := c) in * end.
  destruct (default_update cx Whole [s1] c1 0 (of_Z 1) (of_Z 0) Hc (L _) E1 ltac:(lia) eq_refl) as (down & c0' & D1 & D2 & _ & D3).
  destruct (default_update cx Whole [s0] c0 0 (of_Z 0) (of_Z 1) Hc (L _) E0 ltac:(lia) eq_refl) as (up & c1' & U1 & U2 & _ & U3).
  change (replace [s1] (Z.to_nat 0) (of_Z 0 : @F RA)) with [of_Z 0 : @F RA] in D2. change (replace [s0] (Z.to_nat 0) (of_Z 1 : @F RA)) with [of_Z 1 : @F RA] in U2.
  assert (c0' = c0) by congruence. assert (c1' = c1) by congruence. subst c0' c1'.
  rewrite int_0, int_1 in D3, U3. change (unreadable 0) with true in D3, U3.
  exists cx, c0, c1, down, up. do 4 (split; [assumption|]). split; [intros E; apply D3 in E as [E|E]; [discriminate E|lia]|].
  split; [exact U1|]. split; [apply U3; right; lia|].
  rewrite (default_commit_readable cx Whole [s1] c1 Hc (L _) E1). cbn [length seq filter nth]. rewrite int_1.
  change (unreadable (Z.of_nat 0)) with true. cbn. discriminate.
Qed.
