(** The forged proof of [PropRawVerify] for the program itself: its curve, its default generators and SHA-256. *)
From Coq Require Import String Field Znumtheory.
From Verif Require Import Base BaseFacts Alg AlgFacts AlgInst MsmModel MsmSpec MsmInt CodecModel WireModel WireSpec ProofModel IpaModel IpaSpec LagrangeSpec FfiModel FfiSpec BindModel BindSpec
  ElementModel ElementSpec ElementProofs ElementInst CurveModel CurveSpec CurveProofs CurveAlg CurveRep RepProof CurveOrder
  RawSpec RawProofs RawVerifyModel RawVerifySpec RawVerifyProofs MidInst CoordInst Bander RealSpec CrsCert CrsCheck CrsProofs RealProofs RawVerifyCases Sha256 ShaForgeryCert.
Local Open Scope list_scope.

(** The transcript of one claim. *)
Section Transcript.
Context {B : BaseField} {BL : BaseFieldLaws B} {A : Alg} {AL : AlgLaws A} {I : FrInt A} {CL : CurveLaws B} {SL : ScalarLaws B A I} {HS : Hasher}.
Add Field FFieldSF : F_field.
Definition absorbed (P : Affine) : bytes := rev (Z_le 32 (q_int (larger_x P))).
Definition hashed_r (P : Affine) (z : Z) : bytes :=
  lbl "verkle" ++ lbl "multiproof" ++ lbl "C" ++ absorbed P ++ lbl "z" ++ Z_le 32 (fr_int (of_Z z)) ++ lbl "y" ++ Z_le 32 (fr_int fzero) ++ lbl "r".
Definition hashed_t (r : F) (D : Affine) : bytes := lbl "r" ++ Z_le 32 (fr_int r) ++ lbl "D" ++ absorbed D ++ lbl "t".
Lemma one_claim_t g z D : @challenge_t B A I HS [(g, z)] D = of_Z (le_Z (sha256 (hashed_t (of_Z (le_Z (sha256 (hashed_r (coords g) z)))) D))).
Proof.
  unfold challenge_t, mp_t, mp_r. cbn [map fold_left]. unfold zero_query, absorb_query, append_point, append_scalar, append_message, challenge_scalar, domain_sep.
  cbn [fst snd vq_comm vq_point vq_result]. rewrite !el_ser_affine. unfold hashed_t, hashed_r, absorbed.
  cbn [sc_ser raw_ecodec]. unfold scalar_ser, append_scalar, append_message. cbn [app]. rewrite <- !app_assoc. reflexivity.
Qed.
Lemma one_claim_sum r t s (g : @Coord B) z : fmul (fsub t (of_Z z)) s = fone -> @claims_sum B BL A I r t fone [(g, z)] = co_mul s g.
Proof.
  intro E. cbn [claims_sum]. assert (N : fsub t (of_Z z) <> fzero).
  { intro H. rewrite H in E. apply (F_1_neq_0 F_field). rewrite <- E. ring. }
  assert (X : fdiv fone (fsub t (of_Z z)) = s) by (rewrite <- E; field; exact N).
  rewrite X. apply co_eq. rewrite coords_add. apply sum_zero.
Qed.
End Transcript.

#[local] Existing Instance bander_laws.
#[local] Existing Instance bander_curve.
#[local] Existing Instance bander_scalars.
#[local] Existing Instance BanderF_laws.
Local Notation RA := (@rep_alg Bander bander_laws BanderF BanderI).
Local Notation WA := (@raw_alg Bander BanderF BanderI).
Local Notation bpt := (pt bander_q bander_a bander_d bander_order).
Local Opaque default_par edwards_multiple.
Lemma first_pt : coords default_first = bpt first_x first_y.
Proof.
  unfold default_first. destruct (default_gen 0) as (t & Et & E). { split; [apply Z.leb_le|]; reflexivity. }
  refine (eq_trans E _).
  assert (L : match nth_error certs (Z.to_nat 0) with Some t => Z.eqb (cx t) first_x && Z.eqb (cy t) first_y | None => false end = true) by (vm_compute; reflexivity).
  rewrite Et in L. apply andb_true_iff in L as [L1 L2]. apply Z.eqb_eq in L1, L2. unfold cert_pt. rewrite L1, L2. reflexivity.
Qed.
Lemma first_multiple : @edwards_multiple Bander (Z.to_nat sha_s) (bpt first_x first_y) = bpt (fst sha_E) (snd sha_E).
Proof.
  assert (V : @valid_point Bander (bpt first_x first_y)) by (rewrite <- first_pt; exact (co_valid default_first)).
  assert (S : forall l cur c, chain bander_q bander_a bander_d first_x first_y cur l = Some c ->
    at_multiple bander_q bander_a bander_d bander_order (bpt first_x first_y) cur -> at_multiple bander_q bander_a bander_d bander_order (bpt first_x first_y) c).
  { intros l cur c E H. exact (@chain_sound bander_q q_prime bander_a bander_d bander_order bander_laws bander_root first_x first_y l cur c V H E). }
  assert (H0 : at_multiple bander_q bander_a bander_d bander_order (bpt first_x first_y) (1, first_x, first_y)).
  { split; [apply Z.leb_le; reflexivity|]. exact (@multiple_1 Bander bander_laws (bpt first_x first_y)). }
  apply (S _ _ _ forge_0) in H0. apply (S _ _ _ forge_1) in H0. apply (S _ _ _ forge_2) in H0. apply (S _ _ _ forge_3) in H0.
  apply (S _ _ _ forge_4) in H0. apply (S _ _ _ forge_5) in H0. apply (S _ _ _ forge_6) in H0. apply (S _ _ _ forge_7) in H0.
  apply (S _ _ _ forge_8) in H0. apply (S _ _ _ forge_9) in H0. apply (S _ _ _ forge_10) in H0. apply (S _ _ _ forge_11) in H0.
  apply (S _ _ _ forge_12) in H0. apply (S _ _ _ forge_13) in H0. apply (S _ _ _ forge_14) in H0. apply (S _ _ _ forge_15) in H0.
  apply (S _ _ _ forge_16) in H0. exact (proj2 H0).
Qed.

(** The first point of the proof. *)
Definition sha_D : @Affine Bander := @mkAff Bander (zred bander_q sha_h) (zred bander_q sha_y).
Lemma sha_r_is : @of_Z BanderF (le_Z (sha2_256 (@hashed_r Bander BanderF BanderI (bpt first_x first_y) 0))) = zred bander_r sha_r.
Proof. apply (zp_eq bander_r). vm_compute. reflexivity. Qed.
Lemma sha_t_is : @of_Z BanderF (le_Z (sha2_256 (@hashed_t Bander BanderF BanderI (zred bander_r sha_r : @F BanderF) sha_D))) = zred bander_r sha_t.
Proof. apply (zp_eq bander_r). vm_compute. reflexivity. Qed.
Lemma t_drawn : @challenge_t Bander BanderF BanderI sha2_256 [(default_first, 0)] sha_D = zred bander_r sha_t.
Proof. refine (eq_trans (one_claim_t (HS := sha2_256) default_first 0 sha_D) _). unfold sha256. rewrite first_pt, sha_r_is. exact sha_t_is. Qed.
Lemma st_one : @fmul BanderF (@fsub BanderF (zred bander_r sha_t) (@of_Z BanderF 0)) (zred bander_r sha_s) = @fone BanderF.
Proof. apply (zp_eq bander_r). vm_compute. reflexivity. Qed.
Lemma s_int : @fr_int BanderF BanderI (zred bander_r sha_s) = sha_s.
Proof. vm_compute. reflexivity. Qed.
Lemma E_is r : coords (@claims_sum Bander bander_laws BanderF BanderI r (zred bander_r sha_t) (@fone BanderF) [(default_first, 0)]) = bpt (fst sha_E) (snd sha_E).
Proof.
  refine (eq_trans (f_equal (@coords Bander) (@one_claim_sum Bander bander_laws BanderF BanderF_laws BanderI bander_curve r (zred bander_r sha_t) (zred bander_r sha_s) default_first 0 st_one)) _).
  refine (eq_trans (coords_mul _ _) _).
  refine (eq_trans (f_equal2 (@edwards_multiple Bander) (f_equal Z.to_nat s_int) first_pt) first_multiple).
Qed.
Lemma sha_case : exists cw : @Context_ WA, of_width cw /\ cx_crs cw = raw_crs default_crs_ /\
  @gdot RA (@fone RA :: repeat (@fzero RA) 255) (crs_G default_crs_) = default_first /\
  ~ on_curve sha_D /\
  @raw_verify_proof_uncompressed Bander BanderF BanderI sha2_256 cw (forged_bytes sha_D ++ concat (map (@zero_claim_bytes Bander) [(default_first, 0)])) = Ok true.
Proof.
  destruct (context_of default_crs_) as (cw & w & _ & E1 & _ & W); [exact real_fits|reflexivity|unfold default_crs_, trie_crs; cbn [crs_G]; now rewrite map_length, seq_length|].
  exists cw. split; [exact W|]. split; [exact E1|]. split; [exact (one_entry default_first _ 255)|].
  split; [intro E; apply (f_equal (zval bander_q)) in E; vm_compute in E; discriminate E|].
  apply (forgery (HS := sha2_256) cw [(default_first, 0)] (zred bander_q sha_h) (zred bander_q sha_y) (zred bander_q sha_y) W);
    fold sha_D; rewrite ?t_drawn, ?E_is.
  - constructor; [|constructor]. cbn [snd]. intro E. apply (f_equal (zval bander_r)) in E. vm_compute in E. discriminate E.
  - intro E. apply (f_equal (zval bander_q)) in E. vm_compute in E. discriminate E.
  - intro E. apply (f_equal (zval bander_q)) in E. vm_compute in E. discriminate E.
  - apply (zp_eq bander_q). vm_compute. reflexivity.
  - reflexivity.
Qed.
