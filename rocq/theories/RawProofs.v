(** Proofs about bytes read without a check (C68). *)
From Coq Require Import Field.
From Verif Require Import Base BaseFacts Alg MsmModel WireModel IpaModel ProofModel FfiModel ElementModel ElementSpec ElementProofs
  CurveModel CurveSpec CurveProofs CurveAlg CurveRep RawModel RawSpec.

Section Raw.
Context {B : BaseField} {BL : BaseFieldLaws B}.
Add Field QFieldRaw : Fq_field.
Local Open Scope fq_scope.

Lemma raw_read (P : Affine) : from_bytes_unchecked_uncompressed (pair_bytes P) = Ok (of_affine P).
Proof.
  unfold from_bytes_unchecked_uncompressed, pair_bytes. fold (fq_ser (ax P)). fold (fq_ser (ay P)).
  rewrite fq_de_app, skipn_app_exact, fq_de_ser by apply fq_ser_len. cbn [unwrap rbind]. now destruct P.
Qed.
Lemma raw_read_panic (b : bytes) : is_bytes b -> length b = 64%nat -> (forall P, b <> pair_bytes P) ->
  from_bytes_unchecked_uncompressed b = Panic.
Proof.
  intros HB HL N. unfold from_bytes_unchecked_uncompressed.
  destruct (fq_de b) as [x|] eqn:EX; [|reflexivity]. cbn [unwrap rbind].
  destruct (fq_de (skipn 32 b)) as [y|] eqn:EY; [|reflexivity]. exfalso. apply (N (mkAff x y)).
  destruct (fq_de_inv b x HB EX) as [_ E1].
  assert (HB' : is_bytes (skipn 32 b)).
  { unfold is_bytes in *. rewrite Forall_forall in *. intros z Hz. apply HB. rewrite <- (firstn_skipn 32 b). apply in_or_app. now right. }
  destruct (fq_de_inv _ y HB' EY) as [_ E2]. rewrite firstn_all2 in E2 by (rewrite skipn_length; lia).
  unfold pair_bytes. cbn [ax ay]. fold (fq_ser x). fold (fq_ser y). rewrite <- E1, <- E2. symmetry. apply firstn_skipn.
Qed.
Lemma pair_bytes_inj P Q : pair_bytes P = pair_bytes Q -> P = Q.
Proof. intros E. pose proof (raw_read P) as H. rewrite E, raw_read in H. injection H as E1 E2 _. now apply aff_eq. Qed.

Lemma raw_refused (b c : bytes) : is_bytes b -> length b = 64%nat -> (forall P, b <> pair_bytes P) ->
  raw_serialize_commitment b = Panic /\ raw_add_commitment b c = Panic /\
  (forall P, raw_add_commitment (pair_bytes P) b = Panic).
Proof.
  intros H1 H2 N. pose proof (raw_read_panic b H1 H2 N) as R. unfold raw_serialize_commitment, raw_add_commitment. rewrite R.
  repeat split. intros P. now rewrite raw_read.
Qed.

(** ** Serialization *)
Lemma raw_serialize P : raw_serialize_commitment (pair_bytes P) = Ok (rev (Z_le 32 (q_int (larger_x P)))).
Proof.
  unfold raw_serialize_commitment. rewrite raw_read. cbn [rbind]. rewrite (to_bytes_ok _ P (holds_of_affine P)).
  unfold canon, larger_x. fold (fq_ser (if is_positive (ay P) then ax P else - ax P)). now destruct (is_positive (ay P)).
Qed.
Lemma raw_serialize_same x y y' : is_positive y = is_positive y' ->
  raw_serialize_commitment (pair_bytes (mkAff x y)) = raw_serialize_commitment (pair_bytes (mkAff x y')).
Proof. intros E. rewrite !raw_serialize. unfold larger_x. cbn [ax ay]. now rewrite E. Qed.
Lemma off_curve_y x y y' : on_curve (mkAff x y) -> is_positive y = is_positive y' -> y' <> y -> ~ on_curve (mkAff x y').
Proof.
  intros C1 S N C2. pose proof (curve_y_nz _ C2) as N'; cbn [ay] in N'.
  apply curve_y2 in C1, C2. destruct (q_sq_eq y' y) as [E|E]; [now rewrite C1, C2|contradiction|].
  assert (N'' : y <> 0) by (intros E0; apply N'; rewrite E, E0; ring). rewrite E, positive_opp in S by exact N''. now destruct (is_positive y).
Qed.
(** What is made of bytes that are no commitment can be read back as a commitment. *)
Lemma raw_laundered x y y' : valid_point (mkAff x y) -> is_positive y = is_positive y' -> y' <> y ->
  ~ on_curve (mkAff x y') /\
  exists c, raw_serialize_commitment (pair_bytes (mkAff x y')) = Ok c /\ raw_serialize_commitment (pair_bytes (mkAff x y)) = Ok c /\
    exists Q, same_element Q (mkAff x y) /\ raw_deserialize_commitment c = Ok (FOk (pair_bytes Q)).
Proof.
  intros [HC HS] E N. split; [now apply (off_curve_y x y)|].
  exists (rev (Z_le 32 (q_int (larger_x (mkAff x y))))). rewrite <- (raw_serialize_same x y y' E), !raw_serialize. do 2 (split; [reflexivity|]).
  destruct (from_bytes_to_bytes (of_affine (mkAff x y))) as (b & e & E1 & E2 & E3 & E4).
  { exists (mkAff x y). split; [apply holds_of_affine|now split]. }
  destruct E4 as (Q & HQ & HQC & HQS). exists Q. split.
  - apply (proj1 (eqb_theorem _ _ _ _ HQ (holds_of_affine (mkAff x y)) HQC HC)). exact E3.
  - pose proof (raw_serialize (mkAff x y)) as R. unfold raw_serialize_commitment in R. rewrite raw_read in R. cbn [rbind] in R. rewrite E1 in R.
    assert (R' : forall u v : bytes, Ok u = Ok v -> u = v) by (intros u v EE; now injection EE). apply R' in R. rewrite <- R. unfold raw_deserialize_commitment. rewrite E2. cbn [rbind]. unfold to_bytes_uncompressed. rewrite (to_affine_ok _ _ HQ). reflexivity.
Qed.

(** ** Sums *)
Lemma raw_sum_holds e1 e2 P Q : holds e1 P -> holds e2 Q -> summable P Q -> holds (element_add e1 e2) (edwards_sum P Q).
Proof.
  intros (Z1 & X1 & Y1 & T1) (Z2 & X2 & Y2 & T2) [K1 K2].
  destruct P as [x1 y1], Q as [x2 y2]. unfold holds, element_add, edwards_sum. cbn [ex ey et ez ax ay] in *.
  rewrite X1, X2, Y1, Y2, T1, T2. set (z1 := ez e1) in *. set (z2 := ez e2) in *.
  set (k := coeff_d * (x1 * x2 * y1 * y2)) in *.
  assert (EK : coeff_d * x1 * x2 * y1 * y2 = k) by (unfold k; ring). rewrite EK.
  assert (ED : coeff_d * (x1 * y1 * z1) * (x2 * y2 * z2) = k * (z1 * z2)) by (unfold k; ring).
  rewrite ED. clearbody k. split; [|split; [|split]].
  - replace ((z1 * z2 - k * (z1 * z2)) * (z1 * z2 + k * (z1 * z2))) with ((1 - k) * (1 + k) * ((z1 * z2) * (z1 * z2))) by ring.
    auto using q_mul_nz.
  - field. auto.
  - field. auto.
  - field. auto.
Qed.
Lemma raw_sum_panic e1 e2 P Q : holds e1 P -> holds e2 Q -> ~ summable P Q -> to_affine (element_add e1 e2) = Panic.
Proof.
  intros (Z1 & X1 & Y1 & T1) (Z2 & X2 & Y2 & T2) N.
  assert (EZ : ez (element_add e1 e2) = 0).
  { set (k := coeff_d * (ax P * ax Q * ay P * ay Q)).
    assert (E : ez (element_add e1 e2) = ((1 - k) * (1 + k)) * ((ez e1 * ez e2) * (ez e1 * ez e2))).
    { unfold element_add. cbn [ez]. rewrite T1, T2. unfold k. ring. }
    rewrite E. destruct (qeqb (1 + k) 0) eqn:E1; [apply qeqb_true in E1; rewrite E1; ring|].
    destruct (qeqb (1 - k) 0) eqn:E2; [apply qeqb_true in E2; rewrite E2; ring|].
    exfalso. apply N. split; apply qeqb_false; assumption. }
  unfold to_affine. rewrite EZ. rewrite (proj2 (qeqb_true (0 : Fq) 0) eq_refl).
  replace (qeqb (0 : Fq) 1) with false by (symmetry; apply qeqb_false; intros E; apply q_1_neq_0; now symmetry).
  destruct (qeqb (ey (element_add e1 e2)) 0); cbn [negb]; now rewrite ?andb_false_r.
Qed.
Lemma summable_dec P Q : {summable P Q} + {~ summable P Q}.
Proof.
  unfold summable. set (u := 1 + _). set (v := 1 - _). destruct (qeqb u 0) eqn:E1.
  - right. apply qeqb_true in E1. intros [N _]. now apply N.
  - destruct (qeqb v 0) eqn:E2; [right; apply qeqb_true in E2; intros [_ N]; now apply N|].
    left. split; now apply qeqb_false.
Qed.
Lemma summable_comm P Q : summable P Q -> summable Q P.
Proof.
  unfold summable. replace (ax Q * ax P * ay Q * ay P) with (ax P * ax Q * ay P * ay Q) by ring. tauto.
Qed.
Lemma sum_bytes e1 e2 P Q : holds e1 P -> holds e2 Q -> summable P Q ->
  to_bytes_uncompressed (element_add e1 e2) = Ok (pair_bytes (edwards_sum P Q)).
Proof. intros H1 H2 S. unfold to_bytes_uncompressed. now rewrite (to_affine_ok _ _ (raw_sum_holds _ _ _ _ H1 H2 S)). Qed.
Lemma sum_bytes_panic e1 e2 P Q : holds e1 P -> holds e2 Q -> ~ summable P Q -> to_bytes_uncompressed (element_add e1 e2) = Panic.
Proof. intros H1 H2 S. unfold to_bytes_uncompressed. now rewrite (raw_sum_panic _ _ _ _ H1 H2 S). Qed.
(** The scaling of the coordinates held does not matter. *)
Lemma raw_add_any_scale e1 e1' e2 e2' P Q : holds e1 P -> holds e1' P -> holds e2 Q -> holds e2' Q ->
  to_bytes_uncompressed (element_add e1 e2) = to_bytes_uncompressed (element_add e1' e2').
Proof.
  intros H1 H1' H2 H2'. destruct (summable_dec P Q) as [S|S].
  - rewrite (sum_bytes e1 e2 P Q), (sum_bytes e1' e2' P Q); auto.
  - rewrite (sum_bytes_panic e1 e2 P Q), (sum_bytes_panic e1' e2' P Q); auto.
Qed.
Lemma raw_add P Q : summable P Q -> raw_add_commitment (pair_bytes P) (pair_bytes Q) = Ok (pair_bytes (edwards_sum P Q)).
Proof. intros S. unfold raw_add_commitment. rewrite !raw_read. cbn [rbind]. apply sum_bytes; [apply holds_of_affine..|exact S]. Qed.
Lemma raw_add_panic P Q : ~ summable P Q -> raw_add_commitment (pair_bytes P) (pair_bytes Q) = Panic.
Proof. intros S. unfold raw_add_commitment. rewrite !raw_read. cbn [rbind]. apply (sum_bytes_panic _ _ P Q); [apply holds_of_affine..|exact S]. Qed.
Lemma d_nz : coeff_d <> 0.
Proof. intros E. apply (coeff_d_nonsquare 0). rewrite E. ring. Qed.

(** ** Hashes *)
Context {A : Alg}.
Lemma raw_map P : ay P <> 0 -> map_to_scalar_field (of_affine P) = Ok (of_Z (q_int (ax P / ay P)) : F).
Proof.
  intros N. unfold map_to_scalar_field, map_to_field, fq_div, of_affine. cbn [ex ey]. rewrite (proj2 (qeqb_false _ _) N). cbn [rbind].
  unfold fr_of_fq. rewrite fq_le_ser. do 3 f_equal. field. exact N.
Qed.
Lemma raw_map_panic P : ay P = 0 -> map_to_scalar_field (of_affine P) = (Panic : res F).
Proof. intros N. unfold map_to_scalar_field, map_to_field, fq_div, of_affine. cbn [ex ey]. now rewrite N, (proj2 (qeqb_true (0 : Fq) 0) eq_refl). Qed.
Lemma raw_batch Ps : batch_map_to_scalar_field (map of_affine Ps) =
  map (fun P => (of_Z (if qeqb (ay P) 0 then 0%Z else q_int (ax P / ay P)) : F)) Ps.
Proof.
  unfold batch_map_to_scalar_field, batch_inversion_q. induction Ps as [|P Ps IH]; [reflexivity|].
  cbn [map combine]. rewrite IH. f_equal. unfold fr_of_fq. rewrite fq_le_ser. f_equal. unfold of_affine. cbn [ex ey]. destruct (qeqb (ay P) 0) eqn:E.
  - apply qeqb_true in E. rewrite E. rewrite <- q_int_0. f_equal. ring.
  - apply qeqb_false in E. f_equal. field. exact E.
Qed.
Context {C : ECodec A}.
Lemma raw_hash P : ay P <> 0 -> hash_commitment (pair_bytes P) = Ok (sc_ser (of_Z (q_int (ax P / ay P)) : F)).
Proof. intros N. unfold hash_commitment. rewrite raw_read. cbn [rbind]. now rewrite (raw_map P N). Qed.
Lemma raw_hash_panic P : ay P = 0 -> hash_commitment (pair_bytes P) = Panic.
Proof. intros N. unfold hash_commitment. rewrite raw_read. cbn [rbind]. now rewrite (raw_map_panic P N). Qed.
Lemma raw_hashes Ps : hash_commitments (map pair_bytes Ps) =
  Ok (map (fun P => sc_ser (of_Z (if qeqb (ay P) 0 then 0%Z else q_int (ax P / ay P)) : F)) Ps).
Proof.
  unfold hash_commitments.
  assert (E : rmap from_bytes_unchecked_uncompressed (map pair_bytes Ps) = Ok (map of_affine Ps)).
  { induction Ps as [|P Ps IH]; [reflexivity|]. cbn [map rmap]. rewrite raw_read. cbn [rbind]. now rewrite IH. }
  rewrite E. cbn [rbind]. rewrite raw_batch, map_map. reflexivity.
Qed.
(** (c x, c y) has the hash of (x, y), and is on the curve only for c = 1 and c = -1. *)
Lemma raw_hash_forged P c : on_curve P -> c <> 0 -> c <> 1 -> c <> - (1) ->
  ~ on_curve (mkAff (c * ax P) (c * ay P)) /\
  hash_commitment (pair_bytes (mkAff (c * ax P) (c * ay P))) = hash_commitment (pair_bytes P).
Proof.
  intros HC N0 N1 N2. pose proof (curve_y_nz _ HC) as NY. split.
  - intros HC'. destruct (same_ratio P _ HC HC') as [E|E].
    + cbn [ax ay]. ring.
    + apply (f_equal ay) in E. cbn [ay] in E. apply N1. transitivity (c * ay P / ay P); [field; exact NY|]. rewrite <- E. field. exact NY.
    + apply (f_equal ay) in E. cbn [negated ay] in E. apply N2. transitivity (c * ay P / ay P); [field; exact NY|].
      transitivity (- (- (c * ay P)) / ay P); [field; exact NY|]. rewrite <- E. field. exact NY.
  - rewrite !raw_hash; [|exact NY|cbn [ay]; now apply q_mul_nz]. cbn [ax ay]. do 4 f_equal. field. now split.
Qed.
End Raw.

Section Group.
Context {B : BaseField} {BL : BaseFieldLaws B} {CL : CurveLaws B}.
Add Field QFieldRaw2 : Fq_field.
Local Open Scope fq_scope.

Lemma valid_summable P Q : valid_point P -> valid_point Q -> summable P Q.
Proof.
  intros VP VQ. pose proof (complete P Q VP VQ) as K. cbv zeta in K. unfold summable.
  replace (coeff_d * (ax P * ax Q * ay P * ay Q)) with (coeff_d * ax P * ax Q * ay P * ay Q) by ring. exact K.
Qed.
(** Whatever the commitment, other than those with x = 0, some bytes make the addition panic. *)
Lemma raw_add_panics P : valid_point P -> ax P <> 0 -> exists Q, ~ valid_point Q /\ raw_add_commitment (pair_bytes P) (pair_bytes Q) = Panic.
Proof.
  intros VP NX. pose proof (curve_y_nz _ (proj1 VP)) as NY. pose proof d_nz as ND.
  exists (mkAff 1 (- (1 / (coeff_d * ax P * ay P)))).
  assert (N : ~ summable P (mkAff 1 (- (1 / (coeff_d * ax P * ay P))))).
  { intros [K _]. apply K. cbn [ax ay]. field. auto. }
  split; [intros V; apply N; now apply valid_summable|now apply raw_add_panic].
Qed.

(** ** Updates *)
Context {A : Alg} {AL : AlgLaws A} {I : FrInt A} {SL : ScalarLaws B A I}.
Local Notation RA := (@rep_alg B BL A I).
#[local] Existing Instance rep_int.
#[local] Existing Instance rep_ecodec.
Context {P0 : Par RA} {W : Wnaf RA} {H : Hasher}.

Lemma read_group b (g : @G RA) : @eu_de RA rep_ecodec b = Some g -> from_bytes_unchecked_uncompressed b = Ok (of_affine (coords g)).
Proof.
  cbn [eu_de rep_ecodec]. destruct (from_bytes_unchecked_uncompressed b) as [e|] eqn:E; [|discriminate].
  unfold from_bytes_unchecked_uncompressed in E. destruct (fq_de b) as [x|]; [|discriminate E]. cbn [unwrap rbind] in E.
  destruct (fq_de (skipn 32 b)) as [y|]; [|discriminate E]. cbn [unwrap rbind] in E.
  assert (EE : e = of_affine (mkAff x y)) by congruence. clear E. subst e. rewrite (to_affine_ok _ _ (holds_of_affine (mkAff x y))).
  unfold co_opt. destruct (coordb (mkAff x y)) eqn:K; [|discriminate]. intros E.
  assert (EG : g = co_of (mkAff x y)) by congruence. rewrite EG, co_of_coords by now apply coordb_iff. reflexivity.
Qed.
Lemma eu_ser_pair (g : @G RA) : eu_ser g = pair_bytes (coords g).
Proof. exact (rep_eu_ser g). Qed.
Lemma read_pair (P : Affine) : @eu_de RA rep_ecodec (pair_bytes P) = co_opt P.
Proof. cbn [eu_de rep_ecodec]. rewrite raw_read, (to_affine_ok _ _ (holds_of_affine P)). reflexivity. Qed.
Lemma group_sum (g h : @G RA) : to_bytes_uncompressed (element_add (of_affine (coords g)) (of_affine (coords h))) = Ok (eu_ser (gadd g h)).
Proof.
  rewrite (sum_bytes _ _ (coords g) (coords h)); [|apply holds_of_affine..|apply valid_summable; apply co_valid].
  rewrite eu_ser_pair. cbn [gadd rep_alg]. now rewrite coords_add.
Qed.

Lemma readable_iff (b : bytes) (g : @G RA) : is_bytes b -> length b = 64%nat ->
  (@eu_de RA rep_ecodec b = Some g <-> b = pair_bytes (coords g)).
Proof.
  intros HB HL. split; [|intros ->; rewrite read_pair; apply co_opt_self]. intros E. pose proof (read_group b g E) as R.
  unfold from_bytes_unchecked_uncompressed in R.
  destruct (fq_de b) as [x|] eqn:EX; [|discriminate R]. cbn [unwrap rbind] in R.
  destruct (fq_de (skipn 32 b)) as [y|] eqn:EY; [|discriminate R]. cbn [unwrap rbind] in R.
  destruct (fq_de_inv b x HB EX) as [_ E1].
  assert (HB' : is_bytes (skipn 32 b)).
  { unfold is_bytes in *. rewrite Forall_forall in *. intros z Hz. apply HB. rewrite <- (firstn_skipn 32 b). apply in_or_app. now right. }
  destruct (fq_de_inv _ y HB' EY) as [_ E2]. rewrite firstn_all2 in E2 by (rewrite skipn_length; lia).
  assert (EP : ex (of_affine (mkAff x y)) = ax (coords g) /\ ey (of_affine (mkAff x y)) = ay (coords g)).
  { assert (EE : of_affine (mkAff x y) = of_affine (coords g)) by congruence. rewrite EE. split; reflexivity. }
  destruct EP as [EPX EPY]. cbn [ex ey of_affine ax ay] in EPX, EPY. unfold pair_bytes. rewrite <- EPX, <- EPY.
  fold (fq_ser x). fold (fq_ser y). rewrite <- E1, <- E2. symmetry. apply firstn_skipn.
Qed.

(** On the bytes of a group element the functions are those of [FfiModel]. *)
Lemma agree_serialize b (g : @G RA) : @eu_de RA rep_ecodec b = Some g -> raw_serialize_commitment b = @serialize_commitment RA rep_ecodec b.
Proof.
  intros E. unfold raw_serialize_commitment, serialize_commitment. rewrite (read_group b g E), E. cbn [unwrap rbind].
  cbn [el_ser rep_ecodec]. now rewrite (to_bytes_ok _ _ (holds_of_affine (coords g))).
Qed.
Lemma agree_deserialize (b : bytes) : raw_deserialize_commitment b = Ok (@deserialize_commitment RA _ b).
Proof.
  unfold raw_deserialize_commitment, deserialize_commitment. cbn [el_de rep_ecodec].
  destruct (from_bytes_total b) as [[e|] E]; rewrite E; cbn [rbind]; [|reflexivity].
  destruct (from_bytes_valid b e E) as (Q & HQ & HC & HS). rewrite (to_affine_ok _ _ HQ). unfold co_opt.
  assert (V : valid_point Q) by now split. rewrite (proj2 (coordb_iff Q) V). unfold to_bytes_uncompressed at 1. rewrite (to_affine_ok _ _ HQ). cbn [rbind].
  rewrite eu_ser_pair, co_of_coords by exact V. reflexivity.
Qed.
Lemma agree_add b c (g h : @G RA) : @eu_de RA rep_ecodec b = Some g -> @eu_de RA rep_ecodec c = Some h -> raw_add_commitment b c = @add_commitment RA rep_ecodec b c.
Proof.
  intros E1 E2. unfold raw_add_commitment, add_commitment. rewrite (read_group b g E1), (read_group c h E2), E1, E2. cbn [unwrap rbind]. apply group_sum.
Qed.
Lemma raw_update_refused (b : bytes) : is_bytes b -> length b = 64%nat -> (forall P, b <> pair_bytes P) ->
  (forall cx i o n, raw_update_commitment cx b i o n = Panic) /\ (forall cx is_ os ns, raw_update_commitment_sparse cx b is_ os ns = Panic).
Proof.
  intros H1 H2 N. pose proof (raw_read_panic b H1 H2 N) as R. split; intros; unfold raw_update_commitment, raw_update_commitment_sparse; now rewrite R.
Qed.
Lemma agree_update cx b (g : @G RA) i o n : @eu_de RA rep_ecodec b = Some g -> raw_update_commitment cx b i o n = update_commitment cx b i o n.
Proof.
  intros E. unfold raw_update_commitment, update_commitment. rewrite (read_group b g E), E. cbn [unwrap rbind].
  destruct (fr_from_le_bytes o) as [vo|]; [|reflexivity]. cbn [fbind]. destruct (fr_from_le_bytes n) as [vn|]; [|reflexivity]. cbn [fbind].
  destruct (committer_scalar_mul _ _ _) as [d|]; [|reflexivity]. cbn [rbind]. now rewrite group_sum.
Qed.
Lemma agree_sparse cx b (g : @G RA) is_ os ns : @eu_de RA rep_ecodec b = Some g ->
  raw_update_commitment_sparse cx b is_ os ns = update_commitment_sparse cx b is_ os ns.
Proof.
  intros E. unfold raw_update_commitment_sparse, update_commitment_sparse. rewrite (read_group b g E), E. cbn [unwrap rbind].
  destruct (sparse_deltas _ _ _ _) as [l|]; [|reflexivity]. cbn [rbind].
  destruct (committer_commit_sparse _ _) as [d|]; [|reflexivity]. cbn [rbind]. now rewrite group_sum.
Qed.

Lemma on_commitments (b c : bytes) (g h : @G RA) : @eu_de RA rep_ecodec b = Some g -> @eu_de RA rep_ecodec c = Some h ->
  raw_serialize_commitment b = @serialize_commitment RA rep_ecodec b /\
  raw_add_commitment b c = @add_commitment RA rep_ecodec b c /\
  (forall cx i o n, raw_update_commitment cx b i o n = update_commitment cx b i o n) /\
  (forall cx is_ os ns, raw_update_commitment_sparse cx b is_ os ns = update_commitment_sparse cx b is_ os ns).
Proof.
  intros E1 E2. split; [exact (agree_serialize b g E1)|]. split; [exact (agree_add b c g h E1 E2)|]. split; intros cx.
  - intros i o n. exact (agree_update cx b g i o n E1).
  - intros is_ os ns. exact (agree_sparse cx b g is_ os ns E1).
Qed.

Lemma zero_read : @eu_de RA rep_ecodec (pair_bytes (mkAff 0 1)) = Some gzero.
Proof. rewrite read_pair. exact (co_opt_self co_zero). Qed.
Lemma with_zero (d : @G RA) P : exists D, eu_ser (gadd d gzero) = pair_bytes D /\ valid_point D /\
      (summable D P -> (let! b := to_bytes_uncompressed (element_add (of_affine (coords d)) (of_affine P)) in Ok (@FOk bytes b)) = Ok (FOk (pair_bytes (edwards_sum D P)))) /\
      (~ summable D P -> (let! b := to_bytes_uncompressed (element_add (of_affine (coords d)) (of_affine P)) in Ok (@FOk bytes b)) = Panic).
Proof.
  exists (coords d). split; [|split; [|split]].
  - assert (E : @gadd RA d gzero = d).
    { cbn [gadd gzero rep_alg]. apply co_eq. rewrite coords_add. apply sum_zero. }
    rewrite E. apply eu_ser_pair.
  - apply co_valid.
  - intros S. now rewrite (sum_bytes _ _ (coords d) P (holds_of_affine _) (holds_of_affine _) S).
  - intros S. now rewrite (sum_bytes_panic _ _ (coords d) P (holds_of_affine _) (holds_of_affine _) S).
Qed.
Lemma raw_update cx P i o n :
  with_update (update_commitment cx (pair_bytes (mkAff 0 1)) i o n) P (raw_update_commitment cx (pair_bytes P) i o n).
Proof.
  unfold raw_update_commitment, update_commitment. rewrite raw_read, zero_read. cbn [unwrap rbind].
  destruct (fr_from_le_bytes o) as [vo|]; [|reflexivity]. cbn [fbind]. destruct (fr_from_le_bytes n) as [vn|]; [|reflexivity]. cbn [fbind].
  destruct (committer_scalar_mul _ _ _) as [d|]; [|reflexivity]. cbn [rbind with_update]. apply with_zero.
Qed.
Lemma raw_update_sparse cx P is_ os ns :
  with_update (update_commitment_sparse cx (pair_bytes (mkAff 0 1)) is_ os ns) P (raw_update_commitment_sparse cx (pair_bytes P) is_ os ns).
Proof.
  unfold raw_update_commitment_sparse, update_commitment_sparse. rewrite raw_read, zero_read. cbn [unwrap rbind].
  destruct (sparse_deltas _ _ _ _) as [l|]; [|reflexivity]. cbn [rbind].
  destruct (committer_commit_sparse _ _) as [d|]; [|reflexivity]. cbn [rbind with_update]. apply with_zero.
Qed.
End Group.
