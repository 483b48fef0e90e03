(** Elements as the code holds them: coordinate pairs, two of which stand for one element.  The other
    files run on one value per element ([CurveAlg]); here the same functions run on coordinates, where the
    uncompressed bytes and the check made when reading them depend on which of the two was computed. *)
From Coq Require Import Field Znumtheory Eqdep_dec.
From Verif Require Import Base BaseFacts Alg MsmModel MsmSpec MsmProofs MsmInt CodecModel WireModel IpaModel ElementModel ElementSpec ElementProofs
  CurveModel CurveSpec CurveProofs CurveAlg.

Section Coord.
Context {B : BaseField} {BL : BaseFieldLaws B}.
Local Open Scope fq_scope.

(** On the curve and in the banderwagon subgroup: the coordinates of elements. *)
Definition coordb (P : Affine) : bool :=
  qeqb (coeff_a * (ax P * ax P) + ay P * ay P) (1 + coeff_d * ((ax P * ax P) * (ay P * ay P))) && legendre_check_point (ax P).
Lemma coordb_iff P : coordb P = true <-> valid_point P.
Proof.
  unfold coordb, valid_point, on_curve. rewrite andb_true_iff, qeqb_true, (legendre_spec (ax P) (ay P)). destruct P as [x y]; cbn [ax ay]. tauto.
Qed.
Definition Coord : Type := { P : Affine | coordb P = true }.
Definition coords (g : Coord) : Affine := proj1_sig g.
Lemma co_eq (g h : Coord) : coords g = coords h -> g = h.
Proof.
  destruct g as [P HP], h as [Q HQ]. unfold coords. cbn [proj1_sig]. intros ->. f_equal. apply UIP_dec. apply Bool.bool_dec.
Qed.
Lemma zero_coordb : coordb (mkAff 0 1) = true.
Proof. apply coordb_iff. apply valid_zero. Qed.
Definition co_zero : Coord := exist _ (mkAff 0 1) zero_coordb.
(** The coordinates [P], if they are those of an element. *)
Definition co_of (P : Affine) : Coord :=
  match Bool.bool_dec (coordb P) true with left H => exist _ P H | right _ => co_zero end.
Definition co_opt (P : Affine) : option Coord := if coordb P then Some (co_of P) else None.
Lemma co_of_coords P : valid_point P -> coords (co_of P) = P.
Proof. intros H. apply coordb_iff in H. unfold co_of. destruct (Bool.bool_dec (coordb P) true) as [E|E]; [reflexivity|contradiction]. Qed.
Lemma co_valid g : valid_point (coords g).
Proof. apply coordb_iff. exact (proj2_sig g). Qed.
Lemma co_of_self g : co_of (coords g) = g.
Proof. apply co_eq, co_of_coords, co_valid. Qed.
Lemma co_opt_self g : co_opt (coords g) = Some g.
Proof. unfold co_opt. rewrite (proj2_sig g : coordb (coords g) = true), co_of_self. reflexivity. Qed.

(** trait_impls/ops.rs and element.rs, as in [CurveModel], on affine coordinates. *)
Definition co_add (g h : Coord) : Coord := co_of (edwards_sum (coords g) (coords h)).
Definition co_opp (g : Coord) : Coord := co_of (inverse_point (coords g)).
Definition co_eqb (g h : Coord) : bool := element_eqb (of_affine (coords g)) (of_affine (coords h)).

Context {A : Alg} {I : FrInt A}.
Definition co_mul (s : F) (g : Coord) : Coord := co_of (edwards_multiple (Z.to_nat (fr_int s)) (coords g)).

Definition rep_alg : Alg := {|
  F := F; fzero := fzero; fone := fone; fadd := fadd; fmul := fmul; fsub := fsub; fopp := fopp; fdiv := fdiv; finv := finv;
  feqb := feqb; of_Z := of_Z;
  G := Coord; gzero := co_zero; gadd := co_add; gopp := co_opp; smul := co_mul; geqb := co_eqb |}.
Definition rep_int : FrInt rep_alg := (@fr_int A I : @F rep_alg -> Z).

Definition co_hash (g : Coord) : F :=
  match map_to_scalar_field (of_affine (coords g)) with Ok s => s | Panic => fzero end.
Definition rep_par (gens : Z -> Coord) (Q : Coord) : Par rep_alg := @mkPar rep_alg co_hash gens Q.

(** Records: the point written is checked for prime order when it is read. *)
Definition rep_codec : Codec rep_alg := @mkCodec rep_alg
  (fun g => unbytes (serialize_uncompressed (of_affine (coords g))))
  (fun b => match deserialize_uncompressed b with Some (e, _) => match to_affine e with Ok P => co_opt P | Panic => None end | None => None end)
  (@scalar_ser A I) (@scalar_de B A).
(** The foreign-function interface: the point written is read without a check. *)
Definition rep_ecodec : ECodec rep_alg := @mkECodec rep_alg
  (fun g => unbytes (to_bytes (of_affine (coords g))))
  (fun b => match from_bytes b with Ok (Some e) => match to_affine e with Ok P => co_opt P | Panic => None end | _ => None end)
  (fun g => unbytes (to_bytes_uncompressed (of_affine (coords g))))
  (fun b => match from_bytes_unchecked_uncompressed b with
            | Ok e => match to_affine e with Ok P => co_opt P | Panic => None end
            | Panic => None end)
  (@scalar_ser A I) (@scalar_de B A).

(** The coordinates are not of prime order, as those of half of the elements read by [from_bytes]. *)
Definition twisted (g : Coord) : bool := negb (point_check (coords g)).
End Coord.

Section Laws.
Context {B : BaseField} {BL : BaseFieldLaws B} {CL : CurveLaws B} {A : Alg} {AL : AlgLaws A} {I : FrInt A} {SL : ScalarLaws B A I}.
Local Open Scope fq_scope.
Local Notation RA := (@rep_alg B BL A I).
Local Notation RI := (@rep_int B BL A I).
Local Notation order := (Z.of_nat q_order).

Lemma coords_add g h : coords (co_add g h) = edwards_sum (coords g) (coords h).
Proof. apply co_of_coords, valid_sum; apply co_valid. Qed.
Lemma coords_opp g : coords (co_opp g) = inverse_point (coords g).
Proof. apply co_of_coords, valid_inverse, co_valid. Qed.
Lemma coords_mul s g : coords (@co_mul B BL A I s g) = edwards_multiple (Z.to_nat (fr_int s)) (coords g).
Proof. apply co_of_coords, valid_multiple, co_valid. Qed.
Lemma coords_nmul n (g : Coord) : coords (@nmul RA n g) = edwards_multiple n (coords g).
Proof.
  induction n as [|n IH]; [reflexivity|]. rewrite nmul_S, multiple_S, <- IH. apply coords_add.
Qed.

Lemma rep_module : IntModule RA RI order.
Proof.
  assert (Z0 : fr_int (fzero : @F A) = 0%Z).
  { rewrite <- of_Z_0. apply scalar_int_of. pose proof (scalar_range (fzero : @F A)). lia. }
  constructor.
  - intros x y. apply co_eq. cbn [gadd rep_alg]. rewrite !coords_add. apply sum_comm.
  - intros x y z. apply co_eq. cbn [gadd rep_alg]. rewrite !coords_add. symmetry. apply sum_assoc; apply co_valid.
  - intros x. apply co_eq. cbn [gadd rep_alg]. rewrite !coords_add, sum_comm. apply sum_zero.
  - intros x. apply co_eq. cbn [gadd gopp rep_alg]. rewrite coords_add, coords_opp. apply sum_inverse, co_valid.
  - intros s p. apply co_eq. cbn [smul rep_alg]. rewrite coords_mul. unfold zmul. pose proof (scalar_range (s : @F A)).
    change (@fr_int RA RI s) with (@fr_int A I s). change (@F RA) with (@F A) in s. set (z := fr_int s) in *. destruct (Z.ltb_spec z 0); [lia|]. rewrite Z.abs_eq by lia.
    symmetry. apply coords_nmul.
  - exact (@of_Z_1 A AL).
  - exact (@of_Z_mul A AL).
  - intros x E. change (feqb (x : @F A) fzero = true) in E. apply feqb_true in E. change (fr_int (x : @F A) = 0%Z). now rewrite E.
  - exact Z0.
  - intros x. change (0 <= fr_int (x : @F A) < 2 ^ 253)%Z. pose proof (scalar_range (x : @F A)). pose proof scalar_bits. lia.
  - intros z. exact (@scalar_int_of B A AL I SL z).
Qed.
#[local] Instance rep_module_i : IntModule RA RI order := rep_module.

(** ** Which of the two *)
(** The point of order two, which stands for zero. *)
Definition half : Coord := co_of (negated (mkAff 0 1)).
Lemma coords_half : coords half = negated (mkAff 0 1).
Proof. apply co_of_coords. apply (same_valid (mkAff 0 1)); [|apply valid_zero]. right. now rewrite negated_negated. Qed.
Lemma add_half g : coords (co_add half g) = negated (coords g).
Proof. rewrite coords_add, coords_half, sum_negated, sum_comm, sum_zero. reflexivity. Qed.
Lemma half_half : co_add half half = co_zero.
Proof. apply co_eq. rewrite add_half, coords_half. apply negated_negated. Qed.
Lemma negated_neq P : on_curve P -> negated P <> P.
Proof.
  intros HC E. apply (f_equal ay) in E. cbn [negated ay] in E. apply (q_neq_opp (ay P) (curve_y_nz P HC)). now symmetry.
Qed.
Lemma half_neq g : co_add half g <> g.
Proof. intros E. apply (f_equal coords) in E. rewrite add_half in E. now apply (negated_neq (coords g) (proj1 (co_valid g))). Qed.

Lemma twisted_iff g : (twisted g = false -> @zmul RA order g = co_zero) /\ (twisted g = true -> @zmul RA order g = half).
Proof.
  assert (E : coords (@zmul RA order g) = edwards_multiple q_order (coords g)) by (rewrite zmul_nat; apply coords_nmul).
  unfold twisted. split; intros T; apply co_eq; rewrite E.
  - apply negb_false_iff, point_check_iff in T. apply T.
  - rewrite coords_half. destruct (q_order_kills (coords g) (co_valid g)) as [K|K]; [|exact K].
    apply negb_true_iff in T. exfalso. assert (point_check (coords g) = true) by (apply point_check_iff; split; [apply co_valid|exact K]). congruence.
Qed.
Lemma order_mul g : @zmul RA order g = if twisted g then half else co_zero.
Proof. destruct (twisted_iff g) as [E1 E2]. destruct (twisted g); auto. Qed.
Lemma order_of g (b : bool) : @zmul RA order g = (if b then half else co_zero) -> twisted g = b.
Proof.
  intros E. rewrite order_mul in E. destruct (twisted g), b; auto; exfalso; apply (half_neq co_zero).
  - rewrite E. apply (@im_zero RA RI order _).
  - rewrite <- E. apply (@im_zero RA RI order _).
Qed.
Lemma twisted_add g h : twisted (co_add g h) = xorb (twisted g) (twisted h).
Proof.
  apply order_of. rewrite (@zmul_gadd RA RI order _ order g h), !order_mul.
  destruct (twisted g), (twisted h); cbn [xorb]; [apply half_half|apply (@im_zero_r RA RI order _)|apply (@im_zero RA RI order _)|apply (@im_zero RA RI order _)].
Qed.
Lemma zmul_zero n : @zmul RA n co_zero = co_zero.
Proof. pose proof (@zmul_mul RA RI order _ n 0%Z co_zero) as E. rewrite Z.mul_0_r in E. symmetry. exact E. Qed.
Lemma zmul_half n : @zmul RA n half = if Z.odd n then half else co_zero.
Proof.
  rewrite (Zdiv2_odd_eqn n) at 1. rewrite (@zmul_add RA RI order _), Z.mul_comm, (@zmul_mul RA RI order _).
  assert (E2 : @zmul RA 2%Z half = co_zero).
  { change 2%Z with (1 + 1)%Z. rewrite (@zmul_add RA RI order _), !(@zmul_1 RA RI order _). apply half_half. }
  rewrite E2, zmul_zero. destruct (Z.odd n); [rewrite (@zmul_1 RA RI order _)|]; apply (@im_zero RA RI order _).
Qed.
Lemma twisted_zmul n g : twisted (@zmul RA n g) = Z.odd n && twisted g.
Proof.
  apply order_of. rewrite <- (@zmul_mul RA RI order _), Z.mul_comm, (@zmul_mul RA RI order _), order_mul.
  destruct (twisted g); [|now rewrite zmul_zero, andb_false_r]. rewrite zmul_half, andb_true_r. reflexivity.
Qed.
Lemma twisted_zero : twisted co_zero = false.
Proof. apply order_of. apply zmul_zero. Qed.

(** A sum is twisted if an odd number of its terms are. *)
Lemma twisted_sum (l : list (@G RA)) : twisted (lsum l) = Nat.odd (length (filter twisted l)).
Proof.
  induction l as [|g l IH]; [exact twisted_zero|]. cbn [lsum fold_right filter]. fold (lsum l).
  change (@gadd RA) with (@co_add B BL). rewrite twisted_add, IH. destruct (twisted g); [|apply xorb_false_l]. cbn [length]. rewrite Nat.odd_succ, <- Nat.negb_odd. apply xorb_true_l.
Qed.

(** ** Encodings *)
Lemma rep_eu_ser g : @eu_ser RA rep_ecodec g = fq_ser (ax (coords g)) ++ fq_ser (ay (coords g)).
Proof. cbn [eu_ser rep_ecodec]. unfold to_bytes_uncompressed. now rewrite (to_affine_ok _ _ (holds_of_affine (coords g))). Qed.
Lemma rep_eu_len g : length (@eu_ser RA rep_ecodec g) = 64%nat.
Proof. rewrite rep_eu_ser, app_length, !fq_ser_len. reflexivity. Qed.
Lemma rep_eu_rt g : @eu_de RA rep_ecodec (@eu_ser RA rep_ecodec g) = Some g.
Proof.
  rewrite rep_eu_ser. cbn [eu_de rep_ecodec]. unfold from_bytes_unchecked_uncompressed.
  rewrite fq_de_app, skipn_app_exact, fq_de_ser by apply fq_ser_len. cbn [unwrap rbind].
  assert (E : mkAff (ax (coords g)) (ay (coords g)) = coords g) by now destruct (coords g).
  rewrite E, (to_affine_ok _ _ (holds_of_affine (coords g))). apply co_opt_self.
Qed.
Lemma rep_eu_inj g h : @eu_ser RA rep_ecodec g = @eu_ser RA rep_ecodec h -> g = h.
Proof. intros E. apply (f_equal (@eu_de RA rep_ecodec)) in E. rewrite !rep_eu_rt in E. now injection E. Qed.

(** A record can be read again exactly if the coordinates are of prime order. *)
Lemma rep_pt_ser g : @pt_ser RA rep_codec g = fq_ser (ax (coords g)) ++ fq_ser (ay (coords g)).
Proof. cbn [pt_ser rep_codec]. unfold serialize_uncompressed. now rewrite (to_affine_ok _ _ (holds_of_affine (coords g))). Qed.
Lemma rep_pt_de g : @pt_de RA rep_codec (@pt_ser RA rep_codec g) = if twisted g then None else Some g.
Proof.
  rewrite rep_pt_ser. cbn [pt_de rep_codec]. unfold deserialize_uncompressed.
  rewrite fq_de_app, skipn_app_exact, fq_de_ser by apply fq_ser_len.
  assert (E : mkAff (ax (coords g)) (ay (coords g)) = coords g) by now destruct (coords g). rewrite E. unfold twisted.
  destruct (point_check (coords g)); cbn [negb]; [|reflexivity]. rewrite (to_affine_ok _ _ (holds_of_affine (coords g))). apply co_opt_self.
Qed.

(** ** One value per element *)
Lemma same_halves g h : same_element (coords g) (coords h) <-> g = h \/ g = co_add half h.
Proof.
  split.
  - intros [E|E]; [left|right]; apply co_eq; [exact E|]. now rewrite add_half.
  - intros [->| ->]; [apply same_refl|]. right. apply add_half.
Qed.
End Laws.
