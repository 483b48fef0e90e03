(** The group operations on elements by coordinates (C53), and the curve as an instance of the group,
    parameters and encodings that the other theorems take as given (C54). *)
From Coq Require Import Permutation.
From Verif Require Import Base BaseFacts Alg AlgInst MsmModel CodecModel WireModel ElementModel ElementSpec ElementProofs ElementInst
  CurveModel CurveSpec CurveProofs CurveAlg CurveInst.

Section Curve.
Context {B : BaseField} {BL : BaseFieldLaws B} {CL : CurveLaws B}.

(** ** C53 *)
(** Sums, differences and negations of group elements are group elements. *)
Theorem C53_closed : forall e1 e2, group_element e1 -> group_element e2 ->
  group_element (element_add e1 e2) /\ group_element (element_sub e1 e2) /\ group_element (element_neg e1).
Proof. exact (fun e1 e2 H1 H2 => conj (add_group e1 e2 H1 H2) (conj (sub_group e1 e2 H1 H2) (neg_group e1 H1))). Qed.
(** The sum holds the sum of the points by the curve's addition law, whose denominators are not zero. *)
Theorem C53_sum_of_points : forall e1 e2 P1 P2, holds e1 P1 -> holds e2 P2 -> valid_point P1 -> valid_point P2 ->
  holds (element_add e1 e2) (edwards_sum P1 P2) /\
  (1 + coeff_d * ax P1 * ax P2 * ay P1 * ay P2 <> 0)%fq /\ (1 - coeff_d * ax P1 * ax P2 * ay P1 * ay P2 <> 0)%fq.
Proof. exact (fun e1 e2 P1 P2 H1 H2 V1 V2 => conj (holds_add e1 e2 P1 P2 H1 H2 V1 V2) (complete P1 P2 V1 V2)). Qed.
(** Equal arguments give equal results, whatever the coordinates they are held in. *)
Theorem C53_respects_equality : forall e1 e1' e2 e2', group_element e1 -> group_element e1' -> group_element e2 -> group_element e2' ->
  element_eqb e1 e1' = true -> element_eqb e2 e2' = true ->
  element_eqb (element_add e1 e2) (element_add e1' e2') = true /\ element_eqb (element_neg e1) (element_neg e1') = true.
Proof. exact (fun e1 e1' e2 e2' H1 H1' H2 H2' E1 E2 =>
  conj (add_respects e1 e1' e2 e2' H1 H1' H2 H2' E1 E2) (neg_respects e1 e1' H1 H1' E1)). Qed.
Theorem C53_equality_is_an_equivalence : forall e1 e2 e3, group_element e1 -> group_element e2 -> group_element e3 ->
  element_eqb e1 e1 = true /\ (element_eqb e1 e2 = true -> element_eqb e2 e1 = true) /\
  (element_eqb e1 e2 = true -> element_eqb e2 e3 = true -> element_eqb e1 e3 = true).
Proof. exact (fun e1 e2 e3 H1 H2 H3 => conj (eqb_refl e1 H1) (conj (eqb_sym e1 e2 H1 H2) (eqb_trans e1 e2 e3 H1 H2 H3))). Qed.
Theorem C53_commutative : forall e1 e2, group_element e1 -> group_element e2 ->
  element_eqb (element_add e1 e2) (element_add e2 e1) = true.
Proof. exact add_comm. Qed.
Theorem C53_associative : forall e1 e2 e3, group_element e1 -> group_element e2 -> group_element e3 ->
  element_eqb (element_add (element_add e1 e2) e3) (element_add e1 (element_add e2 e3)) = true.
Proof. exact add_assoc. Qed.
Theorem C53_zero : forall e, group_element e -> element_eqb (element_add e element_zero) e = true.
Proof. exact add_zero. Qed.
Theorem C53_inverse : forall e, group_element e -> element_is_zero (element_add e (element_neg e)) = true.
Proof. exact add_neg. Qed.
Theorem C53_difference : forall e1 e2, group_element e1 -> group_element e2 ->
  element_eqb (element_add (element_sub e1 e2) e2) e1 = true.
Proof. exact sub_add. Qed.
(** The order of summation does not matter, and sums can be split. *)
Theorem C53_sum_order : forall es es', Forall group_element es -> Permutation es es' ->
  element_eqb (element_sum es) (element_sum es') = true.
Proof. exact sum_perm. Qed.
Theorem C53_sum_split : forall es es', Forall group_element es -> Forall group_element es' ->
  element_eqb (element_sum (es ++ es')) (element_add (element_sum es) (element_sum es')) = true.
Proof. exact sum_app. Qed.

Section Scalars.
Context {A : Alg} {AL : AlgLaws A} {I : FrInt A} {SL : ScalarLaws B A I}.

(** Multiplying by the scalar n adds the element up n times. *)
Theorem C53_product_counts : forall e n, group_element e -> element_eqb (element_mul e (of_Z (Z.of_nat n))) (repeated n e) = true.
Proof. exact mul_counts. Qed.
Theorem C53_products : forall e1 e2 s t, group_element e1 -> group_element e2 ->
  group_element (element_mul e1 s) /\
  element_eqb (element_mul e1 (fadd s t)) (element_add (element_mul e1 s) (element_mul e1 t)) = true /\
  element_eqb (element_mul (element_add e1 e2) s) (element_add (element_mul e1 s) (element_mul e2 s)) = true /\
  element_eqb (element_mul e1 (fmul s t)) (element_mul (element_mul e1 t) s) = true /\
  (element_eqb e1 e2 = true -> element_eqb (element_mul e1 s) (element_mul e2 s) = true).
Proof. exact (fun e1 e2 s t H1 H2 => conj (mul_scalar_group e1 s H1) (conj (mul_add_scalars e1 s t H1)
  (conj (mul_add_elements e1 e2 s H1 H2) (conj (mul_mul_scalars e1 s t H1) (mul_respects (fr_int s) e1 e2 H1 H2))))). Qed.
(** Multi-scalar multiplication wants as many scalars as bases, and is linear in the scalars. *)
Theorem C53_multi_scalar_mul_panics : forall bases scalars, multi_scalar_mul bases scalars = Panic <-> length bases <> length scalars.
Proof. exact msm_panics. Qed.
Theorem C53_multi_scalar_mul_value : multi_scalar_mul [] [] = Ok element_zero /\
  forall e es s ss r r', group_element e -> Forall group_element es ->
  multi_scalar_mul (e :: es) (s :: ss) = Ok r -> multi_scalar_mul es ss = Ok r' ->
  element_eqb r (element_add (element_mul e s) r') = true.
Proof. exact (conj msm_nil msm_step). Qed.
Theorem C53_multi_scalar_mul_linear : forall bases scalars scalars' r r' r'', Forall group_element bases -> length scalars = length scalars' ->
  multi_scalar_mul bases scalars = Ok r -> multi_scalar_mul bases scalars' = Ok r' ->
  multi_scalar_mul bases (map (fun '(s, t) => fadd s t) (combine scalars scalars')) = Ok r'' ->
  element_eqb r'' (element_add r r') = true.
Proof. exact msm_linear. Qed.
End Scalars.

(** None of this holds outside the subgroup: to every point with x <> 0 there is a point of the curve
    such that their sum has no valid coordinates, differs from every element and even from itself, and
    cannot be serialized.  [s] is a square root of a d, which exists since neither is a square. *)
Theorem C53_outside_subgroup_refuted : forall s P, (s * s = coeff_a * coeff_d)%fq -> on_curve P -> ax P <> 0%fq ->
  exists Q, on_curve Q /\ let e := element_add (of_affine P) (of_affine Q) in
    (forall e', element_eqb e e' = false) /\ to_bytes e = Panic.
Proof. exact (fun s P Hs HC HX => let '(ex_intro _ Q (conj CQ D)) := breakdown s P Hs HC HX in
  ex_intro _ Q (conj CQ (conj (fun e' => proj1 (degenerate_unequal _ e' D)) (degenerate_bytes _ D)))). Qed.

(** ** C54 *)
Context {A : Alg} {AL : AlgLaws A} {I : FrInt A} {SL : ScalarLaws B A I}.
Local Notation curve := (@curve_alg B BL A I).

(** Points of the curve meet every law that the other theorems assume of the group, the hash of
    commitments and the encodings. *)
Theorem C54_group : AlgLaws curve.
Proof. exact curve_laws. Qed.
Theorem C54_parameters : forall gens Q, ParLaws (curve_par gens Q).
Proof. exact curve_par_laws. Qed.
Theorem C54_record_encoding : CodecLaws curve_codec.
Proof. exact curve_codec_laws. Qed.
Theorem C54_wire_encoding : ECodecLaws curve_ecodec.
Proof. exact curve_ecodec_laws. Qed.
(** The operations on elements are those of that group: equal elements, and only those, stand for the
    same member, and sums, negations, products, hashes and encodings agree. *)
Theorem C54_equality : forall e1 e2, group_element e1 -> group_element e2 -> (element_eqb e1 e2 = true <-> group_of e1 = group_of e2).
Proof. exact group_of_eq. Qed.
Theorem C54_operations : forall e1 e2 (s : @F A), group_element e1 -> group_element e2 ->
  group_of element_zero = @gzero curve /\
  group_of (element_add e1 e2) = @gadd curve (group_of e1) (group_of e2) /\
  group_of (element_neg e1) = @gopp curve (group_of e1) /\
  group_of (@element_mul B A I e1 s) = @smul curve s (group_of e1).
Proof. exact (fun e1 e2 s H1 H2 => conj group_of_zero (conj (group_of_add e1 e2 H1 H2) (conj (group_of_neg e1 H1) (group_of_mul e1 s H1)))). Qed.
Theorem C54_every_member : forall g : @G curve, exists e, group_element e /\ group_of e = g.
Proof. exact (fun g => ex_intro _ _ (conj (pt_group g) (group_of_pt g))). Qed.
Theorem C54_hash : forall gens Q e, group_element e -> map_to_scalar_field e = Ok (@hash curve (curve_par gens Q) (group_of e)).
Proof. exact (fun gens Q => hash_of). Qed.
Theorem C54_bytes : forall e, group_element e -> to_bytes e = Ok (@el_ser curve curve_ecodec (group_of e)).
Proof. exact bytes_of. Qed.
Theorem C54_bytes_read : forall b (g : @G curve),
  @el_de curve curve_ecodec b = Some g <-> exists e, from_bytes b = Ok (Some e) /\ group_of e = g.
Proof. exact bytes_read. Qed.
End Curve.

(** The hypotheses can be met: the curve over 13 elements with its group of order 5. *)
Example C53_laws_case : BaseFieldLaws B13 /\ CurveLaws B13 /\ AlgLaws A5 /\ ScalarLaws B13 A5 I5.
Proof. exact (conj B13_laws (conj B13_curve (conj A5_laws A5_scalars))). Qed.
Example C53_case : @group_element B13 el_a /\ @group_element B13 el_b /\ @group_element B13 el_c /\
  @element_eqb B13 (element_add el_a el_c) (element_add el_b el_c) = true /\
  @element_eqb B13 (element_add el_a el_c) el_a = false /\ @element_eqb B13 (element_add el_a el_c) element_zero = false /\
  @element_is_zero B13 (@element_mul B13 A5 I5 el_a (zred 5 3)) = false /\
  @element_eqb B13 (@element_mul B13 A5 I5 el_a (zred 5 3)) (element_add el_a (element_add el_a el_b)) = true.
Proof. exact ops_case. Qed.
Example C53_outside_case : exists e1 e2, @curve_element B13 e1 /\ @curve_element B13 e2 /\ @group_element B13 e1 /\
  @element_eqb B13 (element_add e1 e2) (element_add e1 e2) = false /\ @to_bytes B13 (element_add e1 e2) = Panic.
Proof. exact breakdown_case. Qed.
Example C54_case : AlgLaws (@curve_alg B13 B13_laws A5 I5) /\ @ECodecLaws _ (@curve_ecodec B13 B13_laws A5 I5).
Proof. exact (conj (@curve_laws B13 B13_laws B13_curve A5 A5_laws I5 A5_scalars) (@curve_ecodec_laws B13 B13_laws B13_curve A5 A5_laws I5 A5_scalars)). Qed.

Print Assumptions C53_closed.
Print Assumptions C53_sum_of_points.
Print Assumptions C53_respects_equality.
Print Assumptions C53_equality_is_an_equivalence.
Print Assumptions C53_commutative.
Print Assumptions C53_associative.
Print Assumptions C53_zero.
Print Assumptions C53_inverse.
Print Assumptions C53_difference.
Print Assumptions C53_multi_scalar_mul_value.
Print Assumptions C53_sum_order.
Print Assumptions C53_sum_split.
Print Assumptions C53_product_counts.
Print Assumptions C53_products.
Print Assumptions C53_multi_scalar_mul_panics.
Print Assumptions C53_multi_scalar_mul_linear.
Print Assumptions C53_outside_subgroup_refuted.
Print Assumptions C54_group.
Print Assumptions C54_parameters.
Print Assumptions C54_record_encoding.
Print Assumptions C54_wire_encoding.
Print Assumptions C54_equality.
Print Assumptions C54_operations.
Print Assumptions C54_every_member.
Print Assumptions C54_hash.
Print Assumptions C54_bytes.
Print Assumptions C54_bytes_read.
