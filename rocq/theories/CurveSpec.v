(** Specification for the group theorems: what else is assumed of the curve, and integer multiples and
    linear combinations of points by repeated addition. *)
From Verif Require Import Base Alg MsmModel ElementModel ElementSpec CurveModel.

Section Spec.
Context {B : BaseField}.

(** The affine points that stand for group elements. *)
Definition valid_point (P : Affine) : Prop := on_curve P /\ in_subgroup P.

(** Minus one is a square, and the order of the scalar field times a point of the subgroup is a
    representative of the neutral element. *)
Class RootOfMinusOne : Prop := { q_minus_one : square (qopp 1%fq) }.
Class CurveLaws : Prop := {
  curve_root :> RootOfMinusOne;
  q_order_kills : forall P, valid_point P -> same_element (edwards_multiple q_order P) (mkAff 0 1)%fq
}.

(** (-x, y), the inverse of (x, y). *)
Definition inverse_point (P : Affine) : Affine := mkAff (- ax P)%fq (ay P).

(** e + e + ... + e, n times. *)
Definition repeated (n : nat) (e : Element) : Element := Nat.iter n (element_add e) element_zero.

(** The invalid element all of whose coordinates are zero. *)
Definition degenerate (e : Element) : Prop := ex e = 0%fq /\ ey e = 0%fq /\ ez e = 0%fq.

(** What is assumed of the scalar field: [fr_int] gives the integer below the order that stands for a
    scalar, and exactly the multiples of the order stand for zero. *)
Class ScalarLaws (A : Alg) (I : FrInt A) : Prop := {
  scalar_of_int : forall x : F, of_Z (fr_int x) = x;
  scalar_range : forall x : F, 0 <= fr_int x < Z.of_nat q_order;
  scalar_zero_iff : forall z, of_Z z = fzero <-> (Z.of_nat q_order | z);
  scalar_bits : Z.of_nat q_order <= 2 ^ 253
}.
End Spec.
Arguments CurveLaws : clear implicits.
Arguments RootOfMinusOne : clear implicits.
Arguments ScalarLaws : clear implicits.
