(** Specification for the element theorems: affine points of the curve, the pairs of points that
    stand for one group element, and the subgroup condition.  The last three
    definitions use the addition law, equality and [try_reduce_to_element]. *)
From Verif Require Import Base Alg IpaModel ElementModel.

Declare Scope fq_scope.
Delimit Scope fq_scope with fq.
Notation "x + y" := (qadd x y) : fq_scope.
Notation "x - y" := (qsub x y) : fq_scope.
Notation "x * y" := (qmul x y) : fq_scope.
Notation "x / y" := (qdiv x y) : fq_scope.
Notation "- x" := (qopp x) : fq_scope.
Notation "0" := qzero : fq_scope.
Notation "1" := qone : fq_scope.
Bind Scope fq_scope with Fq.

Section Spec.
Context {B : BaseField}.

Definition square (v : Fq) : Prop := exists w : Fq, (w * w)%fq = v.

(** The twisted Edwards curve. *)
Definition on_curve (P : Affine) : Prop :=
  (coeff_a * (ax P * ax P) + ay P * ay P = 1 + coeff_d * ((ax P * ax P) * (ay P * ay P)))%fq.

(** The banderwagon subgroup: 1 - a x^2 is a square. *)
Definition in_subgroup (P : Affine) : Prop := square (1 - coeff_a * (ax P * ax P))%fq.

(** (x, y) and (-x, -y) stand for the same group element. *)
Definition negated (P : Affine) : Affine := mkAff (- ax P)%fq (- ay P)%fq.
Definition same_element (P Q : Affine) : Prop := P = Q \/ P = negated Q.

(** [e] holds extended coordinates (x z : y z : x y z : z) of [P], for some scaling z. *)
Definition holds (e : Element) (P : Affine) : Prop :=
  (ez e <> 0 /\ ex e = ax P * ez e /\ ey e = ay P * ez e /\ et e = ax P * ay P * ez e)%fq.

(** Values the library can hand out: a point of the curve, and one of the subgroup. *)
Definition curve_element (e : Element) : Prop := exists P, holds e P /\ on_curve P.
Definition group_element (e : Element) : Prop := exists P, holds e P /\ on_curve P /\ in_subgroup P.

(** In the subgroup of prime order: the order times the point is the neutral point (0, 1). *)
Definition prime_order (P : Affine) : Prop := edwards_multiple q_order P = mkAff 0%fq 1%fq.

(** No two of the elements are equal. *)
Definition all_different (es : list Element) : Prop :=
  forall i j e1 e2, i <> j -> nth_error es i = Some e1 -> nth_error es j = Some e2 -> element_eqb e1 e2 = false.

(** The elements found among the hashes of [seed] with indices i, i+1, ..., i+k-1. *)
Definition candidates {H : Hasher} (seed : bytes) (i : Z) (k : nat) : list Element :=
  flat_map (fun j => match try_reduce_to_element (sha256 (seed ++ Z_be 8 (i + Z.of_nat j))) with
                     | Ok (Some e) => [e] | _ => [] end) (seq 0 k).
End Spec.
