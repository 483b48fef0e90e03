(** The group operations on elements by coordinates: banderwagon/src/trait_impls/ops.rs and
    [multi_scalar_mul] of banderwagon/src/element.rs, with the arithmetic of arkworks'
    [EdwardsProjective] they call written out (ark-ec, not part of the repository). *)
From Verif Require Import Base Alg MsmModel ElementModel.

Section Ops.
Context {B : BaseField}.

(** ops.rs:25-36 [Add] and [AddAssign]; arkworks: unified addition in extended coordinates. *)
Definition element_add (e1 e2 : Element) : Element :=
  let a := qmul (ex e1) (ex e2) in
  let b := qmul (ey e1) (ey e2) in
  let c := qmul (qmul coeff_d (et e1)) (et e2) in
  let d := qmul (ez e1) (ez e2) in
  let h := qsub b (qmul coeff_a a) in
  let e := qsub (qsub (qmul (qadd (ex e1) (ey e1)) (qadd (ex e2) (ey e2))) a) b in
  let f := qsub d c in
  let g := qadd d c in
  mkEl (qmul e f) (qmul g h) (qmul e h) (qmul f g).

(** For trait_impls/ops.rs:24-35, a point added to itself. arkworks: doubling in extended coordinates. *)
Definition element_double (e1 : Element) : Element :=
  let a := qmul (ex e1) (ex e1) in
  let b := qmul (ey e1) (ey e1) in
  let zz := qmul (ez e1) (ez e1) in
  let c := qadd zz zz in
  let d := qmul coeff_a a in
  let s := qadd (ex e1) (ey e1) in
  let e := qsub (qsub (qmul s s) a) b in
  let g := qadd d b in
  let f := qsub g c in
  let h := qsub d b in
  mkEl (qmul e f) (qmul g h) (qmul e h) (qmul f g).

(** ops.rs:44-50 [Neg]; arkworks negates x and t. *)
Definition element_neg (e : Element) : Element := mkEl (qopp (ex e)) (ey e) (qopp (et e)) (ez e).

(** ops.rs:37-43 [Sub]; arkworks adds the negation. *)
Definition element_sub (e1 e2 : Element) : Element := element_add e1 (element_neg e2).

(** ops.rs:52-56 [Sum]; arkworks adds from left to right, starting with zero. *)
Definition element_sum (es : list Element) : Element := fold_left element_add es element_zero.

(** For trait_impls/ops.rs:10-23. arkworks: double and add, most significant bit first, starting with zero. *)
Fixpoint mul_pos (n : positive) (e : Element) : Element :=
  match n with
  | xH => element_add (element_double element_zero) e
  | xO n' => element_double (mul_pos n' e)
  | xI n' => element_add (element_double (mul_pos n' e)) e
  end.
(** trait_impls/ops.rs:10-23, the scalar as an integer. *)
Definition mul_int (n : Z) (e : Element) : Element :=
  match n with Zpos p => mul_pos p e | _ => element_zero end.

Context {A : Alg} {I : FrInt A}.

(** ops.rs:10-24 [Mul]. *)
Definition element_mul (e : Element) (s : F) : Element := mul_int (fr_int s) e.

(** element.rs:194-204 [multi_scalar_mul]; arkworks' [msm] is taken to be the sum of the products, and
    an error unless there are as many scalars as bases. *)
Definition multi_scalar_mul (bases : list Element) (scalars : list F) : res Element :=
  if (length bases =? length scalars)%nat
  then Ok (element_sum (map (fun '(e, s) => element_mul e s) (combine bases scalars)))
  else Panic.
End Ops.
