(** Polynomials as lists of coefficients, lowest degree first: the independent
    reading of the evaluation-form code of lagrange_basis.rs. *)
From Verif Require Import Base Alg.

Section LagrangeSpec.
Context {A : Alg}.

(** The value at [x]. *)
Fixpoint peval (p : list F) (x : F) : F :=
  match p with [] => fzero | c :: p' => fadd c (fmul x (peval p' x)) end.

(** The domain point [i]. *)
Definition pt (i : nat) : F := of_Z (Z.of_nat i).

(** The values on the domain [{0, .., n-1}]. *)
Definition values_of (p : list F) (n : nat) : list F := map (fun i => peval p (pt i)) (seq 0 n).

(** The product over [{0, .., n-1} \ {i}] of [x - j]; at [x = i] this is [A'(i)] for
    [A(X) = X (X-1) .. (X-n+1)]. *)
Fixpoint prod_except (n i : nat) (x : F) : F :=
  match n with
  | O => fone
  | S m => if (m =? i)%nat then prod_except m i x else fmul (prod_except m i x) (fsub x (pt m))
  end.

(** The domain has [n] different points: [n] is at most the characteristic. *)
Definition domain_fits (n : nat) : Prop := forall k, 0 < k < Z.of_nat n -> of_Z k <> fzero.
Definition outside_domain (n : nat) (t : F) : Prop := forall i, (i < n)%nat -> t <> pt i.
End LagrangeSpec.
