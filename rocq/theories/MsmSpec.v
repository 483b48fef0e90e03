(** What multi-scalar multiplication should compute. *)
From Verif Require Import Base Alg.

(** sum of s_i * P_i over the scalars and points given; the longer list is cut. *)
Definition combination {A : Alg} (scalars : list F) (points : list G) : G :=
  fold_right gadd gzero (map (fun '(s, p) => smul s p) (combine scalars points)).

(** The vector [v] with the entry [i] increased by [d]. *)
Definition bump {A : Alg} (v : list F) (i : nat) (d : F) : list F :=
  firstn i v ++ match nth_error v i with Some x => [fadd x d] | None => [] end ++ skipn (S i) v.

(** The value of signed digits [ds], least significant first, in base [b]. *)
Fixpoint digits_value (b : Z) (ds : list Z) : Z :=
  match ds with [] => 0 | d :: ds' => d + b * digits_value b ds' end.
