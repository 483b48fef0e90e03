(** The algebra the code computes in.  [F] stands for banderwagon's scalar
    field [Fr] and [G] for the prime-order group [Element]
    (banderwagon/src/lib.rs, banderwagon/src/element.rs).  Simplification: the group is the
    abstract quotient, so Leibniz equality on [G] is [Element]'s [PartialEq]. *)
From Coq Require Export Field Ring.
From Verif Require Import Base.

Class Alg := mkAlg {
  F : Type;
  fzero : F; fone : F;
  fadd : F -> F -> F; fmul : F -> F -> F; fsub : F -> F -> F; fopp : F -> F;
  fdiv : F -> F -> F; finv : F -> F;
  feqb : F -> F -> bool;
  of_Z : Z -> F;          (* [Fr::from(n)], [Fr::from_le_bytes_mod_order] after decoding *)
  G : Type;
  gzero : G;
  gadd : G -> G -> G; gopp : G -> G; smul : F -> G -> G;
  geqb : G -> G -> bool
}.

(** [-] on [Element] (banderwagon/src/trait_impls/ops.rs:36-42). *)
Definition gsub {A : Alg} (x y : G) : G := gadd x (gopp y).

(** What is assumed of the field and the group (external, banderwagon/src/element.rs:1-9): their laws. *)
Class AlgLaws (A : Alg) : Prop := {
  F_field : field_theory fzero fone fadd fmul fsub fopp fdiv finv (@eq F);
  feqb_true : forall x y : F, feqb x y = true <-> x = y;
  of_Z_0 : of_Z 0 = fzero;
  of_Z_1 : of_Z 1 = fone;
  of_Z_add : forall a b, of_Z (a + b) = fadd (of_Z a) (of_Z b);
  of_Z_mul : forall a b, of_Z (a * b) = fmul (of_Z a) (of_Z b);
  gadd_comm : forall x y : G, gadd x y = gadd y x;
  gadd_assoc : forall x y z : G, gadd x (gadd y z) = gadd (gadd x y) z;
  gadd_0_l : forall x : G, gadd gzero x = x;
  gadd_opp_r : forall x : G, gadd x (gopp x) = gzero;
  smul_add_r : forall a (x y : G), smul a (gadd x y) = gadd (smul a x) (smul a y);
  smul_add_l : forall a b (x : G), smul (fadd a b) x = gadd (smul a x) (smul b x);
  smul_mul : forall a b (x : G), smul (fmul a b) x = smul a (smul b x);
  smul_1 : forall x : G, smul fone x = x;
  geqb_true : forall x y : G, geqb x y = true <-> x = y
}.

(** The public parameters: [hash] is [group_to_field]
    (verkle-trie/src/lib.rs:53-55, [Element::map_to_scalar_field]), [crs i] is the i-th
    generator and [crsQ] the extra generator [Q] (ipa-multipoint/src/crs.rs:6-10). *)
Class Par (A : Alg) := mkPar {
  hash : G -> F;
  crs : Z -> G;
  crsQ : G
}.

(** What is assumed of them: the hash of zero (banderwagon/src/element.rs:133-143). *)
Class ParLaws {A : Alg} (P : Par A) : Prop := {
  hash_zero : hash gzero = fzero
}.

(** For ipa.rs:441-448. Sum of [f 0 .. f (n-1)]. *)
Fixpoint gsum {A : Alg} (n : nat) (f : Z -> G) : G :=
  match n with O => gzero | S n' => gadd (gsum n' f) (f (Z.of_nat n')) end.

(** For math_utils.rs:3-5. *)
Fixpoint fsum {A : Alg} (n : nat) (f : Z -> F) : F :=
  match n with O => fzero | S n' => fadd (fsum n' f) (f (Z.of_nat n')) end.
