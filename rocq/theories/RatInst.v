(** An algebra in which all integers are different scalars: the rationals. *)
From Coq Require Import QArith Qcanon.
From Verif Require Import Base Alg.

Definition of_int (a : Z) : Qc := Q2Qc (inject_Z a).
Definition qc_eqb (x y : Qc) : bool := if Qc_eq_dec x y then true else false.
Definition RatA : Alg := mkAlg Qc 0%Qc 1%Qc Qcplus Qcmult Qcminus Qcopp Qcdiv Qcinv qc_eqb of_int Qc 0%Qc Qcplus Qcopp Qcmult qc_eqb.

Lemma qc_eqb_true x y : qc_eqb x y = true <-> x = y.
Proof. unfold qc_eqb. destruct (Qc_eq_dec x y); split; congruence. Qed.

Lemma RatL : AlgLaws RatA.
Proof.
  constructor; cbn [RatA fzero fone fadd fmul fsub fopp fdiv finv feqb of_Z gzero gadd gopp smul geqb F G].
  - exact Qcft.
  - exact qc_eqb_true.
  - reflexivity.
  - reflexivity.
  - intros a b. unfold of_int. rewrite inject_Z_plus. apply Qc_is_canon. unfold Qcplus. cbn [this Q2Qc]. now rewrite !Qred_correct.
  - intros a b. unfold of_int. rewrite inject_Z_mult. apply Qc_is_canon. unfold Qcmult. cbn [this Q2Qc]. now rewrite !Qred_correct.
  - intros x y. ring.
  - intros x y z. ring.
  - intros x. ring.
  - intros x. ring.
  - intros a x y. ring.
  - intros a b x. ring.
  - intros a b x. ring.
  - intros x. ring.
  - exact qc_eqb_true.
Qed.

Lemma rat_nonzero a : a <> 0%Z -> @of_Z RatA a <> fzero.
Proof.
  intros Ha E. change (of_int a = 0%Qc) in E. unfold of_int in E.
  assert (X : (inject_Z a == 0)%Q) by (rewrite <- (Qred_correct (inject_Z a)); change (Qred (inject_Z a)) with (this (Q2Qc (inject_Z a))); rewrite E; reflexivity).
  unfold Qeq in X. cbn in X. lia.
Qed.
