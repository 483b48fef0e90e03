(** The small curve of [ElementInst] meets the laws of [CurveSpec], with the integers modulo 5 as its
    scalar field. *)
From Coq Require Import Znumtheory.
From Verif Require Import Base BaseFacts Alg AlgInst MsmModel ElementModel ElementSpec ElementProofs ElementInst CurveModel CurveSpec CurveProofs CurveAlg.

(** Every point of the plane, and the condition on those of the subgroup. *)
Definition all13 : list (zp 13) := map (fun k => zred 13 (Z.of_nat k)) (seq 0 13).
Definition kills13 (x y : zp 13) : bool :=
  let P := @mkAff B13 x y in
  negb (qeqb (coeff_a * (ax P * ax P) + ay P * ay P)%fq (1 + coeff_d * ((ax P * ax P) * (ay P * ay P)))%fq && @legendre_check_point B13 x) ||
  (let R := @edwards_multiple B13 5 P in (zval 13 (@ax B13 R) =? 0) && ((zval 13 (@ay B13 R) =? 1) || (zval 13 (@ay B13 R) =? 12))).

Lemma all13_in x : In x all13.
Proof.
  unfold all13. apply in_map_iff. exists (Z.to_nat (zval 13 x)). pose proof (zval_range 13 p13_prime x). split.
  - rewrite Z2Nat.id by lia. apply (zred_val 13 p13_prime).
  - apply in_seq. lia.
Qed.
Lemma kills13_all : forallb (fun x => forallb (kills13 x) all13) all13 = true.
Proof. vm_compute. reflexivity. Qed.

Lemma B13_curve : CurveLaws B13.
Proof.
  constructor.
  - constructor. exists (zred 13 5). apply (zp_eq 13). reflexivity.
  - intros P [HC HS]. pose proof kills13_all as K. rewrite forallb_forall in K. specialize (K (@ax B13 P) (all13_in _)).
    rewrite forallb_forall in K. specialize (K (@ay B13 P) (all13_in _)). unfold kills13 in K.
    assert (HS' : @legendre_check_point B13 (@ax B13 P) = true).
    { apply (@legendre_spec B13 B13_laws (@ax B13 P) (@ay B13 P)). destruct P; exact HS. }
    assert (HC' : qeqb (coeff_a * (ax P * ax P) + ay P * ay P)%fq (1 + coeff_d * ((ax P * ax P) * (ay P * ay P)))%fq = true)
      by (apply (@qeqb_true B13 B13_laws); exact HC).
    cbn [ax ay] in K. rewrite HS', HC' in K. apply orb_true_iff in K as [K|K].
    + discriminate K.
    + assert (EP : @mkAff B13 (@ax B13 P) (@ay B13 P) = P) by now destruct P. rewrite EP in K.
      change (@q_order B13) with 5%nat. apply andb_true_iff in K as [KX KY]. apply Z.eqb_eq in KX.
      apply orb_true_iff in KY as [KY|KY]; apply Z.eqb_eq in KY; [left|right]; apply (@aff_eq B13); apply (zp_eq 13);
        first [exact KX|exact KY|rewrite KX; reflexivity|rewrite KY; reflexivity].
Qed.

Lemma p5_prime : prime 5.
Proof. apply (prime_by_trial 5 2); reflexivity. Qed.
Definition A5 : Alg := zp_alg 5.
Definition A5_laws : AlgLaws A5 := zp_laws 5 p5_prime.
Definition I5 : FrInt A5 := (zval 5 : @F A5 -> Z).
Lemma A5_scalars : ScalarLaws B13 A5 I5.
Proof.
  constructor.
  - intros x. exact (zred_val 5 p5_prime x).
  - intros x. exact (zval_range 5 p5_prime x).
  - intros z. change (zred 5 z = zred 5 0 <-> (5 | z)). split.
    + intros E. apply (f_equal (zval 5)) in E. rewrite !zval_red in E. apply Z.mod_divide; [lia|exact E].
    + intros D. apply zred_eq. rewrite (proj2 (Z.mod_divide z 5 ltac:(lia)) D). reflexivity.
  - change (5 <= 2 ^ 253). lia.
Qed.

(** (5, 6) + (1, 11), and a product: elements that are neither zero nor equal. *)
Lemma ops_case : @group_element B13 el_a /\ @group_element B13 el_b /\ @group_element B13 el_c /\
  @element_eqb B13 (element_add el_a el_c) (element_add el_b el_c) = true /\
  @element_eqb B13 (element_add el_a el_c) el_a = false /\ @element_eqb B13 (element_add el_a el_c) element_zero = false /\
  @element_is_zero B13 (@element_mul B13 A5 I5 el_a (zred 5 3)) = false /\
  @element_eqb B13 (@element_mul B13 A5 I5 el_a (zred 5 3)) (element_add el_a (element_add el_a el_b)) = true.
Proof.
  split; [exact el_a_group|]. split; [exact el_b_group|]. split; [exact el_c_group|]. repeat split; vm_compute; reflexivity.
Qed.

(** 2 * 11 = 22 = 9 = 3^2; the point (5, 6) and another on the curve add up to no element at all. *)
Lemma breakdown_case : exists e1 e2, @curve_element B13 e1 /\ @curve_element B13 e2 /\ @group_element B13 e1 /\
  @element_eqb B13 (element_add e1 e2) (element_add e1 e2) = false /\ @to_bytes B13 (element_add e1 e2) = Panic.
Proof.
  destruct (@breakdown B13 B13_laws (zred 13 3) (pt13 5 6)) as (Q & CQ & D).
  - apply (zp_eq 13). reflexivity.
  - apply pt_a_ok.
  - intros E. apply (f_equal (zval 13)) in E. discriminate E.
  - exists (@of_affine B13 (pt13 5 6)), (@of_affine B13 Q). split; [|split; [|split; [|split]]].
    + exists (pt13 5 6). split; [apply (@holds_of_affine B13 B13_laws)|apply pt_a_ok].
    + exists Q. split; [apply (@holds_of_affine B13 B13_laws)|exact CQ].
    + exists (pt13 5 6). split; [apply (@holds_of_affine B13 B13_laws)|]. destruct pt_a_ok as (H1 & H2 & _). now split.
    + apply (@degenerate_unequal B13 B13_laws _ _ D).
    + apply (@degenerate_bytes B13 B13_laws _ D).
Qed.
