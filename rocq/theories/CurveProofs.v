(** Proofs that the elements form a commutative group and a module over the scalar field. *)
From Coq Require Import Field Znumtheory Permutation.
From Verif Require Import Base BaseFacts Alg MsmModel ElementModel ElementSpec ElementProofs CurveModel CurveSpec.

Section Facts.
Context {B : BaseField} {BL : BaseFieldLaws B}.
Add Field QField3 : Fq_field.
Local Open Scope fq_scope.

(** ** Polynomial identities *)
Section Identities.
Variables a d x1 y1 x2 y2 x3 y3 : Fq.
Hypothesis H1 : d * (x1 * x1 * (y1 * y1)) = a * (x1 * x1) + y1 * y1 - 1.
Hypothesis H2 : d * (x2 * x2 * (y2 * y2)) = a * (x2 * x2) + y2 * y2 - 1.
Hypothesis H3 : d * (x3 * x3 * (y3 * y3)) = a * (x3 * x3) + y3 * y3 - 1.
Let n12 := x1 * y2 + y1 * x2.
Let m12 := y1 * y2 - a * x1 * x2.
Let k12 := d * x1 * x2 * y1 * y2.
Let n23 := x2 * y3 + y2 * x3.
Let m23 := y2 * y3 - a * x2 * x3.
Let k23 := d * x2 * x3 * y2 * y3.

Lemma assoc_x :
  (n12 * (1 - k12) * y3 + m12 * (1 + k12) * x3) * ((1 + k23) * (1 - k23) + d * n23 * m23 * x1 * y1) =
  (n23 * (1 - k23) * y1 + m23 * (1 + k23) * x1) * ((1 + k12) * (1 - k12) + d * n12 * m12 * x3 * y3).
Proof. unfold n12, m12, k12, n23, m23, k23. ring [H1 H2 H3]. Qed.
Lemma assoc_y :
  (m12 * (1 + k12) * y3 - a * n12 * (1 - k12) * x3) * ((1 + k23) * (1 - k23) - d * n23 * m23 * x1 * y1) =
  (m23 * (1 + k23) * y1 - a * n23 * (1 - k23) * x1) * ((1 + k12) * (1 - k12) - d * n12 * m12 * x3 * y3).
Proof. unfold n12, m12, k12, n23, m23, k23. ring [H1 H2 H3]. Qed.
Lemma closed_xy :
  a * (n12 * (1 - k12)) * (n12 * (1 - k12)) + (m12 * (1 + k12)) * (m12 * (1 + k12)) =
  (1 + k12) * (1 + k12) * ((1 - k12) * (1 - k12)) + d * (n12 * n12 * (m12 * m12)).
Proof. unfold n12, m12, k12. ring [H1 H2]. Qed.
End Identities.

Lemma curve_eq P : on_curve P ->
  coeff_d * (ax P * ax P * (ay P * ay P)) = coeff_a * (ax P * ax P) + ay P * ay P - 1.
Proof. unfold on_curve. intros E. rewrite E. ring. Qed.

Lemma q_move (u v : Fq) : u = v -> u - v = 0.
Proof. intros ->. ring. Qed.

Lemma q_frac (u v w z : Fq) : v <> 0 -> z <> 0 -> u * z = w * v -> u / v = w / z.
Proof. intros Hv Hz E. transitivity (u * z / (v * z)); [field; auto|]. rewrite E. field; auto. Qed.

Context {RM : RootOfMinusOne B}.

(** ** Addition never divides by zero *)
Lemma sub_root P : valid_point P -> exists s : Fq, s <> 0 /\ s * s = 1 - coeff_a * (ax P * ax P) /\
  ay P * ay P * (1 - coeff_d * (ax P * ax P)) = s * s.
Proof.
  intros [HC [s Hs]]. exists s. split; [|split; [exact Hs|]].
  - intros ->. apply (ax2_nz (ax P)). rewrite <- Hs. ring.
  - rewrite Hs. transitivity (ay P * ay P - coeff_d * (ax P * ax P * (ay P * ay P))); [ring|].
    rewrite (curve_eq P HC). ring.
Qed.

Lemma complete P Q : valid_point P -> valid_point Q ->
  let k := coeff_d * ax P * ax Q * ay P * ay Q in 1 + k <> 0 /\ 1 - k <> 0.
Proof.
  intros VP VQ k.
  assert (K : k * k <> 1).
  { intros E. subst k.
    destruct (sub_root P VP) as (s1 & N1 & S1 & T1). destruct (sub_root Q VQ) as (s2 & N2 & S2 & T2).
    destruct VP as [CP _], VQ as [CQ _].
    pose proof (curve_y_nz P CP) as Y1. pose proof (curve_y_nz Q CQ) as Y2.
    destruct P as [x1 y1], Q as [x2 y2]. cbn [ax ay] in *.
    set (a := coeff_a) in *. set (d := coeff_d) in *.
    assert (M : d * d * (x1 * x1) * (x2 * x2) * (s1 * s1) * (s2 * s2) = (1 - d * (x1 * x1)) * (1 - d * (x2 * x2))).
    { rewrite <- T1, <- T2.
      transitivity ((d * x1 * x2 * y1 * y2 * (d * x1 * x2 * y1 * y2)) * ((1 - d * (x1 * x1)) * (1 - d * (x2 * x2)))); [ring|].
      rewrite E. ring. }
    rewrite S1, S2 in M. apply q_move in M.
    destruct (q_mul_0 (a * d * (x1 * x1) * (x2 * x2) - 1) (a * d * (x1 * x1) * (x2 * x2) + 1 - d * (x1 * x1 + x2 * x2))) as [W|W].
    - rewrite <- M. ring.
    - (* the points differ by a point of order two at infinity *)
      destruct q_minus_one as [i Hi].
      assert (X1 : x1 <> 0). { intros ->. apply q_1_neq_0. transitivity (- (a * d * (0 * 0) * (x2 * x2) - 1)); [ring|]. rewrite W. ring. }
      apply (coeff_d_nonsquare (i * s1 / (y1 * s2 * x1))). fold d.
      assert (D : d * (s2 * s2 * (x1 * x1) * (y1 * y1)) = - (s1 * s1)).
      { rewrite S2, <- T1. apply q_sub_0.
        transitivity (- (a * d * (x1 * x1) * (x2 * x2) - 1) * (y1 * y1)); [ring|]. rewrite W. ring. }
      transitivity ((i * i) * (s1 * s1) / (y1 * y1 * (s2 * s2) * (x1 * x1))); [field; auto|]. rewrite Hi.
      transitivity (- (s1 * s1) / (y1 * y1 * (s2 * s2) * (x1 * x1))); [field; auto|]. rewrite <- D. field; auto.
    - (* the points differ by a point of order four at infinity *)
      apply (nonsquare_sq d (x2 * y1) coeff_d_nonsquare).
      assert (N : 1 - d * (x1 * x1) <> 0).
      { intros Z. apply (dx2_nz x1). fold d. transitivity (- (1 - d * (x1 * x1))); [ring|]. rewrite Z. ring. }
      apply q_sub_0. destruct (q_mul_0 (1 - d * (x1 * x1)) (d * (x2 * y1 * (x2 * y1)) - 1)) as [Z|Z]; [|contradiction|exact Z].
      transitivity (d * (x2 * x2) * (y1 * y1 * (1 - d * (x1 * x1))) - (1 - d * (x1 * x1))); [ring|].
      rewrite T1, S1. transitivity (- (a * d * (x1 * x1) * (x2 * x2) + 1 - d * (x1 * x1 + x2 * x2))); [ring|]. rewrite W. ring. }
  split; intros E; apply K.
  - apply q_sub_0. transitivity ((1 + k) * (k - 1)); [ring|]. rewrite E. ring.
  - apply q_sub_0. transitivity (- (1 - k) * (k + 1)); [ring|]. rewrite E. ring.
Qed.

(** ** The sum is on the curve and in the subgroup *)
Lemma valid_sum P Q : valid_point P -> valid_point Q -> valid_point (edwards_sum P Q).
Proof.
  intros VP VQ. pose proof (complete P Q VP VQ) as K. cbv zeta in K.
  destruct (sub_root P VP) as (s1 & N1 & S1 & T1). destruct (sub_root Q VQ) as (s2 & N2 & S2 & T2).
  destruct VP as [CP _], VQ as [CQ _].
  pose proof (curve_y_nz P CP) as Y1. pose proof (curve_y_nz Q CQ) as Y2.
  pose proof (curve_eq P CP) as E1. pose proof (curve_eq Q CQ) as E2. clear CP CQ.
  destruct P as [x1 y1], Q as [x2 y2]. unfold edwards_sum. cbn [ax ay] in *.
  set (a := coeff_a) in *. set (d := coeff_d) in *.
  pose proof (closed_xy a d x1 y1 x2 y2 E1 E2) as CXY.
  assert (SQ : ((1 + d * x1 * x2 * y1 * y2) * (1 + d * x1 * x2 * y1 * y2) - a * ((x1 * y2 + y1 * x2) * (x1 * y2 + y1 * x2))) *
     ((1 - d * (x1 * x1)) * (1 - d * (x2 * x2))) =
     (x1 * x2 * (d - a) + (1 - d * (x1 * x1)) * (1 - d * (x2 * x2)) * (y1 * y2)) *
     (x1 * x2 * (d - a) + (1 - d * (x1 * x1)) * (1 - d * (x2 * x2)) * (y1 * y2))).
  { ring [E1 E2]. }
  set (k := d * x1 * x2 * y1 * y2) in *. destruct K as [KP KM]. split.
  - unfold on_curve. cbn [ax ay]. fold a d.
    transitivity ((a * ((x1 * y2 + y1 * x2) * (1 - k)) * ((x1 * y2 + y1 * x2) * (1 - k)) +
       ((y1 * y2 - a * x1 * x2) * (1 + k)) * ((y1 * y2 - a * x1 * x2) * (1 + k))) /
       ((1 + k) * (1 + k) * ((1 - k) * (1 - k)))); [field; auto|].
    rewrite CXY. field; auto.
  - unfold in_subgroup. cbn [ax]. fold a.
    exists ((x1 * x2 * (d - a) + (1 - d * (x1 * x1)) * (1 - d * (x2 * x2)) * (y1 * y2)) * (y1 * y2) / (s1 * s2 * (1 + k))).
    transitivity ((x1 * x2 * (d - a) + (1 - d * (x1 * x1)) * (1 - d * (x2 * x2)) * (y1 * y2)) *
     (x1 * x2 * (d - a) + (1 - d * (x1 * x1)) * (1 - d * (x2 * x2)) * (y1 * y2)) * (y1 * y1 * (y2 * y2)) /
     ((s1 * s1) * (s2 * s2) * ((1 + k) * (1 + k)))); [field; auto|].
    rewrite <- SQ, <- T1, <- T2. field.
    assert (Z1 : 1 - d * (x1 * x1) <> 0). { intros Z. apply (q_mul_nz s1 s1 N1 N1). rewrite <- T1, Z. ring. }
    assert (Z2 : 1 - d * (x2 * x2) <> 0). { intros Z. apply (q_mul_nz s2 s2 N2 N2). rewrite <- T2, Z. ring. }
    repeat split; auto.
Qed.

(** ** The group laws for points *)
Lemma sum_assoc P Q R : valid_point P -> valid_point Q -> valid_point R ->
  edwards_sum (edwards_sum P Q) R = edwards_sum P (edwards_sum Q R).
Proof.
  intros VP VQ VR. rewrite (sum_comm P (edwards_sum Q R)).
  pose proof (complete P Q VP VQ) as K12. pose proof (complete Q R VQ VR) as K23.
  pose proof (complete _ R (valid_sum P Q VP VQ) VR) as K123. pose proof (complete _ P (valid_sum Q R VQ VR) VP) as K231.
  cbv zeta in *.
  pose proof (curve_eq P (proj1 VP)) as E1. pose proof (curve_eq Q (proj1 VQ)) as E2. pose proof (curve_eq R (proj1 VR)) as E3.
  clear VP VQ VR. destruct P as [x1 y1], Q as [x2 y2], R as [x3 y3]. unfold edwards_sum in *. cbn [ax ay] in *.
  set (a := coeff_a) in *. set (d := coeff_d) in *.
  pose proof (assoc_x a d x1 y1 x2 y2 x3 y3 E1 E2 E3) as AX. pose proof (assoc_y a d x1 y1 x2 y2 x3 y3 E1 E2 E3) as AY.
  clear E1 E2 E3.
  set (k12 := d * x1 * x2 * y1 * y2) in *. set (k23 := d * x2 * x3 * y2 * y3) in *.
  set (n12 := x1 * y2 + y1 * x2) in *. set (n23 := x2 * y3 + y2 * x3) in *.
  set (m12 := y1 * y2 - a * x1 * x2) in *. set (m23 := y2 * y3 - a * x2 * x3) in *.
  destruct K12 as [P12 Q12], K23 as [P23 Q23], K123 as [P123 Q123], K231 as [P231 Q231].
  assert (DP : forall n m p q x y : Fq, p <> 0 -> q <> 0 -> 1 + d * (n / p) * x * (m / q) * y <> 0 -> p * q + d * n * x * m * y <> 0).
  { intros n m p q x y Hp Hq N Z. apply N. transitivity ((p * q + d * n * x * m * y) / (p * q)); [field; auto|]. rewrite Z. field; auto. }
  assert (DM : forall n m p q x y : Fq, p <> 0 -> q <> 0 -> 1 - d * (n / p) * x * (m / q) * y <> 0 -> p * q - d * n * x * m * y <> 0).
  { intros n m p q x y Hp Hq N Z. apply N. transitivity ((p * q - d * n * x * m * y) / (p * q)); [field; auto|]. rewrite Z. field; auto. }
  apply DP in P123; auto. apply DM in Q123; auto. apply DP in P231; auto. apply DM in Q231; auto. clear DP DM.
  clearbody k12 k23 n12 n23 m12 m23. f_equal.
  - transitivity ((n12 * (1 - k12) * y3 + m12 * (1 + k12) * x3) / ((1 + k12) * (1 - k12) + d * n12 * x3 * m12 * y3)); [field; auto|].
    transitivity ((n23 * (1 - k23) * y1 + m23 * (1 + k23) * x1) / ((1 + k23) * (1 - k23) + d * n23 * x1 * m23 * y1)); [|field; auto].
    apply q_frac; [auto|auto|]. etransitivity; [|etransitivity; [exact AX|]]; ring.
  - transitivity ((m12 * (1 + k12) * y3 - a * n12 * (1 - k12) * x3) / ((1 + k12) * (1 - k12) - d * n12 * x3 * m12 * y3)); [field; auto|].
    transitivity ((m23 * (1 + k23) * y1 - a * n23 * (1 - k23) * x1) / ((1 + k23) * (1 - k23) - d * n23 * x1 * m23 * y1)); [|field; auto].
    apply q_frac; [auto|auto|]. etransitivity; [|etransitivity; [exact AY|]]; ring.
Qed.

Lemma q_div_1 (x : Fq) : x / 1 = x.
Proof. field. exact q_1_neq_0. Qed.

Lemma valid_zero : valid_point (mkAff 0 1).
Proof. split; [exact zero_on_curve|]. exists 1. cbn [ax]. ring. Qed.

Lemma sum_zero P : edwards_sum P (mkAff 0 1) = P.
Proof.
  destruct P as [x y]. unfold edwards_sum. cbn [ax ay].
  replace (coeff_d * x * 0 * y * 1) with (0 : Fq) by ring.
  f_equal; [transitivity (x / 1)|transitivity (y / 1)]; try apply q_div_1; f_equal; ring.
Qed.

Lemma valid_inverse P : valid_point P -> valid_point (inverse_point P).
Proof.
  intros [C [s Hs]]. split.
  - unfold on_curve in *. cbn [inverse_point ax ay]. transitivity (coeff_a * (ax P * ax P) + ay P * ay P); [ring|]. rewrite C. ring.
  - exists s. rewrite Hs. cbn [inverse_point ax]. ring.
Qed.

Lemma sum_inverse P : valid_point P -> edwards_sum P (inverse_point P) = mkAff 0 1.
Proof.
  intros V. pose proof (complete P _ V (valid_inverse P V)) as K. cbv zeta in K. pose proof (curve_eq P (proj1 V)) as E.
  destruct P as [x y]. unfold edwards_sum, inverse_point in *. cbn [ax ay] in *. f_equal.
  - destruct K as [K _]. transitivity (0 / (1 + coeff_d * x * - x * y * y)); [f_equal; ring|]. field. exact K.
  - destruct K as [_ K]. transitivity ((1 - coeff_d * x * - x * y * y) / (1 - coeff_d * x * - x * y * y)); [|field; exact K].
    f_equal. transitivity (coeff_a * (x * x) + y * y - 1 + 1); [ring|]. rewrite <- E. ring.
Qed.

Lemma same_valid P Q : same_element P Q -> valid_point P -> valid_point Q.
Proof. intros S [H1 H2]. split; [now apply (same_curve P)|now apply (same_subgroup P)]. Qed.

(** ** Multiples *)
Lemma multiple_S n P : edwards_multiple (S n) P = edwards_sum P (edwards_multiple n P).
Proof. reflexivity. Qed.
Lemma multiple_0 P : edwards_multiple 0 P = mkAff 0 1.
Proof. reflexivity. Qed.
Lemma multiple_1 P : edwards_multiple 1 P = P.
Proof. rewrite multiple_S, multiple_0. apply sum_zero. Qed.
Lemma valid_multiple n P : valid_point P -> valid_point (edwards_multiple n P).
Proof. intros V. induction n as [|n IH]; [exact valid_zero|]. rewrite multiple_S. now apply valid_sum. Qed.
Lemma multiple_add m n P : valid_point P ->
  edwards_multiple (m + n) P = edwards_sum (edwards_multiple m P) (edwards_multiple n P).
Proof.
  intros V. induction m as [|m IH].
  - cbn [Nat.add]. rewrite multiple_0, sum_comm. symmetry. apply sum_zero.
  - cbn [Nat.add]. rewrite !multiple_S, IH. symmetry. apply sum_assoc; auto using valid_multiple.
Qed.
Lemma multiple_zero n : edwards_multiple n (mkAff 0 1) = mkAff 0 1.
Proof. induction n as [|n IH]; [reflexivity|]. rewrite multiple_S, IH. apply sum_zero. Qed.
Lemma sum_swap P Q R S : valid_point P -> valid_point Q -> valid_point R -> valid_point S ->
  edwards_sum (edwards_sum P Q) (edwards_sum R S) = edwards_sum (edwards_sum P R) (edwards_sum Q S).
Proof.
  intros VP VQ VR VS. rewrite (sum_assoc P Q), (sum_assoc P R) by auto using valid_sum.
  rewrite <- (sum_assoc Q R S), <- (sum_assoc R Q S), (sum_comm Q R) by auto. reflexivity.
Qed.
Lemma multiple_sum n P Q : valid_point P -> valid_point Q ->
  edwards_multiple n (edwards_sum P Q) = edwards_sum (edwards_multiple n P) (edwards_multiple n Q).
Proof.
  intros VP VQ. induction n as [|n IH].
  - rewrite !multiple_0. symmetry. apply sum_zero.
  - rewrite !multiple_S, IH. apply sum_swap; auto using valid_multiple.
Qed.
Lemma multiple_multiple m n P : valid_point P -> edwards_multiple m (edwards_multiple n P) = edwards_multiple (m * n) P.
Proof.
  intros V. induction m as [|m IH]; [reflexivity|].
  rewrite multiple_S, IH. cbn [Nat.mul]. symmetry. now apply multiple_add.
Qed.
Lemma multiple_same n P Q : same_element P Q -> same_element (edwards_multiple n P) (edwards_multiple n Q).
Proof.
  intros S. induction n as [|n IH]; [apply same_refl|]. rewrite !multiple_S. now apply sum_respects.
Qed.

(** ** Elements *)
Lemma holds_add e1 e2 P1 P2 : holds e1 P1 -> holds e2 P2 -> valid_point P1 -> valid_point P2 ->
  holds (element_add e1 e2) (edwards_sum P1 P2).
Proof.
  intros (Z1 & X1 & Y1 & T1) (Z2 & X2 & Y2 & T2) V1 V2. pose proof (complete P1 P2 V1 V2) as K. cbv zeta in K.
  destruct P1 as [x1 y1], P2 as [x2 y2]. unfold holds, element_add, edwards_sum. cbn [ex ey et ez ax ay] in *.
  rewrite X1, X2, Y1, Y2, T1, T2. set (z1 := ez e1) in *. set (z2 := ez e2) in *.
  set (k := coeff_d * x1 * x2 * y1 * y2) in *. destruct K as [KP KM].
  assert (ED : coeff_d * (x1 * y1 * z1) * (x2 * y2 * z2) = k * (z1 * z2)) by (unfold k; ring).
  rewrite ED. clearbody k. split; [|split; [|split]].
  - replace ((z1 * z2 - k * (z1 * z2)) * (z1 * z2 + k * (z1 * z2))) with ((1 - k) * (1 + k) * ((z1 * z2) * (z1 * z2))) by ring.
    auto using q_mul_nz.
  - field. auto.
  - field. auto.
  - field. auto.
Qed.

Lemma holds_double e P : holds e P -> valid_point P -> holds (element_double e) (edwards_sum P P).
Proof.
  intros (Z1 & X1 & Y1 & T1) V. pose proof (complete P P V V) as K. cbv zeta in K. pose proof (curve_eq P (proj1 V)) as E.
  destruct P as [x y]. unfold holds, element_double, edwards_sum. cbn [ex ey et ez ax ay] in *.
  rewrite X1, Y1. set (z := ez e) in *. set (k := coeff_d * x * x * y * y) in *. destruct K as [KP KM].
  assert (EG : coeff_a * (x * z * (x * z)) + y * z * (y * z) = (1 + k) * (z * z)).
  { transitivity ((coeff_a * (x * x) + y * y - 1 + 1) * (z * z)); [ring|]. rewrite <- E. unfold k. ring. }
  rewrite EG. clearbody k. split; [|split; [|split]].
  - replace (((1 + k) * (z * z) - (z * z + z * z)) * ((1 + k) * (z * z))) with (- ((1 - k) * (1 + k) * ((z * z) * (z * z)))) by ring.
    intros W. apply q_opp_0 in W. revert W. fold (not ((1 - k) * (1 + k) * (z * z * (z * z)) = 0)). auto using q_mul_nz.
  - field. auto.
  - field. auto.
  - field. auto.
Qed.

Lemma holds_neg e P : holds e P -> holds (element_neg e) (inverse_point P).
Proof.
  intros (Z1 & X1 & Y1 & T1). unfold holds, element_neg, inverse_point. cbn [ex ey et ez ax ay].
  rewrite X1, T1. repeat split; auto; ring.
Qed.
Lemma holds_zero : holds element_zero (mkAff 0 1).
Proof. exact zero_holds. Qed.

Lemma pos_double n P : valid_point P -> edwards_multiple (Pos.to_nat n~0) P = edwards_sum (edwards_multiple (Pos.to_nat n) P) (edwards_multiple (Pos.to_nat n) P).
Proof. intros V. rewrite Pos2Nat.inj_xO. replace (2 * Pos.to_nat n)%nat with (Pos.to_nat n + Pos.to_nat n)%nat by lia. now apply multiple_add. Qed.

Lemma holds_mul_pos n e P : holds e P -> valid_point P -> holds (mul_pos n e) (edwards_multiple (Pos.to_nat n) P).
Proof.
  intros H V. induction n as [n IH|n IH|]; cbn [mul_pos].
  - replace (edwards_multiple (Pos.to_nat n~1) P) with (edwards_sum (edwards_multiple (Pos.to_nat n~0) P) P).
    + rewrite pos_double by exact V. apply holds_add; auto using valid_sum, valid_multiple. apply holds_double; auto using valid_multiple.
    + rewrite Pos2Nat.inj_xI, Pos2Nat.inj_xO, multiple_S. apply sum_comm.
  - rewrite pos_double by exact V. apply holds_double; auto using valid_multiple.
  - change (Pos.to_nat 1) with 1%nat. rewrite multiple_1.
    replace P with (edwards_sum (edwards_sum (mkAff 0 1) (mkAff 0 1)) P) at 1.
    + apply holds_add; auto using valid_sum, valid_zero. apply holds_double; [exact holds_zero|exact valid_zero].
    + rewrite sum_zero, sum_comm. apply sum_zero.
Qed.

Lemma holds_mul_int n e P : (0 <= n)%Z -> holds e P -> valid_point P -> holds (mul_int n e) (edwards_multiple (Z.to_nat n) P).
Proof.
  intros Hn H V. destruct n as [|n|n]; [exact holds_zero|exact (holds_mul_pos n e P H V)|lia].
Qed.

(** An element and the point it holds. *)
Lemma group_valid e : group_element e <-> exists P, holds e P /\ valid_point P.
Proof. unfold group_element, valid_point. reflexivity. Qed.

Lemma eqb_holds e1 e2 P1 P2 : holds e1 P1 -> holds e2 P2 -> valid_point P1 -> valid_point P2 ->
  (element_eqb e1 e2 = true <-> same_element P1 P2).
Proof. intros H1 H2 [V1 _] [V2 _]. now apply eqb_theorem. Qed.

Lemma add_group e1 e2 : group_element e1 -> group_element e2 -> group_element (element_add e1 e2).
Proof.
  rewrite !group_valid. intros (P1 & H1 & V1) (P2 & H2 & V2). exists (edwards_sum P1 P2).
  auto using holds_add, valid_sum.
Qed.
Lemma neg_group e : group_element e -> group_element (element_neg e).
Proof. rewrite !group_valid. intros (P & H & V). exists (inverse_point P). auto using holds_neg, valid_inverse. Qed.
Lemma sub_group e1 e2 : group_element e1 -> group_element e2 -> group_element (element_sub e1 e2).
Proof. intros H1 H2. apply add_group; auto using neg_group. Qed.
Lemma mul_group n e : group_element e -> group_element (mul_int n e).
Proof.
  intros G. destruct (Z_le_gt_dec 0 n) as [Hn|Hn].
  - revert G. rewrite !group_valid. intros (P & H & V). exists (edwards_multiple (Z.to_nat n) P).
    auto using holds_mul_int, valid_multiple.
  - destruct n; try lia. exact zero_group.
Qed.
Lemma sum_group es : Forall group_element es -> forall e0, group_element e0 -> group_element (fold_left element_add es e0).
Proof. induction 1 as [|e es He _ IH]; intros e0 H0; [exact H0|]. cbn [fold_left]. auto using add_group. Qed.

Lemma add_respects e1 e1' e2 e2' : group_element e1 -> group_element e1' -> group_element e2 -> group_element e2' ->
  element_eqb e1 e1' = true -> element_eqb e2 e2' = true -> element_eqb (element_add e1 e2) (element_add e1' e2') = true.
Proof.
  rewrite !group_valid. intros (P1 & H1 & V1) (P1' & H1' & V1') (P2 & H2 & V2) (P2' & H2' & V2').
  rewrite (eqb_holds _ _ _ _ H1 H1'), (eqb_holds _ _ _ _ H2 H2') by auto. intros S1 S2.
  apply (eqb_holds _ _ (edwards_sum P1 P2) (edwards_sum P1' P2')); auto using holds_add, valid_sum. now apply sum_respects.
Qed.
Lemma inverse_respects P Q : same_element P Q -> same_element (inverse_point P) (inverse_point Q).
Proof. intros [-> | ->]; [now left|right]. reflexivity. Qed.
Lemma neg_respects e e' : group_element e -> group_element e' -> element_eqb e e' = true ->
  element_eqb (element_neg e) (element_neg e') = true.
Proof.
  rewrite !group_valid. intros (P & H & V) (P' & H' & V'). rewrite (eqb_holds _ _ _ _ H H') by auto. intros S.
  apply (eqb_holds _ _ (inverse_point P) (inverse_point P')); auto using holds_neg, valid_inverse. now apply inverse_respects.
Qed.
Lemma mul_respects n e e' : group_element e -> group_element e' -> element_eqb e e' = true ->
  element_eqb (mul_int n e) (mul_int n e') = true.
Proof.
  intros G G'. destruct (Z_le_gt_dec 0 n) as [Hn|Hn].
  - revert G G'. rewrite !group_valid. intros (P & H & V) (P' & H' & V'). rewrite (eqb_holds _ _ _ _ H H') by auto. intros S.
    apply (eqb_holds _ _ (edwards_multiple (Z.to_nat n) P) (edwards_multiple (Z.to_nat n) P')); auto using holds_mul_int, valid_multiple.
    now apply multiple_same.
  - intros _. destruct n; try lia. apply (eqb_holds _ _ _ _ holds_zero holds_zero valid_zero valid_zero). apply same_refl.
Qed.

Lemma eqb_refl e : group_element e -> element_eqb e e = true.
Proof. rewrite group_valid. intros (P & H & V). apply (eqb_holds _ _ P P); auto. apply same_refl. Qed.
Lemma eqb_sym e1 e2 : group_element e1 -> group_element e2 -> element_eqb e1 e2 = true -> element_eqb e2 e1 = true.
Proof.
  rewrite !group_valid. intros (P & H & V) (P' & H' & V'). rewrite (eqb_holds _ _ _ _ H H'), (eqb_holds _ _ _ _ H' H) by auto.
  apply same_sym.
Qed.
Lemma eqb_trans e1 e2 e3 : group_element e1 -> group_element e2 -> group_element e3 ->
  element_eqb e1 e2 = true -> element_eqb e2 e3 = true -> element_eqb e1 e3 = true.
Proof.
  rewrite !group_valid. intros (P & H & V) (P' & H' & V') (Q & HQ & VQ).
  rewrite (eqb_holds _ _ _ _ H H'), (eqb_holds _ _ _ _ H' HQ), (eqb_holds _ _ _ _ H HQ) by auto. apply same_trans.
Qed.

Lemma add_comm e1 e2 : group_element e1 -> group_element e2 -> element_eqb (element_add e1 e2) (element_add e2 e1) = true.
Proof.
  rewrite !group_valid. intros (P & H & V) (Q & HQ & VQ).
  apply (eqb_holds _ _ (edwards_sum P Q) (edwards_sum Q P)); auto using holds_add, valid_sum. rewrite sum_comm. apply same_refl.
Qed.
Lemma add_assoc e1 e2 e3 : group_element e1 -> group_element e2 -> group_element e3 ->
  element_eqb (element_add (element_add e1 e2) e3) (element_add e1 (element_add e2 e3)) = true.
Proof.
  rewrite !group_valid. intros (P & H & V) (Q & HQ & VQ) (R & HR & VR).
  apply (eqb_holds _ _ (edwards_sum (edwards_sum P Q) R) (edwards_sum P (edwards_sum Q R))); auto 6 using holds_add, valid_sum.
  rewrite sum_assoc by auto. apply same_refl.
Qed.
Lemma add_zero e : group_element e -> element_eqb (element_add e element_zero) e = true.
Proof.
  rewrite group_valid. intros (P & H & V).
  apply (eqb_holds _ _ (edwards_sum P (mkAff 0 1)) P); auto using holds_add, holds_zero, valid_zero, valid_sum.
  rewrite sum_zero. apply same_refl.
Qed.
Lemma add_neg e : group_element e -> element_is_zero (element_add e (element_neg e)) = true.
Proof.
  rewrite group_valid. intros (P & H & V). unfold element_is_zero.
  apply (eqb_holds _ _ (edwards_sum P (inverse_point P)) (mkAff 0 1)); auto using holds_add, holds_neg, holds_zero, valid_zero, valid_sum, valid_inverse.
  rewrite sum_inverse by exact V. apply same_refl.
Qed.

Lemma sub_add e1 e2 : group_element e1 -> group_element e2 -> element_eqb (element_add (element_sub e1 e2) e2) e1 = true.
Proof.
  rewrite !group_valid. intros (P & H & V) (Q & HQ & VQ). unfold element_sub.
  apply (eqb_holds _ _ (edwards_sum (edwards_sum P (inverse_point Q)) Q) P); auto 6 using holds_add, holds_neg, valid_sum, valid_inverse.
  rewrite sum_assoc, (sum_comm (inverse_point Q)), sum_inverse, sum_zero by auto using valid_inverse. apply same_refl.
Qed.

(** ** Sums of many elements *)
Lemma fold_point es : forall e0 P0, holds e0 P0 -> valid_point P0 -> forall Ps, Forall2 holds es Ps -> Forall valid_point Ps ->
  holds (fold_left element_add es e0) (fold_left edwards_sum Ps P0) /\ valid_point (fold_left edwards_sum Ps P0).
Proof.
  induction es as [|e es IH]; intros e0 P0 H0 V0 Ps HP VP; inversion HP; subst; [now split|].
  inversion VP; subst. cbn [fold_left]. apply IH; auto using holds_add, valid_sum.
Qed.
Lemma group_points es : Forall group_element es -> exists Ps, Forall2 holds es Ps /\ Forall valid_point Ps.
Proof.
  induction 1 as [|e es He _ (Ps & HP & VP)]; [exists []; auto|].
  apply group_valid in He as (P & H & V). exists (P :: Ps). auto.
Qed.
Lemma fold_sum_shift Ps : Forall valid_point Ps -> forall P0, valid_point P0 ->
  fold_left edwards_sum Ps P0 = edwards_sum P0 (fold_left edwards_sum Ps (mkAff 0 1)) /\ valid_point (fold_left edwards_sum Ps P0).
Proof.
  induction 1 as [|P Ps VP HP IH]; intros P0 V0; cbn [fold_left].
  - split; [symmetry; apply sum_zero|exact V0].
  - destruct (IH (edwards_sum P0 P) (valid_sum _ _ V0 VP)) as [E1 V1].
    destruct (IH (edwards_sum (mkAff 0 1) P) (valid_sum _ _ valid_zero VP)) as [E2 V2]. split; [|exact V1].
    rewrite E1, E2, (sum_comm (mkAff 0 1) P), sum_zero.
    apply sum_assoc; [exact V0|exact VP|exact (proj2 (IH _ valid_zero))].
Qed.
Lemma fold_sum_cons P Ps : Forall valid_point (P :: Ps) ->
  fold_left edwards_sum (P :: Ps) (mkAff 0 1) = edwards_sum P (fold_left edwards_sum Ps (mkAff 0 1)).
Proof.
  intros V. inversion V as [|? ? VP VPs]; subst. cbn [fold_left].
  rewrite (proj1 (fold_sum_shift Ps VPs _ (valid_sum _ _ valid_zero VP))), (sum_comm (mkAff 0 1) P), sum_zero. reflexivity.
Qed.
Lemma fold_sum_app Ps Qs : Forall valid_point Ps -> Forall valid_point Qs ->
  fold_left edwards_sum (Ps ++ Qs) (mkAff 0 1) = edwards_sum (fold_left edwards_sum Ps (mkAff 0 1)) (fold_left edwards_sum Qs (mkAff 0 1)).
Proof.
  intros VP VQ. rewrite fold_left_app. apply (fold_sum_shift Qs VQ). exact (proj2 (fold_sum_shift Ps VP _ valid_zero)).
Qed.
Lemma fold_sum_perm Ps Qs : Permutation Ps Qs -> Forall valid_point Ps ->
  fold_left edwards_sum Ps (mkAff 0 1) = fold_left edwards_sum Qs (mkAff 0 1).
Proof.
  induction 1 as [|P Ps Qs HP IH|P Q Ps|Ps Qs Rs H1 IH1 H2 IH2]; intros V.
  - reflexivity.
  - inversion V as [|? ? VP VPs]; subst. assert (VQs : Forall valid_point Qs) by (eapply Permutation_Forall; eauto).
    cbn [fold_left]. rewrite (proj1 (fold_sum_shift Ps VPs _ (valid_sum _ _ valid_zero VP))),
      (proj1 (fold_sum_shift Qs VQs _ (valid_sum _ _ valid_zero VP))), IH by exact VPs. reflexivity.
  - inversion V as [|? ? VP V']; subst. inversion V' as [|? ? VQ VPs]; subst. cbn [fold_left]. f_equal.
    rewrite !sum_assoc by auto using valid_zero. f_equal. apply sum_comm.
  - rewrite IH1 by exact V. apply IH2. eapply Permutation_Forall; eauto.
Qed.

Lemma sum_many es : Forall group_element es -> exists Ps, Forall2 holds es Ps /\ Forall valid_point Ps /\
  holds (element_sum es) (fold_left edwards_sum Ps (mkAff 0 1)) /\ valid_point (fold_left edwards_sum Ps (mkAff 0 1)).
Proof.
  intros H. destruct (group_points es H) as (Ps & HP & VP). exists Ps. split; [exact HP|]. split; [exact VP|].
  exact (fold_point es _ _ holds_zero valid_zero Ps HP VP).
Qed.
Lemma sum_app es es' : Forall group_element es -> Forall group_element es' ->
  element_eqb (element_sum (es ++ es')) (element_add (element_sum es) (element_sum es')) = true.
Proof.
  intros H H'. destruct (sum_many es H) as (Ps & HP & VP & HS & VS). destruct (sum_many es' H') as (Qs & HQ & VQ & HT & VT).
  apply (eqb_holds _ _ (fold_left edwards_sum (Ps ++ Qs) (mkAff 0 1)) (edwards_sum (fold_left edwards_sum Ps (mkAff 0 1)) (fold_left edwards_sum Qs (mkAff 0 1)))).
  - apply (fold_point (es ++ es') _ _ holds_zero valid_zero); [now apply Forall2_app|now apply Forall_app].
  - now apply holds_add.
  - apply (fold_point (es ++ es') _ _ holds_zero valid_zero); [now apply Forall2_app|now apply Forall_app].
  - now apply valid_sum.
  - rewrite fold_sum_app by auto. apply same_refl.
Qed.
Lemma perm_points es es' : Permutation es es' -> forall Ps, Forall2 holds es Ps -> exists Ps', Permutation Ps Ps' /\ Forall2 holds es' Ps'.
Proof.
  induction 1 as [|e es es' _ IH|e e' es|es1 es2 es3 _ IH1 _ IH2]; intros Ps HP.
  - inversion HP. exists []. auto.
  - inversion HP as [|? P ? Ps0 He Hes]; subst. destruct (IH _ Hes) as (Qs & Hq & Hh). exists (P :: Qs). auto.
  - inversion HP as [|? P ? Ps0 He Hes]; subst. inversion Hes as [|? Q ? Ps1 He' Hes']; subst. exists (Q :: P :: Ps1). split; [apply perm_swap|auto].
  - destruct (IH1 _ HP) as (Q1 & H1 & H1'). destruct (IH2 _ H1') as (Q2 & H2 & H2'). exists Q2. split; [now transitivity Q1|exact H2'].
Qed.
Lemma sum_perm es es' : Forall group_element es -> Permutation es es' -> element_eqb (element_sum es) (element_sum es') = true.
Proof.
  intros H Hp. destruct (sum_many es H) as (Ps & HP & VP & HS & VS). destruct (perm_points es es' Hp Ps HP) as (Qs & Hq & Hh).
  assert (VQ : Forall valid_point Qs) by (eapply Permutation_Forall; eauto).
  destruct (fold_point es' _ _ holds_zero valid_zero Qs Hh VQ) as [HT VT].
  apply (eqb_holds _ _ _ _ HS HT VS VT). rewrite (fold_sum_perm Ps Qs Hq VP). apply same_refl.
Qed.

(** ** Outside the subgroup addition breaks down *)
Lemma breakdown s P : s * s = coeff_a * coeff_d -> on_curve P -> ax P <> 0 ->
  exists Q, on_curve Q /\ degenerate (element_add (of_affine P) (of_affine Q)).
Proof.
  intros Hs HC X. pose proof (curve_y_nz P HC) as Y. pose proof (curve_eq P HC) as E.
  assert (D0 : coeff_d <> 0). { intros Z. apply (coeff_d_nonsquare 0). rewrite Z. ring. }
  assert (A0 : coeff_a <> 0). { intros Z. apply (coeff_a_nonsquare 0). rewrite Z. ring. }
  assert (S0 : s <> 0). { intros Z. apply (q_mul_nz _ _ A0 D0). rewrite <- Hs, Z. ring. }
  destruct P as [x y]. cbn [ax ay] in *. clear HC.
  exists (mkAff (1 / (s * x)) (s / (coeff_d * y))). split.
  - unfold on_curve. cbn [ax ay].
    transitivity ((coeff_a * (coeff_d * coeff_d) * (y * y) + (s * s) * (s * s) * (x * x)) / (s * s * (coeff_d * coeff_d) * (x * x) * (y * y)));
      [field; auto|].
    transitivity ((s * s * coeff_d * (coeff_d * (x * x * (y * y)) + 1)) / (s * s * (coeff_d * coeff_d) * (x * x) * (y * y))); [|field; auto].
    f_equal. rewrite E, Hs. ring.
  - unfold degenerate, element_add, of_affine. cbn [ex ey et ez ax ay].
    assert (F0 : 1 * 1 - coeff_d * (x * y) * (1 / (s * x) * (s / (coeff_d * y))) = 0) by (field; auto).
    assert (H0 : y * (s / (coeff_d * y)) - coeff_a * (x * (1 / (s * x))) = 0).
    { transitivity ((s * s - coeff_a * coeff_d) / (coeff_d * s)); [field; auto|]. rewrite Hs. field; auto. }
    rewrite F0, H0. split; [ring|split; ring].
Qed.
Lemma degenerate_unequal e e' : degenerate e -> element_eqb e e' = false /\ element_eqb e' e = false.
Proof.
  intros (X & Y & _). unfold element_eqb. rewrite X, Y. rewrite (proj2 (qeqb_true 0 0) eq_refl). split; [reflexivity|].
  cbn [andb]. now destruct (qeqb (ex e') 0 && qeqb (ey e') 0).
Qed.
Lemma degenerate_bytes e : degenerate e -> to_bytes e = Panic.
Proof.
  intros (X & Y & Z). unfold to_bytes, to_affine. rewrite X, Y, Z, (proj2 (qeqb_true 0 0) eq_refl).
  cbn [negb andb]. replace (qeqb 0 1) with false; [reflexivity|]. symmetry. apply qeqb_false. intros E. apply q_1_neq_0. now symmetry.
Qed.
End Facts.

(** ** Scalars *)
Section Scalars.
Context {B : BaseField} {BL : BaseFieldLaws B} {CL : CurveLaws B} {A : Alg} {AL : AlgLaws A} {I : FrInt A} {SL : ScalarLaws B A I}.

(** Multiples depend on the number modulo the order of the scalar field only. *)
Lemma multiple_order q P : valid_point P -> same_element (edwards_multiple (q * q_order) P) (mkAff 0 1).
Proof.
  intros V. rewrite <- multiple_multiple by exact V. apply (same_trans _ (edwards_multiple q (mkAff 0 1))).
  - apply multiple_same. now apply q_order_kills.
  - rewrite multiple_zero. apply same_refl.
Qed.
Lemma multiple_congr m n q P : valid_point P -> m = (q * q_order + n)%nat ->
  same_element (edwards_multiple m P) (edwards_multiple n P).
Proof.
  intros V ->. rewrite multiple_add by exact V. apply (same_trans _ (edwards_sum (mkAff 0 1) (edwards_multiple n P))).
  - apply sum_respects; [now apply multiple_order|apply same_refl].
  - rewrite sum_comm, sum_zero. apply same_refl.
Qed.

Add Field FField4 : (@F_field A AL).
Local Open Scope fq_scope.

Lemma multiple_scalar m n P : valid_point P -> of_Z (Z.of_nat m) = of_Z (Z.of_nat n) ->
  same_element (edwards_multiple m P) (edwards_multiple n P).
Proof.
  assert (L : forall m n, (n <= m)%nat -> valid_point P -> of_Z (Z.of_nat m) = of_Z (Z.of_nat n) ->
    same_element (edwards_multiple m P) (edwards_multiple n P)).
  { clear m n. intros m n Hle V E. assert (Z0 : of_Z (Z.of_nat m - Z.of_nat n) = fzero).
    { pose proof (of_Z_add (Z.of_nat m - Z.of_nat n)%Z (Z.of_nat n)) as Q. replace (Z.of_nat m - Z.of_nat n + Z.of_nat n)%Z with (Z.of_nat m) in Q by lia.
      rewrite E in Q. pose proof (of_Z_add 0 (Z.of_nat n)) as Q0. rewrite of_Z_0 in Q0. cbn [Z.add] in Q0. rewrite Q0 in Q at 1.
      transitivity (fsub (fadd (of_Z (Z.of_nat m - Z.of_nat n)) (of_Z (Z.of_nat n))) (of_Z (Z.of_nat n))); [ring|].
      rewrite <- Q. ring. }
    apply (proj1 (scalar_zero_iff _)) in Z0 as [q Hq].
    assert (Hq0 : (0 <= q * Z.of_nat q_order)%Z) by lia.
    destruct (Z_le_gt_dec 0 q) as [Hp|Hp].
    - apply (multiple_congr m n (Z.to_nat q) P V). lia.
    - assert (Hr : Z.of_nat q_order = 0%Z) by nia. apply (multiple_congr m n 0 P V). lia. }
  intros V E. destruct (Nat.le_ge_cases n m); [now apply L|]. apply same_sym, L; auto.
Qed.

Lemma holds_mul e s P : holds e P -> valid_point P -> holds (element_mul e s) (edwards_multiple (Z.to_nat (fr_int s)) P).
Proof. intros H V. apply holds_mul_int; auto. apply scalar_range. Qed.

Lemma int_nat s : Z.of_nat (Z.to_nat (fr_int s)) = fr_int s.
Proof. apply Z2Nat.id, scalar_range. Qed.

Lemma mul_scalar_group e s : group_element e -> group_element (element_mul e s).
Proof. apply mul_group. Qed.

Lemma mul_add_scalars e s t : group_element e ->
  element_eqb (element_mul e (fadd s t)) (element_add (element_mul e s) (element_mul e t)) = true.
Proof.
  rewrite group_valid. intros (P & H & V).
  eapply eqb_holds; [apply holds_mul; eassumption|apply holds_add; [apply holds_mul; eassumption|apply holds_mul; eassumption|..]|..]; auto using valid_multiple, valid_sum.
  rewrite <- multiple_add by exact V. apply multiple_scalar; [exact V|].
  rewrite Nat2Z.inj_add, of_Z_add, !int_nat, !scalar_of_int. reflexivity.
Qed.
Lemma mul_add_elements e1 e2 s : group_element e1 -> group_element e2 ->
  element_eqb (element_mul (element_add e1 e2) s) (element_add (element_mul e1 s) (element_mul e2 s)) = true.
Proof.
  rewrite !group_valid. intros (P & H & V) (Q & HQ & VQ).
  eapply eqb_holds; [apply holds_mul; [apply holds_add; eassumption|]|apply holds_add; [apply holds_mul; eassumption|apply holds_mul; eassumption|..]|..]; auto using valid_multiple, valid_sum.
  rewrite multiple_sum by auto. apply same_refl.
Qed.
Lemma mul_mul_scalars e s t : group_element e ->
  element_eqb (element_mul e (fmul s t)) (element_mul (element_mul e t) s) = true.
Proof.
  rewrite group_valid. intros (P & H & V).
  eapply eqb_holds; [apply holds_mul; eassumption|apply holds_mul; [apply holds_mul; eassumption|]|..]; auto using valid_multiple.
  rewrite multiple_multiple by exact V. apply multiple_scalar; [exact V|].
  rewrite Nat2Z.inj_mul, of_Z_mul, !int_nat, !scalar_of_int. reflexivity.
Qed.
Lemma mul_counts e n : group_element e -> element_eqb (element_mul e (of_Z (Z.of_nat n))) (repeated n e) = true.
Proof.
  rewrite group_valid. intros (P & H & V).
  assert (HR : holds (repeated n e) (edwards_multiple n P)).
  { unfold repeated, edwards_multiple. induction n as [|n IH]; [exact holds_zero|]. apply holds_add; auto. apply (valid_multiple n P V). }
  eapply eqb_holds; [apply holds_mul; eassumption|exact HR|..]; auto using valid_multiple.
  apply multiple_scalar; [exact V|]. rewrite int_nat. apply scalar_of_int.
Qed.

(** ** Multi-scalar multiplication *)
Definition products (bases : list Element) (scalars : list F) : list Element := map (fun '(e, s) => element_mul e s) (combine bases scalars).

Lemma products_group bases : Forall group_element bases -> forall scalars, Forall group_element (products bases scalars).
Proof.
  unfold products. induction 1 as [|e es He _ IH]; intros [|s ss]; cbn [combine map]; constructor; auto using mul_scalar_group.
Qed.
Lemma msm_ok bases scalars : length bases = length scalars -> multi_scalar_mul bases scalars = Ok (element_sum (products bases scalars)).
Proof. intros E. unfold multi_scalar_mul. now rewrite (proj2 (Nat.eqb_eq _ _) E). Qed.
Lemma msm_panics bases scalars : multi_scalar_mul bases scalars = Panic <-> length bases <> length scalars.
Proof.
  unfold multi_scalar_mul. destruct (length bases =? length scalars)%nat eqn:E.
  - apply Nat.eqb_eq in E. split; [discriminate|contradiction].
  - apply Nat.eqb_neq in E. split; auto.
Qed.
Lemma msm_group bases scalars r : Forall group_element bases -> multi_scalar_mul bases scalars = Ok r -> group_element r.
Proof.
  intros HB. unfold multi_scalar_mul. destruct (length bases =? length scalars)%nat; [|discriminate]. intros E. injection E as <-.
  apply sum_group; [now apply products_group|exact zero_group].
Qed.

Lemma points_of bases Ps : Forall2 holds bases Ps -> Forall valid_point Ps -> forall scalars,
  holds (element_sum (products bases scalars))
    (fold_left edwards_sum (map (fun '(P, s) => edwards_multiple (Z.to_nat (fr_int s)) P) (combine Ps scalars)) (mkAff 0 1)) /\
  Forall valid_point (map (fun '(P, s) => edwards_multiple (Z.to_nat (fr_int s)) P) (combine Ps scalars)).
Proof.
  intros HP VP scalars.
  assert (L : Forall2 holds (products bases scalars) (map (fun '(P, s) => edwards_multiple (Z.to_nat (fr_int s)) P) (combine Ps scalars)) /\
    Forall valid_point (map (fun '(P, s) => edwards_multiple (Z.to_nat (fr_int s)) P) (combine Ps scalars))).
  { unfold products. revert scalars. induction HP as [|e P es Ps0 He _ IH]; intros [|s ss]; cbn [combine map]; auto.
    inversion VP; subst. destruct (IH ltac:(assumption) ss) as [L1 L2]. split; constructor; auto using valid_multiple. now apply holds_mul. }
  destruct L as [L1 L2]. split; [|exact L2]. exact (proj1 (fold_point _ _ _ holds_zero valid_zero _ L1 L2)).
Qed.

Lemma fold_valid Ps : Forall valid_point Ps -> valid_point (fold_left edwards_sum Ps (mkAff 0 1)).
Proof. intros V. exact (proj2 (fold_sum_shift Ps V _ valid_zero)). Qed.

Lemma msm_step e es s ss r r' : group_element e -> Forall group_element es ->
  multi_scalar_mul (e :: es) (s :: ss) = Ok r -> multi_scalar_mul es ss = Ok r' ->
  element_eqb r (element_add (element_mul e s) r') = true.
Proof.
  intros He Hes. unfold multi_scalar_mul. cbn [length Nat.eqb].
  destruct (length es =? length ss)%nat; [|discriminate]. intros E1 E2. injection E1 as <-. injection E2 as <-.
  assert (HB : Forall group_element (e :: es)) by auto.
  destruct (group_points _ HB) as (Ps & HP & VP). inversion HP as [|? P ? Ps' He' Hes']; subst. inversion VP as [|? ? V V']; subst.
  destruct (points_of _ _ HP VP (s :: ss)) as [H1 V1]. destruct (points_of _ _ Hes' V' ss) as [H2 V2].
  eapply eqb_holds; [exact H1|apply holds_add; [apply holds_mul; eassumption|exact H2|..]|..]; auto using fold_valid, valid_sum, valid_multiple.
  cbn [combine map] in *. rewrite (fold_sum_cons _ _ V1). apply same_refl.
Qed.
Lemma msm_nil : multi_scalar_mul [] [] = Ok element_zero.
Proof. reflexivity. Qed.

Lemma msm_linear bases scalars scalars' r r' r'' : Forall group_element bases -> length scalars = length scalars' ->
  multi_scalar_mul bases scalars = Ok r -> multi_scalar_mul bases scalars' = Ok r' ->
  multi_scalar_mul bases (map (fun '(s, t) => fadd s t) (combine scalars scalars')) = Ok r'' ->
  element_eqb r'' (element_add r r') = true.
Proof.
  intros HB EL. unfold multi_scalar_mul.
  destruct (length bases =? length scalars)%nat; [|discriminate]. intros E1. injection E1 as <-.
  destruct (length bases =? length scalars')%nat; [|discriminate]. intros E2. injection E2 as <-.
  destruct (length bases =? _)%nat; [|discriminate]. intros E3. injection E3 as <-.
  destruct (group_points bases HB) as (Ps & HP & VP).
  destruct (points_of bases Ps HP VP scalars) as [H1 V1]. destruct (points_of bases Ps HP VP scalars') as [H2 V2].
  destruct (points_of bases Ps HP VP (map (fun '(s, t) => fadd s t) (combine scalars scalars'))) as [H3 V3].
  eapply eqb_holds; [exact H3|apply holds_add; [exact H1|exact H2|..]|..]; auto using fold_valid, valid_sum.
  clear H1 H2 H3 HP. revert scalars scalars' EL V1 V2 V3. induction VP as [|P Ps V _ IH]; intros [|s ss] [|t ts] EL V1 V2 V3; try discriminate EL;
    cbn [combine map]; try (cbn [fold_left]; rewrite sum_zero; apply same_refl).
  cbn [combine map] in V1, V2, V3.
  rewrite (fold_sum_cons _ _ V1), (fold_sum_cons _ _ V2), (fold_sum_cons _ _ V3).
  inversion V1; inversion V2; inversion V3; subst.
  rewrite sum_swap by auto using fold_valid.
  apply sum_respects.
  - rewrite <- multiple_add by exact V. apply multiple_scalar; [exact V|].
    rewrite Nat2Z.inj_add, of_Z_add, !int_nat, !scalar_of_int. reflexivity.
  - apply IH; auto.
Qed.
End Scalars.
