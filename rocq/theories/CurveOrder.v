(** Certificates for points with large coordinates: a multiple of a point by doublings and additions, each
    checked without division, and a criterion for prime order that asks for one square. *)
From Coq Require Import Field Znumtheory Zpow_facts.
From Verif Require Import Base BaseFacts Alg AlgInst Primality ElementModel ElementSpec ElementProofs ElementInst CurveModel CurveSpec CurveProofs CurveRep CurveCount.
Local Open Scope Z_scope.

Section Generic.
Context {B : BaseField} {BL : BaseFieldLaws B} {RM : RootOfMinusOne B}.
Local Open Scope fq_scope.
Local Definition OT := (@Fq_field B BL).
Add Field FqOrder : OT.

Lemma div_is (u v w : Fq) : v <> 0 -> w * v = u -> u / v = w.
Proof. intros N <-. field. exact N. Qed.
Lemma double_is P x3 y3 : valid_point P ->
  let S := coeff_a * (ax P * ax P) + ay P * ay P in
  x3 * S = (1 + 1) * (ax P * ay P) -> y3 * (1 + 1 - S) = ay P * ay P - coeff_a * (ax P * ax P) ->
  edwards_sum P P = mkAff x3 y3.
Proof.
  intros HP S Hx Hy. destruct (complete P P HP HP) as [N1 N2]. pose proof (curve_eq P (proj1 HP)) as C.
  assert (E1 : 1 + coeff_d * ax P * ax P * ay P * ay P = S).
  { transitivity (1 + coeff_d * (ax P * ax P * (ay P * ay P))); [ring|]. rewrite C. unfold S. ring. }
  assert (E2 : 1 - coeff_d * ax P * ax P * ay P * ay P = 1 + 1 - S).
  { transitivity (1 + 1 - (1 + coeff_d * ax P * ax P * ay P * ay P)); [ring|]. now rewrite E1. }
  rewrite E1 in N1. rewrite E2 in N2. unfold edwards_sum. apply aff_eq; cbn [ax ay].
  - etransitivity; [apply f_equal; exact E1|]. apply div_is; [exact N1|]. rewrite Hx. ring.
  - etransitivity; [apply f_equal; exact E2|]. apply div_is; [exact N2|]. rewrite Hy. ring.
Qed.
Lemma sum_is P Q x3 y3 : valid_point P -> valid_point Q ->
  let k := coeff_d * ax P * ax Q * ay P * ay Q in
  x3 * (1 + k) = ax P * ay Q + ay P * ax Q -> y3 * (1 - k) = ay P * ay Q - coeff_a * (ax P * ax Q) ->
  edwards_sum P Q = mkAff x3 y3.
Proof.
  intros HP HQ k Hx Hy. destruct (complete P Q HP HQ) as [N1 N2]. unfold edwards_sum. apply aff_eq; cbn [ax ay].
  - apply div_is; [exact N1|]. rewrite <- Hx. reflexivity || (unfold k; ring).
  - apply div_is; [exact N2|]. unfold k in Hy. rewrite Hy. ring.
Qed.
End Generic.

(** Given a square root c of a / d: a point of prime order is twice a point, so 2 d (1 + c) (1 - y) (c - y)
    is a square; and this fails for just one of (x, y) and (-x, -y). *)
Section Criterion.
Context {B : BaseField} {BL : BaseFieldLaws B} {CL : CurveLaws B}.
Local Open Scope fq_scope.
Local Definition CrT := (@Fq_field B BL).
Add Field FqCrit : CrT.
Variable c : Fq.
Hypothesis c_root : coeff_d * (c * c) = coeff_a.
Definition order_value (P : Affine) : Fq := (1 + 1) * coeff_d * (1 + c) * ((1 - ay P) * (c - ay P)).

Lemma prime_half P : valid_point P -> prime_order P -> exists Q, valid_point Q /\ edwards_sum Q Q = P.
Proof.
  intros HP HO. destruct (proj1 (Nat.odd_spec q_order) q_order_odd) as [k Hk].
  exists (edwards_multiple (k + 1) P). split; [now apply valid_multiple|].
  rewrite <- multiple_add by exact HP. replace (k + 1 + (k + 1))%nat with (q_order + 1)%nat by lia.
  unfold prime_order in HO. rewrite multiple_add, HO, multiple_1 by exact HP. rewrite edwards_comm. apply sum_zero.
Qed.
Lemma double_square Q : valid_point Q -> square (order_value (edwards_sum Q Q)).
Proof.
  intro HQ. destruct (complete Q Q HQ HQ) as [N1 N2]. pose proof (curve_eq Q (proj1 HQ)) as C.
  destruct Q as [u v]. cbn [ax ay] in *.
  assert (E2 : 1 - coeff_d * u * u * v * v = 1 + 1 - (coeff_a * (u * u) + v * v)).
  { transitivity (1 - coeff_d * (u * u * (v * v))); [ring|]. rewrite C. ring. }
  rewrite E2 in N2. set (S := coeff_a * (u * u) + v * v) in *.
  set (y := ay (edwards_sum (mkAff u v) (mkAff u v))).
  assert (Ey : y * (1 + 1 - S) = v * v - coeff_a * (u * u)).
  { unfold y, edwards_sum. cbn [ax ay]. rewrite E2. transitivity (v * v - coeff_a * u * u); [field; exact N2|ring]. }
  exists ((1 + 1) * coeff_d * (1 + c) * u * (c - v * v) / (1 + 1 - S)).
  assert (Cu : u * u * (coeff_a - coeff_d * (v * v)) = 1 - v * v).
  { transitivity (coeff_a * (u * u) - coeff_d * (u * u * (v * v))); [ring|]. rewrite C. unfold S. ring. }
  assert (K : (1 - y) * (c - y) * ((1 + 1 - S) * (1 + 1 - S)) = (1 + 1) * coeff_d * (1 + c) * (u * u) * ((c - v * v) * (c - v * v))).
  { transitivity ((1 + 1 - S - y * (1 + 1 - S)) * (c * (1 + 1 - S) - y * (1 + 1 - S))); [ring|]. rewrite Ey. unfold S.
    transitivity ((1 + 1) * (1 - v * v) * ((1 + 1) * c - c * (v * v) - v * v + (1 - c) * (coeff_a * (u * u)))); [ring|].
    transitivity ((1 + 1) * (u * u) * ((coeff_a - coeff_d * (v * v)) * ((1 + 1) * c - c * (v * v) - v * v) + (1 - c) * coeff_a * (u * u * (coeff_a - coeff_d * (v * v))))).
    - rewrite <- Cu. ring.
    - rewrite Cu. rewrite <- c_root. ring. }
  unfold order_value. fold y.
  transitivity ((1 + 1) * coeff_d * (1 + c) * ((1 + 1) * coeff_d * (1 + c) * (u * u) * ((c - v * v) * (c - v * v))) / ((1 + 1 - S) * (1 + 1 - S))); [field; exact N2|].
  rewrite <- K. field. exact N2.
Qed.
Lemma prime_square P : valid_point P -> prime_order P -> square (order_value P).
Proof. intros HP HO. destruct (prime_half P HP HO) as (Q & HQ & <-). now apply double_square. Qed.

Lemma negated_half P : negated P = edwards_sum P half_point.
Proof.
  unfold edwards_sum, half_point, negated. apply aff_eq; cbn [ax ay]; field; repeat split; exact q_1_neq_0.
Qed.
Lemma multiple_half n : edwards_multiple n half_point = if Nat.odd n then half_point else mkAff 0 1.
Proof.
  induction n as [|n IH]; [reflexivity|]. rewrite multiple_S, IH, Nat.odd_succ, <- Nat.negb_odd.
  destruct (Nat.odd n); cbn [negb]; [exact half_half|apply sum_zero].
Qed.
Lemma half_or P : valid_point P -> prime_order P \/ edwards_multiple q_order P = half_point.
Proof.
  intros HP. destruct (q_order_kills P HP) as [E|E]; [now left|right]. rewrite E. apply aff_eq; cbn [negated half_point ax ay]; ring.
Qed.
Lemma negated_order P : valid_point P -> (prime_order (negated P) <-> edwards_multiple q_order P = half_point).
Proof.
  intros HP. unfold prime_order. rewrite negated_half, multiple_sum, multiple_half, q_order_odd by (try exact HP; exact valid_half).
  destruct (half_or P HP) as [E|E]; rewrite E; split; intro K.
  - exfalso. rewrite edwards_comm, sum_zero in K. exact (half_neq K).
  - exfalso. exact (half_neq (eq_sym K)).
  - reflexivity.
  - exact half_half.
Qed.
Theorem not_prime_order P : valid_point P -> ~ square (order_value P) -> ~ prime_order P.
Proof. intros HP N K. exact (N (prime_square P HP K)). Qed.
Theorem is_prime_order P : valid_point P -> ~ square (order_value (negated P)) -> prime_order P.
Proof.
  intros HP N. destruct (half_or P HP) as [|E]; [assumption|]. exfalso. apply N. apply prime_square; [|now apply negated_order].
  apply (same_valid P); [right; symmetry; apply negated_negated|exact HP].
Qed.
End Criterion.

(** The same on integers, with quotients given so that nothing is divided. *)
Section Checks.
Variable p : Z.
Hypothesis Hp : prime p.
Variables a d : Z.
Variable r : nat.
Local Notation Bp := (zp_base p a d r).
Context {BL : BaseFieldLaws Bp} {RM : RootOfMinusOne Bp}.
Local Notation red := (zred p).
Definition pt (x y : Z) : @Affine Bp := @mkAff Bp (red x) (red y).

Lemma red_mul x y : @qmul Bp (red x) (red y) = red (x * y).
Proof. apply zred_eq. rewrite !zval_red. symmetry. apply Z.mul_mod. pose proof (prime_ge_2 _ Hp). lia. Qed.
Lemma red_add x y : @qadd Bp (red x) (red y) = red (x + y).
Proof. apply zred_eq. rewrite !zval_red. symmetry. apply Z.add_mod. pose proof (prime_ge_2 _ Hp). lia. Qed.
Lemma red_sub x y : @qsub Bp (red x) (red y) = red (x - y).
Proof. apply zred_eq. rewrite !zval_red. symmetry. apply Zminus_mod. Qed.
Lemma red_opp x : @qopp Bp (red x) = red (- x).
Proof. apply zred_eq. rewrite !zval_red. pose proof (prime_ge_2 _ Hp). rewrite <- (Z.sub_0_l (x mod p)), <- (Z.sub_0_l x), Zminus_mod_idemp_r. reflexivity. Qed.
Lemma red_cong x y k : x - y = k * p -> red x = red y.
Proof. intro E. apply zred_eq. replace x with (y + k * p) by lia. apply Z_mod_plus_full. Qed.

Inductive chain_step := Dbl (x y k1 k2 k3 : Z) | Plus (x y k1 k2 k3 k4 k5 k6 : Z) | Minus (x y k1 k2 k3 k4 k5 k6 : Z).
(** Twice (x, y), given as (x3, y3). *)
Definition dbl_ok (x y x3 y3 k1 k2 k3 : Z) : bool :=
  let X := x * x in let Y := y * y in let S := a * X + Y - k1 * p in
  (x3 * S - 2 * (x * y) =? k2 * p) && (y3 * (2 - S) - (Y - a * X) =? k3 * p).
(** (gx, gy) plus (x, y), given as (x3, y3). *)
Definition plus_ok (gx gy x y x3 y3 k1 k2 k3 k4 k5 k6 : Z) : bool :=
  let X := gx * y - k1 * p in let Y := gy * x - k2 * p in let K := d * (X * Y - k3 * p) - k4 * p in
  (x3 * (1 + K) - (X + Y) =? k5 * p) && (y3 * (1 - K) - (gy * y - a * (gx * x)) =? k6 * p).
Definition step1 (gx gy : Z) (cur : Z * Z * Z) (s : chain_step) : option (Z * Z * Z) :=
  let '(n, x, y) := cur in
  match s with
  | Dbl x3 y3 k1 k2 k3 => if dbl_ok x y x3 y3 k1 k2 k3 then Some (2 * n, x3, y3) else None
  | Plus x3 y3 k1 k2 k3 k4 k5 k6 => if plus_ok gx gy x y x3 y3 k1 k2 k3 k4 k5 k6 then Some (n + 1, x3, y3) else None
  | Minus x3 y3 k1 k2 k3 k4 k5 k6 =>
      if (1 <=? n) && plus_ok (- gx) gy x y x3 y3 k1 k2 k3 k4 k5 k6 then Some (n - 1, x3, y3) else None
  end.
Fixpoint chain (gx gy : Z) (cur : Z * Z * Z) (l : list chain_step) : option (Z * Z * Z) :=
  match l with
  | [] => Some cur
  | s :: l' => match step1 gx gy cur s with Some c => chain gx gy c l' | None => None end
  end.

Definition at_multiple (g : @Affine Bp) (cur : Z * Z * Z) : Prop :=
  let '(n, x, y) := cur in 0 <= n /\ @edwards_multiple Bp (Z.to_nat n) g = pt x y.

Lemma dbl_sound x y x3 y3 k1 k2 k3 : @valid_point Bp (pt x y) -> dbl_ok x y x3 y3 k1 k2 k3 = true ->
  @edwards_sum Bp (pt x y) (pt x y) = pt x3 y3.
Proof.
  intros HV H. unfold dbl_ok in H. cbv zeta in H. apply andb_true_iff in H as [H1 H2]. apply Z.eqb_eq in H1, H2.
  apply (@double_is Bp BL RM (pt x y) (red x3) (red y3) HV); unfold pt; cbn [ax ay];
    change (@coeff_a Bp) with (red a); change (@qone Bp) with (red 1); rewrite ?red_mul, ?red_add, ?red_sub, ?red_mul.
  - apply (red_cong _ _ (k2 + x3 * k1)). rewrite (Z.mul_add_distr_r k2), <- H1. ring.
  - apply (red_cong _ _ (k3 - y3 * k1)). rewrite (Z.mul_sub_distr_r k3), <- H2. ring.
Qed.
Lemma plus_sound gx gy x y x3 y3 k1 k2 k3 k4 k5 k6 : @valid_point Bp (pt gx gy) -> @valid_point Bp (pt x y) ->
  plus_ok gx gy x y x3 y3 k1 k2 k3 k4 k5 k6 = true -> @edwards_sum Bp (pt gx gy) (pt x y) = pt x3 y3.
Proof.
  intros HG HV H. unfold plus_ok in H. cbv zeta in H. apply andb_true_iff in H as [H1 H2]. apply Z.eqb_eq in H1, H2.
  set (X := gx * y - k1 * p) in *. set (Y := gy * x - k2 * p) in *. set (K := d * (X * Y - k3 * p) - k4 * p) in *.
  assert (EX : red X = red (gx * y)) by (apply (red_cong _ _ (- k1)); unfold X; ring).
  assert (EY : red Y = red (gy * x)) by (apply (red_cong _ _ (- k2)); unfold Y; ring).
  assert (EK : red K = @qmul Bp (@qmul Bp (@qmul Bp (@qmul Bp (red d) (red gx)) (red x)) (red gy)) (red y)).
  { transitivity (red (d * (X * Y))); [apply (red_cong _ _ (- d * k3 - k4)); unfold K; ring|].
    transitivity (@qmul Bp (red d) (@qmul Bp (red X) (red Y))); [now rewrite !red_mul|].
    rewrite EX, EY, !red_mul. f_equal. ring. }
  apply (@sum_is Bp BL RM (pt gx gy) (pt x y) (red x3) (red y3) HG HV); unfold pt; cbn [ax ay];
    change (@coeff_a Bp) with (red a); change (@coeff_d Bp) with (red d); change (@qone Bp) with (red 1); rewrite <- EK.
  - transitivity (@qadd Bp (red X) (red Y)); [|now rewrite EX, EY, !red_mul].
    rewrite !red_add, !red_mul. apply (red_cong _ _ k5). exact H1.
  - rewrite !red_mul, !red_sub, !red_mul. apply (red_cong _ _ k6). exact H2.
Qed.
Lemma step1_sound gx gy cur s c : @valid_point Bp (pt gx gy) -> at_multiple (pt gx gy) cur -> step1 gx gy cur s = Some c ->
  at_multiple (pt gx gy) c.
Proof.
  intros HG HC H. destruct cur as [[n x] y]. destruct HC as [Hn HM].
  assert (HV : @valid_point Bp (pt x y)) by (rewrite <- HM; now apply valid_multiple).
  destruct s as [x3 y3 k1 k2 k3|x3 y3 k1 k2 k3 k4 k5 k6|x3 y3 k1 k2 k3 k4 k5 k6]; cbn [step1] in H.
  - destruct (dbl_ok x y x3 y3 k1 k2 k3) eqn:D; [|discriminate]. assert (Ec : c = (2 * n, x3, y3)) by congruence. subst c. split; [lia|].
    replace (Z.to_nat (2 * n)) with (Z.to_nat n + Z.to_nat n)%nat by lia. rewrite multiple_add, HM by exact HG. exact (dbl_sound _ _ _ _ _ _ _ HV D).
  - destruct (plus_ok gx gy x y x3 y3 k1 k2 k3 k4 k5 k6) eqn:D; [|discriminate]. assert (Ec : c = (n + 1, x3, y3)) by congruence. subst c. split; [lia|].
    rewrite <- (plus_sound _ _ _ _ _ _ _ _ _ _ _ _ HG HV D), <- HM. replace (Z.to_nat (n + 1)) with (S (Z.to_nat n)) by lia. apply (@multiple_S Bp).
  - destruct (1 <=? n) eqn:L; [|discriminate]. apply Z.leb_le in L. cbn [andb] in H.
    destruct (plus_ok (- gx) gy x y x3 y3 k1 k2 k3 k4 k5 k6) eqn:D; [|discriminate]. assert (Ec : c = (n - 1, x3, y3)) by congruence. subst c. split; [lia|].
    assert (EI : pt (- gx) gy = @inverse_point Bp (pt gx gy)) by (unfold inverse_point, pt; cbn [ax ay]; now rewrite red_opp).
    assert (HI : @valid_point Bp (pt (- gx) gy)) by (rewrite EI; now apply valid_inverse).
    rewrite <- (plus_sound _ _ _ _ _ _ _ _ _ _ _ _ HI HV D), <- HM, EI. replace (Z.to_nat n) with (S (Z.to_nat (n - 1))) by lia.
    rewrite multiple_S, <- sum_assoc, (edwards_comm (inverse_point _)), sum_inverse, edwards_comm, sum_zero;
      auto using valid_inverse, valid_multiple.
Qed.
Lemma chain_sound gx gy l : forall cur c, @valid_point Bp (pt gx gy) -> at_multiple (pt gx gy) cur -> chain gx gy cur l = Some c ->
  at_multiple (pt gx gy) c.
Proof.
  induction l as [|s l IH]; intros cur c HG HC H; cbn [chain] in H; [now injection H as <-|].
  destruct (step1 gx gy cur s) as [c1|] eqn:E; [|discriminate]. apply (IH c1); try assumption. now apply (step1_sound gx gy cur s).
Qed.

(** A point of the subgroup: the curve equation, and a square root w of 1 - a x^2. *)
Definition valid_ok (x y w k1 k2 k3 k4 : Z) : bool :=
  let X := x * x - k1 * p in let Y := y * y - k2 * p in
  (a * X + Y - 1 - d * (X * Y - k3 * p) =? k4 * p) && ((w * w - (1 - a * (x * x))) mod p =? 0).
Lemma valid_sound x y w k1 k2 k3 k4 : valid_ok x y w k1 k2 k3 k4 = true -> @valid_point Bp (pt x y).
Proof.
  intro H. unfold valid_ok in H. cbv zeta in H. apply andb_true_iff in H as [H1 H2]. apply Z.eqb_eq in H1, H2. split.
  - unfold on_curve, pt. cbn [ax ay]. change (@coeff_a Bp) with (red a); change (@coeff_d Bp) with (red d); change (@qone Bp) with (red 1).
    rewrite !red_mul, !red_add.
    set (X := x * x - k1 * p) in *. set (Y := y * y - k2 * p) in *.
    assert (EX : x * x = X + k1 * p) by (unfold X; ring). assert (EY : y * y = Y + k2 * p) by (unfold Y; ring). rewrite EX, EY.
    apply (red_cong _ _ (k4 + a * k1 + k2 - d * (X * k2 + k1 * Y + k1 * k2 * p + k3))).
    apply Z.sub_move_0_r in H1. apply Z.sub_move_0_r. rewrite <- H1. ring.
  - unfold in_subgroup, square, pt. cbn [ax ay]. change (@coeff_a Bp) with (red a); change (@qone Bp) with (red 1).
    exists (red w). rewrite !red_mul, !red_sub. apply Z.mod_divide in H2; [|pose proof (prime_ge_2 _ Hp); lia]. destruct H2 as [k Hk].
    apply (red_cong _ _ k). exact Hk.
Qed.

(** What is not a square: a fixed one times squares. *)
Lemma nonresidue w h : p - 1 = 2 * h -> 0 < h -> (w ^ h) mod p = p - 1 -> 2 < p ->
  forall s y, ~ (p | s) -> (y * y) mod p <> (w * (s * s)) mod p.
Proof.
  intros Eh Hh Hw H2 s y Hs E.
  assert (Nw : ~ (p | w)).
  { intro D. assert (D2 : (p | w ^ h)).
    { replace h with (1 + (h - 1)) by lia. rewrite Z.pow_add_r, Z.pow_1_r by lia. now apply Z.divide_mul_l. }
    apply Z.mod_divide in D2; lia. }
  assert (Ny : ~ (p | y)).
  { intro D. assert (D2 : (p | w * (s * s))).
    { apply Z.mod_divide; [lia|]. rewrite <- E. apply Z.mod_divide; [lia|]. now apply Z.divide_mul_l. }
    apply prime_mult in D2 as [D2|D2]; [contradiction| |exact Hp]. apply prime_mult in D2 as [D2|D2]; [contradiction|contradiction|exact Hp]. }
  assert (P1 : ((y * y) ^ h) mod p = 1).
  { rewrite Z.pow_mul_l, <- Z.pow_add_r by lia. replace (h + h) with (p - 1) by lia. now apply fermat. }
  assert (P2 : ((w * (s * s)) ^ h) mod p = p - 1).
  { rewrite !Z.pow_mul_l, <- Z.pow_add_r by lia. replace (h + h) with (p - 1) by lia.
    rewrite Z.mul_mod, (fermat p s Hp Hs), Z.mul_1_r, Z.mod_mod by lia. exact Hw. }
  rewrite Zpower_mod, E, <- Zpower_mod, P2 in P1 by lia. lia.
Qed.
End Checks.
