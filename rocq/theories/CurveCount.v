(** How many points there are: an abelian group of fewer than 6 r elements with an element of prime order r
    and a single element of order two, not twice another, is killed by r up to that element; and the
    coordinates of the elements of the curve form such a group. *)
From Coq Require Import Field Znumtheory.
From Verif Require Import Base BaseFacts Alg Primality ElementModel ElementSpec ElementProofs CurveModel CurveSpec CurveProofs CurveRep.
Local Open Scope nat_scope.

Section Group.
Variable X : Type.
Variable add : X -> X -> X.
Variable zero : X.
Variable neg : X -> X.
Hypothesis add_comm : forall x y, add x y = add y x.
Hypothesis add_assoc : forall x y z, add (add x y) z = add x (add y z).
Hypothesis add_zero : forall x, add x zero = x.
Hypothesis add_neg : forall x, add x (neg x) = zero.

Definition times (n : nat) (x : X) : X := Nat.iter n (add x) zero.
Lemma times_S n x : times (S n) x = add x (times n x). Proof. reflexivity. Qed.
Lemma zero_add x : add zero x = x. Proof. rewrite add_comm. apply add_zero. Qed.
Lemma cancel x y z : add x y = add x z -> y = z.
Proof.
  intro E. rewrite <- (zero_add y), <- (zero_add z), <- (add_neg x), (add_comm x), !add_assoc. now rewrite E.
Qed.
Lemma add_swap a b c d : add (add a b) (add c d) = add (add a c) (add b d).
Proof. rewrite !add_assoc. f_equal. rewrite <- !add_assoc. f_equal. apply add_comm. Qed.
Lemma times_add m n x : times (m + n) x = add (times m x) (times n x).
Proof. induction m as [|m IH]; cbn [Nat.add]; [now rewrite zero_add|]. now rewrite !times_S, IH, add_assoc. Qed.
Lemma times_mul m n x : times (m * n) x = times m (times n x).
Proof. induction m as [|m IH]; [reflexivity|]. cbn [Nat.mul]. now rewrite times_add, times_S, IH. Qed.
Lemma times_sum n x y : times n (add x y) = add (times n x) (times n y).
Proof. induction n as [|n IH]; [now rewrite add_zero|]. now rewrite !times_S, IH, add_swap. Qed.
Lemma times_zero n : times n zero = zero.
Proof. induction n as [|n IH]; [reflexivity|]. now rewrite times_S, IH, add_zero. Qed.
Lemma times_1 x : times 1 x = x. Proof. apply add_zero. Qed.

Variable f : X -> Z.
Variable bound : Z.
Hypothesis f_inj : forall x y, f x = f y -> x = y.
Hypothesis f_range : forall x, (0 <= f x < bound)%Z.
Variables (r : nat) (g h : X).
Hypothesis r_prime : prime (Z.of_nat r).
Hypothesis r_odd : Nat.odd r = true.
Hypothesis g_order : times r g = zero.
Hypothesis g_zero : g <> zero.
Hypothesis h_two : add h h = zero.
Hypothesis h_zero : h <> zero.
Hypothesis two_only : forall x, add x x = zero -> x = zero \/ x = h.
Hypothesis no_four : forall x, add x x <> h.
Hypothesis few : (bound < 6 * Z.of_nat r)%Z.

Lemma r_gt : 2 < r.
Proof. destruct r_prime as [H _]. assert (r <> 2) by (intros ->; discriminate). lia. Qed.
Lemma g_exact i : times i g = zero -> exists k, i = k * r.
Proof.
  intro E. destruct (Zdivide_dec (Z.of_nat r) (Z.of_nat i)) as [[k Ek]|N].
  - assert (0 <= k)%Z by (pose proof r_gt; nia). exists (Z.to_nat k). apply Nat2Z.inj. rewrite Nat2Z.inj_mul. lia.
  - exfalso. apply g_zero. pose proof (prime_rel_prime _ r_prime _ N) as R. apply rel_prime_bezout in R as [u v Ev].
    assert (exists a b : nat, a * i = 1 + b * r) as (a & b & Eab).
    { pose proof r_gt. exists (Z.to_nat (v + Z.of_nat r * Z.abs v)), (Z.to_nat (Z.of_nat i * Z.abs v - u)).
      apply Nat2Z.inj. rewrite Nat2Z.inj_add, !Nat2Z.inj_mul.
      destruct (Z.eq_dec (Z.of_nat i) 0) as [Z0|Z0].
      { exfalso. apply N. rewrite Z0. apply Z.divide_0_r. }
      assert (0 <= v + Z.of_nat r * Z.abs v)%Z by nia. assert (0 <= Z.of_nat i * Z.abs v - u)%Z by nia.
      rewrite !Z2Nat.id by assumption. lia. }
    assert (E1 : times (a * i) g = zero) by (rewrite times_mul, E; apply times_zero).
    now rewrite Eab, times_add, times_1, times_mul, g_order, times_zero, add_zero in E1.
Qed.
Lemma g_distinct i j : i < r -> j < r -> times i g = times j g -> i = j.
Proof.
  assert (W : forall i j, i <= j -> j < r -> times i g = times j g -> i = j).
  { intros a b Hab Hb E. replace b with (a + (b - a)) in E by lia. rewrite times_add in E. rewrite <- (add_zero (times a g)) in E at 1.
    apply cancel in E. symmetry in E. apply g_exact in E as [[|k] Ek]; nia. }
  intros Hi Hj E. destruct (Nat.le_ge_cases i j); [now apply W|symmetry; now apply W].
Qed.

(** Multiples of g, plus h or not. *)
Definition hh (e : bool) : X := if e then h else zero.
Definition member (x : X) : Prop := exists i e, x = add (times i g) (hh e).
Lemma hh_add e e' : add (hh e) (hh e') = hh (xorb e e').
Proof. destruct e, e'; cbn [hh xorb]; [exact h_two|apply add_zero|apply zero_add|apply add_zero]. Qed.
Lemma member_add x y : member x -> member y -> member (add x y).
Proof.
  intros (i & e & ->) (j & e' & ->). exists (i + j), (xorb e e'). now rewrite add_swap, <- times_add, hh_add.
Qed.
Lemma member_sub x y : member (add x y) -> member y -> member x.
Proof.
  intros M (i & e & Ey). assert (E : add y (add (times (i * (r - 1)) g) (hh e)) = zero).
  { rewrite Ey, add_swap, <- times_add, hh_add. replace (i + i * (r - 1)) with (i * r) by (pose proof r_gt; nia).
    rewrite times_mul, g_order, times_zero. destruct e; cbn [xorb hh]; apply add_zero. }
  assert (N : member (add (times (i * (r - 1)) g) (hh e))) by (eexists; eexists; reflexivity).
  pose proof (member_add _ _ M N) as K. now rewrite add_assoc, E, add_zero in K.
Qed.
Definition place (P : X) (t : nat * nat * bool) : X := let '(c, i, e) := t in add (times c P) (add (times i g) (hh e)).
Definition triples : list (nat * nat * bool) := list_prod (list_prod (seq 0 3) (seq 0 r)) [true; false].
Lemma place_inj P : ~ member P -> ~ member (add P P) -> forall t t', In t triples -> In t' triples -> place P t = place P t' -> t = t'.
Proof.
  intros N1 N2. assert (W : forall c i e c' i' e', c <= c' -> c' < 3 -> i < r -> i' < r ->
    place P (c, i, e) = place P (c', i', e') -> (c, i, e) = (c', i', e')).
  { intros c i e c' i' e' Hc Hc3 Hi Hi' E. unfold place in E. replace c' with (c + (c' - c)) in E by lia. rewrite times_add, add_assoc in E. apply cancel in E.
    destruct (Nat.eq_dec (c' - c) 0) as [Z|Z].
    - rewrite Z in E. rewrite zero_add in E. replace c' with c by lia.
      assert (E2 : times i g = times i' g \/ times (2 * i) g = times (2 * i') g).
      { right. cbn [Nat.mul]. rewrite Nat.add_0_r, Nat.add_0_r, !times_add.
        assert (D : add (add (times i g) (hh e)) (add (times i g) (hh e)) = add (add (times i' g) (hh e')) (add (times i' g) (hh e'))) by congruence.
        rewrite !(add_swap _ (hh _)), !hh_add, !xorb_nilpotent in D. cbn [hh] in D. now rewrite !add_zero in D. }
      assert (Ei : i = i').
      { destruct E2 as [E2|E2]; [now apply g_distinct|].
        destruct (proj1 (Nat.odd_spec r) r_odd) as [k Hk]. assert (T : forall n, times n g = times (k + 1) (times (2 * n) g)).
          { intro n. rewrite <- times_mul. replace ((k + 1) * (2 * n)) with (n + n * r) by (rewrite Hk; ring).
            now rewrite times_add, times_mul, g_order, times_zero, add_zero. }
          apply g_distinct; [exact Hi|exact Hi'|]. rewrite (T i), (T i'). now rewrite E2. }
      subst i'. apply cancel in E. f_equal. destruct e, e'; try reflexivity; cbn [hh] in E; [elim h_zero; exact E|elim h_zero; now symmetry].
    - exfalso. assert (K : member (times (c' - c) P)).
      { apply member_sub with (add (times i' g) (hh e')); [rewrite <- E|]; eexists; eexists; reflexivity. }
      assert (c' - c = 1 \/ c' - c = 2) as [Z1|Z1] by lia; rewrite Z1 in K.
      + rewrite times_1 in K. contradiction.
      + rewrite times_S, times_1 in K. contradiction. }
  assert (Hin : forall c i e, In (c, i, e) triples -> c < 3 /\ i < r).
  { intros c i e Hin. unfold triples in Hin. apply in_prod_iff in Hin as [Hin _]. apply in_prod_iff in Hin as [H1 H2].
    apply in_seq in H1, H2. lia. }
  intros [[c i] e] [[c' i'] e'] H1 H2 E. apply Hin in H1, H2. destruct (Nat.le_ge_cases c c').
  - apply W; tauto.
  - symmetry. apply W; try tauto. now symmetry.
Qed.
Lemma NoDup_append {U} (l m : list U) : NoDup l -> NoDup m -> (forall z, In z l -> ~ In z m) -> NoDup (l ++ m).
Proof.
  intros Hl Hm D. induction Hl as [|x l Hx Hl IH]; [exact Hm|]. cbn [app]. constructor.
  - intro Hin. apply in_app_or in Hin as [Hin|Hin]; [contradiction|]. exact (D x (or_introl eq_refl) Hin).
  - apply IH. intros z Hz. apply D. now right.
Qed.
Lemma NoDup_list_prod {U V} (l : list U) (m : list V) : NoDup l -> NoDup m -> NoDup (list_prod l m).
Proof.
  intros Hl Hm. induction Hl as [|x l Hx Hl IH]; [constructor|]. cbn [list_prod]. apply NoDup_append; [|exact IH|].
  - apply NoDup_map_on; [exact Hm|intros ? ? _ _ E; congruence].
  - intros z Hz Hz'. apply in_map_iff in Hz as (y & <- & _). apply in_prod_iff in Hz' as [? _]. contradiction.
Qed.
Lemma triples_length : length triples = 6 * r.
Proof. unfold triples. rewrite !prod_length, !seq_length. cbn [length]. lia. Qed.
Lemma triples_nodup : NoDup triples.
Proof.
  unfold triples. apply NoDup_list_prod; [apply NoDup_list_prod; apply seq_NoDup|].
  repeat constructor; cbn; intuition discriminate.
Qed.
Lemma eq_dec (x y : X) : {x = y} + {x <> y}.
Proof. destruct (Z.eq_dec (f x) (f y)) as [E|N]; [left; now apply f_inj|right; congruence]. Qed.
Lemma double_member P : member (add P P).
Proof.
  set (l := map (fun t => add (times (fst t) g) (hh (snd t))) (list_prod (seq 0 r) [true; false])).
  destruct (in_dec eq_dec (add P P) l) as [Hin|Hn].
  { apply in_map_iff in Hin as ([i e] & <- & _). eexists; eexists; reflexivity. }
  assert (M2 : ~ member (add P P)).
  { intros (i & e & E). apply Hn. apply in_map_iff. exists (i mod r, e). cbn [fst snd].
    assert (r <> 0) by (pose proof r_gt; lia). split.
    - rewrite E. f_equal. rewrite (Nat.div_mod i r) at 2 by assumption.
      now rewrite times_add, Nat.mul_comm, times_mul, g_order, times_zero, zero_add.
    - apply in_prod; [|destruct e; cbn; tauto]. apply in_seq. pose proof (Nat.mod_upper_bound i r). lia. }
  assert (M1 : ~ member P) by (intro M; apply M2; now apply member_add).
  exfalso. assert (L : (length (map (fun t => Z.to_nat (f (place P t))) triples) <= length (seq 0 (Z.to_nat bound)))%nat).
  { apply NoDup_incl_length.
    - apply NoDup_map_on; [exact triples_nodup|]. intros t t' Ht Ht' E.
      apply (place_inj P M1 M2 t t' Ht Ht'). apply f_inj. pose proof (f_range (place P t)). pose proof (f_range (place P t')). lia.
    - intros z Hz. apply in_map_iff in Hz as (t & <- & _). apply in_seq. pose proof (f_range (place P t)). lia. }
  rewrite map_length, seq_length, triples_length in L. pose proof (f_range zero). lia.
Qed.
Lemma all_members P : exists j e, P = add (times j g) (hh e).
Proof.
  destruct (double_member P) as (i & e & E). destruct (proj1 (Nat.odd_spec r) r_odd) as [k Hk].
  set (j := i * (k + 1)). assert (Ej : add (times j g) (times j g) = times i g).
  { rewrite <- times_add. replace (j + j) with (i + i * r) by (unfold j; rewrite Hk; ring).
    now rewrite times_add, times_mul, g_order, times_zero, add_zero. }
  set (S := add P (neg (times j g))).
  assert (PS : P = add (times j g) S).
  { unfold S. rewrite (add_comm P), <- add_assoc, add_neg. symmetry. apply zero_add. }
  assert (SS : add S S = hh e).
  { rewrite PS, add_swap, Ej in E. now apply cancel in E. }
  exists j. destruct e; [elim (no_four S); exact SS|]. destruct (two_only S SS) as [K|K]; rewrite PS, K; [exists false|exists true]; reflexivity.
Qed.
Theorem order_kills P : times r P = zero \/ times r P = h.
Proof.
  assert (Rh : times r h = h).
  { destruct (proj1 (Nat.odd_spec r) r_odd) as [k Hk].
    rewrite Hk, times_add, Nat.mul_comm, times_mul, times_1. rewrite times_S, times_1, h_two, times_zero. apply zero_add. }
  destruct (all_members P) as (j & e & PS).
  assert (T : times r P = times r (hh e)).
  { rewrite PS, times_sum, <- times_mul, Nat.mul_comm, times_mul, g_order, times_zero. apply zero_add. }
  rewrite T. destruct e; [right; exact Rh|left; apply times_zero].
Qed.
End Group.

Section Curve.
Context {B : BaseField} {BL : BaseFieldLaws B} {RM : RootOfMinusOne B}.
Local Open Scope fq_scope.
Local Definition CT := (@Fq_field B BL).
Add Field FqCount : CT.

Lemma rc_add g h : coords (co_add g h) = edwards_sum (coords g) (coords h).
Proof. apply co_of_coords, valid_sum; apply co_valid. Qed.
Lemma rc_opp g : coords (co_opp g) = inverse_point (coords g).
Proof. apply co_of_coords, valid_inverse, co_valid. Qed.
Lemma edwards_comm P Q : edwards_sum P Q = edwards_sum Q P.
Proof. unfold edwards_sum. apply aff_eq; cbn [ax ay]; f_equal; ring. Qed.
Lemma rc_times n g : coords (times _ co_add co_zero n g) = edwards_multiple n (coords g).
Proof.
  induction n as [|n IH]; [reflexivity|]. rewrite times_S, rc_add, IH. symmetry. apply multiple_S.
Qed.

(** Each point of the subgroup gets a number below the modulus plus two: for x <> 0, a solution t of
    x t^2 + 2 t + a x = 0, which of the two being chosen by the sign of y. *)
Definition number (P : Affine) : Z :=
  if qeqb (ax P) 0 then (if is_positive (ay P) then q_modulus else q_modulus + 1)%Z
  else match q_sqrt (1 - coeff_a * (ax P * ax P)) with
       | Some s => q_int (if is_positive (ay P) then (s - 1) / ax P else (- s - 1) / ax P)
       | None => 0%Z
       end.
Lemma number_range P : (0 <= number P < q_modulus + 2)%Z.
Proof.
  pose proof q_modulus_range. unfold number. destruct (qeqb (ax P) 0); [destruct (is_positive (ay P)); lia|].
  destruct (q_sqrt _) as [s|]; [|lia].
  match goal with |- (0 <= q_int ?v < _)%Z => pose proof (q_int_range v); lia end.
Qed.
Lemma sign_y x y y' : on_curve (mkAff x y) -> on_curve (mkAff x y') -> is_positive y = is_positive y' -> y = y'.
Proof.
  intros H H' E. destruct (is_positive y) eqn:S; [now apply (positive_y x)|].
  assert (N : y <> 0) by (apply (curve_y_nz _ H)). assert (N' : y' <> 0) by (apply (curve_y_nz _ H')).
  assert (O : - y = - y').
  { apply (positive_y x).
    - revert H. unfold on_curve. cbn [ax ay]. intro H. transitivity (coeff_a * (x * x) + y * y); [ring|]. rewrite H. ring.
    - revert H'. unfold on_curve. cbn [ax ay]. intro H'. transitivity (coeff_a * (x * x) + y' * y'); [ring|]. rewrite H'. ring.
    - rewrite positive_opp, S by exact N. reflexivity.
    - rewrite positive_opp, <- E by exact N'. reflexivity. }
  transitivity (- - y); [ring|]. rewrite O. ring.
Qed.
Lemma root_same x x' t : x * (t * t) + (1 + 1) * t + coeff_a * x = 0 -> x' * (t * t) + (1 + 1) * t + coeff_a * x' = 0 -> x = x'.
Proof.
  intros H H'. assert (E : (x - x') * (t * t + coeff_a) = 0).
  { transitivity ((x * (t * t) + (1 + 1) * t + coeff_a * x) - (x' * (t * t) + (1 + 1) * t + coeff_a * x')); [ring|]. rewrite H, H'. ring. }
  apply q_mul_0 in E as [E|E]; [now apply q_sub_0|]. exfalso. destruct q_minus_one as [w Hw].
  apply (coeff_a_nonsquare (w * t)). transitivity (w * w * (t * t)); [ring|]. rewrite Hw.
  transitivity (coeff_a - (t * t + coeff_a)); [ring|]. rewrite E. ring.
Qed.
Lemma root_of x s e : x <> 0 -> s * s = 1 - coeff_a * (x * x) -> e = s \/ e = - s ->
  x * ((e - 1) / x * ((e - 1) / x)) + (1 + 1) * ((e - 1) / x) + coeff_a * x = 0.
Proof.
  intros Hx Hs He. assert (E : e * e = 1 - coeff_a * (x * x)) by (rewrite <- Hs; destruct He as [-> | ->]; ring).
  transitivity ((e * e - (1 - coeff_a * (x * x))) / x); [field; exact Hx|]. rewrite E. field. exact Hx.
Qed.
Lemma number_inj P Q : valid_point P -> valid_point Q -> number P = number Q -> P = Q.
Proof.
  intros [CP SP] [CQ SQ] E. destruct P as [x y], Q as [x' y']. unfold number in E. cbn [ax ay] in E.
  pose proof q_modulus_range as M.
  assert (NZ : forall v s (b : bool) w, (if qeqb v 0 then if b then q_modulus else q_modulus + 1 else w)%Z = s -> (s < q_modulus)%Z -> v <> 0).
  { intros v s b w. destruct (qeqb v 0) eqn:V; [destruct b; lia|]. intros _ _. now apply qeqb_false. }
  destruct (qeqb x 0) eqn:X.
  { assert (X' : qeqb x' 0 = true).
    { destruct (qeqb x' 0) eqn:X'; [reflexivity|]. exfalso. destruct (q_sqrt _) as [s|].
      - pose proof (q_int_range (if is_positive y' then (s - 1) / x' else (- s - 1) / x')). destruct (is_positive y); lia.
      - destruct (is_positive y); lia. }
    rewrite X' in E. apply qeqb_true in X, X'. subst x x'. f_equal. apply (sign_y 0 y y' CP CQ).
    destruct (is_positive y), (is_positive y'); try reflexivity; lia. }
  destruct (qeqb x' 0) eqn:X'.
  { exfalso. destruct (q_sqrt _) as [s|].
    - pose proof (q_int_range (if is_positive y then (s - 1) / x else (- s - 1) / x)). destruct (is_positive y'); lia.
    - destruct (is_positive y'); lia. }
  apply qeqb_false in X, X'. cbn [ax ay] in *.
  destruct (q_sqrt (1 - coeff_a * (x * x))) as [s|] eqn:R.
  2:{ exfalso. destruct SP as [w Hw]. exact (q_sqrt_none _ R w Hw). }
  destruct (q_sqrt (1 - coeff_a * (x' * x'))) as [s'|] eqn:R'.
  2:{ exfalso. destruct SQ as [w Hw]. exact (q_sqrt_none _ R' w Hw). }
  pose proof (q_sqrt_some _ _ R) as Hs. pose proof (q_sqrt_some _ _ R') as Hs'.
  apply q_int_inj in E.
  assert (Ex : x = x').
  { apply (root_same x x' (if is_positive y then (s - 1) / x else (- s - 1) / x)).
    - destruct (is_positive y); apply (root_of x s); auto.
    - rewrite E. destruct (is_positive y'); apply (root_of x' s'); auto. }
  subst x'. assert (s' = s) by congruence. subst s'. f_equal. apply (sign_y x y y' CP CQ).
  assert (Ns : s <> 0).
  { intros ->. apply (ax2_nz x). rewrite <- Hs. ring. }
  assert (Dif : (s - 1) / x <> (- s - 1) / x).
  { intro D. assert (D2 : (s - 1) / x * x = (- s - 1) / x * x) by congruence.
    assert (D3 : (1 + 1) * s = 0).
    { transitivity ((s - 1) / x * x - (- s - 1) / x * x); [field; exact X|]. rewrite D2. ring. }
    apply q_mul_0 in D3 as [D3|D3]; [exact (q_two D3)|contradiction]. }
  destruct (is_positive y), (is_positive y'); try reflexivity; [elim Dif; exact E|elim Dif; now symmetry].
Qed.

Definition half_point : Affine := mkAff 0 (qopp 1).
Lemma valid_half : valid_point half_point.
Proof. apply (same_valid (mkAff 0 1)); [right; apply aff_eq; cbn [negated half_point ax ay]; ring|apply valid_zero]. Qed.
Lemma half_half : edwards_sum half_point half_point = mkAff 0 1.
Proof.
  unfold edwards_sum, half_point. apply aff_eq; cbn [ax ay]; field; repeat split; try exact q_1_neq_0;
  (intro E; apply q_1_neq_0; etransitivity; [|exact E]; ring).
Qed.
Lemma half_neq : half_point <> mkAff 0 1.
Proof.
  unfold half_point. intro E. injection E as E. apply q_two. transitivity (1 - qopp 1); [ring|]. rewrite E. ring.
Qed.
Lemma inverse_sum P Q : valid_point P -> valid_point Q -> edwards_sum P P = Q -> P = edwards_sum Q (inverse_point P).
Proof.
  intros HP HQ E. rewrite <- E, sum_assoc, sum_inverse, sum_zero by (try assumption; now apply valid_inverse). reflexivity.
Qed.
Lemma two_torsion P : valid_point P -> edwards_sum P P = mkAff 0 1 -> P = mkAff 0 1 \/ P = half_point.
Proof.
  intros HP E. pose proof (inverse_sum P _ HP valid_zero E) as K. rewrite edwards_comm, sum_zero in K.
  destruct P as [x y]. unfold inverse_point in K. cbn [ax ay] in K. injection K as K.
  assert (X : x = 0) by (destruct (q_dec x 0) as [|N]; [assumption|elim (q_neq_opp x N); exact K]). subst x.
  destruct HP as [C _]. unfold on_curve in C. cbn [ax ay] in C.
  assert (Y : y * y = 1 * 1) by (transitivity (coeff_a * (0 * 0) + y * y); [ring|]; rewrite C; ring).
  apply q_sq_eq in Y as [-> | ->]; [now left|right; reflexivity].
Qed.
Lemma not_half P : valid_point P -> edwards_sum P P <> half_point.
Proof.
  intros HP E. pose proof (inverse_sum P _ HP valid_half E) as K. destruct P as [x y].
  apply (f_equal ay) in K. unfold edwards_sum, inverse_point, half_point in K. cbn [ax ay] in K.
  assert (K2 : y = - y).
  { etransitivity; [exact K|]. field. first [exact q_1_neq_0|repeat split; exact q_1_neq_0]. }
  exact (q_neq_opp y (curve_y_nz _ (proj1 HP)) K2).
Qed.

(** If the order is prime, some point other than (0, 1) has this order, and there is room for fewer
    than six times as many points, then every point of the subgroup is a multiple of this point, or its
    negation, and the order times any point of the subgroup is (0, 1) or (0, -1). *)
Section One.
Variable g : Affine.
Hypothesis Hr : prime (Z.of_nat q_order).
Hypothesis Hg : valid_point g.
Hypothesis Ng : g <> mkAff 0 1.
Hypothesis Og : edwards_multiple q_order g = mkAff 0 1.
Hypothesis Few : (q_modulus + 2 < 6 * Z.of_nat q_order)%Z.
Local Notation tm := (times Coord co_add co_zero).
Lemma c_comm (c c' : Coord) : co_add c c' = co_add c' c. Proof. apply co_eq. rewrite !rc_add. apply edwards_comm. Qed.
Lemma c_assoc (c c' c'' : Coord) : co_add (co_add c c') c'' = co_add c (co_add c' c'').
Proof. apply co_eq. rewrite !rc_add. apply sum_assoc; apply co_valid. Qed.
Lemma c_zero (c : Coord) : co_add c co_zero = c. Proof. apply co_eq. rewrite rc_add. apply sum_zero. Qed.
Lemma c_neg (c : Coord) : co_add c (co_opp c) = co_zero. Proof. apply co_eq. rewrite rc_add, rc_opp. apply sum_inverse, co_valid. Qed.
Lemma c_inj (c c' : Coord) : number (coords c) = number (coords c') -> c = c'.
Proof. intro E. apply co_eq. apply number_inj; [apply co_valid|apply co_valid|exact E]. Qed.
Lemma c_order : tm q_order (co_of g) = co_zero. Proof. apply co_eq. rewrite rc_times, co_of_coords by exact Hg. exact Og. Qed.
Lemma c_nz : co_of g <> co_zero.
Proof. intro E. apply (f_equal coords) in E. rewrite co_of_coords in E by exact Hg. exact (Ng E). Qed.
Lemma c_half2 : co_add (co_of half_point) (co_of half_point) = co_zero.
Proof. apply co_eq. rewrite rc_add, !co_of_coords by exact valid_half. exact half_half. Qed.
Lemma c_halfnz : co_of half_point <> co_zero.
Proof. intro E. apply (f_equal coords) in E. rewrite co_of_coords in E by exact valid_half. exact (half_neq E). Qed.
Lemma c_two (c : Coord) : co_add c c = co_zero -> c = co_zero \/ c = co_of half_point.
Proof.
  intro E. apply (f_equal coords) in E. rewrite rc_add in E.
  destruct (two_torsion (coords c) (co_valid c) E) as [K|K]; [left|right]; apply co_eq; [exact K|].
  now rewrite co_of_coords by exact valid_half.
Qed.
Lemma c_four (c : Coord) : co_add c c <> co_of half_point.
Proof.
  intro E. apply (f_equal coords) in E. rewrite rc_add, co_of_coords in E by exact valid_half. exact (not_half (coords c) (co_valid c) E).
Qed.
Lemma half_same P : same_element P (edwards_sum P half_point).
Proof.
  right. unfold edwards_sum, half_point, negated. destruct P as [x y]. apply aff_eq; cbn [ax ay]; field; repeat split; exact q_1_neq_0.
Qed.
Theorem spanned P : valid_point P -> exists i, same_element P (edwards_multiple i g).
Proof.
  intro HP. destruct (all_members Coord co_add co_zero co_opp c_comm c_assoc c_zero c_neg (fun c => number (coords c)) (q_modulus + 2)
    c_inj (fun c => number_range (coords c)) q_order (co_of g) (co_of half_point) Hr q_order_odd c_order c_nz c_half2 c_halfnz c_two c_four Few (co_of P))
    as (j & e & E).
  exists j. apply (f_equal coords) in E. rewrite rc_add, rc_times, !co_of_coords in E by assumption. rewrite E. destruct e; cbn [hh].
  - rewrite co_of_coords by exact valid_half. apply same_sym, half_same.
  - left. apply sum_zero.
Qed.
Theorem spanned_once i j : (i < q_order)%nat -> (j < q_order)%nat -> same_element (edwards_multiple i g) (edwards_multiple j g) -> i = j.
Proof.
  intros Hi Hj [E|E].
  - apply (g_distinct Coord co_add co_zero co_opp c_comm c_assoc c_zero c_neg (q_modulus + 2) q_order (co_of g) Hr q_order_odd c_order c_nz Few); [exact Hi|exact Hj|].
    apply co_eq. now rewrite !rc_times, co_of_coords by exact Hg.
  - exfalso. assert (E2 : edwards_multiple i g = edwards_sum (edwards_multiple j g) half_point).
    { rewrite E. destruct (half_same (edwards_multiple j g)) as [K|K].
      - exfalso. (* P = P + half *)
        assert (Z0 : half_point = mkAff 0 1).
        { pose proof (valid_multiple j g Hg) as V. rewrite <- (sum_zero half_point), <- (sum_inverse _ V), <- sum_assoc;
            [|exact valid_half|exact V|now apply valid_inverse]. rewrite (edwards_comm half_point), <- K. reflexivity. }
        exact (half_neq Z0).
      - rewrite K at 1. apply negated_negated. }
    assert (Oi : forall n, edwards_multiple q_order (edwards_multiple n g) = mkAff 0 1).
    { intro n. rewrite multiple_multiple, Nat.mul_comm, <- multiple_multiple, Og by exact Hg. apply multiple_zero. }
    pose proof (Oi i) as K. rewrite E2, multiple_sum, Oi, edwards_comm, sum_zero in K by (try exact valid_half; now apply valid_multiple).
    assert (Hh : forall n, edwards_multiple n half_point = if Nat.odd n then half_point else mkAff 0 1).
    { induction n as [|n IH]; [reflexivity|]. rewrite multiple_S, IH, Nat.odd_succ, <- Nat.negb_odd.
      destruct (Nat.odd n); cbn [negb]; [exact half_half|apply sum_zero]. }
    rewrite Hh, q_order_odd in K. exact (half_neq K).
Qed.
Theorem order_from_one : CurveLaws B.
Proof.
  split; [exact RM|]. intros P HP.
  destruct (order_kills Coord co_add co_zero co_opp c_comm c_assoc c_zero c_neg (fun c => number (coords c)) (q_modulus + 2)
    c_inj (fun c => number_range (coords c)) q_order (co_of g) (co_of half_point) Hr q_order_odd c_order c_nz c_half2 c_halfnz c_two c_four Few (co_of P)) as [T|T];
    apply (f_equal coords) in T; rewrite rc_times, co_of_coords in T by exact HP; rewrite T.
  - now left.
  - rewrite co_of_coords by exact valid_half. right. apply aff_eq; cbn [negated half_point ax ay]; ring.
Qed.
End One.
End Curve.
