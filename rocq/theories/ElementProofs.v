(** Proofs about group elements by coordinates. *)
From Coq Require Import Field.
From Verif Require Import Base BaseFacts Alg WireModel ProofModel IpaModel ElementModel ElementSpec.

Section Facts.
Context {B : BaseField} {BL : BaseFieldLaws B}.
Add Field QField : Fq_field.
Local Open Scope fq_scope.

Lemma q_1_neq_0 : (1 : Fq) <> 0.
Proof. exact (F_1_neq_0 Fq_field). Qed.

Lemma q_mul_0 (x y : Fq) : x * y = 0 -> x = 0 \/ y = 0.
Proof.
  intros E. destruct (qeqb x 0) eqn:X; [left; now apply qeqb_true|right].
  assert (N : x <> 0) by (intros ->; rewrite (proj2 (qeqb_true 0 0) eq_refl) in X; discriminate).
  transitivity (qinv x * (x * y)); [field; exact N|]. rewrite E. ring.
Qed.

Lemma q_mul_nz (x y : Fq) : x <> 0 -> y <> 0 -> x * y <> 0.
Proof. intros H1 H2 E. destruct (q_mul_0 _ _ E); contradiction. Qed.

Lemma q_dec (x y : Fq) : x = y \/ x <> y.
Proof.
  destruct (qeqb x y) eqn:E; [left; now apply qeqb_true|right].
  intros H. rewrite (proj2 (qeqb_true _ _) H) in E. discriminate.
Qed.

Lemma qeqb_false (x y : Fq) : qeqb x y = false <-> x <> y.
Proof.
  split.
  - intros E H. rewrite (proj2 (qeqb_true _ _) H) in E. discriminate.
  - intros H. destruct (qeqb x y) eqn:E; [|reflexivity]. now apply qeqb_true in E.
Qed.

Lemma q_sub_0 (x y : Fq) : x - y = 0 -> x = y.
Proof. intros E. transitivity (x - y + y); [ring|]. rewrite E. ring. Qed.

Lemma q_sq_eq (x y : Fq) : x * x = y * y -> x = y \/ x = - y.
Proof.
  intros E. destruct (q_mul_0 (x - y) (x + y)) as [H|H].
  - transitivity (x * x - y * y); [ring|]. rewrite E. ring.
  - left. now apply q_sub_0.
  - right. apply q_sub_0. rewrite <- H. ring.
Qed.

Lemma q_opp_0 (x : Fq) : - x = 0 -> x = 0.
Proof. intros E. transitivity (- - x); [ring|]. rewrite E. ring. Qed.

Lemma q_neq_opp (y : Fq) : y <> 0 -> y <> - y.
Proof.
  intros N E. destruct (q_mul_0 (1 + 1) y) as [H|H].
  - transitivity (y + y); [ring|]. rewrite E at 1. ring.
  - now apply q_two.
  - contradiction.
Qed.

Lemma q_int_range (x : Fq) : (0 <= q_int x < q_modulus)%Z.
Proof. rewrite <- (q_of_int x), q_int_of. apply Z.mod_pos_bound, q_modulus_range. Qed.

Lemma q_int_inj (x y : Fq) : q_int x = q_int y -> x = y.
Proof. intros E. rewrite <- (q_of_int x), <- (q_of_int y), E. reflexivity. Qed.

(** Exactly one of y and -y is positive, unless y = 0. *)
Lemma positive_opp (y : Fq) : y <> 0 -> is_positive (- y) = negb (is_positive y).
Proof.
  intros N. unfold is_positive. replace (- - y) with y by ring.
  destruct (Z.ltb_spec (q_int (- y)) (q_int y)), (Z.ltb_spec (q_int y) (q_int (- y))); try reflexivity; try lia.
  exfalso. apply (q_neq_opp y N), q_int_inj. lia.
Qed.

(** ** Serialization of field elements *)
Lemma fq_ser_len x : length (fq_ser x) = 32%nat.
Proof. apply Z_le_length. Qed.
Lemma fq_ser_bytes x : is_bytes (fq_ser x).
Proof. apply Z_le_bytes. Qed.

Lemma fq_le_ser x : le_Z (fq_ser x) = q_int x.
Proof.
  apply le_Z_Z_le. pose proof (q_int_range x). pose proof q_modulus_range.
  change (256 ^ Z.of_nat 32)%Z with (2 ^ 256)%Z. lia.
Qed.

Lemma fq_ser_inj x y : fq_ser x = fq_ser y -> x = y.
Proof. intros E. apply q_int_inj. rewrite <- !fq_le_ser, E. reflexivity. Qed.

Lemma fq_de_app x b : fq_de (fq_ser x ++ b) = Some x.
Proof.
  unfold fq_de. rewrite app_length, fq_ser_len. replace (32 <=? 32 + length b)%nat with true by (symmetry; apply Nat.leb_le; lia).
  rewrite firstn_app_exact by apply fq_ser_len. rewrite fq_le_ser.
  pose proof (q_int_range x). replace (q_int x <? q_modulus)%Z with true by (symmetry; apply Z.ltb_lt; lia).
  now rewrite q_of_int.
Qed.

Lemma fq_de_ser x : fq_de (fq_ser x) = Some x.
Proof. rewrite <- (app_nil_r (fq_ser x)). apply fq_de_app. Qed.

Lemma fq_de_inv b x : is_bytes b -> fq_de b = Some x -> (32 <= length b)%nat /\ firstn 32 b = fq_ser x.
Proof.
  unfold fq_de. intros Hb. destruct (Nat.leb_spec 32 (length b)) as [L|]; [|discriminate].
  destruct (Z.ltb_spec (le_Z (firstn 32 b)) q_modulus) as [Lt|]; [|discriminate].
  intros E. assert (x = q_of (le_Z (firstn 32 b))) by congruence. subst x. split; [exact L|]. unfold fq_ser. rewrite q_int_of.
  pose proof (le_Z_bound (firstn 32 b) (is_bytes_firstn 32 b Hb)) as [Lo _].
  rewrite (Z.mod_small _ q_modulus (conj Lo Lt)).
  rewrite <- (Z_le_le_Z (firstn 32 b)) at 1 by now apply is_bytes_firstn.
  rewrite firstn_length, Nat.min_l by exact L. reflexivity.
Qed.

Lemma fq_de_short b : (length b < 32)%nat -> fq_de b = None.
Proof. intros L. unfold fq_de. destruct (Nat.leb_spec 32 (length b)); [lia|reflexivity]. Qed.

Lemma fq_de_firstn b : (32 <= length b)%nat -> fq_de b = fq_de (firstn 32 b).
Proof.
  intros L. unfold fq_de. rewrite firstn_length, Nat.min_l by exact L. rewrite firstn_firstn.
  change (Nat.min 32 32) with 32%nat.
  destruct (Nat.leb_spec 32 (length b)); [reflexivity|lia].
Qed.

(** ** The curve *)
Lemma nonsquare_sq (c x : Fq) : (forall y, y * y <> c) -> c * (x * x) <> 1.
Proof.
  intros NS E. destruct (q_dec x 0) as [->|N].
  - apply q_1_neq_0. rewrite <- E. ring.
  - apply (NS (1 / x)). transitivity (c * (x * x) / (x * x)); [rewrite E|]; field; exact N.
Qed.

Lemma ax2_neq x : coeff_a * (x * x) <> 1.
Proof. apply nonsquare_sq, coeff_a_nonsquare. Qed.
Lemma dx2_neq x : coeff_d * (x * x) <> 1.
Proof. apply nonsquare_sq, coeff_d_nonsquare. Qed.

Lemma dx2_nz x : coeff_d * (x * x) - 1 <> 0.
Proof. intros E. apply (dx2_neq x). now apply q_sub_0. Qed.
Lemma ax2_nz x : 1 - coeff_a * (x * x) <> 0.
Proof. intros E. apply (ax2_neq x). symmetry. now apply q_sub_0. Qed.

(** The curve equation, solved for y^2. *)
Lemma curve_y2 x y : on_curve (mkAff x y) <->
  y * y = (coeff_a * (x * x) - 1) * qinv (coeff_d * (x * x) - 1).
Proof.
  unfold on_curve; cbn [ax ay]. pose proof (dx2_nz x) as N. split; intros E.
  - transitivity ((y * y * (coeff_d * (x * x) - 1)) * qinv (coeff_d * (x * x) - 1)); [field; exact N|].
    f_equal. apply q_sub_0.
    transitivity ((1 + coeff_d * (x * x * (y * y))) - (coeff_a * (x * x) + y * y)); [ring|]. rewrite E. ring.
  - rewrite E. field. exact N.
Qed.

Lemma curve_y_nz P : on_curve P -> ay P <> 0.
Proof.
  intros H E. apply (ax2_neq (ax P)). unfold on_curve in H. rewrite E in H.
  transitivity (coeff_a * (ax P * ax P) + 0 * 0); [ring|]. rewrite H. ring.
Qed.

Lemma on_curve_negated P : on_curve P -> on_curve (negated P).
Proof.
  unfold on_curve, negated; cbn [ax ay]. intros E.
  transitivity (coeff_a * (ax P * ax P) + ay P * ay P); [ring|]. rewrite E. ring.
Qed.

Lemma in_subgroup_negated P : in_subgroup P -> in_subgroup (negated P).
Proof.
  unfold in_subgroup, negated; cbn [ax ay]. intros [w E]. exists w. rewrite E. ring.
Qed.

Lemma aff_eq (P Q : Affine) : ax P = ax Q -> ay P = ay Q -> P = Q.
Proof. destruct P, Q; cbn. congruence. Qed.

Lemma negated_negated P : negated (negated P) = P.
Proof. apply aff_eq; cbn; ring. Qed.

Lemma same_refl P : same_element P P. Proof. now left. Qed.
Lemma same_sym P Q : same_element P Q -> same_element Q P.
Proof. intros [->| ->]; [now left|right]. now rewrite negated_negated. Qed.
Lemma same_trans P Q R : same_element P Q -> same_element Q R -> same_element P R.
Proof.
  intros [->| ->] [->| ->]; [now left|now right|now right|left]. apply negated_negated.
Qed.

Lemma same_curve P Q : same_element P Q -> on_curve P -> on_curve Q.
Proof. intros S H. apply same_sym in S. destruct S as [->| ->]; [exact H|now apply on_curve_negated]. Qed.
Lemma same_subgroup P Q : same_element P Q -> in_subgroup P -> in_subgroup Q.
Proof. intros S H. apply same_sym in S. destruct S as [->| ->]; [exact H|now apply in_subgroup_negated]. Qed.

(** Points with the same x/y are the same element. *)
Lemma same_ratio P Q : on_curve P -> on_curve Q -> ax P * ay Q = ax Q * ay P -> same_element P Q.
Proof.
  intros HP HQ E. pose proof (curve_y_nz P HP) as NP. pose proof (curve_y_nz Q HQ) as NQ.
  set (u := ax P / ay P).
  assert (XP : ax P = u * ay P) by (unfold u; field; exact NP).
  assert (XQ : ax Q = u * ay Q).
  { unfold u. transitivity (ax Q * ay P / ay P); [field; exact NP|]. rewrite <- E. field. exact NP. }
  unfold on_curve in HP, HQ. rewrite XP in HP. rewrite XQ in HQ. clearbody u.
  set (y1 := ay P) in *. set (y2 := ay Q) in *.
  assert (Y : y1 = y2 \/ y1 = - y2).
  { apply q_sq_eq.
    destruct (q_mul_0 (y1 * y1 - y2 * y2) (coeff_a * (u * u) + 1 - coeff_d * (u * u) * (y1 * y1 + y2 * y2))) as [H|H].
    - transitivity ((coeff_a * (u * y1 * (u * y1)) + y1 * y1 - (1 + coeff_d * (u * y1 * (u * y1) * (y1 * y1))))
        - (coeff_a * (u * y2 * (u * y2)) + y2 * y2 - (1 + coeff_d * (u * y2 * (u * y2) * (y2 * y2))))); [ring|].
      rewrite HP, HQ. ring.
    - now apply q_sub_0.
    - exfalso. apply (dx2_neq (u * (y1 * y2))).
      transitivity (1 + ((coeff_a * (u * y1 * (u * y1)) + y1 * y1 - (1 + coeff_d * (u * y1 * (u * y1) * (y1 * y1))))
         - y1 * y1 * (coeff_a * (u * u) + 1 - coeff_d * (u * u) * (y1 * y1 + y2 * y2)))); [ring|].
      rewrite H, HP. ring. }
  destruct Y as [Y|Y]; [left|right]; apply aff_eq; cbn [negated ax ay]; fold y1 y2; try exact Y;
    rewrite XP, XQ; fold y1 y2; rewrite Y; ring.
Qed.

Lemma same_ratio_iff P Q : on_curve P -> on_curve Q ->
  (same_element P Q <-> ax P * ay Q = ax Q * ay P).
Proof.
  intros HP HQ. split; [|now apply same_ratio].
  intros [->| ->]; cbn [negated ax ay]; ring.
Qed.

(** ** Equality *)
Lemma holds_y_nz e P : holds e P -> on_curve P -> ey e <> 0.
Proof. intros (Z & X & Y & T) H. rewrite Y. apply q_mul_nz; [now apply curve_y_nz|exact Z]. Qed.

Lemma eqb_theorem e1 e2 P1 P2 : holds e1 P1 -> holds e2 P2 -> on_curve P1 -> on_curve P2 ->
  (element_eqb e1 e2 = true <-> same_element P1 P2).
Proof.
  intros H1 H2 C1 C2. unfold element_eqb.
  rewrite (proj2 (qeqb_false (ey e1) 0)) by now apply (holds_y_nz e1 P1).
  rewrite (proj2 (qeqb_false (ey e2) 0)) by now apply (holds_y_nz e2 P2).
  rewrite !andb_false_r, qeqb_true, same_ratio_iff by assumption.
  destruct H1 as (Z1 & X1 & Y1 & T1), H2 as (Z2 & X2 & Y2 & T2). rewrite X1, X2, Y1, Y2. split; intros E.
  - apply q_sub_0. destruct (q_mul_0 (ax P1 * ay P2 - ax P2 * ay P1) (ez e1 * ez e2)) as [H|H]; [|exact H|].
    + transitivity ((ax P1 * ez e1) * (ay P2 * ez e2) - (ax P2 * ez e2) * (ay P1 * ez e1)); [ring|]. rewrite E. ring.
    + exfalso. now apply (q_mul_nz (ez e1) (ez e2)).
  - transitivity ((ax P1 * ay P2) * (ez e1 * ez e2)); [ring|]. rewrite E. ring.
Qed.

Lemma holds_unique e P Q : holds e P -> holds e Q -> P = Q.
Proof.
  intros (Z & X & Y & _) (_ & X' & Y' & _).
  apply aff_eq.
  - transitivity (ax P * ez e / ez e); [field; exact Z|]. rewrite <- X, X'. field. exact Z.
  - transitivity (ay P * ez e / ez e); [field; exact Z|]. rewrite <- Y, Y'. field. exact Z.
Qed.

(** ** Affine coordinates *)
Lemma to_affine_ok e P : holds e P -> to_affine e = Ok P.
Proof.
  intros (Z & X & Y & T). unfold to_affine.
  destruct (qeqb (ex e) 0 && qeqb (ey e) (ez e) && negb (qeqb (ey e) 0) && qeqb (et e) 0)%bool eqn:W.
  - apply andb_true_iff in W as [W _]. apply andb_true_iff in W as [W _]. apply andb_true_iff in W as [W1 W2].
    apply qeqb_true in W1, W2. f_equal. apply aff_eq; cbn [ax ay].
    + destruct (q_mul_0 (ax P) (ez e)) as [E|E]; [congruence|now rewrite E|contradiction].
    + transitivity (ey e / ez e); [rewrite W2; field; exact Z|rewrite Y; field; exact Z].
  - destruct (qeqb (ez e) 1) eqn:O.
    + apply qeqb_true in O. f_equal. apply aff_eq; cbn [ax ay]; [rewrite X|rewrite Y]; rewrite O; ring.
    + rewrite (proj2 (qeqb_false (ez e) 0)) by exact Z. f_equal.
      apply aff_eq; cbn [ax ay]; [rewrite X|rewrite Y]; field; exact Z.
Qed.

Lemma holds_of_affine P : holds (of_affine P) P.
Proof. unfold holds, of_affine; cbn. repeat split; try ring. exact q_1_neq_0. Qed.

(** ** Compressed encodings *)
Definition canon (P : Affine) : Affine := if is_positive (ay P) then P else negated P.

Lemma canon_same P : same_element (canon P) P.
Proof. unfold canon. destruct (is_positive (ay P)); [now left|now right]. Qed.

Lemma canon_positive P : ay P <> 0 -> is_positive (ay (canon P)) = true.
Proof.
  intros N. unfold canon. destruct (is_positive (ay P)) eqn:E; [exact E|].
  cbn [negated ay]. now rewrite positive_opp, E.
Qed.

Lemma canon_unique P Q : ay P <> 0 -> same_element P Q -> canon P = canon Q.
Proof.
  intros N [->| ->]; [reflexivity|]. unfold canon. cbn [negated ay].
  assert (NQ : ay Q <> 0) by (intros E; apply N; cbn [negated ay]; rewrite E; ring).
  rewrite positive_opp by exact NQ. destruct (is_positive (ay Q)); cbn [negb]; [now rewrite negated_negated|reflexivity].
Qed.

Lemma to_bytes_ok e P : holds e P -> to_bytes e = Ok (rev (fq_ser (ax (canon P)))).
Proof.
  intros H. unfold to_bytes. rewrite (to_affine_ok e P H). cbn [rbind].
  unfold canon. destruct (is_positive (ay P)); reflexivity.
Qed.

Lemma positive_y x y y' : on_curve (mkAff x y) -> on_curve (mkAff x y') ->
  is_positive y = true -> is_positive y' = true -> y = y'.
Proof.
  intros C1 C2 P1 P2. pose proof (curve_y_nz _ C1) as N; cbn [ay] in N.
  pose proof (curve_y_nz _ C2) as N'; cbn [ay] in N'.
  apply curve_y2 in C1, C2. destruct (q_sq_eq y y') as [E|E]; [now rewrite C1, C2|exact E|].
  rewrite E, positive_opp, P2 in P1 by exact N'. discriminate.
Qed.

Lemma canon_inj P Q : on_curve P -> on_curve Q -> ax (canon P) = ax (canon Q) -> same_element P Q.
Proof.
  intros HP HQ E.
  assert (C1 : on_curve (canon P)) by (apply (same_curve P); [apply same_sym, canon_same|exact HP]).
  assert (C2 : on_curve (canon Q)) by (apply (same_curve Q); [apply same_sym, canon_same|exact HQ]).
  assert (canon P = canon Q).
  { apply aff_eq; [exact E|]. destruct (canon P) as [x y] eqn:EP, (canon Q) as [x' y'] eqn:EQ. cbn in E. subst x'. cbn [ay].
    apply (positive_y x); [exact C1|exact C2| |].
    - change y with (ay (mkAff x y)). rewrite <- EP. apply canon_positive, curve_y_nz, HP.
    - change y' with (ay (mkAff x y')). rewrite <- EQ. apply canon_positive, curve_y_nz, HQ. }
  apply (same_trans P (canon P)); [apply same_sym, canon_same|]. rewrite H. apply canon_same.
Qed.

Lemma rev_inj {X} (a b : list X) : rev a = rev b -> a = b.
Proof. intros E. rewrite <- (rev_involutive a), <- (rev_involutive b), E. reflexivity. Qed.

Lemma eq_iff_bytes e1 e2 : curve_element e1 -> curve_element e2 ->
  exists b1 b2, to_bytes e1 = Ok b1 /\ to_bytes e2 = Ok b2 /\ length b1 = 32%nat /\ length b2 = 32%nat /\
    (element_eqb e1 e2 = true <-> b1 = b2).
Proof.
  intros (P1 & H1 & C1) (P2 & H2 & C2).
  exists (rev (fq_ser (ax (canon P1)))), (rev (fq_ser (ax (canon P2)))).
  rewrite !rev_length, !fq_ser_len. repeat split; try (now apply to_bytes_ok).
  - intros E. apply (eqb_theorem e1 e2 P1 P2) in E; try assumption.
    now rewrite (canon_unique P1 P2 (curve_y_nz _ C1) E).
  - intros E. apply rev_inj, fq_ser_inj in E. apply (eqb_theorem e1 e2 P1 P2); try assumption. now apply canon_inj.
Qed.

(** ** Decoding *)
Lemma point_from_x x : 
  (exists y, get_point_from_x x true = Ok (Some (mkAff x y)) /\ on_curve (mkAff x y) /\ is_positive y = true) \/
  (get_point_from_x x true = Ok None /\ forall y, ~ on_curve (mkAff x y)).
Proof.
  unfold get_point_from_x, fq_div. rewrite (proj2 (qeqb_false _ 0)) by apply dx2_nz. cbn [rbind].
  destruct (q_sqrt _) as [y|] eqn:S.
  - left. apply q_sqrt_some in S. assert (C : on_curve (mkAff x y)) by now apply curve_y2.
    pose proof (curve_y_nz _ C) as N; cbn [ay] in N.
    destruct (is_positive y) eqn:P; cbn [andb].
    + exists y. auto.
    + exists (- y). repeat split.
      * apply curve_y2. rewrite <- S. ring.
      * now rewrite positive_opp, P.
  - right. split; [reflexivity|]. intros y C. apply curve_y2 in C. now apply (q_sqrt_none _ S y).
Qed.

Lemma legendre_spec x y : legendre_check_point x = true <-> in_subgroup (mkAff x y).
Proof.
  unfold legendre_check_point, in_subgroup, square; cbn [ax]. rewrite q_is_qr_true. split.
  - tauto.
  - intros H. split; [apply ax2_nz|exact H].
Qed.

Lemma from_bytes_total b : exists o, from_bytes b = Ok o.
Proof.
  unfold from_bytes. destruct (fq_de (rev b)) as [x|]; [|eauto].
  destruct (point_from_x x) as [(y & E & _)|[E _]]; rewrite E; cbn [rbind]; [|eauto].
  destruct (negb _); eauto.
Qed.

Lemma from_bytes_to_bytes e : group_element e ->
  exists b e', to_bytes e = Ok b /\ from_bytes b = Ok (Some e') /\ element_eqb e' e = true /\ group_element e'.
Proof.
  intros (P & H & C & S). exists (rev (fq_ser (ax (canon P)))), (of_affine (canon P)).
  assert (CC : on_curve (canon P)) by (apply (same_curve P); [apply same_sym, canon_same|exact C]).
  assert (CS : in_subgroup (canon P)) by (apply (same_subgroup P); [apply same_sym, canon_same|exact S]).
  split; [now apply to_bytes_ok|].
  split; [|split].
  - unfold from_bytes. rewrite rev_involutive, fq_de_ser.
    destruct (point_from_x (ax (canon P))) as [(y & E & CY & PY)|[E NC]].
    + rewrite E. cbn [rbind]. assert (mkAff (ax (canon P)) y = canon P) as ->.
      { apply aff_eq; [reflexivity|]. cbn [ay]. apply (positive_y (ax (canon P))); [exact CY| |exact PY|].
        - destruct (canon P); exact CC.
        - apply canon_positive, curve_y_nz, C. }
      unfold subgroup_check, of_affine; cbn [ex]. rewrite (proj2 (legendre_spec _ (ay (canon P)))); [reflexivity|].
      destruct (canon P); exact CS.
    + exfalso. apply (NC (ay (canon P))). destruct (canon P); exact CC.
  - apply (eqb_theorem _ _ (canon P) P); try assumption; [apply holds_of_affine|apply canon_same].
  - exists (canon P). split; [apply holds_of_affine|]. split; assumption.
Qed.

Lemma from_bytes_canonical b e : is_bytes b -> length b = 32%nat -> from_bytes b = Ok (Some e) ->
  group_element e /\ to_bytes e = Ok b.
Proof.
  intros Hb Lb. unfold from_bytes. destruct (fq_de (rev b)) as [x|] eqn:D; [|discriminate].
  apply fq_de_inv in D as [_ D]; [|now apply is_bytes_rev].
  rewrite firstn_all2 in D by (rewrite rev_length; lia).
  destruct (point_from_x x) as [(y & E & CY & PY)|[E NC]]; rewrite E; cbn [rbind]; [|discriminate].
  destruct (subgroup_check (of_affine (mkAff x y))) eqn:SC; cbn [negb]; [|discriminate].
  intros EE. assert (e = of_affine (mkAff x y)) by congruence. subst e. clear EE.
  assert (S : in_subgroup (mkAff x y)) by (apply (legendre_spec x y); exact SC).
  split; [exists (mkAff x y); split; [apply holds_of_affine|now split]|].
  rewrite (to_bytes_ok _ _ (holds_of_affine _)). unfold canon. cbn [ay]. rewrite PY. cbn [ax].
  rewrite <- D. now rewrite rev_involutive.
Qed.

Lemma from_bytes_short b : (length b < 32)%nat -> from_bytes b = Ok None.
Proof. intros L. unfold from_bytes. rewrite fq_de_short by (rewrite rev_length; exact L). reflexivity. Qed.

Lemma from_bytes_long pad b : (length b = 32)%nat -> from_bytes (pad ++ b) = from_bytes b.
Proof.
  intros L. unfold from_bytes. rewrite rev_app_distr.
  rewrite (fq_de_firstn (rev b ++ rev pad)) by (rewrite app_length, rev_length; lia).
  now rewrite firstn_app_exact by now rewrite rev_length.
Qed.

Lemma from_bytes_outside e P : holds e P -> on_curve P -> ~ in_subgroup P ->
  exists b, to_bytes e = Ok b /\ from_bytes b = Ok None.
Proof.
  intros H C NS. eexists. split; [exact (to_bytes_ok e P H)|].
  unfold from_bytes. rewrite rev_involutive, fq_de_ser.
  destruct (point_from_x (ax (canon P))) as [(y & E & CY & PY)|[E NC]]; rewrite E; cbn [rbind]; [|reflexivity].
  destruct (subgroup_check _) eqn:SC; cbn [negb]; [|reflexivity].
  exfalso. apply NS. apply (same_subgroup (canon P)); [apply canon_same|].
  destruct (canon P) as [x y'] eqn:EP. apply (legendre_spec x y'). exact SC.
Qed.

(** An off-curve coordinate is never produced, whatever the bytes. *)
Lemma from_bytes_valid b e : from_bytes b = Ok (Some e) -> group_element e.
Proof.
  unfold from_bytes. destruct (fq_de (rev b)) as [x|]; [|discriminate].
  destruct (point_from_x x) as [(y & E & CY & PY)|[E NC]]; rewrite E; cbn [rbind]; [|discriminate].
  destruct (subgroup_check (of_affine (mkAff x y))) eqn:SC; cbn [negb]; [|discriminate].
  intros EE. assert (e = of_affine (mkAff x y)) by congruence. subst e.
  exists (mkAff x y); split; [apply holds_of_affine|split; [exact CY|]]. apply (legendre_spec x y); exact SC.
Qed.

(** ** Uncompressed encodings *)
Lemma uncompressed_rt e P : holds e P ->
  exists b e', to_bytes_uncompressed e = Ok b /\ length b = 64%nat /\
    from_bytes_unchecked_uncompressed b = Ok e' /\ holds e' P.
Proof.
  intros H. unfold to_bytes_uncompressed. rewrite (to_affine_ok e P H). cbn [rbind].
  eexists _, _. split; [reflexivity|]. rewrite app_length, !fq_ser_len. split; [reflexivity|].
  unfold from_bytes_unchecked_uncompressed. rewrite fq_de_app. cbn [unwrap rbind].
  rewrite skipn_app_exact by apply fq_ser_len. rewrite fq_de_ser. cbn [unwrap rbind].
  split; [reflexivity|]. replace (mkAff (ax P) (ay P)) with P by now destruct P. apply holds_of_affine.
Qed.

Lemma uncompressed_inj e1 e2 P1 P2 b : holds e1 P1 -> holds e2 P2 ->
  to_bytes_uncompressed e1 = Ok b -> to_bytes_uncompressed e2 = Ok b -> P1 = P2.
Proof.
  intros H1 H2. unfold to_bytes_uncompressed. rewrite (to_affine_ok _ _ H1), (to_affine_ok _ _ H2). cbn [rbind].
  intros E1 E2. assert (E : fq_ser (ax P1) ++ fq_ser (ay P1) = fq_ser (ax P2) ++ fq_ser (ay P2)) by congruence.
  apply app_inj_len in E as [X Y]; [|now rewrite !fq_ser_len]. apply aff_eq; now apply fq_ser_inj.
Qed.

Lemma uncompressed_differ e1 e2 P : holds e1 P -> holds e2 (negated P) -> on_curve P ->
  element_eqb e1 e2 = true /\ to_bytes_uncompressed e1 <> to_bytes_uncompressed e2.
Proof.
  intros H1 H2 C. split.
  - apply (eqb_theorem e1 e2 P (negated P)); try assumption; [now apply on_curve_negated|].
    right. now rewrite negated_negated.
  - intros E. unfold to_bytes_uncompressed in E. rewrite (to_affine_ok _ _ H1), (to_affine_ok _ _ H2) in E. cbn [rbind] in E.
    assert (E' : fq_ser (ax P) ++ fq_ser (ay P) = fq_ser (ax (negated P)) ++ fq_ser (ay (negated P))) by congruence.
    apply app_inj_len in E' as [_ Y]; [|now rewrite !fq_ser_len]. apply fq_ser_inj in Y. cbn [negated ay] in Y.
    apply (q_neq_opp (ay P)); [now apply curve_y_nz|exact Y].
Qed.

(** ** Mapping to fields *)
Lemma map_ok e P : holds e P -> on_curve P -> map_to_field e = Ok (ax P / ay P).
Proof.
  intros H C. unfold map_to_field, fq_div. rewrite (proj2 (qeqb_false _ 0)) by now apply (holds_y_nz e P).
  f_equal. pose proof (curve_y_nz P C). destruct H as (Z & X & Y & _). rewrite X, Y. field. now split.
Qed.

Lemma map_iff e1 e2 : curve_element e1 -> curve_element e2 ->
  exists v1 v2, map_to_field e1 = Ok v1 /\ map_to_field e2 = Ok v2 /\ (v1 = v2 <-> element_eqb e1 e2 = true).
Proof.
  intros (P1 & H1 & C1) (P2 & H2 & C2). exists (ax P1 / ay P1), (ax P2 / ay P2).
  split; [now apply map_ok|]. split; [now apply map_ok|].
  rewrite (eqb_theorem e1 e2 P1 P2 H1 H2 C1 C2), (same_ratio_iff P1 P2 C1 C2).
  pose proof (curve_y_nz P1 C1). pose proof (curve_y_nz P2 C2). split; intros E.
  - transitivity (ax P1 / ay P1 * (ay P1 * ay P2)); [field; assumption|]. rewrite E. field. assumption.
  - transitivity (ax P1 * ay P2 / (ay P1 * ay P2)); [field; now split|]. rewrite E. field. now split.
Qed.

Lemma zero_on_curve : on_curve (mkAff 0 1).
Proof. unfold on_curve; cbn. ring. Qed.
Lemma zero_holds : holds element_zero (mkAff 0 1).
Proof. unfold holds, element_zero; cbn. repeat split; try ring. exact q_1_neq_0. Qed.
Lemma zero_group : group_element element_zero.
Proof.
  exists (mkAff 0 1). split; [exact zero_holds|]. split; [exact zero_on_curve|].
  exists 1. cbn. ring.
Qed.

Lemma is_zero_iff e : curve_element e -> (element_is_zero e = true <-> map_to_field e = Ok 0).
Proof.
  intros (P & H & C). unfold element_is_zero. rewrite (map_ok e P H C).
  rewrite (eqb_theorem e _ P (mkAff 0 1) H zero_holds C zero_on_curve), same_ratio_iff by (assumption || apply zero_on_curve).
  cbn [ax ay]. pose proof (curve_y_nz P C). split; intros E.
  - f_equal. replace (ax P) with (0 : Fq); [field; assumption|]. transitivity (0 * ay P); [ring|]. rewrite <- E. ring.
  - assert (E' : ax P / ay P = 0) by congruence. transitivity (ax P / ay P * ay P); [field; assumption|]. rewrite E'. ring.
Qed.

(** ** Addition *)
Lemma sum_negated P Q : edwards_sum (negated P) Q = negated (edwards_sum P Q).
Proof.
  unfold edwards_sum. cbn [negated ax ay].
  replace (coeff_d * - ax P * ax Q * - ay P * ay Q) with (coeff_d * ax P * ax Q * ay P * ay Q) by ring.
  set (k := coeff_d * ax P * ax Q * ay P * ay Q).
  unfold negated; cbn [ax ay]. rewrite !(Fdiv_def Fq_field). f_equal; ring.
Qed.
Lemma sum_comm P Q : edwards_sum P Q = edwards_sum Q P.
Proof.
  unfold edwards_sum.
  replace (coeff_d * ax P * ax Q * ay P * ay Q) with (coeff_d * ax Q * ax P * ay Q * ay P) by ring.
  f_equal; f_equal; ring.
Qed.
Lemma sum_respects P P' Q Q' : same_element P P' -> same_element Q Q' ->
  same_element (edwards_sum P Q) (edwards_sum P' Q').
Proof.
  assert (L : forall P P' Q, same_element P P' -> same_element (edwards_sum P Q) (edwards_sum P' Q)).
  { intros A A' Q0 [->| ->]; [now left|right]. apply sum_negated. }
  intros HP HQ. apply (same_trans _ (edwards_sum P' Q)); [now apply L|].
  rewrite (sum_comm P' Q), (sum_comm P' Q'). now apply L.
Qed.

Lemma multiple_negated n P : edwards_multiple n (negated P) =
  if Nat.odd n then negated (edwards_multiple n P) else edwards_multiple n P.
Proof.
  unfold edwards_multiple. induction n as [|n IH]; [reflexivity|]. rewrite Nat.odd_succ, <- Nat.negb_odd.
  change (edwards_sum (negated P) (Nat.iter n (edwards_sum (negated P)) (mkAff 0 1)) =
    if negb (Nat.odd n) then negated (edwards_sum P (Nat.iter n (edwards_sum P) (mkAff 0 1))) else edwards_sum P (Nat.iter n (edwards_sum P) (mkAff 0 1))).
  rewrite IH, sum_negated. destruct (Nat.odd n); cbn [negb]; [|reflexivity].
  rewrite sum_comm, sum_negated, negated_negated. apply sum_comm.
Qed.

(** At most one of the two representatives of an element has prime order. *)
Lemma prime_order_one P : prime_order P -> ~ prime_order (negated P).
Proof.
  unfold prime_order. intros E1 E2. rewrite multiple_negated, q_order_odd, E1 in E2.
  assert (E : qopp qone = qone) by exact (f_equal ay E2). apply (q_neq_opp 1 q_1_neq_0). now symmetry.
Qed.

Lemma point_check_iff P : point_check P = true <-> on_curve P /\ prime_order P.
Proof.
  unfold point_check, on_curve, prime_order. rewrite !andb_true_iff, !qeqb_true. split.
  - intros (E & X & Y). split; [exact E|]. now apply aff_eq.
  - intros (E & M). split; [exact E|]. rewrite M. now split.
Qed.

Lemma deserialize_uncompressed_ok e P rest : holds e P ->
  exists b, serialize_uncompressed e = Ok b /\ length b = 64%nat /\
    ((on_curve P /\ prime_order P -> deserialize_uncompressed (b ++ rest) = Some (of_affine P, rest)) /\
     (~ (on_curve P /\ prime_order P) -> deserialize_uncompressed (b ++ rest) = None)).
Proof.
  intros H. unfold serialize_uncompressed. rewrite (to_affine_ok e P H). cbn [rbind].
  eexists. split; [reflexivity|]. split; [rewrite app_length, !fq_ser_len; reflexivity|].
  unfold deserialize_uncompressed. rewrite <- app_assoc, fq_de_app.
  rewrite skipn_app_exact by apply fq_ser_len. rewrite fq_de_app.
  replace (mkAff (ax P) (ay P)) with P by now destruct P.
  rewrite (app_assoc (fq_ser (ax P))), skipn_app_exact by (rewrite app_length, !fq_ser_len; reflexivity).
  rewrite <- point_check_iff. destruct (point_check P); split; intros X; try reflexivity; [now elim X|discriminate].
Qed.

(** Reading back what was written fails for the representative that is not of prime order. *)
Lemma uncompressed_unreadable e P : holds e P -> on_curve P -> in_subgroup P -> prime_order P ->
  is_positive (ay P) = false ->
  exists b e' u, to_bytes e = Ok b /\ from_bytes b = Ok (Some e') /\ element_eqb e' e = true /\
    serialize_uncompressed e' = Ok u /\ deserialize_uncompressed u = None.
Proof.
  intros H C S O N. destruct (from_bytes_to_bytes e) as (b & e' & E1 & E2 & E3 & _); [now exists P|].
  exists b, e'. destruct (deserialize_uncompressed_ok (of_affine (negated P)) (negated P) [] (holds_of_affine _)) as (u & U1 & _ & _ & U2).
  exists u. split; [exact E1|]. split; [exact E2|]. split; [exact E3|].
  assert (e' = of_affine (negated P)) as ->.
  { unfold from_bytes in E2. rewrite (to_bytes_ok e P H) in E1. unfold canon in E1. rewrite N in E1.
    assert (b = rev (fq_ser (ax (negated P)))) by congruence. subst b. rewrite rev_involutive, fq_de_ser in E2.
    destruct (point_from_x (ax (negated P))) as [(y & E & CY & PY)|[E NC]]; rewrite E in E2; cbn [rbind] in E2; [|discriminate].
    destruct (negb _); [discriminate|].
    assert (y = ay (negated P)).
    { apply (positive_y (ax (negated P))); [exact CY| |exact PY|].
      - apply (on_curve_negated P) in C. destruct (negated P); exact C.
      - cbn [negated ay]. rewrite positive_opp, N; [reflexivity|]. now apply curve_y_nz. }
    subst y. inversion E2; reflexivity. }
  split; [exact U1|]. rewrite <- (app_nil_r u). apply U2. intros [_ O']. now apply (prime_order_one P O).
Qed.

Lemma deserialize_compressed_ok e rest : group_element e ->
  exists b e', serialize_compressed e = Ok b /\ length b = 32%nat /\
    deserialize_compressed (b ++ rest) = Ok (Some (e', rest)) /\ element_eqb e' e = true.
Proof.
  intros G. destruct (from_bytes_to_bytes e G) as (b & e' & E1 & E2 & E3 & _). exists b, e'.
  assert (L : length b = 32%nat).
  { destruct G as (P & H & _). rewrite (to_bytes_ok e P H) in E1. assert (b = rev (fq_ser (ax (canon P)))) by congruence. subst b. unfold bytes. rewrite rev_length. apply fq_ser_len. }
  split; [exact E1|]. split; [exact L|]. unfold deserialize_compressed. rewrite app_length, L.
  change (32 + length rest <? 32)%nat with false. rewrite firstn_app_exact, skipn_app_exact by exact L.
  rewrite E2. now split.
Qed.

Lemma deserialize_compressed_inv b e rest : is_bytes b -> deserialize_compressed b = Ok (Some (e, rest)) ->
  exists b', b = b' ++ rest /\ length b' = 32%nat /\ group_element e /\ serialize_compressed e = Ok b'.
Proof.
  unfold deserialize_compressed. intros Hb. destruct (Nat.ltb_spec (length b) 32) as [|L]; [discriminate|].
  intros E. apply rbind_ok in E as (o & E1 & E2). destruct o as [e'|]; [|discriminate]. cbn [option_map] in E2.
  assert (e' = e /\ skipn 32 b = rest) as [-> R] by (split; congruence).
  exists (firstn 32 b). assert (L' : length (firstn 32 b) = 32%nat) by (rewrite firstn_length; lia).
  split; [rewrite <- R; symmetry; apply firstn_skipn|]. split; [exact L'|].
  apply (from_bytes_canonical (firstn 32 b) e); [now apply is_bytes_firstn|exact L'|exact E1].
Qed.

(** ** Generators *)
Lemma reduce_total b : exists o, try_reduce_to_element b = Ok o.
Proof. apply from_bytes_total. Qed.
Lemma reduce_iff b e : try_reduce_to_element b = Ok (Some e) <->
  exists P, e = of_affine P /\ ax P = q_of (be_Z b) /\ (q_int (- ay P) < q_int (ay P))%Z /\ on_curve P /\ in_subgroup P.
Proof.
  unfold try_reduce_to_element, from_bytes. rewrite rev_involutive, fq_de_ser. set (x := q_of (be_Z b)).
  destruct (point_from_x x) as [(y & E & CY & PY)|[E NC]]; rewrite E; cbn [rbind].
  - destruct (subgroup_check (of_affine (mkAff x y))) eqn:SC; cbn [negb].
    + split.
      * intros EE. exists (mkAff x y). cbn [ax ay]. repeat split; [now inversion EE|now apply Z.ltb_lt|exact CY|].
        apply (legendre_spec x y). exact SC.
      * intros (P & -> & X & Y & C & S). do 2 f_equal. f_equal. apply aff_eq; cbn [ax ay]; [now rewrite X|].
        apply (positive_y x); [exact CY|rewrite <- X; destruct P; exact C|exact PY|now apply Z.ltb_lt].
    + split; [discriminate|]. intros (P & -> & X & Y & C & S). exfalso.
      assert (in_subgroup (mkAff x y)) as S' by (unfold in_subgroup in *; cbn [ax]; rewrite <- X; exact S).
      apply (legendre_spec x y) in S'. unfold subgroup_check in SC. cbn [of_affine ex ax] in SC. congruence.
  - split; [discriminate|]. intros (P & -> & X & Y & C & S). exfalso. apply (NC (ay P)). rewrite <- X. destruct P; exact C.
Qed.
Lemma reduce_valid b e : try_reduce_to_element b = Ok (Some e) -> group_element e.
Proof. apply from_bytes_valid. Qed.

(** ** Scalars *)
Context {A : Alg}.

Lemma scalar_ok e P : holds e P -> on_curve P ->
  map_to_scalar_field e = Ok (of_Z (q_int (ax P / ay P))).
Proof.
  intros H C. unfold map_to_scalar_field. rewrite (map_ok e P H C). cbn [rbind]. unfold fr_of_fq. now rewrite fq_le_ser.
Qed.

Lemma scalar_same e1 e2 : curve_element e1 -> curve_element e2 -> element_eqb e1 e2 = true ->
  exists s, map_to_scalar_field e1 = Ok s /\ map_to_scalar_field e2 = Ok s.
Proof.
  intros H1 H2 E. destruct (map_iff e1 e2 H1 H2) as (v1 & v2 & M1 & M2 & I). apply I in E. subst v2.
  exists (fr_of_fq v1). unfold map_to_scalar_field. rewrite M1, M2. now split.
Qed.

Lemma scalar_zero e : curve_element e -> element_is_zero e = true -> map_to_scalar_field e = Ok (of_Z 0%Z).
Proof.
  intros H E. apply (is_zero_iff e H) in E. unfold map_to_scalar_field. rewrite E. cbn [rbind].
  unfold fr_of_fq. now rewrite fq_le_ser, q_int_0.
Qed.

Lemma combine_map_self {X Y} (f : X -> Y) l : combine (map f l) l = map (fun x => (f x, x)) l.
Proof. induction l as [|x l IH]; cbn; [reflexivity|now rewrite IH]. Qed.

Lemma batch_map es : batch_map_to_scalar_field es =
  map (fun e => fr_of_fq (if qeqb (ey e) 0 then ey e * ex e else qinv (ey e) * ex e)) es.
Proof.
  unfold batch_map_to_scalar_field, batch_inversion_q. rewrite (map_map ey), combine_map_self, !map_map.
  apply map_ext. intros e. destruct (qeqb (ey e) 0); reflexivity.
Qed.

Lemma batch_one_by_one es ss : rmap map_to_scalar_field es = Ok ss -> batch_map_to_scalar_field es = ss.
Proof.
  rewrite batch_map. revert ss. induction es as [|e es IH]; intros ss; cbn [rmap map]; [intros E; congruence|].
  intros E. apply rbind_ok in E as (s & E1 & E2). apply rbind_ok in E2 as (ss' & E2 & E3).
  rewrite (IH ss' E2). assert (ss = s :: ss') by congruence. subst ss. f_equal.
  unfold map_to_scalar_field, map_to_field, fq_div in E1. destruct (qeqb (ey e) 0); [discriminate|]. cbn [rbind] in E1.
  replace (qinv (ey e) * ex e) with (ex e * qinv (ey e)) by ring. congruence.
Qed.

Lemma batch_ok es : Forall curve_element es -> rmap map_to_scalar_field es = Ok (batch_map_to_scalar_field es).
Proof.
  intros H. assert (exists ss, rmap map_to_scalar_field es = Ok ss) as [ss E].
  { induction H as [|e es (P & H & C) _ [ss IH]]; cbn [rmap]; [eauto|].
    rewrite (scalar_ok e P H C). cbn [rbind]. rewrite IH. cbn [rbind]. eauto. }
  now rewrite (batch_one_by_one es ss E).
Qed.

Lemma batch_degenerate e : ey e = 0 -> map_to_scalar_field e = Panic /\ batch_map_to_scalar_field [e] = [of_Z 0%Z].
Proof.
  intros E. split.
  - unfold map_to_scalar_field, map_to_field, fq_div. now rewrite (proj2 (qeqb_true _ _) E).
  - rewrite batch_map. cbn [map]. rewrite E, (proj2 (qeqb_true _ _) eq_refl).
    replace (0 * ex e) with (0 : Fq) by ring. unfold fr_of_fq. now rewrite fq_le_ser, q_int_0.
Qed.

Context {C : ECodec A}.

Lemma hash_batch cs hs : rmap hash_commitment cs = Ok hs -> hash_commitments cs = Ok hs.
Proof.
  intros H. assert (exists es ss, rmap from_bytes_unchecked_uncompressed cs = Ok es /\
    rmap map_to_scalar_field es = Ok ss /\ map sc_ser ss = hs) as (es & ss & E1 & E2 & E3).
  { revert hs H. induction cs as [|c cs IH]; intros hs; cbn [rmap].
    - intros E. exists [], []. cbn. repeat split. congruence.
    - intros E. apply rbind_ok in E as (h & E1 & E). apply rbind_ok in E as (hs' & E2 & E3).
      destruct (IH hs' E2) as (es & ss & I1 & I2 & I3). unfold hash_commitment in E1.
      apply rbind_ok in E1 as (e & F1 & E1). apply rbind_ok in E1 as (s & F2 & F3).
      exists (e :: es), (s :: ss). cbn [rmap map]. rewrite F1. cbn [rbind]. rewrite I1, F2. cbn [rbind]. rewrite I2. cbn [rbind].
      repeat split. rewrite I3. congruence. }
  unfold hash_commitments. rewrite E1. cbn [rbind]. rewrite (batch_one_by_one _ _ E2). now rewrite E3.
Qed.

Lemma hash_ok e P b : holds e P -> on_curve P -> to_bytes_uncompressed e = Ok b ->
  hash_commitment b = Ok (sc_ser (of_Z (q_int (ax P / ay P)))).
Proof.
  intros H HC E. destruct (uncompressed_rt e P H) as (b' & e' & E1 & _ & E2 & H').
  rewrite E1 in E. assert (b' = b) by congruence. subst b'. unfold hash_commitment. rewrite E2. cbn [rbind].
  now rewrite (scalar_ok e' P H' HC).
Qed.

Lemma hash_representative e1 e2 b1 b2 : curve_element e1 -> curve_element e2 -> element_eqb e1 e2 = true ->
  to_bytes_uncompressed e1 = Ok b1 -> to_bytes_uncompressed e2 = Ok b2 ->
  exists h, hash_commitment b1 = Ok h /\ hash_commitment b2 = Ok h.
Proof.
  intros (P1 & H1 & C1) (P2 & H2 & C2) E B1 B2.
  exists (sc_ser (of_Z (q_int (ax P1 / ay P1)))). split; [now apply (hash_ok e1)|].
  rewrite (hash_ok e2 P2 b2 H2 C2 B2). apply (eqb_theorem e1 e2 P1 P2 H1 H2 C1 C2) in E.
  apply (same_ratio_iff P1 P2 C1 C2) in E. do 4 f_equal.
  pose proof (curve_y_nz P1 C1). pose proof (curve_y_nz P2 C2).
  transitivity (ax P2 * ay P1 / (ay P1 * ay P2)); [field; now split|]. rewrite <- E. field. now split.
Qed.

Lemma hashes_ok es bs : Forall curve_element es -> rmap to_bytes_uncompressed es = Ok bs ->
  exists hs, rmap hash_commitment bs = Ok hs /\ hash_commitments bs = Ok hs /\ length hs = length es.
Proof.
  intros H. revert bs. assert (G : forall bs, rmap to_bytes_uncompressed es = Ok bs ->
    exists hs, rmap hash_commitment bs = Ok hs /\ length hs = length es).
  { induction H as [|e es (P & HP & HC) _ IH]; intros bs; cbn [rmap].
    - intros E. assert (bs = []) by congruence. subst. exists []. now split.
    - intros E. apply rbind_ok in E as (b & E1 & E). apply rbind_ok in E as (bs' & E2 & E3).
      destruct (IH bs' E2) as (hs & I1 & I2). inversion E3; subst bs; clear E3.
      cbn [rmap]. rewrite (hash_ok e P b HP HC E1). cbn [rbind]. rewrite I1. cbn [rbind].
      eexists. split; [reflexivity|]. cbn [length]. now rewrite I2. }
  intros bs E. destruct (G bs E) as (hs & E1 & E2). exists hs. split; [exact E1|]. split; [now apply hash_batch|exact E2].
Qed.

(** ** Generated points *)
Context {H : Hasher}.

Lemma candidates_S seed i k : candidates seed i (S k) =
  match try_reduce_to_element (sha256 (seed ++ Z_be 8 i)) with Ok (Some e) => [e] | _ => [] end ++
  candidates seed (i + 1)%Z k.
Proof.
  unfold candidates. cbn [seq flat_map]. rewrite Z.add_0_r. f_equal.
  rewrite <- seq_shift, flat_map_concat_map, flat_map_concat_map, map_map. f_equal. apply map_ext. intros j.
  now replace (i + Z.of_nat (S j))%Z with (i + 1 + Z.of_nat j)%Z by lia.
Qed.

Lemma generate_candidates seed fuel : forall i n l, generate_from fuel seed i n = Ok (Some l) ->
  length l = n /\ exists k, (k <= fuel)%nat /\ l = candidates seed i k.
Proof.
  induction fuel as [|fuel IH]; intros i n l; destruct n as [|n]; cbn [generate_from].
  - intros E. assert (l = []) by congruence. subst. split; [reflexivity|]. exists O. now split.
  - discriminate.
  - intros E. assert (l = []) by congruence. subst. split; [reflexivity|]. exists O. split; [lia|reflexivity].
  - intros E. unfold hash_to_x in E. apply rbind_ok in E as (o & E1 & E). destruct o as [e|].
    + apply rbind_ok in E as (r & E2 & E3). destruct r as [l'|]; cbn [option_map] in E3; [|discriminate].
      assert (l = e :: l') by congruence. subst l. destruct (IH _ _ _ E2) as (L & k & Lk & Ek).
      split; [cbn; now rewrite L|]. exists (S k). split; [lia|]. rewrite candidates_S, E1, Ek. reflexivity.
    + destruct (IH _ _ _ E) as (L & k & Lk & Ek). split; [exact L|]. exists (S k). split; [lia|].
      rewrite candidates_S, E1. exact Ek.
Qed.

Lemma generate_total seed fuel : forall i n, exists o, generate_from fuel seed i n = Ok o.
Proof.
  induction fuel as [|fuel IH]; intros i n; destruct n as [|n]; cbn [generate_from]; eauto.
  destruct (reduce_total (hash_to_x seed i)) as [o E]. rewrite E. cbn [rbind]. destruct o as [e|]; [|apply IH].
  destruct (IH (i + 1)%Z n) as [r E']. rewrite E'. cbn [rbind]. eauto.
Qed.

(** Enough tries find enough elements. *)
Lemma generate_enough seed fuel : forall i n, (n <= length (candidates seed i fuel))%nat ->
  generate_from fuel seed i n = Ok (Some (firstn n (candidates seed i fuel))).
Proof.
  induction fuel as [|fuel IH]; intros i n L; destruct n as [|n]; cbn [generate_from]; try reflexivity.
  - cbn in L. lia.
  - unfold hash_to_x. rewrite candidates_S in L |- *.
    destruct (reduce_total (sha256 (seed ++ Z_be 8 i))) as [o E]. rewrite E in L |- *. cbn [rbind].
    destruct o as [e|]; cbn [app] in L |- *.
    + rewrite IH by (cbn in L; lia). cbn [rbind option_map firstn]. reflexivity.
    + apply IH. exact L.
Qed.

Lemma candidates_app seed i k m : candidates seed i (k + m) = candidates seed i k ++ candidates seed (i + Z.of_nat k)%Z m.
Proof.
  revert i. induction k as [|k IH]; intros i.
  - cbn [Nat.add]. rewrite Z.add_0_r. reflexivity.
  - cbn [Nat.add]. rewrite !candidates_S, IH, app_assoc. do 2 f_equal. lia.
Qed.

Lemma candidates_valid seed i k : Forall group_element (candidates seed i k).
Proof.
  revert i. induction k as [|k IH]; intros i; [constructor|]. rewrite candidates_S. apply Forall_app. split; [|apply IH].
  destruct (try_reduce_to_element _) as [[e|]|] eqn:E; constructor; [|constructor]. now apply (reduce_valid _ e) in E.
Qed.

Lemma group_curve e : group_element e -> curve_element e.
Proof. intros (P & H0 & H1 & _). now exists P. Qed.

Lemma dedup_pairs seen es : Forall curve_element es ->
  (assert_dedup_from seen es = Ok tt <->
   exists bs, rmap to_bytes es = Ok bs /\ NoDup bs /\ (forall b, In b bs -> ~ In b seen)).
Proof.
  intros F. revert seen. induction F as [|e es (P & HP & HC) _ IH]; intros seen; cbn [assert_dedup_from rmap].
  - split; [|reflexivity]. intros _. exists []. repeat split; [constructor|contradiction].
  - rewrite (to_bytes_ok e P HP). cbn [rbind]. set (b := rev (fq_ser (ax (canon P)))).
    destruct (existsb (beqb b) seen) eqn:X; cbn [negb assertb rbind].
    + split; [discriminate|]. intros (bs & E & ND & D). exfalso.
      apply rbind_ok in E as (bs' & E & E'). inversion E'; subst bs; clear E'.
      apply existsb_exists in X as (b' & I & E''). apply beqb_eq in E''. subst b'. apply (D b); [now left|exact I].
    + rewrite IH. assert (NI : ~ In b seen).
      { intros I. assert (existsb (beqb b) seen = true) as T; [|congruence].
        apply existsb_exists. exists b. split; [exact I|apply beqb_refl]. }
      split.
      * intros (bs & E & ND & D). exists (b :: bs). rewrite E. cbn [rbind]. split; [reflexivity|]. split.
        -- constructor; [|exact ND]. intros I. apply (D b I). now left.
        -- intros b' [<-|I] I'; [contradiction|]. apply (D b' I). right. exact I'.
      * intros (bs & E & ND & D). apply rbind_ok in E as (bs' & E & E'). inversion E'; subst bs; clear E'.
        exists bs'. inversion ND; subst. repeat split; [exact E|assumption|].
        intros b' I [<-|I']; [contradiction|]. apply (D b'); [now right|exact I'].
Qed.

Lemma rmap_nth {X Y} (f : X -> res Y) l l' : rmap f l = Ok l' ->
  forall i x, nth_error l i = Some x -> exists y, f x = Ok y /\ nth_error l' i = Some y.
Proof.
  revert l'. induction l as [|x l IH]; intros l'; cbn [rmap].
  - intros _ [|i] y; discriminate.
  - intros E. apply rbind_ok in E as (y & E1 & E). apply rbind_ok in E as (ys & E2 & E3).
    assert (l' = y :: ys) by congruence. subst l'.
    intros [|i] z; cbn [nth_error]; [|now apply IH]. intros E. exists y. split; congruence.
Qed.

Lemma rmap_bytes_ok es : Forall curve_element es -> exists bs, rmap to_bytes es = Ok bs /\ length bs = length es.
Proof.
  intros F. induction F as [|e es (P & HP & HC) _ (bs & IH & L)]; cbn [rmap]; [now exists []|].
  rewrite (to_bytes_ok e P HP). cbn [rbind]. rewrite IH. cbn [rbind]. eexists. split; [reflexivity|]. cbn. now rewrite L.
Qed.

Lemma bytes_different es bs : Forall curve_element es -> rmap to_bytes es = Ok bs -> length bs = length es ->
  (NoDup bs <-> all_different es).
Proof.
  intros F E L. rewrite NoDup_nth_error. unfold all_different.
  rewrite Forall_forall in F.
  assert (K : forall i j e1 e2, nth_error es i = Some e1 -> nth_error es j = Some e2 ->
    (element_eqb e1 e2 = true <-> nth_error bs i = nth_error bs j)).
  { intros i j e1 e2 N1 N2. destruct (rmap_nth _ _ _ E i e1 N1) as (b1 & T1 & B1).
    destruct (rmap_nth _ _ _ E j e2 N2) as (b2 & T2 & B2).
    destruct (eq_iff_bytes e1 e2) as (c1 & c2 & U1 & U2 & _ & _ & I).
    - apply F. now apply nth_error_In in N1.
    - apply F. now apply nth_error_In in N2.
    - rewrite I, B1, B2. split; intros; congruence. }
  split.
  - intros ND i j e1 e2 NE N1 N2. apply not_true_is_false. intros T. apply NE.
    apply ND; [|now apply (K i j e1 e2)]. rewrite L. apply nth_error_Some. congruence.
  - intros D i j Li Eij. destruct (Nat.eq_dec i j) as [|NE]; [assumption|exfalso].
    assert (Li' : (i < length es)%nat) by (rewrite <- L; exact Li).
    assert (Lj : (j < length es)%nat).
    { rewrite <- L. apply nth_error_Some. rewrite <- Eij. apply nth_error_Some. exact Li. }
    apply nth_error_Some in Li'; apply nth_error_Some in Lj.
    destruct (nth_error es i) as [e1|] eqn:N1; [|congruence]. destruct (nth_error es j) as [e2|] eqn:N2; [|congruence].
    pose proof (D i j e1 e2 NE N1 N2) as X. rewrite (proj2 (K i j e1 e2 N1 N2) Eij) in X. discriminate.
Qed.

Lemma crs_result fuel n seed Gs : crs_new fuel n seed = Ok (Some Gs) ->
  length Gs = n /\ Forall group_element Gs /\ all_different Gs /\ exists k, Gs = candidates seed 0 k.
Proof.
  unfold crs_new. intros E. apply rbind_ok in E as (o & E1 & E). destruct o as [l|]; [|discriminate].
  apply rbind_ok in E as ([] & E2 & E3). assert (l = Gs) by congruence. subst l.
  destruct (generate_candidates _ _ _ _ _ E1) as (L & k & _ & Ek).
  assert (V : Forall group_element Gs) by (rewrite Ek; apply candidates_valid).
  assert (V' : Forall curve_element Gs) by (eapply Forall_impl; [|exact V]; exact group_curve).
  split; [exact L|]. split; [exact V|]. split; [|now exists k].
  apply (dedup_pairs [] Gs V') in E2 as (bs & Eb & ND & _).
  destruct (rmap_bytes_ok Gs V') as (bs' & Eb' & Lb). assert (bs' = bs) by congruence. subst bs'.
  now apply (bytes_different Gs bs V' Eb Lb).
Qed.

Lemma candidates_firstn seed i n m k k' : length (candidates seed i k) = n -> length (candidates seed i k') = m ->
  (m <= n)%nat -> candidates seed i k' = firstn m (candidates seed i k).
Proof.
  intros Ln Lm L. destruct (Nat.le_ge_cases k' k) as [K|K].
  - replace k with (k' + (k - k'))%nat by lia. rewrite candidates_app. now rewrite firstn_app_exact.
  - replace k' with (k + (k' - k))%nat in Lm |- * by lia. rewrite candidates_app in Lm |- *. rewrite app_length in Lm.
    destruct (candidates seed (i + Z.of_nat k)%Z (k' - k)) eqn:E; [|cbn in Lm; lia].
    rewrite app_nil_r. rewrite firstn_all2; [reflexivity|lia].
Qed.

Lemma crs_prefix fuel fuel' n m seed Gs Gs' : crs_new fuel n seed = Ok (Some Gs) ->
  crs_new fuel' m seed = Ok (Some Gs') -> (m <= n)%nat -> Gs' = firstn m Gs.
Proof.
  intros E E' L. apply crs_result in E as (Ln & _ & _ & k & ->). apply crs_result in E' as (Lm & _ & _ & k' & ->).
  now apply (candidates_firstn seed 0 n m).
Qed.

(** It stops unless two of the points it found are equal, or the hashes run out of points. *)
Lemma crs_stops fuel n seed : 
  let found := candidates seed 0 fuel in
  (n <= length found)%nat -> 
  (all_different (firstn n found) -> crs_new fuel n seed = Ok (Some (firstn n found))) /\
  (~ all_different (firstn n found) -> crs_new fuel n seed = Panic).
Proof.
  intros found L. unfold crs_new. rewrite generate_enough by exact L. cbn [rbind]. fold found.
  assert (V : Forall curve_element (firstn n found)).
  { assert (W : Forall curve_element found) by (eapply Forall_impl; [exact group_curve|apply candidates_valid]).
    rewrite <- (firstn_skipn n found) in W. now apply Forall_app in W. }
  destruct (rmap_bytes_ok _ V) as (bs & Eb & Lb). pose proof (bytes_different _ bs V Eb Lb) as BD.
  pose proof (dedup_pairs [] _ V) as DP.
  destruct (assert_dedup_from [] (firstn n found)) as [[]|] eqn:E; cbn [rbind]; split; intros D; try reflexivity; exfalso.
  - apply D, BD. destruct (proj1 DP eq_refl) as (bs' & Eb' & ND & _). assert (bs' = bs) by congruence. now subst.
  - assert (@Panic unit = Ok tt); [|discriminate]. apply DP. exists bs. split; [exact Eb|]. split; [now apply BD|]. intros b _ [].
Qed.
End Facts.
