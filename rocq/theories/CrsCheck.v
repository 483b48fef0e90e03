(** A certificate for a generator: coordinates, whether it is not of prime order, and witnesses. *)
From Coq Require Import Field Znumtheory.
From Verif Require Import Base BaseFacts Alg AlgInst Primality ElementModel ElementSpec ElementProofs ElementInst
  CurveModel CurveSpec CurveProofs CurveRep CurveCount CurveOrder Bander.
Local Open Scope Z_scope.

(** A square root of a / d. *)
Definition root_ad : Z := 14989411347484419663140498193005880785086916883037474254598401919095177670477.
Record Cert := mkCert { cx : Z; cy : Z; ctwisted : bool; cw : Z; cs : Z; ck1 : Z; ck2 : Z; ck3 : Z; ck4 : Z; ck5 : Z; ck6 : Z }.
(** The curve equation; w^2 = 1 - a x^2; and s^2 = (1 - y) (c - y), or the same for -y. *)
Definition cert_ok (t : Cert) : bool :=
  let x := cx t in let y := cy t in let XX := x * x in
  let X := XX - ck1 t * bander_q in let Y := y * y - ck2 t * bander_q in
  let y' := if ctwisted t then y else - y in
  (bander_a * X + Y - 1 - bander_d * (X * Y - ck3 t * bander_q) =? ck4 t * bander_q) &&
  (cw t * cw t - (1 - bander_a * XX) =? ck5 t * bander_q) &&
  (cs t * cs t - (1 - y') * (root_ad - y') =? ck6 t * bander_q) && (0 <? cs t) && (cs t <? bander_q) &&
  (0 <=? x) && (x <? bander_q) && (0 <=? y) && (y <? bander_q).

Local Notation bpt := (pt bander_q bander_a bander_d bander_order).
Local Notation red := (zred bander_q).
Lemma root_ad_ok : @qmul Bander (@coeff_d Bander) (@qmul Bander (red root_ad) (red root_ad)) = @coeff_a Bander.
Proof. apply (zp_eq bander_q). vm_compute. reflexivity. Qed.
(** 2 d (1 + c) is 7 times a square. *)
Definition root_gamma : Z := 14998651093380024192835169115787917985561234278809025212953403780270070694542.
Lemma gamma_seven : (2 * bander_d * (1 + root_ad) - 7 * (root_gamma * root_gamma)) mod bander_q = 0.
Proof. vm_compute. reflexivity. Qed.
Lemma gamma_divide s : 0 < s < bander_q -> ~ (bander_q | root_gamma * s).
Proof.
  intros Hs D. apply prime_mult in D as [D|D]; [| |exact q_prime].
  - apply Z.mod_divide in D; [|discriminate]. vm_compute in D. discriminate D.
  - apply Z.mod_divide in D; [|discriminate]. rewrite Z.mod_small in D by (split; [apply Z.lt_le_incl|]; apply Hs). rewrite D in Hs. now destruct Hs.
Qed.
Lemma no_square x y s k : 0 < s < bander_q -> s * s - (1 - y) * (root_ad - y) = k * bander_q ->
  ~ @square Bander (@order_value Bander (red root_ad) (bpt x y)).
Proof.
  intros Hs E [v Hv]. apply (f_equal (zval bander_q)) in Hv.
  assert (EV : @order_value Bander (red root_ad) (bpt x y) = red (2 * bander_d * (1 + root_ad) * ((1 - y) * (root_ad - y)))).
  { unfold order_value, pt. cbn [ay]. change (@qone Bander) with (red 1). change (@coeff_d Bander) with (red bander_d).
    unfold Bander. now rewrite ?red_add, ?red_sub, ?red_mul by exact q_prime. }
  rewrite EV in Hv. change ((zval bander_q v * zval bander_q v) mod bander_q = (2 * bander_d * (1 + root_ad) * ((1 - y) * (root_ad - y))) mod bander_q) in Hv.
  revert Hv. assert (G : exists j, 2 * bander_d * (1 + root_ad) = 7 * (root_gamma * root_gamma) + j * bander_q).
  { pose proof gamma_seven as G. apply Z.mod_divide in G as [j Hj]; [|discriminate]. exists j. rewrite <- Hj. ring. }
  destruct G as [j Gj]. apply (seven_times (root_gamma * s)).
  - rewrite Gj. apply Z.mod_divide; [discriminate|]. exists (j * ((1 - y) * (root_ad - y)) - 7 * (root_gamma * root_gamma) * k).
    replace ((1 - y) * (root_ad - y)) with (s * s - k * bander_q) by (rewrite <- E; ring). ring.
  - apply Z.eqb_neq. intro Z0. apply Z.mod_divide in Z0; [|discriminate]. apply (gamma_divide s Hs).
    assert (D : (bander_q | 7 * ((root_gamma * s) * (root_gamma * s)))).
    { rewrite Gj in Z0. destruct Z0 as [m Hm]. exists (m - j * ((1 - y) * (root_ad - y)) + 7 * (root_gamma * root_gamma) * k).
      rewrite Z.mul_add_distr_r, Z.mul_sub_distr_r, <- Hm.
      replace (s * s) with ((1 - y) * (root_ad - y) + k * bander_q) by (rewrite <- E; ring). 
      replace (7 * (root_gamma * s * (root_gamma * s))) with (7 * (root_gamma * root_gamma) * (s * s)) by ring.
      replace (s * s) with ((1 - y) * (root_ad - y) + k * bander_q) by (rewrite <- E; ring). ring. }
    apply prime_mult in D as [D|D]; [| |exact q_prime].
    + apply Z.mod_divide in D; [|discriminate]. vm_compute in D. discriminate D.
    + apply prime_mult in D as [D|D]; [exact D|exact D|exact q_prime].
Qed.
Theorem cert_sound t : cert_ok t = true ->
  @valid_point Bander (bpt (cx t) (cy t)) /\ (@prime_order Bander (bpt (cx t) (cy t)) <-> ctwisted t = false) /\
  0 <= cx t < bander_q /\ 0 <= cy t < bander_q.
Proof.
  intro H. unfold cert_ok in H. cbv zeta in H. repeat (apply andb_true_iff in H as [H ?]).
  repeat match goal with X : (_ <=? _) = true |- _ => apply Z.leb_le in X | X : (_ <? _) = true |- _ => apply Z.ltb_lt in X | X : (_ =? _) = true |- _ => apply Z.eqb_eq in X end.
  set (x := cx t) in *. set (y := cy t) in *.
  assert (V : @valid_point Bander (bpt x y)).
  { apply (valid_sound bander_q q_prime bander_a bander_d bander_order x y (cw t) (ck1 t) (ck2 t) (ck3 t) (ck4 t)).
    unfold valid_ok. cbv zeta. apply andb_true_iff. split; [now apply Z.eqb_eq|]. apply Z.eqb_eq. apply Z.mod_divide; [discriminate|]. eexists. eassumption. }
  split; [exact V|]. split; [|split; split; assumption]. destruct (ctwisted t).
  - split; [|discriminate]. intro O. exfalso. revert O.
    apply (@not_prime_order Bander bander_laws bander_curve (red root_ad) root_ad_ok (bpt x y) V).
    apply (no_square x y (cs t) (ck6 t)); [split; assumption|assumption].
  - split; [reflexivity|]. intros _. apply (@is_prime_order Bander bander_laws bander_curve (red root_ad) root_ad_ok (bpt x y) V).
    assert (EN : @negated Bander (bpt x y) = bpt (- x) (- y)).
    { unfold negated, pt. cbn [ax ay]. unfold Bander. now rewrite !red_opp by exact q_prime. }
    rewrite EN. apply (no_square (- x) (- y) (cs t) (ck6 t)); [split; assumption|assumption].
Qed.
