(** The curve of banderwagon itself: -5 x^2 + y^2 = 1 + d x^2 y^2 over the integers modulo q, with the
    integers modulo r as its scalars (ark-ed-on-bls12-381-bandersnatch, of which banderwagon/src/lib.rs:7-11
    takes the types; the numbers are those of the Bandersnatch paper, section 3.1).  All that the other
    files assume of the curve is proved of it here. *)
From Coq Require Import Field Znumtheory.
From Verif Require Import Base BaseFacts Alg AlgInst Primality Moduli MsmModel ElementModel ElementSpec ElementProofs ElementInst
  CurveModel CurveSpec CurveProofs CurveAlg CurveRep CurveCount CurveOrder OrderCert.
Local Open Scope Z_scope.

Definition bander_q : Z := 52435875175126190479447740508185965837690552500527637822603658699938581184513.
Definition bander_r : Z := 13108968793781547619861935127046491459309155893440570251786403306729687672801.
Definition bander_a : Z := -5.
Definition bander_d : Z := 45022363124591815672509500913686876175488063829319466900776701791074614335719.

(** The order as a natural number, sealed since it is written in unary. *)
Lemma order_nat : { n : nat | Z.of_nat n = bander_r }.
Proof. exists (Z.to_nat bander_r). apply Z2Nat.id. apply Z.leb_le. vm_compute. reflexivity. Qed.
Definition bander_order : nat := proj1_sig order_nat.
Lemma bander_order_is : Z.of_nat bander_order = bander_r.
Proof. exact (proj2_sig order_nat). Qed.
Lemma bander_order_nat : bander_order = Z.to_nat bander_r.
Proof. rewrite <- bander_order_is. symmetry. apply Nat2Z.id. Qed.

Definition Bander : BaseField := zp_base bander_q bander_a bander_d bander_order.

Lemma q_prime : prime bander_q. Proof. exact prime_q. Qed.
Lemma r_prime : prime bander_r. Proof. exact prime_r. Qed.

(** 7 is not a square modulo q, nor is 7 times a square other than 0. *)
Lemma seven : (7 ^ 26217937587563095239723870254092982918845276250263818911301829349969290592256) mod bander_q = bander_q - 1.
Proof. transitivity (52435875175126190479447740508185965837690552500527637822603658699938581184512 mod 52435875175126190479447740508185965837690552500527637822603658699938581184513); [exact Fq_3|vm_compute; reflexivity]. Qed.
Lemma seven_times s v : (v - 7 * (s * s)) mod bander_q = 0 -> (v mod bander_q =? 0) = false ->
  forall y, (y * y) mod bander_q <> v mod bander_q.
Proof.
  intros E N y K. assert (Nz : bander_q <> 0) by discriminate.
  apply Z.mod_divide in E as [k Ek]; [|exact Nz].
  assert (E2 : v mod bander_q = (7 * (s * s)) mod bander_q).
  { replace v with (7 * (s * s) + k * bander_q) by (rewrite <- Ek; ring). apply Z_mod_plus_full. }
  revert K. rewrite E2. apply (nonresidue bander_q q_prime 7 26217937587563095239723870254092982918845276250263818911301829349969290592256).
  - vm_compute. reflexivity.
  - exact (Pos2Z.is_pos _).
  - exact seven.
  - vm_compute. reflexivity.
  - intro D. apply Z.eqb_neq in N. apply N. rewrite E2. apply Z.mod_divide; [exact Nz|].
    apply Z.divide_mul_r. now apply Z.divide_mul_l.
Qed.
Lemma a_nonsquare : forall y, (y * y) mod bander_q <> bander_a mod bander_q.
Proof. apply (seven_times 34485427444730895301648745051757422849420850377503200697023777489160692320984); vm_compute; reflexivity. Qed.
Lemma d_nonsquare : forall y, (y * y) mod bander_q <> bander_d mod bander_q.
Proof. apply (seven_times 24999553341519259243468556009775798563017184145994539914331858186893448958463); vm_compute; reflexivity. Qed.

Lemma bander_odd : Nat.odd bander_order = true.
Proof.
  destruct (Nat.odd bander_order) eqn:E; [reflexivity|exfalso].
  assert (E2 : Nat.even bander_order = true) by (rewrite <- Nat.negb_odd, E; reflexivity).
  apply Nat.even_spec in E2 as [k Hk]. pose proof bander_order_is as O. rewrite Hk, Nat2Z.inj_mul in O.
  apply (f_equal Z.odd) in O. rewrite Z.odd_mul in O. discriminate O.
Qed.
Lemma q_bounds : 2 < bander_q <= 2 ^ 256.
Proof. split; [vm_compute; reflexivity|apply Z.leb_le; vm_compute; reflexivity]. Qed.
Lemma bander_laws : BaseFieldLaws Bander.
Proof. exact (zp_base_laws bander_q q_prime bander_a bander_d bander_order q_bounds a_nonsquare d_nonsquare bander_odd). Qed.
Lemma bander_root : RootOfMinusOne Bander.
Proof.
  constructor. exists (zred bander_q 3465144826073652318776269530687742778270252468765361963008).
  apply (zp_eq bander_q). vm_compute. reflexivity.
Qed.

(** (1, y), a point of order r. *)
Definition base_y : Z := 29444372158152439327021315519158409074387678020310801243647405691648150455777.
Local Notation bpt := (pt bander_q bander_a bander_d bander_order).
Lemma base_valid : @valid_point Bander (bpt 1 base_y).
Proof.
  apply (valid_sound bander_q q_prime bander_a bander_d bander_order 1 base_y 24634843338652267260037055835809101974238653260872134897944062262836035640448 0 16533929278232860410227898106442760785418974712182538646985697217070454130231 0 (-13789469759623060016736224656397795737824572368278367060083632167320075076098)).
  vm_compute. reflexivity.
Qed.
Lemma base_order : @edwards_multiple Bander bander_order (bpt 1 base_y) = @mkAff Bander (@qzero Bander) (@qone Bander).
Proof.
  assert (S : forall l cur c, chain bander_q bander_a bander_d 1 base_y cur l = Some c ->
    at_multiple bander_q bander_a bander_d bander_order (bpt 1 base_y) cur -> at_multiple bander_q bander_a bander_d bander_order (bpt 1 base_y) c).
  { intros l cur c E H. exact (@chain_sound bander_q q_prime bander_a bander_d bander_order bander_laws bander_root 1 base_y l cur c base_valid H E). }
  assert (H0 : at_multiple bander_q bander_a bander_d bander_order (bpt 1 base_y) (1, 1, base_y)).
  { split; [apply Z.leb_le; reflexivity|]. exact (@multiple_1 Bander bander_laws (bpt 1 base_y)). }
  apply (S _ _ _ chain_0) in H0.
  apply (S _ _ _ chain_1) in H0.
  apply (S _ _ _ chain_2) in H0.
  apply (S _ _ _ chain_3) in H0.
  apply (S _ _ _ chain_4) in H0.
  apply (S _ _ _ chain_5) in H0.
  apply (S _ _ _ chain_6) in H0.
  apply (S _ _ _ chain_7) in H0.
  apply (S _ _ _ chain_8) in H0.
  apply (S _ _ _ chain_9) in H0.
  apply (S _ _ _ chain_10) in H0.
  apply (S _ _ _ chain_11) in H0.
  apply (S _ _ _ chain_12) in H0.
  apply (S _ _ _ chain_13) in H0.
  apply (S _ _ _ chain_14) in H0.
  apply (S _ _ _ chain_15) in H0.
  apply (S _ _ _ chain_16) in H0.
  exact (eq_trans (f_equal (fun n => @edwards_multiple Bander n (bpt 1 base_y)) bander_order_nat) (proj2 H0)).
Qed.
Lemma order_prime : prime (Z.of_nat (@q_order Bander)).
Proof. change (prime (Z.of_nat bander_order)). rewrite bander_order_is. exact r_prime. Qed.
Lemma base_nz : bpt 1 base_y <> @mkAff Bander (@qzero Bander) (@qone Bander).
Proof. intro E. apply (f_equal (@ax Bander)) in E. apply (f_equal (zval bander_q)) in E. vm_compute in E. discriminate E. Qed.
Lemma few_points : @q_modulus Bander + 2 < 6 * Z.of_nat (@q_order Bander).
Proof. change (bander_q + 2 < 6 * Z.of_nat bander_order). rewrite bander_order_is. vm_compute. reflexivity. Qed.
Lemma bander_curve : CurveLaws Bander.
Proof. exact (@order_from_one Bander bander_laws bander_root (bpt 1 base_y) order_prime base_valid base_nz base_order few_points). Qed.
(** Every element is a multiple of any point of prime order other than (0, 1), and of one number below r. *)
Lemma bander_spanned g P : @valid_point Bander g -> @prime_order Bander g -> g <> @mkAff Bander (@qzero Bander) (@qone Bander) ->
  @valid_point Bander P -> exists i, @same_element Bander P (@edwards_multiple Bander i g).
Proof. intros Hg Og Ng. exact (@spanned Bander bander_laws bander_root g order_prime Hg Ng Og few_points P). Qed.
Lemma bander_once g i j : @valid_point Bander g -> @prime_order Bander g -> g <> @mkAff Bander (@qzero Bander) (@qone Bander) ->
  (i < bander_order)%nat -> (j < bander_order)%nat ->
  @same_element Bander (@edwards_multiple Bander i g) (@edwards_multiple Bander j g) -> i = j.
Proof. intros Hg Og Ng. exact (@spanned_once Bander bander_laws bander_root g order_prime Hg Ng Og few_points i j). Qed.

(** The scalars. *)
Definition BanderF : Alg := zp_alg bander_r.
Definition BanderF_laws : AlgLaws BanderF := zp_laws bander_r r_prime.
Definition BanderI : FrInt BanderF := (zval bander_r : @F BanderF -> Z).
Lemma bander_scalars : ScalarLaws Bander BanderF BanderI.
Proof.
  constructor.
  - intros x. exact (zred_val bander_r r_prime x).
  - intros x. change (0 <= zval bander_r x < Z.of_nat bander_order). rewrite bander_order_is. exact (zval_range bander_r r_prime x).
  - intros z. change (zred bander_r z = zred bander_r 0 <-> (Z.of_nat bander_order | z)). rewrite bander_order_is. split.
    + intros E. apply (f_equal (zval bander_r)) in E. rewrite !zval_red in E. apply Z.mod_divide; [discriminate|exact E].
    + intros D. apply zred_eq. rewrite (proj2 (Z.mod_divide z bander_r ltac:(discriminate)) D). reflexivity.
  - change (Z.of_nat bander_order <= 2 ^ 253). rewrite bander_order_is. apply Z.leb_le. vm_compute. reflexivity.
Qed.
Lemma bander_big : 2 ^ 240 < Z.of_nat (@q_order Bander).
Proof. change (2 ^ 240 < Z.of_nat bander_order). rewrite bander_order_is. vm_compute. reflexivity. Qed.
