(** A lawful base field with curve coefficients, over any prime field in which they are not squares,
    and a small curve for examples: 2 x^2 + y^2 = 1 + 11 x^2 y^2 over the integers modulo 13, where the
    elements form a group of order 5. *)
From Coq Require Import Znumtheory Field.
From Verif Require Import Base BaseFacts Alg AlgInst WireModel WireInst ProofModel IpaModel IpaInst ElementModel ElementSpec ElementProofs.

Section ZpBase.
Variable p : Z.
Hypothesis Hp : prime p.
Variables a d : Z.
Variable r : nat.

Definition zroots (x : zp p) : list (zp p) :=
  filter (fun y => (zval p y * zval p y) mod p =? zval p x) (map (fun k => zred p (Z.of_nat k)) (seq 0 (Z.to_nat p))).

Definition zp_base : BaseField := {|
  Fq := zp p; qzero := zred p 0; qone := zred p 1;
  qadd x y := zred p (zval p x + zval p y); qmul x y := zred p (zval p x * zval p y);
  qsub x y := zred p (zval p x - zval p y); qopp x := zred p (- zval p x);
  qdiv x y := zred p (zval p x * zval p (zinv p y)); qinv := zinv p;
  qeqb x y := zval p x =? zval p y;
  q_modulus := p; q_int := zval p; q_of := zred p;
  q_sqrt x := hd_error (zroots x);
  q_is_qr x := negb (zval p x =? 0) && negb (length (zroots x) =? 0)%nat;
  coeff_a := zred p a; coeff_d := zred p d;
  q_order := r
|}.

Lemma zroots_spec x y : In y (zroots x) <-> zred p (zval p y * zval p y) = x.
Proof.
  unfold zroots. rewrite filter_In, in_map_iff. split.
  - intros [_ E]. apply Z.eqb_eq in E. apply zp_eq. exact E.
  - intros <-. split; [|apply Z.eqb_eq; reflexivity].
    exists (Z.to_nat (zval p y)). pose proof (zval_range p Hp y). split.
    + rewrite Z2Nat.id by lia. apply (zred_val p Hp).
    + apply in_seq. lia.
Qed.

Lemma zp_base_laws : 2 < p <= 2 ^ 256 -> (forall y, (y * y) mod p <> a mod p) -> (forall y, (y * y) mod p <> d mod p) ->
  Nat.odd r = true -> BaseFieldLaws zp_base.
Proof.
  intros Hr Ha Hd Ho. constructor; cbn [zp_base Fq qzero qone qadd qmul qsub qopp qdiv qinv qeqb q_modulus q_int q_of q_sqrt q_is_qr coeff_a coeff_d q_order].
  - exact (zp_field p Hp).
  - apply (zeqb_ok p).
  - intros E. apply (f_equal (zval p)) in E. rewrite !zval_red in E. rewrite !Z.mod_small in E by (rewrite ?Z.mod_small; lia). lia.
  - lia.
  - apply (zred_val p Hp).
  - reflexivity.
  - reflexivity.
  - intros x y E. apply zroots_spec. destruct (zroots x); [discriminate|]. left. now injection E.
  - intros x E y Hy. apply zroots_spec in Hy. destruct (zroots x); [contradiction|discriminate].
  - intros x. rewrite andb_true_iff, !negb_true_iff, Z.eqb_neq, Nat.eqb_neq. split.
    + intros [H1 H2]. split.
      * intros ->. apply H1. apply Z.mod_small. lia.
      * destruct (zroots x) as [|y l] eqn:E; [now elim H2|]. exists y. apply zroots_spec. rewrite E. now left.
    + intros [H1 [y Hy]]. split.
      * intros E. apply H1. apply zp_eq. rewrite E. symmetry. apply Z.mod_small. lia.
      * apply zroots_spec in Hy. destruct (zroots x); [contradiction|discriminate].
  - intros y E. apply (Ha (zval p y)). now apply (f_equal (zval p)) in E.
  - intros y E. apply (Hd (zval p y)). now apply (f_equal (zval p)) in E.
  - exact Ho.
Qed.
End ZpBase.

Lemma p13_prime : prime 13.
Proof. apply (prime_by_trial 13 3); reflexivity. Qed.

Definition nonsquare_mod (p a : Z) : bool :=
  forallb (fun k => negb ((Z.of_nat k * Z.of_nat k) mod p =? a mod p)) (seq 0 (Z.to_nat p)).
Lemma nonsquare_mod_ok p a : 0 < p -> nonsquare_mod p a = true -> forall y, (y * y) mod p <> a mod p.
Proof.
  intros Hp H y. unfold nonsquare_mod in H. rewrite forallb_forall in H.
  specialize (H (Z.to_nat (y mod p))). pose proof (Z.mod_pos_bound y p Hp).
  rewrite Z2Nat.id in H by lia. rewrite <- Z.mul_mod in H by lia. intros E. rewrite E, Z.eqb_refl in H.
  discriminate H. apply in_seq. lia.
Qed.

Definition B13 : BaseField := zp_base 13 2 11 5.
Lemma B13_laws : BaseFieldLaws B13.
Proof. apply (zp_base_laws 13 p13_prime 2 11 5); [lia| | |reflexivity]; apply nonsquare_mod_ok; reflexivity. Qed.

Definition pt13 (x y : Z) : @Affine B13 := @mkAff B13 (zred 13 x) (zred 13 y).
Definition el13 (x y t z : Z) : @Element B13 := @mkEl B13 (zred 13 x) (zred 13 y) (zred 13 t) (zred 13 z).

Ltac z13 := repeat split; try (apply (zp_eq 13); reflexivity); try (intros E; apply (f_equal (zval 13)) in E; discriminate E).

(** (5, 6), held with z = 3, and (8, 7), the other representative; (8, 5) is another element. *)
Definition el_a : @Element B13 := el13 2 5 12 3.
Definition el_b : @Element B13 := el13 8 7 4 1.
Definition el_c : @Element B13 := el13 1 11 11 1.

Lemma el_a_holds : @holds B13 el_a (pt13 5 6). Proof. z13. Qed.
Lemma el_b_holds : @holds B13 el_b (pt13 8 7). Proof. z13. Qed.
Lemma el_c_holds : @holds B13 el_c (pt13 1 11). Proof. z13. Qed.
Lemma pt_negated : pt13 8 7 = @negated B13 (pt13 5 6).
Proof. apply (@aff_eq B13); apply (zp_eq 13); reflexivity. Qed.
Lemma pt_a_ok : @on_curve B13 (pt13 5 6) /\ @in_subgroup B13 (pt13 5 6) /\ @prime_order B13 (pt13 5 6).
Proof.
  split; [apply (zp_eq 13); reflexivity|]. split.
  - exists (zred 13 4). apply (zp_eq 13). reflexivity.
  - apply (@aff_eq B13); apply (zp_eq 13); reflexivity.
Qed.
Lemma pt_b_ok : @on_curve B13 (pt13 8 7) /\ @in_subgroup B13 (pt13 8 7).
Proof.
  split; [apply (zp_eq 13); reflexivity|].
  exists (zred 13 4). apply (zp_eq 13). reflexivity.
Qed.
Lemma pt_c_ok : @on_curve B13 (pt13 1 11) /\ @in_subgroup B13 (pt13 1 11).
Proof.
  split; [apply (zp_eq 13); reflexivity|].
  exists (zred 13 5). apply (zp_eq 13). reflexivity.
Qed.
Lemma el_a_group : @group_element B13 el_a.
Proof. exists (pt13 5 6). split; [exact el_a_holds|]. destruct pt_a_ok as (H1 & H2 & _). now split. Qed.
Lemma el_b_group : @group_element B13 el_b.
Proof. exists (pt13 8 7). split; [exact el_b_holds|exact pt_b_ok]. Qed.
Lemma el_c_group : @group_element B13 el_c.
Proof. exists (pt13 1 11). split; [exact el_c_holds|exact pt_c_ok]. Qed.

Lemma el_case : @group_element B13 el_a /\ @group_element B13 el_b /\ @group_element B13 el_c /\
  @element_eqb B13 el_a el_b = true /\ @element_eqb B13 el_a el_c = false /\
  @to_bytes B13 el_a = @to_bytes B13 el_b /\ @to_bytes B13 el_a <> @to_bytes B13 el_c /\
  @to_bytes_uncompressed B13 el_a <> @to_bytes_uncompressed B13 el_b /\
  @to_bytes B13 el_a = Ok (repeat 0 31 ++ [8]) /\
  exists e, @from_bytes B13 (repeat 0 31 ++ [8]) = Ok (Some e) /\ @element_eqb B13 e el_a = true.
Proof.
  split; [exact el_a_group|]. split; [exact el_b_group|]. split; [exact el_c_group|].
  split; [reflexivity|]. split; [reflexivity|]. split; [reflexivity|]. split; [discriminate|]. split; [discriminate|].
  assert (E : @to_bytes B13 el_a = Ok (repeat 0 31 ++ [8])) by reflexivity. split; [exact E|].
  destruct (@from_bytes_to_bytes B13 B13_laws el_a el_a_group) as (b & e' & E1 & E2 & E3 & _).
  rewrite E in E1. assert (X : repeat 0 31 ++ [8] = b) by congruence. rewrite <- X in E2. exists e'. now split.
Qed.

(** (4, 4) is on the curve and outside the subgroup. *)
Lemma el_outside_case : exists e P b, @holds B13 e P /\ @on_curve B13 P /\ ~ @in_subgroup B13 P /\
  @to_bytes B13 e = Ok b /\ @from_bytes B13 b = Ok None.
Proof.
  exists (el13 4 4 3 1), (pt13 4 4).
  assert (H : @holds B13 (el13 4 4 3 1) (pt13 4 4)) by z13.
  assert (C : @on_curve B13 (pt13 4 4)) by (apply (zp_eq 13); reflexivity).
  assert (S : ~ @in_subgroup B13 (pt13 4 4)).
  { intros [w E]. apply (f_equal (zval 13)) in E. cbn in E. change (_ mod 13) with ((zval 13 w * zval 13 w) mod 13) in E at 1.
    revert E. apply (nonsquare_mod_ok 13 8); [lia|reflexivity]. }
  destruct (@from_bytes_outside B13 B13_laws _ _ H C S) as (b & E1 & E2). exists b. auto.
Qed.

Lemma unreadable_case : exists e P b e' u, @holds B13 e P /\ @on_curve B13 P /\ @in_subgroup B13 P /\ @prime_order B13 P /\
  @to_bytes B13 e = Ok b /\ @from_bytes B13 b = Ok (Some e') /\ @element_eqb B13 e' e = true /\
  @serialize_uncompressed B13 e' = Ok u /\ @deserialize_uncompressed B13 u = None.
Proof.
  destruct pt_a_ok as (C & S & O). exists el_a, (pt13 5 6).
  destruct (@uncompressed_unreadable B13 B13_laws el_a (pt13 5 6) el_a_holds C S O eq_refl) as (b & e' & u & H).
  exists b, e', u. split; [exact el_a_holds|]. auto.
Qed.

Lemma long_case : exists b e, length b = 33%nat /\ is_bytes b /\ @from_bytes B13 b = Ok (Some e) /\ @to_bytes B13 e <> Ok b.
Proof.
  destruct el_case as (_ & _ & _ & _ & _ & _ & _ & _ & E0 & e & E & E1).
  exists (7 :: repeat 0 31 ++ [8]), e. split; [reflexivity|]. split; [repeat constructor; unfold is_byte; lia|]. split.
  - rewrite (@from_bytes_long B13 [7] (repeat 0 31 ++ [8]) eq_refl : @from_bytes B13 (7 :: repeat 0 31 ++ [8]) = _). exact E.
  - intros X. destruct (@from_bytes_canonical B13 B13_laws (repeat 0 31 ++ [8]) e) as [_ Y];
      [repeat constructor; unfold is_byte; lia|reflexivity|exact E|]. rewrite X in Y. discriminate Y.
Qed.

Lemma hash_case : Forall (@curve_element B13) [el_a; element_zero; el_c; el_b; el_a] /\
  map (zval p31) (@batch_map_to_scalar_field B13 ExA [el_a; element_zero; el_c; el_b; el_a]) = [3; 0; 6; 3; 3].
Proof.
  split; [|reflexivity].
  repeat constructor; apply group_curve; [exact el_a_group|exact (@zero_group B13 B13_laws)|exact el_c_group|exact el_b_group|exact el_a_group].
Qed.

Lemma crs_case : exists Gs Gs', @crs_new B13 ExH 20 3 [1] = Ok (Some Gs) /\ @crs_new B13 ExH 10 2 [1] = Ok (Some Gs') /\
  Gs' = firstn 2 Gs /\ length Gs = 3%nat.
Proof.
  assert (T : forall o : res (option (list (@Element B13))), match o with Ok (Some _) => true | _ => false end = true -> exists l, o = Ok (Some l)).
  { intros [[l|]|]; try discriminate. now exists l. }
  destruct (T (@crs_new B13 ExH 20 3 [1])) as [Gs E]; [reflexivity|].
  destruct (T (@crs_new B13 ExH 10 2 [1])) as [Gs' E']; [reflexivity|].
  exists Gs, Gs'. split; [exact E|]. split; [exact E'|]. split.
  - apply (@crs_prefix B13 B13_laws ExH 20 10 3 2 [1]); [exact E|exact E'|lia].
  - exact (proj1 (@crs_result B13 B13_laws ExH 20 3 [1] Gs E)).
Qed.

(** With more generators than there are elements, two coincide and construction stops. *)
Lemma crs_panic_case : @crs_new B13 ExH 40 6 [1] = Panic.
Proof.
  assert (T : forall o : res (option (list (@Element B13))), match o with Panic => true | _ => false end = true -> o = Panic).
  { intros [|]; [discriminate|reflexivity]. }
  apply T. reflexivity.
Qed.
