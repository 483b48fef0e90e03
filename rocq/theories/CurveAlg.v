(** The abstract group, public parameters and encodings of the other files ([Alg], [Par], [Codec],
    [ECodec]), filled in with points of the curve: every element has exactly one representative of
    prime order, and these form the group. *)
From Coq Require Import Field Znumtheory Eqdep_dec.
From Verif Require Import Base BaseFacts Alg MsmModel CodecModel WireModel IpaModel ElementModel ElementSpec ElementProofs CurveModel CurveSpec CurveProofs.

Section Point.
Context {B : BaseField} {BL : BaseFieldLaws B}.
Local Open Scope fq_scope.

(** On the curve, of prime order ([point_check]) and in the banderwagon subgroup. *)
Definition pointb (P : Affine) : bool := point_check P && legendre_check_point (ax P).

Lemma pointb_iff P : pointb P = true <-> valid_point P /\ prime_order P.
Proof.
  unfold pointb, valid_point. rewrite andb_true_iff, point_check_iff, (legendre_spec (ax P) (ay P)). destruct P as [x y]; cbn [ax ay]. tauto.
Qed.

Definition Pt : Type := { P : Affine | pointb P = true }.
Definition point (g : Pt) : Affine := proj1_sig g.

Lemma pt_eq (g h : Pt) : point g = point h -> g = h.
Proof.
  destruct g as [P HP], h as [Q HQ]. unfold point. cbn [proj1_sig]. intros ->. f_equal. apply UIP_dec. apply Bool.bool_dec.
Qed.
Lemma zero_pointb : pointb (mkAff 0 1) = true.
Proof. apply pointb_iff. split; [apply valid_zero|]. unfold prime_order. apply multiple_zero. Qed.
Definition pt_zero : Pt := exist _ (mkAff 0 1) zero_pointb.

(** The point [P], if it is one of these. *)
Definition pt_of (P : Affine) : Pt :=
  match Bool.bool_dec (pointb P) true with left H => exist _ P H | right _ => pt_zero end.
Definition pt_opt (P : Affine) : option Pt := if pointb P then Some (pt_of P) else None.

Lemma pt_of_point P : pointb P = true -> point (pt_of P) = P.
Proof. intros H. unfold pt_of. destruct (Bool.bool_dec (pointb P) true) as [E|E]; [reflexivity|contradiction]. Qed.
Lemma pt_of_self g : pt_of (point g) = g.
Proof. apply pt_eq, pt_of_point. exact (proj2_sig g). Qed.
Lemma pt_valid g : valid_point (point g).
Proof. exact (proj1 (proj1 (pointb_iff _) (proj2_sig g))). Qed.
Lemma pt_prime g : prime_order (point g).
Proof. exact (proj2 (proj1 (pointb_iff _) (proj2_sig g))). Qed.
Lemma pt_opt_self g : pt_opt (point g) = Some g.
Proof. unfold pt_opt. rewrite (proj2_sig g : pointb (point g) = true), pt_of_self. reflexivity. Qed.
Lemma pt_opt_some P g : pt_opt P = Some g -> point g = P.
Proof. unfold pt_opt. destruct (pointb P) eqn:E; [|discriminate]. intros H. injection H as <-. now apply pt_of_point. Qed.

(** The representative of prime order of the element that [P] stands for. *)
Definition prime_rep (P : Affine) : Affine := if pointb P then P else negated P.
(** The element [e] stands for. *)
Definition group_of (e : Element) : Pt := match to_affine e with Ok P => pt_of (prime_rep P) | Panic => pt_zero end.

Definition pt_add (g h : Pt) : Pt := pt_of (edwards_sum (point g) (point h)).
Definition pt_opp (g : Pt) : Pt := pt_of (inverse_point (point g)).
Definition pt_eqb (g h : Pt) : bool := qeqb (ax (point g)) (ax (point h)) && qeqb (ay (point g)) (ay (point h)).

Context {A : Alg} {I : FrInt A}.
Definition pt_mul (s : F) (g : Pt) : Pt := pt_of (edwards_multiple (Z.to_nat (fr_int s)) (point g)).

Definition curve_alg : Alg := {|
  F := F; fzero := fzero; fone := fone; fadd := fadd; fmul := fmul; fsub := fsub; fopp := fopp; fdiv := fdiv; finv := finv;
  feqb := feqb; of_Z := of_Z;
  G := Pt; gzero := pt_zero; gadd := pt_add; gopp := pt_opp; smul := pt_mul; geqb := pt_eqb |}.

(** [hash] is [map_to_scalar_field]; the generators are any points. *)
Definition pt_hash (g : Pt) : F :=
  match map_to_scalar_field (of_affine (point g)) with Ok s => s | Panic => fzero end.
Definition curve_par (gens : Z -> Pt) (Q : Pt) : Par curve_alg := @mkPar curve_alg pt_hash gens Q.

(** Scalars as 32 bytes, least significant first; reading wants a number below the order. *)
Definition scalar_ser (s : F) : bytes := Z_le 32 (fr_int s).
Definition scalar_de (b : bytes) : option F :=
  if (32 <=? length b)%nat then
    let z := le_Z (firstn 32 b) in if z <? Z.of_nat q_order then Some (of_Z z) else None
  else None.

Definition unbytes (r : res bytes) : bytes := match r with Ok b => b | Panic => [] end.

Definition curve_codec : Codec curve_alg := @mkCodec curve_alg
  (fun g => unbytes (serialize_uncompressed (of_affine (point g))))
  (fun b => match deserialize_uncompressed b with Some (e, _) => match to_affine e with Ok P => pt_opt P | Panic => None end | None => None end)
  scalar_ser scalar_de.

Definition curve_ecodec : ECodec curve_alg := @mkECodec curve_alg
  (fun g => unbytes (to_bytes (of_affine (point g))))
  (fun b => match from_bytes b with Ok (Some e) => Some (group_of e) | _ => None end)
  (fun g => unbytes (to_bytes_uncompressed (of_affine (point g))))
  (fun b => match from_bytes_unchecked_uncompressed b with
            | Ok e => match to_affine e with Ok P => pt_opt (prime_rep P) | Panic => None end
            | Panic => None end)
  scalar_ser scalar_de.
End Point.

Section Laws.
Context {B : BaseField} {BL : BaseFieldLaws B} {CL : CurveLaws B} {A : Alg} {AL : AlgLaws A} {I : FrInt A} {SL : ScalarLaws B A I}.
Local Open Scope fq_scope.

Lemma prime_sum P Q : valid_point P -> valid_point Q -> prime_order P -> prime_order Q -> prime_order (edwards_sum P Q).
Proof.
  intros VP VQ OP OQ. unfold prime_order in *. rewrite multiple_sum, OP, OQ by auto. apply sum_zero.
Qed.
Lemma prime_multiple n P : valid_point P -> prime_order P -> prime_order (edwards_multiple n P).
Proof.
  intros V O. unfold prime_order in *. rewrite multiple_multiple, Nat.mul_comm, <- multiple_multiple, O by auto. apply multiple_zero.
Qed.
Lemma inverse_unique P Q : valid_point P -> valid_point Q -> edwards_sum P Q = mkAff 0 1 -> Q = inverse_point P.
Proof.
  intros VP VQ E. rewrite <- (sum_zero (inverse_point P)), <- E, <- sum_assoc by auto using valid_inverse.
  rewrite (sum_comm (inverse_point P)), sum_inverse by auto. rewrite sum_comm. symmetry. apply sum_zero.
Qed.
Lemma multiple_inverse n P : valid_point P -> edwards_multiple n (inverse_point P) = inverse_point (edwards_multiple n P).
Proof.
  intros V. apply inverse_unique; auto using valid_multiple, valid_inverse.
  rewrite <- multiple_sum by auto using valid_inverse. rewrite sum_inverse by exact V. apply multiple_zero.
Qed.
Lemma inverse_zero : inverse_point (mkAff 0 1) = mkAff 0 1.
Proof. symmetry. apply inverse_unique; auto using valid_zero. apply sum_zero. Qed.
Lemma prime_inverse P : valid_point P -> prime_order P -> prime_order (inverse_point P).
Proof. intros V O. unfold prime_order in *. rewrite multiple_inverse, O by exact V. apply inverse_zero. Qed.

Lemma point_add g h : point (pt_add g h) = edwards_sum (point g) (point h).
Proof.
  apply pt_of_point, pointb_iff. pose proof (pt_valid g). pose proof (pt_valid h).
  split; [now apply valid_sum|apply prime_sum; auto using pt_prime].
Qed.
Lemma point_opp g : point (pt_opp g) = inverse_point (point g).
Proof.
  apply pt_of_point, pointb_iff. pose proof (pt_valid g). split; [now apply valid_inverse|apply prime_inverse; auto using pt_prime].
Qed.
Lemma point_mul s g : point (pt_mul s g) = edwards_multiple (Z.to_nat (fr_int s)) (point g).
Proof.
  apply pt_of_point, pointb_iff. pose proof (pt_valid g). split; [now apply valid_multiple|apply prime_multiple; auto using pt_prime].
Qed.

(** Two representatives of prime order of one element are the same point. *)
Lemma same_prime P Q : same_element P Q -> prime_order P -> prime_order Q -> P = Q.
Proof. intros [-> | ->] OP OQ; [reflexivity|]. now destruct (prime_order_one Q OQ). Qed.

Lemma multiple_prime m n g : of_Z (Z.of_nat m) = of_Z (Z.of_nat n) -> edwards_multiple m (point g) = edwards_multiple n (point g).
Proof.
  intros E. apply same_prime; try (apply prime_multiple; auto using pt_prime, pt_valid).
  apply multiple_scalar; [apply pt_valid|exact E].
Qed.

Lemma curve_laws : AlgLaws curve_alg.
Proof.
  constructor; cbn [curve_alg F fzero fone fadd fmul fsub fopp fdiv finv feqb of_Z G gzero gadd gopp smul geqb].
  - exact F_field.
  - exact feqb_true.
  - exact of_Z_0.
  - exact of_Z_1.
  - exact of_Z_add.
  - exact of_Z_mul.
  - intros x y. apply pt_eq. rewrite !point_add. apply sum_comm.
  - intros x y z. apply pt_eq. rewrite !point_add. symmetry. apply sum_assoc; apply pt_valid.
  - intros x. apply pt_eq. rewrite point_add, sum_comm. apply sum_zero.
  - intros x. apply pt_eq. rewrite point_add, point_opp. apply sum_inverse, pt_valid.
  - intros s x y. apply pt_eq. rewrite !point_add, !point_mul, point_add. apply multiple_sum; apply pt_valid.
  - intros s t x. apply pt_eq. rewrite point_add, !point_mul, <- multiple_add by apply pt_valid. apply multiple_prime.
    rewrite Nat2Z.inj_add, of_Z_add, !int_nat, !scalar_of_int. reflexivity.
  - intros s t x. apply pt_eq. rewrite !point_mul, multiple_multiple by apply pt_valid. apply multiple_prime.
    rewrite Nat2Z.inj_mul, of_Z_mul, !int_nat, !scalar_of_int. reflexivity.
  - intros x. apply pt_eq. rewrite point_mul. transitivity (edwards_multiple 1 (point x)); [|apply multiple_1].
    apply multiple_prime. rewrite int_nat, scalar_of_int. symmetry. exact of_Z_1.
  - intros x y. unfold pt_eqb. rewrite andb_true_iff, !qeqb_true. split; [|now intros ->].
    intros [X Y]. apply pt_eq, aff_eq; assumption.
Qed.

(** ** Elements and the group *)
Lemma prime_rep_ok P : valid_point P -> same_element (prime_rep P) P /\ pointb (prime_rep P) = true.
Proof.
  intros V. unfold prime_rep. destruct (pointb P) eqn:E; [split; [apply same_refl|exact E]|].
  split; [now right|]. apply pointb_iff. split.
  - destruct V. split; [now apply on_curve_negated|now apply in_subgroup_negated].
  - unfold prime_order. rewrite multiple_negated, q_order_odd. destruct (q_order_kills P V) as [K|K].
    + assert (T : pointb P = true) by (apply pointb_iff; split; [exact V|exact K]). congruence.
    + rewrite K, negated_negated. reflexivity.
Qed.
Lemma group_of_holds e P : holds e P -> valid_point P -> point (group_of e) = prime_rep P.
Proof. intros H V. unfold group_of. rewrite (to_affine_ok e P H). apply pt_of_point, prime_rep_ok, V. Qed.
Lemma group_of_same e P : holds e P -> valid_point P -> same_element (point (group_of e)) P.
Proof. intros H V. rewrite (group_of_holds e P H V). now apply prime_rep_ok. Qed.
Lemma group_of_unique e P g : holds e P -> valid_point P -> same_element (point g) P -> g = group_of e.
Proof.
  intros H V S. apply pt_eq, same_prime; try apply pt_prime. apply (same_trans _ P); [exact S|]. apply same_sym. now apply group_of_same.
Qed.

Lemma group_of_eq e1 e2 : group_element e1 -> group_element e2 -> (element_eqb e1 e2 = true <-> group_of e1 = group_of e2).
Proof.
  rewrite !group_valid. intros (P & H & V) (Q & HQ & VQ). rewrite (eqb_holds _ _ _ _ H HQ V VQ). split.
  - intros S. apply (group_of_unique e2 Q); auto. apply (same_trans _ P); auto using group_of_same.
  - intros E. apply (same_trans _ (point (group_of e1))); [apply same_sym; now apply group_of_same|].
    rewrite E. now apply group_of_same.
Qed.
Lemma group_of_add e1 e2 : group_element e1 -> group_element e2 -> group_of (element_add e1 e2) = pt_add (group_of e1) (group_of e2).
Proof.
  rewrite !group_valid. intros (P & H & V) (Q & HQ & VQ). symmetry.
  apply (group_of_unique _ (edwards_sum P Q)); auto using holds_add, valid_sum. rewrite point_add.
  apply sum_respects; now apply group_of_same.
Qed.
Lemma group_of_neg e : group_element e -> group_of (element_neg e) = pt_opp (group_of e).
Proof.
  rewrite !group_valid. intros (P & H & V). symmetry.
  apply (group_of_unique _ (inverse_point P)); auto using holds_neg, valid_inverse. rewrite point_opp.
  apply inverse_respects. now apply group_of_same.
Qed.
Lemma group_of_zero : group_of element_zero = pt_zero.
Proof. symmetry. apply (group_of_unique _ (mkAff 0 1)); [apply holds_zero|apply valid_zero|apply same_refl]. Qed.
Lemma group_of_mul e s : group_element e -> group_of (element_mul e s) = pt_mul s (group_of e).
Proof.
  rewrite !group_valid. intros (P & H & V). symmetry.
  apply (group_of_unique _ (edwards_multiple (Z.to_nat (fr_int s)) P)); auto using holds_mul, valid_multiple. rewrite point_mul.
  apply multiple_same. now apply group_of_same.
Qed.
Lemma group_of_sum es : Forall group_element es -> group_of (element_sum es) = fold_left pt_add (map group_of es) pt_zero.
Proof.
  unfold element_sum. rewrite <- group_of_zero. pose proof zero_group as Z. revert Z. generalize element_zero.
  intros e0 H0 H. revert e0 H0. induction H as [|e es He _ IH]; intros e0 H0; [reflexivity|].
  cbn [fold_left map]. rewrite <- group_of_add by auto. apply IH. now apply add_group.
Qed.
Lemma pt_group g : group_element (of_affine (point g)).
Proof. apply group_valid. exists (point g). split; [apply holds_of_affine|apply pt_valid]. Qed.
Lemma group_of_pt g : group_of (of_affine (point g)) = g.
Proof. symmetry. apply (group_of_unique _ (point g)); [apply holds_of_affine|apply pt_valid|apply same_refl]. Qed.

Lemma hash_of e : group_element e -> map_to_scalar_field e = Ok (pt_hash (group_of e)).
Proof.
  intros G. destruct (scalar_same e (of_affine (point (group_of e)))) as (s & E1 & E2).
  - apply group_curve, G.
  - apply group_curve, pt_group.
  - apply group_of_eq; [exact G|apply pt_group|]. now rewrite group_of_pt.
  - unfold pt_hash. rewrite E1, E2. reflexivity.
Qed.
Lemma curve_par_laws gens Q : ParLaws (curve_par gens Q).
Proof.
  constructor. change (pt_hash pt_zero = fzero). unfold pt_hash.
  rewrite (scalar_zero (of_affine (point pt_zero))).
  - exact of_Z_0.
  - apply group_curve, pt_group.
  - apply group_of_eq; [apply pt_group|exact zero_group|]. now rewrite group_of_pt, group_of_zero.
Qed.

Lemma bytes_of e : group_element e -> to_bytes e = Ok (@el_ser _ curve_ecodec (group_of e)).
Proof.
  intros G. cbn [el_ser curve_ecodec].
  destruct (eq_iff_bytes e (of_affine (point (group_of e))) (group_curve _ G) (group_curve _ (pt_group _))) as (b1 & b2 & E1 & E2 & _ & _ & EQ).
  rewrite E1, E2. cbn [unbytes]. f_equal. apply EQ. apply group_of_eq; [exact G|apply pt_group|]. now rewrite group_of_pt.
Qed.
Lemma bytes_read b g : @el_de _ curve_ecodec b = Some g <-> exists e, from_bytes b = Ok (Some e) /\ group_of e = g.
Proof.
  cbn [el_de curve_ecodec]. split.
  - destruct (from_bytes b) as [[e|]|] eqn:E; try discriminate. intros H. injection H as <-. now exists e.
  - intros (e & -> & <-). reflexivity.
Qed.

Lemma scalar_le s : le_Z (scalar_ser s) = fr_int s.
Proof.
  apply le_Z_Z_le. pose proof (scalar_range s) as R. pose proof scalar_bits as Sb. change (256 ^ Z.of_nat 32)%Z with (2 ^ 256)%Z.
  assert (2 ^ 253 < 2 ^ 256)%Z by reflexivity. lia.
Qed.
Lemma scalar_rt s : scalar_de (scalar_ser s) = Some s.
Proof.
  unfold scalar_de. assert (L : length (scalar_ser s) = 32%nat) by apply Z_le_length. rewrite L.
  rewrite firstn_all2 by lia. rewrite scalar_le. pose proof (scalar_range s).
  change (32 <=? 32)%nat with true. cbv zeta. destruct (Z.ltb_spec (fr_int s) (Z.of_nat q_order)); [|lia]. now rewrite scalar_of_int.
Qed.
Lemma scalar_int_of z : (0 <= z < Z.of_nat q_order)%Z -> fr_int (of_Z z) = z.
Proof.
  intros Hz. pose proof (scalar_range (of_Z z)) as R.
  assert (D : (Z.of_nat q_order | fr_int (of_Z z) - z)%Z).
  { apply scalar_zero_iff. pose proof (of_Z_add (fr_int (of_Z z) - z) z) as E.
    replace (fr_int (of_Z z) - z + z)%Z with (fr_int (of_Z z)) in E by lia. rewrite scalar_of_int in E.
    Add Field FField5 : (@F_field A AL).
    transitivity (fsub (fadd (of_Z (fr_int (of_Z z) - z)) (of_Z z)) (of_Z z)); [ring|]. rewrite <- E. ring. }
  destruct D as [q Hq]. assert (q = 0)%Z by nia. lia.
Qed.
Lemma scalar_canon b s : is_bytes b -> length b = 32%nat -> scalar_de b = Some s -> scalar_ser s = b.
Proof.
  intros Hb L. unfold scalar_de. rewrite L. change (32 <=? 32)%nat with true. cbv iota zeta.
  rewrite firstn_all2 by lia. destruct (Z.ltb_spec (le_Z b) (Z.of_nat q_order)) as [Lt|]; [|discriminate].
  intros E. injection E as <-. unfold scalar_ser. rewrite scalar_int_of.
  - rewrite <- (Z_le_le_Z b Hb) at 2. now rewrite L.
  - pose proof (le_Z_bound b Hb). lia.
Qed.

Lemma curve_codec_laws : CodecLaws curve_codec.
Proof.
  constructor; cbn [pt_ser pt_de fr_ser fr_de curve_codec].
  - intros g. unfold serialize_uncompressed. rewrite (to_affine_ok _ _ (holds_of_affine (point g))). cbn [rbind unbytes].
    rewrite app_length, !fq_ser_len. reflexivity.
  - intros g. unfold serialize_uncompressed. rewrite (to_affine_ok _ _ (holds_of_affine (point g))). cbn [rbind unbytes].
    unfold deserialize_uncompressed. rewrite fq_de_app, skipn_app_exact, fq_de_ser by apply fq_ser_len.
    assert (E : mkAff (ax (point g)) (ay (point g)) = point g) by now destruct (point g). rewrite E.
    rewrite (proj2 (point_check_iff (point g))).
    + rewrite (to_affine_ok _ _ (holds_of_affine (point g))). apply pt_opt_self.
    + split; [apply pt_valid|apply pt_prime].
  - intros s. apply Z_le_length.
  - exact scalar_rt.
Qed.

Lemma prime_rep_self g : prime_rep (point g) = point g.
Proof. unfold prime_rep. now rewrite (proj2_sig g : pointb (point g) = true). Qed.

Lemma curve_ecodec_laws : ECodecLaws curve_ecodec.
Proof.
  constructor.
  - intros g. cbn [el_ser curve_ecodec]. rewrite (to_bytes_ok _ _ (holds_of_affine (point g))). cbn [unbytes].
    rewrite rev_length. apply fq_ser_len.
  - intros g. apply bytes_read. destruct (from_bytes_to_bytes _ (pt_group g)) as (b & e & E1 & E2 & E3 & E4).
    exists e. split.
    + cbn [el_ser curve_ecodec]. rewrite E1. exact E2.
    + rewrite <- (group_of_pt g). apply group_of_eq; [exact E4|apply pt_group|exact E3].
  - intros b g Hb L E. apply bytes_read in E as (e & E & <-).
    pose proof (bytes_of e (from_bytes_valid b e E)) as T. destruct (from_bytes_canonical b e Hb L E) as [_ T']. congruence.
  - intros g. cbn [eu_ser curve_ecodec]. unfold to_bytes_uncompressed. rewrite (to_affine_ok _ _ (holds_of_affine (point g))). cbn [rbind unbytes].
    rewrite app_length, !fq_ser_len. reflexivity.
  - intros g. cbn [eu_ser eu_de curve_ecodec]. unfold to_bytes_uncompressed. rewrite (to_affine_ok _ _ (holds_of_affine (point g))). cbn [rbind unbytes].
    unfold from_bytes_unchecked_uncompressed. rewrite fq_de_app, skipn_app_exact, fq_de_ser by apply fq_ser_len. cbn [unwrap rbind].
    assert (E : mkAff (ax (point g)) (ay (point g)) = point g) by now destruct (point g). rewrite E.
    rewrite (to_affine_ok _ _ (holds_of_affine (point g))), prime_rep_self. apply pt_opt_self.
  - intros s. apply Z_le_length.
  - exact scalar_rt.
  - exact scalar_canon.
Qed.
End Laws.
