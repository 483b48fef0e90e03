(** A concrete lawful instance of the algebra: the field of integers modulo a
    prime p, with the field itself as the group.  Used only to show that the
    hypotheses [AlgLaws]/[ParLaws] of the theorems can be met and to run the
    model on concrete inputs; it does not model the banderwagon curve. *)
From Coq Require Import Znumtheory Eqdep_dec.
From Verif Require Import Base Alg.

Section Zp.
Variable p : Z.
Hypothesis Hp : prime p.

Record zp := mkzp { zval : Z; zok : (zval mod p =? zval) = true }.

Lemma zp_eq (x y : zp) : zval x = zval y -> x = y.
Proof.
  destruct x as [x Hx], y as [y Hy]; simpl. intros <-. f_equal. apply UIP_dec. apply bool_dec.
Qed.

Lemma p_pos : 0 < p. Proof. destruct Hp; lia. Qed.

Lemma red_ok z : ((z mod p) mod p =? z mod p) = true.
Proof. apply Z.eqb_eq. apply Zmod_mod. Qed.

Definition zred (z : Z) : zp := mkzp (z mod p) (red_ok z).

Lemma zval_range x : 0 <= zval x < p.
Proof.
  destruct x as [x Hx]; simpl. apply Z.eqb_eq in Hx. rewrite <- Hx. apply Z.mod_pos_bound, p_pos.
Qed.

Lemma zval_red z : zval (zred z) = z mod p. Proof. reflexivity. Qed.

Lemma zred_val x : zred (zval x) = x.
Proof. apply zp_eq. rewrite zval_red. apply Z.mod_small, zval_range. Qed.

Lemma zred_eq a b : a mod p = b mod p -> zred a = zred b.
Proof. intros H. apply zp_eq. exact H. Qed.

(** Extended Euclid; [n] bounds the number of steps. *)
Fixpoint egcd (n : nat) (a b : Z) : Z * Z :=
  match n with
  | O => (1, 0)
  | S n' => if b =? 0 then (1, 0) else
      let '(u, v) := egcd n' b (a mod b) in (v, u - v * (a / b))
  end.

Lemma egcd_ok n : forall a b, 0 <= b < a -> a * b < 2 ^ Z.of_nat n ->
  let '(u, v) := egcd n a b in u * a + v * b = Z.gcd a b.
Proof.
  induction n as [|n IH]; intros a b Hb Hm.
  - simpl in Hm. assert (b = 0) by nia. subst b. cbn [egcd]. rewrite Z.gcd_0_r, Z.abs_eq by lia. ring.
  - cbn [egcd]. destruct (Z.eqb_spec b 0) as [->|Hn].
    + rewrite Z.gcd_0_r, Z.abs_eq by lia. ring.
    + pose proof (Z.mod_pos_bound a b ltac:(lia)) as Hr. pose proof (Z.div_mod a b ltac:(lia)) as Hd.
      assert (1 <= a / b) by (apply Z.div_le_lower_bound; lia).
      specialize (IH b (a mod b) ltac:(lia)).
      rewrite Nat2Z.inj_succ, Z.pow_succ_r in Hm by lia.
      specialize (IH ltac:(nia)).
      destruct (egcd n b (a mod b)) as [u v].
      rewrite (Z.gcd_comm a b), <- (Z.gcd_mod a b) by lia. rewrite Z.gcd_comm, <- IH.
      rewrite Hd at 1. ring.
Qed.

Definition zinv (x : zp) : zp := zred (snd (egcd (Z.to_nat (2 * Z.log2 p + 2)) p (zval x))).

Lemma zinv_ok x : x <> zred 0 -> zred (zval (zinv x) * zval x) = zred 1.
Proof.
  intros Hx. pose proof (zval_range x) as Hr. pose proof p_pos as Pp.
  assert (Hn : zval x <> 0).
  { intros E. apply Hx. apply zp_eq. rewrite E. symmetry. apply Z.mod_small. lia. }
  assert (Hfuel : p * zval x < 2 ^ Z.of_nat (Z.to_nat (2 * Z.log2 p + 2))).
  { pose proof (Z.log2_nonneg p). rewrite Z2Nat.id by lia.
    destruct (Z.log2_spec p Pp) as [_ Hl].
    replace (2 * Z.log2 p + 2) with (Z.succ (Z.log2 p) + Z.succ (Z.log2 p)) by lia.
    rewrite Z.pow_add_r by lia. nia. }
  pose proof (egcd_ok _ p (zval x) Hr Hfuel) as E. unfold zinv.
  destruct (egcd _ p (zval x)) as [u v]. cbn [snd].
  assert (G1 : Z.gcd p (zval x) = 1).
  { apply Zgcd_1_rel_prime. apply rel_prime_sym. apply rel_prime_le_prime; [exact Hp|lia]. }
  rewrite G1 in E. apply zred_eq. rewrite zval_red, Zmult_mod_idemp_l.
  replace (v * zval x) with (1 + (- u) * p) by lia. apply Z_mod_plus_full.
Qed.

Definition zp_alg : Alg := {|
  F := zp; fzero := zred 0; fone := zred 1;
  fadd x y := zred (zval x + zval y); fmul x y := zred (zval x * zval y);
  fsub x y := zred (zval x - zval y); fopp x := zred (- zval x);
  fdiv x y := zred (zval x * zval (zinv y)); finv := zinv;
  feqb x y := zval x =? zval y;
  of_Z := zred;
  G := zp; gzero := zred 0;
  gadd x y := zred (zval x + zval y); gopp x := zred (- zval x);
  smul x y := zred (zval x * zval y);
  geqb x y := zval x =? zval y
|}.

Ltac zmod := intros; simpl; apply zp_eq; rewrite ?zval_red;
  rewrite ?Zplus_mod_idemp_l, ?Zplus_mod_idemp_r, ?Zmult_mod_idemp_l, ?Zmult_mod_idemp_r,
    ?Zminus_mod_idemp_l, ?Zminus_mod_idemp_r.

Lemma zp_field : field_theory (@fzero zp_alg) fone fadd fmul fsub fopp fdiv finv (@eq F).
Proof.
  constructor; [constructor| | |]; simpl.
  - intros x. zmod. simpl. rewrite Z.mod_small by apply zval_range. reflexivity.
  - zmod. try (f_equal; ring).
  - zmod. try (f_equal; ring).
  - intros x. zmod. rewrite Z.mul_1_l. apply Z.mod_small, zval_range.
  - zmod. try (f_equal; ring).
  - zmod. try (f_equal; ring).
  - zmod. try (f_equal; ring).
  - zmod. try (f_equal; ring).
  - zmod. try (f_equal; ring).
  - intros H. apply (f_equal zval) in H. rewrite !zval_red in H. destruct Hp as [Hp1 _].
    rewrite !Z.mod_small in H by lia. lia.
  - reflexivity.
  - intros x Hx. apply zinv_ok. exact Hx.
Qed.

Lemma zeqb_ok (x y : zp) : (zval x =? zval y) = true <-> x = y.
Proof. rewrite Z.eqb_eq. split; [apply zp_eq|intros ->; reflexivity]. Qed.

Lemma zp_laws : AlgLaws zp_alg.
Proof.
  constructor; simpl.
  - apply zp_field.
  - apply zeqb_ok.
  - reflexivity.
  - reflexivity.
  - zmod. reflexivity.
  - zmod. reflexivity.
  - zmod. try (f_equal; ring).
  - zmod. try (f_equal; ring).
  - intros x. zmod. simpl. rewrite Z.mod_small by apply zval_range. reflexivity.
  - zmod. try (f_equal; ring).
  - zmod. try (f_equal; ring).
  - zmod. try (f_equal; ring).
  - zmod. try (f_equal; ring).
  - intros x. zmod. rewrite Z.mul_1_l. apply Z.mod_small, zval_range.
  - apply zeqb_ok.
Qed.
End Zp.

(** ** Trial division *)
Fixpoint no_divisor (n : nat) (d p : Z) : bool :=
  match n with O => true | S n' => negb (p mod d =? 0) && no_divisor n' (d + 1) p end.

Lemma no_divisor_ok n : forall d p e, no_divisor n d p = true -> 0 < d -> d <= e < d + Z.of_nat n -> ~ (e | p).
Proof.
  induction n as [|n IH]; intros d p e H Hd He; [lia|]. cbn [no_divisor] in H.
  apply andb_true_iff in H as [H1 H2]. destruct (Z.eq_dec e d) as [->|Hn].
  - intros Hdiv. apply Z.mod_divide in Hdiv; [|lia]. rewrite Hdiv in H1. discriminate.
  - apply (IH (d + 1) p e H2); lia.
Qed.

Lemma prime_by_trial p n : 1 < p -> p < (Z.of_nat n + 2) * (Z.of_nat n + 2) -> no_divisor n 2 p = true -> prime p.
Proof.
  intros H1 H2 H. apply prime_alt. split; [exact H1|]. intros e He [q Hq].
  assert (e < Z.of_nat n + 2 \/ q < Z.of_nat n + 2) as [Hs|Hs] by nia.
  - apply (no_divisor_ok n 2 p e H ltac:(lia) ltac:(lia)). exists q; lia.
  - apply (no_divisor_ok n 2 p q H ltac:(lia)); [nia|]. exists e; lia.
Qed.

(** The instance used in examples: p = 2^31 - 1. *)
Definition p31 : Z := 2147483647.
Lemma p31_prime : prime p31.
Proof. apply (prime_by_trial p31 (Z.to_nat 46341)); vm_compute; reflexivity. Qed.

Definition zp_par (p : Z) (h : Z -> Z) : Par (zp_alg p) :=
  @mkPar (zp_alg p) (fun x : zp p => zred p (h (zval p x)))
    (fun i => zred p ((i + 3) ^ 5 + 1)) (zred p 7777777).

Definition ex_hash (x : Z) : Z := x * x * x + 5 * x.
#[export] Instance ExA : Alg := zp_alg p31.
#[export] Instance ExL : AlgLaws ExA := zp_laws p31 p31_prime.
#[export] Instance ExP : Par ExA := zp_par p31 ex_hash.
#[export] Instance ExPL : ParLaws ExP.
Proof. constructor. reflexivity. Qed.
