(** A lawful instance of the parameters of [MsmModel], for concrete cases: the
    integers modulo 2^31 - 1, and width-w non-adjacent forms as in the arkworks library. *)
From Verif Require Import Base BaseFacts Alg AlgFacts AlgInst MsmModel MsmSpec MsmProofs.
Notation len := List.length.

#[export] Instance ExI : FrInt ExA := (zval p31 : @F ExA -> Z).
#[export] Instance ExIL : FrIntLaws ExI.
Proof.
  constructor.
  - intro x. exact (zred_val p31 p31_prime x).
  - intro x. pose proof (zval_range p31 p31_prime x). unfold fr_int, ExI.
    assert (p31 < 2 ^ 253) by reflexivity. lia.
Qed.

(** [find_wnaf]: while e is not 0, the next digit is 0 for even e, and else e modulo 2^w in
    the symmetric range. *)
Definition signed_mod (e m : Z) : Z := let z := e mod m in if m <=? 2 * z then z - m else z.
Fixpoint find_wnaf (fuel : nat) (w e : Z) : list Z :=
  match fuel with
  | O => []
  | S fuel' =>
      if e =? 0 then []
      else
        let z := if Z.odd e then signed_mod e (2 ^ w) else 0 in
        z :: find_wnaf fuel' w ((e - z) / 2)
  end.

Lemma signed_mod_ok e w : 1 <= w -> exists q, e = q * 2 ^ w + signed_mod e (2 ^ w) /\ - 2 ^ w <= 2 * signed_mod e (2 ^ w) < 2 ^ w.
Proof.
  intro Hw. assert (0 < 2 ^ w) by (apply Z.pow_pos_nonneg; lia). unfold signed_mod.
  pose proof (Z.div_mod e (2 ^ w) ltac:(lia)). pose proof (Z.mod_pos_bound e (2 ^ w) ltac:(lia)).
  destruct (Z.leb_spec (2 ^ w) (2 * (e mod 2 ^ w))); [exists (e / 2 ^ w + 1)|exists (e / 2 ^ w)]; lia.
Qed.

Lemma wnaf_exact w : 2 <= w -> forall k e fuel, 0 <= k -> 0 <= e <= 2 ^ k -> k + 1 <= Z.of_nat fuel -> digits_value 2 (find_wnaf fuel w e) = e.
Proof.
  intros Hw k e fuel Hk. revert e fuel. pattern k. apply natlike_ind; [| |exact Hk].
  - intros e fuel He Hf. destruct fuel as [|fuel]; [lia|]. cbn [find_wnaf]. change (2 ^ 0) with 1 in He.
    assert (e = 0 \/ e = 1) as [->| ->] by lia; [reflexivity|]. change (1 =? 0) with false. change (Z.odd 1) with true. cbv iota.
    assert (S1 : signed_mod 1 (2 ^ w) = 1).
    { unfold signed_mod. assert (4 <= 2 ^ w) by (change 4 with (2 ^ 2); apply Z.pow_le_mono_r; lia). rewrite Z.mod_small by lia.
      destruct (Z.leb_spec (2 ^ w) (2 * 1)); lia. }
    rewrite S1. change ((1 - 1) / 2) with 0. cbn [digits_value]. destruct fuel; reflexivity.
  - clear k Hk. intros k Hk IH e fuel He Hf. destruct fuel as [|fuel]; [lia|]. cbn [find_wnaf].
    destruct (Z.eqb_spec e 0) as [->|N]; [reflexivity|]. rewrite Z.pow_succ_r in He by lia.
    assert (P : 0 < 2 ^ k) by (apply Z.pow_pos_nonneg; lia).
    destruct (Z.odd e) eqn:O; cbn [digits_value].
    + destruct (signed_mod_ok e w ltac:(lia)) as (q & Eq & Bz). set (z := signed_mod e (2 ^ w)) in *.
      assert (Pw : 2 ^ w = 2 * 2 ^ (w - 1)) by (rewrite <- Z.pow_succ_r by lia; f_equal; lia).
      assert (P1 : 0 < 2 ^ (w - 1)) by (apply Z.pow_pos_nonneg; lia).
      assert (E2 : (e - z) / 2 = q * 2 ^ (w - 1)).
      { replace (e - z) with (q * 2 ^ (w - 1) * 2) by lia. apply Z.div_mul. lia. }
      rewrite E2. rewrite IH; [lia| |lia].
      apply Z.odd_spec in O as (m & Om).
      destruct (Z.le_gt_cases w (Z.succ k)) as [Hle|Hgt].
      * assert (Pk : 2 ^ k = 2 ^ (k - (w - 1)) * 2 ^ (w - 1)) by (rewrite <- Z.pow_add_r by lia; f_equal; lia).
        assert (0 < 2 ^ (k - (w - 1))) by (apply Z.pow_pos_nonneg; lia).
        set (W := 2 ^ (w - 1)) in *. set (K := 2 ^ (k - (w - 1))) in *. rewrite Pw in Eq, Bz. rewrite Pk in He |- *.
        assert (0 <= q) by (destruct (Z.le_gt_cases 0 q); [assumption|nia]).
        assert (q <= K) by (destruct (Z.le_gt_cases q K); [assumption|]; assert (K * W + W <= q * W) by nia; lia). nia.
      * assert (2 ^ k <= 2 ^ (w - 2)) by (apply Z.pow_le_mono_r; lia).
        assert (P2 : 2 ^ (w - 1) = 2 * 2 ^ (w - 2)) by (rewrite <- Z.pow_succ_r by lia; f_equal; lia).
        assert (q = 0) by nia. subst q. lia.
    + assert (Ev : Z.even e = true) by (rewrite <- Z.negb_odd, O; reflexivity). apply Z.even_spec in Ev as (m & ->).
      replace ((2 * m - 0) / 2) with m by (rewrite Z.sub_0_r, Z.mul_comm, Z.div_mul; lia). rewrite IH; lia.
Qed.

Section Wnaf.
Context {A : Alg} {L : AlgLaws A} {I : FrInt A} {IL : FrIntLaws I}.
Add Ring Fring2 : F_ring.
Add Ring dnring2 : dn_ring.

(** [WnafContext::table] and [mul_with_table]; doubling zero before the first digit is harmless. *)
Definition wnaf_digit (t : list G) (d : Z) : option G :=
  if d =? 0 then Some gzero
  else if 0 <? d then nth_error t (Z.to_nat (d / 2))
  else option_map gopp (nth_error t (Z.to_nat (- d / 2))).
Fixpoint wnaf_eval (t : list G) (ds : list Z) : option G :=
  match ds with
  | [] => Some gzero
  | d :: ds' =>
      match wnaf_eval t ds', wnaf_digit t d with
      | Some r, Some p => Some (gadd (gadd r r) p)
      | _, _ => None
      end
  end.
#[export] Instance ArkWnaf : Wnaf A := {|
  wn_table w p := multiples (2 ^ (w - 1)) (gadd p p) p;
  wn_mul w t s := wnaf_eval t (find_wnaf 255 (Z.of_nat w) (fr_int s))
|}.

Lemma wnaf_digits_odd w : 1 <= w -> forall fuel e, Forall (fun d => d = 0 \/ (Z.odd d = true /\ Z.abs d < 2 ^ (w - 1) + 1)) (find_wnaf fuel w e).
Proof.
  intro Hw. induction fuel as [|fuel IH]; intro e; cbn [find_wnaf]; [constructor|]. destruct (e =? 0); [constructor|]. constructor; [|apply IH].
  destruct (Z.odd e) eqn:O; [right|now left]. destruct (signed_mod_ok e w ltac:(lia)) as (q & E & B).
  assert (Pw : 2 ^ w = 2 * 2 ^ (w - 1)) by (rewrite <- Z.pow_succ_r by lia; f_equal; lia). split; [|lia].
  rewrite E in O. rewrite Z.odd_add, Z.odd_mul, Pw, Z.odd_mul in O. cbn [Z.odd] in O. rewrite andb_false_l, andb_false_r, xorb_false_l in O. rewrite Pw. exact O.
Qed.

Lemma wnaf_digit_ok w p d : (2 <= w)%nat -> (d = 0 \/ (Z.odd d = true /\ Z.abs d < 2 ^ (Z.of_nat w - 1) + 1)) ->
  wnaf_digit (multiples (2 ^ (w - 1)) (gadd p p) p) d = Some (smul (of_Z d) p).
Proof.
  intros Hw Hd. unfold wnaf_digit. destruct (Z.eqb_spec d 0) as [->|N]; [now rewrite of_Z_0, smul_0_l|].
  destruct Hd as [|[O B]]; [contradiction|]. apply Z.odd_spec in O as (m & ->).
  assert (Pn : Z.of_nat (2 ^ (w - 1)) = 2 ^ (Z.of_nat w - 1)) by (rewrite Nat2Z.inj_pow; f_equal; lia).
  assert (P2 : 2 ^ (Z.of_nat w - 1) = 2 * 2 ^ (Z.of_nat w - 2)) by (rewrite <- Z.pow_succ_r by lia; f_equal; lia).
  assert (0 < 2 ^ (Z.of_nat w - 2)) by (apply Z.pow_pos_nonneg; lia).
  destruct (Z.ltb_spec 0 (2 * m + 1)).
  - assert (E : (2 * m + 1) / 2 = m) by (symmetry; apply (Z.div_unique _ _ _ 1); lia). rewrite E.
    rewrite multiples_nth by lia. rewrite Z2Nat.id by lia. f_equal. rewrite of_Z_add, of_Z_1, of_Z_mul. change 2 with (1 + 1). rewrite of_Z_add, of_Z_1. module.
  - assert (E : - (2 * m + 1) / 2 = - m - 1) by (symmetry; apply (Z.div_unique _ _ _ 1); lia). rewrite E.
    rewrite multiples_nth by lia. rewrite Z2Nat.id by lia. cbn [option_map]. f_equal.
    rewrite of_Z_sub, of_Z_opp, of_Z_add, of_Z_1, of_Z_mul. change 2 with (1 + 1). rewrite of_Z_add, of_Z_1. module.
Qed.

Lemma wnaf_eval_ok w p : (2 <= w)%nat -> forall ds, Forall (fun d => d = 0 \/ (Z.odd d = true /\ Z.abs d < 2 ^ (Z.of_nat w - 1) + 1)) ds ->
  wnaf_eval (multiples (2 ^ (w - 1)) (gadd p p) p) ds = Some (smul (of_Z (digits_value 2 ds)) p).
Proof.
  intros Hw ds. induction 1 as [|d ds Hd _ IH]; cbn [wnaf_eval digits_value]; [now rewrite of_Z_0, smul_0_l|].
  rewrite IH, wnaf_digit_ok by assumption. f_equal. rewrite of_Z_add, of_Z_mul. change (of_Z 2) with (of_Z (1 + 1)). rewrite of_Z_add, of_Z_1. module.
Qed.

#[export] Instance ArkWnafLaws : WnafLaws ArkWnaf.
Proof.
  constructor. intros w p s Hw. cbn [wn_mul wn_table ArkWnaf]. pose proof (fr_int_range s) as B.
  rewrite wnaf_eval_ok by (try apply wnaf_digits_odd; lia). rewrite (wnaf_exact (Z.of_nat w) ltac:(lia) 253) by lia. now rewrite fr_int_of.
Qed.
End Wnaf.

Definition ex_points (n : nat) : list (@G ExA) := map (fun i => zred p31 (Z.of_nat (i * i * i + 11))) (seq 0 n).
Definition ex_scalars (l : list Z) : list (@F ExA) := map (zred p31) l.
Lemma msm_case :
  (let! t := msm_new (ex_points 3) 3 in msm_mul t (ex_scalars [123456789; 2147483646; 0]))
  = Ok (combination (ex_scalars [123456789; 2147483646; 0]) (ex_points 3)) /\
  zval p31 (combination (ex_scalars [123456789; 2147483646; 0]) (ex_points 3)) <> 0 /\
  (let! t := msm_new (ex_points 1) 3 in msm_mul t (ex_scalars [1; 0])) = Panic.
Proof.
  split; [|split].
  - destruct (windowed_product 3 (ex_points 3) (ex_scalars [123456789; 2147483646; 0]) ltac:(lia)) as (t & E & H1 & _).
    rewrite E. cbn [rbind]. apply H1. cbn. lia.
  - vm_compute. discriminate.
  - destruct (windowed_product 3 (ex_points 1) (ex_scalars [1; 0]) ltac:(lia)) as (t & E & _ & H1).
    rewrite E. cbn [rbind]. apply H1. cbn. lia.
Qed.
Lemma committer_case : exists c, committer_new (ex_points 70) = Ok c /\
  (forall split v, commit_lagrange split c v = Ok (combination v (ex_points 70))) /\
  (forall v i, committer_scalar_mul c v i = match nth_error (ex_points 70) i with Some p => Ok (smul v p) | None => Panic end) /\
  combination (ex_scalars (map Z.of_nat (seq 1 66))) (ex_points 70) <> gzero /\
  par_sum (Halves 2 (Halves 1 Whole Whole) Whole) (ex_points 5) = fold_left gadd (ex_points 5) gzero.
Proof.
  destruct (proj1 (committer_new_ok (ex_points 70))) as (c & E).
  { unfold ex_points. rewrite map_length, seq_length. lia. }
  exists c. split; [exact E|]. split; [intros; now apply (commit_lagrange_ok (ex_points 70))|].
  split; [intros; now apply (scalar_mul_ok (ex_points 70))|]. split.
  - intro X. apply (f_equal (zval p31)) in X. revert X. vm_compute. discriminate.
  - rewrite par_sum_ok, fold_left_lsum0. reflexivity.
Qed.
