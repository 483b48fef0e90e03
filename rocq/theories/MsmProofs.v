(** Proofs about multi-scalar multiplication and the committer. *)
From Verif Require Import Base BaseFacts Alg AlgFacts MsmModel MsmSpec.
Notation len := List.length.
Local Open Scope Z_scope.

(** ** Bytes and bits *)
Lemma le_Z_skipn n : forall l, is_bytes l -> le_Z (skipn n l) = le_Z l / 256 ^ Z.of_nat n.
Proof.
  induction n as [|n IH]; intros l Hl.
  - cbn [skipn]. change (256 ^ Z.of_nat 0) with 1. now rewrite Z.div_1_r.
  - destruct l as [|b l]; cbn [skipn le_Z].
    + rewrite Z.div_0_l; [reflexivity|]. apply Z.pow_nonzero; lia.
    + inversion Hl as [|? ? Hb Hl']; subst. rewrite IH by assumption. rewrite Nat2Z.inj_succ, Z.pow_succ_r by lia.
      rewrite <- Z.div_div by (try apply Z.pow_pos_nonneg; lia).
      replace (b + 256 * le_Z l) with (le_Z l * 256 + b) by ring. rewrite Z.div_add_l by lia.
      unfold is_byte in Hb. rewrite (Z.div_small b) by lia. now rewrite Z.add_0_r.
Qed.
Lemma le_Z_firstn n : forall l, is_bytes l -> le_Z (firstn n l) = le_Z l mod 256 ^ Z.of_nat n.
Proof.
  induction n as [|n IH]; intros l Hl.
  - cbn [firstn le_Z]. change (256 ^ Z.of_nat 0) with 1. now rewrite Z.mod_1_r.
  - destruct l as [|b l]; cbn [firstn le_Z].
    + now rewrite Z.mod_0_l by (apply Z.pow_nonzero; lia).
    + inversion Hl as [|? ? Hb Hl']; subst. rewrite IH by assumption. rewrite Nat2Z.inj_succ, Z.pow_succ_r by lia.
      assert (0 < 256 ^ Z.of_nat n) by (apply Z.pow_pos_nonneg; lia). unfold is_byte in Hb.
      rewrite Z.rem_mul_r by lia. replace (b + 256 * le_Z l) with (b + le_Z l * 256) by ring.
      rewrite Z.mod_add, (Z.mod_small b) by lia. rewrite Z.div_add by lia. rewrite (Z.div_small b) by lia. rewrite Z.add_0_l. reflexivity.
Qed.

Lemma mask_mod x n : 0 <= n -> Z.land x (Z.shiftl 1 n - 1) = x mod 2 ^ n.
Proof. intro. rewrite Z.shiftl_1_l, <- Z.land_ones by assumption. rewrite Z.ones_equiv. now rewrite Z.sub_1_r. Qed.

Lemma land_pow2 x n : 0 <= n -> (Z.land x (2 ^ n) =? 0) = negb (Z.testbit x n).
Proof.
  intro Hn. destruct (Z.testbit x n) eqn:E; cbn [negb].
  - apply Z.eqb_neq. intro X. apply (f_equal (fun z => Z.testbit z n)) in X.
    rewrite Z.land_spec, E, Z.pow2_bits_true, Z.bits_0 in X by assumption. discriminate.
  - apply Z.eqb_eq. apply Z.bits_inj'. intros m Hm. rewrite Z.land_spec, Z.bits_0.
    destruct (Z.eq_dec m n) as [->|N]; [now rewrite E|]. rewrite Z.pow2_bits_false by congruence. apply andb_false_r.
Qed.

Lemma window_bits y r w : 0 <= r -> 0 <= w -> r + w <= 32 ->
  Z.shiftr (y mod 2 ^ 32) r mod 2 ^ w = Z.shiftr y r mod 2 ^ w.
Proof.
  intros Hr Hw Hb. rewrite <- !Z.land_ones by lia. apply Z.bits_inj'. intros m Hm.
  rewrite !Z.land_spec, !Z.shiftr_spec, Z.land_spec by lia. rewrite !Z.testbit_ones_nonneg by lia.
  destruct (Z.ltb_spec (m + r) 32), (Z.ltb_spec m w); rewrite ?andb_true_r, ?andb_false_r; auto; lia.
Qed.

(** The window [i] of a scalar, with the bit below it. *)
Definition window (i w s : Z) : Z := (2 * s) / 2 ^ (w * i) mod 2 ^ (w + 1).
Definition below (i w s : Z) : Z := (2 * s) / 2 ^ (w * i) mod 2.
Definition above (i w s : Z) : Z := (2 * s) / 2 ^ (w * (i + 1)) mod 2.

Lemma tmp_window i w s : 0 <= i -> 1 <= w <= 24 -> 0 <= s < 2 ^ 256 ->
  let skip_bits := Z.max 0 (i * w - 1) in
  let tmp := le_Z (firstn 4 (skipn (Z.to_nat (skip_bits / 8)) (Z_le 32 s) ++ [0; 0; 0; 0])) in
  Z.shiftr (if i =? 0 then (2 * tmp) mod 2 ^ 32 else tmp) (skip_bits - skip_bits / 8 * 8) mod 2 ^ (w + 1) = window i w s.
Proof.
  intros Hi Hw Hs skip tmp. unfold tmp. clear tmp.
  assert (Hb : is_bytes (Z_le 32 s)) by apply Z_le_bytes.
  rewrite le_Z_firstn by (apply is_bytes_app; split; [now apply is_bytes_skipn|repeat constructor; unfold is_byte; lia]).
  rewrite le_Z_app, le_Z_skipn by assumption. change (le_Z [0; 0; 0; 0]) with 0. rewrite Z.mul_0_r, Z.add_0_r.
  rewrite le_Z_Z_le by exact Hs. change (256 ^ Z.of_nat 4) with (2 ^ 32).
  assert (Hk : 0 <= skip / 8) by (apply Z.div_pos; unfold skip; lia).
  rewrite Z2Nat.id by assumption. unfold window.
  destruct (Z.eqb_spec i 0) as [->|N].
  - replace skip with 0 by (unfold skip; lia). rewrite Z.div_0_l, Z.mul_0_r by lia. change (256 ^ 0) with 1. rewrite Z.div_1_r.
    change (2 ^ 0) with 1. rewrite Z.div_1_r. rewrite Zmult_mod_idemp_r. rewrite window_bits by lia. now rewrite Z.shiftr_0_r.
  - pose proof (Z.div_mod skip 8 ltac:(lia)) as D. pose proof (Z.mod_pos_bound skip 8 ltac:(lia)) as B.
    rewrite window_bits by lia. f_equal. rewrite Z.shiftr_div_pow2 by lia.
    change 256 with (2 ^ 8). rewrite <- Z.pow_mul_r by lia. rewrite Z.div_div by (try (apply Z.pow_nonzero); try (apply Z.pow_pos_nonneg); lia).
    rewrite <- Z.pow_add_r by lia. replace (8 * (skip / 8) + (skip - skip / 8 * 8)) with skip by lia.
    assert (E : w * i = Z.succ skip) by (unfold skip; nia). rewrite E. rewrite Z.pow_succ_r by (unfold skip; lia).
    rewrite Z.div_mul_cancel_l by (try (apply Z.pow_nonzero); unfold skip; lia). reflexivity.
Qed.

(** The digit is the window's own bits, plus the bit below, minus the top bit moved up. *)
Lemma booth_digit i w s : 0 <= i -> 1 <= w <= 24 -> 0 <= s < 2 ^ 256 ->
  get_booth_index i w (Z_le 32 s) =
  Ok (s / 2 ^ (w * i) mod 2 ^ w + below i w s - 2 ^ w * above i w s) /\
  Z.abs (s / 2 ^ (w * i) mod 2 ^ w + below i w s - 2 ^ w * above i w s) <= 2 ^ (w - 1).
Proof.
  intros Hi Hw Hs. unfold get_booth_index.
  assert (Ea : assertb (w + 1 <? 32) = Ok tt) by (unfold assertb; destruct (Z.ltb_spec (w + 1) 32); [reflexivity|lia]).
  rewrite Ea. cbn [rbind]. rewrite mask_mod by lia. pose proof (tmp_window i w s Hi Hw Hs) as E. cbv zeta in E. rewrite E. clear E Ea.
  rewrite Z.shiftl_1_l, land_pow2 by lia.
  set (t := window i w s). set (y := (2 * s) / 2 ^ (w * i)).
  assert (P0 : 0 < 2 ^ (w * i)) by (apply Z.pow_pos_nonneg; nia).
  assert (P1 : 0 < 2 ^ (w - 1)) by (apply Z.pow_pos_nonneg; lia).
  assert (Pw : 2 ^ w = 2 * 2 ^ (w - 1)) by (rewrite <- Z.pow_succ_r by lia; f_equal; lia).
  assert (Pw1 : 2 ^ (w + 1) = 2 * 2 ^ w) by (rewrite Z.add_1_r, Z.pow_succ_r by lia; reflexivity).
  assert (Ey : y / 2 = s / 2 ^ (w * i)).
  { unfold y. rewrite Z.div_div by lia. rewrite Z.mul_comm. rewrite Z.mul_comm with (n := 2 ^ (w * i)). now rewrite Z.mul_comm with (n := s), Z.div_mul_cancel_l by lia. }
  assert (Et : t = 2 * (s / 2 ^ (w * i) mod 2 ^ w) + below i w s).
  { unfold t, window. rewrite Pw1. rewrite Z.rem_mul_r by lia. fold y. rewrite Ey. unfold below. fold y. ring. }
  assert (Bl : 0 <= below i w s < 2) by (unfold below; apply Z.mod_pos_bound; lia).
  assert (Ba : 0 <= above i w s < 2) by (unfold above; apply Z.mod_pos_bound; lia).
  assert (Bq : 0 <= s / 2 ^ (w * i) mod 2 ^ w < 2 ^ w) by (apply Z.mod_pos_bound; lia).
  assert (Eu : Z.shiftr (t + 1) 1 = s / 2 ^ (w * i) mod 2 ^ w + below i w s).
  { rewrite Z.shiftr_div_pow2 by lia. change (2 ^ 1) with 2. rewrite Et.
    replace (2 * (s / 2 ^ (w * i) mod 2 ^ w) + below i w s + 1) with (s / 2 ^ (w * i) mod 2 ^ w * 2 + (below i w s + 1)) by ring.
    rewrite Z.div_add_l by lia. f_equal. assert (below i w s = 0 \/ below i w s = 1) as [->| ->] by lia; reflexivity. }
  rewrite Eu.
  assert (Es : above i w s = t / 2 ^ w).
  { unfold above, t, window. fold y. rewrite Z.mul_add_distr_l, Z.mul_1_r, Z.pow_add_r by nia. rewrite <- Z.div_div by lia. fold y.
    rewrite Pw1. replace (2 * 2 ^ w) with (2 ^ w * 2) by ring. rewrite Z.rem_mul_r by lia.
    rewrite Z.mul_comm, Z.div_add by lia. rewrite (Z.div_small (y mod 2 ^ w)) by (apply Z.mod_pos_bound; lia). reflexivity. }
  assert (Etb : Z.testbit t w = (above i w s =? 1)).
  { destruct (Z.testbit t w) eqn:E.
    - symmetry. apply Z.eqb_eq. apply Z.testbit_true in E; [|lia]. rewrite <- Es in E. rewrite Z.mod_small in E by lia. exact E.
    - symmetry. apply Z.eqb_neq. intro X. apply Z.testbit_false in E; [|lia]. rewrite <- Es, X in E. discriminate. }
  rewrite Etb. set (q := s / 2 ^ (w * i) mod 2 ^ w) in *. set (b := below i w s) in *.
  pose proof (Z.div_mod t (2 ^ w) ltac:(lia)) as Dt. rewrite <- Es in Dt. pose proof (Z.mod_pos_bound t (2 ^ w) ltac:(lia)) as Mt.
  assert (above i w s = 0 \/ above i w s = 1) as [E|E] by lia; rewrite E in *; [change (0 =? 1) with false|change (1 =? 1) with true]; cbn [negb].
  - split; [f_equal; lia|lia].
  - split; [|lia]. f_equal. rewrite <- (Z.shiftl_1_l w), mask_mod by lia. unfold not_u32.
    assert (P32 : 2 ^ 32 = 2 ^ w * 2 ^ (32 - w)) by (rewrite <- Z.pow_add_r by lia; f_equal; lia).
    assert (R : (2 ^ 32 - 1 - (q + b - 1)) mod 2 ^ w = 2 ^ w - (q + b)).
    { symmetry. apply (Z.mod_unique _ _ (2 ^ (32 - w) - 1)); [left; lia|]. rewrite P32. ring. }
    rewrite R, Z.shiftl_1_l. ring.
Qed.

(** The windows of a scalar of at most 253 bits add up to it. *)
Definition digit (w s : Z) (i : nat) : Z :=
  s / 2 ^ (w * Z.of_nat i) mod 2 ^ w + below (Z.of_nat i) w s - 2 ^ w * above (Z.of_nat i) w s.

Lemma digits_telescope w s n : 1 <= w -> 0 <= s ->
  forall k, digits_value (2 ^ w) (map (digit w s) (seq k n)) =
    (s / 2 ^ (w * Z.of_nat k)) mod 2 ^ (w * Z.of_nat n) + below (Z.of_nat k) w s - 2 ^ (w * Z.of_nat n) * below (Z.of_nat (k + n)) w s.
Proof.
  intros Hw Hs. induction n as [|n IH]; intro k; cbn [seq map digits_value].
  - rewrite Z.mul_0_r, Nat.add_0_r. change (2 ^ 0) with 1. rewrite Z.mod_1_r. lia.
  - rewrite IH. unfold digit.
    assert (Eab : above (Z.of_nat k) w s = below (Z.of_nat (S k)) w s) by (unfold above, below; do 4 f_equal; lia).
    rewrite Eab. replace (S k + n)%nat with (k + S n)%nat by lia.
    assert (P1 : 0 < 2 ^ w) by (apply Z.pow_pos_nonneg; lia).
    assert (P2 : 0 < 2 ^ (w * Z.of_nat n)) by (apply Z.pow_pos_nonneg; nia).
    assert (P3 : 0 < 2 ^ (w * Z.of_nat k)) by (apply Z.pow_pos_nonneg; nia).
    replace (w * Z.of_nat (S n)) with (w + w * Z.of_nat n) by lia. rewrite Z.pow_add_r by nia.
    rewrite Z.rem_mul_r by lia. replace (w * Z.of_nat (S k)) with (w * Z.of_nat k + w) by lia.
    rewrite Z.pow_add_r by nia. rewrite <- Z.div_div by lia. ring.
Qed.

Lemma digits_exact w s n : 1 <= w -> 0 <= s -> 2 * s < 2 ^ (w * Z.of_nat n) ->
  digits_value (2 ^ w) (map (digit w s) (seq 0 n)) = s.
Proof.
  intros Hw Hs Hb. rewrite digits_telescope by assumption. unfold below. rewrite Nat.add_0_l.
  change (Z.of_nat 0) with 0. rewrite Z.mul_0_r. change (2 ^ 0) with 1. rewrite !Z.div_1_r.
  rewrite (Z.div_small (2 * s)) by lia. rewrite Z.mod_0_l by lia. rewrite Z.mul_comm with (n := 2), Z.mod_mul by lia. rewrite Z.mod_small by lia. ring.
Qed.

Lemma enough_windows w : (1 <= w)%nat -> 254 <= Z.of_nat w * Z.of_nat (253 / w + 1).
Proof.
  intro Hw. pose proof (Nat.div_mod 253 w ltac:(lia)) as D. pose proof (Nat.mod_upper_bound 253 w ltac:(lia)) as B.
  rewrite <- Nat2Z.inj_mul. change 254 with (Z.of_nat 254). apply Nat2Z.inj_le. nia.
Qed.

(** ** Lists *)
Lemma nth_error_concat {X} (ls : list (list X)) m : Forall (fun l => len l = m) ls -> forall i j, (j < m)%nat ->
  nth_error (concat ls) (i * m + j) = match nth_error ls i with Some l => nth_error l j | None => None end.
Proof.
  induction 1 as [|l ls Hl _ IH]; intros i j Hj.
  - destruct (i * m + j)%nat, i; reflexivity.
  - cbn [concat]. destruct i as [|i]; cbn [nth_error].
    + rewrite nth_error_app1 by lia. reflexivity.
    + rewrite nth_error_app2 by lia. rewrite <- IH by assumption. f_equal. lia.
Qed.

Section Group.
Context {A : Alg} {L : AlgLaws A}.
Add Ring Fring : F_ring.
Add Ring dnring : dn_ring.

Lemma multiples_len n p : forall c, len (multiples n p c) = n.
Proof. induction n as [|n IH]; intro c; cbn [multiples len]; [reflexivity|now rewrite IH]. Qed.

Lemma multiples_nth n p : forall c j, (j < n)%nat -> nth_error (multiples n p c) j = Some (gadd c (smul (of_Z (Z.of_nat j)) p)).
Proof.
  induction n as [|n IH]; intros c j Hj; [lia|]. cbn [multiples]. destruct j as [|j]; cbn [nth_error].
  - change (Z.of_nat 0) with 0. rewrite of_Z_0, smul_0_l, gadd_0_r. reflexivity.
  - rewrite IH by lia. f_equal. rewrite Nat2Z.inj_succ, <- Z.add_1_l, of_Z_add, of_Z_1. module.
Qed.

Lemma fpow_of_Z b n : 0 <= b -> fpow (of_Z b) n = of_Z (b ^ Z.of_nat n).
Proof.
  intro Hb. induction n as [|n IH]; cbn [fpow]; [symmetry; apply of_Z_1|].
  rewrite IH, Nat2Z.inj_succ, Z.pow_succ_r by lia. symmetry. apply of_Z_mul.
Qed.

Lemma wrap_small w : 0 <= w <= 24 -> wrap_i32 (2 ^ w) = 2 ^ w.
Proof.
  intro Hw. unfold wrap_i32. assert (0 < 2 ^ w) by (apply Z.pow_pos_nonneg; lia).
  assert (2 ^ w <= 2 ^ 24) by (apply Z.pow_le_mono_r; lia). change (2 ^ 24) with 16777216 in *. rewrite Z.mod_small; lia.
Qed.

(** ** The precomputed tables *)
Lemma table_nth w n p i j : (1 <= w <= 24)%nat -> (i < n)%nat -> 0 <= j < 2 ^ (Z.of_nat w - 1) ->
  nth_error (precompute_points w n p) (Z.to_nat (Z.of_nat i * 2 ^ (Z.of_nat w - 1) + j)) =
  Some (smul (of_Z ((j + 1) * 2 ^ (Z.of_nat w * Z.of_nat i))) p).
Proof.
  intros Hw Hi Hj. unfold precompute_points. rewrite !wrap_small by lia.
  set (m := Z.to_nat (2 ^ (Z.of_nat w - 1))).
  assert (Em : Z.of_nat m = 2 ^ (Z.of_nat w - 1)) by (unfold m; rewrite Z2Nat.id; lia).
  replace (Z.to_nat (Z.of_nat i * 2 ^ (Z.of_nat w - 1) + j)) with (i * m + Z.to_nat j)%nat.
  2:{ rewrite <- Em. apply Nat2Z.inj. rewrite Z2Nat.id by nia. rewrite Nat2Z.inj_add, Nat2Z.inj_mul, Z2Nat.id by lia. reflexivity. }
  rewrite nth_error_concat; [|apply Forall_forall; intros l Hl; apply in_map_iff in Hl as (k & <- & _); apply multiples_len|lia].
  rewrite nth_error_map. rewrite (nth_error_nth' (seq 0 n) 0%nat) by (rewrite seq_length; lia). rewrite seq_nth by lia. cbn [option_map].
  rewrite multiples_nth by lia. f_equal. rewrite Z2Nat.id by lia. rewrite fpow_of_Z by (apply Z.pow_nonneg; lia).
  rewrite <- Z.pow_mul_r by lia. rewrite Nat.add_0_l, of_Z_mul, of_Z_add, of_Z_1. module.
Qed.

(** ** Sums *)
Definition lsum (l : list G) : G := fold_right gadd gzero l.
Lemma lsum_app a b : lsum (a ++ b) = gadd (lsum a) (lsum b).
Proof. induction a as [|x a IH]; cbn [lsum fold_right app]; [now rewrite gadd_0_l|]. fold (lsum (a ++ b)). fold (lsum a). rewrite IH. apply gadd_assoc. Qed.
Lemma fold_left_lsum l : forall a, fold_left gadd l a = gadd a (lsum l).
Proof.
  induction l as [|x l IH]; intro a; cbn [fold_left lsum fold_right]; [now rewrite gadd_0_r|].
  rewrite IH. fold (lsum l). symmetry. apply gadd_assoc.
Qed.
Lemma fold_left_lsum0 l : fold_left gadd l gzero = lsum l.
Proof. rewrite fold_left_lsum. apply gadd_0_l. Qed.

Lemma par_sum_ok s : forall l, par_sum s l = lsum l.
Proof.
  induction s as [|k a IHa b IHb]; intro l; cbn [par_sum]; [apply fold_left_lsum0|].
  rewrite IHa, IHb, <- lsum_app. now rewrite firstn_skipn.
Qed.

(** Weighted sums over pairs of a scalar and a base. *)
Definition wsum {X} (f : X -> Z) (l : list (X * G)) : G := lsum (map (fun e => smul (of_Z (f (fst e))) (snd e)) l).
Lemma wsum_add {X} (f g : X -> Z) l : gadd (wsum f l) (wsum g l) = wsum (fun x => f x + g x) l.
Proof.
  unfold wsum, lsum. induction l as [|[x p] l IH]; cbn [map fold_right fst snd]; [apply gadd_0_l|].
  rewrite <- IH, of_Z_add. module.
Qed.
Lemma wsum_zero {X} (l : list (X * G)) : wsum (fun _ => 0) l = gzero.
Proof. unfold wsum, lsum. induction l as [|[x p] l IH]; cbn [map fold_right fst snd]; [reflexivity|]. rewrite IH, of_Z_0, smul_0_l. apply gadd_0_l. Qed.
Lemma wsum_ext {X} (f g : X -> Z) (l : list (X * G)) : (forall x, f x = g x) -> wsum f l = wsum g l.
Proof. intro E. unfold wsum. f_equal. apply map_ext. intros [x p]. cbn [fst snd]. now rewrite E. Qed.

Context {I : FrInt A} {IL : FrIntLaws I}.

Lemma window_point_ok w n bases i k s p : (1 <= w <= 24)%nat -> (i < n)%nat ->
  nth_error bases k = Some p ->
  exists ps, window_point (mkMSM (map (precompute_points w n) bases) n w) i k (Z_le 32 (fr_int s)) = Ok ps /\
    lsum ps = smul (of_Z (digit (Z.of_nat w) (fr_int s) i * 2 ^ (Z.of_nat w * Z.of_nat i))) p.
Proof.
  intros Hw Hi Hk. pose proof (fr_int_range s) as Hs.
  assert (Hs' : 0 <= fr_int s < 2 ^ 256) by (assert (2 ^ 253 < 2 ^ 256) by reflexivity; lia).
  destruct (booth_digit (Z.of_nat i) (Z.of_nat w) (fr_int s) ltac:(lia) ltac:(lia) Hs') as [Eb Bd].
  unfold window_point. cbn [ms_tables ms_window_size]. unfold index at 1. rewrite nth_error_map, Hk. cbn [option_map unwrap rbind].
  rewrite Eb. cbn [rbind]. fold (digit (Z.of_nat w) (fr_int s) i) in *. set (d := digit (Z.of_nat w) (fr_int s) i) in *.
  destruct (Z.eqb_spec d 0) as [->|N].
  - exists []. split; [reflexivity|]. rewrite Z.mul_0_l, of_Z_0, smul_0_l. reflexivity.
  - rewrite Z.shiftl_1_l. unfold index. rewrite table_nth by (try assumption; lia). cbn [unwrap rbind].
    eexists. split; [reflexivity|]. cbn [lsum fold_right]. rewrite gadd_0_r.
    replace (Z.abs d - 1 + 1) with (Z.abs d) by lia.
    destruct (Z.ltb_spec 0 d).
    + rewrite Z.abs_eq by lia. reflexivity.
    + rewrite Z.abs_neq by lia. rewrite Z.mul_opp_l, of_Z_opp. module.
Qed.

Lemma window_points_ok w n i scalars : (1 <= w <= 24)%nat -> (i < n)%nat -> forall pre bases, (len scalars <= len bases)%nat ->
  exists ps, window_points (mkMSM (map (precompute_points w n) (pre ++ bases)) n w) i (len pre)
      (map (fun a => Z_le 32 (fr_int a)) scalars) = Ok ps /\
    lsum ps = wsum (fun s => digit (Z.of_nat w) (fr_int s) i * 2 ^ (Z.of_nat w * Z.of_nat i)) (combine scalars bases).
Proof.
  intros Hw Hi. induction scalars as [|s scalars IH]; intros pre bases Hl.
  - exists []. split; reflexivity.
  - destruct bases as [|p bases]; [cbn [len] in Hl; lia|]. cbn [map window_points].
    destruct (window_point_ok w n (pre ++ p :: bases) i (len pre) s p Hw Hi) as (ps & -> & E1).
    { rewrite nth_error_app2 by lia. rewrite Nat.sub_diag. reflexivity. }
    cbn [rbind]. destruct (IH (pre ++ [p]) bases) as (qs & E & E2); [cbn [len] in Hl; lia|].
    rewrite <- app_assoc, app_length in E. cbn [app len] in E. rewrite Nat.add_1_r in E. rewrite E. cbn [rbind].
    eexists. split; [reflexivity|]. rewrite lsum_app, E1, E2. reflexivity.
Qed.

Definition windows_weight (w : nat) (is : list nat) (s : F) : Z :=
  fold_right Z.add 0 (map (fun i => digit (Z.of_nat w) (fr_int s) i * 2 ^ (Z.of_nat w * Z.of_nat i)) is).

Lemma all_windows_ok w n scalars bases : (1 <= w <= 24)%nat -> (len scalars <= len bases)%nat -> forall is, (forall i, In i is -> (i < n)%nat) ->
  exists ps, all_window_points (mkMSM (map (precompute_points w n) bases) n w) is (map (fun a => Z_le 32 (fr_int a)) scalars) = Ok ps /\
    lsum ps = wsum (windows_weight w is) (combine scalars bases).
Proof.
  intros Hw Hl. induction is as [|i is IH]; intro Hi.
  - exists []. split; [reflexivity|]. symmetry. apply wsum_zero.
  - cbn [all_window_points]. destruct (window_points_ok w n i scalars Hw (Hi i (or_introl eq_refl)) [] bases Hl) as (ps & E & E1).
    cbn [app len] in E. rewrite E. cbn [rbind]. destruct IH as (qs & -> & E2); [intros; apply Hi; now right|]. cbn [rbind].
    eexists. split; [reflexivity|]. rewrite lsum_app, E1, E2, wsum_add. reflexivity.
Qed.

Lemma weight_digits w s n : forall k, windows_weight w (seq k n) s =
  2 ^ (Z.of_nat w * Z.of_nat k) * digits_value (2 ^ Z.of_nat w) (map (digit (Z.of_nat w) (fr_int s)) (seq k n)).
Proof.
  unfold windows_weight. induction n as [|n IH]; intro k; cbn [seq map fold_right digits_value]; [ring|].
  rewrite IH. replace (Z.of_nat w * Z.of_nat (S k)) with (Z.of_nat w * Z.of_nat k + Z.of_nat w) by lia.
  rewrite Z.pow_add_r by lia. ring.
Qed.

Theorem msm_ok w bases scalars t : (1 <= w <= 24)%nat -> (len scalars <= len bases)%nat ->
  msm_new bases w = Ok t -> msm_mul t scalars = Ok (combination scalars bases).
Proof.
  intros Hw Hl E. unfold msm_new in E. destruct (assertb _); cbn [rbind] in E; [|discriminate]. injection E as <-.
  unfold msm_mul. cbn [ms_num_windows].
  destruct (all_windows_ok w (253 / w + 1) scalars bases Hw Hl (seq 0 (253 / w + 1))) as (ps & -> & E).
  { intros i Hi. apply in_seq in Hi. lia. }
  cbn [rbind]. f_equal. rewrite fold_left_lsum0, E. unfold combination, wsum, lsum. f_equal. apply map_ext. intros [s p]. cbn [fst snd].
  f_equal. rewrite weight_digits. change (Z.of_nat 0) with 0. rewrite Z.mul_0_r. change (2 ^ 0) with 1. rewrite Z.mul_1_l.
  pose proof (fr_int_range s) as Hs. rewrite digits_exact; [apply fr_int_of|lia|lia|].
  apply Z.lt_le_trans with (2 ^ 254); [change (2 ^ 254) with (2 * 2 ^ 253); lia|]. apply Z.pow_le_mono_r; [lia|]. apply enough_windows. lia.
Qed.

Lemma msm_new_ok w bases : (1 <= w <= 24)%nat -> exists t, msm_new bases w = Ok t.
Proof. intro Hw. unfold msm_new. destruct (Nat.ltb_spec 0 w); [|lia]. destruct (Nat.ltb_spec w 32); [|lia]. cbn [andb assertb rbind]. eauto. Qed.

(** Too many scalars. *)
Lemma window_points_panic t i : forall scalars k, (len (ms_tables t) < k + len scalars)%nat -> (k <= len (ms_tables t))%nat ->
  window_points t i k scalars = Panic.
Proof.
  induction scalars as [|b scalars IH]; intros k H1 H2; cbn [len] in *; [lia|]. cbn [window_points].
  destruct (Nat.eq_dec k (len (ms_tables t))) as [->|N].
  - unfold window_point, index. rewrite (proj2 (nth_error_None _ _)) by lia. reflexivity.
  - destruct (window_point t i k b); cbn [rbind]; [|reflexivity]. rewrite IH by lia. reflexivity.
Qed.
Lemma msm_too_many w bases scalars t : (len bases < len scalars)%nat -> msm_new bases w = Ok t -> msm_mul t scalars = Panic.
Proof.
  intros Hl E. unfold msm_new in E. destruct (assertb _); cbn [rbind] in E; [|discriminate]. injection E as <-.
  unfold msm_mul. cbn [ms_num_windows]. rewrite Nat.add_1_r. cbn [seq all_window_points].
  rewrite window_points_panic; [reflexivity| |]; cbn [ms_tables]; rewrite ?map_length; lia.
Qed.

(** ** wNAF and the committer *)
Context {W : Wnaf A} {WL : WnafLaws W}.

Lemma wnaf_products_ok w scalars : (2 <= w < 64)%nat -> forall bases,
  exists ps, wnaf_products w (combine scalars (map (wn_table w) bases)) = Ok ps /\ lsum ps = combination scalars bases.
Proof.
  intro Hw. unfold combination. induction scalars as [|s scalars IH]; intros [|p bases]; cbn [map combine wnaf_products]; try (exists []; split; reflexivity).
  destruct (IH bases) as (ps & E1 & E2). destruct (feqb s fzero) eqn:Es.
  - exists ps. split; [exact E1|]. apply feqb_true in Es. subst s. cbn [fold_right map combine]. rewrite smul_0_l, gadd_0_l. exact E2.
  - rewrite wn_ok by exact Hw. cbn [unwrap rbind]. rewrite E1. cbn [rbind]. eexists. split; [reflexivity|].
    cbn [lsum fold_right]. fold (lsum ps). rewrite E2. reflexivity.
Qed.
Lemma wnaf_mul_ok w bases scalars : (2 <= w < 64)%nat -> wnaf_mul (wnaf_new bases w) scalars = Ok (combination scalars bases).
Proof.
  intro Hw. unfold wnaf_mul. cbn [wnaf_new mw_tables mw_window]. destruct (wnaf_products_ok w scalars Hw bases) as (ps & -> & <-).
  cbn [rbind]. now rewrite fold_left_lsum0.
Qed.
Lemma wnaf_mul_par_ok sp w bases scalars : (2 <= w < 64)%nat -> wnaf_mul_par sp (wnaf_new bases w) scalars = Ok (combination scalars bases).
Proof.
  intro Hw. unfold wnaf_mul_par. cbn [wnaf_new mw_tables mw_window]. destruct (wnaf_products_ok w scalars Hw bases) as (ps & -> & <-).
  cbn [rbind]. now rewrite par_sum_ok.
Qed.
Lemma wnaf_index_ok w bases s i : (2 <= w < 64)%nat ->
  wnaf_mul_index (wnaf_new bases w) s i = match nth_error bases i with Some p => Ok (smul s p) | None => Panic end.
Proof.
  intro Hw. unfold wnaf_mul_index. cbn [wnaf_new mw_tables mw_window]. unfold index. rewrite nth_error_map.
  destruct (nth_error bases i); cbn [option_map unwrap rbind]; [|reflexivity]. now rewrite wn_ok.
Qed.

Lemma combination_firstn scalars : forall n points, (len scalars <= n)%nat -> combination scalars (firstn n points) = combination scalars points.
Proof.
  unfold combination. induction scalars as [|s scalars IH]; intros n points Hl; [reflexivity|].
  destruct n; [cbn [len] in Hl; lia|]. destruct points as [|p points]; [reflexivity|]. cbn [firstn combine map fold_right].
  rewrite IH by (cbn [len] in Hl; lia). reflexivity.
Qed.

Theorem commit_lagrange_ok points c : committer_new points = Ok c -> forall split evaluations,
  commit_lagrange split c evaluations = Ok (combination evaluations points).
Proof.
  intro E. unfold committer_new in E. destruct (Nat.leb_spec 5 (len points)) as [Hp|]; cbn [assertb rbind] in E; [|discriminate].
  destruct (msm_new (firstn 5 points) 16) as [t|] eqn:Et; cbn [rbind] in E; [|discriminate]. injection E as <-.
  intros split ev. unfold commit_lagrange. cbn [cm_five cm_precomp]. destruct (Nat.leb_spec (len ev) 5).
  - rewrite (msm_ok 16 (firstn 5 points) ev t) by (try rewrite firstn_length; try assumption; lia). f_equal. now apply combination_firstn.
  - destruct (Nat.leb_spec 64 (len ev)); [apply wnaf_mul_par_ok|apply wnaf_mul_ok]; lia.
Qed.

Lemma combination_single v i : forall n k points, (k <= i < k + n)%nat ->
  combination (map (fun j => if (j =? i)%nat then v else fzero) (seq k n)) points =
  match nth_error points (i - k) with Some p => smul v p | None => gzero end.
Proof.
  unfold combination. induction n as [|n IH]; intros k points Hi; [lia|]. cbn [seq map].
  destruct points as [|p points]; [destruct (i - k)%nat; reflexivity|]. cbn [combine map fold_right].
  destruct (Nat.eqb_spec k i) as [->|N].
  - rewrite Nat.sub_diag. cbn [nth_error].
    assert (Z : fold_right gadd gzero (map (fun '(s, q) => smul s q) (combine (map (fun j => if (j =? i)%nat then v else fzero) (seq (S i) n)) points)) = gzero).
    { clear IH Hi. assert (B : forall j, In j (seq (S i) n) -> j <> i) by (intros j Hj; apply in_seq in Hj; lia).
      revert points B. induction (seq (S i) n) as [|j l IH]; intros points B; [reflexivity|]. destruct points as [|q points]; [reflexivity|].
      cbn [map combine fold_right]. destruct (Nat.eqb_spec j i) as [->|]; [exfalso; exact (B i (or_introl eq_refl) eq_refl)|].
      rewrite IH by (intros; apply B; now right). rewrite smul_0_l. apply gadd_0_l. }
    rewrite Z. apply gadd_0_r.
  - rewrite IH by lia. rewrite smul_0_l, gadd_0_l. replace (i - k)%nat with (S (i - S k)) by lia. reflexivity.
Qed.

Theorem scalar_mul_ok points c : committer_new points = Ok c -> forall v i,
  committer_scalar_mul c v i = match nth_error points i with Some p => Ok (smul v p) | None => Panic end.
Proof.
  intro E. unfold committer_new in E. destruct (Nat.leb_spec 5 (len points)) as [Hp|]; cbn [assertb rbind] in E; [|discriminate].
  destruct (msm_new (firstn 5 points) 16) as [t|] eqn:Et; cbn [rbind] in E; [|discriminate]. injection E as <-.
  intros v i. unfold committer_scalar_mul. cbn [cm_five cm_precomp]. destruct (Nat.ltb_spec i 5).
  - set (arr := map (fun j => if (j =? i)%nat then v else fzero) (seq 0 5)).
    assert (La : len arr = 5%nat) by (unfold arr; now rewrite map_length, seq_length).
    rewrite (msm_ok 16 (firstn 5 points) arr t); [|lia|rewrite firstn_length; lia|exact Et]. unfold arr.
    rewrite combination_firstn by (rewrite map_length, seq_length; lia). rewrite combination_single by lia. rewrite Nat.sub_0_r.
    destruct (nth_error points i) eqn:En; [reflexivity|]. apply nth_error_None in En. lia.
  - apply wnaf_index_ok. lia.
Qed.

Lemma sparse_from_ok points c : committer_new points = Ok c -> forall l acc,
  (forall v i, In (v, i) l -> (i < len points)%nat) ->
  sparse_from c acc l = Ok (gadd acc (lsum (map (fun '(v, i) => smul v (nth i points gzero)) l))).
Proof.
  intros E l. induction l as [|[v i] l IH]; intros acc Hl; cbn [sparse_from map lsum fold_right]; [now rewrite gadd_0_r|].
  rewrite (scalar_mul_ok points c E). rewrite (nth_error_nth' points gzero) by (eapply Hl; left; reflexivity). cbn [rbind].
  rewrite IH by (intros; eapply Hl; right; eassumption). f_equal. fold (lsum (map (fun '(v0, i0) => smul v0 (nth i0 points gzero)) l)).
  symmetry. apply gadd_assoc.
Qed.
Lemma sparse_from_panic points c : committer_new points = Ok c -> forall l acc v i,
  In (v, i) l -> (len points <= i)%nat -> sparse_from c acc l = Panic.
Proof.
  intros E l. induction l as [|[v i] l IH]; intros acc v' i' Hi Hn; [destruct Hi|]. cbn [sparse_from].
  rewrite (scalar_mul_ok points c E). destruct Hi as [X|Hi].
  - injection X as <- <-. rewrite (proj2 (nth_error_None _ _)) by lia. reflexivity.
  - destruct (nth_error points i); cbn [rbind]; [|reflexivity]. eapply IH; eauto.
Qed.

(** ** Linearity *)
Lemma combination_bump points : forall v i d, (i < len v)%nat -> (i < len points)%nat ->
  combination (bump v i d) points = gadd (combination v points) (smul d (nth i points gzero)).
Proof.
  unfold combination. induction points as [|p points IH]; intros v i d H1 H2; [cbn [len] in H2; lia|].
  destruct v as [|x v]; [cbn [len] in H1; lia|]. destruct i as [|i].
  - cbn [bump firstn nth_error app skipn combine map fold_right nth]. module.
  - change (bump (x :: v) (S i) d) with (x :: bump v i d). cbn [combine map fold_right nth].
    specialize (IH v i d). cbn [len] in *. rewrite IH by lia. module.
Qed.

Lemma combination_add points : forall a b, len a = len b ->
  combination (map (fun '(x, y) => fadd x y) (combine a b)) points = gadd (combination a points) (combination b points).
Proof.
  unfold combination. induction points as [|p points IH]; intros a b Hl.
  - destruct a, b; cbn in *; try discriminate; symmetry; apply gadd_0_l.
  - destruct a as [|x a], b as [|y b]; try discriminate; [symmetry; apply gadd_0_l|]. cbn [combine map fold_right].
    rewrite IH by (cbn [len] in Hl; lia). module.
Qed.
End Group.

Lemma booth_digits_exact w s : (1 <= w <= 24)%nat -> 0 <= s < 2 ^ 253 ->
  exists ds, len ds = (253 / w + 1)%nat /\
    (forall i d, nth_error ds i = Some d -> get_booth_index (Z.of_nat i) (Z.of_nat w) (Z_le 32 s) = Ok d /\ Z.abs d <= 2 ^ (Z.of_nat w - 1)) /\
    digits_value (2 ^ Z.of_nat w) ds = s.
Proof.
  intros Hw Hs. exists (map (digit (Z.of_nat w) s) (seq 0 (253 / w + 1))). split; [now rewrite map_length, seq_length|]. split.
  - intros i d E. rewrite nth_error_map in E. destruct (nth_error (seq 0 (253 / w + 1)) i) as [j|] eqn:Ej; [|discriminate].
    injection E as <-. assert (Hi : (i < 253 / w + 1)%nat).
    { rewrite <- (seq_length (253 / w + 1) 0). apply nth_error_Some. rewrite Ej. discriminate. }
    rewrite (nth_error_nth' _ 0%nat) in Ej by (rewrite seq_length; exact Hi). rewrite seq_nth in Ej by exact Hi. injection Ej as <-.
    apply booth_digit; [lia|lia|]. assert (2 ^ 253 < 2 ^ 256) by reflexivity. lia.
  - apply digits_exact; [lia|lia|]. apply Z.lt_le_trans with (2 ^ 254); [change (2 ^ 254) with (2 * 2 ^ 253); lia|].
    apply Z.pow_le_mono_r; [lia|]. apply enough_windows. lia.
Qed.

Section Sparse.
Context {A : Alg} {L : AlgLaws A} {I : FrInt A} {IL : FrIntLaws I} {W : Wnaf A} {WL : WnafLaws W}.
Lemma committer_new_ok points : (5 <= len points)%nat <-> exists c, committer_new points = Ok c.
Proof.
  unfold committer_new. destruct (Nat.leb_spec 5 (len points)); cbn [assertb rbind].
  - split; auto. intros _. destruct (msm_new_ok 16 (firstn 5 points)) as (t & ->); [lia|]. cbn [rbind]. eauto.
  - split; [lia|]. intros (c & E). discriminate.
Qed.
Lemma commit_sparse_ok points c l : committer_new points = Ok c ->
  (forall v i, In (v, i) l -> (i < len points)%nat) ->
  committer_commit_sparse c l = Ok (combination (map fst l) (map (fun e => nth (snd e) points gzero) l)).
Proof.
  intros E Hl. unfold committer_commit_sparse. rewrite (sparse_from_ok points c E) by assumption. f_equal. rewrite gadd_0_l.
  unfold combination, lsum. f_equal. clear. induction l as [|[v i] l IH]; cbn [map combine fst snd]; [reflexivity|]. now rewrite IH.
Qed.
Lemma commit_sparse_panic points c l v i : committer_new points = Ok c -> In (v, i) l -> (len points <= i)%nat ->
  committer_commit_sparse c l = Panic.
Proof. intros E Hi Hn. unfold committer_commit_sparse. eapply sparse_from_panic; eauto. Qed.

Lemma bump_len v i (d : F) : (i < len v)%nat -> len (bump v i d) = len v.
Proof.
  intro Hi. unfold bump. rewrite !app_length, firstn_length, skipn_length. destruct (nth_error v i) eqn:E.
  - cbn [len]. lia.
  - apply nth_error_None in E. lia.
Qed.

(** Adding the sparse commitment of changes commits to the changed vector. *)
Lemma sparse_delta points c : committer_new points = Ok c -> forall l v,
  (len v <= len points)%nat -> (forall d i, In (d, i) l -> (i < len v)%nat) ->
  exists delta, committer_commit_sparse c l = Ok delta /\
    gadd (combination v points) delta = combination (fold_left (fun u e => bump u (snd e) (fst e)) l v) points.
Proof.
  intros E l v Hv Hl. unfold committer_commit_sparse. rewrite (sparse_from_ok points c E) by (intros d i Hi; apply Hl in Hi; lia).
  eexists. split; [reflexivity|]. rewrite gadd_0_l. revert v Hv Hl. induction l as [|[d i] l IH]; intros v Hv Hl; cbn [fold_left map lsum fold_right fst snd].
  - apply gadd_0_r.
  - assert (Hi : (i < len v)%nat) by (eapply Hl; left; reflexivity).
    rewrite <- IH; rewrite ?bump_len; auto; [|intros d' i' Hi'; eapply Hl; right; eassumption].
    rewrite combination_bump by lia. rewrite gadd_assoc. reflexivity.
Qed.
End Sparse.

Section Statements.
Context {A : Alg} {L : AlgLaws A} {I : FrInt A} {IL : FrIntLaws I} {W : Wnaf A} {WL : WnafLaws W}.
Lemma windowed_product w bases scalars : (1 <= w <= 24)%nat ->
  exists t, msm_new bases w = Ok t /\
    ((len scalars <= len bases)%nat -> msm_mul t scalars = Ok (combination scalars bases)) /\
    ((len bases < len scalars)%nat -> msm_mul t scalars = Panic).
Proof.
  intro Hw. destruct (msm_new_ok w bases Hw) as (t & E). exists t. split; [exact E|]. split; intro Hl.
  - now apply (msm_ok w).
  - now apply (msm_too_many w bases).
Qed.
Lemma committer_additive points c split a b ca cb : committer_new points = Ok c -> len a = len b ->
  commit_lagrange split c a = Ok ca -> commit_lagrange split c b = Ok cb ->
  commit_lagrange split c (map (fun '(x, y) => fadd x y) (combine a b)) = Ok (gadd ca cb).
Proof.
  intros E Hl Ea Eb. rewrite (commit_lagrange_ok points c E) in *. injection Ea as <-. injection Eb as <-. f_equal. now apply combination_add.
Qed.
Lemma committer_delta points c split v l cv : committer_new points = Ok c ->
  (len v <= len points)%nat -> (forall d i, In (d, i) l -> (i < len v)%nat) ->
  commit_lagrange split c v = Ok cv ->
  exists delta, committer_commit_sparse c l = Ok delta /\
    commit_lagrange split c (fold_left (fun u e => bump u (snd e) (fst e)) l v) = Ok (gadd cv delta).
Proof.
  intros E Hv Hl Ev. destruct (sparse_delta points c E l v Hv Hl) as (delta & Ed & Es). exists delta. split; [exact Ed|].
  rewrite (commit_lagrange_ok points c E) in *. injection Ev as <-. now rewrite Es.
Qed.
End Statements.

(** A 25-bit window whose sign bit is beyond the four bytes read. *)
Lemma window_25 : exists s, 0 <= s < 2 ^ 253 /\
  forall ds, (forall i d, nth_error ds i = Some d -> get_booth_index (Z.of_nat i) 25 (Z_le 32 s) = Ok d) ->
    len ds = (253 / 25 + 1)%nat -> digits_value (2 ^ 25) ds <> s.
Proof.
  exists (2 ^ 224). split; [split; [apply Z.pow_nonneg; lia|reflexivity]|].
  intros ds Hd Hl E.
  assert (X : map (fun i => get_booth_index (Z.of_nat i) 25 (Z_le 32 (2 ^ 224))) (seq 0 11) = map Ok ds).
  { change (253 / 25 + 1)%nat with 11%nat in Hl.
    apply nth_ext with (d := Panic) (d' := Panic); rewrite !map_length, seq_length; [auto|].
    intros n Hn. rewrite nth_indep with (d' := get_booth_index (Z.of_nat 0) 25 (Z_le 32 (2 ^ 224))) by (rewrite map_length, seq_length; exact Hn).
    rewrite (map_nth (fun i => get_booth_index (Z.of_nat i) 25 (Z_le 32 (2 ^ 224)))), seq_nth by exact Hn. rewrite Nat.add_0_l.
    destruct (nth_error ds n) as [d|] eqn:En; [|apply nth_error_None in En; lia].
    rewrite (Hd n d En). symmetry. apply nth_error_nth. rewrite nth_error_map, En. reflexivity. }
  vm_compute in X. repeat (destruct ds as [|? ds]; [discriminate|]). destruct ds; [|discriminate].
  injection X as <- <- <- <- <- <- <- <- <- <- <-. revert E. vm_compute. discriminate.
Qed.
