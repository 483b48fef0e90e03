(** The committer on groups that are not modules over the scalar field, where multiplying by a scalar
    is adding up as often as the integer that stands for it.  The coordinate pairs of the curve, of
    which two stand for one element, are such a group. *)
From Verif Require Import Base BaseFacts Alg MsmModel MsmSpec MsmProofs MsmInst.
Notation len := List.length.
Local Open Scope Z_scope.

(** z times p. *)
Definition zmul {A : Alg} (z : Z) (p : G) : G :=
  let n := Nat.iter (Z.to_nat (Z.abs z)) (gadd p) gzero in if z <? 0 then gopp n else n.

(** An abelian group and scalars below [N] that act on it as integers. *)
Class IntModule (A : Alg) (I : FrInt A) (N : Z) : Prop := {
  im_comm : forall x y : G, gadd x y = gadd y x;
  im_assoc : forall x y z : G, gadd x (gadd y z) = gadd (gadd x y) z;
  im_zero : forall x : G, gadd gzero x = x;
  im_opp : forall x : G, gadd x (gopp x) = gzero;
  im_smul : forall (s : F) (p : G), smul s p = zmul (fr_int s) p;
  im_one : of_Z 1 = fone;
  im_mul : forall a b, of_Z (a * b) = fmul (of_Z a) (of_Z b);
  im_feqb : forall x : F, feqb x fzero = true -> fr_int x = 0;
  im_fzero : fr_int fzero = 0;
  im_range : forall x : F, 0 <= fr_int x < 2 ^ 253;
  im_int : forall z, 0 <= z < N -> fr_int (of_Z z) = z
}.

Section Int.
Context {A : Alg} {I : FrInt A} {N : Z} {M : IntModule A I N}.

Lemma im_zero_r (x : G) : gadd x gzero = x.
Proof. rewrite im_comm. apply im_zero. Qed.
Lemma im_cancel (x y z : G) : gadd x y = gadd x z -> y = z.
Proof.
  intro E. rewrite <- (im_zero y), <- (im_zero z), <- (im_opp x), (im_comm x (gopp x)), <- !im_assoc, E. reflexivity.
Qed.
Lemma im_opp_unique (x y : G) : gadd x y = gzero -> y = gopp x.
Proof. intro E. apply (im_cancel x). now rewrite E, im_opp. Qed.
Lemma im_opp_opp (x : G) : gopp (gopp x) = x.
Proof. symmetry. apply im_opp_unique. rewrite im_comm. apply im_opp. Qed.
Lemma im_opp_add (x y : G) : gopp (gadd x y) = gadd (gopp x) (gopp y).
Proof.
  symmetry. apply im_opp_unique. rewrite im_assoc, <- (im_assoc x y), (im_comm y (gopp x)), im_assoc, im_opp, im_zero. apply im_opp.
Qed.
Lemma im_opp_zero : gopp gzero = gzero.
Proof. symmetry. apply im_opp_unique. apply im_zero. Qed.

Definition nmul (n : nat) (p : G) : G := Nat.iter n (gadd p) gzero.
Lemma nmul_S n p : nmul (S n) p = gadd p (nmul n p).
Proof. reflexivity. Qed.
Lemma nmul_add m n p : nmul (m + n) p = gadd (nmul m p) (nmul n p).
Proof. induction m as [|m IH]; [symmetry; apply im_zero|]. cbn [Nat.add]. rewrite !nmul_S, IH. apply im_assoc. Qed.
Lemma zmul_nat n p : zmul (Z.of_nat n) p = nmul n p.
Proof. unfold zmul. destruct (Z.ltb_spec (Z.of_nat n) 0); [lia|]. rewrite Z.abs_eq, Nat2Z.id by lia. reflexivity. Qed.
Lemma zmul_pos z p : 0 <= z -> zmul z p = nmul (Z.to_nat z) p.
Proof. intro H. rewrite <- (Z2Nat.id z) at 1 by exact H. apply zmul_nat. Qed.
Lemma zmul_0 p : zmul 0 p = gzero.
Proof. reflexivity. Qed.
Lemma zmul_1 p : zmul 1 p = p.
Proof. change 1 with (Z.of_nat 1). rewrite zmul_nat. apply im_zero_r. Qed.
Lemma zmul_opp z p : zmul (- z) p = gopp (zmul z p).
Proof.
  unfold zmul. rewrite Z.abs_opp. destruct (Z.ltb_spec (- z) 0), (Z.ltb_spec z 0); try lia.
  - reflexivity.
  - symmetry. apply im_opp_opp.
  - replace z with 0 by lia. symmetry. apply im_opp_zero.
Qed.
Lemma zmul_succ z p : zmul (z + 1) p = gadd p (zmul z p).
Proof.
  destruct (Z.lt_ge_cases z 0) as [Hn|Hp].
  - replace z with (- (1 + (- z - 1))) at 2 by lia. replace (z + 1) with (- (- z - 1)) by lia. rewrite !zmul_opp, !zmul_pos by lia.
    replace (Z.to_nat (1 + (- z - 1))) with (S (Z.to_nat (- z - 1))) by lia. rewrite nmul_S, im_opp_add, im_assoc, im_opp. symmetry. apply im_zero.
  - rewrite !zmul_pos by lia. replace (Z.to_nat (z + 1)) with (S (Z.to_nat z)) by lia. apply nmul_S.
Qed.
Lemma zmul_add a b p : zmul (a + b) p = gadd (zmul a p) (zmul b p).
Proof.
  revert b. apply (Z.bi_induction (fun a => forall b, zmul (a + b) p = gadd (zmul a p) (zmul b p))).
  - now intros x y ->.
  - intro b. rewrite zmul_0, im_zero. reflexivity.
  - intro n. rewrite <- Z.add_1_r. split; intros IH b.
    + replace (n + 1 + b) with (n + b + 1) by ring. rewrite !zmul_succ, IH. apply im_assoc.
    + apply (im_cancel p). rewrite <- zmul_succ. replace (n + b + 1) with (n + 1 + b) by ring. rewrite IH, zmul_succ. symmetry. apply im_assoc.
Qed.
Lemma zmul_mul a b p : zmul (a * b) p = zmul a (zmul b p).
Proof.
  apply (Z.bi_induction (fun a => zmul (a * b) p = zmul a (zmul b p))).
  - now intros x y ->.
  - rewrite Z.mul_0_l, !zmul_0. reflexivity.
  - intro n. rewrite <- Z.add_1_r, Z.mul_add_distr_r, Z.mul_1_l, zmul_add, zmul_succ, (im_comm (zmul b p)). split; intro IH.
    + now rewrite IH.
    + apply (im_cancel (zmul b p)). rewrite (im_comm _ (zmul (n * b) p)), IH. apply im_comm.
Qed.
Lemma zmul_gadd a x y : zmul a (gadd x y) = gadd (zmul a x) (zmul a y).
Proof.
  assert (S4 : forall a b c d : G, gadd (gadd a b) (gadd c d) = gadd (gadd a c) (gadd b d)).
  { intros p q r t. rewrite <- !im_assoc. f_equal. rewrite !im_assoc. f_equal. apply im_comm. }
  apply (Z.bi_induction (fun a => zmul a (gadd x y) = gadd (zmul a x) (zmul a y))).
  - now intros u v ->.
  - rewrite !zmul_0. symmetry. apply im_zero.
  - intro n. rewrite <- Z.add_1_r, !zmul_succ, S4. split; intro IH.
    + now rewrite IH.
    + now apply (im_cancel (gadd x y)).
Qed.

(** ** The precomputed tables *)
Lemma im_multiples_nth n p : forall c j, (j < n)%nat -> nth_error (multiples n p c) j = Some (gadd c (zmul (Z.of_nat j) p)).
Proof.
  induction n as [|n IH]; intros c j Hj; [lia|]. cbn [multiples]. destruct j as [|j]; cbn [nth_error].
  - change (Z.of_nat 0) with 0. rewrite zmul_0, im_zero_r. reflexivity.
  - rewrite IH by lia. f_equal. rewrite Nat2Z.inj_succ, <- Z.add_1_r, zmul_succ. symmetry. apply im_assoc.
Qed.
Lemma im_fpow b n : fpow (of_Z b) n = of_Z (b ^ Z.of_nat n).
Proof.
  induction n as [|n IH]; cbn [fpow]; [symmetry; apply im_one|].
  rewrite IH, Nat2Z.inj_succ, Z.pow_succ_r by lia. symmetry. apply im_mul.
Qed.
Lemma im_table_nth w n p i j : (1 <= w <= 24)%nat -> (i < n)%nat -> 2 ^ (Z.of_nat w * Z.of_nat i) < N -> 0 <= j < 2 ^ (Z.of_nat w - 1) ->
  nth_error (precompute_points w n p) (Z.to_nat (Z.of_nat i * 2 ^ (Z.of_nat w - 1) + j)) =
  Some (zmul ((j + 1) * 2 ^ (Z.of_nat w * Z.of_nat i)) p).
Proof.
  intros Hw Hi HN Hj. unfold precompute_points. rewrite !wrap_small by lia.
  set (m := Z.to_nat (2 ^ (Z.of_nat w - 1))).
  assert (Em : Z.of_nat m = 2 ^ (Z.of_nat w - 1)) by (unfold m; rewrite Z2Nat.id; lia).
  replace (Z.to_nat (Z.of_nat i * 2 ^ (Z.of_nat w - 1) + j)) with (i * m + Z.to_nat j)%nat.
  2:{ rewrite <- Em. apply Nat2Z.inj. rewrite Z2Nat.id by nia. rewrite Nat2Z.inj_add, Nat2Z.inj_mul, Z2Nat.id by lia. reflexivity. }
  rewrite nth_error_concat; [|apply Forall_forall; intros l Hl; apply in_map_iff in Hl as (k & <- & _); apply multiples_len|lia].
  rewrite nth_error_map. rewrite (nth_error_nth' (seq 0 n) 0%nat) by (rewrite seq_length; lia). rewrite seq_nth by lia. cbn [option_map].
  rewrite im_multiples_nth by lia. f_equal. rewrite Z2Nat.id by lia. rewrite im_fpow.
  rewrite <- Z.pow_mul_r by lia. rewrite Nat.add_0_l, im_smul, im_int by (split; [apply Z.pow_nonneg; lia|exact HN]).
  set (q := zmul (2 ^ (Z.of_nat w * Z.of_nat i)) p). rewrite zmul_mul. fold q. rewrite zmul_succ. reflexivity.
Qed.

(** ** Sums *)
Lemma im_lsum_app (a b : list G) : lsum (a ++ b) = gadd (lsum a) (lsum b).
Proof. induction a as [|x a IH]; cbn [lsum fold_right app]; [now rewrite im_zero|]. fold (lsum (a ++ b)). fold (lsum a). rewrite IH. apply im_assoc. Qed.
Lemma im_fold_left (l : list G) : forall a, fold_left gadd l a = gadd a (lsum l).
Proof.
  induction l as [|x l IH]; intro a; cbn [fold_left lsum fold_right]; [now rewrite im_zero_r|].
  rewrite IH. fold (lsum l). symmetry. apply im_assoc.
Qed.
Lemma im_fold_left0 (l : list G) : fold_left gadd l gzero = lsum l.
Proof. rewrite im_fold_left. apply im_zero. Qed.
Lemma im_par_sum s : forall l : list G, par_sum s l = lsum l.
Proof.
  induction s as [|k a IHa b IHb]; intro l; cbn [par_sum]; [apply im_fold_left0|].
  rewrite IHa, IHb, <- im_lsum_app. now rewrite firstn_skipn.
Qed.
Definition zsum {X} (f : X -> Z) (l : list (X * G)) : G := lsum (map (fun e => zmul (f (fst e)) (snd e)) l).
Lemma zsum_add {X} (f g : X -> Z) l : gadd (zsum f l) (zsum g l) = zsum (fun x => f x + g x) l.
Proof.
  unfold zsum, lsum. induction l as [|[x p] l IH]; cbn [map fold_right fst snd]; [apply im_zero|].
  rewrite <- IH, zmul_add. rewrite <- !im_assoc. f_equal. rewrite !im_assoc. f_equal. apply im_comm.
Qed.
Lemma zsum_zero {X} (l : list (X * G)) : zsum (fun _ => 0) l = gzero.
Proof. unfold zsum, lsum. induction l as [|[x p] l IH]; cbn [map fold_right fst snd]; [reflexivity|]. rewrite IH, zmul_0. apply im_zero. Qed.

Lemma im_window_point w n bases i k s p : (1 <= w <= 24)%nat -> (i < n)%nat -> 2 ^ (Z.of_nat w * Z.of_nat i) < N ->
  nth_error bases k = Some p ->
  exists ps, window_point (mkMSM (map (precompute_points w n) bases) n w) i k (Z_le 32 (fr_int s)) = Ok ps /\
    lsum ps = zmul (digit (Z.of_nat w) (fr_int s) i * 2 ^ (Z.of_nat w * Z.of_nat i)) p.
Proof.
  intros Hw Hi HN Hk. pose proof (im_range s) as Hs.
  assert (Hs' : 0 <= fr_int s < 2 ^ 256) by (assert (2 ^ 253 < 2 ^ 256) by reflexivity; lia).
  destruct (booth_digit (Z.of_nat i) (Z.of_nat w) (fr_int s) ltac:(lia) ltac:(lia) Hs') as [Eb Bd].
  unfold window_point. cbn [ms_tables ms_window_size]. unfold index at 1. rewrite nth_error_map, Hk. cbn [option_map unwrap rbind].
  rewrite Eb. cbn [rbind]. fold (digit (Z.of_nat w) (fr_int s) i) in *. set (d := digit (Z.of_nat w) (fr_int s) i) in *.
  destruct (Z.eqb_spec d 0) as [->|Nd].
  - exists []. split; [reflexivity|]. rewrite Z.mul_0_l, zmul_0. reflexivity.
  - rewrite Z.shiftl_1_l. unfold index. rewrite im_table_nth by (try assumption; lia). cbn [unwrap rbind].
    eexists. split; [reflexivity|]. cbn [lsum fold_right]. rewrite im_zero_r.
    replace (Z.abs d - 1 + 1) with (Z.abs d) by lia.
    destruct (Z.ltb_spec 0 d).
    + rewrite Z.abs_eq by lia. reflexivity.
    + rewrite Z.abs_neq by lia. rewrite Z.mul_opp_l, zmul_opp. apply im_opp_opp.
Qed.
Lemma im_window_points w n i scalars : (1 <= w <= 24)%nat -> (i < n)%nat -> 2 ^ (Z.of_nat w * Z.of_nat i) < N ->
  forall pre bases, (len scalars <= len bases)%nat ->
  exists ps, window_points (mkMSM (map (precompute_points w n) (pre ++ bases)) n w) i (len pre)
      (map (fun a => Z_le 32 (fr_int a)) scalars) = Ok ps /\
    lsum ps = zsum (fun s => digit (Z.of_nat w) (fr_int s) i * 2 ^ (Z.of_nat w * Z.of_nat i)) (combine scalars bases).
Proof.
  intros Hw Hi HN. induction scalars as [|s scalars IH]; intros pre bases Hl.
  - exists []. split; reflexivity.
  - destruct bases as [|p bases]; [cbn [len] in Hl; lia|]. cbn [map window_points].
    destruct (im_window_point w n (pre ++ p :: bases) i (len pre) s p Hw Hi HN) as (ps & -> & E1).
    { rewrite nth_error_app2 by lia. rewrite Nat.sub_diag. reflexivity. }
    cbn [rbind]. destruct (IH (pre ++ [p]) bases) as (qs & E & E2); [cbn [len] in Hl; lia|].
    rewrite <- app_assoc, app_length in E. cbn [app len] in E. rewrite Nat.add_1_r in E. rewrite E. cbn [rbind].
    eexists. split; [reflexivity|]. rewrite im_lsum_app, E1, E2. reflexivity.
Qed.
Lemma im_all_windows w n scalars bases : (1 <= w <= 24)%nat -> (len scalars <= len bases)%nat ->
  forall is, (forall i, In i is -> (i < n)%nat /\ 2 ^ (Z.of_nat w * Z.of_nat i) < N) ->
  exists ps, all_window_points (mkMSM (map (precompute_points w n) bases) n w) is (map (fun a => Z_le 32 (fr_int a)) scalars) = Ok ps /\
    lsum ps = zsum (windows_weight w is) (combine scalars bases).
Proof.
  intros Hw Hl. induction is as [|i is IH]; intro Hi.
  - exists []. split; [reflexivity|]. symmetry. apply zsum_zero.
  - cbn [all_window_points]. destruct (Hi i (or_introl eq_refl)) as [Hi1 Hi2].
    destruct (im_window_points w n i scalars Hw Hi1 Hi2 [] bases Hl) as (ps & E & E1).
    cbn [app len] in E. rewrite E. cbn [rbind]. destruct IH as (qs & -> & E2); [intros; apply Hi; now right|]. cbn [rbind].
    eexists. split; [reflexivity|]. rewrite im_lsum_app, E1, E2, zsum_add. reflexivity.
Qed.

Theorem im_msm_ok w bases scalars t : (1 <= w <= 24)%nat -> 2 ^ (Z.of_nat w * Z.of_nat (253 / w)) < N -> (len scalars <= len bases)%nat ->
  msm_new bases w = Ok t -> msm_mul t scalars = Ok (combination scalars bases).
Proof.
  intros Hw HN Hl E. unfold msm_new in E. destruct (assertb _); cbn [rbind] in E; [|discriminate]. injection E as <-.
  unfold msm_mul. cbn [ms_num_windows].
  destruct (im_all_windows w (253 / w + 1) scalars bases Hw Hl (seq 0 (253 / w + 1))) as (ps & -> & E).
  { intros i Hi. apply in_seq in Hi. split; [lia|]. apply Z.le_lt_trans with (2 := HN). apply Z.pow_le_mono_r; [lia|].
    apply Z.mul_le_mono_nonneg_l; [lia|]. apply Nat2Z.inj_le. lia. }
  cbn [rbind]. f_equal. rewrite im_fold_left0, E. unfold combination, zsum, lsum. f_equal. apply map_ext. intros [s p]. cbn [fst snd].
  rewrite im_smul. f_equal. rewrite weight_digits. change (Z.of_nat 0) with 0. rewrite Z.mul_0_r. change (2 ^ 0) with 1. rewrite Z.mul_1_l.
  pose proof (im_range s) as Hs. rewrite digits_exact; [reflexivity|lia|lia|].
  apply Z.lt_le_trans with (2 ^ 254); [change (2 ^ 254) with (2 * 2 ^ 253); lia|]. apply Z.pow_le_mono_r; [lia|]. apply enough_windows. lia.
Qed.

(** ** wNAF and the committer *)
Context {W : Wnaf A} {WL : WnafLaws W}.

Lemma im_smul_0 x (p : G) : fr_int x = 0 -> smul x p = gzero.
Proof. intro E. rewrite im_smul, E. apply zmul_0. Qed.
Lemma im_wnaf_products w scalars : (2 <= w < 64)%nat -> forall bases,
  exists ps, wnaf_products w (combine scalars (map (wn_table w) bases)) = Ok ps /\ lsum ps = combination scalars bases.
Proof.
  intro Hw. unfold combination. induction scalars as [|s scalars IH]; intros [|p bases]; cbn [map combine wnaf_products]; try (exists []; split; reflexivity).
  destruct (IH bases) as (ps & E1 & E2). destruct (feqb s fzero) eqn:Es.
  - exists ps. split; [exact E1|]. apply im_feqb in Es. cbn [fold_right map combine]. rewrite im_smul_0, im_zero by exact Es. exact E2.
  - rewrite wn_ok by exact Hw. cbn [unwrap rbind]. rewrite E1. cbn [rbind]. eexists. split; [reflexivity|].
    cbn [lsum fold_right]. fold (lsum ps). rewrite E2. reflexivity.
Qed.
Lemma im_commit points c : 2 ^ 240 < N -> committer_new points = Ok c -> forall split evaluations,
  commit_lagrange split c evaluations = Ok (combination evaluations points).
Proof.
  intros HN E. unfold committer_new in E. destruct (Nat.leb_spec 5 (len points)) as [Hp|]; cbn [assertb rbind] in E; [|discriminate].
  destruct (msm_new (firstn 5 points) 16) as [t|] eqn:Et; cbn [rbind] in E; [|discriminate]. injection E as <-.
  intros split ev. unfold commit_lagrange. cbn [cm_five cm_precomp]. destruct (Nat.leb_spec (len ev) 5).
  - rewrite (im_msm_ok 16 (firstn 5 points) ev t); [|lia|exact HN|rewrite firstn_length; lia|exact Et]. f_equal. now apply combination_firstn.
  - assert (Hw : (2 <= 12 < 64)%nat) by lia. destruct (im_wnaf_products 12 ev Hw points) as (ps & Eq & Es).
    destruct (Nat.leb_spec 64 (len ev)); [unfold wnaf_mul_par|unfold wnaf_mul]; cbn [wnaf_new mw_tables mw_window]; rewrite Eq; cbn [rbind];
      [rewrite im_par_sum|rewrite im_fold_left0]; now rewrite Es.
Qed.
Lemma im_combination_zeros (l : list nat) (i : nat) (v : F) : (forall j, In j l -> j <> i) -> forall points,
  combination (map (fun j => if (j =? i)%nat then v else fzero) l) points = gzero.
Proof.
  unfold combination. induction l as [|j l IH]; intros B points; [reflexivity|]. destruct points as [|q points]; [reflexivity|].
  cbn [map combine fold_right]. destruct (Nat.eqb_spec j i) as [->|]; [exfalso; exact (B i (or_introl eq_refl) eq_refl)|].
  rewrite IH by (intros; apply B; now right). rewrite im_smul_0 by apply im_fzero. apply im_zero.
Qed.
Lemma im_combination_single v i : forall n k points, (k <= i < k + n)%nat ->
  combination (map (fun j => if (j =? i)%nat then v else fzero) (seq k n)) points =
  match nth_error points (i - k) with Some p => smul v p | None => gzero end.
Proof.
  induction n as [|n IH]; intros k points Hi; [lia|]. cbn [seq map].
  destruct points as [|p points]; [destruct (i - k)%nat; reflexivity|].
  change (combination ((if (k =? i)%nat then v else fzero) :: map (fun j => if (j =? i)%nat then v else fzero) (seq (S k) n)) (p :: points))
    with (gadd (smul (if (k =? i)%nat then v else fzero) p) (combination (map (fun j => if (j =? i)%nat then v else fzero) (seq (S k) n)) points)).
  destruct (Nat.eqb_spec k i) as [->|Nk].
  - rewrite Nat.sub_diag. cbn [nth_error]. rewrite im_combination_zeros by (intros j Hj; apply in_seq in Hj; lia). apply im_zero_r.
  - rewrite IH by lia. rewrite im_smul_0, im_zero by apply im_fzero. replace (i - k)%nat with (S (i - S k)) by lia. reflexivity.
Qed.
Lemma im_scalar_mul points c : 2 ^ 240 < N -> committer_new points = Ok c -> forall v i,
  committer_scalar_mul c v i = match nth_error points i with Some p => Ok (smul v p) | None => Panic end.
Proof.
  intros HN E. unfold committer_new in E. destruct (Nat.leb_spec 5 (len points)) as [Hp|]; cbn [assertb rbind] in E; [|discriminate].
  destruct (msm_new (firstn 5 points) 16) as [t|] eqn:Et; cbn [rbind] in E; [|discriminate]. injection E as <-.
  intros v i. unfold committer_scalar_mul. cbn [cm_five cm_precomp]. destruct (Nat.ltb_spec i 5).
  - set (arr := map (fun j => if (j =? i)%nat then v else fzero) (seq 0 5)).
    assert (La : len arr = 5%nat) by (unfold arr; now rewrite map_length, seq_length).
    rewrite (im_msm_ok 16 (firstn 5 points) arr t); [|lia|exact HN|rewrite firstn_length; lia|exact Et]. unfold arr.
    rewrite combination_firstn by (rewrite map_length, seq_length; lia). rewrite im_combination_single by lia. rewrite Nat.sub_0_r.
    destruct (nth_error points i) eqn:En; [reflexivity|]. apply nth_error_None in En. lia.
  - unfold wnaf_mul_index. cbn [wnaf_new mw_tables mw_window]. unfold index. rewrite nth_error_map.
    destruct (nth_error points i); cbn [option_map unwrap rbind]; [|reflexivity]. now rewrite wn_ok by lia.
Qed.
Lemma im_sparse points c : 2 ^ 240 < N -> committer_new points = Ok c -> forall l,
  (forall v i, In (v, i) l -> (i < len points)%nat) ->
  committer_commit_sparse c l = Ok (lsum (map (fun e => smul (fst e) (nth (snd e) points gzero)) l)).
Proof.
  intros HN E l Hl. unfold committer_commit_sparse.
  cut (forall acc, sparse_from c acc l = Ok (gadd acc (lsum (map (fun e => smul (fst e) (nth (snd e) points gzero)) l)))).
  { intros ->. now rewrite im_zero. }
  induction l as [|[v i] l IH]; intro acc; cbn [sparse_from map lsum fold_right fst snd]; [now rewrite im_zero_r|].
  rewrite (im_scalar_mul points c HN E). rewrite (nth_error_nth' points gzero) by (eapply Hl; left; reflexivity). cbn [rbind].
  rewrite IH by (intros; eapply Hl; right; eassumption). f_equal. symmetry. apply im_assoc.
Qed.
End Int.

(** The non-adjacent forms of arkworks work on such groups too. *)
Section Wnaf.
Context {A : Alg} {I : FrInt A} {N : Z} {M : IntModule A I N}.
Lemma im_wnaf_digit w p d : (2 <= w)%nat -> (d = 0 \/ (Z.odd d = true /\ Z.abs d < 2 ^ (Z.of_nat w - 1) + 1)) ->
  wnaf_digit (multiples (2 ^ (w - 1)) (gadd p p) p) d = Some (zmul d p).
Proof.
  intros Hw Hd. unfold wnaf_digit. destruct (Z.eqb_spec d 0) as [->|Nd]; [now rewrite zmul_0|].
  destruct Hd as [|[O B]]; [contradiction|]. apply Z.odd_spec in O as (m & ->).
  assert (Pn : Z.of_nat (2 ^ (w - 1)) = 2 ^ (Z.of_nat w - 1)) by (rewrite Nat2Z.inj_pow; f_equal; lia).
  assert (P2 : 2 ^ (Z.of_nat w - 1) = 2 * 2 ^ (Z.of_nat w - 2)) by (rewrite <- Z.pow_succ_r by lia; f_equal; lia).
  assert (0 < 2 ^ (Z.of_nat w - 2)) by (apply Z.pow_pos_nonneg; lia).
  assert (Dbl : gadd p p = zmul 2 p) by (change 2 with (1 + 1); now rewrite zmul_add, zmul_1).
  destruct (Z.ltb_spec 0 (2 * m + 1)).
  - assert (E : (2 * m + 1) / 2 = m) by (symmetry; apply (Z.div_unique _ _ _ 1); lia). rewrite E.
    rewrite im_multiples_nth by lia. rewrite Z2Nat.id by lia. f_equal. rewrite Dbl, <- zmul_mul. rewrite zmul_succ. f_equal. f_equal. ring.
  - assert (E : - (2 * m + 1) / 2 = - m - 1) by (symmetry; apply (Z.div_unique _ _ _ 1); lia). rewrite E.
    rewrite im_multiples_nth by lia. rewrite Z2Nat.id by lia. cbn [option_map]. f_equal.
    rewrite Dbl, <- zmul_mul, <- zmul_succ, <- zmul_opp. f_equal. ring.
Qed.
Lemma im_wnaf_eval w p : (2 <= w)%nat -> forall ds, Forall (fun d => d = 0 \/ (Z.odd d = true /\ Z.abs d < 2 ^ (Z.of_nat w - 1) + 1)) ds ->
  wnaf_eval (multiples (2 ^ (w - 1)) (gadd p p) p) ds = Some (zmul (digits_value 2 ds) p).
Proof.
  intros Hw ds. induction 1 as [|d ds Hd _ IH]; cbn [wnaf_eval digits_value]; [now rewrite zmul_0|].
  rewrite IH, im_wnaf_digit by assumption. f_equal. rewrite <- !zmul_add. f_equal. ring.
Qed.
Lemma im_wnaf_laws : WnafLaws (@ArkWnaf A I).
Proof.
  constructor. intros w p s Hw. cbn [wn_mul wn_table ArkWnaf]. pose proof (im_range s) as B.
  rewrite im_wnaf_eval by (try apply wnaf_digits_odd; lia). rewrite (wnaf_exact (Z.of_nat w) ltac:(lia) 253) by lia. now rewrite im_smul.
Qed.
End Wnaf.
