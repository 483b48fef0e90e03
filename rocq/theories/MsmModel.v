(** Multi-scalar multiplication and the committer:
    banderwagon/src/msm_windowed_sign.rs, banderwagon/src/msm.rs,
    ipa-multipoint/src/committer.rs. *)
From Verif Require Import Base Alg.

(** [BigInteger256::from(x)], the integer representing a scalar. *)
Class FrInt (A : Alg) := fr_int : F -> Z.

(** For msm_windowed_sign.rs:72-73. What is assumed of it: the integer stands for the scalar and has at most
    [Fr::MODULUS_BIT_SIZE] = 253 bits. *)
Class FrIntLaws {A : Alg} (I : FrInt A) : Prop := {
  fr_int_of : forall x : F, of_Z (fr_int x) = x;
  fr_int_range : forall x : F, 0 <= fr_int x < 2 ^ 253
}.

(** For banderwagon/src/msm.rs:15-19, 29-33. arkworks' [WnafContext] (ark-ec, not part of the repository): [wn_table w p] is
    [WnafContext::new(w).table(p)] and [wn_mul w t s] is
    [WnafContext::new(w).mul_with_table(t, s)]. *)
Class Wnaf (A : Alg) := mkWnaf {
  wn_table : nat -> G -> list G;
  wn_mul : nat -> list G -> F -> option G
}.
(** For banderwagon/src/msm.rs:15-19, 29-33. What is assumed of it; [WnafContext::new] wants 2 <= w < 64. *)
Class WnafLaws {A : Alg} (W : Wnaf A) : Prop := {
  wn_ok : forall w p s, (2 <= w < 64)%nat -> wn_mul w (wn_table w p) s = Some (smul s p)
}.

(** ** msm_windowed_sign.rs *)

Definition wrap_i32 (z : Z) : Z := (z + 2 ^ 31) mod 2 ^ 32 - 2 ^ 31.
(** msm_windowed_sign.rs:154, [!] on a [u32]. *)
Definition not_u32 (z : Z) : Z := 2 ^ 32 - 1 - z.

(** msm_windowed_sign.rs:114-156 [get_booth_index].  Arithmetic is that of a build with
    overflow checks: shifting a [u32] by 32 or more panics. *)
Definition get_booth_index (window_index window_size : Z) (el : bytes) : res Z :=
  let skip_bits := Z.max 0 (window_index * window_size - 1) in
  let skip_bytes := skip_bits / 8 in
  (* 128-131: missing source bytes leave zeros *)
  let v := firstn 4 (skipn (Z.to_nat skip_bytes) el ++ [0; 0; 0; 0]) in
  let tmp := le_Z v in
  (* 135-137 *)
  let tmp := if window_index =? 0 then (2 * tmp) mod 2 ^ 32 else tmp in
  (* 140; the shift is at most 7 *)
  let tmp := Z.shiftr tmp (skip_bits - skip_bytes * 8) in
  (* 142 *)
  let! _ := assertb (window_size + 1 <? 32) in
  let tmp := Z.land tmp (Z.shiftl 1 (window_size + 1) - 1) in
  (* 144 *)
  let sign := Z.land tmp (Z.shiftl 1 window_size) =? 0 in
  (* 147 *)
  let tmp := Z.shiftr (tmp + 1) 1 in
  (* 150-154 *)
  if sign then Ok tmp
  else Ok (- Z.land (not_u32 (tmp - 1)) (Z.shiftl 1 window_size - 1)).

Section Msm.
Context {A : Alg} {I : FrInt A} {W : Wnaf A}.

(** msm_windowed_sign.rs:9-13 [MSMPrecompWindowSigned]. *)
Record MSMSigned := mkMSM {
  ms_tables : list (list G);
  ms_num_windows : nat;
  ms_window_size : nat
}.

(** msm_windowed_sign.rs:52. [Field::pow] with a small exponent. *)
Fixpoint fpow (x : F) (n : nat) : F := match n with O => fone | S n' => fmul x (fpow x n') end.

(** msm_windowed_sign.rs:57-60: [n] times push [current] and add [point]. *)
Fixpoint multiples (n : nat) (point current : G) : list G :=
  match n with
  | O => []
  | S n' => current :: multiples n' point (gadd current point)
  end.

(** msm_windowed_sign.rs:39-66 [precompute_points].  The literal shifts in [Fr::from(1 << w)] and
    [0..(1 << (w - 1))] are on [i32]; the parallel [flat_map] keeps the order; [normalize_batch]
    only changes the coordinates of points.  Windows of 32 bits or more, where the
    shift panics, are excluded in [msm_new]. *)
Definition precompute_points (window_size number_of_windows : nat) (point : G) : list G :=
  let window_size_scalar := of_Z (wrap_i32 (2 ^ Z.of_nat window_size)) in
  concat (map (fun window_index =>
    let window_scalar := fpow window_size_scalar window_index in
    let p := smul window_scalar point in
    multiples (Z.to_nat (wrap_i32 (2 ^ (Z.of_nat window_size - 1)))) p p)
    (seq 0 number_of_windows)).

(** msm_windowed_sign.rs:16-37 [MSMPrecompWindowSigned::new]; a window of 0 bits divides by
    zero.  [Fr::MODULUS_BIT_SIZE] is 253. *)
Definition msm_new (bases : list G) (window_size : nat) : res MSMSigned :=
  let! _ := assertb ((0 <? window_size) && (window_size <? 32))%nat in
  let number_of_windows := (253 / window_size + 1)%nat in
  Ok (mkMSM (map (precompute_points window_size number_of_windows) bases) number_of_windows window_size).

(** msm_windowed_sign.rs:80-100, the inner loop body for the scalar number [scalar_idx]; the result
    is what is pushed on [points_to_add]. *)
Definition window_point (t : MSMSigned) (window_idx scalar_idx : nat) (scalar_bytes : bytes) : res (list G) :=
  let! sub_table := index (ms_tables t) scalar_idx in
  let! point_idx := get_booth_index (Z.of_nat window_idx) (Z.of_nat (ms_window_size t)) scalar_bytes in
  if point_idx =? 0 then Ok []
  else
    let sign := 0 <? point_idx in
    let point_idx := Z.abs point_idx - 1 in
    let scaled_point_index := Z.of_nat window_idx * Z.shiftl 1 (Z.of_nat (ms_window_size t) - 1) + point_idx in
    let! point := index sub_table (Z.to_nat scaled_point_index) in
    Ok [if sign then point else gopp point].

(** msm_windowed_sign.rs:80-101. [for (scalar_idx, scalar_bytes) in scalars_bytes.iter().enumerate()]. *)
Fixpoint window_points (t : MSMSigned) (window_idx scalar_idx : nat) (l : list bytes) : res (list G) :=
  match l with
  | [] => Ok []
  | b :: l' =>
      let! p := window_point t window_idx scalar_idx b in
      let! ps := window_points t window_idx (S scalar_idx) l' in
      Ok (p ++ ps)
  end.

(** msm_windowed_sign.rs:79-102. [for window_idx in 0..self.num_windows]. *)
Fixpoint all_window_points (t : MSMSigned) (windows : list nat) (l : list bytes) : res (list G) :=
  match windows with
  | [] => Ok []
  | w :: windows' =>
      let! ps := window_points t w 0 l in
      let! qs := all_window_points t windows' l in
      Ok (ps ++ qs)
  end.

(** msm_windowed_sign.rs:68-110 [MSMPrecompWindowSigned::mul]. *)
Definition msm_mul (t : MSMSigned) (scalars : list F) : res G :=
  let scalars_bytes := map (fun a => Z_le 32 (fr_int a)) scalars in
  let! points_to_add := all_window_points t (seq 0 (ms_num_windows t)) scalars_bytes in
  Ok (fold_left gadd points_to_add gzero).

(** ** msm.rs *)

(** msm.rs:8-11 [MSMPrecompWnaf]. *)
Record MSMWnaf := mkMW { mw_window : nat; mw_tables : list (list G) }.

(** msm.rs:14-26 [MSMPrecompWnaf::new]. *)
Definition wnaf_new (bases : list G) (window_size : nat) : MSMWnaf :=
  mkMW window_size (map (wn_table window_size) bases).

(** msm.rs:28-35 [mul_index]. *)
Definition wnaf_mul_index (t : MSMWnaf) (scalar : F) (i : nat) : res G :=
  let! table := index (mw_tables t) i in
  unwrap (wn_mul (mw_window t) table scalar).

(** msm.rs:39-43, before summing. *)
Fixpoint wnaf_products (w : nat) (l : list (F * list G)) : res (list G) :=
  match l with
  | [] => Ok []
  | (s, t) :: l' =>
      if feqb s fzero then wnaf_products w l'
      else
        let! p := unwrap (wn_mul w t s) in
        let! ps := wnaf_products w l' in
        Ok (p :: ps)
  end.

(** msm.rs:37-46 [mul]. *)
Definition wnaf_mul (t : MSMWnaf) (scalars : list F) : res G :=
  let! ps := wnaf_products (mw_window t) (combine scalars (mw_tables t)) in
  Ok (fold_left gadd ps gzero).

(** For banderwagon/src/msm.rs:52-57. How rayon splits a parallel sum: each piece is summed from zero, and the
    sums of two neighbouring pieces are added. *)
Inductive Split := Whole | Halves (at_ : nat) (l r : Split).
(** banderwagon/src/msm.rs:57 [sum] of a parallel iterator. *)
Fixpoint par_sum (s : Split) (l : list G) : G :=
  match s with
  | Whole => fold_left gadd l gzero
  | Halves k a b => gadd (par_sum a (firstn k l)) (par_sum b (skipn k l))
  end.

(** msm.rs:49-58 [mul_par], for one way of splitting. *)
Definition wnaf_mul_par (split : Split) (t : MSMWnaf) (scalars : list F) : res G :=
  let! ps := wnaf_products (mw_window t) (combine scalars (mw_tables t)) in
  Ok (par_sum split ps).

(** ** committer.rs *)

(** committer.rs:26-29 [DefaultCommitter]. *)
Record Committer := mkCommitter { cm_five : MSMSigned; cm_precomp : MSMWnaf }.

(** committer.rs:32-44 [DefaultCommitter::new]; [split_at(5)] panics on fewer points. *)
Definition committer_new (points : list G) : res Committer :=
  let! _ := assertb (5 <=? length points)%nat in
  let! five := msm_new (firstn 5 points) 16 in
  Ok (mkCommitter five (wnaf_new points 12)).

(** committer.rs:48-59 [commit_lagrange]. *)
Definition commit_lagrange (split : Split) (c : Committer) (evaluations : list F) : res G :=
  if (length evaluations <=? 5)%nat then msm_mul (cm_five c) evaluations
  else if (64 <=? length evaluations)%nat then wnaf_mul_par split (cm_precomp c) evaluations
  else wnaf_mul (cm_precomp c) evaluations.

(** committer.rs:61-69 [scalar_mul]. *)
Definition committer_scalar_mul (c : Committer) (value : F) (lagrange_index : nat) : res G :=
  if (lagrange_index <? 5)%nat then
    msm_mul (cm_five c) (map (fun i => if (i =? lagrange_index)%nat then value else fzero) (seq 0 5))
  else wnaf_mul_index (cm_precomp c) value lagrange_index.

(** committer.rs:14-22 [commit_sparse]. *)
Fixpoint sparse_from (c : Committer) (result : G) (l : list (F * nat)) : res G :=
  match l with
  | [] => Ok result
  | (value, i) :: l' =>
      let! p := committer_scalar_mul c value i in
      sparse_from c (gadd result p) l'
  end.
(** committer.rs:14-22 [commit_sparse], from zero. *)
Definition committer_commit_sparse (c : Committer) (val_indices : list (F * nat)) : res G :=
  sparse_from c gzero val_indices.

End Msm.
