(** Properties of multi-scalar multiplication and the committer (C31, C32). *)
From Verif Require Import Base Alg AlgInst MsmModel MsmSpec MsmProofs MsmInst.
Notation len := List.length.

(** C31, the recoding.  The digits of a scalar of at most 253 bits, as computed window by window,
    have absolute value at most 2^(w-1) and represent the scalar in base 2^w. *)
Theorem C31_digits_exact : forall w s, (1 <= w <= 24)%nat -> 0 <= s < 2 ^ 253 ->
  exists ds, len ds = (253 / w + 1)%nat /\
    (forall i d, nth_error ds i = Some d ->
       get_booth_index (Z.of_nat i) (Z.of_nat w) (Z_le 32 s) = Ok d /\ Z.abs d <= 2 ^ (Z.of_nat w - 1)) /\
    digits_value (2 ^ Z.of_nat w) ds = s.
Proof. exact booth_digits_exact. Qed.

(** The bound 24 is sharp: with windows of 25 bits a digit loses its sign. *)
Theorem C31_window_25_refuted : exists s, 0 <= s < 2 ^ 253 /\
  forall ds, (forall i d, nth_error ds i = Some d -> get_booth_index (Z.of_nat i) 25 (Z_le 32 s) = Ok d) ->
    len ds = (253 / 25 + 1)%nat -> digits_value (2 ^ 25) ds <> s.
Proof. exact window_25. Qed.

Section WithAlgebra.
Context {A : Alg} {L : AlgLaws A} {I : FrInt A} {IL : FrIntLaws I} {W : Wnaf A} {WL : WnafLaws W}.

(** C31.  The tables can be made and the product is the linear combination; in particular no
    access is out of range.  More scalars than points panic. *)
Theorem C31_windowed_product : forall w bases scalars, (1 <= w <= 24)%nat ->
  exists t, msm_new bases w = Ok t /\
    ((len scalars <= len bases)%nat -> msm_mul t scalars = Ok (combination scalars bases)) /\
    ((len bases < len scalars)%nat -> msm_mul t scalars = Panic).
Proof. exact windowed_product. Qed.

(** C32.  For at least five generators the committer can be made; then each way of committing
    is the linear combination, whatever the length and however the parallel sum is split.
    Entries beyond the generators are ignored. *)
Theorem C32_committer_exists : forall points, (5 <= len points)%nat <-> exists c, committer_new points = Ok c.
Proof. exact committer_new_ok. Qed.
Theorem C32_commit_is_combination : forall points c, committer_new points = Ok c -> forall split evaluations,
  commit_lagrange split c evaluations = Ok (combination evaluations points).
Proof. exact commit_lagrange_ok. Qed.
Theorem C32_scalar_mul : forall points c, committer_new points = Ok c -> forall v i,
  committer_scalar_mul c v i = match nth_error points i with Some p => Ok (smul v p) | None => Panic end.
Proof. exact scalar_mul_ok. Qed.
Theorem C32_commit_sparse : forall points c l, committer_new points = Ok c ->
  (forall v i, In (v, i) l -> (i < len points)%nat) ->
  committer_commit_sparse c l = Ok (combination (map fst l) (map (fun e => nth (snd e) points gzero) l)).
Proof. exact commit_sparse_ok. Qed.
Theorem C32_commit_sparse_out_of_range : forall points c l v i, committer_new points = Ok c ->
  In (v, i) l -> (len points <= i)%nat -> committer_commit_sparse c l = Panic.
Proof. exact commit_sparse_panic. Qed.

(** Hence committing is additive, and adding the sparse commitment of changes gives the
    commitment of the changed vector, also when an index is changed more than once. *)
Theorem C32_additive : forall points c split a b ca cb, committer_new points = Ok c -> len a = len b ->
  commit_lagrange split c a = Ok ca -> commit_lagrange split c b = Ok cb ->
  commit_lagrange split c (map (fun '(x, y) => fadd x y) (combine a b)) = Ok (gadd ca cb).
Proof. exact committer_additive. Qed.
Theorem C32_delta_update : forall points c split v l cv, committer_new points = Ok c ->
  (len v <= len points)%nat -> (forall d i, In (d, i) l -> (i < len v)%nat) ->
  commit_lagrange split c v = Ok cv ->
  exists delta, committer_commit_sparse c l = Ok delta /\
    commit_lagrange split c (fold_left (fun u e => bump u (snd e) (fst e)) l v) = Ok (gadd cv delta).
Proof. exact committer_delta. Qed.
End WithAlgebra.

(** Cases: windows of 3 bits; five points with 16-bit windows would make large tables, so the
    committer is shown by its theorems in the instance. *)
Example C31_case :
  (let! t := msm_new (ex_points 3) 3 in msm_mul t (ex_scalars [123456789; 2147483646; 0]))
  = Ok (combination (ex_scalars [123456789; 2147483646; 0]) (ex_points 3)) /\
  zval p31 (combination (ex_scalars [123456789; 2147483646; 0]) (ex_points 3)) <> 0 /\
  (let! t := msm_new (ex_points 1) 3 in msm_mul t (ex_scalars [1; 0])) = Panic.
Proof. exact msm_case. Qed.
Example C31_digits_case : map (fun i => get_booth_index i 4 (Z_le 32 3000)) [0; 1; 2; 3] = [Ok (-8); Ok (-4); Ok (-4); Ok 1] /\
  digits_value 16 [-8; -4; -4; 1] = 3000.
Proof. split; vm_compute; reflexivity. Qed.
Example C32_case : exists c, committer_new (ex_points 70) = Ok c /\
  (forall split v, commit_lagrange split c v = Ok (combination v (ex_points 70))) /\
  (forall v i, committer_scalar_mul c v i = match nth_error (ex_points 70) i with Some p => Ok (smul v p) | None => Panic end) /\
  combination (ex_scalars (map Z.of_nat (seq 1 66))) (ex_points 70) <> gzero /\
  par_sum (Halves 2 (Halves 1 Whole Whole) Whole) (ex_points 5) = fold_left gadd (ex_points 5) gzero.
Proof. exact committer_case. Qed.

Print Assumptions C31_digits_exact.
Print Assumptions C31_window_25_refuted.
Print Assumptions C31_windowed_product.
Print Assumptions C32_committer_exists.
Print Assumptions C32_commit_is_combination.
Print Assumptions C32_scalar_mul.
Print Assumptions C32_commit_sparse.
Print Assumptions C32_commit_sparse_out_of_range.
Print Assumptions C32_additive.
Print Assumptions C32_delta_update.
