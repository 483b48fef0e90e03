(** Lagrange-basis evaluation and division are polynomial evaluation and division. *)
From Verif Require Import Base BaseFacts Alg AlgFacts WireModel IpaModel LagrangeSpec IpaProofs.

Section LagrangeProofs.
Context {A : Alg} {AL : AlgLaws A}.
Add Ring Fring : F_ring.
Add Field Ffield : F_field.

Notation len := List.length.

Lemma fmul_eq_0 (x y : F) : fmul x y = fzero -> x <> fzero -> y = fzero.
Proof.
  intros E N. transitivity (fmul (fmul (finv x) x) y).
  - rewrite (Finv_l F_field x N). ring.
  - transitivity (fmul (finv x) (fmul x y)); [ring|]. rewrite E. ring.
Qed.
Lemma fmul_neq_0 (x y : F) : x <> fzero -> y <> fzero -> fmul x y <> fzero.
Proof. intros Nx Ny E. apply Ny. eapply fmul_eq_0; eassumption. Qed.
Lemma finv_neq_0 x : x <> fzero -> finv x <> fzero.
Proof.
  intros N E. apply (fone_neq_0). rewrite <- (Finv_l F_field x N), E. ring.
Qed.
Lemma fsub_eq x y : fsub x y = fzero -> x = y.
Proof. intros E. transitivity (fadd (fsub x y) y); [ring|]. rewrite E. ring. Qed.
Lemma fmul_cancel a x y : a <> fzero -> fmul a x = fmul a y -> x = y.
Proof.
  intros N E. apply fsub_eq. apply (fmul_eq_0 a); [|exact N].
  transitivity (fsub (fmul a x) (fmul a y)); [ring|]. rewrite E. ring.
Qed.

Lemma fopp_finv d : d <> fzero -> fopp (finv (fopp d)) = finv d.
Proof.
  intros N. assert (N' : fopp d <> fzero).
  { intros E. apply N. transitivity (fopp (fopp d)); [ring|]. rewrite E. ring. }
  apply (fmul_cancel d); [exact N|].
  transitivity (fmul (finv (fopp d)) (fopp d)); [ring|]. rewrite (Finv_l F_field _ N').
  transitivity (fmul (finv d) d); [|ring]. now rewrite (Finv_l F_field _ N).
Qed.

(** ** Polynomials *)
Fixpoint padd (p q : list F) : list F :=
  match p, q with
  | [], _ => q
  | _, [] => p
  | x :: p', y :: q' => fadd x y :: padd p' q'
  end.
Lemma peval_padd p q x : peval (padd p q) x = fadd (peval p x) (peval q x).
Proof. revert q; induction p as [|a p IH]; intros [|b q]; cbn; try ring. rewrite IH. ring. Qed.
Lemma nth_padd p q i : nth i (padd p q) fzero = fadd (nth i p fzero) (nth i q fzero).
Proof.
  revert q i; induction p as [|a p IH]; intros [|b q] [|i]; cbn; try ring. apply IH.
Qed.
Lemma len_padd p q : len (padd p q) = Nat.max (len p) (len q).
Proof. revert q; induction p as [|a p IH]; intros [|b q]; cbn; try lia. rewrite IH. lia. Qed.
Lemma peval_scale c p x : peval (map (fmul c) p) x = fmul c (peval p x).
Proof. induction p as [|a p IH]; cbn; [ring|]. rewrite IH. ring. Qed.
Lemma nth_scale c p i : nth i (map (fmul c) p) fzero = fmul c (nth i p fzero).
Proof. revert i; induction p as [|a p IH]; intros [|i]; cbn; try ring. apply IH. Qed.

(** times [X - a] *)
Definition plin (a : F) (p : list F) : list F := padd (fzero :: p) (map (fmul (fopp a)) p).
Lemma peval_plin a p x : peval (plin a p) x = fmul (fsub x a) (peval p x).
Proof. unfold plin. rewrite peval_padd, peval_scale. cbn. ring. Qed.
Lemma len_plin a p : len (plin a p) = S (len p).
Proof. unfold plin. rewrite len_padd, map_length. cbn [List.length]. lia. Qed.
Lemma top_plin a p m : len p = m -> nth m (plin a p) fzero = nth (m - 1) p fzero.
Proof.
  intros E. unfold plin. rewrite nth_padd, nth_scale. rewrite (nth_overflow p) by lia.
  destruct m as [|m].
  - destruct p; [|discriminate]. cbn. ring.
  - cbn [nth]. replace (S m - 1)%nat with m by lia. ring.
Qed.

(** Synthetic division by [X - a]. *)
Fixpoint sdiv (a : F) (p : list F) : list F :=
  match p with
  | [] => []
  | _ :: p' => match p' with [] => [] | _ => peval p' a :: sdiv a p' end
  end.
Lemma len_sdiv a p : len (sdiv a p) = (len p - 1)%nat.
Proof. induction p as [|c [|d p] IH]; [easy..|]. cbn [sdiv List.length] in *. rewrite IH. cbn. lia. Qed.
Lemma peval_sdiv a p x : fsub (peval p x) (peval p a) = fmul (fsub x a) (peval (sdiv a p) x).
Proof.
  induction p as [|c [|d p] IH]; [cbn; ring|cbn; ring|].
  remember (d :: p) as p' eqn:Ep.
  assert (E : sdiv a (c :: p') = peval p' a :: sdiv a p') by (subst p'; reflexivity).
  rewrite E. cbn [peval].
  transitivity (fadd (fmul x (fsub (peval p' x) (peval p' a))) (fmul (fsub x a) (peval p' a))); [ring|].
  rewrite IH. ring.
Qed.
Lemma sdiv_zero a p : Forall (eq fzero) (sdiv a p) -> peval p a = fzero -> Forall (eq fzero) p.
Proof.
  induction p as [|c [|d p] IH]; intros Z E.
  - constructor.
  - constructor; [|constructor]. cbn in E. rewrite <- E. ring.
  - remember (d :: p) as p' eqn:Ep.
    assert (Es : sdiv a (c :: p') = peval p' a :: sdiv a p') by (subst p'; reflexivity).
    rewrite Es in Z. inversion Z as [|? ? Z1 Z2]; subst x l.
    constructor; [|now apply IH].
    cbn [peval] in E. rewrite <- E, <- Z1. ring.
Qed.

(** A polynomial with as many roots as coefficients is zero. *)
Lemma roots_zero : forall (l : list F) p, NoDup l -> (len p <= len l)%nat ->
  (forall x, In x l -> peval p x = fzero) -> Forall (eq fzero) p.
Proof.
  induction l as [|a l IH]; intros p ND L R.
  - destruct p; [constructor|cbn in L; lia].
  - inversion ND as [|? ? Na ND']; subst x l0.
    assert (Ra : peval p a = fzero) by (apply R; now left).
    apply (sdiv_zero a); [|exact Ra].
    apply IH; [exact ND'|rewrite len_sdiv; cbn in L; lia|].
    intros x Hx. apply (fmul_eq_0 (fsub x a)).
    + rewrite <- peval_sdiv. rewrite Ra, R by now right. ring.
    + intros E. apply fsub_eq in E. subst x. contradiction.
Qed.
Lemma peval_zero p x : Forall (eq fzero) p -> peval p x = fzero.
Proof. induction 1 as [|c p E Z IH]; cbn; [easy|]. rewrite IH, <- E. ring. Qed.
Lemma nth_zero p i : Forall (eq fzero) p -> nth i p fzero = fzero.
Proof. intros Z; revert i; induction Z as [|c p E Z IH]; intros [|i]; cbn; auto. Qed.

(** ** Sums over lists of indices *)
Fixpoint suml (f : nat -> F) (l : list nat) : F :=
  match l with [] => fzero | i :: l' => fadd (f i) (suml f l') end.
Lemma suml_ext f g l : (forall i, In i l -> f i = g i) -> suml f l = suml g l.
Proof. induction l as [|i l IH]; intros E; cbn; [easy|]. rewrite E, IH; [easy|intros; apply E; now right|now left]. Qed.
Lemma suml_zero f l : (forall i, In i l -> f i = fzero) -> suml f l = fzero.
Proof. induction l as [|i l IH]; intros E; cbn; [easy|]. rewrite E, IH; [ring|intros; apply E; now right|now left]. Qed.
Lemma suml_scale c f l : suml (fun i => fmul c (f i)) l = fmul c (suml f l).
Proof. induction l as [|i l IH]; cbn; [ring|]. rewrite IH. ring. Qed.
Lemma suml_single f l j : NoDup l -> In j l -> (forall i, In i l -> i <> j -> f i = fzero) -> suml f l = f j.
Proof.
  induction l as [|i l IH]; intros ND I Z; [easy|]. inversion ND; subst. cbn.
  destruct I as [->|I].
  - rewrite suml_zero; [ring|]. intros i Hi. apply Z; [now right|]. intros ->; contradiction.
  - rewrite IH; auto; [|intros; apply Z; auto; now right].
    rewrite Z; [ring|now left|]. intros ->; contradiction.
Qed.
Lemma ip_suml f g l : inner_product (map f l) (map g l) = suml (fun i => fmul (f i) (g i)) l.
Proof. induction l as [|i l IH]; cbn; [easy|]. now rewrite IH. Qed.

(** ** The domain *)
Section Domain.
Variable n : nat.
Hypothesis Hfit : domain_fits n.
Hypothesis Hn : (0 < n)%nat.

Lemma pt_inj i j : (i < n)%nat -> (j < n)%nat -> pt i = pt j -> i = j.
Proof.
  assert (W : forall i j, (i < j)%nat -> (j < n)%nat -> pt i <> pt j).
  { intros a b L Lb E. apply (Hfit (Z.of_nat b - Z.of_nat a)); [lia|].
    rewrite of_Z_sub. unfold pt in E. rewrite E. ring. }
  intros Li Lj E. destruct (Nat.lt_trichotomy i j) as [L|[L|L]]; [|exact L|].
  - exfalso. exact (W _ _ L Lj E).
  - exfalso. exact (W _ _ L Li (eq_sym E)).
Qed.

Definition others i := filter (fun e => negb (e =? i)%nat) (seq 0 n).
Definition mfun i x := fprod (map (fun e => fsub x (fn e)) (others i)).
Definition mpoly i := fold_right (fun e p => plin (fn e) p) [fone] (others i).

Lemma peval_mpoly i x : peval (mpoly i) x = mfun i x.
Proof.
  unfold mpoly, mfun. induction (others i) as [|e l IH]; cbn [fold_right map fprod].
  - cbn. ring.
  - rewrite peval_plin, IH. reflexivity.
Qed.
Lemma len_others i : (i < n)%nat -> S (len (others i)) = n.
Proof.
  intros L. unfold others.
  assert (E : forall m s, (s <= i < s + m)%nat -> S (len (filter (fun e => negb (e =? i)%nat) (seq s m))) = m).
  { induction m as [|m IH]; intros s B; [lia|]. cbn [seq filter].
    destruct (s =? i)%nat eqn:Es; cbn [negb].
    - apply Nat.eqb_eq in Es. subst s. f_equal.
      assert (Efi : forall m s, (i < s)%nat -> len (filter (fun e => negb (e =? i)%nat) (seq s m)) = m).
      { clear. induction m as [|m IH]; intros s B; [easy|]. cbn [seq filter].
        destruct (Nat.eqb_spec s i); [lia|]. cbn [negb List.length]. rewrite IH; lia. }
      apply Efi. lia.
    - apply Nat.eqb_neq in Es. cbn [List.length]. rewrite IH; lia. }
  apply E. lia.
Qed.
Lemma len_mpoly i : (i < n)%nat -> len (mpoly i) = n.
Proof.
  intros L. rewrite <- (len_others i L) at 1. unfold mpoly.
  induction (others i) as [|e l IH]; cbn [fold_right List.length]; [easy|]. rewrite len_plin, IH. reflexivity.
Qed.
Lemma monic_mpoly i : (i < n)%nat -> nth (n - 1) (mpoly i) fzero = fone.
Proof.
  intros L. rewrite <- (len_others i L) at 1. cbn [Nat.sub]. rewrite Nat.sub_0_r. unfold mpoly.
  induction (others i) as [|e l IH]; cbn [fold_right List.length]; [easy|].
  assert (El : len (fold_right (fun e p => plin (fn e) p) [fone] l) = S (len l)).
  { clear. induction l as [|e l IH]; cbn [fold_right List.length]; [easy|]. now rewrite len_plin, IH. }
  rewrite top_plin by exact El. cbn [Nat.sub]. rewrite Nat.sub_0_r. exact IH.
Qed.

Lemma fprod_zero l : In fzero l -> fprod l = fzero.
Proof. induction l as [|x l IH]; intros I; [easy|]. cbn. destruct I as [->|I]; [ring|]. fold (fprod l). rewrite IH by exact I. ring. Qed.
Lemma fprod_neq_0 l : (forall x, In x l -> x <> fzero) -> fprod l <> fzero.
Proof.
  induction l as [|x l IH]; intros E; cbn; [apply fone_neq_0|].
  apply fmul_neq_0; [apply E; now left|]. apply IH. intros; apply E; now right.
Qed.

Lemma mfun_other i j : (j < n)%nat -> i <> j -> mfun i (pt j) = fzero.
Proof.
  intros L N. apply fprod_zero. apply in_map_iff. exists j. split.
  - unfold fn, pt. ring.
  - apply filter_In. split; [apply in_seq; lia|]. apply Bool.negb_true_iff, Nat.eqb_neq. congruence.
Qed.
Lemma mfun_self i : (i < n)%nat -> mfun i (pt i) <> fzero.
Proof.
  intros L. apply fprod_neq_0. intros x Hx. apply in_map_iff in Hx. destruct Hx as (e & <- & He).
  apply filter_In in He. destruct He as [He Ne]. apply in_seq in He.
  apply Bool.negb_true_iff, Nat.eqb_neq in Ne.
  intros E. apply fsub_eq in E. apply pt_inj in E; lia.
Qed.
Lemma mfun_out i t : outside_domain n t -> mfun i t <> fzero.
Proof.
  intros O. apply fprod_neq_0. intros x Hx. apply in_map_iff in Hx. destruct Hx as (e & <- & He).
  apply filter_In in He. destruct He as [He _]. apply in_seq in He.
  intros E. apply fsub_eq in E. apply (O e); [lia|exact E].
Qed.
Definition afun t := fprod (map (fun i => fsub t (fn i)) (seq 0 n)).
Lemma afun_split i t : (i < n)%nat -> afun t = fmul (fsub t (pt i)) (mfun i t).
Proof.
  intros L. unfold afun, mfun, others.
  assert (E : forall l, NoDup l -> In i l ->
    fprod (map (fun i => fsub t (fn i)) l) =
    fmul (fsub t (pt i)) (fprod (map (fun e => fsub t (fn e)) (filter (fun e => negb (e =? i)%nat) l)))).
  { induction l as [|e l IH]; intros ND I; [easy|]. inversion ND; subst. cbn [map fprod fold_right filter].
    destruct I as [->|I].
    - rewrite Nat.eqb_refl. cbn [negb].
      replace (filter (fun e => negb (e =? i)%nat) l) with l; [reflexivity|].
      clear -H1. induction l as [|e l IH]; [easy|]. cbn.
      destruct (Nat.eqb_spec e i); [subst; exfalso; apply H1; now left|]. cbn [negb].
      f_equal. apply IH. intros I; apply H1; now right.
    - destruct (Nat.eqb_spec e i); [subst; contradiction|]. cbn [negb map fprod fold_right].
      fold (fprod (map (fun i => fsub t (fn i)) l)). rewrite IH by assumption.
      unfold fprod. ring. }
  apply E; [apply seq_NoDup|apply in_seq; lia].
Qed.

(** ** Interpolation *)
Definition wt i := finv (mfun i (pt i)).
Definition interp (v : nat -> F) : list F :=
  fold_right (fun i acc => padd (map (fmul (fmul (v i) (wt i))) (mpoly i)) acc) [] (seq 0 n).

Lemma peval_interp v t : peval (interp v) t = suml (fun i => fmul (fmul (v i) (wt i)) (mfun i t)) (seq 0 n).
Proof.
  unfold interp. induction (seq 0 n) as [|i l IH]; cbn [fold_right suml]; [easy|].
  now rewrite peval_padd, peval_scale, peval_mpoly, IH.
Qed.
Lemma len_interp v : (len (interp v) <= n)%nat.
Proof.
  unfold interp.
  assert (E : forall l, (forall i, In i l -> i < n)%nat ->
    (len (fold_right (fun i acc => padd (map (fmul (fmul (v i) (wt i))) (mpoly i)) acc) [] l) <= n)%nat).
  { induction l as [|i l IH]; intros B; cbn [fold_right List.length]; [lia|].
    rewrite len_padd, map_length, len_mpoly by (apply B; now left).
    assert (Q : (forall i, In i l -> i < n)%nat) by (intros; apply B; now right).
    specialize (IH Q). lia. }
  apply E. intros i I. apply in_seq in I. lia.
Qed.
Lemma top_interp v : nth (n - 1) (interp v) fzero = suml (fun i => fmul (v i) (wt i)) (seq 0 n).
Proof.
  unfold interp.
  assert (E : forall l, (forall i, In i l -> i < n)%nat ->
    nth (n - 1) (fold_right (fun i acc => padd (map (fmul (fmul (v i) (wt i))) (mpoly i)) acc) [] l) fzero =
    suml (fun i => fmul (v i) (wt i)) l).
  { induction l as [|i l IH]; intros B; cbn [fold_right suml].
    - now destruct (n - 1)%nat.
    - rewrite nth_padd, nth_scale, monic_mpoly by (apply B; now left).
      rewrite IH by (intros; apply B; now right). ring. }
  apply E. intros i I. apply in_seq in I. lia.
Qed.
Lemma interp_at v j : (j < n)%nat -> peval (interp v) (pt j) = v j.
Proof.
  intros L. rewrite peval_interp.
  rewrite (suml_single _ _ j); [|apply seq_NoDup|apply in_seq; lia|].
  - unfold wt. transitivity (fmul (v j) (fmul (finv (mfun j (pt j))) (mfun j (pt j)))); [ring|].
    rewrite (Finv_l F_field) by (now apply mfun_self). ring.
  - intros i _ N. rewrite mfun_other by assumption. ring.
Qed.

(** A polynomial with few coefficients is its interpolation. *)
Lemma interp_unique f : (len f <= n)%nat ->
  Forall (eq fzero) (padd f (map (fmul (fopp fone)) (interp (fun i => peval f (pt i))))).
Proof.
  intros L. apply (roots_zero (map pt (seq 0 n))).
  - assert (ND : forall l, NoDup l -> (forall i, In i l -> i < n)%nat -> NoDup (map pt l)).
    { induction l as [|i l IH]; intros N B; cbn; constructor; inversion N; subst.
      - intros I. apply in_map_iff in I. destruct I as (j & E & I). apply pt_inj in E; [congruence|apply B; now right|apply B; now left].
      - apply IH; auto. intros; apply B; now right. }
    apply ND; [apply seq_NoDup|]. intros i I. apply in_seq in I. lia.
  - rewrite map_length, seq_length, len_padd, map_length.
    pose proof (len_interp (fun i => peval f (pt i))). lia.
  - intros x Hx. apply in_map_iff in Hx. destruct Hx as (j & <- & I). apply in_seq in I.
    rewrite peval_padd, peval_scale, interp_at by lia. ring.
Qed.

Lemma lagrange_eval f t : (len f <= n)%nat ->
  peval f t = suml (fun i => fmul (fmul (peval f (pt i)) (wt i)) (mfun i t)) (seq 0 n).
Proof.
  intros L. rewrite <- peval_interp. apply fsub_eq.
  pose proof (peval_zero _ t (interp_unique f L)) as E. rewrite peval_padd, peval_scale in E.
  rewrite <- E. ring.
Qed.
Lemma lagrange_top f : (len f <= n)%nat ->
  nth (n - 1) f fzero = suml (fun i => fmul (peval f (pt i)) (wt i)) (seq 0 n).
Proof.
  intros L. rewrite <- top_interp. apply fsub_eq.
  pose proof (nth_zero _ (n - 1) (interp_unique f L)) as E. rewrite nth_padd, nth_scale in E.
  etransitivity; [|exact E]. ring.
Qed.

(** ** The precomputed weights *)
Lemma rmap_map {X Y} (f : X -> res Y) (g : X -> Y) l : (forall x, In x l -> f x = Ok (g x)) -> rmap f l = Ok (map g l).
Proof.
  induction l as [|x l IH]; intros E; cbn; [easy|].
  rewrite E by now left. cbn. rewrite IH by (intros; apply E; now right). reflexivity.
Qed.

Definition weights : PrecomputedWeights :=
  mkPW (map (fun i => mfun i (pt i)) (seq 0 n) ++ map wt (seq 0 n))
       (map (fun i => finv (pt i)) (seq 1 (n - 1)) ++ map (fun i => fopp (finv (pt i))) (seq 1 (n - 1))).

Lemma pt_neq_0 i : (0 < i < n)%nat -> pt i <> fzero.
Proof. intros B. apply Hfit. lia. Qed.

Lemma weights_ok : precomputed_weights n = Ok weights.
Proof.
  unfold precomputed_weights.
  change (fun i => barycentric_weight i n) with (fun i => mfun i (pt i)).
  rewrite (rmap_map _ finv).
  2:{ intros w I. apply in_map_iff in I. destruct I as (i & <- & I). apply in_seq in I.
      rewrite inverse_ok; [easy|]. apply mfun_self. lia. }
  cbn [rbind]. rewrite (proj2 (Nat.eqb_neq n 0)) by lia. cbn [negb assertb rbind].
  rewrite (rmap_map _ (fun i => finv (pt i))).
  2:{ intros i I. apply in_seq in I. unfold fn. fold (pt i). rewrite inverse_ok; [easy|]. apply pt_neq_0. lia. }
  cbn [rbind]. unfold weights, wt. now rewrite !map_map.
Qed.

Lemma nth_error_map_seq {X} (f : nat -> X) s m i : (i < m)%nat -> nth_error (map f (seq s m)) i = Some (f (s + i)%nat).
Proof.
  intros L. rewrite nth_error_map. rewrite (nth_error_nth' _ 0%nat) by (rewrite seq_length; lia).
  rewrite seq_nth by lia. reflexivity.
Qed.

Lemma weight_get i : (i < n)%nat -> get_barycentric_weight weights i = Ok (mfun i (pt i)).
Proof.
  intros L. unfold get_barycentric_weight, index, weights. cbn [pw_weights].
  rewrite nth_error_app1 by (rewrite map_length, seq_length; lia).
  now rewrite nth_error_map_seq by exact L.
Qed.
Lemma weight_len : (len (pw_weights weights) / 2 = n)%nat.
Proof.
  unfold weights. cbn [pw_weights]. rewrite app_length, !map_length, seq_length.
  replace (n + n)%nat with (n * 2)%nat by lia. apply Nat.div_mul. lia.
Qed.
Lemma inverse_weight_get i : (i < n)%nat -> get_inverse_barycentric_weight weights i = Ok (wt i).
Proof.
  intros L. unfold get_inverse_barycentric_weight, index. rewrite weight_len.
  unfold weights. cbn [pw_weights].
  rewrite nth_error_app2 by (rewrite map_length, seq_length; lia).
  rewrite map_length, seq_length. replace (i + n - n)%nat with i by lia.
  now rewrite nth_error_map_seq by exact L.
Qed.
Lemma inverted_get k neg : (0 < k < n)%nat ->
  get_inverted_element weights k neg = Ok (if neg then fopp (finv (pt k)) else finv (pt k)).
Proof.
  intros B. unfold get_inverted_element. rewrite (proj2 (Nat.eqb_neq k 0)) by lia.
  cbn [negb assertb rbind]. unfold index, weights. cbn [pw_inverted].
  rewrite app_length, !map_length, seq_length.
  replace ((n - 1 + (n - 1)) / 2)%nat with (n - 1)%nat
    by (replace (n - 1 + (n - 1))%nat with ((n - 1) * 2)%nat by lia; symmetry; apply Nat.div_mul; lia).
  destruct neg.
  - rewrite nth_error_app2 by (rewrite map_length, seq_length; lia).
    rewrite map_length, seq_length. replace (k - 1 + (n - 1) - (n - 1))%nat with (k - 1)%nat by lia.
    rewrite nth_error_map_seq by lia. replace (1 + (k - 1))%nat with k by lia. reflexivity.
  - rewrite nth_error_app1 by (rewrite map_length, seq_length; lia).
    rewrite nth_error_map_seq by lia. replace (1 + (k - 1))%nat with k by lia. reflexivity.
Qed.

(** ** Evaluation outside the domain *)
Lemma coefficients_ok t : outside_domain n t ->
  evaluate_lagrange_coefficients weights n t = Ok (map (fun i => fmul (wt i) (mfun i t)) (seq 0 n)).
Proof.
  intros O. unfold evaluate_lagrange_coefficients.
  rewrite (rmap_map _ (fun i => fmul (mfun i (pt i)) (fsub t (pt i)))).
  2:{ intros i I. apply in_seq in I. rewrite weight_get by lia. reflexivity. }
  cbn [rbind]. unfold batch_inversion_and_mul. rewrite map_map. f_equal.
  apply map_ext_in. intros i I. apply in_seq in I.
  assert (N1 : mfun i (pt i) <> fzero) by (apply mfun_self; lia).
  assert (N2 : fsub t (pt i) <> fzero) by (intros E; apply fsub_eq in E; apply (O i); [lia|exact E]).
  rewrite (proj2 (feqb_false _ _)) by (now apply fmul_neq_0).
  fold (afun t). rewrite (afun_split i) by lia. unfold wt. field. split; assumption.
Qed.

Lemma values_of_map f : values_of f n = map (fun i => peval f (pt i)) (seq 0 n).
Proof. reflexivity. Qed.

Lemma eval_ok f t : (len f <= n)%nat ->
  inner_product (values_of f n) (map (fun i => fmul (wt i) (mfun i t)) (seq 0 n)) = peval f t.
Proof.
  intros L. rewrite values_of_map, ip_suml, (lagrange_eval f t L). apply suml_ext. intros; ring.
Qed.

(** Every list of [n] values is the values of a polynomial. *)
Lemma interpolate v : len v = n -> exists f, (len f <= n)%nat /\ values_of f n = v.
Proof.
  intros E. exists (interp (fun i => nth i v fzero)). split; [apply len_interp|].
  rewrite values_of_map.
  rewrite (map_ext_in _ (fun i => nth i v fzero)).
  2:{ intros i I. apply in_seq in I. apply interp_at. lia. }
  rewrite <- E. clear. induction v as [|x v IH]; [easy|]. cbn [List.length seq map nth]. f_equal.
  rewrite <- seq_shift, map_map. exact IH.
Qed.

(** ** Division *)
Lemma div_loop_ok v y idx : (idx < n)%nat -> forall is qi,
  (forall i, In i is -> i < n /\ i < len v)%nat ->
  div_loop weights v y idx is qi =
  Ok (map (fun i => if (i =? idx)%nat then fzero else fdiv (fsub (nth i v fzero) y) (fsub (pt i) (pt idx))) is,
      fsub qi (suml (fun i => if (i =? idx)%nat then fzero else
         fmul (fmul (mfun idx (pt idx)) (wt i)) (fdiv (fsub (nth i v fzero) y) (fsub (pt i) (pt idx)))) is)).
Proof.
  intros Li. induction is as [|i is IH]; intros qi B; cbn [div_loop map suml].
  - do 2 f_equal. ring.
  - assert (Bi : (i < n /\ i < len v)%nat) by (apply B; now left).
    assert (B' : (forall i, In i is -> i < n /\ i < len v)%nat) by (intros; apply B; now right).
    destruct (Nat.eqb_spec i idx) as [->|N].
    + rewrite IH by exact B'. cbn [rbind]. do 2 f_equal. ring.
    + assert (Nz : fsub (pt i) (pt idx) <> fzero).
      { intros E. apply fsub_eq in E. apply pt_inj in E; lia. }
      assert (Ed : (let! d := get_inverted_element weights (if (i <? idx)%nat then idx - i else i - idx)%nat (i <? idx)%nat in Ok d)
                   = Ok (finv (fsub (pt i) (pt idx)))).
      { destruct (Nat.ltb_spec i idx) as [L|L].
        - rewrite inverted_get by lia. cbn [rbind]. f_equal.
          assert (E : pt (idx - i) = fopp (fsub (pt i) (pt idx))).
          { unfold pt. rewrite Nat2Z.inj_sub by lia. rewrite of_Z_sub. ring. }
          rewrite E. apply fopp_finv. exact Nz.
        - rewrite inverted_get by lia. cbn [rbind]. f_equal. f_equal.
          unfold pt. rewrite Nat2Z.inj_sub by lia. now rewrite of_Z_sub. }
      destruct (get_inverted_element _ _ _) as [d|]; cbn [rbind] in Ed; [|discriminate].
      injection Ed as ->. cbn [rbind].
      unfold index at 1. rewrite (nth_error_nth' v fzero) by lia. cbn [unwrap rbind].
      unfold get_ratio. rewrite weight_get, inverse_weight_get by lia. cbn [rbind].
      rewrite IH by exact B'. cbn [rbind].
      rewrite (Fdiv_def F_field). do 2 f_equal. ring.
Qed.

Lemma set_nth_map (f : nat -> F) idx x : (idx < n)%nat ->
  set_nth (map f (seq 0 n)) idx x = map (fun i => if (i =? idx)%nat then x else f i) (seq 0 n).
Proof.
  intros L. unfold set_nth. replace n with (idx + (1 + (n - idx - 1)))%nat by lia.
  rewrite !seq_app, !map_app. cbn [seq map Nat.add].
  rewrite firstn_app, map_length, seq_length, Nat.sub_diag, firstn_O, app_nil_r.
  rewrite firstn_all2 by (rewrite map_length, seq_length; lia).
  f_equal.
  - apply map_ext_in. intros i I. apply in_seq in I. rewrite (proj2 (Nat.eqb_neq i idx)) by lia. reflexivity.
  - rewrite skipn_app, map_length, seq_length.
    rewrite skipn_all2 by (rewrite map_length, seq_length; lia).
    replace (S idx - idx)%nat with 1%nat by lia. cbn [skipn app]. rewrite Nat.eqb_refl. f_equal.
    apply map_ext_in. intros i I. apply in_seq in I. rewrite (proj2 (Nat.eqb_neq i idx)) by lia. reflexivity.
Qed.

Lemma values_of_nth f i : (i < n)%nat -> nth i (values_of f n) fzero = peval f (pt i).
Proof.
  intros L. rewrite (nth_indep _ _ (peval f (pt 0))) by (unfold values_of; rewrite map_length, seq_length; lia).
  unfold values_of. rewrite (map_nth (fun i => peval f (pt i))). now rewrite seq_nth by lia.
Qed.
Lemma values_of_len f : len (values_of f n) = n.
Proof. unfold values_of. now rewrite map_length, seq_length. Qed.

Lemma divide_ok f idx : (len f <= n)%nat -> (idx < n)%nat ->
  divide_by_linear_vanishing (lb_new (values_of f n)) weights idx = Ok (lb_new (values_of (sdiv (pt idx) f) n)).
Proof.
  intros L Li. unfold divide_by_linear_vanishing. unfold lb_new at 1 2 3. cbn [lb_values lb_domain].
  unfold index. rewrite (nth_error_nth' _ fzero) by (rewrite values_of_len; lia).
  rewrite values_of_nth by exact Li. cbn [unwrap rbind].
  rewrite div_loop_ok.
  2: exact Li.
  2:{ intros i I. rewrite values_of_len in *. apply in_seq in I. lia. }
  cbn [rbind]. f_equal. f_equal. rewrite values_of_len.
  rewrite set_nth_map by exact Li. rewrite values_of_map. apply map_ext_in. intros i I. apply in_seq in I.
  assert (Q : forall j, (j < n)%nat -> j <> idx ->
    fdiv (fsub (nth j (values_of f n) fzero) (peval f (pt idx))) (fsub (pt j) (pt idx)) = peval (sdiv (pt idx) f) (pt j)).
  { intros j Lj N. rewrite values_of_nth by exact Lj. rewrite peval_sdiv. field.
    intros E. apply fsub_eq in E. apply pt_inj in E; lia. }
  destruct (Nat.eqb_spec i idx) as [->|N]; [|apply Q; lia].
  pose proof (lagrange_top (sdiv (pt idx) f)) as T.
  assert (Lg : (len (sdiv (pt idx) f) <= n - 1)%nat) by (rewrite len_sdiv; lia).
  rewrite nth_overflow in T by exact Lg. specialize (T ltac:(lia)).
  set (g := sdiv (pt idx) f) in *.
  assert (Nm : mfun idx (pt idx) <> fzero) by now apply mfun_self.
  rewrite (suml_ext _ (fun j => fsub (fmul (mfun idx (pt idx)) (fmul (peval g (pt j)) (wt j))) (if (j =? idx)%nat then peval g (pt idx) else fzero))).
  2:{ intros j Ij. apply in_seq in Ij. destruct (Nat.eqb_spec j idx) as [->|Nj].
      - unfold wt. field. exact Nm.
      - rewrite Q by lia. ring. }
  assert (Sp : forall f1 f2 l, suml (fun j => fsub (f1 j) (f2 j)) l = fsub (suml f1 l) (suml f2 l)).
  { clear -AL. induction l as [|j l IH]; cbn; [ring|]. rewrite IH. ring. }
  rewrite Sp, suml_scale, <- T.
  rewrite (suml_single (fun j => if (j =? idx)%nat then peval g (pt idx) else fzero) _ idx).
  - rewrite Nat.eqb_refl. ring.
  - apply seq_NoDup.
  - apply in_seq; lia.
  - intros j _ Nj. now rewrite (proj2 (Nat.eqb_neq j idx)) by exact Nj.
Qed.

End Domain.

Lemma prod_except_mfun n i x : prod_except n i x = mfun n i x.
Proof.
  unfold mfun, others. induction n as [|m IH]; [reflexivity|].
  cbn [prod_except]. rewrite seq_S, filter_app, map_app. cbn [Nat.add filter].
  assert (P : forall l1 l2, fprod (l1 ++ l2) = fmul (fprod l1) (fprod l2)).
  { clear -AL. unfold fprod. induction l1 as [|y l1 IH]; intros l2; cbn [app fold_right]; [ring|]. rewrite IH. ring. }
  rewrite P, IH. destruct (m =? i)%nat; cbn [negb map]; unfold fprod; cbn [fold_right]; unfold fn, pt; ring.
Qed.
End LagrangeProofs.
