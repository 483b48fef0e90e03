(** Sums and Lagrange interpolation at arbitrary points, for the soundness proofs. *)
From Coq Require Import Field.
From Verif Require Import Base BaseFacts Alg AlgFacts WireModel ProofModel IpaModel IpaProofs LagrangeSpec LagrangeProofs
  IpaSpec MultiProofs SoundSpec SoundIpa.
Local Open Scope list_scope.

Section SoundSum.
Context {A : Alg} {AL : AlgLaws A}.
Add Field Ffield : F_field.
Add Ring dnring : dn_ring.
Notation len := List.length.

Fixpoint glsum {X} (f : X -> G) (l : list X) : G :=
  match l with [] => gzero | x :: l' => gadd (f x) (glsum f l') end.
Lemma glsum_ext {X} (f g : X -> G) l : (forall x, In x l -> f x = g x) -> glsum f l = glsum g l.
Proof. induction l as [|x l IH]; intros E; cbn; [easy|]. rewrite E, IH; [easy| |now left]. intros; apply E; now right. Qed.
Lemma glsum_add {X} (f g : X -> G) l : glsum (fun x => gadd (f x) (g x)) l = gadd (glsum f l) (glsum g l).
Proof. induction l as [|x l IH]; cbn; [module|]. rewrite IH. module. Qed.
Lemma glsum_sub {X} (f g : X -> G) l : glsum (fun x => gsub (f x) (g x)) l = gsub (glsum f l) (glsum g l).
Proof. induction l as [|x l IH]; cbn; [module|]. rewrite IH. module. Qed.
Lemma glsum_scale {X} c (f : X -> G) l : glsum (fun x => smul c (f x)) l = smul c (glsum f l).
Proof. induction l as [|x l IH]; cbn; [module|]. rewrite IH. module. Qed.
Lemma glsum_zero {X} (f : X -> G) l : (forall x, In x l -> f x = gzero) -> glsum f l = gzero.
Proof. induction l as [|x l IH]; intros E; cbn; [easy|]. rewrite E, IH; [module| |now left]. intros; apply E; now right. Qed.
Lemma smul_lsum {X} (f : X -> F) g l : smul (lsum f l) g = glsum (fun x => smul (f x) g) l.
Proof. induction l as [|x l IH]; cbn; [module|]. rewrite <- IH. module. Qed.
Lemma glsum_swap {X Y} (f : X -> Y -> G) l1 l2 :
  glsum (fun x => glsum (f x) l2) l1 = glsum (fun y => glsum (fun x => f x y) l1) l2.
Proof.
  induction l1 as [|x l IH]; cbn; [symmetry; now apply glsum_zero|]. rewrite IH, glsum_add. reflexivity.
Qed.
Lemma lsum_zero {X} (f : X -> F) l : (forall x, In x l -> f x = fzero) -> lsum f l = fzero.
Proof. induction l as [|x l IH]; intros E; cbn; [easy|]. rewrite E, IH; [ring| |now left]. intros; apply E; now right. Qed.
Lemma lsum_swap {X Y} (f : X -> Y -> F) l1 l2 :
  lsum (fun x => lsum (f x) l2) l1 = lsum (fun y => lsum (fun x => f x y) l1) l2.
Proof.
  induction l1 as [|x l IH]; cbn; [symmetry; now apply lsum_zero|]. rewrite IH, lsum_add. reflexivity.
Qed.
Lemma lsum_map {X Y} (f : Y -> F) (g : X -> Y) l : lsum f (map g l) = lsum (fun x => f (g x)) l.
Proof. induction l as [|x l IH]; cbn; [easy|]. now rewrite IH. Qed.
Lemma glsum_map {X Y} (f : Y -> G) (g : X -> Y) l : glsum f (map g l) = glsum (fun x => f (g x)) l.
Proof. induction l as [|x l IH]; cbn; [easy|]. now rewrite IH. Qed.
Lemma lsum_pick (f : nat -> F) l j : NoDup l -> In j l -> lsum (fun i => if (j =? i)%nat then f i else fzero) l = f j.
Proof.
  intros N I. rewrite lsum_suml. rewrite (suml_single _ l j N I); [now rewrite Nat.eqb_refl|].
  intros i _ Ne. destruct (Nat.eqb_spec j i); [congruence|easy].
Qed.
Lemma glsum_pick (f : nat -> G) l j : NoDup l -> In j l -> glsum (fun i => if (j =? i)%nat then f i else gzero) l = f j.
Proof.
  induction l as [|i l IH]; intros N I; [destruct I|]. inversion_clear N as [|? ? Ni N']. cbn [glsum].
  destruct I as [->|I].
  - rewrite Nat.eqb_refl, glsum_zero; [module|]. intros x Ix. destruct (Nat.eqb_spec j x) as [<-|]; [contradiction|easy].
  - destruct (Nat.eqb_spec j i) as [->|]; [contradiction|]. rewrite IH by assumption. module.
Qed.

(** Multiples of vectors. *)
Lemma lincomb_lsum n l : lincomb n l = tab n (fun j => lsum (fun cv => fmul (fst cv) (nth j (snd cv) fzero)) l).
Proof.
  unfold lincomb, tab. apply map_ext. intros j. induction l as [|[c v] l IH]; cbn; [easy|]. now rewrite IH.
Qed.
Lemma lincomb_len n l : len (lincomb n l) = n.
Proof. unfold lincomb. now rewrite map_length, seq_length. Qed.
Lemma lincomb_nth n l j : (j < n)%nat -> nth j (lincomb n l) fzero = lsum (fun cv => fmul (fst cv) (nth j (snd cv) fzero)) l.
Proof. intros L. rewrite lincomb_lsum. exact (nth_tab n (fun j => lsum (fun cv => fmul (fst cv) (nth j (snd cv) fzero)) l) j L). Qed.
Lemma gdot_lincomb n l Gs : len Gs = n -> (forall cv, In cv l -> len (snd cv) = n) ->
  gdot (lincomb n l) Gs = glsum (fun cv => smul (fst cv) (gdot (snd cv) Gs)) l.
Proof.
  intros E Lv. rewrite lincomb_lsum. induction l as [|[c v] l IH]; cbn [lsum glsum fst snd].
  - apply gdot_tab_zero.
  - rewrite gdot_tab_add, IH by (intros; apply Lv; now right). f_equal.
    rewrite gdot_tab_scale. f_equal. symmetry. apply gdot_pad; [|easy]. pose proof (Lv (c, v) (or_introl eq_refl)). cbn in *. lia.
Qed.
Lemma ip_lincomb n l b : (0 < n)%nat -> len b = n -> (forall cv, In cv l -> len (snd cv) = n) ->
  inner_product (lincomb n l) b = lsum (fun cv => fmul (fst cv) (inner_product (snd cv) b)) l.
Proof.
  intros Hn E Lv. rewrite lincomb_lsum, (tab_nth n Hn b E), ip_tab.
  transitivity (lsum (fun j => lsum (fun cv => fmul (fst cv) (fmul (nth j (snd cv) fzero) (nth j b fzero))) l) (seq 0 n)).
  { apply lsum_ext. intros j _. induction l as [|[c v] l IH]; cbn [lsum fst snd]; [ring|].
    rewrite <- IH by (intros; apply Lv; now right). ring. }
  rewrite lsum_swap. apply lsum_ext. intros [c v] I. rewrite lsum_scale. cbn [fst snd]. f_equal.
  specialize (Lv (c, v) I). cbn in Lv. rewrite <- (ip_tab n (fun j => nth j v fzero) (fun j => nth j b fzero)). now rewrite <- (tab_nth n Hn v Lv).
Qed.

(** ** Interpolation *)
Lemma peval_fold x c : forall u v, len u = len v -> peval (fold_with c u v) x = fadd (peval u x) (fmul c (peval v x)).
Proof.
  induction u as [|a u IH]; intros [|b v] E; cbn [List.length] in E; try discriminate; cbn [fold_with peval]; [ring|].
  rewrite IH by lia. ring.
Qed.
Lemma peval_snoc p x : peval (p ++ [fzero]) x = peval p x.
Proof. induction p as [|a p IH]; cbn; [ring|]. now rewrite IH. Qed.
Definition others_of (T : list F) (t : F) := filter (fun s => negb (feqb s t)) T.
Lemma basis_fold l t x : 
  peval (fold_right (fun s p => scale (finv (fsub t s)) (fold_with (fopp s) (fzero :: p) (p ++ [fzero]))) [fone] l) x =
  fprod (map (fun s => fmul (finv (fsub t s)) (fsub x s)) l) /\
  len (fold_right (fun s p => scale (finv (fsub t s)) (fold_with (fopp s) (fzero :: p) (p ++ [fzero]))) [fone] l) = S (len l).
Proof.
  induction l as [|s l [IH IHl]]; cbn [fold_right map fprod List.length].
  - split; [cbn; ring|easy].
  - match goal with |- context [fold_with _ (_ :: ?q) _] => set (p := q) in * end.
    assert (El : len (fzero :: p) = len (p ++ [fzero])) by (rewrite app_length; cbn; lia).
    split.
    + unfold scale. rewrite peval_scale, peval_fold, peval_snoc by assumption. cbn [peval]. rewrite IH.
      unfold fprod. cbn [fold_right]. ring.
    + rewrite scale_len, fold_len by assumption. cbn. lia.
Qed.
Lemma basis_peval T t x : peval (basis T t) x = fprod (map (fun s => fmul (finv (fsub t s)) (fsub x s)) (others_of T t)).
Proof. apply basis_fold. Qed.
Lemma basis_len T t : NoDup T -> In t T -> len (basis T t) = len T.
Proof.
  intros N I. unfold basis. rewrite (proj2 (basis_fold _ t fzero)).
  induction T as [|s T IH]; [destruct I|]. inversion_clear N as [|? ? Ns N']. cbn [filter List.length]. destruct I as [->|I].
  - rewrite feqb_refl. cbn [negb]. f_equal. f_equal. clear IH N'. induction T as [|s T IH]; [easy|]. cbn [filter].
    destruct (feqb s t) eqn:E; [apply feqb_true in E; subst; exfalso; apply Ns; now left|]. cbn. f_equal. apply IH. intros I; apply Ns; now right.
  - destruct (feqb s t) eqn:E; [apply feqb_true in E; subst; contradiction|]. cbn [negb List.length]. now rewrite IH.
Qed.
Lemma basis_self T t : peval (basis T t) t = fone.
Proof.
  rewrite basis_peval. unfold others_of. induction T as [|s T IH]; cbn [filter map]; [reflexivity|].
  destruct (feqb s t) eqn:E; [assumption|]. cbn [negb map fprod fold_right]. unfold fprod in *. cbn [fold_right]. rewrite IH.
  apply feqb_false in E. field. apply sub_nz. congruence.
Qed.
Lemma basis_other T t s : In s T -> s <> t -> peval (basis T t) s = fzero.
Proof.
  intros I N. rewrite basis_peval. apply fprod_zero. apply in_map_iff. exists s. split; [ring|].
  apply filter_In. split; [easy|]. apply feqb_false in N. now rewrite N.
Qed.
Definition interp_at_nodes (T l : list F) (v : F -> F) : list F :=
  fold_right (fun t acc => padd (map (fmul (v t)) (basis T t)) acc) [] l.
Lemma interp_nodes_eval T v x : forall l, peval (interp_at_nodes T l v) x = lsum (fun t => fmul (v t) (peval (basis T t) x)) l.
Proof. induction l as [|t l IH]; cbn; [easy|]. rewrite peval_padd, peval_scale. now rewrite <- IH. Qed.
Lemma interp_nodes_nth T v i : forall l, nth i (interp_at_nodes T l v) fzero = lsum (fun t => fmul (v t) (nth i (basis T t) fzero)) l.
Proof. induction l as [|t l IH]; cbn; [now destruct i|]. rewrite nth_padd, nth_scale. now rewrite <- IH. Qed.
Lemma interp_nodes_len T v : forall l, NoDup T -> incl l T -> (len (interp_at_nodes T l v) <= len T)%nat.
Proof.
  induction l as [|t l IH]; intros N I; cbn; [lia|]. rewrite len_padd, map_length, basis_len; [|easy|apply I; now left].
  specialize (IH N (fun x Hx => I x (or_intror Hx))). fold (interp_at_nodes T l v). lia.
Qed.
Lemma lsum_pickF (f : F -> F) l j : NoDup l -> In j l -> (forall i, In i l -> i <> j -> f i = fzero) -> lsum f l = f j.
Proof.
  induction l as [|i l IH]; intros N I Z; [destruct I|]. inversion_clear N as [|? ? Ni N']. cbn [lsum]. destruct I as [->|I].
  - rewrite lsum_zero; [ring|]. intros x Ix. apply Z; [now right|]. intros ->; contradiction.
  - rewrite (Z i), IH; [ring|easy|easy| |now left|intros ->; contradiction]. intros; apply Z; [now right|easy].
Qed.
Lemma interp_nodes_diff T p : NoDup T -> (len p <= len T)%nat ->
  Forall (eq fzero) (padd p (map (fmul (fopp fone)) (interp_at_nodes T T (peval p)))).
Proof.
  intros N L. apply (roots_zero T); [easy| |].
  - rewrite len_padd, map_length. pose proof (interp_nodes_len T (peval p) T N (incl_refl T)). lia.
  - intros x I. rewrite peval_padd, peval_scale, interp_nodes_eval.
    rewrite (lsum_pickF _ T x N I).
    + rewrite basis_self. ring.
    + intros i Ii Ne. rewrite basis_other; [ring|easy|congruence].
Qed.
Lemma lagrange_nodes T p x : NoDup T -> (len p <= len T)%nat ->
  lsum (fun t => fmul (peval p t) (peval (basis T t) x)) T = peval p x.
Proof.
  intros N L. rewrite <- interp_nodes_eval. pose proof (peval_zero _ x (interp_nodes_diff T p N L)) as E.
  rewrite peval_padd, peval_scale in E. symmetry. apply fsub_eq. etransitivity; [|exact E]. ring.
Qed.
Lemma lagrange_nodes_coef T p i : NoDup T -> (len p <= len T)%nat ->
  lsum (fun t => fmul (peval p t) (nth i (basis T t) fzero)) T = nth i p fzero.
Proof.
  intros N L. rewrite <- interp_nodes_nth. pose proof (nth_zero _ i (interp_nodes_diff T p N L)) as E.
  rewrite nth_padd, nth_scale in E. symmetry. apply fsub_eq. etransitivity; [|exact E]. ring.
Qed.
(** The inverse of a Vandermonde matrix. *)
Fixpoint fpow (x : F) (i : nat) : F := match i with O => fone | S i' => fmul x (fpow x i') end.
Lemma peval_monomial x i : peval (repeat fzero i ++ [fone]) x = fpow x i.
Proof. induction i as [|i IH]; cbn; [ring|]. rewrite IH. ring. Qed.
Lemma vandermonde T i j : NoDup T -> (j < len T)%nat -> (i < len T)%nat ->
  lsum (fun t => fmul (nth i (basis T t) fzero) (fpow t j)) T = if (i =? j)%nat then fone else fzero.
Proof.
  intros N Hj Hi. transitivity (nth i (repeat fzero j ++ [fone]) fzero).
  - rewrite <- (lagrange_nodes_coef T _ i N); [|rewrite app_length, repeat_length; cbn; lia].
    apply lsum_ext. intros t _. rewrite peval_monomial. ring.
  - destruct (Nat.eqb_spec i j) as [->|Ne].
    + rewrite app_nth2; rewrite repeat_length; [|lia]. now rewrite Nat.sub_diag.
    + destruct (Nat.lt_ge_cases i j).
      * rewrite app_nth1 by (rewrite repeat_length; lia). apply nth_repeat.
      * rewrite nth_overflow; [easy|]. rewrite app_length, repeat_length. cbn. lia.
Qed.
End SoundSum.
