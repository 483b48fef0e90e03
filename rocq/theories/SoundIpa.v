(** Special soundness of the inner-product argument. *)
From Coq Require Import String Field.
From Verif Require Import Base BaseFacts Alg AlgFacts WireModel ProofModel IpaModel IpaProofs LagrangeSpec LagrangeProofs
  IpaSpec MultiProofs TranscriptSpec TranscriptProofs SoundSpec.
Local Open Scope list_scope.

Section SoundIpa.
Context {A : Alg} {AL : AlgLaws A}.
Add Field Ffield : F_field.
Add Ring dnring : dn_ring.
Notation len := List.length.

Lemma div2_pow k : Nat.div2 (2 ^ S k) = (2 ^ k)%nat.
Proof. replace (2 ^ S k)%nat with (2 * 2 ^ k)%nat by (cbn; lia). apply Nat.div2_double. Qed.
Lemma halves {X} k (l : list X) : len l = (2 ^ S k)%nat ->
  len (firstn (2 ^ k) l) = (2 ^ k)%nat /\ len (skipn (2 ^ k) l) = (2 ^ k)%nat.
Proof. intros E. rewrite firstn_length, skipn_length, E. cbn. lia. Qed.

(** The equation in closed form. *)
Lemma holds_iff xs : forall Ls Rs a0 Gs b Q P,
  len Ls = len xs -> len Rs = len xs -> len Gs = (2 ^ len xs)%nat -> len b = (2 ^ len xs)%nat ->
  (ipa_holds xs Ls Rs a0 Gs b Q P <->
   gadd (smul a0 (gdot (coef (map finv xs)) Gs)) (smul (fmul a0 (inner_product (coef (map finv xs)) b)) Q)
   = gadd P (gadd (gdot xs Ls) (gdot (map finv xs) Rs))).
Proof.
  induction xs as [|x xs IH]; intros [|l Ls] [|r Rs] a0 Gs b Q P HL HR HG Hb; cbn [List.length] in *; try discriminate.
  - destruct Gs as [|g [|? ?]]; cbn in HG; try discriminate. destruct b as [|b0 [|? ?]]; cbn in Hb; try discriminate.
    cbn [ipa_holds map coef gdot inner_product]. 
    replace (gadd (smul fone g) gzero) with g by module.
    replace (fadd (fmul fone b0) fzero) with b0 by ring.
    replace (gadd P (gadd gzero gzero)) with P by module. split; congruence.
  - cbn [ipa_holds]. rewrite HG, div2_pow.
    destruct (halves _ Gs HG) as [G1 G2]. destruct (halves _ b Hb) as [B1 B2].
    rewrite IH; [|lia|lia| |].
    2:{ rewrite gfold_with_gvaxpy, gvaxpy_len; congruence. }
    2:{ rewrite fold_with_vaxpy, vaxpy_len; congruence. }
    rewrite gfold_with_gvaxpy, fold_with_vaxpy, gdot_gvaxpy by congruence.
    rewrite (ip_comm _ (vaxpy _ _ _)), ip_vaxpy by congruence.
    cbn [map coef gdot].
    assert (EG : gdot (coef (map finv xs) ++ map (fmul (finv x)) (coef (map finv xs))) Gs =
      gadd (gdot (coef (map finv xs)) (firstn (2 ^ len xs) Gs)) (smul (finv x) (gdot (coef (map finv xs)) (skipn (2 ^ len xs) Gs)))).
    { rewrite <- (firstn_skipn (2 ^ len xs) Gs) at 1. rewrite gdot_app, gdot_scale; [easy|].
      rewrite coef_len, map_length. congruence. }
    assert (Eb : inner_product (coef (map finv xs) ++ map (fmul (finv x)) (coef (map finv xs))) b =
      fadd (inner_product (firstn (2 ^ len xs) b) (coef (map finv xs))) (fmul (finv x) (inner_product (skipn (2 ^ len xs) b) (coef (map finv xs))))).
    { rewrite <- (firstn_skipn (2 ^ len xs) b) at 1. rewrite ip_app, ip_scale; [|rewrite coef_len, map_length; congruence].
      now rewrite (ip_comm (firstn _ b)), (ip_comm (skipn _ b)). }
    rewrite EG, Eb.
    match goal with |- (?a = ?b <-> ?c = ?d) => replace b with d by module; replace a with c by module end. reflexivity.
Qed.

Lemma batch_inv xs : Forall (fun x => x <> fzero) xs -> batch_inversion xs = map finv xs.
Proof.
  intros F. unfold batch_inversion. apply map_ext_in. intros x I. rewrite Forall_forall in F.
  destruct (feqb x fzero) eqn:E; [|easy]. apply feqb_true in E. now destruct (F x I).
Qed.

Section Code.
Context {C : ECodec A} {H : Hasher}.
Lemma verify_holds k p tr crs b c z y w xs :
  crs_n crs = (2 ^ k)%nat -> len (crs_G crs) = (2 ^ k)%nat -> len b = (2 ^ k)%nat ->
  len (ipa_L p) = k -> len (ipa_R p) = k ->
  fst (run_ops tr (ipa_ops c z y (ipa_L p) (ipa_R p))) = w :: xs -> Forall (fun x => x <> fzero) xs ->
  (exists v, ipa_verify p tr crs b c z y = Ok v /\ ipa_verify_semi p tr crs b c z y = Ok v /\
             ipa_verify_multiexp p tr crs b c z y = Ok v /\
   (v = true <-> ipa_holds xs (ipa_L p) (ipa_R p) (ipa_a p) (crs_G crs) b (smul w (crs_Q crs)) (gadd c (smul y (smul w (crs_Q crs)))))).
Proof.
  intros Hn HG Hb HL HR Run Nz.
  exists (ipa_equation p tr crs b c z y).
  split; [now apply (verify_eq p tr crs b c z y k)|].
  split; [now apply (verify_semi_eq p tr crs b c z y k)|].
  split; [now apply (verify_multiexp_eq p tr crs b c z y k)|].
  rewrite ipa_ops_run in Run. unfold ipa_equation.
  destruct (ipa_absorb _ c z y) as [w' t]. pose proof (generate_challenges_len (ipa_L p) (ipa_R p) t ltac:(congruence)) as Lx.
  destruct (generate_challenges t (ipa_L p) (ipa_R p)) as [xs' t']. cbn [fst] in *. injection Run as -> ->.
  rewrite batch_inv by assumption. rewrite geqb_true, holds_iff; [reflexivity|congruence..].
Qed.
End Code.

(** ** Vectors *)
Lemma nth_fold x u v j : len u = len v -> nth j (fold_with x u v) fzero = fadd (nth j u fzero) (fmul x (nth j v fzero)).
Proof.
  revert v j. induction u as [|a u IH]; intros [|b v] j E; cbn [List.length] in E; try discriminate.
  - destruct j; cbn; ring.
  - destruct j; cbn [fold_with nth]; [easy|]. apply IH. lia.
Qed.
Lemma fold_len x u v : len u = len v -> len (fold_with x u v) = len u.
Proof. rewrite fold_with_vaxpy. apply vaxpy_len. Qed.
Lemma scale_len c v : len (scale c v) = len v. Proof. apply map_length. Qed.
Lemma lin3_len c1 v1 c2 v2 c3 v3 n : len v1 = n -> len v2 = n -> len v3 = n -> len (lin3 c1 v1 c2 v2 c3 v3) = n.
Proof. intros. unfold lin3. rewrite !fold_len; rewrite ?fold_len; rewrite scale_len; congruence. Qed.
Lemma nth_lin3 c1 v1 c2 v2 c3 v3 j n : len v1 = n -> len v2 = n -> len v3 = n ->
  nth j (lin3 c1 v1 c2 v2 c3 v3) fzero =
  fadd (fadd (fmul c1 (nth j v1 fzero)) (fmul c2 (nth j v2 fzero))) (fmul c3 (nth j v3 fzero)).
Proof.
  intros. unfold lin3. rewrite !nth_fold; rewrite ?fold_len; rewrite ?scale_len; try congruence.
  unfold scale. now rewrite nth_scale.
Qed.
Lemma gdot_lin3 c1 v1 c2 v2 c3 v3 n Gs : len v1 = n -> len v2 = n -> len v3 = n ->
  gdot (lin3 c1 v1 c2 v2 c3 v3) Gs = gadd (gadd (smul c1 (gdot v1 Gs)) (smul c2 (gdot v2 Gs))) (smul c3 (gdot v3 Gs)).
Proof.
  intros. unfold lin3. rewrite !fold_with_vaxpy, !gdot_vaxpy; rewrite ?vaxpy_len; rewrite ?scale_len; try congruence.
  unfold scale. now rewrite gdot_scale.
Qed.
Lemma gdot_fold x u v Gs : len u = len v -> gdot (fold_with x u v) Gs = gadd (gdot u Gs) (smul x (gdot v Gs)).
Proof. rewrite fold_with_vaxpy. apply gdot_vaxpy. Qed.
Lemma is_zero_true v : is_zero v = true <-> forall j, nth j v fzero = fzero.
Proof.
  unfold is_zero. rewrite forallb_forall. split.
  - intros E j. destruct (nth_in_or_default j v fzero) as [I|D]; [|easy]. now apply feqb_true, E.
  - intros E x I. apply feqb_true. destruct (In_nth v x fzero I) as (j & _ & <-). apply E.
Qed.
Lemma is_zero_false v : is_zero v = false -> Exists (fun x => x <> fzero) v.
Proof.
  unfold is_zero. induction v as [|x v IH]; cbn; [discriminate|].
  destruct (feqb x fzero) eqn:E; cbn; [intros; right; auto|]. intros _. left. now apply feqb_false.
Qed.
Lemma vec_eq u v : len u = len v -> (forall j, (j < len u)%nat -> nth j u fzero = nth j v fzero) -> u = v.
Proof. intros. now apply (nth_ext u v fzero fzero). Qed.
Lemma gdot_relation Gs v : len v = len Gs -> Exists (fun x => x <> fzero) v -> gdot v Gs = gzero -> relation Gs v.
Proof. intros E Ex Z. split; [easy|]. split; [easy|]. rewrite commit_gdot; [easy|lia|lia]. Qed.

(** ** One round *)
Section Round.
Context (x1 x2 x3 x4 : F).
Hypothesis (Hnd : NoDup [x1; x2; x3; x4]) (Hnz : ~ In fzero [x1; x2; x3; x4]).
Context (gens : list G) (P L R : G) (e1 e2 e3 e4 : list F) (n : nat).
Hypothesis (L1 : len e1 = n) (L2 : len e2 = n) (L3 : len e3 = n) (L4 : len e4 = n) (Lg : len gens = n).
Hypothesis (E1 : gdot e1 gens = gadd P (gadd (smul x1 L) (smul (finv x1) R)))
  (E2 : gdot e2 gens = gadd P (gadd (smul x2 L) (smul (finv x2) R)))
  (E3 : gdot e3 gens = gadd P (gadd (smul x3 L) (smul (finv x3) R)))
  (E4 : gdot e4 gens = gadd P (gadd (smul x4 L) (smul (finv x4) R))).

Lemma sub_nz (x y : F) : x <> y -> fsub x y <> fzero.
Proof. intros N E. apply N. now apply fsub_eq. Qed.
Lemma nzs : (x1 <> fzero /\ x2 <> fzero /\ x3 <> fzero /\ x4 <> fzero) /\
  (fsub x1 x2 <> fzero /\ fsub x1 x3 <> fzero /\ fsub x2 x3 <> fzero /\ fsub x2 x1 <> fzero /\ fsub x3 x1 <> fzero /\ fsub x3 x2 <> fzero).
Proof.
  inversion_clear Hnd as [|? ? N1 N']. inversion_clear N' as [|? ? N2 N'']. inversion_clear N'' as [|? ? N3 _].
  cbn [In] in *. repeat split; first [apply sub_nz|idtac]; intuition congruence.
Qed.

Let d1 := fmul x1 (finv (fmul (fsub x1 x2) (fsub x1 x3))).
Let d2 := fmul x2 (finv (fmul (fsub x2 x1) (fsub x2 x3))).
Let d3 := fmul x3 (finv (fmul (fsub x3 x1) (fsub x3 x2))).
Let p := lin3 (fmul (fopp (fadd x2 x3)) d1) e1 (fmul (fopp (fadd x1 x3)) d2) e2 (fmul (fopp (fadd x1 x2)) d3) e3.
Let l := lin3 d1 e1 d2 e2 d3 e3.
Let r := lin3 (fmul (fmul x2 x3) d1) e1 (fmul (fmul x1 x3) d2) e2 (fmul (fmul x1 x2) d3) e3.
Let diff := fold_with (fopp fone) (fold_with (finv x4) (fold_with x4 p l) r) e4.

Lemma lin_solve m1 m2 m3 : 
  gdot (lin3 m1 e1 m2 e2 m3 e3) gens =
  gadd (smul (fadd (fadd m1 m2) m3) P) (gadd (smul (fadd (fadd (fmul m1 x1) (fmul m2 x2)) (fmul m3 x3)) L)
     (smul (fadd (fadd (fmul m1 (finv x1)) (fmul m2 (finv x2))) (fmul m3 (finv x3))) R)).
Proof. rewrite (gdot_lin3 _ _ _ _ _ _ n), E1, E2, E3 by assumption. module. Qed.
Ltac fld := destruct nzs as ((?&?&?&?)&?&?&?&?&?&?); unfold d1, d2, d3; field; repeat split; assumption.
Lemma p_P : gdot p gens = P.
Proof.
  unfold p. rewrite lin_solve.
  transitivity (gadd (smul fone P) (gadd (smul fzero L) (smul fzero R))); [|module].
  f_equal; [|f_equal]; f_equal; fld.
Qed.
Lemma l_L : gdot l gens = L.
Proof.
  unfold l. rewrite lin_solve.
  transitivity (gadd (smul fzero P) (gadd (smul fone L) (smul fzero R))); [|module].
  f_equal; [|f_equal]; f_equal; fld.
Qed.
Lemma r_R : gdot r gens = R.
Proof.
  unfold r. rewrite lin_solve.
  transitivity (gadd (smul fzero P) (gadd (smul fzero L) (smul fone R))); [|module].
  f_equal; [|f_equal]; f_equal; fld.
Qed.
Lemma lens : len p = n /\ len l = n /\ len r = n.
Proof. unfold p, l, r. rewrite !(lin3_len _ _ _ _ _ _ n) by assumption. easy. Qed.
Lemma round_relation : is_zero diff = false -> relation gens diff.
Proof.
  intros Z. destruct lens as (Lp & Ll & Lr).
  assert (Ld : len (fold_with x4 p l) = n) by (rewrite fold_len; congruence).
  assert (Ld' : len (fold_with (finv x4) (fold_with x4 p l) r) = n) by (rewrite fold_len; congruence).
  apply gdot_relation.
  - unfold diff. rewrite fold_len; congruence.
  - now apply is_zero_false.
  - unfold diff. rewrite gdot_fold, gdot_fold, gdot_fold, p_P, l_L, r_R, E4 by congruence. module.
Qed.
Lemma round_entry : is_zero diff = true -> forall j,
  nth j e1 fzero = fadd (fadd (nth j p fzero) (fmul x1 (nth j l fzero))) (fmul (finv x1) (nth j r fzero)) /\
  nth j e2 fzero = fadd (fadd (nth j p fzero) (fmul x2 (nth j l fzero))) (fmul (finv x2) (nth j r fzero)) /\
  nth j e3 fzero = fadd (fadd (nth j p fzero) (fmul x3 (nth j l fzero))) (fmul (finv x3) (nth j r fzero)) /\
  nth j e4 fzero = fadd (fadd (nth j p fzero) (fmul x4 (nth j l fzero))) (fmul (finv x4) (nth j r fzero)).
Proof.
  intros Z j. destruct lens as (Lp & Ll & Lr).
  assert (Ld : len (fold_with x4 p l) = n) by (rewrite fold_len; congruence).
  assert (Ld' : len (fold_with (finv x4) (fold_with x4 p l) r) = n) by (rewrite fold_len; congruence).
  repeat apply conj.
  4:{ pose proof (proj1 (is_zero_true diff) Z j) as D. unfold diff in D. rewrite nth_fold in D by congruence.
      rewrite nth_fold in D by congruence. rewrite nth_fold in D by congruence.
      symmetry. apply fsub_eq. etransitivity; [|exact D]. ring. }
  all: unfold p, l, r; rewrite !(nth_lin3 _ _ _ _ _ _ j n) by assumption;
    generalize (nth j e1 fzero), (nth j e2 fzero), (nth j e3 fzero); intros; fld.
Qed.
End Round.

(** Coefficients that open all four folded commitments open the unfolded one. *)
Lemma four_roots (x1 x2 x3 x4 : F) q : NoDup [x1; x2; x3; x4] -> (len q <= 4)%nat ->
  (forall x, In x [x1; x2; x3; x4] -> peval q x = fzero) -> Forall (eq fzero) q.
Proof. intros N E R. apply (roots_zero [x1; x2; x3; x4]); assumption. Qed.
Lemma round_opening x1 x2 x3 x4 p l r bL bR h (es : F -> list F) (as_ : F -> list F) :
  NoDup [x1; x2; x3; x4] -> ~ In fzero [x1; x2; x3; x4] ->
  len p = (h + h + 1)%nat -> len bL = h -> len bR = h ->
  (forall x, In x [x1; x2; x3; x4] -> len (as_ x) = h /\
     es x = as_ x ++ scale (finv x) (as_ x) ++ [inner_product (as_ x) (vaxpy (finv x) bL bR)] /\
     forall j, nth j (es x) fzero = fadd (fadd (nth j p fzero) (fmul x (nth j l fzero))) (fmul (finv x) (nth j r fzero))) ->
  p = removelast p ++ [inner_product (removelast p) (bL ++ bR)].
Proof.
  intros Nd Nz Lp LbL LbR Hx.
  assert (Xnz : forall x, In x [x1; x2; x3; x4] -> x <> fzero) by (intros x I ->; contradiction).
  assert (Half : forall j, (j < h)%nat -> nth j r fzero = fzero /\ nth (h + j) r fzero = nth j p fzero /\
     nth j l fzero = nth (h + j) p fzero /\ nth (h + j) l fzero = fzero).
  { intros j Hj.
    assert (Z : Forall (eq fzero) [fopp (nth j r fzero); fsub (nth (h + j) r fzero) (nth j p fzero);
       fsub (nth (h + j) p fzero) (nth j l fzero); nth (h + j) l fzero]).
    { apply (four_roots x1 x2 x3 x4); [assumption|cbn; lia|].
      intros x I. destruct (Hx x I) as (La & Ee & En).
      pose proof (En j) as Ej. pose proof (En (h + j)%nat) as Ehj.
      assert (V1 : nth j (es x) fzero = nth j (as_ x) fzero) by (rewrite Ee, app_nth1 by lia; reflexivity).
      assert (V2 : nth (h + j) (es x) fzero = fmul (finv x) (nth j (as_ x) fzero)).
      { rewrite Ee, app_nth2 by lia. rewrite app_nth1 by (rewrite scale_len; lia).
        replace (h + j - len (as_ x))%nat with j by lia. apply nth_scale. }
      rewrite V2, <- V1, Ej in Ehj. cbn [peval].
      generalize dependent (nth j (es x) fzero). intros _ _ _. revert Ehj.
      generalize (nth j p fzero), (nth (h + j) p fzero), (nth j l fzero), (nth (h + j) l fzero), (nth j r fzero), (nth (h + j) r fzero).
      intros pj ph lj lh rj rh Eq. pose proof (Xnz x I) as Xn.
      assert (Eq2 : fmul (fmul x x) (fsub (fadd (fadd ph (fmul x lh)) (fmul (finv x) rh))
         (fmul (finv x) (fadd (fadd pj (fmul x lj)) (fmul (finv x) rj)))) = fzero) by (rewrite Eq; ring).
      etransitivity; [|exact Eq2]. field. assumption. }
    inversion_clear Z as [|? ? Z1 Z']. inversion_clear Z' as [|? ? Z2 Zb]. inversion_clear Zb as [|? ? Z3 Zc]. inversion_clear Zc as [|? ? Z4 _].
    repeat split.
    - transitivity (fopp (fopp (nth j r fzero))); [ring|]. rewrite <- Z1. ring.
    - now apply fsub_eq.
    - symmetry. now apply fsub_eq.
    - now symmetry. }
  set (pL := firstn h p). set (pR := firstn h (skipn h p)).
  assert (LL : len pL = h) by (unfold pL; rewrite firstn_length; lia).
  assert (LR : len pR = h) by (unfold pR; rewrite firstn_length, skipn_length; lia).
  assert (Nl : forall j, (j < h)%nat -> nth j pL fzero = nth j p fzero).
  { intros j Hj. unfold pL. transitivity (nth j (firstn h p ++ skipn h p) fzero); [|now rewrite firstn_skipn].
    rewrite app_nth1; [easy|fold pL; lia]. }
  assert (Sp : p = pL ++ pR ++ [nth (h + h) p fzero]).
  { unfold pL, pR. rewrite <- (firstn_skipn h p) at 1. f_equal. rewrite <- (firstn_skipn h (skipn h p)) at 1. f_equal.
    assert (L1 : len (skipn h (skipn h p)) = 1%nat) by (rewrite !skipn_length; lia).
    destruct (skipn h (skipn h p)) as [|g [|? ?]] eqn:Es; cbn in L1; try discriminate.
    f_equal. rewrite <- (firstn_skipn h p), app_nth2, firstn_length by (rewrite firstn_length; lia).
    replace (h + h - Nat.min h (len p))%nat with h by lia.
    rewrite <- (firstn_skipn h (skipn h p)), app_nth2, Es, firstn_length, skipn_length by (rewrite firstn_length; lia).
    replace (h - Nat.min h (len p - h))%nat with 0%nat by lia. reflexivity. }
  assert (Nr : forall j, (j < h)%nat -> nth j pR fzero = nth (h + j) p fzero).
  { intros j Hj. rewrite Sp at 1. rewrite app_nth2 by lia. rewrite app_nth1 by lia. f_equal. lia. }
  assert (Av : forall x, In x [x1; x2; x3; x4] -> as_ x = vaxpy x pL pR).
  { intros x I. destruct (Hx x I) as (La & Ee & En). apply vec_eq; [rewrite vaxpy_len; congruence|].
    intros j Hj. rewrite La in Hj. rewrite <- fold_with_vaxpy, nth_fold, Nl, Nr by (congruence || assumption).
    transitivity (nth j (es x) fzero); [rewrite Ee, app_nth1 by lia; reflexivity|]. rewrite En.
    destruct (Half j Hj) as (-> & _ & -> & _). ring. }
  assert (Rl : removelast p = pL ++ pR) by (rewrite Sp, app_assoc; apply removelast_last).
  rewrite Rl. rewrite Sp at 1. rewrite <- app_assoc. do 3 f_equal.
  rewrite ip_app by congruence.
  set (g := nth (h + h) p fzero).
  assert (Z : Forall (eq fzero) [fsub (nth (h + h) r fzero) (inner_product pL bR);
     fsub g (fadd (inner_product pL bL) (inner_product pR bR)); fsub (nth (h + h) l fzero) (inner_product pR bL)]).
  { apply (four_roots x1 x2 x3 x4); [assumption|cbn; lia|].
    intros x I. destruct (Hx x I) as (La & Ee & En). pose proof (En (h + h)%nat) as Eg. rewrite Ee in Eg.
    rewrite app_nth2, app_nth2 in Eg by (rewrite ?scale_len; lia). rewrite scale_len in Eg.
    replace (h + h - len (as_ x) - len (as_ x))%nat with 0%nat in Eg by lia. cbn [nth] in Eg. fold g in Eg.
    rewrite (Av x I), ip_vaxpy in Eg by congruence. rewrite (ip_comm pL), (ip_comm pR) in Eg.
    rewrite !ip_vaxpy in Eg by congruence. cbn [peval].
    rewrite (ip_comm pL bR), (ip_comm pR bR), (ip_comm pL bL), (ip_comm pR bL).
    revert Eg. generalize (inner_product bL pL), (inner_product bR pL), (inner_product bL pR), (inner_product bR pR), (nth (h + h) r fzero), (nth (h + h) l fzero).
    generalize g. intros g' q1 q2 q3 q4 rr ll Eg. pose proof (Xnz x I) as Xn.
    assert (Eq2 : fmul x (fsub (fadd (fadd g' (fmul x ll)) (fmul (finv x) rr)) (fadd (fadd q1 (fmul (finv x) q2)) (fmul x (fadd q3 (fmul (finv x) q4))))) = fzero)
      by (rewrite <- Eg; ring).
    etransitivity; [|exact Eq2]. field. assumption. }
  inversion_clear Z as [|? ? Z1 Z']. inversion_clear Z' as [|? ? Z2 _]. now apply fsub_eq.
Qed.

(** ** All rounds *)
Lemma split_last (v : list F) n : len v = S n -> v = removelast v ++ [last v fzero] /\ len (removelast v) = n.
Proof.
  intros E. assert (Ne : v <> []) by (intros ->; discriminate).
  pose proof (app_removelast_last fzero Ne) as S. split; [exact S|].
  apply (f_equal (@List.length F)) in S. rewrite app_length in S. cbn in S. lia.
Qed.
Lemma unfold_opening_gdot x a b GL GR h Q : len a = h -> len GL = h -> len GR = h -> len b = h ->
  gdot (unfold_opening x a b) ((GL ++ GR) ++ [Q]) = gadd (gdot a (gvaxpy (finv x) GL GR)) (smul (inner_product a b) Q) /\
  len (unfold_opening x a b) = (h + h + 1)%nat.
Proof.
  intros. unfold unfold_opening. rewrite dot_ip by lia. split.
  - rewrite <- app_assoc. rewrite gdot_app, gdot_app by (rewrite ?scale_len; congruence).
    unfold scale. rewrite gdot_scale, gdot_gvaxpy by congruence. cbn [gdot]. module.
  - rewrite !app_length, scale_len. cbn. lia.
Qed.
Lemma relation_elim Gs v : relation Gs v -> len v = len Gs /\ Exists (fun x => x <> fzero) v /\ gdot v Gs = gzero.
Proof. intros (E & Ex & Z). rewrite commit_gdot in Z by lia. easy. Qed.
Lemma unfold_relation_ok x v GL GR h Q : len GL = h -> len GR = h ->
  relation (gvaxpy (finv x) GL GR ++ [Q]) v -> relation ((GL ++ GR) ++ [Q]) (unfold_relation x v).
Proof.
  intros HL HR Rel. apply relation_elim in Rel. destruct Rel as (E & Ex & Z).
  rewrite app_length, gvaxpy_len, HL in E by congruence. cbn in E.
  destruct (split_last v h ltac:(lia)) as [S L]. unfold unfold_relation.
  set (v0 := removelast v) in *. set (q := last v fzero) in *. rewrite S in Z, Ex. clear S E.
  rewrite gdot_app in Z by (rewrite gvaxpy_len; congruence). rewrite gdot_gvaxpy in Z by congruence. cbn [gdot] in Z.
  apply gdot_relation.
  - rewrite !app_length, scale_len. cbn. lia.
  - apply Exists_app in Ex. apply Exists_app. destruct Ex as [Ex|Ex]; [now left|right; apply Exists_app; now right].
  - rewrite <- app_assoc, !gdot_app by (rewrite ?scale_len; congruence). unfold scale. rewrite gdot_scale. cbn [gdot].
    etransitivity; [|exact Z]. module.
Qed.

Lemma extract_ok t : forall k a b Gs Q P L R,
  full_tree k t -> len Gs = (2 ^ k)%nat -> len b = (2 ^ k)%nat ->
  (forall xs, In xs (paths t) -> ipa_holds xs (answers L xs) (answers R xs) (a xs) Gs b Q P) ->
  match extract t a b with
  | Opening v => len v = (2 ^ k)%nat /\ P = gadd (gdot v Gs) (smul (inner_product v b) Q)
  | Relation v => relation (Gs ++ [Q]) v
  end.
Proof.
  induction t as [|x1 t1 IH1 x2 t2 IH2 x3 t3 IH3 x4 t4 IH4]; intros [|k] a b Gs Q P L R Full HG Hb Runs; cbn [full_tree] in Full; try contradiction.
  - specialize (Runs [] (or_introl eq_refl)). cbn [ipa_holds answers extract] in *.
    destruct Gs as [|g [|? ?]]; cbn in HG; try discriminate. destruct b as [|b0 [|? ?]]; cbn in Hb; try discriminate.
    split; [easy|]. cbn [gdot inner_product]. rewrite Runs. module.
  - destruct Full as (Nd & Nz & F1 & F2 & F3 & F4).
    destruct (halves k Gs HG) as [HGL HGR]. destruct (halves k b Hb) as [HbL HbR].
    set (h := (2 ^ k)%nat) in *. set (GL := firstn h Gs) in *. set (GR := skipn h Gs) in *.
    set (bL := firstn h b) in *. set (bR := skipn h b) in *.
    assert (SG : GL ++ GR = Gs) by apply firstn_skipn. assert (Sb : bL ++ bR = b) by apply firstn_skipn.
    assert (Child : forall x t, (forall xs, In xs (paths t) -> In (x :: xs) (paths (CNode x1 t1 x2 t2 x3 t3 x4 t4))) ->
      forall xs, In xs (paths t) ->
       ipa_holds xs (answers (fun l => L (x :: l)) xs) (answers (fun l => R (x :: l)) xs) (a (x :: xs))
         (gvaxpy (finv x) GL GR) (fold_with (finv x) bL bR) Q (gadd P (gadd (smul x (L [])) (smul (finv x) (R []))))).
    { intros x t Sub xs I. specialize (Runs (x :: xs) (Sub xs I)). cbn [ipa_holds answers] in Runs.
      rewrite HG, div2_pow in Runs. rewrite <- gfold_with_gvaxpy. exact Runs. }
    assert (LG : forall x, len (gvaxpy (finv x) GL GR) = h) by (intros; rewrite gvaxpy_len; congruence).
    assert (Lb : forall x, len (fold_with (finv x) bL bR) = h) by (intros; rewrite fold_len; congruence).
    specialize (IH1 k (fun xs => a (x1 :: xs)) _ _ Q _ _ _ F1 (LG x1) (Lb x1)
      (Child x1 t1 ltac:(intros xs I; cbn [paths]; apply in_or_app; left; now apply in_map))).
    specialize (IH2 k (fun xs => a (x2 :: xs)) _ _ Q _ _ _ F2 (LG x2) (Lb x2)
      (Child x2 t2 ltac:(intros xs I; cbn [paths]; apply in_or_app; right; apply in_or_app; left; now apply in_map))).
    specialize (IH3 k (fun xs => a (x3 :: xs)) _ _ Q _ _ _ F3 (LG x3) (Lb x3)
      (Child x3 t3 ltac:(intros xs I; cbn [paths]; apply in_or_app; right; apply in_or_app; right; apply in_or_app; left; now apply in_map))).
    specialize (IH4 k (fun xs => a (x4 :: xs)) _ _ Q _ _ _ F4 (LG x4) (Lb x4)
      (Child x4 t4 ltac:(intros xs I; cbn [paths]; apply in_or_app; right; apply in_or_app; right; apply in_or_app; right; now apply in_map))).
    clear Child Runs. cbn [extract]. rewrite Hb, div2_pow. fold h. fold bL bR.
    assert (Rl : forall x v, relation (gvaxpy (finv x) GL GR ++ [Q]) v -> relation (Gs ++ [Q]) (unfold_relation x v)).
    { intros x v Rel. rewrite <- SG. now apply (unfold_relation_ok x v GL GR h Q). }
    destruct (extract t1 _ _) as [a1|v1]; [|now apply Rl].
    destruct (extract t2 _ _) as [a2|v2]; [|now apply Rl].
    destruct (extract t3 _ _) as [a3|v3]; [|now apply Rl].
    destruct (extract t4 _ _) as [a4|v4]; [|now apply Rl].
    fold h in IH1, IH2, IH3, IH4.
    destruct IH1 as [La1 P1], IH2 as [La2 P2], IH3 as [La3 P3], IH4 as [La4 P4].
    destruct (unfold_opening_gdot x1 a1 _ GL GR h Q La1 HGL HGR (Lb x1)) as [D1 U1].
    destruct (unfold_opening_gdot x2 a2 _ GL GR h Q La2 HGL HGR (Lb x2)) as [D2 U2].
    destruct (unfold_opening_gdot x3 a3 _ GL GR h Q La3 HGL HGR (Lb x3)) as [D3 U3].
    destruct (unfold_opening_gdot x4 a4 _ GL GR h Q La4 HGL HGR (Lb x4)) as [D4 U4].
    rewrite SG, <- P1 in D1. rewrite SG, <- P2 in D2. rewrite SG, <- P3 in D3. rewrite SG, <- P4 in D4.
    assert (Lg : len (Gs ++ [Q]) = (h + h + 1)%nat) by (rewrite app_length, <- SG, app_length; cbn; lia).
    unfold combine4.
    destruct (is_zero _) eqn:Z.
    + match type of Z with is_zero (fold_with _ (fold_with _ (fold_with _ ?pp ?ll) ?rr) _) = _ => set (p := pp) in *; set (l := ll) in *; set (r := rr) in * end.
      pose proof (round_entry x1 x2 x3 x4 Nd Nz (Gs ++ [Q]) _ _ _ _ _ U1 U2 U3 U4 Lg Z) as En. fold p l r in En.
      pose proof (p_P x1 x2 x3 x4 Nd Nz (Gs ++ [Q]) P (L []) (R []) _ _ _ _ U1 U2 U3 D1 D2 D3) as Pp. fold p in Pp.
      assert (Lp : len p = (h + h + 1)%nat) by (unfold p; now apply lin3_len).
      assert (Sp : p = removelast p ++ [inner_product (removelast p) (bL ++ bR)]).
      { pose (es := fun x => if feqb x x1 then unfold_opening x1 a1 (fold_with (finv x1) bL bR)
                        else if feqb x x2 then unfold_opening x2 a2 (fold_with (finv x2) bL bR)
                        else if feqb x x3 then unfold_opening x3 a3 (fold_with (finv x3) bL bR)
                        else unfold_opening x4 a4 (fold_with (finv x4) bL bR)).
        pose (as_ := fun x => if feqb x x1 then a1 else if feqb x x2 then a2 else if feqb x x3 then a3 else a4).
        apply (round_opening x1 x2 x3 x4 p l r bL bR h es as_ Nd Nz Lp HbL HbR).
        intros x I. unfold es, as_, unfold_opening.
        destruct (feqb x x1) eqn:B1; [apply feqb_true in B1; subst x|
        destruct (feqb x x2) eqn:B2; [apply feqb_true in B2; subst x|
        destruct (feqb x x3) eqn:B3; [apply feqb_true in B3; subst x|]]].
        - split; [easy|]. split; [rewrite dot_ip by (rewrite ?fold_len; lia); now rewrite fold_with_vaxpy|]. intros j. apply (En j).
        - split; [easy|]. split; [rewrite dot_ip by (rewrite ?fold_len; lia); now rewrite fold_with_vaxpy|]. intros j. apply (En j).
        - split; [easy|]. split; [rewrite dot_ip by (rewrite ?fold_len; lia); now rewrite fold_with_vaxpy|]. intros j. apply (En j).
        - apply feqb_false in B1. apply feqb_false in B2. apply feqb_false in B3.
          assert (x = x4) as -> by (cbn [In] in I; intuition congruence).
          split; [easy|]. split; [rewrite dot_ip by (rewrite ?fold_len; lia); now rewrite fold_with_vaxpy|]. intros j. apply (En j). }
      rewrite Sb in Sp.
      destruct (split_last p (h + h) ltac:(lia)) as [_ Lr].
      split; [rewrite Lr; cbn; fold h; lia|].
      rewrite <- Pp. rewrite Sp at 1. rewrite gdot_app by (rewrite Lr, HG; cbn; fold h; lia). cbn [gdot]. module.
    + apply (round_relation x1 x2 x3 x4 Nd Nz (Gs ++ [Q]) P (L []) (R []) _ _ _ _ (h + h + 1)); assumption.
Qed.

(** ** Two values of [w] *)
Lemma scale_last_ok w v Gs Q : w <> fzero -> relation (Gs ++ [smul w Q]) v -> relation (Gs ++ [Q]) (scale_last w v).
Proof.
  intros Nz Rel. apply relation_elim in Rel. destruct Rel as (E & Ex & Z).
  rewrite app_length in E. cbn in E.
  destruct (split_last v (len Gs) ltac:(lia)) as [S L]. unfold scale_last.
  set (v0 := removelast v) in *. set (q := last v fzero) in *. rewrite S in Z, Ex. clear S E.
  rewrite gdot_app in Z by assumption. cbn [gdot] in Z.
  apply gdot_relation.
  - rewrite !app_length. cbn. lia.
  - apply Exists_app in Ex. apply Exists_app. destruct Ex as [Ex|Ex]; [now left|right].
    inversion_clear Ex as [? ? Nq|? ? Nq]; [|inversion Nq]. left. now apply fmul_neq_0.
  - rewrite gdot_app by assumption. cbn [gdot]. etransitivity; [|exact Z]. module.
Qed.

Lemma extract_ipa_ok k w1 t1 a1 L1 R1 w2 t2 a2 L2 R2 Gs b Q c y :
  w1 <> fzero -> w2 <> fzero -> w1 <> w2 -> full_tree k t1 -> full_tree k t2 -> len Gs = (2 ^ k)%nat -> len b = (2 ^ k)%nat ->
  (forall xs, In xs (paths t1) -> ipa_holds xs (answers L1 xs) (answers R1 xs) (a1 xs) Gs b (smul w1 Q) (gadd c (smul y (smul w1 Q)))) ->
  (forall xs, In xs (paths t2) -> ipa_holds xs (answers L2 xs) (answers R2 xs) (a2 xs) Gs b (smul w2 Q) (gadd c (smul y (smul w2 Q)))) ->
  match extract_ipa w1 t1 a1 w2 t2 a2 b y with
  | Opening v => len v = (2 ^ k)%nat /\ c = commit (2 ^ k) v Gs /\ dot (2 ^ k) v b = y
  | Relation v => relation (Gs ++ [Q]) v
  end.
Proof.
  intros W1 W2 W F1 F2 HG Hb Runs1 Runs2. unfold extract_ipa.
  pose proof (extract_ok t1 k a1 b Gs _ _ L1 R1 F1 HG Hb Runs1) as X1.
  pose proof (extract_ok t2 k a2 b Gs _ _ L2 R2 F2 HG Hb Runs2) as X2.
  destruct (extract t1 a1 b) as [v1|v1]; [|now apply scale_last_ok].
  destruct (extract t2 a2 b) as [v2|v2]; [|now apply scale_last_ok].
  destruct X1 as [Lv1 P1], X2 as [Lv2 P2]. rewrite Hb, !dot_ip by lia.
  set (g1 := fmul w1 (fsub (inner_product v1 b) y)). set (g2 := fmul w2 (fsub (inner_product v2 b) y)).
  assert (C1 : c = gadd (gdot v1 Gs) (smul g1 Q)).
  { transitivity (gsub (gadd c (smul y (smul w1 Q))) (smul y (smul w1 Q))); [module|]. rewrite P1. unfold g1. module. }
  assert (C2 : c = gadd (gdot v2 Gs) (smul g2 Q)).
  { transitivity (gsub (gadd c (smul y (smul w2 Q))) (smul y (smul w2 Q))); [module|]. rewrite P2. unfold g2. module. }
  assert (Le : len (v1 ++ [g1]) = len (v2 ++ [g2])) by (rewrite !app_length; cbn; lia).
  destruct (is_zero _) eqn:Z.
  - assert (E : v1 = v2 /\ g1 = g2).
    { assert (E : v1 ++ [g1] = v2 ++ [g2]).
      { apply vec_eq; [assumption|]. intros j _. pose proof (proj1 (is_zero_true _) Z j) as D.
        rewrite nth_fold in D by assumption. apply fsub_eq. etransitivity; [|exact D]. ring. }
      now apply app_inj_tail. }
    destruct E as [<- E].
    assert (Y : inner_product v1 b = y).
    { apply fsub_eq. apply (fmul_eq_0 (fsub w1 w2)); [|now apply sub_nz].
      transitivity (fsub g1 g2); [unfold g1, g2; ring|]. rewrite E. ring. }
    split; [easy|]. rewrite commit_gdot, dot_ip by lia. split; [|easy].
    rewrite C1. unfold g1. rewrite Y. module.
  - apply gdot_relation.
    + rewrite fold_len, !app_length by assumption. cbn. lia.
    + now apply is_zero_false.
    + rewrite gdot_fold by assumption. rewrite !gdot_app by congruence. cbn [gdot].
      transitivity (gsub c c); [|module]. rewrite C1 at 1. rewrite C2. module.
Qed.

Lemma tree_path t : forall k xs, full_tree k t -> In xs (paths t) -> len xs = k /\ Forall (fun x => x <> fzero) xs.
Proof.
  induction t as [|x1 t1 IH1 x2 t2 IH2 x3 t3 IH3 x4 t4 IH4]; intros [|k] xs Full I; cbn [full_tree] in Full; try contradiction.
  - cbn in I. destruct I as [<-|[]]. split; [easy|constructor].
  - destruct Full as (_ & Nz & F1 & F2 & F3 & F4). cbn [paths] in I. rewrite !in_app_iff, !in_map_iff in I.
    destruct I as [(ys & <- & I)|[(ys & <- & I)|[(ys & <- & I)|(ys & <- & I)]]].
    + destruct (IH1 k ys F1 I). split; [cbn; lia|]. constructor; [intros ->; apply Nz; cbn; auto|assumption].
    + destruct (IH2 k ys F2 I). split; [cbn; lia|]. constructor; [intros ->; apply Nz; cbn; auto|assumption].
    + destruct (IH3 k ys F3 I). split; [cbn; lia|]. constructor; [intros ->; apply Nz; cbn; auto|assumption].
    + destruct (IH4 k ys F4 I). split; [cbn; lia|]. constructor; [intros ->; apply Nz; cbn; auto|assumption].
Qed.
Lemma answers_len xs : forall f, len (answers f xs) = len xs.
Proof. induction xs as [|x xs IH]; intros f; cbn; [easy|]. now rewrite IH. Qed.

Lemma run_holds {C : ECodec A} k t L R a tr crs b c z y w xs :
  crs_n crs = (2 ^ k)%nat -> len (crs_G crs) = (2 ^ k)%nat -> len b = (2 ^ k)%nat -> full_tree k t -> In xs (paths t) ->
  ipa_run L R a tr crs b c z y w xs ->
  ipa_holds xs (answers L xs) (answers R xs) (a xs) (crs_G crs) b (smul w (crs_Q crs)) (gadd c (smul y (smul w (crs_Q crs)))).
Proof.
  intros Hn HG Hb Full I (H & Run & V). destruct (tree_path t k xs Full I) as [Lx Nz].
  destruct (verify_holds k (mkIPA (answers L xs) (answers R xs) (a xs)) tr crs b c z y w xs Hn HG Hb
    ltac:(cbn [ipa_L]; now rewrite answers_len) ltac:(cbn [ipa_R]; now rewrite answers_len) Run Nz) as (v & V' & _ & _ & Iff).
  apply Iff. rewrite V in V'. congruence.
Qed.

(** The inner-product argument of the code. *)
Lemma ipa_extraction {C : ECodec A} k w1 t1 L1 R1 a1 w2 t2 L2 R2 a2 tr crs b c z y :
  crs_n crs = (2 ^ k)%nat -> len (crs_G crs) = (2 ^ k)%nat -> len b = (2 ^ k)%nat ->
  w1 <> fzero -> w2 <> fzero -> w1 <> w2 -> full_tree k t1 -> full_tree k t2 ->
  (forall xs, In xs (paths t1) -> ipa_run L1 R1 a1 tr crs b c z y w1 xs) ->
  (forall xs, In xs (paths t2) -> ipa_run L2 R2 a2 tr crs b c z y w2 xs) ->
  match extract_ipa w1 t1 a1 w2 t2 a2 b y with
  | Opening v => len v = (2 ^ k)%nat /\ c = commit (2 ^ k) v (crs_G crs) /\ dot (2 ^ k) v b = y
  | Relation v => relation (crs_G crs ++ [crs_Q crs]) v
  end.
Proof.
  intros Hn HG Hb W1 W2 W F1 F2 Runs1 Runs2.
  apply (extract_ipa_ok k w1 t1 a1 L1 R1 w2 t2 a2 L2 R2); try assumption.
  - intros xs I. apply (run_holds k t1 L1 R1 a1 tr crs b c z y w1 xs); auto.
  - intros xs I. apply (run_holds k t2 L2 R2 a2 tr crs b c z y w2 xs); auto.
Qed.
End SoundIpa.
