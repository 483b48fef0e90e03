(** A prover that is accepted whatever the challenges are, and a hash function that draws given challenges. *)
From Coq Require Import String Field.
From Verif Require Import Base BaseFacts Alg AlgFacts WireModel ProofModel IpaModel IpaProofs LagrangeSpec LagrangeProofs
  IpaSpec MultiProofs TranscriptSpec TranscriptProofs SoundSpec SoundIpa SoundSum SoundMulti.
Local Open Scope list_scope.

Section SoundHonest.
Context {A : Alg} {AL : AlgLaws A}.
Add Field Ffield : F_field.
Add Ring dnring : dn_ring.
Notation len := List.length.

(** ** The inner-product argument *)
Definition half {X} (l : list X) : list X * list X := let h := Nat.div2 (len l) in (firstn h l, skipn h l).
Fixpoint hon_state (xs : list F) (a b : list F) (Gs : list G) : list F * list F * list G :=
  match xs with
  | [] => (a, b, Gs)
  | x :: xs' => hon_state xs' (fold_with x (fst (half a)) (snd (half a))) (fold_with (finv x) (fst (half b)) (snd (half b)))
                  (gfold_with (finv x) (fst (half Gs)) (snd (half Gs)))
  end.
Definition hon_L a b Gs Q (xs : list F) : G :=
  let '(a, b, Gs) := hon_state xs a b Gs in
  gdot (snd (half a) ++ [inner_product (snd (half a)) (fst (half b))]) (fst (half Gs) ++ [Q]).
Definition hon_R a b Gs Q (xs : list F) : G :=
  let '(a, b, Gs) := hon_state xs a b Gs in
  gdot (fst (half a) ++ [inner_product (fst (half a)) (snd (half b))]) (snd (half Gs) ++ [Q]).
Definition hon_a a b (Gs : list G) (xs : list F) : F := let '(a, _, _) := hon_state xs a b Gs in nth 0 a fzero.

Lemma half_pow {X} k (l : list X) : len l = (2 ^ S k)%nat ->
  exists l1 l2, half l = (l1, l2) /\ l = l1 ++ l2 /\ len l1 = (2 ^ k)%nat /\ len l2 = (2 ^ k)%nat.
Proof.
  intros E. unfold half. assert (D : Nat.div2 (len l) = (2 ^ k)%nat).
  { rewrite E. cbn [Nat.pow]. replace (2 ^ k + (2 ^ k + 0))%nat with (2 * 2 ^ k)%nat by lia. apply Nat.div2_double. }
  rewrite D. exists (firstn (2 ^ k) l), (skipn (2 ^ k) l). cbn [Nat.pow] in E.
  rewrite firstn_skipn, firstn_length, skipn_length. repeat split; lia.
Qed.

Lemma honest_holds xs : forall a b Gs Q, len a = (2 ^ len xs)%nat -> len b = (2 ^ len xs)%nat -> len Gs = (2 ^ len xs)%nat ->
  Forall (fun x => x <> fzero) xs ->
  ipa_holds xs (answers (hon_L a b Gs Q) xs) (answers (hon_R a b Gs Q) xs) (hon_a a b Gs xs) Gs b Q (ipa_P a b Gs Q).
Proof.
  induction xs as [|x xs IH]; intros a b Gs Q La Lb LG Nz.
  - cbn in La, Lb, LG. destruct a as [|a0 [|]], b as [|b0 [|]], Gs as [|g0 [|]]; try discriminate.
    cbn [answers ipa_holds hon_a hon_state nth]. unfold ipa_P. cbn [gdot inner_product]. module.
  - apply Forall_cons_iff in Nz as [Nx Nz]. cbn [List.length] in La, Lb, LG.
    destruct (half_pow _ _ La) as (a1 & a2 & Ea & -> & La1 & La2).
    destruct (half_pow _ _ Lb) as (b1 & b2 & Eb & -> & Lb1 & Lb2).
    destruct (half_pow _ _ LG) as (G1 & G2 & EG & -> & LG1 & LG2).
    cbn [answers ipa_holds].
    assert (E1 : firstn (Nat.div2 (len (G1 ++ G2))) (G1 ++ G2) = G1) by (change (fst (half (G1 ++ G2)) = G1); now rewrite EG).
    assert (E2 : skipn (Nat.div2 (len (G1 ++ G2))) (G1 ++ G2) = G2) by (change (snd (half (G1 ++ G2)) = G2); now rewrite EG).
    assert (LL : len (G1 ++ G2) = len (b1 ++ b2)) by congruence.
    assert (E3 : firstn (Nat.div2 (len (G1 ++ G2))) (b1 ++ b2) = b1) by (rewrite LL; change (fst (half (b1 ++ b2)) = b1); now rewrite Eb).
    assert (E4 : skipn (Nat.div2 (len (G1 ++ G2))) (b1 ++ b2) = b2) by (rewrite LL; change (snd (half (b1 ++ b2)) = b2); now rewrite Eb).
    rewrite E1, E2, E3, E4.
    assert (La' : len (fold_with x a1 a2) = (2 ^ len xs)%nat) by (rewrite fold_with_vaxpy, vaxpy_len; congruence).
    assert (Lb' : len (fold_with (finv x) b1 b2) = (2 ^ len xs)%nat) by (rewrite fold_with_vaxpy, vaxpy_len; congruence).
    assert (LG' : len (gfold_with (finv x) G1 G2) = (2 ^ len xs)%nat) by (rewrite gfold_with_gvaxpy, gvaxpy_len; congruence).
    specialize (IH _ _ _ Q La' Lb' LG' Nz).
    assert (EL : forall l, hon_L (a1 ++ a2) (b1 ++ b2) (G1 ++ G2) Q (x :: l)
                           = hon_L (fold_with x a1 a2) (fold_with (finv x) b1 b2) (gfold_with (finv x) G1 G2) Q l)
      by (intros l; unfold hon_L; cbn [hon_state]; rewrite Ea, Eb, EG; reflexivity).
    assert (ER : forall l, hon_R (a1 ++ a2) (b1 ++ b2) (G1 ++ G2) Q (x :: l)
                           = hon_R (fold_with x a1 a2) (fold_with (finv x) b1 b2) (gfold_with (finv x) G1 G2) Q l)
      by (intros l; unfold hon_R; cbn [hon_state]; rewrite Ea, Eb, EG; reflexivity).
    assert (Ex : hon_a (a1 ++ a2) (b1 ++ b2) (G1 ++ G2) (x :: xs)
                 = hon_a (fold_with x a1 a2) (fold_with (finv x) b1 b2) (gfold_with (finv x) G1 G2) xs)
      by (unfold hon_a; cbn [hon_state]; rewrite Ea, Eb, EG; reflexivity).
    assert (Ans : forall f g : list F -> G, (forall l, f l = g l) -> answers f xs = answers g xs).
    { clear. induction xs as [|y l IHl]; intros f g E; cbn [answers]; [easy|]. rewrite E. f_equal. apply IHl. intros; apply E. }
    rewrite (Ans _ _ EL), (Ans _ _ ER), Ex.
    assert (EP : ipa_P (fold_with x a1 a2) (fold_with (finv x) b1 b2) (gfold_with (finv x) G1 G2) Q
      = gadd (ipa_P (a1 ++ a2) (b1 ++ b2) (G1 ++ G2) Q)
          (gadd (smul x (hon_L (a1 ++ a2) (b1 ++ b2) (G1 ++ G2) Q [])) (smul (finv x) (hon_R (a1 ++ a2) (b1 ++ b2) (G1 ++ G2) Q [])))).
    { rewrite (fold_with_vaxpy x a1 a2), (fold_with_vaxpy (finv x) b1 b2), (gfold_with_gvaxpy (finv x) G1 G2).
      rewrite (round_identity a1 a2 b1 b2 G1 G2 Q x (finv x) (2 ^ len xs)%nat) by (try assumption; field; exact Nx).
      unfold hon_L, hon_R. cbn [hon_state]. rewrite Ea, Eb, EG. cbn [fst snd]. module. }
    rewrite EP in IH. exact IH.
Qed.

(** ** The multipoint argument *)
Definition wsum (r c : F) (f : ProverQuery -> F) (l : list ProverQuery) : F := weighted r c f l.
Definition hon_g (n : nat) (r c : F) (qs : list ProverQuery) (j : nat) : F :=
  weighted r c (fun q => quotf n (fun i => nth i (pq_poly q) fzero) (Z.to_nat (pq_point q)) j) qs.
Definition hon_h (r t c : F) (qs : list ProverQuery) (j : nat) : F :=
  weighted r c (fun q => fmul (finv (fsub t (of_Z (pq_point q)))) (nth j (pq_poly q) fzero)) qs.

Lemma hon_E n Gs r t qs : (0 < n)%nat -> len Gs = n -> Forall (good_query n Gs) qs -> forall c,
  mp_E r t c (map public_query qs) = gdot (tab n (hon_h r t c qs)) Gs.
Proof.
  intros Hn LG K. induction K as [|q qs (L & _ & Ec & _) K IH]; intros c; cbn [map mp_E].
  - unfold hon_h. cbn [weighted]. now rewrite gdot_tab_zero.
  - rewrite IH. unfold hon_h at 2. cbn [weighted]. fold (hon_h r t (fmul r c) qs).
    transitivity (gadd (gdot (tab n (fun j => fmul (fmul c (finv (fsub t (of_Z (pq_point q))))) (nth j (pq_poly q) fzero))) Gs)
                       (gdot (tab n (fun j => hon_h r t (fmul r c) qs j)) Gs)).
    + f_equal. cbn [public_query vq_point vq_comm]. rewrite Ec, commit_gdot by lia. rewrite (gdot_pad n) by assumption.
      now rewrite gdot_tab_scale.
    + rewrite <- gdot_tab_add. f_equal. apply tab_ext; [exact Hn|]. intros j _. unfold hon_h. ring.
Qed.

Lemma hon_y n Gs r t qs : domain_fits n -> (0 < n)%nat -> Forall (good_query n Gs) qs -> outside_domain n t -> forall c,
  mp_y r t c (map public_query qs)
  = inner_product (tab n (fun j => fsub (hon_h r t c qs j) (hon_g n r c qs j))) (eval_vector n t).
Proof.
  intros Hfit Hn K O. rewrite <- eval_vector_coef.
  change (map (fun i => fmul (wt n i) (mfun n i t)) (seq 0 n)) with (tab n (fun i => fmul (wt n i) (mfun n i t))).
  induction K as [|q qs (L & B & _ & Er) K IH]; intros c; cbn [map mp_y].
  - rewrite ip_tab. unfold hon_h, hon_g. cbn [weighted].
    assert (Z : forall l : list nat, fzero = MultiProofs.lsum (fun i => fmul (fsub fzero fzero) (fmul (wt n i) (mfun n i t))) l).
    { induction l as [|i l IHl]; cbn; [easy|]. rewrite <- IHl. ring. }
    apply Z.
  - rewrite IH. cbn [public_query vq_point vq_result]. rewrite Er. rewrite !ip_tab.
    set (f := fun i => nth i (pq_poly q) fzero). set (idx := Z.to_nat (pq_point q)).
    assert (Li : (idx < n)%nat) by (unfold idx; lia).
    assert (Ez : of_Z (pq_point q) = pt idx) by (unfold pt, idx; now rewrite Z2Nat.id by lia).
    rewrite Ez. change (nth idx (pq_poly q) fzero) with (f idx).
    assert (N : fsub t (pt idx) <> fzero) by (intros E0; apply fsub_eq in E0; exact (O idx Li E0)).
    set (e := fun i => fmul (wt n i) (mfun n i t)).
    assert (Q : fmul (fsub t (pt idx)) (MultiProofs.lsum (fun j => fmul (quotf n f idx j) (e j)) (seq 0 n)) =
      fsub (MultiProofs.lsum (fun j => fmul (f j) (e j)) (seq 0 n)) (f idx)) by exact (quotf_eval n Hfit Hn f idx t Li).
    set (d := finv (fsub t (pt idx))).
    transitivity (MultiProofs.lsum (fun i => fadd (fmul c (fsub (fmul d (fmul (f i) (e i))) (fmul (quotf n f idx i) (e i))))
       (fmul (fsub (hon_h r t (fmul r c) qs i) (hon_g n r (fmul r c) qs i)) (e i))) (seq 0 n)).
    2:{ apply MultiProofs.lsum_ext. intros i _. unfold hon_h at 2, hon_g at 2. cbn [weighted]. fold (hon_h r t (fmul r c) qs i) (hon_g n r (fmul r c) qs i).
        fold idx. fold f. rewrite Ez. change (nth i (pq_poly q) fzero) with (f i). unfold d, e. ring. }
    rewrite MultiProofs.lsum_add. f_equal. rewrite MultiProofs.lsum_scale, MultiProofs.lsum_sub, MultiProofs.lsum_scale.
    set (S1 := MultiProofs.lsum (fun x => fmul (f x) (e x)) (seq 0 n)) in *.
    set (S2 := MultiProofs.lsum (fun x => fmul (quotf n f idx x) (e x)) (seq 0 n)) in *.
    assert (Q' : S1 = fadd (fmul (fsub t (pt idx)) S2) (f idx)) by (rewrite Q; ring).
    rewrite Q'. unfold d. field. exact N.
Qed.

Definition hon_prover (n : nat) (crs : CRS) (qs : list ProverQuery) : Prover :=
  let v r t := tab n (fun j => fsub (hon_h r t fone qs j) (hon_g n r fone qs j)) in
  mkProver (fun r => gdot (tab n (hon_g n r fone qs)) (crs_G crs))
    (fun r t w => hon_L (v r t) (eval_vector n t) (crs_G crs) (smul w (crs_Q crs)))
    (fun r t w => hon_R (v r t) (eval_vector n t) (crs_G crs) (smul w (crs_Q crs)))
    (fun r t w => hon_a (v r t) (eval_vector n t) (crs_G crs)).

Lemma good_points n Gs qs : Forall (good_query n Gs) qs ->
  points_ok n (map (fun q => Z.to_nat (pq_point q)) qs) (map public_query qs).
Proof.
  induction 1 as [|q qs (L & B & _) _ IH]; cbn [map]; constructor; [|exact IH].
  split; [lia|]. cbn [public_query vq_point]. unfold pt. now rewrite Z2Nat.id by lia.
Qed.

Lemma honest_accepted {C : ECodec A} {H : Hasher} k n crs pw qs tr r t w xs :
  n = (2 ^ k)%nat -> domain_fits n -> crs_n crs = n -> len (crs_G crs) = n -> precomputed_weights n = Ok pw ->
  Forall (good_query n (crs_G crs)) qs -> outside_domain n t -> len xs = k -> Forall (fun x => x <> fzero) xs ->
  let p := hon_prover n crs qs in let vqs := map public_query qs in
  let Ls := answers (pr_L p r t w) xs in let Rs := answers (pr_R p r t w) xs in
  let E := mp_E r t fone vqs in
  fst (run_ops tr (mp_ops vqs (pr_D p r) ++
                   TPoint (lbl "E") E :: ipa_ops (gsub E (pr_D p r)) t (mp_y r t fone vqs) Ls Rs)) = r :: t :: w :: xs ->
  mp_check (mkMP (mkIPA Ls Rs (pr_a p r t w xs)) (pr_D p r)) crs pw vqs tr = Ok true.
Proof.
  intros En Fit Hcn HG Hpw K O Lx Nz p vqs Ls Rs E Run.
  assert (Hn : (0 < n)%nat) by (rewrite En; clear; induction k; cbn; lia).
  destruct (mp_check_holds k n (mkMP (mkIPA Ls Rs (pr_a p r t w xs)) (pr_D p r)) tr crs pw _ vqs r t w xs En Fit Hcn HG Hpw
    (good_points _ _ _ K) O ltac:(cbn [mp_ipa ipa_L]; unfold Ls; rewrite answers_len; exact Lx)
    ltac:(cbn [mp_ipa ipa_R]; unfold Rs; rewrite answers_len; exact Lx) Nz Run) as (v & Ev & Iff).
  cbn [mp_ipa ipa_L ipa_R ipa_a mp_g] in Iff. rewrite Ev. f_equal. apply Iff. clear Iff Ev Run.
  unfold E, vqs. rewrite (hon_E n (crs_G crs)) by assumption. rewrite (hon_y n (crs_G crs)) by assumption.
  unfold Ls, Rs, p. cbn [hon_prover pr_D pr_L pr_R pr_a]. rewrite <- gdot_tab_sub.
  subst k. apply (honest_holds xs); try (rewrite ?tab_len; congruence).
  unfold eval_vector. rewrite map_length, seq_length. congruence.
Qed.

(** ** A hash function that draws given challenges *)
Section Draw.
Context {C : ECodec A} {CL : ECodecLaws C}.
(** A way to write a scalar as the bytes it is read from. *)
Variable enc : F -> bytes.
Hypothesis Henc : forall x, to_scalar (enc x) = x.

(** The hash inputs of the rounds are told apart by their first byte and by the challenge they start with. *)
Fixpoint next_of (xs : list F) (b : bytes) : bytes :=
  match xs with
  | x :: ((y :: _) as xs') => if beqb (sc_ser x) b then enc y else next_of xs' b
  | _ => []
  end.
Definition draw (r t w : F) (xs : list F) : Hasher := fun s =>
  match s with
  | c :: s' =>
      if c =? 114 then enc t else if c =? 116 then enc w else
      if c =? 119 then enc (hd fzero xs) else
      if c =? 120 then next_of xs (firstn 32 s') else enc r
  | [] => enc r
  end.

Lemma next_of_app pre x y suf : NoDup (pre ++ [x]) -> next_of (pre ++ x :: y :: suf) (sc_ser x) = enc y.
Proof.
  induction pre as [|p pre IH]; intros N.
  - cbn [app next_of]. now rewrite beqb_refl.
  - cbn [app] in N. inversion N as [|? ? Np N']; subst. change ((p :: pre) ++ x :: y :: suf) with (p :: (pre ++ x :: y :: suf)).
    assert (E : exists z l, pre ++ x :: y :: suf = z :: l) by (destruct pre; cbn [app]; eauto).
    destruct E as (z & l & E). cbn [next_of]. rewrite E.
    assert (F' : beqb (sc_ser p) (sc_ser x) = false).
    { apply beqb_neq. intros X. apply sc_ser_inj in X. subst. apply Np. apply in_or_app. right. now left. }
    rewrite F', <- E. now apply IH.
Qed.

Fixpoint inputs_with (absorbed : bytes) (ops : list TOp) (ds : list F) : list bytes :=
  match ops with
  | [] => []
  | TPoint l p :: ops' => inputs_with (absorbed ++ l ++ el_ser p) ops' ds
  | TScalar l x :: ops' => inputs_with (absorbed ++ l ++ sc_ser x) ops' ds
  | TSep l :: ops' => inputs_with (absorbed ++ l) ops' ds
  | TChallenge l :: ops' =>
      (absorbed ++ l) :: match ds with [] => [] | d :: ds' => inputs_with (l ++ sc_ser d) ops' ds' end
  end.
Definition drawn {H : Hasher} (i : bytes) (d : F) : Prop := to_scalar (sha256 i) = d.
Lemma draws_ok {H : Hasher} ops : forall tr ds, Forall2 drawn (inputs_with tr ops ds) ds -> fst (run_ops tr ops) = ds.
Proof.
  intros tr ds K. rewrite run_challenges. revert tr ds K.
  induction ops as [|[l p|l x|l|l] ops IH]; intros tr ds K; cbn [inputs_with hash_inputs] in *.
  - now inversion K.
  - now apply IH.
  - now apply IH.
  - now apply IH.
  - destruct ds as [|d ds]; [inversion K|]. inversion K as [|? ? ? ? Kd K']; subst. unfold drawn in *. cbn [map]. rewrite Kd.
    f_equal. now apply IH.
Qed.
Lemma inputs_app ops1 : forall tr ops2 ds1 ds2,
  len (inputs_with tr ops1 ds1) = len ds1 -> 
  exists tr', inputs_with tr (ops1 ++ ops2) (ds1 ++ ds2) = inputs_with tr ops1 ds1 ++ inputs_with tr' ops2 ds2.
Proof.
  induction ops1 as [|[l p|l x|l|l] ops IH]; intros tr ops2 ds1 ds2 L; cbn [inputs_with app] in *.
  - destruct ds1; [|discriminate L]. now exists tr.
  - now apply IH.
  - now apply IH.
  - now apply IH.
  - destruct ds1 as [|d ds1]; [discriminate L|]. cbn [List.length] in L. destruct (IH (l ++ sc_ser d) ops2 ds1 ds2 ltac:(lia)) as (tr' & E).
    exists tr'. cbn [app]. now rewrite E.
Qed.

Definition rounds (Ls Rs : list G) : list TOp :=
  flat_map (fun '(l, r) => [TPoint (lbl "L") l; TPoint (lbl "R") r; TChallenge (lbl "x")]) (combine Ls Rs).
Lemma NoDup_app_l {X} (l1 l2 : list X) : NoDup (l1 ++ l2) -> NoDup l1.
Proof.
  induction l1 as [|x l1 IH]; intros N; [constructor|]. inversion N as [|? ? Nx N']; subst.
  constructor; [|now apply IH]. intros I. apply Nx. apply in_or_app. now left.
Qed.
Lemma draw_rounds r t w xs suf : let H := draw r t w xs in NoDup (removelast xs) -> forall pre y Ls Rs,
  xs = pre ++ y :: suf -> len Ls = len suf -> len Rs = len suf ->
  Forall2 drawn (inputs_with (lbl "x" ++ sc_ser y) (rounds Ls Rs) suf) suf.
Proof.
  intros H N. induction suf as [|z suf IH]; intros pre y [|l Ls] [|r' Rs] E L1 L2; try discriminate; [constructor|].
  cbn [rounds combine flat_map app inputs_with].
  constructor.
  - unfold drawn, sha256, H. change (lbl "x") with [120]. rewrite <- !app_assoc. cbn [app]. unfold draw.
    change (120 =? 114) with false. change (120 =? 116) with false. change (120 =? 119) with false. change (120 =? 120) with true. cbv iota.
    rewrite firstn_app, sc_len. rewrite firstn_all2 by (rewrite sc_len; lia). cbn [Nat.sub firstn]. rewrite app_nil_r.
    rewrite E. rewrite next_of_app; [apply Henc|].
    rewrite E in N. clear -N. replace (pre ++ y :: z :: suf) with ((pre ++ [y]) ++ z :: suf) in N by (now rewrite <- app_assoc).
    rewrite removelast_app in N by discriminate. exact (NoDup_app_l _ _ N).
  - apply (IH (pre ++ [y]) z); [rewrite E, <- app_assoc; reflexivity|cbn in L1; lia|cbn in L2; lia].
Qed.
Lemma draw_all_rounds r t w xs : let H := draw r t w xs in NoDup (removelast xs) -> forall Ls Rs,
  len Ls = len xs -> len Rs = len xs ->
  Forall2 drawn (inputs_with (lbl "w" ++ sc_ser w) (rounds Ls Rs) xs) xs.
Proof.
  intros H N Ls Rs L1 L2. destruct xs as [|x xs]; destruct Ls as [|l Ls], Rs as [|r' Rs]; try discriminate; [constructor|].
  cbn [rounds combine flat_map app inputs_with]. constructor.
  - unfold drawn, sha256, H. change (lbl "w") with [119]. rewrite <- !app_assoc. cbn [app]. unfold draw.
    change (119 =? 114) with false. change (119 =? 116) with false. change (119 =? 119) with true. cbv iota. apply Henc.
  - apply (draw_rounds r t w (x :: xs) xs N [] x); [reflexivity|cbn in L1; lia|cbn in L2; lia].
Qed.
Definition absorbs (o : TOp) : Prop := match o with TChallenge _ => False | _ => True end.
Lemma inputs_head ops : Forall absorbs ops -> forall b tr l ops' d ds,
  exists s, inputs_with (b :: tr) (ops ++ TChallenge l :: ops') (d :: ds) = (b :: s) :: inputs_with (l ++ sc_ser d) ops' ds.
Proof.
  induction 1 as [|o ops K _ IH]; intros b tr l ops' d ds; cbn [app inputs_with].
  - now exists (tr ++ l).
  - destruct o; try contradiction K; cbn [app]; apply IH.
Qed.
Lemma draw_head r t w xs b s d : let H := draw r t w xs in
  (b = 114 -> d = t) -> (b = 116 -> d = w) -> (b = 119 -> d = hd fzero xs) -> b <> 120 ->
  (b <> 114 -> b <> 116 -> b <> 119 -> d = r) -> drawn (b :: s) d.
Proof.
  intros H E1 E2 E3 E4 E5. unfold drawn, sha256, H, draw.
  destruct (Z.eqb_spec b 114); [rewrite E1 by assumption; apply Henc|].
  destruct (Z.eqb_spec b 116); [rewrite E2 by assumption; apply Henc|].
  destruct (Z.eqb_spec b 119); [rewrite E3 by assumption; apply Henc|].
  destruct (Z.eqb_spec b 120); [contradiction|]. rewrite E5 by assumption. apply Henc.
Qed.
(** The inner-product argument alone: there [r] is drawn where it draws [w]. *)
Lemma draw_ipa w xs c z y Ls Rs b tr : let H := draw w w w xs in
  b <> 119 -> b <> 120 -> NoDup (removelast xs) -> len Ls = len xs -> len Rs = len xs ->
  fst (run_ops (b :: tr) (ipa_ops c z y Ls Rs)) = w :: xs.
Proof.
  intros H B1 B2 N L1 L2. apply draws_ok. unfold ipa_ops.
  destruct (inputs_head [TSep (lbl "ipa"); TPoint (lbl "C") c; TScalar (lbl "input point") z; TScalar (lbl "output point") y]
    ltac:(repeat constructor) b tr (lbl "w") (rounds Ls Rs) w xs) as (s & E).
  cbn [app] in E. cbn [app]. fold (rounds Ls Rs). rewrite E. constructor.
  - apply draw_head; auto. intros X; contradiction.
  - now apply draw_all_rounds.
Qed.
Lemma draw_multi r t w xs qs D E (y : F) Ls Rs b tr : let H := draw r t w xs in
  ~ In b [114; 116; 119; 120] -> NoDup (removelast xs) -> len Ls = len xs -> len Rs = len xs ->
  fst (run_ops (b :: tr) (mp_ops qs D ++ TPoint (lbl "E") E :: ipa_ops (gsub E D) t y Ls Rs)) = r :: t :: w :: xs.
Proof.
  intros H B N L1 L2. apply draws_ok. unfold mp_ops.
  set (qops := flat_map (fun q => [TPoint (lbl "C") (vq_comm q); TScalar (lbl "z") (vq_point q); TScalar (lbl "y") (vq_result q)]) qs).
  assert (Ab : Forall absorbs (TSep (lbl "multiproof") :: qops)).
  { constructor; [easy|]. unfold qops. clear. induction qs; cbn [flat_map app]; [constructor|]. repeat (constructor; [easy|]). exact IHqs. }
  assert (Eq : (TSep (lbl "multiproof") :: qops ++ [TChallenge (lbl "r"); TPoint (lbl "D") D; TChallenge (lbl "t")]) ++
     TPoint (lbl "E") E :: ipa_ops (gsub E D) t y Ls Rs
     = (TSep (lbl "multiproof") :: qops) ++ TChallenge (lbl "r") ::
       ([TPoint (lbl "D") D] ++ TChallenge (lbl "t") ::
        ([TPoint (lbl "E") E; TSep (lbl "ipa"); TPoint (lbl "C") (gsub E D); TScalar (lbl "input point") t; TScalar (lbl "output point") y]
         ++ TChallenge (lbl "w") :: rounds Ls Rs))).
  { cbn [app]. rewrite <- app_assoc. reflexivity. }
  rewrite Eq. clear Eq.
  destruct (inputs_head _ Ab b tr (lbl "r") ([TPoint (lbl "D") D] ++ TChallenge (lbl "t") ::
        ([TPoint (lbl "E") E; TSep (lbl "ipa"); TPoint (lbl "C") (gsub E D); TScalar (lbl "input point") t; TScalar (lbl "output point") y]
         ++ TChallenge (lbl "w") :: rounds Ls Rs)) r (t :: w :: xs)) as (s1 & E1). rewrite E1. clear E1.
  change (lbl "r" ++ sc_ser r) with (114 :: sc_ser r).
  destruct (inputs_head [TPoint (lbl "D") D] ltac:(repeat constructor) 114 (sc_ser r) (lbl "t")
        ([TPoint (lbl "E") E; TSep (lbl "ipa"); TPoint (lbl "C") (gsub E D); TScalar (lbl "input point") t; TScalar (lbl "output point") y]
         ++ TChallenge (lbl "w") :: rounds Ls Rs) t (w :: xs)) as (s2 & E2). rewrite E2. clear E2.
  change (lbl "t" ++ sc_ser t) with (116 :: sc_ser t).
  destruct (inputs_head [TPoint (lbl "E") E; TSep (lbl "ipa"); TPoint (lbl "C") (gsub E D); TScalar (lbl "input point") t; TScalar (lbl "output point") y]
    ltac:(repeat constructor) 116 (sc_ser t) (lbl "w") (rounds Ls Rs) w xs) as (s3 & E3). rewrite E3. clear E3.
  cbn [In] in B.
  constructor; [apply draw_head; try tauto; intros ->; exfalso; tauto|].
  constructor; [apply draw_head; try tauto; try lia|].
  constructor; [apply draw_head; try tauto; try lia|].
  now apply draw_all_rounds.
Qed.

(** Hence every honest run is an accepted one. *)
Lemma honest_run k n crs pw qs b tr r t w xs :
  n = (2 ^ k)%nat -> domain_fits n -> crs_n crs = n -> len (crs_G crs) = n -> precomputed_weights n = Ok pw ->
  Forall (good_query n (crs_G crs)) qs -> ~ In b [114; 116; 119; 120] ->
  outside_domain n t -> len xs = k -> Forall (fun x => x <> fzero) xs -> NoDup (removelast xs) ->
  mp_run (hon_prover n crs qs) (b :: tr) crs pw (map public_query qs) r t w xs.
Proof.
  intros En Fit Hcn HG Hpw K B O Lx Nz Nd. exists (draw r t w xs).
  assert (R := draw_multi r t w xs (map public_query qs) (pr_D (hon_prover n crs qs) r) (mp_E r t fone (map public_query qs))
     (mp_y r t fone (map public_query qs)) (answers (pr_L (hon_prover n crs qs) r t w) xs) (answers (pr_R (hon_prover n crs qs) r t w) xs)
     b tr B Nd (answers_len _ _) (answers_len _ _)).
  split; [exact R|]. exact (honest_accepted (H := draw r t w xs) k n crs pw qs (b :: tr) r t w xs En Fit Hcn HG Hpw K O Lx Nz R).
Qed.
Lemma honest_ipa_run k crs a bv z w xs b tr :
  crs_n crs = (2 ^ k)%nat -> len (crs_G crs) = (2 ^ k)%nat -> len a = (2 ^ k)%nat -> len bv = (2 ^ k)%nat -> b <> 119 -> b <> 120 ->
  len xs = k -> Forall (fun x => x <> fzero) xs -> NoDup (removelast xs) ->
  let Q := smul w (crs_Q crs) in
  ipa_run (hon_L a bv (crs_G crs) Q) (hon_R a bv (crs_G crs) Q) (hon_a a bv (crs_G crs)) (b :: tr) crs bv
    (commit (2 ^ k) a (crs_G crs)) z (dot (2 ^ k) a bv) w xs.
Proof.
  intros Hcn HG La Lb B1 B2 Lx Nz Nd Q. exists (draw w w w xs). cbn zeta.
  assert (R := draw_ipa w xs (commit (2 ^ k) a (crs_G crs)) z (dot (2 ^ k) a bv) (answers (hon_L a bv (crs_G crs) Q) xs)
    (answers (hon_R a bv (crs_G crs) Q) xs) b tr B1 B2 Nd (answers_len _ _) (answers_len _ _)).
  split; [exact R|].
  destruct (verify_holds (H := draw w w w xs) k (mkIPA (answers (hon_L a bv (crs_G crs) Q) xs) (answers (hon_R a bv (crs_G crs) Q) xs) (hon_a a bv (crs_G crs) xs))
    (b :: tr) crs bv (commit (2 ^ k) a (crs_G crs)) z (dot (2 ^ k) a bv) w xs Hcn HG Lb
    ltac:(cbn [ipa_L]; rewrite answers_len; exact Lx) ltac:(cbn [ipa_R]; rewrite answers_len; exact Lx) R Nz) as (v & Ev & _ & _ & Iff).
  rewrite Ev. f_equal. apply Iff. cbn [ipa_L ipa_R ipa_a].
  assert (Hh := honest_holds xs a bv (crs_G crs) Q ltac:(congruence) ltac:(congruence) ltac:(congruence) Nz).
  unfold ipa_P in Hh. rewrite commit_gdot, dot_ip by lia. exact Hh.
Qed.
End Draw.
End SoundHonest.
