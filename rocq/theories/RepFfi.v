(** The foreign-function interface on coordinates: which bytes it returns. *)
From Coq Require Import Znumtheory Permutation.
From Verif Require Import Base BaseFacts Alg AlgFacts MsmModel MsmSpec MsmProofs MsmInt CodecModel WireModel ProofModel IpaModel ElementModel ElementSpec ElementProofs
  CurveModel CurveSpec CurveProofs CurveAlg CurveRep RepSpec FfiModel FfiSpec FfiProofs.
Local Open Scope Z_scope.

Section Rep.
Context {B : BaseField} {BL : BaseFieldLaws B} {CL : CurveLaws B} {A : Alg} {AL : AlgLaws A} {I : FrInt A} {SL : ScalarLaws B A I}.
Local Notation RA := (@rep_alg B BL A I).
Local Notation RI := (@rep_int B BL A I).
Local Notation RC := (@rep_ecodec B BL A I).
Local Notation order := (Z.of_nat q_order).
#[local] Instance rep_mod : IntModule RA RI order := rep_module.
#[local] Existing Instance rep_int.
#[local] Existing Instance rep_ecodec.
Context {P : Par RA} {W : Wnaf RA} {WL : WnafLaws W} (big : 2 ^ 240 < order).
Notation Gs := (crs_G (trie_crs (A := RA))).
Notation gen := (@crs RA P).
Notation int := (@fr_int RA RI).
Local Notation same_point := (@same_point B BL A I).

Lemma r_sc_rt (s : @F RA) : @sc_de RA RC (sc_ser s) = Some s.
Proof. exact (@scalar_rt B A I SL (s : @F A)). Qed.
Lemma r_sc_len (s : @F RA) : len (@sc_ser RA RC s) = 32%nat.
Proof. apply Z_le_length. Qed.
Lemma r_scalars_len v : len (@scalars_bytes RA RC v) = (len v * 32)%nat.
Proof.
  unfold scalars_bytes. rewrite (concat_len 32), map_length; [reflexivity|]. apply Forall_forall. intros b Hb.
  apply in_map_iff in Hb as (x & <- & _). apply r_sc_len.
Qed.
Lemma r_scalars_chunks v : chunks_exact 32 (@scalars_bytes RA RC v) = map sc_ser v.
Proof.
  apply chunks_concat; [lia|]. apply Forall_forall. intros b Hb. apply in_map_iff in Hb as (x & <- & _). apply r_sc_len.
Qed.
Lemma r_all_scalars v : all_scalars (map (@sc_ser RA RC) v) = FOk v.
Proof. induction v as [|x v IH]; [reflexivity|]. cbn [map all_scalars]. unfold fr_from_le_bytes. now rewrite r_sc_rt, IH. Qed.

Lemma r_commit split cx v : context_new = Ok cx -> (len v <= 256)%nat ->
  commit_to_scalars split cx (scalars_bytes v) = Ok (FOk (eu_ser (combination v Gs))).
Proof.
  intros Hc Hv. apply context_inv in Hc as (E1 & E2 & E3). unfold commit_to_scalars, commit_to_scalars_. rewrite r_scalars_len.
  replace (Z.of_nat (len v * 32) mod 32 =? 0) with true.
  2:{ symmetry. apply (mod_multiple 32); [lia|]. eauto. }
  cbn [negb]. rewrite Nat2Z.inj_mul, Z.div_mul by lia.
  destruct (Z.ltb_spec 256 (Z.of_nat (len v))); [lia|]. rewrite r_scalars_chunks, r_all_scalars. cbn [fbind].
  rewrite (im_commit (N := order) Gs _ big E2). reflexivity.
Qed.

(** Changing an entry, as integers. *)
Lemma r_replace (gs : list (@G RA)) : forall v i x w, nth_error v i = Some x -> (i < len gs)%nat ->
  combination (replace v i w) gs = gadd (zmul (int w - int x) (nth i gs gzero)) (combination v gs).
Proof.
  unfold combination. induction gs as [|g gs IH]; intros v i x w Hx Hi; [cbn [List.length] in Hi; lia|].
  destruct v as [|y v]; [now destruct i|]. destruct i as [|i]; cbn [nth_error] in Hx.
  - injection Hx as ->. unfold replace. cbn [firstn skipn app combine map fold_right nth]. rewrite !im_smul, im_assoc, <- zmul_add.
    do 2 f_equal. ring.
  - change (replace (y :: v) (S i) w) with (y :: replace v i w). cbn [combine map fold_right nth]. cbn [List.length] in Hi.
    rewrite (IH v i x w Hx) by lia. rewrite !im_assoc. f_equal. apply im_comm.
Qed.
Lemma r_delta (x w : @F RA) : int (fsub w x) = int w - int x + (if int w <? int x then order else 0).
Proof.
  pose proof (scalar_range (x : @F A)) as Rx. pose proof (scalar_range (w : @F A)) as Rw.
  change (@F RA) with (@F A) in *. change (@fsub RA w x) with (@fsub A w x). change int with (@fr_int A I).
  transitivity (fr_int (of_Z (fr_int w - fr_int x + (if fr_int w <? fr_int x then order else 0)) : @F A)).
  - f_equal. rewrite of_Z_add, of_Z_sub, !scalar_of_int.
    assert (E : (of_Z (if fr_int w <? fr_int x then order else 0) : @F A) = fzero).
    { apply scalar_zero_iff. destruct (fr_int w <? fr_int x); [exists 1; ring|exists 0; ring]. }
    rewrite E. Add Ring Fringr : (@F_ring A AL). ring.
  - apply scalar_int_of. destruct (Z.ltb_spec (fr_int w) (fr_int x)); lia.
Qed.
Lemma r_smul_delta (x w : @F RA) g : smul (fsub w x) g =
  gadd (if (int w <? int x) && twisted g then (half : @G RA) else gzero) (zmul (int w - int x) g).
Proof.
  rewrite im_smul, r_delta, zmul_add, im_comm. f_equal. destruct (int w <? int x); [|reflexivity]. cbn [andb]. apply order_mul.
Qed.

Lemma r_update cx v i x w : context_new = Ok cx -> (len v <= 256)%nat -> 0 <= i -> nth_error v (Z.to_nat i) = Some x ->
  update_commitment cx (eu_ser (combination v Gs)) i (sc_ser x) (sc_ser w) =
  Ok (FOk (eu_ser (gadd (if (int w <? int x) && twisted (nth (Z.to_nat i) Gs gzero) then (half : @G RA) else gzero)
                        (combination (replace v (Z.to_nat i) w) Gs)))).
Proof.
  intros Hc Hv Hi Hx. apply context_inv in Hc as (E1 & E2 & E3). unfold update_commitment. rewrite rep_eu_rt. cbn [unwrap rbind].
  unfold fr_from_le_bytes. rewrite !r_sc_rt. cbn [fbind].
  assert (Hl : (Z.to_nat i < len v)%nat) by (apply nth_error_Some; congruence).
  rewrite (im_scalar_mul (N := order) Gs _ big E2). pose proof (Gs_len (A := RA)) as GL.
  destruct (nth_error Gs (Z.to_nat i)) as [p|] eqn:EP; [|apply nth_error_None in EP; lia].
  cbn [rbind]. rewrite (r_replace Gs v _ x) by (try exact Hx; lia). erewrite nth_error_nth by exact EP.
  rewrite r_smul_delta, !im_assoc. reflexivity.
Qed.

(** Several changes. *)
Definition turned (c : @change RA) : bool := (int (ch_new c) <? int (ch_old c)) && twisted (nth (ch_index c) Gs gzero).
Definition halves (n : nat) : Coord := if Nat.odd n then half else co_zero.
Lemma halves_add m n : co_add (halves m) (halves n) = halves (m + n).
Proof.
  unfold halves. rewrite Nat.odd_add. destruct (Nat.odd m), (Nat.odd n); cbn [xorb];
    [apply half_half|apply (@im_zero_r RA RI order _)|apply (@im_zero RA RI order _)|apply (@im_zero RA RI order _)].
Qed.
Lemma r_deltas l : forall v, (len v <= 256)%nat -> changes_of v l ->
  gadd (lsum (map (fun e => smul (fst e) (nth (snd e) Gs gzero)) (ch_deltas l))) (combination v Gs) =
  gadd (halves (len (filter turned l)) : @G RA) (combination (replace_all v l) Gs).
Proof.
  induction l as [|c l IH]; intros v Hv [ND Hf]; [reflexivity|]. cbn [ch_deltas map filter replace_all fold_left lsum fold_right fst snd].
  fold (ch_deltas l). inversion Hf as [|? ? Hx Hf']; subst. inversion ND as [|? ? Hn ND']; subst.
  assert (Hl : (ch_index c < len v)%nat) by (apply nth_error_Some; congruence).
  set (S := lsum (map (fun e => smul (fst e) (nth (snd e) Gs gzero)) (ch_deltas l))). fold (lsum (map (fun e => smul (fst e) (nth (snd e) Gs gzero)) (ch_deltas l))). fold S.
  fold (replace_all (replace v (ch_index c) (ch_new c)) l).
  pose proof (Gs_len (A := RA)) as GL.
  specialize (IH (replace v (ch_index c) (ch_new c))). fold S in IH.
  rewrite r_smul_delta. rewrite <- !im_assoc. rewrite (im_assoc _ S), (im_comm _ S), <- im_assoc, <- (r_replace Gs v _ (ch_old c)) by (try exact Hx; lia).
  rewrite IH.
  - rewrite im_assoc. f_equal. fold (turned c). transitivity (co_add (halves (if turned c then 1 else 0)) (halves (len (filter turned l)))).
    + f_equal. destruct (turned c); reflexivity.
    + rewrite halves_add. destruct (turned c); reflexivity.
  - rewrite replace_len by exact Hl. exact Hv.
  - split; [exact ND'|]. rewrite Forall_forall in Hf' |- *. intros d Hd. rewrite replace_nth by exact Hl.
    destruct (Nat.eqb_spec (ch_index d) (ch_index c)) as [E|_]; [|now apply Hf']. exfalso. apply Hn. rewrite <- E. now apply in_map.
Qed.

(** ** Statements *)
Lemma Gs_nth i : (i < 256)%nat -> nth i Gs gzero = gen (Z.of_nat i).
Proof.
  intro Hi. unfold trie_crs. cbn [crs_G]. rewrite (nth_indep _ _ (gen (Z.of_nat 0))) by (rewrite map_length, seq_length; exact Hi).
  rewrite (map_nth (fun i => gen (Z.of_nat i))). now rewrite seq_nth.
Qed.
Lemma halves_same n g : same_point (eu_ser (gadd (halves n : @G RA) g)) (@eu_ser RA RC g) /\
  (@eu_ser RA RC (gadd (halves n : @G RA) g) = @eu_ser RA RC g <-> Nat.even n = true).
Proof.
  split.
  - exists (gadd (halves n : @G RA) g), g. rewrite !rep_eu_rt. split; [reflexivity|]. split; [reflexivity|].
    apply same_halves. unfold halves. destruct (Nat.odd n); [now right|left; apply (@im_zero RA RI order _)].
  - rewrite <- Nat.negb_odd. unfold halves. destruct (Nat.odd n); split; intro E; try discriminate; try reflexivity.
    + apply rep_eu_inj in E. now apply half_neq in E.
    + f_equal. apply (@im_zero RA RI order _).
Qed.

Lemma update_bytes cx split v c i x w : context_new = Ok cx -> (len v <= 256)%nat ->
  commit_to_scalars split cx (scalars_bytes v) = Ok (FOk c) -> 0 <= i -> nth_error v (Z.to_nat i) = Some x ->
  exists out c', update_commitment cx c i (sc_ser x) (sc_ser w) = Ok (FOk out) /\
    commit_to_scalars split cx (scalars_bytes (replace v (Z.to_nat i) w)) = Ok (FOk c') /\
    same_point out c' /\ (out = c' <-> prime_order (coords (gen i)) \/ int x <= int w).
Proof.
  intros Hc Hv Ec Hi Hx. rewrite (r_commit split cx v Hc Hv) in Ec. assert (X : c = eu_ser (combination v Gs)) by congruence. clear Ec. subst c.
  assert (Hl : (Z.to_nat i < len v)%nat) by (apply nth_error_Some; congruence).
  rewrite (r_update cx v i x w Hc Hv Hi Hx), (r_commit split cx _ Hc) by (rewrite replace_len by exact Hl; exact Hv).
  do 2 eexists. split; [reflexivity|]. split; [reflexivity|].
  rewrite Gs_nth by lia. rewrite Z2Nat.id by exact Hi.
  set (b := (int w <? int x) && twisted (gen i)).
  assert (E : (if b then (half : @G RA) else gzero) = (halves (if b then 1 else 0) : @G RA)) by (destruct b; reflexivity).
  rewrite E. destruct (halves_same (if b then 1 else 0) (combination (replace v (Z.to_nat i) w) Gs)) as [H1 H2]. split; [exact H1|].
  rewrite H2. unfold b. destruct (Z.ltb_spec (int w) (int x)) as [Lt|Ge]; cbn [andb].
  - unfold twisted. pose proof (point_check_iff (coords (gen i))) as K. destruct (point_check (coords (gen i))); cbn [negb].
    + split; [intros _; left; now apply K|reflexivity].
    + split; [discriminate|]. intros [Pr|]; [|lia]. assert (false = true) by (apply K; split; [apply co_valid|exact Pr]). discriminate.
  - split; [intros _; right; lia|reflexivity].
Qed.
Lemma sparse_bytes cx split v c l : context_new = Ok cx -> (len v <= 256)%nat ->
  commit_to_scalars split cx (scalars_bytes v) = Ok (FOk c) -> changes_of v l ->
  exists out c', update_commitment_sparse cx c (map ch_index l) (map (fun c => sc_ser (ch_old c)) l) (map (fun c => sc_ser (ch_new c)) l) = Ok (FOk out) /\
    commit_to_scalars split cx (scalars_bytes (replace_all v l)) = Ok (FOk c') /\
    same_point out c' /\
    (out = c' <-> Nat.even (len (filter (fun c => (int (ch_new c) <? int (ch_old c)) && negb (point_check (coords (gen (Z.of_nat (ch_index c)))))) l)) = true).
Proof.
  intros Hc Hv Ec Hl. rewrite (r_commit split cx v Hc Hv) in Ec. assert (X : c = eu_ser (combination v Gs)) by congruence. clear Ec. subst c.
  rewrite (r_commit split cx _ Hc) by (rewrite replace_all_len by exact Hl; exact Hv).
  pose proof Hc as Hc0. apply context_inv in Hc0 as (E1 & E2 & E3). unfold update_commitment_sparse. rewrite rep_eu_rt. cbn [unwrap rbind].
  assert (SD : forall l pre, sparse_deltas (len pre) (ch_indices l) (ch_olds (pre ++ l)) (ch_news (pre ++ l)) = Ok (ch_deltas l)).
  { clear - SL. induction l as [|c l IH]; intro pre; [reflexivity|]. cbn [ch_indices map sparse_deltas]. fold (ch_indices l).
    assert (E : forall f : change -> bytes, nth_error (map f (pre ++ c :: l)) (len pre) = Some (f c)).
    { intro f. rewrite map_app, nth_error_app2 by (rewrite map_length; lia). rewrite map_length, Nat.sub_diag. reflexivity. }
    unfold index, ch_olds at 1, ch_news at 1. rewrite !E. cbn [unwrap rbind]. rewrite !r_sc_rt. cbn [unwrap rbind].
    specialize (IH (pre ++ [c])). rewrite app_length in IH. cbn [List.length] in IH. rewrite <- app_assoc in IH. cbn [app] in IH.
    replace (S (len pre)) with (len pre + 1)%nat by lia. rewrite IH. reflexivity. }
  specialize (SD l []). cbn [app List.length] in SD. unfold ch_indices, ch_olds, ch_news in SD. rewrite SD. cbn [rbind].
  rewrite (im_sparse (N := order) Gs _ big E2).
  2:{ intros d i Hi. pose proof (changes_len v l (proj2 Hl) d i Hi). rewrite Gs_len. lia. }
  cbn [rbind]. do 2 eexists. split; [reflexivity|]. split; [reflexivity|].
  rewrite (r_deltas l v Hv Hl). destruct (halves_same (len (filter turned l)) (combination (replace_all v l) Gs)) as [H1 H2].
  split; [exact H1|]. rewrite H2. replace (filter (fun c => (int (ch_new c) <? int (ch_old c)) && negb (point_check (coords (gen (Z.of_nat (ch_index c)))))) l) with (filter turned l); [reflexivity|].
  apply filter_ext_in. intros c Hin. unfold turned, twisted. rewrite Gs_nth; [reflexivity|].
  destruct Hl as [_ Hf]. rewrite Forall_forall in Hf. specialize (Hf c Hin). assert (ch_index c < len v)%nat by (apply nth_error_Some; congruence). lia.
Qed.

(** Sums. *)
Lemma r_sum (x y : @F RA) : int (fadd x y) = int x + int y - (if order <=? int x + int y then order else 0).
Proof.
  pose proof (scalar_range (x : @F A)) as Rx. pose proof (scalar_range (y : @F A)) as Ry.
  change (@F RA) with (@F A) in *. change (@fadd RA x y) with (@fadd A x y). change int with (@fr_int A I).
  transitivity (fr_int (of_Z (fr_int x + fr_int y - (if order <=? fr_int x + fr_int y then order else 0)) : @F A)).
  - f_equal. rewrite of_Z_sub, of_Z_add, !scalar_of_int.
    assert (E : (of_Z (if order <=? fr_int x + fr_int y then order else 0) : @F A) = fzero).
    { apply scalar_zero_iff. destruct (order <=? fr_int x + fr_int y); [exists 1; ring|exists 0; ring]. }
    rewrite E. Add Ring Fringr2 : (@F_ring A AL). ring.
  - apply scalar_int_of. destruct (Z.leb_spec order (fr_int x + fr_int y)); lia.
Qed.
Definition wraps (e : (@F RA * @F RA) * @G RA) : bool := (order <=? int (fst (fst e)) + int (snd (fst e))) && twisted (snd e).
Lemma r_add (gs : list (@G RA)) : forall a b, len a = len b ->
  gadd (combination a gs) (combination b gs) =
  gadd (halves (len (filter wraps (combine (combine a b) gs))) : @G RA) (combination (map (fun '(x, y) => fadd x y) (combine a b)) gs).
Proof.
  assert (S4 : forall p q r t : @G RA, gadd (gadd p q) (gadd r t) = gadd (gadd p r) (gadd q t)).
  { intros p q r t. rewrite <- !im_assoc. f_equal. rewrite !im_assoc. f_equal. apply im_comm. }
  unfold combination. induction gs as [|g gs IH]; intros a b Hl.
  - destruct a, b; try discriminate; reflexivity.
  - destruct a as [|x a], b as [|y b]; try discriminate; [reflexivity|]. cbn [List.length] in Hl. injection Hl as Hl.
    cbn [combine map fold_right filter]. rewrite S4, (IH a b Hl).
    set (n := len (filter wraps (combine (combine a b) gs))). set (t := fold_right gadd gzero _).
    assert (E : gadd (smul x g) (smul y g) = gadd (halves (if wraps (x, y, g) then 1 else 0) : @G RA) (smul (fadd x y) g)).
    { rewrite !im_smul, <- zmul_add, r_sum. unfold wraps. cbn [fst snd].
      replace (int x + int y) with ((if order <=? int x + int y then order else 0) + (int x + int y - (if order <=? int x + int y then order else 0))) at 1 by ring.
      rewrite zmul_add. f_equal. destruct (order <=? int x + int y); [|reflexivity]. cbn [andb]. rewrite order_mul. destruct (twisted g); reflexivity. }
    rewrite E, S4. f_equal.
    transitivity (co_add (halves (if wraps (x, y, g) then 1 else 0)) (halves n)); [reflexivity|]. rewrite halves_add. unfold n.
    destruct (wraps (x, y, g)); reflexivity.
Qed.
Lemma add_bytes (cx : @Context_ RA) split (a b : list (@F RA)) ca cb : context_new = Ok cx -> len a = len b -> (len a <= 256)%nat ->
  commit_to_scalars split cx (scalars_bytes a) = Ok (FOk ca) -> commit_to_scalars split cx (scalars_bytes b) = Ok (FOk cb) ->
  exists out c', @add_commitment RA RC ca cb = Ok out /\
    commit_to_scalars split cx (scalars_bytes (map (fun '(x, y) => fadd x y) (combine a b))) = Ok (FOk c') /\
    same_point out c' /\
    (out = c' <-> Nat.even (len (filter (fun e : (@F RA * @F RA) * Coord => (order <=? int (fst (fst e)) + int (snd (fst e))) && negb (point_check (coords (snd e))))
                                        (combine (combine a b) Gs))) = true).
Proof.
  intros Hc Hl Ha Ea Eb. rewrite (r_commit split cx a Hc) in Ea by lia. rewrite (r_commit split cx b Hc) in Eb by lia. assert (Xa : ca = eu_ser (combination a Gs)) by congruence. assert (Xb : cb = eu_ser (combination b Gs)) by congruence. clear Ea Eb. subst ca cb.
  rewrite (r_commit split cx _ Hc) by (rewrite map_length, combine_length; lia).
  unfold add_commitment. rewrite !rep_eu_rt. cbn [unwrap rbind]. do 2 eexists. split; [reflexivity|]. split; [reflexivity|].
  rewrite (r_add Gs a b Hl). destruct (halves_same (len (filter wraps (combine (combine a b) Gs))) (combination (map (fun '(x, y) => fadd x y) (combine a b)) Gs)) as [H1 H2].
  split; [exact H1|]. exact H2.
Qed.

(** What a commitment's bytes are when read as a record. *)
Lemma commit_readable (cx : @Context_ RA) split (v : list (@F RA)) c : context_new = Ok cx -> (len v <= 256)%nat ->
  commit_to_scalars split cx (scalars_bytes v) = Ok (FOk c) ->
  ((exists e r, deserialize_uncompressed c = Some (e, r)) <->
   Nat.even (len (filter (fun e : @F RA * Coord => Z.odd (int (fst e)) && negb (point_check (coords (snd e)))) (combine v Gs))) = true).
Proof.
  intros Hc Hv Ec. rewrite (r_commit split cx v Hc Hv) in Ec. assert (X : c = eu_ser (combination v Gs)) by congruence. clear Ec. subst c.
  assert (T : twisted (combination v Gs) = Nat.odd (len (filter (fun e : @F RA * Coord => Z.odd (int (fst e)) && negb (point_check (coords (snd e)))) (combine v Gs)))).
  { unfold combination. change (fold_right gadd gzero ?l) with (lsum l). rewrite twisted_sum. f_equal. clear Hc Hv.
    generalize (combine v Gs). induction l as [|[s g] l IH]; [reflexivity|]. cbn [map filter fst snd]. rewrite im_smul, twisted_zmul. unfold twisted at 1.
    destruct (Z.odd (int s) && negb (point_check (coords g))); cbn [List.length]; now rewrite IH. }
  rewrite <- Nat.negb_odd, <- T. pose proof (rep_pt_de (combination v Gs)) as D. rewrite rep_pt_ser, <- rep_eu_ser in D. cbn [pt_de rep_codec] in D.
  destruct (twisted (combination v Gs)) eqn:Tw; cbn [negb].
  - split; [|discriminate]. intros (e & r & E). exfalso.
    unfold twisted in Tw. apply negb_true_iff in Tw. revert E. rewrite rep_eu_ser. unfold deserialize_uncompressed.
    rewrite fq_de_app, skipn_app_exact, fq_de_ser by apply fq_ser_len.
    assert (E : mkAff (ax (coords (combination v Gs))) (ay (coords (combination v Gs))) = coords (combination v Gs)) by now destruct (coords (combination v Gs)).
    rewrite E, Tw. discriminate.
  - split; [reflexivity|]. intros _. destruct (deserialize_uncompressed _) as [[e r]|]; [eauto|discriminate].
Qed.
End Rep.
