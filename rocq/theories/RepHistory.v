(** Many updates through the foreign-function interface, on coordinates. *)
From Verif Require Import Base BaseFacts Alg AlgFacts MsmModel MsmSpec MsmProofs MsmInt CodecModel WireModel ProofModel IpaModel ElementModel ElementSpec ElementProofs
  CurveModel CurveSpec CurveProofs CurveAlg CurveRep RepSpec FfiModel FfiSpec FfiProofs RepFfi UpdHistSpec UpdHistProofs.
Local Open Scope Z_scope.

Section Rep.
Context {B : BaseField} {BL : BaseFieldLaws B} {CL : CurveLaws B} {A : Alg} {AL : AlgLaws A} {I : FrInt A} {SL : ScalarLaws B A I}.
Local Notation RA := (@rep_alg B BL A I).
Local Notation RI := (@rep_int B BL A I).
Local Notation RC := (@rep_ecodec B BL A I).
Local Notation order := (Z.of_nat q_order).
#[local] Instance rep_mod : IntModule RA RI order := rep_module.
#[local] Existing Instance rep_int.
#[local] Existing Instance rep_ecodec.

(** Two strings of one element have one hash and one compressed form. *)
Lemma co_curve (g : Coord) : curve_element (of_affine (coords g)).
Proof. exists (coords g). split; [apply holds_of_affine|exact (proj1 (co_valid g))]. Qed.
Lemma same_point_hash (a b : bytes) g h : a = @eu_ser RA RC g -> b = @eu_ser RA RC h -> same_element (coords g) (coords h) ->
  (exists x, @hash_commitment B RA RC a = Ok x /\ @hash_commitment B RA RC b = Ok x) /\
  @serialize_commitment RA RC a = @serialize_commitment RA RC b.
Proof.
  intros -> -> S. split.
  - destruct (uncompressed_rt _ _ (holds_of_affine (coords g))) as (b1 & _ & U1 & _). destruct (uncompressed_rt _ _ (holds_of_affine (coords h))) as (b2 & _ & U2 & _).
    replace (@eu_ser RA RC g) with b1 by (cbn [eu_ser rep_ecodec]; rewrite U1; reflexivity).
    replace (@eu_ser RA RC h) with b2 by (cbn [eu_ser rep_ecodec]; rewrite U2; reflexivity).
    apply (hash_representative (of_affine (coords g)) (of_affine (coords h)) b1 b2 (co_curve g) (co_curve h)); [|exact U1|exact U2].
    apply (eqb_theorem _ _ (coords g) (coords h) (holds_of_affine _) (holds_of_affine _) (proj1 (co_valid g)) (proj1 (co_valid h))). exact S.
  - unfold serialize_commitment. rewrite !rep_eu_rt. cbn [unwrap rbind el_ser rep_ecodec].
    rewrite !(to_bytes_ok _ _ (holds_of_affine _)). rewrite (canon_unique (coords g) (coords h) (curve_y_nz _ (proj1 (co_valid g))) S). reflexivity.
Qed.

Context {P : Par RA} {W : Wnaf RA} {WL : WnafLaws W} (big : 2 ^ 240 < order).
Notation Gs := (crs_G (trie_crs (A := RA))).
Notation gen := (@crs RA P).
Notation int := (@fr_int RA RI).
Local Notation same_point := (@same_point B BL A I).
Local Notation turned := (@turned B BL A I P).

Lemma r_sparse cx n v l : context_new = Ok cx -> (len v <= 256)%nat -> changes_of v l ->
  update_commitment_sparse cx (eu_ser (gadd (halves n : @G RA) (combination v Gs))) (map ch_index l) (map (fun c => sc_ser (ch_old c)) l) (map (fun c => sc_ser (ch_new c)) l) =
  Ok (FOk (eu_ser (gadd (halves (n + len (filter turned l)) : @G RA) (combination (replace_all v l) Gs)))).
Proof.
  intros Hc Hv Hl.
  pose proof Hc as Hc0. apply context_inv in Hc0 as (E1 & E2 & E3). unfold update_commitment_sparse. rewrite rep_eu_rt. cbn [unwrap rbind].
  assert (SD : forall l pre, sparse_deltas (len pre) (ch_indices l) (ch_olds (pre ++ l)) (ch_news (pre ++ l)) = Ok (ch_deltas l)).
  { clear - SL. induction l as [|c l IH]; intro pre; [reflexivity|]. cbn [ch_indices map sparse_deltas]. fold (ch_indices l).
    assert (E : forall f : change -> bytes, nth_error (map f (pre ++ c :: l)) (len pre) = Some (f c)).
    { intro f. rewrite map_app, nth_error_app2 by (rewrite map_length; lia). rewrite map_length, Nat.sub_diag. reflexivity. }
    unfold index, ch_olds at 1, ch_news at 1. rewrite !E. cbn [unwrap rbind]. rewrite !r_sc_rt. cbn [unwrap rbind].
    specialize (IH (pre ++ [c])). rewrite app_length in IH. cbn [List.length] in IH. rewrite <- app_assoc in IH. cbn [app] in IH.
    replace (S (len pre)) with (len pre + 1)%nat by lia. rewrite IH. reflexivity. }
  specialize (SD l []). cbn [app List.length] in SD. unfold ch_indices, ch_olds, ch_news in SD. rewrite SD. cbn [rbind].
  rewrite (im_sparse (N := order) Gs _ big E2).
  2:{ intros d i Hi. pose proof (changes_len v l (proj2 Hl) d i Hi). rewrite Gs_len. lia. }
  cbn [rbind]. do 3 f_equal. rewrite im_assoc, (im_comm _ (halves n : @G RA)), <- im_assoc, (r_deltas l v Hv Hl), im_assoc. f_equal.
  exact (halves_add n _).
Qed.
Lemma r_one cx n v ch : context_new = Ok cx -> (len v <= 256)%nat -> changes_of v [ch] ->
  update_commitment cx (eu_ser (gadd (halves n : @G RA) (combination v Gs))) (Z.of_nat (ch_index ch)) (sc_ser (ch_old ch)) (sc_ser (ch_new ch)) =
  Ok (FOk (eu_ser (gadd (halves (n + len (filter turned [ch])) : @G RA) (combination (replace_all v [ch]) Gs)))).
Proof.
  intros Hc Hv Hl. pose proof (r_deltas [ch] v Hv Hl) as D. apply context_inv in Hc as (E1 & E2 & E3). unfold update_commitment. rewrite rep_eu_rt. cbn [unwrap rbind].
  unfold fr_from_le_bytes. rewrite !r_sc_rt. cbn [fbind]. rewrite Nat2Z.id. pose proof (one_changes _ _ Hl) as Hx.
  assert (Hi : (ch_index ch < len v)%nat) by (apply nth_error_Some; congruence).
  rewrite (im_scalar_mul (N := order) Gs _ big E2). pose proof (Gs_len (A := RA)) as GL.
  destruct (nth_error Gs (ch_index ch)) as [p|] eqn:EP; [|apply nth_error_None in EP; lia].
  cbn [rbind]. do 3 f_equal. cbn [ch_deltas map lsum fold_right fst snd] in D. rewrite im_zero_r in D. rewrite (nth_error_nth _ _ gzero EP) in D.
  rewrite im_assoc, (im_comm _ (halves n : @G RA)), <- im_assoc, D, im_assoc. f_equal. exact (halves_add n _).
Qed.
Lemma r_history cx : context_new = Ok cx -> forall rs n v, (len v <= 256)%nat -> requests_of v rs ->
  make_requests cx (eu_ser (gadd (halves n : @G RA) (combination v Gs))) rs =
  Ok (FOk (eu_ser (gadd (halves (n + len (filter turned (concat (map request_changes rs)))) : @G RA) (combination (vector_after v rs) Gs)))) /\
  len (vector_after v rs) = len v.
Proof.
  intros Hc. induction rs as [|r rs IH]; intros n v Hv Hr; cbn [make_requests vector_after fold_left map concat].
  - split; [|reflexivity]. cbn [filter List.length]. now rewrite Nat.add_0_r.
  - destruct Hr as [H1 H2]. fold (vector_after (replace_all v (request_changes r)) rs).
    assert (E : make_request cx (eu_ser (gadd (halves n : @G RA) (combination v Gs))) r =
      Ok (FOk (eu_ser (gadd (halves (n + len (filter turned (request_changes r))) : @G RA) (combination (replace_all v (request_changes r)) Gs))))).
    { destruct r as [ch|l]; cbn [request_changes make_request] in *; [apply r_one|apply r_sparse]; assumption. }
    rewrite E. cbn [rbind fbind]. rewrite filter_app, app_length, Nat.add_assoc.
    pose proof (replace_all_len (request_changes r) v H1) as Lr.
    destruct (IH (n + len (filter turned (request_changes r)))%nat (replace_all v (request_changes r)) ltac:(lia) H2) as [I1 I2].
    split; [exact I1|lia].
Qed.
Lemma requests_small rs : forall v c, requests_of v rs -> In c (concat (map (@request_changes RA) rs)) -> (ch_index c < len v)%nat.
Proof.
  induction rs as [|r rs IH]; intros v c Hr Hin; [destruct Hin|]. destruct Hr as [H1 H2]. cbn [map concat] in Hin. apply in_app_or in Hin as [Hin|Hin].
  - destruct H1 as [_ Hf]. rewrite Forall_forall in Hf. specialize (Hf c Hin). apply nth_error_Some. congruence.
  - rewrite <- (replace_all_len (request_changes r) v H1). now apply IH.
Qed.
Lemma history_bytes cx split v c rs : context_new = Ok cx -> (len v <= 256)%nat ->
  commit_to_scalars split cx (scalars_bytes v) = Ok (FOk c) -> requests_of v rs ->
  exists out c', make_requests cx c rs = Ok (FOk out) /\
    commit_to_scalars split cx (scalars_bytes (vector_after v rs)) = Ok (FOk c') /\
    same_point out c' /\
    (out = c' <-> Nat.even (len (filter (fun c => (int (ch_new c) <? int (ch_old c)) && negb (point_check (coords (gen (Z.of_nat (ch_index c))))))
                                        (concat (map request_changes rs)))) = true) /\
    (exists x, @hash_commitment B RA RC out = Ok x /\ @hash_commitment B RA RC c' = Ok x) /\
    @serialize_commitment RA RC out = @serialize_commitment RA RC c'.
Proof.
  intros Hc Hv Ec Hr. rewrite (r_commit big split cx v Hc Hv) in Ec. assert (X : c = eu_ser (combination v Gs)) by congruence. clear Ec. subst c.
  destruct (r_history cx Hc rs 0 v Hv Hr) as [E1 E2]. assert (Z0 : gadd (halves 0 : @G RA) (combination v Gs) = combination v Gs) by apply (@im_zero RA RI order _).
  rewrite Z0 in E1. cbn [Nat.add] in E1.
  rewrite E1, (r_commit big split cx _ Hc) by lia. do 2 eexists. split; [reflexivity|]. split; [reflexivity|].
  destruct (halves_same (len (filter turned (concat (map request_changes rs)))) (combination (vector_after v rs) Gs)) as [H1 H2].
  split; [exact H1|]. split.
  - rewrite H2. replace (filter (fun c => (int (ch_new c) <? int (ch_old c)) && negb (point_check (coords (gen (Z.of_nat (ch_index c)))))) (concat (map request_changes rs)))
      with (filter turned (concat (map request_changes rs))); [reflexivity|].
    apply filter_ext_in. intros c Hin. unfold RepFfi.turned, twisted. rewrite Gs_nth; [reflexivity|]. pose proof (requests_small rs v c Hr Hin). lia.
  - destruct H1 as (g & h & G1 & G2 & G3). rewrite rep_eu_rt in G1, G2. injection G1 as <-. injection G2 as <-.
    eapply same_point_hash; [reflexivity|reflexivity|exact G3].
Qed.
End Rep.
