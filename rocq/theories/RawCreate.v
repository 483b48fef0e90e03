(** The prover of the C binding on commitments that are read without a check (C72). *)
From Coq Require Import String Field.
From Verif Require Import Base BaseFacts Alg AlgFacts MsmModel CodecModel WireModel WireSpec WireProofs ProofModel IpaModel IpaSpec FfiModel FfiSpec FfiProofs BindModel BindSpec ElementModel ElementSpec ElementProofs
  CurveModel CurveSpec CurveProofs CurveAlg CurveRep Refine RefineProof RefineIpa RawSpec RawProofs RawVerifyModel RawVerifySpec RawVerifyProofs RawAgree.
Local Open Scope list_scope.

(** ** The prover uses the bytes of a commitment only *)
Section Blind.
Context {A : Alg} {C : ECodec A} {HS : Hasher}.
Definition same_query (p q : ProverQuery) : Prop :=
  el_ser (pq_comm p) = el_ser (pq_comm q) /\ pq_poly p = pq_poly q /\ pq_point p = pq_point q /\ pq_result p = pq_result q.
Definition same_group (g h : Group) : Prop := fst g = fst h /\ Forall2 (fun a b => same_query (fst a) (fst b) /\ snd a = snd b) (snd g) (snd h).

Lemma absorb_blind ps : forall qs tr, Forall2 same_query ps qs ->
  fold_left (fun tr q => absorb_query tr (pq_comm q) (of_Z (pq_point q)) (pq_result q)) ps tr =
  fold_left (fun tr q => absorb_query tr (pq_comm q) (of_Z (pq_point q)) (pq_result q)) qs tr.
Proof.
  induction ps as [|p ps IH]; intros qs tr H; inversion H as [|? q ? qs' (E1 & E2 & E3 & E4) H']; subst; [reflexivity|]. cbn [fold_left].
  rewrite (IH qs') by exact H'. unfold absorb_query, append_point. now rewrite E1, E3, E4.
Qed.
Lemma insert_blind p q c gs : forall hs, same_query p q -> Forall2 same_group gs hs -> Forall2 same_group (group_insert p c gs) (group_insert q c hs).
Proof.
  induction gs as [|[z m] gs IH]; intros hs S H; inversion H as [|? [z' m'] ? hs' [E1 E2] H']; subst; cbn [group_insert].
  - constructor; [|constructor]. split; [exact (proj1 (proj2 (proj2 S)))|]. cbn [snd]. constructor; [split; [exact S|reflexivity]|constructor].
  - cbn [fst snd] in E1, E2. subst z'. rewrite (proj1 (proj2 (proj2 S))). destruct (Z.eqb z (pq_point q)).
    + constructor; [|exact H']. split; [reflexivity|]. cbn [snd]. apply Forall2_app; [exact E2|]. constructor; [split; [exact S|reflexivity]|constructor].
    + constructor; [split; [reflexivity|exact E2]|]. now apply IH.
Qed.
Lemma groups_blind ps : forall qs cs, Forall2 same_query ps qs -> Forall2 same_group (groups ps cs) (groups qs cs).
Proof.
  intros qs cs H. unfold groups. assert (X : forall gs hs, Forall2 same_group gs hs ->
    Forall2 same_group (fold_left (fun l '(q, c) => group_insert q c l) (combine ps cs) gs) (fold_left (fun l '(q, c) => group_insert q c l) (combine qs cs) hs)).
  { revert qs cs H. induction ps as [|p ps IH]; intros qs cs H gs hs Hg; inversion H as [|? q ? qs' S H']; subst; [exact Hg|].
    destruct cs as [|c cs]; [exact Hg|]. cbn [combine fold_left]. apply IH; [exact H'|]. now apply insert_blind. }
  apply X. constructor.
Qed.
Lemma aggregate_blind n g h : same_group g h -> aggregate n g = aggregate n h.
Proof.
  destruct g as [z m], h as [z' m']. intros [E1 E2]. cbn [fst snd] in *. unfold aggregate. cbn [fst snd]. subst z'. do 2 f_equal.
  generalize (repeat fzero n) as acc. induction E2 as [|[p c] [q c'] m m' [(_ & E & _) Ec] _ IH]; intro acc; [reflexivity|]. cbn [fst snd] in *. cbn [fold_left]. subst c'. rewrite E. apply IH.
Qed.
Lemma by_points_blind perm gs hs : Forall2 same_group gs hs -> Forall2 same_group (by_points perm gs) (by_points perm hs).
Proof.
  intro H. unfold by_points. assert (E : map fst gs = map fst hs) by (induction H as [|? ? ? ? [E _] _ IH]; cbn [map]; congruence).
  rewrite E. induction (perm (map fst hs)) as [|i l IH]; cbn [map]; constructor; [|exact IH].
  clear -H. revert i. induction H as [|g h gs hs S _ IH]; intros [|i]; cbn [nth]; auto; split; constructor.
Qed.
Lemma open_blind perm c pw tr ps qs : Forall2 same_query ps qs -> mp_open (by_points perm) c pw tr ps = mp_open (by_points perm) c pw tr qs.
Proof.
  intro H. unfold mp_open. rewrite (absorb_blind ps qs) by exact H. destruct (challenge_scalar _ _) as [r tr1].
  assert (L : List.length ps = List.length qs) by (clear -H; induction H; cbn [List.length]; congruence). rewrite L.
  assert (E : map (aggregate (crs_n c)) (group_prover_queries (by_points perm) ps (powers_of r (List.length qs))) =
              map (aggregate (crs_n c)) (group_prover_queries (by_points perm) qs (powers_of r (List.length qs)))).
  { unfold group_prover_queries. fold (groups ps (powers_of r (List.length qs))). fold (groups qs (powers_of r (List.length qs))).
    pose proof (by_points_blind perm _ _ (groups_blind ps qs (powers_of r (List.length qs)) H)) as G.
    induction G as [|g h gs hs S _ IH]; [reflexivity|]. cbn [map]. now rewrite IH, (aggregate_blind _ _ _ S). }
  rewrite E. reflexivity.
Qed.
End Blind.

(** ** Reading *)
Section Parse.
Context {A : Alg} {C : ECodec A} {HS : Hasher}.
Context {T : Type} (f : T -> G) (ser : T -> bytes) (sser : F -> bytes).
Hypothesis ser_len : forall x, length (ser x) = 64%nat.
Hypothesis ser_rt : forall x, eu_de (ser x) = Some (f x).
Hypothesis sser_len : forall x, length (sser x) = 32%nat.
Hypothesis sser_rt : forall x, sc_de (sser x) = Some x.
Definition opening_image (o : T * (list F * Z * F)) : bytes :=
  ser (fst o) ++ concat (map sser (fst (fst (snd o)))) ++ [snd (fst (snd o))] ++ sser (snd (snd o)).
Definition opening_of (o : T * (list F * Z * F)) : ProverQuery := mkPQ (f (fst o)) (fst (fst (snd o))) (snd (fst (snd o))) (snd (snd o)).

Lemma scalar_at x r : take_scalar (sser x ++ r) = Ok (x, r).
Proof. unfold take_scalar. rewrite slice_app by apply sser_len. cbn [rbind]. rewrite sser_rt. cbn [unwrap rbind]. rewrite slice_from_app by apply sser_len. reflexivity. Qed.
Lemma scalars_at l : forall r, take_scalars (length l) (concat (map sser l) ++ r) = Ok (l, r).
Proof. induction l as [|x l IH]; intro r; [reflexivity|]. cbn [List.length take_scalars map concat]. rewrite <- app_assoc, scalar_at. cbn [rbind]. rewrite IH. reflexivity. Qed.
Lemma scalars_image l : length (concat (map sser l)) = (32 * length l)%nat.
Proof. induction l as [|x l IH]; [reflexivity|]. cbn [map concat]. rewrite app_length, IH, sser_len. cbn [List.length]. lia. Qed.
Lemma image_opening o : length (fst (fst (snd o))) = 256%nat ->
  Z.of_nat (length (opening_image o)) = 8289%Z /\ deserialize_proof_query_uncompressed (opening_image o) = Ok (opening_of o).
Proof.
  intro L. split; [unfold opening_image; rewrite !app_length, ser_len, sser_len, scalars_image, L; cbn [List.length]; lia|].
  unfold deserialize_proof_query_uncompressed, proof_query_with, take_uncompressed_group_element, opening_image.
  rewrite slice_app by apply ser_len. cbn [rbind]. rewrite ser_rt. cbn [unwrap rbind]. rewrite slice_from_app by apply ser_len. cbn [rbind].
  rewrite <- L at 1. rewrite scalars_at. cbn [rbind]. unfold take_byte. cbn [app index nth_error unwrap rbind].
  replace (snd (fst (snd o)) :: sser (snd (snd o))) with ([snd (fst (snd o))] ++ sser (snd (snd o)) ++ []) by now rewrite app_nil_r.
  rewrite slice_from_app by reflexivity. cbn [rbind]. rewrite scalar_at. reflexivity.
Qed.
Lemma image_create order cx os : Forall (fun o => length (fst (fst (snd o))) = 256%nat) os ->
  c_create_proof_uncompressed order cx (concat (map opening_image os)) =
  (let! (p, _) := mp_open order (cx_crs cx) (cx_pw cx) (tr_new (lbl "verkle")) (map opening_of os) in
   let! _ := assertb (Z.of_nat (length (mp_to_bytes_uncompressed p)) =? 1120)%Z in Ok (mp_to_bytes_uncompressed p)).
Proof.
  intro HF. unfold c_create_proof_uncompressed, c_create_with, no_remainder. rewrite Forall_forall in HF.
  set (k := Z.to_nat 8289). assert (PC : (0 < k)%nat) by (unfold k; lia).
  assert (HL : Forall (fun b => length b = k) (map opening_image os)).
  { apply Forall_forall. intros b Hb. apply in_map_iff in Hb as (o & <- & Ho). pose proof (proj1 (image_opening o (HF o Ho))). unfold k. lia. }
  replace (Z.of_nat (length (concat (map opening_image os))) mod 8289 =? 0)%Z with true.
  2:{ symmetry. replace 8289%Z with (Z.of_nat k) by (unfold k; lia). apply mod_multiple; [exact PC|]. rewrite (concat_len k) by exact HL. eauto. }
  cbn [assertb rbind]. rewrite chunks_concat by assumption.
  rewrite (rmap_ok deserialize_proof_query_uncompressed opening_image opening_of) by (intros o Ho; apply image_opening; now apply HF).
  reflexivity.
Qed.
End Parse.

(** ** Agreement *)
Section Agree.
Context {B : BaseField} {BL : BaseFieldLaws B} {CL : CurveLaws B} {A : Alg} {AL : AlgLaws A} {I : FrInt A} {SL : ScalarLaws B A I} {HS : Hasher}.
Local Notation WA := (@raw_alg B A I).
Local Notation WC := (@raw_ecodec B A I).
Local Notation RA := (@rep_alg B BL A I).
Local Notation RC := (@rep_ecodec B BL A I).
Local Notation hm := (@h_mul B BL CL A I SL).
Local Notation A1 := (cover WA Held h_zero h_add h_opp hm h_eqb).
Local Notation HC := (@held_ecodec B BL CL A I SL).

Lemma by_points_map {A0 A2 : Alg} (f : @Group A0 -> @Group A2) perm gs : (forall g, fst (f g) = fst g) -> f (0, []) = (0, []) ->
  by_points perm (map f gs) = map f (by_points perm gs).
Proof.
  intros H1 H2. unfold by_points. rewrite map_map, map_map.
  replace (map (fun x => fst (f x)) gs) with (map fst gs) by (apply map_ext; intro; now rewrite H1). apply map_ext. intro i. rewrite <- H2. apply map_nth.
Qed.
Lemma eu_held (x : Held) : @eu_ser WA WC (el x) = @eu_ser RA RC (co x).
Proof. cbn [eu_ser raw_ecodec rep_ecodec]. unfold to_bytes_uncompressed. rewrite (to_affine_ok _ _ (held x)), (to_affine_ok _ _ (holds_of_affine _)). reflexivity. Qed.

Definition raw_opening (q : @ProverQuery RA) : @ProverQuery WA := @mkPQ WA (of_affine (coords (pq_comm q))) (pq_poly q) (pq_point q) (pq_result q).
Lemma open_agrees perm (c : @CRS RA) (w : @PrecomputedWeights RA) tr (qs : list (@ProverQuery RA)) :
  match @mp_open WA WC HS (by_points perm) (raw_crs c) (raw_weights w) tr (map raw_opening qs), @mp_open RA RC HS (by_points perm) c w tr qs with
  | Ok (p, _), Ok (p', _) => @mp_to_bytes_uncompressed WA WC p = @mp_to_bytes_uncompressed RA RC p'
  | Panic, Panic => True
  | _, _ => False
  end.
Proof.
  set (cH := @mkCRS A1 (crs_n c) (map held_of (crs_G c)) (held_of (crs_Q c))).
  set (wH := @mkPW A1 (pw_weights w) (pw_inverted w)).
  set (qH := map (fun q : @ProverQuery RA => @mkPQ A1 (held_of (pq_comm q)) (pq_poly q) (pq_point q) (pq_result q)) qs).
  pose proof (@cover_open WA WC HS Held h_zero h_add h_opp hm h_eqb HC el eq_refl (fun _ _ => eq_refl) (fun _ => eq_refl) (fun _ _ => eq_refl)
    (fun _ => eq_refl) (fun _ => eq_refl) (by_points perm) (by_points perm) cH wH tr qH
    (by_points_map (A0 := A1) (A2 := WA) (@gr_map WA Held h_zero h_add h_opp hm h_eqb el) perm _ (fun _ => eq_refl) eq_refl)) as E1.
  pose proof (@cover_open RA RC HS Held h_zero h_add h_opp hm h_eqb HC co eq_refl (fun _ _ => eq_refl) (fun _ => eq_refl) (fun _ _ => eq_refl)
    ser_held (fun _ => eq_refl) (by_points perm) (by_points perm) cH wH tr qH
    (by_points_map (A0 := A1) (A2 := RA) (@gr_map RA Held h_zero h_add h_opp hm h_eqb co) perm _ (fun _ => eq_refl) eq_refl)) as E2.
  assert (M1 : forall l : list (@Coord B), map el (map held_of l) = map (fun g => of_affine (coords g)) l) by (intro l; rewrite map_map; reflexivity).
  assert (M2 : forall l : list (@Coord B), map co (map held_of l) = l) by (intro l; rewrite map_map; apply map_id).
  assert (C1 : @crs_map WA Held h_zero h_add h_opp hm h_eqb el cH = raw_crs c) by (unfold crs_map, raw_crs, cH; cbn [crs_n crs_G crs_Q]; now rewrite M1).
  assert (C2 : @crs_map RA Held h_zero h_add h_opp hm h_eqb co cH = c) by (unfold crs_map, cH; cbn [crs_n crs_G crs_Q]; rewrite M2; now destruct c).
  assert (Q1 : map (@pq_map WA Held h_zero h_add h_opp hm h_eqb el) qH = map raw_opening qs) by (unfold qH; rewrite map_map; apply map_ext; reflexivity).
  assert (Q2 : map (@pq_map RA Held h_zero h_add h_opp hm h_eqb co) qH = qs) by (unfold qH; rewrite map_map; rewrite <- map_id; apply map_ext; intros []; reflexivity).
  assert (W1 : @pw_map WA Held h_zero h_add h_opp hm h_eqb wH = raw_weights w) by reflexivity.
  assert (W2 : @pw_map RA Held h_zero h_add h_opp hm h_eqb wH = w) by (unfold pw_map, wH; now destruct w).
  rewrite C1, Q1, W1 in E1. rewrite C2, Q2, W2 in E2. clear -E1 E2.
  assert (E2' : rr False (fun a b => b = (@mp_map RA Held h_zero h_add h_opp hm h_eqb co (fst a), snd a))
    (@mp_open A1 HC HS (by_points perm) cH wH tr qH) (@mp_open RA RC HS (by_points perm) c w tr qs)) by exact E2.
  clear E2. destruct (@mp_open A1 HC HS (by_points perm) cH wH tr qH) as [[pH trH]|].
  - destruct (@mp_open WA WC HS _ _ _ _ _) as [[p1 t1]|]; [|destruct E1]. destruct (@mp_open RA RC HS _ _ _ _ _) as [[p2 t2]|]; [|destruct E2'].
    cbn [rr fst snd] in E1, E2'. assert (X1 : p1 = @mp_map WA Held h_zero h_add h_opp hm h_eqb el pH) by congruence.
    assert (X2 : p2 = @mp_map RA Held h_zero h_add h_opp hm h_eqb co pH) by congruence. subst p1 p2.
    unfold mp_to_bytes_uncompressed, ipa_to_bytes_uncompressed, mp_map, ipa_map. cbn [mp_ipa mp_g ipa_L ipa_R ipa_a]. rewrite !map_map, eu_held. f_equal.
    f_equal; [f_equal; apply map_ext; exact eu_held|]. f_equal. f_equal. apply map_ext. exact eu_held.
  - destruct (@mp_open WA WC HS _ _ _ _ _) as [[p1 t1]|]; [destruct E1|]. destruct (@mp_open RA RC HS _ _ _ _ _) as [[p2 t2]|]; [destruct E2'|exact Logic.I].
Qed.

Definition parts (q : @ProverQuery RA) : list F * Z * F := (pq_poly q, pq_point q, pq_result q).
Theorem create_agrees (perm : list Z -> list nat) (cx : @Context_ RA) (cw : @Context_ WA) (os : list (@Affine B * @ProverQuery RA)) :
  cx_crs cw = raw_crs (cx_crs cx) -> cx_pw cw = raw_weights (cx_pw cx) ->
  Forall (fun o => length (pq_poly (snd o)) = 256%nat /\ larger_x (fst o) = larger_x (coords (@pq_comm RA (snd o)))) os ->
  @raw_create_proof_uncompressed B A I HS (by_points perm) cw (concat (map (fun o => opening_bytes (fst o) (snd o)) os)) =
  @c_create_proof_uncompressed RA RC HS (by_points perm) cx (concat (map (@prover_record_uncompressed RA RC) (map snd os))).
Proof.
  intros E1 E2 HF. unfold raw_create_proof_uncompressed.
  set (f1 := fun o : @Affine B * @ProverQuery RA => (fst o, parts (snd o))).
  set (f2 := fun o : @Affine B * @ProverQuery RA => ((@pq_comm RA (snd o)) : @Coord B, parts (snd o))).
  assert (I1 : concat (map (fun o => opening_bytes (fst o) (snd o)) os) = concat (map (@opening_image WA (@Affine B) pair_bytes (@scalar_ser A I)) (map f1 os))).
  { f_equal. rewrite map_map. apply map_ext. intros [P q]. reflexivity. }
  assert (I2 : concat (map (@prover_record_uncompressed RA RC) (map snd os)) = concat (map (@opening_image RA (@Coord B) (fun g => pair_bytes (coords g)) (@sc_ser RA RC)) (map f2 os))).
  { f_equal. rewrite !map_map. apply map_ext. intros [P q]. unfold prover_record_uncompressed, opening_image, scalars_bytes. cbn [f2 parts fst snd]. now rewrite rep_eu_ser. }
  assert (L1 : Forall (fun o : @Affine B * (list (@F A) * Z * @F A) => length (fst (fst (snd o))) = 256%nat) (map f1 os)).
  { rewrite Forall_forall in *. intros x Hx. apply in_map_iff in Hx as (o & <- & Ho). exact (proj1 (HF o Ho)). }
  assert (L2 : Forall (fun o : @Coord B * (list (@F A) * Z * @F A) => length (fst (fst (snd o))) = 256%nat) (map f2 os)).
  { rewrite Forall_forall in *. intros x Hx. apply in_map_iff in Hx as (o & <- & Ho). exact (proj1 (HF o Ho)). }
  rewrite I1, I2.
  rewrite (@image_create RA RC HS (@Coord B) (fun g => g) _ _ (fun g => pair_len (coords g)) rep_eu_de (fun s => Z_le_length 32 _) (@scalar_rt B A I SL) _ cx _ L2).
  pose proof (@image_create WA WC HS (@Affine B) of_affine pair_bytes (@scalar_ser A I) pair_len eu_read (fun s => Z_le_length 32 _) (@scalar_rt B A I SL) (by_points perm) cw _ L1) as EW.
  refine (eq_trans EW _). clear EW I1 I2 L1 L2.
  assert (O2 : map (@opening_of RA (@Coord B) (fun g => g)) (map f2 os) = map snd os) by (rewrite map_map; apply map_ext; intros [P []]; reflexivity).
  assert (O1 : Forall2 (@same_query WA WC) (map (@opening_of WA (@Affine B) of_affine) (map f1 os)) (map raw_opening (map snd os))).
  { clear -HF. induction HF as [|[P q] os [_ H] _ IH]; cbn [map]; constructor; [|exact IH].
    repeat split. cbn [f1 opening_of raw_opening pq_comm fst snd]. rewrite !el_ser_affine. cbn [fst snd] in H. now rewrite H. }
  rewrite E1, E2, O2. rewrite (open_blind perm _ _ _ _ _ O1).
  pose proof (open_agrees perm (cx_crs cx) (cx_pw cx) (tr_new (lbl "verkle")) (map snd os)) as AG.
  destruct (@mp_open WA WC HS _ _ _ _ _) as [[p1 t1]|]; destruct (@mp_open RA RC HS _ _ _ _ _) as [[p2 t2]|]; [|contradiction|contradiction|reflexivity].
  cbn [rbind]. now rewrite AG.
Qed.
End Agree.
