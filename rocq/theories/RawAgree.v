(** On the coordinates of group elements, the verifier over any four numbers is the verifier of [BindModel] (C72). *)
From Coq Require Import String Field.
From Verif Require Import Base BaseFacts Alg AlgFacts MsmModel CodecModel WireModel WireSpec WireProofs ProofModel IpaModel IpaSpec FfiModel FfiSpec FfiProofs BindModel BindSpec ElementModel ElementSpec ElementProofs
  CurveModel CurveSpec CurveProofs CurveAlg CurveRep Refine RefineProof RefineIpa RawSpec RawProofs RawVerifyModel RawVerifySpec RawVerifyProofs.
Local Open Scope list_scope.

(** ** Reading *)
Section Parse.
Context {A : Alg} {C : ECodec A} {HS : Hasher}.
Context {T : Type} (f : T -> G) (ser : T -> bytes) (sser : F -> bytes).
Hypothesis ser_len : forall x, length (ser x) = 64%nat.
Hypothesis ser_rt : forall x, eu_de (ser x) = Some (f x).
Hypothesis sser_len : forall x, length (sser x) = 32%nat.
Hypothesis sser_rt : forall x, sc_de (sser x) = Some x.

Definition proof_image (D : T) (Ls Rs : list T) (a : F) : bytes := ser D ++ concat (map ser Ls) ++ concat (map ser Rs) ++ sser a.
Definition claim_image (c : T * Z * F) : bytes := ser (fst (fst c)) ++ [snd (fst c)] ++ sser (snd c).

Lemma image_len l : length (concat (map ser l)) = (64 * length l)%nat.
Proof. induction l as [|x l IH]; [reflexivity|]. cbn [map concat]. rewrite app_length, IH, ser_len. cbn [List.length]. lia. Qed.
Lemma image_points l : forall r, read_upoints (length l) (concat (map ser l) ++ r) = Ok (map f l, r).
Proof.
  induction l as [|x l IH]; intro r; [reflexivity|]. cbn [List.length read_upoints map concat]. rewrite <- app_assoc, slice_app by apply ser_len. cbn [rbind].
  rewrite ser_rt. cbn [unwrap rbind]. rewrite skipn_app_exact by apply ser_len. rewrite IH. reflexivity.
Qed.
Lemma image_proof D Ls Rs a : length Ls = 8%nat -> length Rs = 8%nat ->
  length (proof_image D Ls Rs a) = 1120%nat /\ mp_from_bytes_uncompressed (proof_image D Ls Rs a) 256 = Ok (Some (mkMP (mkIPA (map f Ls) (map f Rs) a) (f D))).
Proof.
  intros HL HR. split; [unfold proof_image; rewrite !app_length, ser_len, !image_len, sser_len, HL, HR; reflexivity|].
  unfold mp_from_bytes_uncompressed, proof_image. rewrite slice_app by apply ser_len. cbn [rbind]. rewrite slice_from_app by apply ser_len. cbn [rbind].
  rewrite ser_rt. cbn [unwrap rbind]. unfold ipa_from_bytes_uncompressed. replace (log2_up 256) with 8%nat by reflexivity.
  rewrite !app_length, !image_len, sser_len, HL, HR.
  change (assertb (Z.of_nat 8 * 2 * 64 + 32 =? Z.of_nat (64 * 8 + (64 * 8 + 32)) mod 2 ^ 32)%Z) with (Ok tt). cbn [rbind].
  assert (E : (64 * 8 + (64 * 8 + 32) - 32)%nat = length (concat (map ser Ls) ++ concat (map ser Rs))).
  { rewrite app_length, !image_len, HL, HR. reflexivity. }
  rewrite E. replace (concat (map ser Ls) ++ concat (map ser Rs) ++ sser a) with ((concat (map ser Ls) ++ concat (map ser Rs)) ++ sser a) by now rewrite app_assoc.
  rewrite skipn_app_exact, firstn_app_exact, sser_len by reflexivity. change (assertb (32 =? 32)%nat) with (Ok tt). cbn [rbind].
  rewrite <- HL at 1. rewrite image_points. cbn [rbind].
  replace (concat (map ser Rs)) with (concat (map ser Rs) ++ []) by apply app_nil_r.
  rewrite <- HR. rewrite image_points. cbn [rbind]. rewrite sser_rt. reflexivity.
Qed.
Lemma image_claim c : length (claim_image c) = 97%nat /\
  deserialize_verifier_query_uncompressed (claim_image c) = Ok (mkVQ (f (fst (fst c))) (of_Z (snd (fst c))) (snd c)).
Proof.
  split; [unfold claim_image; rewrite !app_length, ser_len, sser_len; reflexivity|].
  unfold deserialize_verifier_query_uncompressed, verifier_query_with, take_uncompressed_group_element, claim_image.
  rewrite slice_app by apply ser_len. cbn [rbind]. rewrite ser_rt. cbn [unwrap rbind]. rewrite slice_from_app by apply ser_len. cbn [rbind].
  unfold take_byte. cbn [app index nth_error unwrap rbind].
  replace (snd (fst c) :: sser (snd c)) with ([snd (fst c)] ++ sser (snd c)) by reflexivity. rewrite slice_from_app by reflexivity. cbn [rbind].
  unfold take_scalar. replace (slice 0 32 (sser (snd c))) with (Ok (sser (snd c))).
  2:{ rewrite <- (app_nil_r (sser (snd c))) at 2. symmetry. apply slice_app, sser_len. }
  cbn [rbind]. rewrite sser_rt. cbn [unwrap rbind]. replace (slice_from 32 (sser (snd c))) with (Ok ([] : bytes)).
  2:{ rewrite <- (app_nil_r (sser (snd c))). symmetry. apply slice_from_app, sser_len. }
  reflexivity.
Qed.
Lemma image_verify cx D Ls Rs a cs : length Ls = 8%nat -> length Rs = 8%nat ->
  c_verify_proof_uncompressed cx (proof_image D Ls Rs a ++ concat (map claim_image cs)) =
  mp_check (mkMP (mkIPA (map f Ls) (map f Rs) a) (f D)) (cx_crs cx) (cx_pw cx)
    (map (fun c => mkVQ (f (fst (fst c))) (of_Z (snd (fst c))) (snd c)) cs) (tr_new (lbl "verkle")).
Proof.
  intros HL HR. destruct (image_proof D Ls Rs a HL HR) as [PL PR]. unfold c_verify_proof_uncompressed, c_verify_with, no_remainder.
  rewrite slice_app by exact PL. cbn [rbind]. rewrite slice_from_app by exact PL. cbn [rbind].
  assert (HF : Forall (fun b => length b = 97%nat) (map claim_image cs)).
  { apply Forall_forall. intros b Hb. apply in_map_iff in Hb as (x & <- & _). apply image_claim. }
  replace (Z.of_nat (length (concat (map claim_image cs))) mod 97 =? 0)%Z with true.
  2:{ symmetry. apply (mod_multiple 97); [lia|]. rewrite (concat_len 97) by exact HF. eauto. }
  cbn [assertb rbind]. change (Z.to_nat 97) with 97%nat. rewrite chunks_concat by (try exact HF; lia).
  rewrite (rmap_ok deserialize_verifier_query_uncompressed claim_image (fun c => mkVQ (f (fst (fst c))) (of_Z (snd (fst c))) (snd c))) by (intros; apply image_claim).
  cbn [rbind]. rewrite PR. reflexivity.
Qed.
End Parse.

(** ** Elements that hold the coordinates of a group element, in any scaling *)
Section Agree.
Context {B : BaseField} {BL : BaseFieldLaws B} {CL : CurveLaws B} {A : Alg} {AL : AlgLaws A} {I : FrInt A} {SL : ScalarLaws B A I} {HS : Hasher}.
Local Notation WA := (@raw_alg B A I).
Local Notation WC := (@raw_ecodec B A I).
Local Notation RA := (@rep_alg B BL A I).
Local Notation RC := (@rep_ecodec B BL A I).

Definition Held : Type := { e : Element & { g : @Coord B | holds e (coords g) } }.
Definition el (x : Held) : Element := projT1 x.
Definition co (x : Held) : @Coord B := proj1_sig (projT2 x).
Lemma held (x : Held) : holds (el x) (coords (co x)).
Proof. exact (proj2_sig (projT2 x)). Qed.
Definition hold (e : Element) (g : @Coord B) (H : holds e (coords g)) : Held := existT _ e (exist _ g H).

Lemma zero_held : holds element_zero (coords (co_zero : @Coord B)).
Proof. exact holds_zero. Qed.
Lemma add_held x y : holds (element_add (el x) (el y)) (coords (co_add (co x) (co y))).
Proof. rewrite coords_add. apply holds_add; try apply held; apply co_valid. Qed.
Lemma opp_held x : holds (element_neg (el x)) (coords (co_opp (co x))).
Proof. rewrite coords_opp. apply holds_neg, held. Qed.
Lemma mul_held (s : @F A) x : holds (element_mul (el x) s) (coords (@co_mul B BL A I s (co x))).
Proof. rewrite coords_mul. apply holds_mul; [apply held|apply co_valid]. Qed.
Definition h_zero : Held := hold element_zero co_zero zero_held.
Definition h_add (x y : Held) : Held := hold _ _ (add_held x y).
Definition h_opp (x : Held) : Held := hold _ _ (opp_held x).
Definition h_mul (s : @F A) (x : Held) : Held := hold _ _ (mul_held s x).
Definition h_eqb (x y : Held) : bool := element_eqb (el x) (el y).
Lemma eqb_held x y : h_eqb x y = co_eqb (co x) (co y).
Proof.
  unfold h_eqb, co_eqb. apply Bool.eq_iff_eq_true.
  rewrite (eqb_theorem _ _ _ _ (held x) (held y) (proj1 (co_valid _)) (proj1 (co_valid _))).
  rewrite (eqb_theorem _ _ _ _ (holds_of_affine (coords (co x))) (holds_of_affine (coords (co y))) (proj1 (co_valid _)) (proj1 (co_valid _))). reflexivity.
Qed.
Lemma ser_held x : @el_ser WA WC (el x) = @el_ser RA RC (co x).
Proof. cbn [el_ser raw_ecodec rep_ecodec]. rewrite (to_bytes_ok _ _ (held x)), (to_bytes_ok _ _ (holds_of_affine _)). reflexivity. Qed.

Definition held_of (g : @Coord B) : Held := hold (of_affine (coords g)) g (holds_of_affine (coords g)).
Local Notation A1 := (cover WA Held h_zero h_add h_opp h_mul h_eqb).
Definition held_ecodec : ECodec A1 := @mkECodec A1 (fun x => @el_ser WA WC (el x)) (fun _ => None) (fun _ => []) (fun _ => None) (@scalar_ser A I) (@scalar_de B A).

Definition raw_mp (p : @MultiPointProof RA) : @MultiPointProof WA :=
  @mkMP WA (@mkIPA WA (map (fun g => of_affine (coords g)) (ipa_L (mp_ipa p))) (map (fun g => of_affine (coords g)) (ipa_R (mp_ipa p))) (ipa_a (mp_ipa p))) (of_affine (coords (mp_g p))).
Definition raw_query (q : @VerifierQuery RA) : @VerifierQuery WA := @mkVQ WA (of_affine (coords (vq_comm q))) (vq_point q) (vq_result q).

Lemma check_agrees (p : @MultiPointProof RA) (c : @CRS RA) (w : @PrecomputedWeights RA) (qs : list (@VerifierQuery RA)) tr :
  @mp_check WA WC HS (raw_mp p) (raw_crs c) (raw_weights w) (map raw_query qs) tr = @mp_check RA RC HS p c w qs tr.
Proof.
  set (pH := @mkMP A1 (@mkIPA A1 (map held_of (ipa_L (mp_ipa p))) (map held_of (ipa_R (mp_ipa p))) (ipa_a (mp_ipa p))) (held_of (mp_g p))).
  set (cH := @mkCRS A1 (crs_n c) (map held_of (crs_G c)) (held_of (crs_Q c))).
  set (wH := @mkPW A1 (pw_weights w) (pw_inverted w)).
  set (qH := map (fun q : @VerifierQuery RA => @mkVQ A1 (held_of (vq_comm q)) (vq_point q) (vq_result q)) qs).
  pose proof (@cover_check WA WC HS Held h_zero h_add h_opp h_mul h_eqb held_ecodec el eq_refl (fun _ _ => eq_refl) (fun _ => eq_refl) (fun _ _ => eq_refl)
    (fun _ _ => eq_refl) (fun _ => eq_refl) (fun _ => eq_refl) pH cH wH qH tr) as E1.
  pose proof (@cover_check RA RC HS Held h_zero h_add h_opp h_mul h_eqb held_ecodec co eq_refl (fun _ _ => eq_refl) (fun _ => eq_refl) (fun _ _ => eq_refl)
    eqb_held ser_held (fun _ => eq_refl) pH cH wH qH tr) as E2.
  assert (M1 : forall l : list (@Coord B), map el (map held_of l) = map (fun g => of_affine (coords g)) l) by (intro l; rewrite map_map; reflexivity).
  assert (M2 : forall l : list (@Coord B), map co (map held_of l) = l) by (intro l; rewrite map_map; apply map_id).
  transitivity (@mp_check A1 held_ecodec HS pH cH wH qH tr).
  - rewrite E1. unfold pH, cH, wH, qH. f_equal.
    + unfold raw_mp, mp_map, ipa_map. cbn [mp_ipa mp_g ipa_L ipa_R ipa_a]. now rewrite !M1.
    + unfold raw_crs, crs_map. cbn [crs_n crs_G crs_Q]. now rewrite M1.
    + rewrite map_map. apply map_ext. reflexivity.
  - transitivity (@mp_check RA RC HS (@mp_map RA Held h_zero h_add h_opp h_mul h_eqb co pH) (@crs_map RA Held h_zero h_add h_opp h_mul h_eqb co cH)
      (@pw_map RA Held h_zero h_add h_opp h_mul h_eqb wH) (map (@vq_map RA Held h_zero h_add h_opp h_mul h_eqb co) qH) tr); [exact E2|].
    unfold pH, cH, wH, qH. f_equal.
    + unfold mp_map, ipa_map. cbn [mp_ipa mp_g ipa_L ipa_R ipa_a]. rewrite !M2. destruct p as [[Ls Rs a] D]. reflexivity.
    + unfold crs_map. cbn [crs_n crs_G crs_Q]. rewrite M2. now destruct c.
    + unfold pw_map. now destruct w.
    + rewrite map_map. rewrite <- map_id. apply map_ext. intros []. reflexivity.
Qed.

Lemma rep_eu_ser (g : @Coord B) : @eu_ser RA RC g = pair_bytes (coords g).
Proof. cbn [eu_ser rep_ecodec]. unfold to_bytes_uncompressed. now rewrite (to_affine_ok _ _ (holds_of_affine _)). Qed.
Lemma rep_eu_de (g : @Coord B) : @eu_de RA RC (pair_bytes (coords g)) = Some g.
Proof. cbn [eu_de rep_ecodec]. rewrite raw_read, (to_affine_ok _ _ (holds_of_affine _)). apply co_opt_self. Qed.

Theorem verify_agrees (cx : @Context_ RA) (cw : @Context_ WA) (p : @MultiPointProof RA) (cs : list (@claim RA)) :
  cx_crs cw = raw_crs (cx_crs cx) -> cx_pw cw = raw_weights (cx_pw cx) -> rounds (mp_ipa p) 8 ->
  let input := @mp_to_bytes_uncompressed RA RC p ++ concat (map (@claim_record_uncompressed RA RC) cs) in
  @raw_verify_proof_uncompressed B A I HS cw input = @c_verify_proof_uncompressed RA RC HS cx input.
Proof.
  intros E1 E2 [HL HR] input.
  assert (EI : input = @proof_image RA _ (fun g : Coord => pair_bytes (coords g)) (@sc_ser RA RC) (mp_g p) (ipa_L (mp_ipa p)) (ipa_R (mp_ipa p)) (ipa_a (mp_ipa p)) ++
    concat (map (@claim_image RA _ (fun g : Coord => pair_bytes (coords g)) (@sc_ser RA RC)) cs)).
  { unfold input, mp_to_bytes_uncompressed, ipa_to_bytes_uncompressed, proof_image. rewrite rep_eu_ser. f_equal; [|f_equal; apply map_ext; intros [[g z] y]].
    - do 2 f_equal; [f_equal; apply map_ext; exact rep_eu_ser|]. f_equal. f_equal. apply map_ext. exact rep_eu_ser.
    - unfold claim_record_uncompressed, verifier_record_uncompressed, claim_image. cbn [fst snd]. now rewrite rep_eu_ser. }
  rewrite EI. clear EI input.
  rewrite (@image_verify RA RC HS Coord (fun g => g) _ _ (fun g => pair_len (coords g)) rep_eu_de (fun s => Z_le_length 32 _) (@scalar_rt B A I SL)) by assumption.
  unfold raw_verify_proof_uncompressed.
  pose proof (@image_verify WA WC HS Coord (fun g => of_affine (coords g)) (fun g => pair_bytes (coords g)) (@sc_ser RA RC)
    (fun g => pair_len (coords g)) (fun g => eu_read (coords g)) (fun s => Z_le_length 32 _) (@scalar_rt B A I SL) cw (mp_g p) (ipa_L (mp_ipa p)) (ipa_R (mp_ipa p)) (ipa_a (mp_ipa p)) cs HL HR) as EW.
  transitivity (@c_verify_proof_uncompressed WA WC HS cw (@proof_image WA _ (fun g : Coord => pair_bytes (coords g)) (@sc_ser RA RC) (mp_g p) (ipa_L (mp_ipa p)) (ipa_R (mp_ipa p)) (ipa_a (mp_ipa p)) ++
    concat (map (@claim_image WA _ (fun g : Coord => pair_bytes (coords g)) (@sc_ser RA RC)) cs))); [reflexivity|]. rewrite EW. clear EW.
  rewrite E1, E2, !map_id. rewrite <- check_agrees. f_equal. rewrite map_map. apply map_ext. reflexivity.
Qed.
End Agree.
