(** The proof functions of the interface on coordinates. *)
From Coq Require Import Permutation String.
From Verif Require Import Base BaseFacts Alg TrieModel CodecModel MsmModel WireModel WireSpec ProofModel IpaModel LagrangeSpec IpaSpec IpaTheorems FfiModel FfiSpec FfiProofs BindModel BindSpec BindProofs
  ElementModel ElementSpec ElementProofs CurveModel CurveSpec CurveProofs CurveAlg CurveRep CoordSpec RepRefine RepProof Refine RefineProof RefineIpa RefineFfi
  RawModel RawSpec RawVerifyModel RawVerifySpec RawProofs RawVerifyProofs RawAgree RawCreate CoordFfiSpec.
Local Open Scope list_scope.
Local Open Scope Z_scope.

Section Rep.
Context {B : BaseField} {BL : BaseFieldLaws B} {CL : CurveLaws B} {A : Alg} {AL : AlgLaws A} {I : FrInt A} {SL : ScalarLaws B A I}.
Local Notation RA := (@rep_alg B BL A I).
Local Notation CA := (@curve_alg B BL A I).
Local Notation RE := (@rep_ecodec B BL A I).
Local Notation CE := (@curve_ecodec B BL A I).
Local Notation WA := (@raw_alg B A I).
Context {HS : Hasher} {RP : Par RA} {CP : Par CA} {RW : Wnaf RA} {CW : Wnaf CA}.
Local Notation crs_el := (@crs_map CA Coord co_zero co_add co_opp (@co_mul B BL A I) co_eqb elem).
Local Notation pw_el := (@pw_map CA Coord co_zero co_add co_opp (@co_mul B BL A I) co_eqb).
Local Notation mp_el := (@mp_map CA Coord co_zero co_add co_opp (@co_mul B BL A I) co_eqb elem).

Lemma contexts_same (cx : @Context_ RA) (cg : @Context_ CA) : stands_for RP CP -> @context_new RA RP RW = Ok cx -> @context_new CA CP CW = Ok cg ->
  cx_crs cg = crs_el (cx_crs cx) /\ cx_pw cg = pw_el (cx_pw cx).
Proof.
  intros SF E1 E2. apply context_inv in E1 as (X1 & _ & X3). apply context_inv in E2 as (Y1 & _ & Y3). split.
  - rewrite X1, Y1. exact (@cover_trie_crs CA CP Coord co_zero co_add co_opp (@co_mul B BL A I) co_eqb RP elem (fun i => eq_sym (sf_crs _ _ SF i)) (eq_sym (sf_crsQ _ _ SF))).
  - pose proof (@cover_weights CA Coord co_zero co_add co_opp (@co_mul B BL A I) co_eqb 256) as W. change (@cover CA Coord co_zero co_add co_opp (@co_mul B BL A I) co_eqb) with RA in W. rewrite X3, Y3 in W. exact W.
Qed.
Lemma verify_same cx cg input : stands_for RP CP -> @context_new RA RP RW = Ok cx -> @context_new CA CP CW = Ok cg ->
  @ffi_verify_proof RA RE HS cx input = @ffi_verify_proof CA CE HS cg input /\ @c_verify_proof RA RE HS cx input = @c_verify_proof CA CE HS cg input.
Proof.
  intros SF E1 E2. destruct (contexts_same cx cg SF E1 E2) as [X Y]. split.
  - exact (@cover_ffi_verify CA CE HS Coord co_zero co_add co_opp (@co_mul B BL A I) co_eqb RE elem elem_zero elem_add elem_opp elem_mul elem_eqb elem_ser (fun _ => eq_refl) elem_de (fun _ => eq_refl) cx cg X Y input).
  - exact (@cover_c_verify CA CE HS Coord co_zero co_add co_opp (@co_mul B BL A I) co_eqb RE elem elem_zero elem_add elem_opp elem_mul elem_eqb elem_ser (fun _ => eq_refl) elem_de (fun _ => eq_refl) cx cg X Y input).
Qed.
Lemma order_for (o : list (@Group RA) -> list (@Group RA)) input : (forall l, Permutation (o l) l) -> exists o' : list (@Group CA) -> list (@Group CA), (forall l, Permutation (o' l) l) /\
  forall qs, rmap (@deserialize_proof_query RA RE) (chunks_exact PROOF_CHUNK input) = Ok qs ->
    o' (map el_gr (@open_groups HS RA RE (tr_new (lbl "verkle"%string)) qs)) = map el_gr (o (@open_groups HS RA RE (tr_new (lbl "verkle"%string)) qs)).
Proof.
  intro Ho. destruct (rmap (@deserialize_proof_query RA RE) (chunks_exact PROOF_CHUNK input)) as [qs|].
  - destruct (order_transfer el_gr _ _ (Ho (@open_groups HS RA RE (tr_new (lbl "verkle"%string)) qs))) as (o2 & P2 & E2). exists o2. split; [exact P2|]. intros qs' E. injection E as <-. exact E2.
  - exists (fun l => l). split; [reflexivity|discriminate].
Qed.
Lemma create_same o cx cg input : stands_for RP CP -> @context_new RA RP RW = Ok cx -> @context_new CA CP CW = Ok cg -> (forall l, Permutation (o l) l) ->
  exists o', (forall l, Permutation (o' l) l) /\ @ffi_create_proof RA RE HS o cx input = @ffi_create_proof CA CE HS o' cg input /\ @c_create_proof RA RE HS o cx input = @c_create_proof CA CE HS o' cg input.
Proof.
  intros SF E1 E2 Ho. destruct (contexts_same cx cg SF E1 E2) as [X Y]. destruct (order_for o input Ho) as (o' & P' & O). exists o'. split; [exact P'|]. split.
  - exact (@cover_ffi_create CA CE HS Coord co_zero co_add co_opp (@co_mul B BL A I) co_eqb RE elem elem_zero elem_add elem_opp elem_mul elem_ser (fun _ => eq_refl) elem_de (fun _ => eq_refl) cx cg X Y o o' input O).
  - exact (@cover_c_create CA CE HS Coord co_zero co_add co_opp (@co_mul B BL A I) co_eqb RE elem elem_zero elem_add elem_opp elem_mul elem_ser (fun _ => eq_refl) elem_de (fun _ => eq_refl) cx cg X Y o o' input O).
Qed.

Lemma claims_bytes cs qs : claims_for cs qs ->
  map (@claim_record RA RE) cs = map (@claim_record CA CE) (map claim_of (map el_pq qs)) /\
  map el_vq (map (@claim_query RA) cs) = map (@claim_query CA) (map claim_of (map el_pq qs)).
Proof.
  intro H. induction H as [|[[g z] y] q cs qs (E1 & E2 & E3) _ (IH1 & IH2)]; [split; reflexivity|]. cbn [fst snd] in *. subst z y. apply same_iff in E1.
  cbn [map]. rewrite IH1, IH2. split; f_equal.
  - unfold claim_record, verifier_record. cbn [claim_of fst snd]. rewrite elem_ser, E1. reflexivity.
  - change (el_vq (@claim_query RA (g, pq_point q, pq_result q))) with (@mkVQ CA (elem g) (of_Z (pq_point q)) (pq_result q)). rewrite E1. reflexivity.
Qed.
Lemma records_bytes qs : map (@prover_record RA RE) qs = map (@prover_record CA CE) (map el_pq qs).
Proof. rewrite map_map. apply map_ext. intro q. unfold prover_record. rewrite elem_ser. reflexivity. Qed.
Lemma fits_map qs : Forall record_fits qs -> Forall record_fits (map el_pq qs).
Proof. intro H. apply Forall_map. exact H. Qed.

Definition no_wnaf : Wnaf CA := @mkWnaf CA (fun _ _ => []) (fun _ _ _ => None).
End Rep.

Section Round.
Context {B : BaseField} {BL : BaseFieldLaws B} {CL : CurveLaws B} {A : Alg} {AL : AlgLaws A} {I : FrInt A} {SL : ScalarLaws B A I}.
Local Notation RA := (@rep_alg B BL A I).
Local Notation CA := (@curve_alg B BL A I).
Local Notation RE := (@rep_ecodec B BL A I).
Local Notation CE := (@curve_ecodec B BL A I).
Local Notation WA := (@raw_alg B A I).
Context {HS : Hasher} {RP : Par RA} {CP : Par CA} {RW : Wnaf RA}.
Local Notation crs_el := (@crs_map CA Coord co_zero co_add co_opp (@co_mul B BL A I) co_eqb elem).
Local Notation pw_el := (@pw_map CA Coord co_zero co_add co_opp (@co_mul B BL A I) co_eqb).
Local Notation mp_el := (@mp_map CA Coord co_zero co_add co_opp (@co_mul B BL A I) co_eqb elem).

Lemma round_trip o cx qs cs : stands_for RP CP -> @domain_fits A 256 -> @context_new RA RP RW = Ok cx -> (forall l, Permutation (o l) l) ->
  honest_openings CP qs -> @usable_openings B BL A I HS CP qs -> claims_for cs qs -> exists out,
  @ffi_create_proof RA RE HS o cx (concat (map (@prover_record RA RE) qs)) = Ok (FOk out) /\
  @c_create_proof RA RE HS o cx (concat (map (@prover_record RA RE) qs)) = Ok out /\ length out = 576%nat /\
  @ffi_verify_proof RA RE HS cx (out ++ concat (map (@claim_record RA RE) cs)) = Ok (FOk tt) /\
  @c_verify_proof RA RE HS cx (out ++ concat (map (@claim_record RA RE) cs)) = Ok true.
Proof.
  intros SF D E1 Ho (Hne & Hf & Hg) (Ht & Hx) Hc.
  destruct (@context_exists CA curve_laws CP no_wnaf D) as (cg & E2).
  destruct (create_same o cx cg (concat (map (@prover_record RA RE) qs)) SF E1 E2 Ho) as (o' & Ho' & S1 & S2).

  assert (Hne' : map elem_query qs <> []) by (intro X; apply map_eq_nil in X; contradiction).
  destruct (@c_end_to_end CA curve_laws CE curve_ecodec_laws CP no_wnaf HS cg o' (map elem_query qs) E2 D Ho' Hne' (fits_map qs Hf) Hg Ht Hx) as [(out & F1 & F2 & F3) _].
  destruct (proj1 (@end_to_end CA curve_laws CE curve_ecodec_laws CP no_wnaf HS cg o' (map elem_query qs) E2 D Ho' Hne' (fits_map qs Hf) Hg Ht) Hx) as (out' & G1 & G2 & G3).
  destruct (claims_bytes cs qs Hc) as [CB _]. change (map el_pq qs) with (map elem_query qs) in CB.
  pose proof (records_bytes qs) as RB. change (map el_pq qs) with (map elem_query qs) in RB.
  rewrite RB in *. assert (out' = out) as ->.
  { rewrite (@c_create_agrees CA CE curve_ecodec_laws CP no_wnaf HS cg o' _ E2), G1 in F1. now injection F1. }
  exists out. rewrite S1, S2, CB. destruct (verify_same (HS := HS) cx cg (out ++ concat (map (@claim_record CA CE) (map claim_of (map elem_query qs)))) SF E1 E2) as [V1 V2].
  rewrite V1, V2. repeat split; assumption.
Qed.

(** Without compression. *)
Lemma opened o cx qs cs : stands_for RP CP -> @domain_fits A 256 -> @context_new RA RP RW = Ok cx -> (forall l, Permutation (o l) l) ->
  honest_openings CP qs -> @usable_openings B BL A I HS CP qs -> claims_for cs qs -> exists p tr,
  @mp_open RA RE HS o (cx_crs cx) (cx_pw cx) verkle_tr qs = Ok (p, tr) /\ rounds (mp_ipa p) 8 /\
  @mp_check RA RE HS p (cx_crs cx) (cx_pw cx) (map (@claim_query RA) cs) verkle_tr = Ok true.
Proof.
  intros SF D E1 Ho (Hne & Hf & Hg) (Ht & Hx) Hc.
  destruct (@context_exists CA curve_laws CP no_wnaf D) as (cg & E2).
  destruct (contexts_same cx cg SF E1 E2) as [X Y].
  destruct (order_transfer el_gr _ _ (Ho (@open_groups HS RA RE verkle_tr qs))) as (o' & Ho' & O).
  assert (Hne' : map elem_query qs <> []) by (intro Z0; apply map_eq_nil in Z0; contradiction).
  pose proof E2 as E2'. apply context_inv in E2' as (K1 & _ & K3).
  destruct (multi_theorem (A := CA) (AL := curve_laws) (C := CE) (H := HS) 256 8 (cx_pw cg) (@trie_crs CA CP) D eq_refl eq_refl (@Gs_len CA CP) K3 o' verkle_tr (map elem_query qs) Ho' Hne' Hg Ht) as [M1 _].
  destruct (M1 Hx) as (p2 & s & Eo & Ck).
  pose proof (@cover_open CA CE HS Coord co_zero co_add co_opp (@co_mul B BL A I) co_eqb RE elem elem_zero elem_add elem_opp elem_mul elem_ser (fun _ => eq_refl) o o' (cx_crs cx) (cx_pw cx) verkle_tr qs O) as R.
  rewrite <- X, <- Y, K1 in R. change (map (@pq_map CA Coord co_zero co_add co_opp (@co_mul B BL A I) co_eqb elem) qs) with (map elem_query qs) in R. rewrite Eo in R.
  change (@cover CA Coord co_zero co_add co_opp (@co_mul B BL A I) co_eqb) with RA in R.
  destruct (@mp_open RA RE HS o (cx_crs cx) (cx_pw cx) verkle_tr qs) as [[p tr]|] eqn:E; [|contradiction]. cbn [rr fst snd] in R. injection R as -> ->.
  exists p, tr. split; [reflexivity|]. split; [exact (@open_size RA RE RP RW HS cx o qs p tr E1 E)|].
  rewrite (@cover_check CA CE HS Coord co_zero co_add co_opp (@co_mul B BL A I) co_eqb RE elem elem_zero elem_add elem_opp elem_mul elem_eqb elem_ser (fun _ => eq_refl) p (cx_crs cx) (cx_pw cx) _ _).
  rewrite <- X, <- Y, K1. destruct (claims_bytes cs qs Hc) as [_ CQ]. change (map el_pq qs) with (map elem_query qs) in CQ.
  change (map (@vq_map CA Coord co_zero co_add co_opp (@co_mul B BL A I) co_eqb elem)) with (map (@el_vq B BL A I)). rewrite CQ, map_map. exact Ck.
Qed.
Lemma ubytes_len (p : @MultiPointProof RA) : rounds (mp_ipa p) 8 -> length (@mp_to_bytes_uncompressed RA RE p) = 1120%nat.
Proof.
  intros [HL HR]. unfold mp_to_bytes_uncompressed, ipa_to_bytes_uncompressed.
  assert (K : forall l : list (@G RA), length (concat (map (@eu_ser RA RE) l)) = (64 * length l)%nat).
  { induction l as [|g l IH]; [reflexivity|]. cbn [map concat length]. rewrite app_length, IH, rep_eu_len. lia. }
  rewrite !app_length, !K, HL, HR, rep_eu_len. replace (length (@sc_ser RA RE (ipa_a (mp_ipa p)))) with 32%nat by (symmetry; exact (Z_le_length 32 _)). reflexivity.
Qed.
Lemma round_trip_uncompressed o cx qs cs : stands_for RP CP -> @domain_fits A 256 -> @context_new RA RP RW = Ok cx -> (forall l, Permutation (o l) l) ->
  honest_openings CP qs -> @usable_openings B BL A I HS CP qs -> claims_for cs qs -> exists p, rounds (mp_ipa p) 8 /\
  @c_create_proof_uncompressed RA RE HS o cx (concat (map (@prover_record_uncompressed RA RE) qs)) = Ok (@mp_to_bytes_uncompressed RA RE p) /\
  length (@mp_to_bytes_uncompressed RA RE p) = 1120%nat /\
  @c_verify_proof_uncompressed RA RE HS cx (@mp_to_bytes_uncompressed RA RE p ++ concat (map (@claim_record_uncompressed RA RE) cs)) = Ok true.
Proof.
  intros SF D E1 Ho HO HU Hc. pose proof HO as (_ & Hf & _). destruct (opened o cx qs cs SF D E1 Ho HO HU Hc) as (p & tr & Eo & HR & Ck).
  pose proof (ubytes_len p HR) as HB. exists p. split; [exact HR|].
  assert (EI : concat (map (@prover_record_uncompressed RA RE) qs) =
    concat (map (@opening_image RA Coord (fun g => pair_bytes (coords g)) (@sc_ser RA RE)) (map (fun q => (@pq_comm RA q, parts q)) qs))).
  { f_equal. rewrite map_map. apply map_ext. intro q. unfold prover_record_uncompressed, opening_image, scalars_bytes. cbn [fst snd parts]. now rewrite rep_eu_ser. }
  rewrite EI. clear EI.
  rewrite (@image_create RA RE HS Coord (fun g => g) (fun g => pair_bytes (coords g)) (@sc_ser RA RE) (fun g => pair_len (coords g)) rep_eu_de (fun s => Z_le_length 32 _) (@scalar_rt B A I SL)).
  2:{ apply Forall_map. refine (Forall_impl _ _ Hf). intros q [K _]. exact K. }
  rewrite map_map. change (map (fun x => @opening_of RA Coord (fun g => g) (@pq_comm RA x, parts x)) qs) with (map (fun q : @ProverQuery RA => @mkPQ RA (pq_comm q) (pq_poly q) (pq_point q) (pq_result q)) qs).
  rewrite (map_ext _ (fun q => q)) by (intros []; reflexivity). rewrite map_id. unfold verkle_tr in Eo. rewrite Eo. cbn [rbind]. rewrite HB. split; [reflexivity|]. split; [reflexivity|].
  destruct HR as [HL HR].
  assert (EI : @mp_to_bytes_uncompressed RA RE p ++ concat (map (@claim_record_uncompressed RA RE) cs) =
    @proof_image RA Coord (fun g => pair_bytes (coords g)) (@sc_ser RA RE) (mp_g p) (ipa_L (mp_ipa p)) (ipa_R (mp_ipa p)) (ipa_a (mp_ipa p)) ++ concat (map (@claim_image RA Coord (fun g => pair_bytes (coords g)) (@sc_ser RA RE)) cs)).
  { unfold mp_to_bytes_uncompressed, ipa_to_bytes_uncompressed, proof_image. rewrite rep_eu_ser. f_equal; [|f_equal; apply map_ext; intros [[g z] y]].
    - do 2 f_equal; [f_equal; apply map_ext; exact rep_eu_ser|]. f_equal. f_equal. apply map_ext. exact rep_eu_ser.
    - unfold claim_record_uncompressed, verifier_record_uncompressed, claim_image. cbn [fst snd]. now rewrite rep_eu_ser. }
  rewrite EI. clear EI.
  rewrite (@image_verify RA RE HS Coord (fun g => g) _ _ (fun g => pair_len (coords g)) rep_eu_de (fun s => Z_le_length 32 _) (@scalar_rt B A I SL)) by assumption.
  rewrite !map_id. destruct p as [[Lp Rp ap] gp]. exact Ck.
Qed.

(** The functions that read elements without a check. *)
Lemma round_trip_raw perm cx cw qs cs (os : list Affine) : stands_for RP CP -> @domain_fits A 256 -> @context_new RA RP RW = Ok cx ->
  cx_crs cw = raw_crs (cx_crs cx) -> cx_pw cw = raw_weights (cx_pw cx) -> (forall l, Permutation (perm l) (seq 0 (length l))) ->
  honest_openings CP qs -> @usable_openings B BL A I HS CP qs -> claims_for cs qs ->
  Forall2 (fun P q => larger_x P = larger_x (coords (@pq_comm RA q))) os qs -> exists out,
  @raw_create_proof_uncompressed B A I HS (by_points perm) cw (concat (map (fun o => opening_bytes (fst o) (snd o)) (combine os qs))) = Ok out /\ length out = 1120%nat /\
  @raw_verify_proof_uncompressed B A I HS cw (out ++ concat (map (@claim_record_uncompressed RA RE) cs)) = Ok true.
Proof.
  intros SF D E1 C1 C2 Hp HO HU Hc Hl.
  assert (Ho : forall l : list (@Group RA), Permutation (by_points perm l) l).
  { intro l. unfold by_points. specialize (Hp (map fst l)). rewrite map_length in Hp. rewrite (Permutation_map _ Hp). now rewrite nth_seq_self. }
  destruct (round_trip_uncompressed (by_points perm) cx qs cs SF D E1 Ho HO HU Hc) as (p & HR & K1 & K2 & K3).
  exists (@mp_to_bytes_uncompressed RA RE p). pose proof HO as (_ & Hf & _).
  assert (Es : map snd (combine os qs) = qs /\ Forall (fun o => length (pq_poly (snd o)) = 256%nat /\ larger_x (fst o) = larger_x (coords (@pq_comm RA (snd o)))) (combine os qs)).
  { clear - Hl Hf. induction Hl as [|P q os qs E _ IH]; [split; [reflexivity|constructor]|]. inversion Hf; subst. destruct (IH H2) as [IH1 IH2]. cbn [combine map snd]. rewrite IH1. split; [reflexivity|]. constructor; [|exact IH2]. split; [exact (proj1 H1)|exact E]. }
  destruct Es as [Es Ef]. rewrite (create_agrees perm cx cw (combine os qs) C1 C2 Ef), Es. split; [exact K1|]. split; [exact K2|].
  refine (eq_trans (verify_agrees cx cw p cs C1 C2 HR) K3).
Qed.
End Round.
