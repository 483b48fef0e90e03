(** A concrete case for [PropCoordFfi]: two openings of the first of the default generators. *)
From Coq Require Import Permutation String.
From Verif Require Import Base BaseFacts Alg AlgFacts AlgInst TrieModel CodecModel MsmModel WireModel WireSpec ProofModel IpaModel LagrangeSpec IpaSpec FfiModel FfiSpec FfiProofs BindModel BindSpec
  ElementModel ElementSpec CurveModel CurveSpec CurveProofs CurveAlg CurveRep CoordSpec RepRefine RepProof RefineIpa Bander RealSpec RealRefine RealProofs CoordProofs MidInst CoordInst
  RawModel RawSpec RawVerifyModel RawVerifySpec CoordFfiSpec CoordFfi.
Local Open Scope list_scope.
Local Open Scope Z_scope.

Section Usable.
Context {A : Alg} {AL : AlgLaws A} {P : Par A} {C : ECodec A}.
#[local] Existing Instance toy.
Hypothesis apart : forall z i, 300 <= z < 1100 -> 0 <= i < 256 -> of_Z z <> of_Z i.
Lemma toy_usable_at tr (qs : list ProverQuery) : outside_domain 256 (mp_honest_t 256 tr trie_crs qs) /\
  Forall (fun x => x <> fzero) (mp_honest_challenges 8 tr trie_crs qs).
Proof.
  split.
  - unfold mp_honest_t, mp_t. apply (toy_challenge apart of_Z_0).
  - unfold mp_honest_challenges. destruct (mp_t _ _ _). destruct (precomputed_weights _); [|constructor].
    destruct (evaluate_lagrange_coefficients _ _ _); [|constructor]. unfold ipa_challenges. destruct (ipa_absorb _ _ _ _). apply (toy_rounds apart of_Z_0).
Qed.
(** 1 at position 0, and 0 elsewhere. *)
Definition unit_vector : list F := fone :: repeat fzero 255.
Lemma unit_nth i : 0 < i -> nth (Z.to_nat i) unit_vector fzero = fzero.
Proof.
  intro H. unfold unit_vector. destruct (Z.to_nat i) as [|k] eqn:E; [lia|]. cbn [nth]. generalize 255%nat. clear. intro n. revert k. induction n as [|n IH]; intros [|k]; cbn [repeat nth]; auto.
Qed.
Lemma unit_commit : commit 256 unit_vector (crs_G trie_crs) = crs 0.
Proof.
  unfold commit. rewrite (gsum_single 256 _ 0).
  - change (nth (Z.to_nat 0) unit_vector fzero) with fone. rewrite smul_1. reflexivity.
  - lia.
  - intros j Hj N. rewrite unit_nth by lia. apply smul_0_l.
Qed.
End Usable.

Section Gens.
Context {B : BaseField} {BL : BaseFieldLaws B} {CL : CurveLaws B} {A : Alg} {AL : AlgLaws A} {I : FrInt A} {SL : ScalarLaws B A I}.
Local Notation RA := (@rep_alg B BL A I).
Local Notation CA := (@curve_alg B BL A I).
Context {RP : Par RA} {CP : Par CA}.
Definition first_at (z : Z) (y : F) : @ProverQuery RA := @mkPQ RA (@crs RA RP 0) (@unit_vector RA) z y.
Lemma first_honest : stands_for RP CP -> honest_openings CP [first_at 0 fone; first_at 5 fzero].
Proof.
  intro SF. split; [discriminate|]. assert (L : length (@unit_vector RA) = 256%nat) by (cbn [unit_vector length]; now rewrite repeat_length).
  assert (K : elem (@crs RA RP 0) = commit 256 (@unit_vector CA) (crs_G (@trie_crs CA CP))).
  { rewrite <- (sf_crs _ _ SF 0). symmetry. exact (@unit_commit CA curve_laws CP). }
  split.
  - constructor; [split; [exact L|cbn; lia]|]. constructor; [split; [exact L|cbn; lia]|]. constructor.
  - constructor; [|constructor; [|constructor]]; (split; [|split; [|split]]).
    + change (length (@unit_vector RA) <= 256)%nat. rewrite L. lia.
    + cbn. lia.
    + exact K.
    + reflexivity.
    + change (length (@unit_vector RA) <= 256)%nat. rewrite L. lia.
    + cbn. lia.
    + exact K.
    + symmetry. exact (@unit_nth CA 5 ltac:(lia)).
Qed.
Lemma own_claims (qs : list (@ProverQuery RA)) : claims_for (map claim_of qs) qs.
Proof.
  induction qs as [|q qs IH]; [constructor|]. constructor; [|exact IH]. split; [|split; reflexivity]. apply same_iff. reflexivity.
Qed.
End Gens.

Section Real.
#[local] Existing Instance bander_laws.
#[local] Existing Instance bander_curve.
#[local] Existing Instance bander_scalars.
#[local] Existing Instance BanderF_laws.
Local Notation RA := (@rep_alg Bander bander_laws BanderF BanderI).
Local Notation CA := (@curve_alg Bander bander_laws BanderF BanderI).
Local Opaque default_par real_par edwards_multiple.
Lemma default_first_case : let qs := [@first_at _ bander_laws BanderF BanderI default_par 0 fone; @first_at _ bander_laws BanderF BanderI default_par 5 fzero] in
  @stands_for Bander bander_laws BanderF BanderI default_par real_par /\ @domain_fits BanderF 256 /\
  (forall W, exists cx, @context_new RA default_par W = Ok cx) /\
  honest_openings real_par qs /\ @usable_openings Bander bander_laws BanderF BanderI toy real_par qs /\ claims_for (map claim_of qs) qs.
Proof.
  intro qs. split; [exact default_stands|]. split; [exact real_fits|]. split; [|split; [|split]].
  - intro W. exact (@default_context W).
  - exact (@first_honest Bander bander_laws bander_curve BanderF BanderF_laws BanderI bander_scalars default_par real_par default_stands).
  - exact (@toy_usable_at real_alg (@curve_laws Bander bander_laws bander_curve BanderF BanderF_laws BanderI bander_scalars) real_par real_ecodec real_apart verkle_tr (map elem_query qs)).
  - exact (@own_claims Bander bander_laws bander_curve BanderF BanderI qs).
Qed.
End Real.
