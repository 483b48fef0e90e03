(** The default generators on coordinates stand for the default generators of the group. *)
From Verif Require Import Base BaseFacts Alg TrieModel MsmModel MsmInt CodecModel WireModel IpaModel ElementModel ElementSpec ElementProofs CurveModel CurveSpec CurveProofs CurveAlg CurveRep
  RepSpec CoordSpec RepRefine Bander CrsModel DefaultCrs RealSpec CrsCheck CrsCert CrsProofs.
Local Open Scope Z_scope.

Section Generic.
Context {B : BaseField} {BL : BaseFieldLaws B} {CL : CurveLaws B} {A : Alg} {AL : AlgLaws A} {I : FrInt A} {SL : ScalarLaws B A I}.
Definition co_el (e : Element) : Coord := match to_affine e with Ok P => co_of P | Panic => co_zero end.
Lemma co_el_group e : group_element e -> @elem B BL A I (co_el e) = group_of e.
Proof.
  intro H. apply group_valid in H as (P & Hp & V). unfold co_el. rewrite (to_affine_ok _ _ Hp). symmetry. apply elem_unique.
  rewrite (co_of_coords _ V). now apply group_of_same.
Qed.
Lemma nth_group gens i : Forall group_element gens -> group_element (nth i gens element_zero).
Proof.
  intro H. destruct (lt_dec i (length gens)) as [L|L].
  - rewrite Forall_forall in H. apply H, nth_In, L.
  - rewrite nth_overflow by lia. apply group_valid. exists (mkAff 0 1)%fq. split; [exact zero_holds|apply valid_zero].
Qed.
End Generic.

#[local] Existing Instance bander_laws.
#[local] Existing Instance bander_curve.
#[local] Existing Instance bander_scalars.
#[local] Existing Instance BanderF_laws.
Local Notation RA := (@rep_alg Bander bander_laws BanderF BanderI).

Lemma default_rhash p : @hash RA default_par p = @co_hash Bander BanderF p.
Proof. unfold default_par. destruct (crs_from_bytes default_crs_bytes) as [[gens Q]|]; reflexivity. Qed.
Lemma default_chash p : @hash real_alg real_par p = @pt_hash Bander BanderF p.
Proof. unfold real_par. destruct (crs_from_bytes default_crs_bytes) as [[gens Q]|]; reflexivity. Qed.

Lemma par_agree r : (forall gens Q, r = Ok (gens, Q) -> Forall group_element gens /\ group_element Q) ->
  (forall i, @crs real_alg (real_par_of r) i = @elem Bander bander_laws BanderF BanderI (@crs RA (par_of r) i)) /\
  @crsQ real_alg (real_par_of r) = @elem Bander bander_laws BanderF BanderI (@crsQ RA (par_of r)).
Proof.
  intro H. destruct r as [[gens Q]|].
  - destruct (H gens Q eq_refl) as [Hg Hq]. cbn [real_par_of par_of crs crsQ rep_par curve_par]. split; [intro i|]; symmetry.
    + exact (@co_el_group Bander _ _ BanderF BanderI _ (nth_group gens _ Hg)).
    + exact (@co_el_group Bander _ _ BanderF BanderI _ Hq).
  - split; [intro i|]; symmetry; exact (@elem_zero Bander _ _ BanderF BanderI).
Qed.
Lemma default_agree :
  (forall i, @crs real_alg real_par i = @elem Bander bander_laws BanderF BanderI (@crs RA default_par i)) /\
  @crsQ real_alg real_par = @elem Bander bander_laws BanderF BanderI (@crsQ RA default_par).
Proof.
  apply par_agree. intros gens Q E. destruct (default_elements gens Q E) as (_ & H & _). apply Forall_app in H as [H1 H2].
  split; [exact H1|]. now inversion H2.
Qed.
Lemma default_crs i : @crs real_alg real_par i = @elem Bander bander_laws BanderF BanderI (@crs RA default_par i).
Proof. exact (proj1 default_agree i). Qed.
Lemma default_crsQ : @crsQ real_alg real_par = @elem Bander bander_laws BanderF BanderI (@crsQ RA default_par).
Proof. exact (proj2 default_agree). Qed.
