(** A curve of 4 * 1201 points, small enough to run the tree on and large enough for the domain of 256 points:
    7 x^2 + y^2 = 1 + 21 x^2 y^2 modulo 4801.  Used only for concrete cases. *)
From Coq Require Import Field Znumtheory Zpow_facts.
From Verif Require Import Base BaseFacts Alg AlgFacts AlgInst MsmModel WireModel TreeSpec TreeFacts TrieProofs BTree ProofModel ProofSpec ProofExamples ExData
  ElementModel ElementSpec ElementProofs ElementInst CurveModel CurveSpec CurveProofs CurveAlg CurveRep CurveCount CurveOrder CoordSpec Refine RepRefine
  IpaModel LagrangeSpec IpaSpec TranscriptSpec CheckProofs RepProof.
Local Open Scope Z_scope.

Definition Mid : BaseField := zp_base 4801 7 21 1201.
Lemma p4801 : prime 4801. Proof. apply (prime_by_trial 4801 70); reflexivity. Qed.
Lemma p1201 : prime 1201. Proof. apply (prime_by_trial 1201 40); reflexivity. Qed.
Lemma euler a : Zpow_mod a 2400 4801 = 4800 -> forall y, (y * y) mod 4801 <> a mod 4801.
Proof.
  rewrite Zpow_mod_correct by discriminate. intros E y X. assert (E2 : (a * (1 * 1)) mod 4801 = a mod 4801) by now rewrite Z.mul_1_r. rewrite <- E2 in X. revert X.
  apply (nonresidue 4801 p4801 a 2400); [reflexivity|lia|exact E|lia|]. intros [k D]. lia.
Qed.
Lemma Mid_laws : BaseFieldLaws Mid.
Proof.
  apply (zp_base_laws 4801 p4801 7 21 1201); [| | |vm_compute; reflexivity].
  - split; [reflexivity|]. apply Z.leb_le. reflexivity.
  - apply euler. vm_compute. reflexivity.
  - apply euler. vm_compute. reflexivity.
Qed.
Lemma Mid_root : RootOfMinusOne Mid.
Proof. constructor. exists (zred 4801 1403). apply (zp_eq 4801). vm_compute. reflexivity. Qed.
#[local] Existing Instance Mid_laws.
Definition mid_base : @Affine Mid := CurveOrder.pt 4801 7 21 1201 1 414.
Lemma mid_valid : @valid_point Mid mid_base.
Proof. apply (valid_sound 4801 p4801 7 21 1201 1 414 2158 0 35 0 (-14)). vm_compute. reflexivity. Qed.
Lemma mid_chain : chain 4801 7 21 1 414 (1, 1, 414) [
  Dbl 1363 3987 35 956 (-2831); Dbl 3343 3254 6019 57 (-2860); Dbl 3488 1507 18499 (-1364) 12721; Plus 2627 1333 0 300 1171 9 1096 (-681); Dbl 485 481 10432 (-1382) 9616; Dbl 2624 4386 391 310 (-384); Plus 2761 3123 0 226 1196 16 73 (-457); Dbl 1706 174 13146 (-3226) 9046; Plus 71 1015 0 147 19 9 50 (-729); Dbl 2013 1804 221 1853 (-1894); Dbl 694 2988 6586 (-1482) 5099; Dbl 612 4610 2561 (-324) (-5222); Dbl 4800 414 4972 2160 (-4168); Plus 0 1 0 413 378 6 (-1) (-29)] = Some (1201, 0, 1).
Proof. vm_compute. reflexivity. Qed.
Lemma mid_order : @edwards_multiple Mid 1201 mid_base = @mkAff Mid (@qzero Mid) (@qone Mid).
Proof.
  assert (H0 : at_multiple 4801 7 21 1201 mid_base (1, 1, 414)).
  { split; [apply Z.leb_le; reflexivity|]. exact (@multiple_1 Mid Mid_laws mid_base). }
  exact (proj2 (@chain_sound 4801 p4801 7 21 1201 Mid_laws Mid_root 1 414 _ _ _ mid_valid H0 mid_chain)).
Qed.
Lemma mid_nz : mid_base <> @mkAff Mid (@qzero Mid) (@qone Mid).
Proof. intro E. apply (f_equal (@ax Mid)) in E. apply (f_equal (zval 4801)) in E. vm_compute in E. discriminate E. Qed.
Lemma mid_prime : prime (Z.of_nat (@q_order Mid)). Proof. exact p1201. Qed.
Lemma mid_few : @q_modulus Mid + 2 < 6 * Z.of_nat (@q_order Mid). Proof. vm_compute. reflexivity. Qed.
Lemma Mid_curve : CurveLaws Mid.
Proof. exact (@order_from_one Mid Mid_laws Mid_root mid_base mid_prime mid_valid mid_nz mid_order mid_few). Qed.
#[local] Existing Instance Mid_curve.

Definition MidF : Alg := zp_alg 1201.
Definition MidF_laws : AlgLaws MidF := zp_laws 1201 p1201.
Definition MidI : FrInt MidF := (zval 1201 : @F MidF -> Z).
Lemma Mid_scalars : ScalarLaws Mid MidF MidI.
Proof.
  constructor.
  - intros x. exact (zred_val 1201 p1201 x).
  - intros x. exact (zval_range 1201 p1201 x).
  - intros z. change (zred 1201 z = zred 1201 0 <-> (1201 | z)). split.
    + intros E. apply (f_equal (zval 1201)) in E. rewrite !zval_red in E. apply Z.mod_divide; [discriminate|exact E].
    + intros D. apply zred_eq. rewrite (proj2 (Z.mod_divide z 1201 ltac:(discriminate)) D). reflexivity.
  - apply Z.leb_le. vm_compute. reflexivity.
Qed.
#[local] Existing Instance MidF_laws.
#[local] Existing Instance Mid_scalars.
#[local] Existing Instance MidI.
Local Notation RA := (@rep_alg Mid Mid_laws MidF MidI).
Local Notation CA := (@curve_alg Mid Mid_laws MidF MidI).
Local Notation CE := (@curve_ecodec Mid Mid_laws MidF MidI).
Lemma mid_fits : @domain_fits MidF 256.
Proof.
  intros k H E. apply (f_equal (zval 1201)) in E. cbn in E. rewrite Z.mod_small in E by lia. change (0 mod 1201) with 0 in E. lia.
Qed.

(** ** The tree over the discrete logarithms *)
Section Log.
Context {A : Alg} {AL : AlgLaws A} {P : Par A}.
Variable g : G.
Variable lhash : F -> F.
Variable lcrs : Z -> F.
Variable lQ : F.
Hypothesis hash_log : forall s, lhash s = hash (smul s g).
Hypothesis crs_log : forall i, smul (lcrs i) g = crs i.
Hypothesis g_order : forall s t, smul s g = smul t g -> s = t.
Local Notation LA := (cover A F fzero fadd fopp fmul feqb).
Definition log_par : Par LA := @mkPar LA lhash lcrs lQ.
Lemma log_sum n f f' : (forall i, 0 <= i < Z.of_nat n -> smul (f i) g = f' i) -> smul (@gsum LA n f) g = @gsum A n f'.
Proof.
  induction n as [|n IH]; intro H; cbn [gsum].
  - exact (smul_0_l g).
  - assert (X : smul (fadd (@gsum LA n f) (f (Z.of_nat n))) g = gadd (@gsum A n f') (f' (Z.of_nat n))).
    { rewrite smul_add_l, (H (Z.of_nat n)) by lia. f_equal. apply IH. intros i Hi. apply H. lia. }
    exact X.
Qed.
Lemma log_vcommit (v v' : Z -> @F A) : (forall i, 0 <= i < 256 -> v i = v' i) -> smul (@vcommit LA log_par v) g = @vcommit A P v'.
Proof.
  intro E. apply log_sum. intros i Hi. change (@smul A (@fmul A (v i) (lcrs i)) g = smul (v' i) (crs i)).
  rewrite <- crs_log, (E i) by lia. apply smul_mul.
Qed.
Lemma log_hash (v v' : Z -> @F A) : (forall i, 0 <= i < 256 -> v i = v' i) -> @hash LA log_par (@vcommit LA log_par v) = @hash A P (@vcommit A P v').
Proof. intro E. etransitivity; [exact (hash_log _)|]. f_equal. now apply log_vcommit. Qed.
Lemma log_suffix m s h i : @suffix_vec LA m s h i = @suffix_vec A m s h i.
Proof. reflexivity. Qed.
Lemma log_ext m s i : @ext_vec LA log_par m s i = @ext_vec A P m s i.
Proof.
  unfold ext_vec. destruct (i =? 0); [reflexivity|]. destruct (i =? 1); [reflexivity|].
  destruct (i =? 2); [apply log_hash; intros; apply log_suffix|]. destruct (i =? 3); [apply log_hash; intros; apply log_suffix|reflexivity].
Qed.
Lemma log_subtree n : forall m St p, @subtree_hash LA log_par n m St p = @subtree_hash A P n m St p.
Proof.
  induction n as [|n IH]; intros m St p; cbn [subtree_hash]; destruct (under St p) as [|s [|? ?]]; try reflexivity; try (apply log_hash; intros; apply log_ext).
  apply log_hash. intros. apply IH.
Qed.
Lemma log_node_vec m St p i : @node_vec LA log_par m St p i = @node_vec A P m St p i.
Proof.
  unfold node_vec. destruct (internal St p); [apply log_subtree|]. destruct (stem_at St p); [apply log_ext|].
  destruct (stem_at St (removelast p)); reflexivity.
Qed.
Lemma log_node m St p : smul (@node_comm LA log_par m St p) g = @node_comm A P m St p.
Proof. apply log_vcommit. intros. apply log_node_vec. Qed.
Lemma log_distinct_list m St l : @distinctb LA (map (@node_comm LA log_par m St) l) = true -> adjacent_distinct (map (@node_comm A P m St) l).
Proof.
  induction l as [|p l IH]; intro H; [exact I|]. cbn [map adjacent_distinct]. cbn [map distinctb] in H.
  apply andb_true_iff in H as [H1 H2]. split; [|exact (IH H2)]. destruct l as [|q l]; [exact I|]. cbn [map] in *.
  rewrite <- !log_node. intro E. apply g_order in E. apply negb_true_iff in H1.
  assert (X : feqb (@node_comm LA log_par m St p) (@node_comm LA log_par m St q) = true) by now apply feqb_true.
  assert (Y : feqb (@node_comm LA log_par m St p) (@node_comm LA log_par m St q) = false) by exact H1. congruence.
Qed.
Lemma log_distinguishable m St keys : @distinguishableb LA log_par m St keys = true -> @distinguishable A P m St keys.
Proof.
  intro H. apply andb_true_iff in H as [H1 H2]. split; [exact (log_distinct_list _ _ _ H1)|].
  intros p Hp Hn X. rewrite forallb_forall in H2. specialize (H2 p Hp).
  apply orb_true_iff in H2 as [H2|H2]; [apply beqb_eq in H2; contradiction|].
  rewrite <- !log_node in X. apply g_order in X. apply negb_true_iff in H2.
  assert (Y : feqb (@node_comm LA log_par m St p) (@node_comm LA log_par m St []) = true) by now apply feqb_true.
  assert (Z : feqb (@node_comm LA log_par m St p) (@node_comm LA log_par m St []) = false) by exact H2. congruence.
Qed.
End Log.

(** ** Generators: multiples of the base point, every second one in the coordinates that the code's reader refuses *)
Definition mid_log (i : Z) : @F MidF := of_Z (i * i * i + 11).
Definition mid_co (i : Z) (s : @F MidF) : @Coord Mid :=
  let M := @edwards_multiple Mid (Z.to_nat (zval 1201 s)) mid_base in @co_of Mid Mid_laws (if Z.even i then M else @negated Mid M).
Definition mid_g : @G CA := @pt_of Mid Mid_laws mid_base.
Definition mid_par : Par RA := @rep_par Mid Mid_laws MidF MidI (fun i => mid_co i (mid_log i)) (mid_co 1 (of_Z 987)).
Definition mid_cpar : Par CA := @curve_par Mid Mid_laws MidF MidI (fun i => @smul CA (mid_log i) mid_g) (@smul CA (of_Z 987) mid_g).
Lemma mid_point : point mid_g = mid_base.
Proof. apply pt_of_point, pointb_iff. split; [exact mid_valid|exact mid_order]. Qed.
Lemma mid_co_elem i (s : @F MidF) : @smul CA s mid_g = @elem Mid Mid_laws MidF MidI (mid_co i s).
Proof.
  apply (@elem_unique Mid _ _ MidF MidI). 
  assert (E : point (@smul CA s mid_g) = @edwards_multiple Mid (Z.to_nat (zval 1201 s)) mid_base).
  { rewrite <- mid_point. exact (point_mul s mid_g). }
  rewrite E. clear E.
  assert (V : @valid_point Mid (@edwards_multiple Mid (Z.to_nat (zval 1201 s)) mid_base)) by exact (valid_multiple _ _ mid_valid).
  unfold mid_co. destruct (Z.even i).
  - rewrite co_of_coords by exact V. apply same_refl.
  - rewrite co_of_coords; [right|]. 2:{ destruct V. split; [now apply on_curve_negated|now apply in_subgroup_negated]. }
    symmetry. apply negated_negated.
Qed.
Lemma mid_stands : @stands_for Mid Mid_laws MidF MidI mid_par mid_cpar.
Proof.
  constructor; [intro p; reflexivity|intro p; reflexivity|intro i; exact (mid_co_elem i (mid_log i))|exact (mid_co_elem 1 (of_Z 987))].
Qed.

Lemma mid_once (s t : @F MidF) : @smul CA s mid_g = @smul CA t mid_g -> s = t.
Proof.
  intro E. apply (f_equal (@point Mid)) in E.
  assert (E' : @edwards_multiple Mid (Z.to_nat (zval 1201 s)) mid_base = @edwards_multiple Mid (Z.to_nat (zval 1201 t)) mid_base).
  { rewrite <- mid_point. etransitivity; [symmetry; exact (point_mul s mid_g)|]. etransitivity; [exact E|exact (point_mul t mid_g)]. }
  pose proof (zval_range 1201 p1201 s) as Rs. pose proof (zval_range 1201 p1201 t) as Rt.
  apply (zp_eq 1201). apply Z2Nat.inj; try lia.
  apply (@spanned_once Mid Mid_laws Mid_root mid_base mid_prime mid_valid mid_nz mid_order mid_few); try (change (@q_order Mid) with (Z.to_nat 1201); lia).
  rewrite E'. apply same_refl.
Qed.
Definition mid_lhash (s : @F MidF) : @F MidF :=
  match @map_to_scalar_field Mid MidF (@mul_int Mid (zval 1201 s) (@of_affine Mid mid_base)) with Ok x => x | Panic => fzero end.
Lemma mid_hash_log (s : @F MidF) : mid_lhash s = @hash CA mid_cpar (@smul CA s mid_g).
Proof.
  change (mid_lhash s = @pt_hash Mid MidF (@smul CA s mid_g)). unfold mid_lhash, pt_hash.
  assert (E : point (@smul CA s mid_g) = @edwards_multiple Mid (Z.to_nat (zval 1201 s)) mid_base).
  { rewrite <- mid_point. exact (point_mul s mid_g). }
  rewrite E. pose proof (zval_range 1201 p1201 s) as Rs.
  assert (V : @valid_point Mid (@edwards_multiple Mid (Z.to_nat (zval 1201 s)) mid_base)) by exact (valid_multiple _ _ mid_valid).
  rewrite (scalar_ok _ _ (holds_mul_int (zval 1201 s) _ mid_base ltac:(lia) (holds_of_affine mid_base) mid_valid) (proj1 V)).
  rewrite (scalar_ok _ _ (holds_of_affine _) (proj1 V)). reflexivity.
Qed.
(** Two stems below the byte 1; a present key, the other half of its values, another stem in its slot, an empty slot. *)
Definition mid_key (a b c : Z) : bytes := a :: b :: repeat 0 29 ++ [c].
Definition mid_h : history := [(mid_key 1 5 7, repeat 9 32); (mid_key 1 6 200, repeat 3 32); (mid_key 1 5 7, repeat 8 32)].
Definition mid_keys : list bytes := [mid_key 1 5 7; mid_key 1 5 131; 1 :: 6 :: repeat 4 30; mid_key 99 0 0].
Lemma mid_distinguishable : @distinguishable CA mid_cpar (final_map mid_h) (stems_of mid_h) mid_keys.
Proof.
  apply (@log_distinguishable CA curve_laws mid_cpar mid_g mid_lhash mid_log (of_Z 987)).
  - exact mid_hash_log.
  - reflexivity.
  - exact mid_once.
  - vm_compute. reflexivity.
Qed.
