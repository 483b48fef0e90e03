(** Sets of generators in bytes, the default set, and the group of the curve itself. *)
From Coq Require Import Znumtheory.
From Verif Require Import Base BaseFacts Alg AlgInst MsmModel IpaModel ElementModel ElementSpec ElementProofs ElementInst
  CurveModel CurveSpec CurveProofs CurveAlg CurveRep CurveCount CurveOrder Bander CrsModel DefaultCrs RealSpec CrsCheck CrsCert.
Local Open Scope Z_scope.

Section Bytes.
Context {B : BaseField} {BL : BaseFieldLaws B}.

Lemma unchecked_back b e : length b = 64%nat -> is_bytes b -> from_bytes_unchecked_uncompressed b = Ok e -> to_bytes_uncompressed e = Ok b.
Proof.
  intros Hl Hb H. unfold from_bytes_unchecked_uncompressed in H.
  destruct (fq_de b) as [x|] eqn:Ex; [|discriminate]. cbn [unwrap rbind] in H.
  destruct (fq_de (skipn 32 b)) as [y|] eqn:Ey; [|discriminate]. cbn [unwrap rbind] in H.
  assert (E : e = of_affine (mkAff x y)) by congruence. subst e.
  assert (Hs : is_bytes (skipn 32 b)).
  { unfold is_bytes in *. rewrite Forall_forall in *. intros z Hz. apply Hb. rewrite <- (firstn_skipn 32 b). apply in_or_app. now right. }
  destruct (fq_de_inv b x Hb Ex) as [_ F1]. destruct (fq_de_inv _ y Hs Ey) as [_ F2].
  unfold to_bytes_uncompressed. rewrite (to_affine_ok _ (mkAff x y) (holds_of_affine _)). cbn [rbind ax ay].
  rewrite <- F1, <- F2, (firstn_all2 (n := 32) (skipn 32 b)) by (rewrite skipn_length; lia). now rewrite firstn_skipn.
Qed.
Lemma rmap_back (bs : list bytes) : Forall (fun b => length b = 64%nat /\ is_bytes b) bs -> forall es,
  rmap from_bytes_unchecked_uncompressed bs = Ok es -> rmap to_bytes_uncompressed es = Ok bs /\ length es = length bs.
Proof.
  induction 1 as [|b bs [Hl Hb] _ IH]; intros es H; cbn [rmap] in H.
  - assert (es = []) by congruence. subst es. now split.
  - destruct (from_bytes_unchecked_uncompressed b) as [e|] eqn:E; [|discriminate]. cbn [rbind] in H.
    destruct (rmap from_bytes_unchecked_uncompressed bs) as [es'|] eqn:E2; [|discriminate]. cbn [rbind] in H.
    assert (es = e :: es') by congruence. subst es. destruct (IH es' eq_refl) as [I1 I2]. cbn [rmap length]. 
    rewrite (unchecked_back b e Hl Hb E). cbn [rbind]. rewrite I1. cbn [rbind]. split; [reflexivity|lia].
Qed.
Theorem crs_back (bs : list bytes) c : Forall (fun b => length b = 64%nat /\ is_bytes b) bs -> crs_from_bytes bs = Ok c ->
  crs_to_bytes c = Ok bs /\ (length (fst c) + 1)%nat = length bs.
Proof.
  intros Hb H. unfold crs_from_bytes in H. destruct (rev bs) as [|q g] eqn:E; [discriminate|].
  assert (Ebs : bs = rev g ++ [q]) by (rewrite <- (rev_involutive bs), E; reflexivity).
  rewrite Ebs in Hb. apply Forall_app in Hb as [Hg Hq]. inversion Hq as [|? ? [Hq1 Hq2] _]; subst.
  destruct (from_bytes_unchecked_uncompressed q) as [Q|] eqn:EQ; [|discriminate]. cbn [rbind] in H.
  destruct (rmap from_bytes_unchecked_uncompressed (rev g)) as [G|] eqn:EG; [|discriminate]. cbn [rbind] in H.
  assert (c = (G, Q)) by congruence. subst c. unfold crs_to_bytes. cbn [fst snd].
  destruct (rmap_back (rev g) Hg G EG) as [I1 I2]. rewrite I1. cbn [rbind]. rewrite (unchecked_back q Q Hq1 Hq2 EQ). cbn [rbind].
  split; [reflexivity|]. rewrite app_length, <- I2. reflexivity.
Qed.

Lemma unchecked_panics b : length b = 64%nat -> (from_bytes_unchecked_uncompressed b = Panic <-> ~ coordinates_below b).
Proof.
  intros Hl. unfold from_bytes_unchecked_uncompressed, fq_de, coordinates_below. rewrite skipn_length, Hl. cbn [Nat.leb Nat.sub].
  destruct (le_Z (firstn 32 b) <? q_modulus) eqn:E1; cbn [unwrap rbind].
  - apply Z.ltb_lt in E1. destruct (le_Z (firstn 32 (skipn 32 b)) <? q_modulus) eqn:E2; cbn [unwrap rbind].
    + apply Z.ltb_lt in E2. split; [discriminate|tauto].
    + apply Z.ltb_ge in E2. split; [intros _ [_ ?]; lia|reflexivity].
  - apply Z.ltb_ge in E1. split; [intros _ [? _]; lia|reflexivity].
Qed.
Lemma rmap_panics (bs : list bytes) : Forall (fun b => length b = 64%nat) bs ->
  (rmap from_bytes_unchecked_uncompressed bs = Panic <-> Exists (fun b => ~ coordinates_below b) bs).
Proof.
  induction 1 as [|b bs Hl _ IH]; cbn [rmap]; [split; [discriminate|intro X; inversion X]|].
  rewrite Exists_cons, <- IH, <- (unchecked_panics b Hl). destruct (from_bytes_unchecked_uncompressed b); cbn [rbind].
  - destruct (rmap from_bytes_unchecked_uncompressed bs); cbn [rbind]; intuition discriminate.
  - tauto.
Qed.
Theorem crs_panics (bs : list bytes) : Forall (fun b => length b = 64%nat) bs ->
  (crs_from_bytes bs = Panic <-> bs = [] \/ Exists (fun b => ~ coordinates_below b) bs).
Proof.
  intros Hb. unfold crs_from_bytes. destruct (rev bs) as [|q g] eqn:E.
  { assert (bs = []) by (rewrite <- (rev_involutive bs), E; reflexivity). subst. tauto. }
  assert (Ebs : bs = rev g ++ [q]) by (rewrite <- (rev_involutive bs), E; reflexivity). clear E. subst bs.
  apply Forall_app in Hb as [Hg Hq]. inversion Hq as [|? ? Hq1 _]; subst.
  rewrite Exists_app, Exists_cons, <- (rmap_panics _ Hg), <- (unchecked_panics q Hq1).
  assert (NE : rev g ++ [q] <> []) by (intro X; destruct (rev g); discriminate).
  assert (NX : ~ Exists (fun b => ~ coordinates_below b) []) by (intro X; inversion X).
  destruct (from_bytes_unchecked_uncompressed q); cbn [rbind]; [|tauto].
  destruct (rmap from_bytes_unchecked_uncompressed (rev g)); cbn [rbind]; intuition discriminate.
Qed.
End Bytes.

(** ** The group *)
Local Notation bpt := (pt bander_q bander_a bander_d bander_order).
#[local] Existing Instance bander_laws.
#[local] Existing Instance bander_curve.
#[local] Existing Instance bander_scalars.
#[local] Existing Instance BanderF_laws.
Theorem cyclic (g e : @Element Bander) : group_element g -> group_element e -> element_is_zero g = false ->
  exists s : @F BanderF, element_eqb e (@element_mul Bander BanderF BanderI g s) = true /\
    forall s', element_eqb e (@element_mul Bander BanderF BanderI g s') = true -> s' = s.
Proof.
  intros Gg Ge Nz. apply group_valid in Gg as (Pg & Hg & Vg). apply group_valid in Ge as (Pe & He & Ve).
  assert (NP : ~ same_element Pg (@mkAff Bander qzero qone)).
  { intro S. assert (X : element_is_zero g = true); [|congruence].
    unfold element_is_zero. apply (eqb_holds g element_zero Pg (mkAff 0 1)%fq Hg holds_zero Vg valid_zero). exact S. }
  assert (exists P', valid_point P' /\ prime_order P' /\ same_element Pg P' /\ P' <> @mkAff Bander qzero qone) as (P' & V' & O' & S' & N').
  { destruct (half_or Pg Vg) as [O|O].
    - exists Pg. split; [exact Vg|]. split; [exact O|]. split; [apply same_refl|]. intros ->. apply NP. apply same_refl.
    - exists (negated Pg). assert (S : same_element Pg (negated Pg)) by (right; symmetry; apply negated_negated).
      split; [exact (same_valid _ _ S Vg)|]. split; [now apply negated_order|]. split; [exact S|].
      intros E. apply NP. rewrite <- E. exact S. }
  destruct (bander_spanned P' Pe V' O' N' Ve) as [i Hi].
  assert (HM : forall s, element_eqb e (@element_mul Bander BanderF BanderI g s) = true <->
    same_element Pe (edwards_multiple (Z.to_nat (@fr_int BanderF BanderI s)) P')).
  { intro s. pose proof (holds_mul (I := BanderI) g s Pg Hg Vg) as K.
    rewrite (eqb_holds _ _ _ _ He K Ve (valid_multiple _ _ Vg)).
    pose proof (multiple_same (Z.to_nat (@fr_int BanderF BanderI s)) Pg P' S') as M. split; intro X.
    - exact (same_trans _ _ _ X M).
    - exact (same_trans _ _ _ X (same_sym _ _ M)). }
  set (s := @of_Z BanderF (Z.of_nat i)).
  assert (Es : same_element Pe (edwards_multiple (Z.to_nat (@fr_int BanderF BanderI s)) P')).
  { apply (same_trans _ _ _ Hi). apply (multiple_scalar (I := BanderI) _ _ P' V').
    rewrite (int_nat (B := Bander) (I := BanderI) s). unfold s. symmetry. exact (@scalar_of_int Bander BanderF BanderI bander_scalars _). }
  exists s. split; [now apply HM|]. intros s' H'. apply HM in H'.
  assert (X : Z.to_nat (@fr_int BanderF BanderI s') = Z.to_nat (@fr_int BanderF BanderI s)).
  { apply (bander_once P' _ _ V' O' N').
    - pose proof (@scalar_range Bander BanderF BanderI bander_scalars s'). change (@q_order Bander) with bander_order in *. lia.
    - pose proof (@scalar_range Bander BanderF BanderI bander_scalars s). change (@q_order Bander) with bander_order in *. lia.
    - exact (same_trans _ _ _ (same_sym _ _ H') Es). }
  rewrite <- (@scalar_of_int Bander BanderF BanderI bander_scalars s'), <- (@scalar_of_int Bander BanderF BanderI bander_scalars s).
  f_equal. pose proof (@scalar_range Bander BanderF BanderI bander_scalars s'). pose proof (@scalar_range Bander BanderF BanderI bander_scalars s). lia.
Qed.

(** ** The default generators *)
(** [Z_le] without division. *)
Fixpoint fast_le (n : nat) (z : Z) : bytes :=
  match n with O => [] | S n' => Z.land z 255 :: fast_le n' (Z.shiftr z 8) end.
Lemma fast_le_ok n : forall z, fast_le n z = Z_le n z.
Proof.
  induction n as [|n IH]; intro z; cbn [fast_le Z_le]; [reflexivity|]. rewrite IH, Z.shiftr_div_pow2 by lia.
  f_equal. exact (Z.land_ones z 8 ltac:(lia)).
Qed.
Definition entry_ok (nt : Z * Cert) : bool :=
  let b := rev (fast_le 64 (fst nt)) in
  (le_Z (firstn 32 b) =? cx (snd nt)) && (le_Z (firstn 32 (skipn 32 b)) =? cy (snd nt)).
Lemma entries_ok : length default_hex = length certs /\ forallb entry_ok (combine default_hex certs) = true.
Proof. split; vm_compute; reflexivity. Qed.

Definition cert_pt (t : Cert) : @Affine Bander := bpt (cx t) (cy t).
Lemma entry_reads n t : entry_ok (n, t) = true -> cert_ok t = true ->
  @from_bytes_unchecked_uncompressed Bander (Z_be 64 n) = Ok (of_affine (cert_pt t)).
Proof.
  intros H C. destruct (cert_sound t C) as (_ & _ & Rx & Ry). unfold entry_ok in H. cbn [fst snd] in H. cbv zeta in H.
  rewrite fast_le_ok in H. fold (Z_be 64 n) in H. apply andb_true_iff in H as [H1 H2]. apply Z.eqb_eq in H1, H2.
  assert (L : length (Z_be 64 n) = 64%nat) by (unfold Z_be; rewrite rev_length; apply Z_le_length).
  unfold from_bytes_unchecked_uncompressed, fq_de. rewrite skipn_length, L. cbn [Nat.leb Nat.sub]. cbv zeta. rewrite H1, H2.
  change (@q_modulus Bander) with bander_q.
  rewrite (proj2 (Z.ltb_lt (cx t) bander_q) (proj2 Rx)), (proj2 (Z.ltb_lt (cy t) bander_q) (proj2 Ry)). reflexivity.
Qed.
Lemma entries_read : forall ns ts, length ns = length ts -> forallb entry_ok (combine ns ts) = true -> forallb cert_ok ts = true ->
  rmap (@from_bytes_unchecked_uncompressed Bander) (map (Z_be 64) ns) = Ok (map (fun t => of_affine (cert_pt t)) ts).
Proof.
  induction ns as [|n ns IH]; intros [|t ts] HL HE HC; try discriminate; [reflexivity|].
  cbn [combine forallb] in HE, HC. apply andb_true_iff in HE as [E1 E2]. apply andb_true_iff in HC as [C1 C2].
  cbn [map rmap]. rewrite (entry_reads n t E1 C1). cbn [rbind]. rewrite (IH ts); [reflexivity|now injection HL|exact E2|exact C2].
Qed.
Lemma rmap_split {X Y} (f : X -> res Y) l x r : rmap f (l ++ [x]) = Ok r -> exists r' y, r = r' ++ [y] /\ rmap f l = Ok r' /\ f x = Ok y.
Proof.
  revert r. induction l as [|z l IH]; intros r H; cbn [app rmap] in H.
  - destruct (f x) as [y|]; [|discriminate]. cbn [rmap rbind] in H. exists [], y. split; [cbn; congruence|]. now split.
  - destruct (f z) as [y|] eqn:E; [|discriminate]. cbn [rbind] in H. destruct (rmap f (l ++ [x])) as [r0|]; [|discriminate]. cbn [rbind] in H.
    destruct (IH r0 eq_refl) as (r' & y' & -> & E2 & E3). exists (y :: r'), y'. split; [cbn; congruence|]. split; [|exact E3].
    cbn [rmap]. rewrite E. cbn [rbind]. now rewrite E2.
Qed.
Theorem default_read : exists G Q, @crs_from_bytes Bander default_crs_bytes = Ok (G, Q) /\ length G = 256%nat /\
  G ++ [Q] = map (fun t => of_affine (cert_pt t)) certs.
Proof.
  pose proof (entries_read default_hex certs (proj1 entries_ok) (proj2 entries_ok) certs_ok) as R. fold default_crs_bytes in R.
  unfold crs_from_bytes. destruct (rev default_crs_bytes) as [|q g] eqn:E.
  { apply (f_equal (@length _)) in E. rewrite rev_length in E. discriminate E. }
  assert (Eb : default_crs_bytes = rev g ++ [q]) by (rewrite <- (rev_involutive default_crs_bytes), E; reflexivity).
  rewrite Eb in R. destruct (rmap_split _ _ _ _ R) as (G & Q & EG & R1 & R2). exists G, Q. rewrite R2. cbn [rbind]. rewrite R1. cbn [rbind].
  split; [reflexivity|]. split; [|now symmetry].
  apply (f_equal (@length _)) in EG. rewrite map_length, app_length in EG. change (length certs) with 257%nat in EG. cbn [length] in EG. lia.
Qed.
Lemma default_valid t : In t certs -> cert_ok t = true.
Proof. intro H. exact (proj1 (forallb_forall _ _) certs_ok t H). Qed.
Lemma default_group t : In t certs -> @group_element Bander (of_affine (cert_pt t)).
Proof.
  intro H. destruct (cert_sound t (default_valid t H)) as (V & _). apply group_valid. exists (cert_pt t).
  split; [apply holds_of_affine|exact V].
Qed.

(** Different generators: the smaller of x and q - x differs already in its last 24 bits. *)
Definition tag (x : Z) : Z := Z.land (Z.min x (bander_q - x)) 16777215.
Fixpoint nodupb (l : list Z) : bool := match l with [] => true | x :: l' => negb (existsb (Z.eqb x) l') && nodupb l' end.
Lemma nodupb_ok l : nodupb l = true -> NoDup l.
Proof.
  induction l as [|x l IH]; intro H; constructor; cbn [nodupb] in H; apply andb_true_iff in H as [H1 H2]; [|auto].
  intro Hin. apply negb_true_iff in H1. assert (X : existsb (Z.eqb x) l = true); [|congruence].
  apply existsb_exists. exists x. split; [exact Hin|apply Z.eqb_refl].
Qed.
Lemma tags_differ : nodupb (map (fun t => tag (cx t)) certs) = true.
Proof. vm_compute. reflexivity. Qed.
Lemma tag_same t u : cert_ok t = true -> cert_ok u = true -> @same_element Bander (cert_pt t) (cert_pt u) -> tag (cx t) = tag (cx u).
Proof.
  intros Ct Cu S. destruct (cert_sound t Ct) as (_ & _ & Rt & _). destruct (cert_sound u Cu) as (_ & _ & Ru & _).
  assert (V : forall x, 0 <= x < bander_q -> zval bander_q (zred bander_q x) = x) by (intros x Hx; rewrite zval_red; now apply Z.mod_small).
  destruct S as [S|S]; apply (f_equal (@ax Bander)) in S; apply (f_equal (zval bander_q)) in S.
  - change (zval bander_q (zred bander_q (cx t)) = zval bander_q (zred bander_q (cx u))) in S. rewrite !V in S by assumption. now rewrite S.
  - change (zval bander_q (zred bander_q (cx t)) = zval bander_q (zred bander_q (- zval bander_q (zred bander_q (cx u))))) in S.
    rewrite (V (cx t) Rt), (V (cx u) Ru), zval_red in S.
    destruct (Z.eq_dec (cx u) 0) as [Z0|N0].
    + rewrite Z0 in *. rewrite S. reflexivity.
    + assert (M : (- cx u) mod bander_q = bander_q - cx u).
      { rewrite Z_mod_nz_opp_full; rewrite (Z.mod_small (cx u) bander_q Ru); [reflexivity|exact N0]. }
      rewrite M in S. unfold tag. rewrite S.
      f_equal. rewrite Z.min_comm. f_equal. ring.
Qed.
Lemma nth_map_some {X Y} (f : X -> Y) l i y : nth_error (map f l) i = Some y -> exists x, nth_error l i = Some x /\ y = f x.
Proof. rewrite nth_error_map. destruct (nth_error l i) as [x|]; [|discriminate]. intro H. injection H as <-. now exists x. Qed.
Theorem default_different : @all_different Bander (map (fun t => of_affine (cert_pt t)) certs).
Proof.
  intros i j e1 e2 Nij H1 H2. apply nth_map_some in H1 as (t & Ht & ->). apply nth_map_some in H2 as (u & Hu & ->).
  pose proof (nth_error_In _ _ Ht) as It. pose proof (nth_error_In _ _ Hu) as Iu.
  destruct (cert_sound t (default_valid t It)) as (Vt & _). destruct (cert_sound u (default_valid u Iu)) as (Vu & _).
  destruct (element_eqb (of_affine (cert_pt t)) (of_affine (cert_pt u))) eqn:E; [|reflexivity]. exfalso. apply Nij.
  apply (eqb_holds _ _ _ _ (holds_of_affine _) (holds_of_affine _) Vt Vu) in E.
  pose proof (tag_same t u (default_valid t It) (default_valid u Iu) E) as T.
  pose proof (nodupb_ok _ tags_differ) as ND. rewrite NoDup_nth_error in ND. apply ND.
  - rewrite map_length. apply nth_error_Some. congruence.
  - rewrite !nth_error_map, Ht, Hu. cbn [option_map]. now rewrite T.
Qed.

(** Which of them the checked reader refuses. *)
Lemma default_readable t : In t certs -> readable (of_affine (cert_pt t)) = negb (ctwisted t).
Proof.
  intro H. destruct (cert_sound t (default_valid t H)) as (V & O & _).
  assert (E : readable (of_affine (cert_pt t)) = point_check (cert_pt t)).
  { unfold readable, serialize_uncompressed, to_bytes_uncompressed. rewrite (to_affine_ok _ _ (holds_of_affine (cert_pt t))). cbn [rbind].
    unfold deserialize_uncompressed.
    assert (S : skipn 32 (fq_ser (ax (cert_pt t)) ++ fq_ser (ay (cert_pt t))) = fq_ser (ay (cert_pt t))).
    { rewrite <- (fq_ser_len (ax (cert_pt t))) at 1. rewrite skipn_app, skipn_all, Nat.sub_diag. reflexivity. }
    rewrite fq_de_app, S, fq_de_ser. destruct (point_check _) eqn:E1; destruct (point_check (cert_pt t)) eqn:E2; try reflexivity;
      destruct (cert_pt t); cbn [ax ay] in *; congruence. }
  rewrite E. destruct (ctwisted t) eqn:T; cbn [negb].
  - destruct (point_check (cert_pt t)) eqn:K; [exfalso|reflexivity]. apply point_check_iff in K as [_ K]. apply O in K. discriminate K.
  - apply point_check_iff. split; [exact (proj1 V)|]. now apply O.
Qed.

Lemma flags_ok : length certs = 257%nat /\
  forallb (fun it => Bool.eqb (ctwisted (snd it)) (existsb (Nat.eqb (fst it)) unreadable_generators)) (combine (seq 0 257) certs) = true.
Proof. split; vm_compute; reflexivity. Qed.
Lemma combine_nth {X} (l : list X) : forall n i x, nth_error l i = Some x -> In ((n + i)%nat, x) (combine (seq n (length l)) l).
Proof.
  induction l as [|y l IH]; intros n [|i] x H; try discriminate.
  - injection H as ->. left. now rewrite Nat.add_0_r.
  - right. cbn [length seq combine]. replace (n + S i)%nat with (S n + i)%nat by lia. now apply IH.
Qed.
Lemma flag_at i t : nth_error certs i = Some t -> ctwisted t = existsb (Nat.eqb i) unreadable_generators.
Proof.
  intro H. destruct flags_ok as [L F]. pose proof (combine_nth certs 0 i t H) as Hin. rewrite L in Hin.
  pose proof (proj1 (forallb_forall _ _) F _ Hin) as K. now apply Bool.eqb_prop in K.
Qed.
Lemma existsb_in i l : existsb (Nat.eqb i) l = true <-> In i l.
Proof.
  rewrite existsb_exists. split.
  - intros (x & Hx & E). apply Nat.eqb_eq in E. now subst.
  - intro Hi. exists i. split; [exact Hi|apply Nat.eqb_refl].
Qed.
Theorem default_unreadable gens Q i e : @crs_from_bytes Bander default_crs_bytes = Ok (gens, Q) -> nth_error (gens ++ [Q]) i = Some e ->
  (readable e = false <-> In i unreadable_generators).
Proof.
  intros R H. destruct default_read as (G' & Q' & R' & _ & E). assert (X : (gens, Q) = (G', Q')) by congruence.
  injection X as -> ->. rewrite E in H. apply nth_map_some in H as (t & Ht & ->).
  rewrite (default_readable t (nth_error_In _ _ Ht)), (flag_at i t Ht), <- existsb_in. destruct (existsb _ _); cbn [negb]; split; congruence.
Qed.
Theorem default_elements gens Q : @crs_from_bytes Bander default_crs_bytes = Ok (gens, Q) ->
  length gens = 256%nat /\ Forall (@group_element Bander) (gens ++ [Q]) /\ @all_different Bander (gens ++ [Q]).
Proof.
  intros R. destruct default_read as (G' & Q' & R' & L & E). assert (X : (gens, Q) = (G', Q')) by congruence.
  injection X as -> ->. split; [exact L|]. rewrite E. split; [|exact default_different].
  apply Forall_forall. intros e He. apply in_map_iff in He as (t & <- & Ht). now apply default_group.
Qed.

(** ** As parameters *)
Local Notation RA := (@rep_alg Bander bander_laws BanderF BanderI).
Lemma default_gen i : 0 <= i < 256 -> exists t, nth_error certs (Z.to_nat i) = Some t /\ coords (@crs RA default_par i) = cert_pt t.
Proof.
  intro Hi. destruct default_read as (gens & Q & R & L & E). unfold default_par. rewrite R. cbn [par_of crs rep_par].
  destruct (nth_error certs (Z.to_nat i)) as [t|] eqn:Ht.
  2:{ apply nth_error_None in Ht. rewrite (proj1 flags_ok) in Ht. lia. }
  exists t. split; [reflexivity|].
  assert (N : nth (Z.to_nat i) gens element_zero = of_affine (cert_pt t)).
  { assert (X : nth_error (gens ++ [Q]) (Z.to_nat i) = Some (of_affine (cert_pt t))) by (rewrite E, nth_error_map, Ht; reflexivity).
    rewrite nth_error_app1 in X by lia. now apply nth_error_nth. }
  rewrite N. unfold co_element. rewrite (to_affine_ok _ _ (holds_of_affine (cert_pt t))). apply co_of_coords.
  exact (proj1 (cert_sound t (default_valid t (nth_error_In _ _ Ht)))).
Qed.
Lemma default_twisted i : 0 <= i < 256 -> twisted (@crs RA default_par i) = unreadable i.
Proof.
  intro Hi. destruct (default_gen i Hi) as (t & Ht & E). unfold twisted, unreadable. rewrite E, <- (flag_at _ t Ht).
  destruct (cert_sound t (default_valid t (nth_error_In _ _ Ht))) as (V & O & _).
  destruct (ctwisted t) eqn:T.
  - apply negb_true_iff. destruct (point_check (cert_pt t)) eqn:K; [exfalso|reflexivity]. apply point_check_iff in K as [_ K]. apply O in K. discriminate K.
  - apply negb_false_iff. apply point_check_iff. split; [exact (proj1 V)|]. now apply O.
Qed.
