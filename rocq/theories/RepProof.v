(** Proofs, verification, proof bytes and the stateless update on coordinates: [RefineProof], [RefineIpa] and
    [RefineStateless] for the elements of the curve. *)
From Coq Require Import Permutation String.
From Verif Require Import Base BaseFacts Alg TreeSpec TrieModel TrieTheorems CodecModel VerkleDbModel VerkleDbProofs DbSpec VerkleDbSim VerkleDbTheorems
  MsmModel MsmInt BTree WireModel WireSpec WireProofs ProofModel ProofSpec IpaModel LagrangeSpec IpaSpec IpaTheorems CheckProofs DiskProof SameProofs StatelessModel StatelessSpec StatelessTheorems
  ElementModel ElementSpec ElementProofs CurveModel CurveSpec CurveProofs CurveAlg CurveRep RepSpec CoordSpec RepDisk Refine RefineDb RootTotal RepRefine RefineProof RefineIpa RefineStateless.
Local Open Scope list_scope.
Local Open Scope Z_scope.
Notation len := List.length.

(** An order of the groups on one side gives one on the other. *)
Section Order.
Context {X Y : Type}.
Definition reorder (n : nat) (s : list nat) (l : list Y) : list Y :=
  match l with [] => [] | d :: _ => if (len l =? n)%nat then map (fun i => nth i l d) s else l end.
Lemma nth_seq_self {Z0} (l : list Z0) d : map (fun i => nth i l d) (seq 0 (len l)) = l.
Proof.
  induction l as [|x l IH]; [reflexivity|]. cbn [List.length seq map nth]. f_equal. rewrite <- seq_shift, map_map. exact IH.
Qed.
Lemma reorder_perm n s l : Permutation s (seq 0 n) -> Permutation (reorder n s l) l.
Proof.
  intro H. destruct l as [|d l]; [constructor|]. cbn [reorder]. destruct (Nat.eqb_spec (len (d :: l)) n) as [<-|]; [|reflexivity].
  rewrite (Permutation_map _ H). now rewrite (nth_seq_self (d :: l) d).
Qed.
Lemma order_transfer (f : X -> Y) (a b : list X) : Permutation a b ->
  exists o : list Y -> list Y, (forall l, Permutation (o l) l) /\ o (map f b) = map f a.
Proof.
  intro H. destruct b as [|d b'] eqn:Eb.
  - apply Permutation_sym, Permutation_nil in H as ->. now exists (fun l => l).
  - rewrite <- Eb in *. assert (H' : Permutation a (map (fun i => nth i b d) (seq 0 (len b)))) by now rewrite nth_seq_self.
    apply Permutation_map_inv in H' as (s & -> & Ps). exists (reorder (len b) s). split; [intro l; apply reorder_perm; now symmetry|].
    rewrite Eb. cbn [map reorder]. change (f d :: map f b') with (map f (d :: b')). rewrite <- Eb, map_length, Nat.eqb_refl, map_map.
    apply map_ext. intro i. apply map_nth.
Qed.
End Order.

Section Rep.
Context {B : BaseField} {BL : BaseFieldLaws B} {CL : CurveLaws B} {A : Alg} {AL : AlgLaws A} {I : FrInt A} {SL : ScalarLaws B A I}.
Local Notation RA := (@rep_alg B BL A I).
Local Notation CA := (@curve_alg B BL A I).
Local Notation RE := (@rep_ecodec B BL A I).
Local Notation CE := (@curve_ecodec B BL A I).
Local Notation RC := (@rep_codec B BL A I).
Local Notation CC := (@curve_codec B BL A I).
#[local] Existing Instance rep_ecodec.
#[local] Existing Instance curve_ecodec.

Lemma elem_ser g : @el_ser RA RE g = @el_ser CA CE (elem g).
Proof. cbn [el_ser rep_ecodec]. rewrite (bytes_of _ (co_group g)). reflexivity. Qed.
Lemma elem_de b : @el_de CA CE b = option_map elem (@el_de RA RE b).
Proof.
  cbn [el_de rep_ecodec curve_ecodec]. destruct (from_bytes b) as [[e|]|] eqn:E; try reflexivity.
  pose proof (from_bytes_valid b e E) as Ge. pose proof (proj1 (group_valid e) Ge) as (P & Hp & V). rewrite (to_affine_ok _ _ Hp).
  unfold co_opt. rewrite (proj2 (coordb_iff _) V). cbn [option_map]. f_equal. apply elem_unique. rewrite (co_of_coords _ V).
  now apply group_of_same.
Qed.
Lemma elem_ser_len g : len (@el_ser RA RE g) = 32%nat.
Proof. rewrite elem_ser. exact (@el_len CA CE curve_ecodec_laws (elem g)). Qed.
Lemma same_iff g h : same_coord g h <-> @elem B BL A I g = elem h.
Proof. exact (group_of_eq _ _ (co_group g) (co_group h)). Qed.
Lemma same_all l l' : Forall2 same_coord l l' <-> map (@elem B BL A I) l = map elem l'.
Proof.
  revert l'. induction l as [|x l IH]; intros [|y l']; cbn [map]; split; intro H; try (inversion H; fail); try constructor; try discriminate.
  - inversion H; subst. f_equal; [now apply same_iff|now apply IH].
  - apply same_iff. congruence.
  - apply IH. congruence.
Qed.

Definition el_vp : @VerkleProof RA -> @VerkleProof CA := @vp_map CA Coord co_zero co_add co_opp (@co_mul B BL A I) co_eqb elem.
Lemma same_proof_iff p q : same_proof p q <-> el_vp p = el_vp q.
Proof.
  destruct p as [hp cp [[Lp Rp ap] gp]], q as [hq cq [[Lq Rq aq] gq]].
  unfold same_proof, el_vp, vp_map, mp_map, ipa_map. rewrite !same_all, same_iff. cbn [vp_hint vp_comms vp_proof mp_ipa mp_g ipa_L ipa_R ipa_a]. split.
  - intros (-> & -> & -> & -> & -> & ->). reflexivity.
  - intro H. repeat split; congruence.
Qed.

Context {HS : Hasher}.
Context {RP : Par RA} {CP : Par CA}.
Hypothesis rhash_is : forall p, @hash RA RP p = @co_hash B A p.
Hypothesis hash_is : forall p, @hash CA CP p = @pt_hash B A p.
Hypothesis crs_is : forall i, @crs CA CP i = elem (@crs RA RP i).
Hypothesis crsQ_is : @crsQ CA CP = elem (@crsQ RA RP).
Lemma chash p : @hash RA RP p = @hash CA CP (elem p).
Proof. rewrite (rhash_is p), (hash_is (elem p)). exact (@elem_hash B BL CL A I p). Qed.

Definition el_uh : @UpdateHint RA -> @UpdateHint CA := @uh_map CA Coord co_zero co_add co_opp (@co_mul B BL A I) co_eqb elem.
Definition el_pq : @ProverQuery RA -> @ProverQuery CA := @pq_map CA Coord co_zero co_add co_opp (@co_mul B BL A I) co_eqb elem.
Definition el_vq : @VerifierQuery RA -> @VerifierQuery CA := @vq_map CA Coord co_zero co_add co_opp (@co_mul B BL A I) co_eqb elem.

Lemma coord_par_laws : ParLaws CP.
Proof. constructor. rewrite hash_is. exact (@hash_zero CA _ (curve_par_laws (fun _ => pt_zero) pt_zero)). Qed.

Lemma coord_check p keys values root :
  @proof_check CA CE HS CP (el_vp p) keys values (elem root) =
  ok_map (fun r => (fst r, option_map el_uh (snd r))) (@proof_check RA RE HS RP p keys values root).
Proof.
  exact (@cover_proof_check CA CP CE HS Coord co_zero co_add co_opp (@co_mul B BL A I) co_eqb RP RE elem elem_zero elem_add elem_opp elem_mul elem_eqb chash
    (fun i => eq_sym (crs_is i)) (eq_sym crsQ_is) elem_ser (fun _ => eq_refl) p keys values root).
Qed.
Lemma coord_queries hint comms keys values root :
  @create_verifier_queries CA CP hint (map elem comms) keys values (elem root) =
  ok_map (option_map (fun r => (map el_vq (fst r), el_uh (snd r)))) (@create_verifier_queries RA RP hint comms keys values root).
Proof. exact (@cover_verifier CA CP Coord co_zero co_add co_opp (@co_mul B BL A I) co_eqb RP elem chash hint comms keys values root). Qed.
Lemma coord_t tr qs D : fst (@mp_t RA RE HS tr qs D) = fst (@mp_t CA CE HS tr (map el_vq qs) (elem D)).
Proof.
  exact (f_equal fst (@cover_t CA CE HS Coord co_zero co_add co_opp (@co_mul B BL A I) co_eqb RE elem elem_ser (fun _ => eq_refl) tr qs D)).
Qed.
Lemma coord_write p : @proof_write CA CE (el_vp p) = @proof_write RA RE p.
Proof. exact (@cover_write CA CE Coord co_zero co_add co_opp (@co_mul B BL A I) co_eqb RE elem elem_ser (fun _ => eq_refl) p). Qed.
Lemma coord_read b : @proof_read CA CE b = ok_map (option_map el_vp) (@proof_read RA RE b).
Proof. exact (@cover_read CA CE Coord co_zero co_add co_opp (@co_mul B BL A I) co_eqb RE elem elem_de (fun _ => eq_refl) b). Qed.
Definition el_vres : @vresult RA -> @vresult CA := @vres_map CA Coord co_zero co_add co_opp (@co_mul B BL A I) co_eqb elem.
Lemma coord_update ho p root keys values updated :
  @verify_and_update CA CP ho HS CE (el_vp p) (elem root) keys values updated = ok_map el_vres (@verify_and_update RA RP ho HS RE p root keys values updated).
Proof.
  exact (@cover_verify_and_update CA CP CE HS Coord co_zero co_add co_opp (@co_mul B BL A I) co_eqb RP RE elem elem_zero elem_add elem_opp elem_mul elem_eqb chash
    (fun i => eq_sym (crs_is i)) (eq_sym crsQ_is) elem_ser (fun _ => eq_refl) ho p root keys values updated).
Qed.

(** ** Creation *)
Definition el_gr : @Group RA -> @Group CA := @gr_map CA Coord co_zero co_add co_opp (@co_mul B BL A I) co_eqb elem.
Section Sim.
Context {S1 S2 : Type} {D1 : @DbOps RA S1} {D2 : @DbOps CA S2}.
Variable R : S1 -> S2 -> Prop.
Variable weak : Prop.
Hypothesis DS : @DbSim CA Coord co_zero co_add co_opp (@co_mul B BL A I) co_eqb elem S1 S2 D1 D2 R weak.
Lemma coord_parts v1 v2 keys : R v1 v2 ->
  rr weak (fun o o' => o' = option_map (fun r => (map el_pq (fst (fst r)), snd (fst r), map elem (snd r))) o)
    (@create_proof_parts RA S1 D1 v1 keys) (@create_proof_parts CA S2 D2 v2 keys).
Proof.
  intro HR. exact (@cover_parts CA Coord co_zero co_add co_opp (@co_mul B BL A I) co_eqb elem elem_eqb S1 S2 D1 D2 R weak DS v1 v2 HR keys).
Qed.
Lemma coord_create o1 v1 v2 keys : (forall l, Permutation (o1 l) l) -> R v1 v2 ->
  exists o2, (forall l, Permutation (o2 l) l) /\
    rr weak (fun o o' => o' = option_map el_vp o) (@create_verkle_proof RA RE HS RP S1 D1 o1 v1 keys) (@create_verkle_proof CA CE HS CP S2 D2 o2 v2 keys).
Proof.
  intros Ho HR.
  assert (X : exists o2 : list (@Group CA) -> list (@Group CA), (forall l, Permutation (o2 l) l) /\
    (forall qs hint comms, @create_proof_parts RA S1 D1 v1 keys = Ok (Some (qs, hint, comms)) ->
     o2 (map el_gr (@open_groups HS RA RE (tr_new (lbl "vt"%string)) qs)) = map el_gr (o1 (@open_groups HS RA RE (tr_new (lbl "vt"%string)) qs)))).
  { destruct (@create_proof_parts RA S1 D1 v1 keys) as [[[[qs hint] comms]|]|].
    - destruct (order_transfer el_gr _ _ (Ho (@open_groups HS RA RE (tr_new (lbl "vt"%string)) qs))) as (o2 & P2 & E2).
      exists o2. split; [exact P2|]. intros qs' hint' comms' E. assert (qs' = qs) by congruence. subst qs'. exact E2.
    - exists (fun l => l). split; [reflexivity|discriminate].
    - exists (fun l => l). split; [reflexivity|discriminate]. }
  destruct X as (o2 & P2 & E2). exists o2. split; [exact P2|].
  exact (@cover_create_proof CA CP CE HS Coord co_zero co_add co_opp (@co_mul B BL A I) co_eqb RP RE elem elem_zero elem_add elem_opp elem_mul elem_eqb
    (fun i => eq_sym (crs_is i)) (eq_sym crsQ_is) elem_ser (fun _ => eq_refl) S1 S2 D1 D2 R weak DS o1 o2 v1 v2 keys HR E2).
Qed.
End Sim.

(** ** What is the same for the same elements *)
Lemma check_same p q root root' keys values : same_proof p q -> same_coord root root' ->
  same_outcome (fun a b => fst a = fst b /\ (snd a = None <-> snd b = None))
    (@proof_check RA RE HS RP p keys values root) (@proof_check RA RE HS RP q keys values root').
Proof.
  intros Ep Er. apply same_proof_iff in Ep. apply same_iff in Er.
  pose proof (coord_check p keys values root) as X. pose proof (coord_check q keys values root') as Y. rewrite Ep, Er in X. rewrite X in Y.
  destruct (@proof_check RA RE HS RP p keys values root) as [[b1 o1]|], (@proof_check RA RE HS RP q keys values root') as [[b2 o2]|];
    cbn [ok_map same_outcome fst snd] in *; try discriminate; [|exact Logic.I].
  split; [congruence|]. destruct o1, o2; cbn [option_map] in Y; split; intro; congruence.
Qed.
Lemma update_same ho p q root root' keys values updated : same_proof p q -> same_coord root root' ->
  same_outcome same_update (@verify_and_update RA RP ho HS RE p root keys values updated) (@verify_and_update RA RP ho HS RE q root' keys values updated).
Proof.
  intros Ep Er. apply same_proof_iff in Ep. apply same_iff in Er.
  pose proof (coord_update ho p root keys values updated) as X. pose proof (coord_update ho q root' keys values updated) as Y. rewrite Ep, Er in X. rewrite X in Y.
  destruct (@verify_and_update RA RP ho HS RE p root keys values updated) as [[g|e]|], (@verify_and_update RA RP ho HS RE q root' keys values updated) as [[g'|e']|];
    cbn [ok_map same_outcome same_update el_vres vres_map] in *; try discriminate; try exact Logic.I.
  - apply same_iff. unfold el_vres, vres_map in Y. congruence.
  - unfold el_vres, vres_map in Y. congruence.
Qed.

(** ** Proofs through bytes *)
Lemma el_fits p : proof_fits p <-> proof_fits (el_vp p).
Proof.
  split; intros [H1 [H2 H3] H4]; (split; [exact H1|split|]).
  - unfold el_vp, vp_map. cbn [vp_proof mp_map mp_ipa ipa_map ipa_L]. rewrite map_length. exact H2.
  - unfold el_vp, vp_map. cbn [vp_proof mp_map mp_ipa ipa_map ipa_R]. rewrite map_length. exact H3.
  - unfold el_vp, vp_map. cbn [vp_comms]. rewrite map_length. exact H4.
  - unfold el_vp, vp_map in H2. cbn [vp_proof mp_map mp_ipa ipa_map ipa_L] in H2. rewrite map_length in H2. exact H2.
  - unfold el_vp, vp_map in H3. cbn [vp_proof mp_map mp_ipa ipa_map ipa_R] in H3. rewrite map_length in H3. exact H3.
  - unfold el_vp, vp_map in H4. cbn [vp_comms] in H4. rewrite map_length in H4. exact H4.
Qed.
Lemma sent p : proof_fits p -> exists q, @proof_read RA RE (@proof_write RA RE p) = Ok (Some q) /\ same_proof p q.
Proof.
  intro F. pose proof (coord_read (@proof_write RA RE p)) as X. rewrite <- coord_write in X at 1.
  rewrite (@proof_rt CA CE curve_ecodec_laws (el_vp p) (proj1 (el_fits p) F)) in X.
  destruct (@proof_read RA RE (@proof_write RA RE p)) as [[q|]|]; cbn [ok_map option_map] in X; try discriminate.
  exists q. split; [reflexivity|]. apply same_proof_iff. congruence.
Qed.
Lemma write_same p q : proof_fits p -> proof_fits q -> (@proof_write RA RE p = @proof_write RA RE q <-> same_proof p q).
Proof.
  intros Fp Fq. rewrite same_proof_iff. split; intro E.
  - apply (@proof_write_inj CA CE curve_ecodec_laws); [now apply el_fits|now apply el_fits|]. now rewrite !coord_write.
  - rewrite <- !coord_write. now rewrite E.
Qed.
Lemma write_same_any p q : same_proof p q -> @proof_write RA RE p = @proof_write RA RE q.
Proof. rewrite same_proof_iff. intro E. rewrite <- !coord_write. now rewrite E. Qed.

(** ** From a trie in memory *)
Hypothesis fits : @domain_fits A 256.
Lemma check_hint p keys values root qs uh b o : @create_verifier_queries RA RP (vp_hint p) (vp_comms p) keys values root = Ok (Some (qs, uh)) ->
  @proof_check RA RE HS RP p keys values root = Ok (b, o) -> o = Some uh.
Proof.
  intros E C. unfold proof_check in C. rewrite E in C. cbn [rbind] in C. destruct (precomputed_weights 256) as [w|]; cbn [rbind] in C; [|discriminate].
  destruct (mp_check _ _ _ _ _) as [k|]; cbn [rbind] in C; [|discriminate]. congruence.
Qed.
Lemma mem_pair h db : @run_mem RA RP h = Ok db -> exists db2, @run_mem CA CP h = Ok db2 /\ coord_rel db db2.
Proof.
  intro E. pose proof (coord_mem rhash_is hash_is crs_is h) as X. rewrite E in X. destruct (@run_mem CA CP h) as [d2|]; [|contradiction]. exists d2. now split.
Qed.
Lemma root_pair db db2 root : coord_rel db db2 -> @root_commitment CA _ _ db2 = Ok root ->
  exists c, @root_commitment RA _ _ db = Ok c /\ elem c = root.
Proof.
  intros HR E. destruct (coord_root db db2 HR) as (_ & X & _). rewrite E in X. destruct (@root_commitment RA _ _ db) as [c|]; [|contradiction].
  exists c. split; [reflexivity|exact X].
Qed.
Lemma create_pair o1 db db2 keys p : (forall l, Permutation (o1 l) l) -> coord_rel db db2 ->
  @create_verkle_proof RA RE HS RP MemoryDb _ o1 db keys = Ok (Some p) ->
  exists o2, (forall l, Permutation (o2 l) l) /\ @create_verkle_proof CA CE HS CP MemoryDb _ o2 db2 keys = Ok (Some (el_vp p)).
Proof.
  intros Ho HR E.
  assert (Y : exists o2, (forall l, Permutation (o2 l) l) /\
    rr False (fun o o' => o' = option_map el_vp o) (@create_verkle_proof RA RE HS RP MemoryDb _ o1 db keys) (@create_verkle_proof CA CE HS CP MemoryDb _ o2 db2 keys))
    by exact (coord_create _ False (@mem_sim CA Coord co_zero co_add co_opp (@co_mul B BL A I) co_eqb elem False) o1 db db2 keys Ho HR).
  destruct Y as (o2 & P2 & X).
  exists o2. split; [exact P2|]. rewrite E in X. destruct (@create_verkle_proof CA CE HS CP MemoryDb _ o2 db2 keys) as [o|]; [|contradiction].
  cbn [rr] in X. now rewrite X.
Qed.
Lemma coord_created_accepted h db keys order p :
  wf_history h -> @run_mem RA RP h = Ok db -> keys <> [] -> Forall is_key keys ->
  @distinguishable CA CP (final_map h) (stems_of h) keys ->
  (forall l, Permutation (order l) l) ->
  @create_verkle_proof RA RE HS RP MemoryDb _ order db keys = Ok (Some p) ->
  exists root qs uh, @root_commitment RA _ _ db = Ok root /\
    @create_verifier_queries RA RP (vp_hint p) (vp_comms p) keys (map (final_map h) keys) root = Ok (Some (qs, uh)) /\
    (@outside_domain RA 256 (fst (@mp_t RA RE HS (tr_new (lbl "vt"%string)) qs (mp_g (vp_proof p)))) ->
     @proof_check RA RE HS RP p keys (map (final_map h) keys) root = Ok (true, Some uh)).
Proof.
  intros W E Nk Hk Hd Ho Cr. destruct (mem_pair h db E) as (db2 & E2 & HR).
  destruct (create_pair order db db2 keys p Ho HR Cr) as (o2 & P2 & Cr2).
  destruct (@created_accepted CA curve_laws CP coord_par_laws CE HS fits h db2 keys o2 (el_vp p) W E2 Nk Hk Hd P2 Cr2) as (root2 & qs2 & uh2 & R2 & Q2 & K).
  destruct (root_pair db db2 root2 HR R2) as (root & R1 & Er). subst root2.
  change (@vp_comms CA (el_vp p)) with (map (@elem B BL A I) (vp_comms p)) in Q2. change (@vp_hint CA (el_vp p)) with (@vp_hint RA p) in Q2.
  rewrite coord_queries in Q2. destruct (@create_verifier_queries RA RP _ _ _ _ _) as [[[qs uh]|]|] eqn:Eq; cbn [ok_map option_map fst snd] in Q2; try discriminate.
  exists root, qs, uh. split; [exact R1|]. split; [exact Eq|]. intro O.
  assert (Eqs : map el_vq qs = qs2) by congruence. subst qs2. rewrite coord_t in O. specialize (K O). rewrite coord_check in K.
  destruct (@proof_check RA RE HS RP p keys (map (final_map h) keys) root) as [[b o]|] eqn:Ck; cbn [ok_map fst snd] in K; [|discriminate].
  rewrite (check_hint p keys _ root qs uh b o Eq Ck). assert (b = true) by congruence. now subst b.
Qed.

(** A proof is made, and accepted, if the challenges of the run on group elements are usable. *)
Lemma coord_honest h db keys order :
  wf_history h -> @run_mem RA RP h = Ok db -> keys <> [] -> Forall is_key keys ->
  @distinguishable CA CP (final_map h) (stems_of h) keys ->
  (forall l, Permutation (order l) l) ->
  exists qs hint comms root, @create_proof_parts RA MemoryDb _ db keys = Ok (Some (qs, hint, comms)) /\ @root_commitment RA _ _ db = Ok root /\
    (@usable_challenges CA CP CE HS (map el_pq qs) -> exists p uh,
       @create_verkle_proof RA RE HS RP MemoryDb _ order db keys = Ok (Some p) /\ vp_hint p = hint /\ vp_comms p = comms /\
       @proof_check RA RE HS RP p keys (map (final_map h) keys) root = Ok (true, Some uh)).
Proof.
  intros W E Nk Hk Hd Ho. destruct (mem_pair h db E) as (d2 & E2 & HR).
  assert (Y : exists o2, (forall l, Permutation (o2 l) l) /\
    rr False (fun o o' => o' = option_map el_vp o) (@create_verkle_proof RA RE HS RP MemoryDb _ order db keys) (@create_verkle_proof CA CE HS CP MemoryDb _ o2 d2 keys))
    by exact (coord_create _ False (@mem_sim CA Coord co_zero co_add co_opp (@co_mul B BL A I) co_eqb elem False) order db d2 keys Ho HR).
  destruct Y as (o2 & P2 & X).
  destruct (@honest_accepted CA curve_laws CP coord_par_laws CE HS fits h d2 keys o2 W E2 Nk Hk Hd P2) as (qs2 & hint & comms2 & root2 & Ep & R2 & K).
  assert (Y : rr False (fun o o' => o' = option_map (fun r => (map el_pq (fst (fst r)), snd (fst r), map elem (snd r))) o)
    (@create_proof_parts RA MemoryDb _ db keys) (@create_proof_parts CA MemoryDb _ d2 keys))
    by exact (coord_parts _ False (@mem_sim CA Coord co_zero co_add co_opp (@co_mul B BL A I) co_eqb elem False) db d2 keys HR).
  rewrite Ep in Y. destruct (@create_proof_parts RA MemoryDb _ db keys) as [[[[qs hint1] comms]|]|] eqn:Ep1; cbn [rr option_map fst snd] in Y; try contradiction; try discriminate.
  destruct (root_pair db d2 root2 HR R2) as (root & R1 & Er). subst root2. exists qs, hint1, comms, root. split; [reflexivity|]. split; [exact R1|]. intro U.
  assert (Eqs : map el_pq qs = qs2) by congruence. subst qs2. destruct (K U) as (p2 & uh2 & C2 & H2 & Hc & Ck). rewrite C2 in X.
  destruct (@create_verkle_proof RA RE HS RP MemoryDb _ order db keys) as [[p|]|] eqn:C1; cbn [rr option_map] in X; try contradiction; try discriminate.
  assert (Ep2 : p2 = el_vp p) by congruence. subst p2. rewrite coord_check in Ck.
  destruct (@proof_check RA RE HS RP p keys (map (final_map h) keys) root) as [[b [uh|]]|] eqn:Ck1; cbn [ok_map fst snd option_map] in Ck; try discriminate.
  exists p, uh. split; [reflexivity|]. unfold create_verkle_proof in C1. rewrite Ep1 in C1. cbn [rbind] in C1.
  destruct (precomputed_weights 256) as [w|]; cbn [rbind] in C1; [|discriminate]. destruct (mp_open order _ _ _ _) as [[m s]|]; cbn [rbind] in C1; [|discriminate].
  assert (Z : p = @mkVP RA hint1 comms m) by congruence. rewrite Z. split; [reflexivity|]. split; [reflexivity|]. rewrite <- Z.
  assert (b = true) by congruence. now subst b.
Qed.

(** Two tries with the same contents. *)
Lemma create_pair_back o2 db db2 keys : (forall l, Permutation (o2 l) l) -> coord_rel db db2 -> exists o2', (forall l, Permutation (o2' l) l) /\
  forall p, @create_verkle_proof CA CE HS CP MemoryDb _ o2' db2 keys = Ok (Some (el_vp p)) ->
  exists q, @create_verkle_proof RA RE HS RP MemoryDb _ o2 db keys = Ok (Some q) /\ same_proof p q.
Proof.
  intros Ho HR.
  assert (Y : exists o2', (forall l, Permutation (o2' l) l) /\
    rr False (fun o o' => o' = option_map el_vp o) (@create_verkle_proof RA RE HS RP MemoryDb _ o2 db keys) (@create_verkle_proof CA CE HS CP MemoryDb _ o2' db2 keys))
    by exact (coord_create _ False (@mem_sim CA Coord co_zero co_add co_opp (@co_mul B BL A I) co_eqb elem False) o2 db db2 keys Ho HR).
  destruct Y as (o2' & P2 & X). exists o2'. split; [exact P2|]. intros p E. rewrite E in X.
  destruct (@create_verkle_proof RA RE HS RP MemoryDb _ o2 db keys) as [[q|]|]; cbn [rr option_map] in X; try contradiction; try discriminate.
  exists q. split; [reflexivity|]. apply same_proof_iff. congruence.
Qed.
Lemma parts_pair o db d keys p : coord_rel db d -> @create_verkle_proof RA RE HS RP MemoryDb _ o db keys = Ok (Some p) ->
  forall qs2 hint comms, @create_proof_parts CA MemoryDb _ d keys = Ok (Some (qs2, hint, comms)) ->
  exists qs, @create_proof_parts RA MemoryDb _ db keys = Ok (Some (qs, vp_hint p, vp_comms p)) /\
    fst (@mp_t RA RE HS (tr_new (lbl "vt"%string)) (map public_query qs) (mp_g (vp_proof p))) =
    fst (@mp_t CA CE HS (tr_new (lbl "vt"%string)) (map public_query qs2) (mp_g (vp_proof (el_vp p)))).
Proof.
  intros R1 C1 qs2 hint2 comms2 Ep.
  assert (Y : rr False (fun o o' => o' = option_map (fun r => (map el_pq (fst (fst r)), snd (fst r), map elem (snd r))) o)
    (@create_proof_parts RA MemoryDb _ db keys) (@create_proof_parts CA MemoryDb _ d keys))
    by exact (coord_parts _ False (@mem_sim CA Coord co_zero co_add co_opp (@co_mul B BL A I) co_eqb elem False) db d keys R1).
  rewrite Ep in Y. unfold create_verkle_proof in C1.
  destruct (@create_proof_parts RA MemoryDb _ db keys) as [[[[qs hint] comms]|]|]; cbn [rr option_map rbind fst snd] in Y, C1; try contradiction; try discriminate.
  exists qs. split.
  - destruct (precomputed_weights 256) as [w|]; cbn [rbind] in C1; [|discriminate]. destruct (mp_open o _ _ _ _) as [[m s]|]; cbn [rbind] in C1; [|discriminate].
    assert (Z : p = @mkVP RA hint comms m) by congruence. rewrite Z. reflexivity.
  - assert (Eqs : map el_pq qs = qs2) by congruence. subst qs2. rewrite coord_t.
    assert (Epub : map el_vq (map public_query qs) = map public_query (map el_pq qs)) by (rewrite !map_map; apply map_ext; intros []; reflexivity).
    rewrite Epub. reflexivity.
Qed.
Lemma coord_same_proof h1 h2 db1 db2 keys o1 o2 p1 : wf_history h1 -> wf_history h2 -> (forall k, final_map h1 k = final_map h2 k) ->
  @run_mem RA RP h1 = Ok db1 -> @run_mem RA RP h2 = Ok db2 -> Forall is_key keys ->
  (forall l, Permutation (o1 l) l) -> (forall l, Permutation (o2 l) l) ->
  @create_verkle_proof RA RE HS RP MemoryDb _ o1 db1 keys = Ok (Some p1) ->
  exists qs, @create_proof_parts RA MemoryDb _ db1 keys = Ok (Some (qs, vp_hint p1, vp_comms p1)) /\
  (@outside_domain RA 256 (fst (@mp_t RA RE HS (tr_new (lbl "vt"%string)) (map public_query qs) (mp_g (vp_proof p1)))) ->
   exists p2, @create_verkle_proof RA RE HS RP MemoryDb _ o2 db2 keys = Ok (Some p2) /\ same_proof p1 p2 /\ @proof_write RA RE p1 = @proof_write RA RE p2).
Proof.
  intros W1 W2 Em E1 E2 Hk O1 O2 C1. destruct (mem_pair h1 db1 E1) as (d1 & F1 & R1). destruct (mem_pair h2 db2 E2) as (d2 & F2 & R2).
  destruct (create_pair o1 db1 d1 keys p1 O1 R1 C1) as (q1 & P1 & K1). destruct (create_pair_back o2 db2 d2 keys O2 R2) as (q2 & P2 & K2).
  destruct (@same_contents_proof CA curve_laws CP coord_par_laws CE HS fits h1 h2 d1 d2 keys q1 q2 _ W1 W2 Em F1 F2 Hk P1 P2 K1) as (qs2 & Ep & X).
  destruct (parts_pair o1 db1 d1 keys p1 R1 C1 _ _ _ Ep) as (qs & Eq & Et). exists qs. split; [exact Eq|]. intro O. rewrite Et in O.
  destruct (K2 p1 (X O)) as (p2 & C2 & Sp). exists p2. split; [exact C2|]. split; [exact Sp|now apply write_same_any].
Qed.

(** ** The stateless update *)
Lemma insert_pair db db2 kvs : coord_rel db db2 -> rr False coord_rel (@trie_insert RA RP _ _ db kvs) (@trie_insert CA CP _ _ db2 kvs).
Proof.
  intro HR. exact (@cover_insert CA CP Coord co_zero co_add co_opp (@co_mul B BL A I) co_eqb RP elem elem_zero elem_add elem_mul chash (fun i => eq_sym (crs_is i))
    _ _ _ _ coord_rel False (@mem_sim CA Coord co_zero co_add co_opp (@co_mul B BL A I) co_eqb elem False) kvs db db2 HR).
Qed.
Lemma coord_stateless h db keys updated proof_order hash_order p root q root' :
  wf_history h -> @run_mem RA RP h = Ok db -> @root_commitment RA _ _ db = Ok root ->
  Forall is_key keys -> NoDup keys -> len updated = len keys ->
  (forall l, Permutation (proof_order l) l) -> (forall l, Permutation (hash_order l) l) ->
  @create_verkle_proof RA RE HS RP MemoryDb _ proof_order db keys = Ok (Some p) ->
  same_proof p q -> same_coord root root' ->
  (exists uh, @proof_check RA RE HS RP q keys (map (final_map h) keys) root' = Ok (true, uh)) ->
  (forall k v, In (k, v) (writes keys updated) -> occupied (stems_of h) k) ->
  exists db' r r', @trie_insert RA RP _ _ db (writes keys updated) = Ok db' /\ @root_commitment RA _ _ db' = Ok r /\
    @verify_and_update RA RP hash_order HS RE q root' keys (map (final_map h) keys) updated = Ok (VOk r') /\ same_coord r r'.
Proof.
  intros W E Er Hk Nd Hl Ho Hh Cr Sp Sr [uh Ck] Occ. apply same_proof_iff in Sp. apply same_iff in Sr.
  destruct (mem_pair h db E) as (d2 & E2 & HR). destruct (create_pair proof_order db d2 keys p Ho HR Cr) as (o2 & P2 & C2). rewrite Sp in C2.
  destruct (@root_spec CA curve_laws CP coord_par_laws h W) as (d2' & E2' & R2 & _). assert (d2' = d2) by congruence. subst d2'.
  destruct (root_pair db d2 _ HR R2) as (c & Rc & Ec). assert (c = root) by congruence. subst c. rewrite <- Ec, Sr in R2.
  assert (Ck2 : exists uh2, @proof_check CA CE HS CP (el_vp q) keys (map (final_map h) keys) (elem root') = Ok (true, uh2)).
  { rewrite coord_check, Ck. cbn [ok_map fst snd]. eexists. reflexivity. }
  destruct (@stateless_update_ok CA curve_laws CP coord_par_laws CE HS h d2 keys updated o2 hash_order (el_vp q) (elem root') W E2 R2 Hk Nd Hl Hh C2 Ck2 Occ) as (d2' & r2 & I2 & Rr2 & V2).
  pose proof (insert_pair db d2 (writes keys updated) HR) as X. rewrite I2 in X. destruct (@trie_insert RA RP _ _ db (writes keys updated)) as [db'|]; [|contradiction].
  destruct (root_pair db' d2' r2 X Rr2) as (r & Rr & Err). rewrite coord_update in V2.
  destruct (@verify_and_update RA RP hash_order HS RE q root' keys (map (final_map h) keys) updated) as [[r'|e]|]; cbn [ok_map el_vres vres_map] in V2; try discriminate.
  exists db', r, r'. split; [reflexivity|]. split; [exact Rr|]. split; [reflexivity|]. apply same_iff. unfold el_vres, vres_map in V2. congruence.
Qed.
Lemma coord_stateless_panics h db keys updated proof_order hash_order p root q root' k v :
  wf_history h -> @run_mem RA RP h = Ok db -> @root_commitment RA _ _ db = Ok root ->
  Forall is_key keys -> NoDup keys -> len updated = len keys ->
  (forall l, Permutation (proof_order l) l) -> (forall l, Permutation (hash_order l) l) ->
  @create_verkle_proof RA RE HS RP MemoryDb _ proof_order db keys = Ok (Some p) ->
  same_proof p q -> same_coord root root' ->
  (exists uh, @proof_check RA RE HS RP q keys (map (final_map h) keys) root' = Ok (true, uh)) ->
  In (k, v) (writes keys updated) -> ~ occupied (stems_of h) k ->
  @verify_and_update RA RP hash_order HS RE q root' keys (map (final_map h) keys) updated = Panic.
Proof.
  intros W E Er Hk Nd Hl Ho Hh Cr Sp Sr [uh Ck] Hin Occ. apply same_proof_iff in Sp. apply same_iff in Sr.
  destruct (mem_pair h db E) as (d2 & E2 & HR). destruct (create_pair proof_order db d2 keys p Ho HR Cr) as (o2 & P2 & C2). rewrite Sp in C2.
  destruct (@root_spec CA curve_laws CP coord_par_laws h W) as (d2' & E2' & R2 & _). assert (d2' = d2) by congruence. subst d2'.
  destruct (root_pair db d2 _ HR R2) as (c & Rc & Ec). assert (c = root) by congruence. subst c. rewrite <- Ec, Sr in R2.
  assert (Ck2 : exists uh2, @proof_check CA CE HS CP (el_vp q) keys (map (final_map h) keys) (elem root') = Ok (true, uh2)).
  { rewrite coord_check, Ck. cbn [ok_map fst snd]. eexists. reflexivity. }
  pose proof (@stateless_update_panics CA curve_laws CP coord_par_laws CE HS h d2 keys updated o2 hash_order (el_vp q) (elem root') k v W E2 R2 Hk Nd Hl Hh C2 Ck2 Hin Occ) as V2.
  rewrite coord_update in V2. destruct (@verify_and_update RA RP hash_order HS RE q root' keys (map (final_map h) keys) updated); [discriminate|reflexivity].
Qed.

(** ** From a trie on disk *)
#[local] Existing Instance rep_codec.
#[local] Existing Instance curve_codec.
Lemma coord_disk_proof l v db keys o1 o2 p : wf_ops l -> settled_ops l -> no_rewrite l ->
  @run_disk RA RP RC l = Ok v -> @run_mem RA RP (contents l) = Ok db -> Forall is_key keys ->
  (forall g, Permutation (o1 g) g) -> (forall g, Permutation (o2 g) g) ->
  @create_verkle_proof RA RE HS RP MemoryDb _ o1 db keys = Ok (Some p) ->
  exists qs, @create_proof_parts RA MemoryDb _ db keys = Ok (Some (qs, vp_hint p, vp_comms p)) /\
  (@outside_domain RA 256 (fst (@mp_t RA RE HS (tr_new (lbl "vt"%string)) (map public_query qs) (mp_g (vp_proof p)))) ->
   (exists q, @create_verkle_proof RA RE HS RP (@VerkleDb RA) _ o2 v keys = Ok (Some q) /\ same_proof p q /\ @proof_write RA RE p = @proof_write RA RE q) \/
   (@create_verkle_proof RA RE HS RP (@VerkleDb RA) _ o2 v keys = Panic /\ @record_refused RA RC (vd_storage v))).
Proof.
  intros W Sp Nr E Em Hk O1 O2 C1. destruct (mem_pair _ db Em) as (d & F & R1).
  destruct (@disk_proof CA curve_laws CP coord_par_laws CC curve_codec_laws CE HS l W Sp Nr) as (v2 & d' & E2 & F' & _ & Same).
  assert (d' = d) by congruence. subst d'.
  pose proof (coord_disk rhash_is hash_is crs_is l) as X. rewrite E, E2 in X.
  assert (Y : exists o2', (forall l, Permutation (o2' l) l) /\
    rr (coord_refused (vd_storage v)) (fun o o' => o' = option_map el_vp o) (@create_verkle_proof RA RE HS RP (@VerkleDb RA) _ o2 v keys)
      (@create_verkle_proof CA CE HS CP (@VerkleDb CA) _ o2' v2 keys))
    by exact (coord_create _ _ (coord_sim (vd_storage v)) o2 v v2 keys O2 (conj eq_refl X)).
  destruct Y as (q2 & P2 & Y). rewrite (proj2 (Same q2 keys)) in Y.
  destruct (create_pair o1 db d keys p O1 R1 C1) as (q1 & P1 & K1).
  destruct (@same_contents_proof CA curve_laws CP coord_par_laws CE HS fits (contents l) (contents l) d d keys q1 q2 _ (contents_wf l W) (contents_wf l W) (fun _ => eq_refl) F F Hk P1 P2 K1)
    as (qs2 & Ep & Z).
  destruct (parts_pair o1 db d keys p R1 C1 _ _ _ Ep) as (qs & Eq & Et). exists qs. split; [exact Eq|]. intro O. rewrite Et in O.
  rewrite (Z O) in Y. destruct (@create_verkle_proof RA RE HS RP (@VerkleDb RA) _ o2 v keys) as [o|]; cbn [rr] in Y; [left|right; split; [reflexivity|exact Y]].
  destruct o as [q|]; [|discriminate]. cbn [option_map] in Y. assert (Sq : same_proof p q) by (apply same_proof_iff; congruence).
  exists q. split; [reflexivity|]. split; [exact Sq|now apply write_same_any].
Qed.
End Rep.
