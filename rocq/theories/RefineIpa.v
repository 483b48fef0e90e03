(** The inner-product and multipoint arguments, whole proofs and their bytes on a cover of the group. *)
From Coq Require Import String.
From Verif Require Import Base BaseFacts Alg TrieModel BTree CodecModel WireModel ProofModel IpaModel IpaSpec Refine RefineProof.
Local Open Scope list_scope.

Section Cover.
Context {A : Alg} {P : Par A} {C : ECodec A} {HS : Hasher}.
Context {H : Type} {hz : H} {ha : H -> H -> H} {ho : H -> H} {hm : F -> H -> H} {he : H -> H -> bool}.
Local Notation A1 := (cover A H hz ha ho hm he).
Context {P1 : Par A1} {C1 : ECodec A1}.
Variable phi : H -> G.
Hypothesis phi_zero : phi hz = gzero.
Hypothesis phi_add : forall x y, phi (ha x y) = gadd (phi x) (phi y).
Hypothesis phi_opp : forall x, phi (ho x) = gopp (phi x).
Hypothesis phi_mul : forall s x, phi (hm s x) = smul s (phi x).
Hypothesis phi_eqb : forall x y, he x y = geqb (phi x) (phi y).
Hypothesis phi_hash : forall x, @hash A1 P1 x = hash (phi x).
Hypothesis phi_crs : forall i, phi (@crs A1 P1 i) = crs i.
Hypothesis phi_crsQ : phi (@crsQ A1 P1) = crsQ.
Hypothesis phi_ser : forall x, @el_ser A1 C1 x = el_ser (phi x).
Hypothesis sc_same : forall x, @sc_ser A1 C1 x = @sc_ser A C x.

Local Notation pq_map := (@pq_map A H hz ha ho hm he phi).
Local Notation vq_map := (@vq_map A H hz ha ho hm he phi).
Local Notation mapped f := (fun a b => b = f a).

Lemma rr_eq {X} (a b : res X) : rr False eq a b -> a = b.
Proof. destruct a, b; cbn; intros; subst; auto; contradiction. Qed.

(** ** Transcript *)
Lemma cover_point tr l x : @append_point A1 C1 tr l x = append_point tr l (phi x).
Proof. unfold append_point. now rewrite phi_ser. Qed.
Lemma cover_scalar tr l x : @append_scalar A1 C1 tr l x = @append_scalar A C tr l x.
Proof. unfold append_scalar. now rewrite sc_same. Qed.
Lemma cover_challenge tr l : @challenge_scalar A1 C1 HS tr l = @challenge_scalar A C HS tr l.
Proof. unfold challenge_scalar. rewrite cover_scalar. reflexivity. Qed.

(** ** Combinations *)
Lemma cover_gdot s : forall p, phi (@gdot A1 s p) = @gdot A s (map phi p).
Proof.
  induction s as [|x s IH]; intros [|p ps]; cbn [gdot map]; try exact phi_zero.
  cbn [gadd smul cover]. now rewrite phi_add, phi_mul, IH.
Qed.
Lemma cover_msm s p : rr False (mapped phi) (@msm A1 s p) (@msm A s (map phi p)).
Proof.
  unfold msm. rewrite map_length. apply (rr_bind _ eq); [apply rr_same|]. intros _ _ _. apply rr_ok. symmetry. apply cover_gdot.
Qed.
Lemma cover_halve (l : list H) : halve (map phi l) = (map phi (fst (halve l)), map phi (snd (halve l))).
Proof. unfold halve. cbn [fst snd]. now rewrite map_length, firstn_map, skipn_map. Qed.
Lemma cover_gaxpy n c : forall l r, rr False (mapped (map phi)) (@gaxpy A1 n c l r) (@gaxpy A n c (map phi l) (map phi r)).
Proof.
  induction n as [|n IH]; intros l r; [destruct l; apply rr_ok; reflexivity|]. destruct l as [|x l], r as [|y r]; cbn [gaxpy map]; try exact I.
  apply (rr_bind _ _ _ _ _ _ _ (IH l r)). intros t ? ->. apply rr_ok. cbn [map gadd smul cover]. now rewrite phi_add, phi_mul.
Qed.

(** ** The inner-product argument *)
Definition crs_map (c : @CRS A1) : @CRS A := @mkCRS A (crs_n c) (map phi (crs_G c)) (phi (crs_Q c)).
Definition ipa_map (p : @IPAProof A1) : @IPAProof A := @mkIPA A (map phi (ipa_L p)) (map phi (ipa_R p)) (ipa_a p).
Definition mp_map (p : @MultiPointProof A1) : @MultiPointProof A := @mkMP A (ipa_map (mp_ipa p)) (phi (mp_g p)).
Definition vp_map (p : @VerkleProof A1) : @VerkleProof A := @mkVP A (vp_hint p) (map phi (vp_comms p)) (mp_map (vp_proof p)).

Lemma cover_rounds k : forall tr a b Gs Q,
  rr False (mapped (fun r => let '(Ls, Rs, a0, tr) := r in (map phi Ls, map phi Rs, a0, tr)))
    (@create_rounds A1 C1 HS k tr a b Gs Q) (@create_rounds A C HS k tr a b (map phi Gs) (phi Q)).
Proof.
  induction k as [|k IH]; intros tr a b Gs Q; cbn [create_rounds].
  - apply (rr_bind _ (@eq (@F A))); [apply (rr_same False)|]. intros a0 _ <-. apply rr_ok. reflexivity.
  - rewrite cover_halve. change (@halve (@G A1) Gs) with (@halve H Gs). change (@F A1) with (@F A). change (@G A1) with H.
    destruct (halve a) as [a_L a_R], (halve b) as [b_L b_R], (halve Gs) as [G_L G_R]. cbn [fst snd].
    change (phi Q) with (phi Q). change [phi Q] with (map phi [Q]). rewrite <- !map_app.
    apply (rr_bind _ _ _ _ _ _ _ (cover_msm _ _)). intros Lk ? ->. apply (rr_bind _ _ _ _ _ _ _ (cover_msm _ _)). intros Rk ? ->.
    rewrite !cover_point, cover_challenge. destruct (challenge_scalar _ _) as [x tr'].
    apply (rr_bind _ (@eq (@F A))); [apply (rr_same False)|]. intros xi _ <-.
    apply (rr_bind _ (@eq (list (@F A)))); [apply (rr_same False)|]. intros a' _ <-.
    apply (rr_bind _ (@eq (list (@F A)))); [apply (rr_same False)|]. intros b' _ <-.
    apply (rr_bind _ _ _ _ _ _ _ (cover_gaxpy _ _ _ _)). intros G' ? ->.
    apply (rr_bind _ _ _ _ _ _ _ (IH _ _ _ _ _)). intros [[[Ls Rs] a0] tr''] ? ->. apply rr_ok. reflexivity.
Qed.
Lemma cover_ipa_create tr crs a c b z :
  rr False (mapped (fun r => (ipa_map (fst r), snd r))) (@ipa_create A1 C1 HS tr crs a c b z) (@ipa_create A C HS tr (crs_map crs) a (phi c) b z).
Proof.
  unfold ipa_create. cbn [crs_map crs_n crs_G crs_Q]. rewrite map_length.
  apply (rr_bind _ eq); [apply (rr_same False)|]. intros _ _ _. apply (rr_bind _ eq); [apply (rr_same False)|]. intros _ _ _.
  apply (rr_bind _ eq); [apply (rr_same False)|]. intros _ _ _.
  rewrite cover_point, !cover_scalar, cover_challenge.
  change (@inner_product A1 a b) with (@inner_product A a b). destruct (challenge_scalar _ _) as [w tr'].
  replace (smul w (phi (crs_Q crs))) with (phi (@smul A1 w (crs_Q crs))) by apply phi_mul.
  apply (rr_bind _ _ _ _ _ _ _ (cover_rounds _ _ _ _ _ _)). intros [[[Ls Rs] a0] tr''] ? ->. apply rr_ok. reflexivity.
Qed.

Lemma cover_challenges Ls : forall tr Rs, @generate_challenges A1 C1 HS tr Ls Rs = generate_challenges tr (map phi Ls) (map phi Rs).
Proof.
  induction Ls as [|L Ls IH]; intros tr [|R Rs]; cbn [generate_challenges map]; try reflexivity.
  rewrite !cover_point, cover_challenge. change (@F A1) with (@F A). destruct (challenge_scalar _ _) as [x tr']. rewrite IH. reflexivity.
Qed.
Lemma cover_absorb tr c x y : @ipa_absorb A1 C1 HS tr c x y = ipa_absorb tr (phi c) x y.
Proof. unfold ipa_absorb. rewrite cover_point, !cover_scalar, cover_challenge. reflexivity. Qed.
Lemma cover_multiexp p tr crs b c x y :
  @ipa_verify_multiexp A1 C1 HS p tr crs b c x y = ipa_verify_multiexp (ipa_map p) tr (crs_map crs) b (phi c) x y.
Proof.
  unfold ipa_verify_multiexp. cbn [crs_map crs_n crs_G crs_Q ipa_map ipa_L ipa_R ipa_a]. rewrite map_length.
  destruct (negb _); [reflexivity|]. rewrite cover_absorb. change (@F A1) with (@F A). destruct (ipa_absorb _ _ _ _) as [w tr'].
  rewrite cover_challenges. destruct (generate_challenges _ _ _) as [xs tr''].
  apply rr_eq. apply (rr_bind _ (@eq (list (@F A)))); [apply (rr_same False)|]. intros b_i _ <-.
  change [phi c] with (map phi [c]). change [phi (crs_Q crs)] with (map phi [crs_Q crs]). rewrite <- !map_app.
  apply (rr_bind _ _ _ _ _ _ _ (cover_msm _ _)). intros g ? ->. apply rr_ok. rewrite <- phi_zero. apply phi_eqb.
Qed.

(** ** Polynomials *)
Definition lb_map (l : @LagrangeBasis A1) : @LagrangeBasis A := @mkLB A (lb_domain l) (lb_values l).
Definition pw_map (p : @PrecomputedWeights A1) : @PrecomputedWeights A := @mkPW A (pw_weights p) (pw_inverted p).
Lemma cover_weights n : rr False (mapped pw_map) (@precomputed_weights A1 n) (@precomputed_weights A n).
Proof.
  unfold precomputed_weights. apply (rr_bind _ (@eq (list (@F A)))); [apply (rr_same False)|]. intros wis _ <-.
  apply (rr_bind _ eq); [apply (rr_same False)|]. intros _ _ _.
  apply (rr_bind _ (@eq (list (@F A)))); [apply (rr_same False)|]. intros ks _ <-. apply rr_ok. reflexivity.
Qed.
Lemma cover_lb_add l r : lb_map (@lb_add A1 l r) = lb_add (lb_map l) (lb_map r).
Proof. unfold lb_add. cbn [lb_map lb_domain lb_values]. destruct (lb_domain l =? 0)%nat; [reflexivity|]. destruct (lb_domain r =? 0)%nat; reflexivity. Qed.
Lemma cover_lb_sum ls : forall l, lb_map (fold_left (@lb_add A1) ls l) = fold_left lb_add (map lb_map ls) (lb_map l).
Proof. induction ls as [|x ls IH]; intro l; [reflexivity|]. cbn [fold_left map]. rewrite IH, cover_lb_add. reflexivity. Qed.
Lemma cover_div_loop pw vs y i is : forall qi, @div_loop A1 pw vs y i is qi = @div_loop A (pw_map pw) vs y i is qi.
Proof.
  induction is as [|j is IH]; intro qi; cbn [div_loop]; [reflexivity|]. destruct (j =? i)%nat; [rewrite IH; reflexivity|].
  apply rr_eq. apply (rr_bind _ (@eq (@F A))); [apply (rr_same False)|]. intros den _ <-.
  apply (rr_bind _ (@eq (@F A))); [apply (rr_same False)|]. intros v _ <-.
  apply (rr_bind _ (@eq (@F A))); [apply (rr_same False)|]. intros ratio _ <-. rewrite IH. apply (rr_same False).
Qed.
Lemma cover_divide f pw i : rr False (mapped lb_map) (@divide_by_linear_vanishing A1 f pw i) (divide_by_linear_vanishing (lb_map f) (pw_map pw) i).
Proof.
  unfold divide_by_linear_vanishing. apply (rr_bind _ (@eq (@F A))); [apply (rr_same False)|]. intros y _ <-.
  rewrite cover_div_loop. apply (rr_bind _ (@eq (list (@F A) * @F A))); [apply (rr_same False)|]. intros [q qi] _ <-. apply rr_ok. reflexivity.
Qed.
Lemma cover_coefficients pw n z : @evaluate_lagrange_coefficients A1 pw n z = @evaluate_lagrange_coefficients A (pw_map pw) n z.
Proof. reflexivity. Qed.
Lemma cover_rmap {X1 X2 Y1 Y2} (fx : X1 -> X2) (fy : Y1 -> Y2) f g (l : list X1) : (forall x, rr False (mapped fy) (f x) (g (fx x))) ->
  rr False (mapped (map fy)) (rmap f l) (rmap g (map fx l)).
Proof.
  intro E. induction l as [|x l IH]; cbn [rmap map]; [apply rr_ok; reflexivity|]. apply (rr_bind _ _ _ _ _ _ _ (E x)). intros y ? ->.
  apply (rr_bind _ _ _ _ _ _ _ IH). intros r ? ->. apply rr_ok. reflexivity.
Qed.

(** ** The multipoint argument *)
Definition gr_map (g : @Group A1) : @Group A := (fst g, map (fun qc => (pq_map (fst qc), snd qc)) (snd g)).
Lemma cover_group_insert q c l : group_insert (pq_map q) c (map gr_map l) = map gr_map (@group_insert A1 q c l).
Proof.
  induction l as [|[z m] l IH]; cbn [group_insert map gr_map fst snd]; [reflexivity|].
  change (pq_point (pq_map q)) with (@pq_point A1 q). destruct (Z.eqb z (@pq_point A1 q)); cbn [map gr_map fst snd]; [|now rewrite IH].
  unfold gr_map at 2. cbn [fst snd]. now rewrite map_app.
Qed.
Definition groups {A0 : Alg} (qs : list (@ProverQuery A0)) (cs : list F) : list Group := fold_left (fun l '(q, c) => group_insert q c l) (combine qs cs) [].
Lemma cover_groups qs cs : groups (map pq_map qs) cs = map gr_map (@groups A1 qs cs).
Proof.
  unfold groups. change (@nil (@Group A)) with (map gr_map (@nil (@Group A1))). generalize (@nil (@Group A1)) as l. revert cs.
  induction qs as [|q qs IH]; intros [|c cs] l; cbn [combine map fold_left]; try reflexivity. rewrite cover_group_insert. apply IH.
Qed.
Lemma cover_aggregate n g : aggregate n (gr_map g) = (fst (@aggregate A1 n g), lb_map (snd (@aggregate A1 n g))).
Proof.
  unfold aggregate. cbn [gr_map fst snd]. f_equal.
  assert (X : forall l acc, fold_left (fun acc '(q, c) => zip_add acc (map (fun x => fmul x c) (pq_poly q))) (map (fun qc => (pq_map (fst qc), snd qc)) l) acc
    = fold_left (fun acc '(q, c) => @zip_add A1 acc (map (fun x => @fmul A1 x c) (@pq_poly A1 q))) l acc).
  { induction l as [|[q c] l IH]; intro acc; [reflexivity|]. cbn [map fold_left fst snd]. apply IH. }
  rewrite X. reflexivity.
Qed.
Lemma cover_commit c p : rr False (mapped phi) (@commit_lagrange_poly A1 c p) (commit_lagrange_poly (crs_map c) (lb_map p)).
Proof. apply cover_msm. Qed.
Lemma cover_absorb_query tr c z y : @absorb_query A1 C1 tr c z y = absorb_query tr (phi c) z y.
Proof. unfold absorb_query. rewrite cover_point, !cover_scalar. reflexivity. Qed.
Lemma cover_absorb_prover qs : forall tr,
  fold_left (fun tr q => @absorb_query A1 C1 tr (pq_comm q) (of_Z (pq_point q)) (pq_result q)) qs tr =
  fold_left (fun tr q => absorb_query tr (pq_comm q) (of_Z (pq_point q)) (pq_result q)) (map pq_map qs) tr.
Proof. induction qs as [|q qs IH]; intro tr; [reflexivity|]. cbn [fold_left map]. rewrite cover_absorb_query. apply IH. Qed.
Lemma cover_absorb_verifier qs : forall tr,
  fold_left (fun tr q => @absorb_query A1 C1 tr (vq_comm q) (vq_point q) (vq_result q)) qs tr =
  fold_left (fun tr q => absorb_query tr (vq_comm q) (vq_point q) (vq_result q)) (map vq_map qs) tr.
Proof. induction qs as [|q qs IH]; intro tr; [reflexivity|]. cbn [fold_left map]. rewrite cover_absorb_query. apply IH. Qed.
Lemma cover_t tr qs D : @mp_t A1 C1 HS tr qs D = @mp_t A C HS tr (map vq_map qs) (phi D).
Proof. unfold mp_t, mp_r. rewrite cover_absorb_verifier, !cover_challenge, cover_point. reflexivity. Qed.
Lemma cover_gsub x y : phi (@gsub A1 x y) = gsub (phi x) (phi y).
Proof. unfold gsub. cbn [gadd gopp cover]. now rewrite phi_add, phi_opp. Qed.

(** The groups [MultiPoint::open] makes of the queries, which the hash map puts in some order. *)
Definition open_groups {A0 : Alg} {C0 : ECodec A0} (tr : Transcript) (qs : list (@ProverQuery A0)) : list (@Group A0) :=
  groups qs (powers_of (fst (challenge_scalar
    (fold_left (fun tr q => absorb_query tr (pq_comm q) (of_Z (pq_point q)) (pq_result q)) qs (domain_sep tr (lbl "multiproof"%string))) (lbl "r"%string))) (List.length qs)).
Lemma cover_open (o1 : list (@Group A1) -> list (@Group A1)) (o2 : list (@Group A) -> list (@Group A)) crs pw tr qs :
  o2 (map gr_map (open_groups tr qs)) = map gr_map (o1 (open_groups tr qs)) ->
  rr False (mapped (fun r => (mp_map (fst r), snd r))) (@mp_open A1 C1 HS o1 crs pw tr qs) (mp_open o2 (crs_map crs) (pw_map pw) tr (map pq_map qs)).
Proof.
  intro O. unfold mp_open, open_groups in *. rewrite cover_absorb_prover, cover_challenge in *. rewrite map_length. destruct (challenge_scalar _ _) as [r tr1]. cbn [fst] in O.
  change (@powers_of A1) with (@powers_of A) in *.
  unfold group_prover_queries. fold (groups (map pq_map qs) (powers_of r (List.length qs))). fold (@groups A1 qs (powers_of r (List.length qs))).
  rewrite cover_groups, O. set (gs := o1 (groups qs (powers_of r (List.length qs)))).
  assert (Ag : map (aggregate (crs_n (crs_map crs))) (map gr_map gs) = map (fun zf => (fst zf, lb_map (snd zf))) (map (@aggregate A1 (crs_n crs)) gs)).
  { rewrite !map_map. apply map_ext. intro g. apply cover_aggregate. }
  rewrite Ag. set (ag := map (@aggregate A1 (crs_n crs)) gs).
  apply (rr_bind _ (mapped (map lb_map))). { apply cover_rmap. intros [z f]. cbn [fst snd]. apply cover_divide. } intros quot ? ->.
  change (@lb_zero A) with (lb_map (@lb_zero A1)). rewrite <- cover_lb_sum.
  apply (rr_bind _ _ _ _ _ _ _ (cover_commit _ _)). intros gc ? ->. rewrite cover_point, cover_challenge. destruct (challenge_scalar _ _) as [t tr2].
  assert (Te : forall ds, map (fun '((_, f), d) => lb_new (map (fun x => fmul d x) (lb_values f))) (combine (map (fun zf => (fst zf, lb_map (snd zf))) ag) ds)
    = map lb_map (map (fun '((_, f), d) => @lb_new A1 (map (fun x => @fmul A1 d x) (lb_values f))) (combine ag ds))).
  { induction ag as [|[z f] ag' IHa]; intros [|d ds]; cbn [combine map]; try reflexivity. cbn [fst snd]. rewrite IHa. reflexivity. }
  assert (De : map (fun '(z, _) => fsub t (of_Z z)) (map (fun zf => (fst zf, lb_map (snd zf))) ag) = map (fun '(z, _) => @fsub A1 t (of_Z z)) ag).
  { rewrite map_map. apply map_ext. now intros [z f]. }
  rewrite De, Te. rewrite <- cover_lb_sum. change (@batch_inversion A1) with (@batch_inversion A).
  apply (rr_bind _ _ _ _ _ _ _ (cover_commit _ _)). intros g1 ? ->. rewrite cover_point, <- cover_gsub.
  unfold open_point_outside_of_domain. rewrite cover_coefficients. cbn [crs_map crs_n].
  apply (rr_bind _ (mapped (fun r => (ipa_map (fst r), snd r)))).
  - apply (rr_bind _ (@eq (list (@F A)))); [apply (rr_same False)|]. intros b _ <-. exact (cover_ipa_create _ crs _ _ b t).
  - intros [ipa tr'] ? ->. apply rr_ok. reflexivity.
Qed.

Lemma cover_check p crs pw qs tr :
  @mp_check A1 C1 HS p crs pw qs tr = mp_check (mp_map p) (crs_map crs) (pw_map pw) (map vq_map qs) tr.
Proof.
  unfold mp_check. rewrite cover_absorb_verifier, cover_challenge, map_length. change (@F A1) with (@F A). destruct (challenge_scalar _ _) as [r tr1].
  rewrite cover_point, cover_challenge. cbn [mp_map mp_g mp_ipa]. destruct (challenge_scalar _ _) as [t tr2].
  rewrite !map_map. change (@powers_of A1) with (@powers_of A). change (@batch_inversion A1) with (@batch_inversion A).
  change (map (fun x => fsub t (vq_point (vq_map x))) qs) with (map (fun q => @fsub A1 t (@vq_point A1 q)) qs).
  change (map (fun x => vq_result (vq_map x)) qs) with (map (@vq_result A1) qs).
  change (map (fun x => vq_comm (vq_map x)) qs) with (map (fun x => phi (@vq_comm A1 x)) qs). rewrite <- (map_map (@vq_comm A1) phi).
  apply rr_eq. apply (rr_bind _ _ _ _ _ _ _ (cover_msm _ _)). intros g ? ->.
  rewrite cover_point, <- cover_gsub, cover_coefficients. cbn [crs_map crs_n].
  apply (rr_bind _ (@eq (list (@F A)))); [apply (rr_same False)|]. intros b _ <-. rewrite cover_multiexp. apply (rr_same False).
Qed.

(** ** Whole proofs *)
Lemma cover_trie_crs : @trie_crs A P = crs_map (@trie_crs A1 P1).
Proof.
  unfold trie_crs, crs_map. cbn [crs_n crs_G crs_Q]. rewrite map_map, phi_crsQ. f_equal. apply map_ext. intro i. symmetry. apply phi_crs.
Qed.
Lemma cover_proof_check p keys values root :
  proof_check (vp_map p) keys values (phi root) = ok_map (fun r => (fst r, option_map (@uh_map A H hz ha ho hm he phi) (snd r))) (@proof_check A1 C1 HS P1 p keys values root).
Proof.
  unfold proof_check. cbn [vp_map vp_hint vp_comms vp_proof].
  rewrite (@cover_verifier A P H hz ha ho hm he P1 phi phi_hash).
  destruct (@create_verifier_queries A1 P1 (vp_hint p) (vp_comms p) keys values root) as [[[qs uh]|]|]; cbn [ok_map option_map rbind fst snd]; try reflexivity.
  pose proof (cover_weights 256) as X. destruct (@precomputed_weights A1 256) as [pw|], (@precomputed_weights A 256) as [pw'|]; cbn [rr] in X; try contradiction; [subst pw'|reflexivity].
  cbn [rbind]. rewrite cover_trie_crs, <- cover_check.
  destruct (@mp_check A1 C1 HS (vp_proof p) _ pw qs _); reflexivity.
Qed.

Section Db.
Context {S1 S2 : Type} {D1 : @DbOps A1 S1} {D2 : @DbOps A S2}.
Variable R : S1 -> S2 -> Prop.
Variable weak : Prop.
Hypothesis DS : @DbSim A H hz ha ho hm he phi S1 S2 D1 D2 R weak.
Lemma cover_create_proof o1 o2 v1 v2 keys : R v1 v2 ->
  (forall qs hint comms, @create_proof_parts A1 S1 D1 v1 keys = Ok (Some (qs, hint, comms)) ->
     o2 (map gr_map (open_groups (tr_new (lbl "vt"%string)) qs)) = map gr_map (o1 (open_groups (tr_new (lbl "vt"%string)) qs))) ->
  rr weak (mapped (option_map vp_map)) (@create_verkle_proof A1 C1 HS P1 S1 D1 o1 v1 keys) (@create_verkle_proof A C HS P S2 D2 o2 v2 keys).
Proof.
  intros HR O. unfold create_verkle_proof.
  pose proof (@cover_parts A H hz ha ho hm he phi phi_eqb S1 S2 D1 D2 R weak DS v1 v2 HR keys) as X.
  destruct (@create_proof_parts A1 S1 D1 v1 keys) as [x|], (create_proof_parts v2 keys) as [y|]; cbn [rr] in X; try contradiction; [subst y|cbn [rbind]|exact I].
  2: { match goal with |- rr weak _ Panic ?b => destruct b; cbn [rr]; [exact X|exact I] end. }
  destruct x as [[[qs hint] comms]|]; cbn [rbind parts_map option_map fst snd]; [|apply rr_ok; reflexivity].
  specialize (O _ _ _ eq_refl).
  apply (rr_bind _ (mapped pw_map)). { apply (rr_mono False weak _ _ _ _ (False_ind _) (fun _ _ E => E)). apply cover_weights. } intros pw ? ->.
  rewrite cover_trie_crs.
  apply (rr_bind _ (mapped (fun r => (mp_map (fst r), snd r)))). { apply (rr_mono False weak _ _ _ _ (False_ind _) (fun _ _ E => E)). apply cover_open. exact O. }
  intros [mp tr] ? ->. apply rr_ok. reflexivity.
Qed.
End Db.

(** ** Bytes *)
Lemma cover_sers (l : list H) : concat (map el_ser (map phi l)) = concat (map (@el_ser A1 C1) l).
Proof. rewrite map_map. f_equal. apply map_ext. intro x. symmetry. apply phi_ser. Qed.
Lemma cover_write p : proof_write (vp_map p) = @proof_write A1 C1 p.
Proof.
  unfold proof_write, mp_to_bytes, ipa_to_bytes. cbn [vp_map vp_hint vp_comms vp_proof mp_map mp_g mp_ipa ipa_map ipa_L ipa_R ipa_a].
  rewrite map_length, !cover_sers, phi_ser, sc_same. reflexivity.
Qed.
Section Read.
Hypothesis phi_de : forall b, el_de b = option_map phi (@el_de A1 C1 b).
Hypothesis sc_de_same : forall b, @sc_de A1 C1 b = @sc_de A C b.
Lemma qbind_rr {X1 X2 Y1 Y2} (fx : X1 -> X2) (fy : Y1 -> Y2) (a : option X1) f g :
  (forall x, rr False (mapped (option_map fy)) (f x) (g (fx x))) -> rr False (mapped (option_map fy)) (qbind a f) (qbind (option_map fx a) g).
Proof. intro E. destruct a; cbn [option_map qbind]; [apply E|apply rr_ok; reflexivity]. Qed.
Lemma cover_read_points n : forall b, rr False (mapped (option_map (fun r => (map phi (fst r), snd r)))) (@read_points A1 C1 n b) (read_points n b).
Proof.
  induction n as [|n IH]; intro b; cbn [read_points]; [apply rr_ok; reflexivity|]. apply (rr_bind _ eq); [apply (rr_same False)|]. intros c _ <-.
  rewrite phi_de. apply qbind_rr. intro p. apply (rr_bind _ _ _ _ _ _ _ (IH (skipn 32 b))). intros r ? ->. apply qbind_rr. intros [ps b']. apply rr_ok. reflexivity.
Qed.
Lemma cover_ipa_read b n : rr False (mapped (option_map ipa_map)) (@ipa_from_bytes A1 C1 b n) (ipa_from_bytes b n).
Proof.
  unfold ipa_from_bytes. apply (rr_bind _ eq); [apply (rr_same False)|]. intros _ _ _. apply (rr_bind _ eq); [apply (rr_same False)|]. intros _ _ _.
  apply (rr_bind _ _ _ _ _ _ _ (cover_read_points _ b)). intros l ? ->. apply qbind_rr. intros [L b1]. cbn [fst snd].
  apply (rr_bind _ _ _ _ _ _ _ (cover_read_points _ b1)). intros r ? ->. apply qbind_rr. intros [R b2]. cbn [fst snd].
  apply (rr_bind _ eq); [apply (rr_same False)|]. intros last _ <-. rewrite sc_de_same. destruct (sc_de last); apply rr_ok; reflexivity.
Qed.
Lemma cover_mp_read b n : rr False (mapped (option_map mp_map)) (@mp_from_bytes A1 C1 b n) (mp_from_bytes b n).
Proof.
  unfold mp_from_bytes. apply (rr_bind _ eq); [apply (rr_same False)|]. intros gb _ <-. apply (rr_bind _ eq); [apply (rr_same False)|]. intros ib _ <-.
  rewrite phi_de. apply qbind_rr. intro g. apply (rr_bind _ _ _ _ _ _ _ (cover_ipa_read ib n)). intros o ? ->. apply qbind_rr. intro q. apply rr_ok. reflexivity.
Qed.
Lemma cover_read_comms n : forall b, read_comms n b = option_map (fun r => (map phi (fst r), snd r)) (@read_comms A1 C1 n b).
Proof.
  induction n as [|n IH]; intro b; cbn [read_comms]; [reflexivity|]. destruct (read_exact 32 b) as [[c r]|]; [|reflexivity].
  rewrite phi_de. destruct (@el_de A1 C1 c); cbn [option_map]; [|reflexivity]. rewrite IH. destruct (@read_comms A1 C1 n r) as [[ps r']|]; reflexivity.
Qed.
Lemma cover_read b : proof_read b = ok_map (option_map vp_map) (@proof_read A1 C1 b).
Proof.
  apply ok_rr. unfold proof_read. apply (rr_bind _ eq); [apply (rr_same False)|]. intros h _ <-. destruct h as [[hint b1]|]; cbn [qbind]; [|apply rr_ok; reflexivity].
  destruct (read_u32 b1) as [[n b2]|]; cbn [qbind]; [|apply rr_ok; reflexivity]. rewrite cover_read_comms. apply qbind_rr. intros [cs b3]. cbn [fst snd].
  apply (rr_bind _ _ _ _ _ _ _ (cover_mp_read b3 256)). intros o ? ->. apply qbind_rr. intro p. apply rr_ok. reflexivity.
Qed.
End Read.
End Cover.
