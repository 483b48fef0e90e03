(** The proof functions of the interface on a cover of the group (see [Refine]). *)
From Coq Require Import String.
From Verif Require Import Base BaseFacts Alg TrieModel CodecModel MsmModel WireModel ProofModel IpaModel FfiModel FfiProofs BindModel Refine RefineProof RefineIpa.
Local Open Scope list_scope.
Local Open Scope Z_scope.

Section Cover.
Context {A : Alg} {P : Par A} {C : ECodec A} {HS : Hasher}.
Context {H : Type} {hz : H} {ha : H -> H -> H} {ho : H -> H} {hm : F -> H -> H} {he : H -> H -> bool}.
Local Notation A1 := (cover A H hz ha ho hm he).
Context {P1 : Par A1} {C1 : ECodec A1}.
Variable phi : H -> G.
Hypothesis phi_zero : phi hz = gzero.
Hypothesis phi_add : forall x y, phi (ha x y) = gadd (phi x) (phi y).
Hypothesis phi_opp : forall x, phi (ho x) = gopp (phi x).
Hypothesis phi_mul : forall s x, phi (hm s x) = smul s (phi x).
Hypothesis phi_eqb : forall x y, he x y = geqb (phi x) (phi y).
Hypothesis phi_ser : forall x, @el_ser A1 C1 x = el_ser (phi x).
Hypothesis sc_same : forall x, @sc_ser A1 C1 x = @sc_ser A C x.
Hypothesis phi_de : forall b, el_de b = option_map phi (@el_de A1 C1 b).
Hypothesis sc_de_same : forall b, @sc_de A1 C1 b = @sc_de A C b.
Local Notation pq_map := (@pq_map A H hz ha ho hm he phi).
Local Notation vq_map := (@vq_map A H hz ha ho hm he phi).
Local Notation mp_map := (@mp_map A H hz ha ho hm he phi).
Local Notation gr_map := (@gr_map A H hz ha ho hm he phi).
Local Notation mapped f := (fun a b => b = f a).

Lemma cover_take b : rr False (mapped (fun r => (phi (fst r), snd r))) (@take_group_element A1 C1 b) ((@take_group_element A C) b).
Proof.
  unfold take_group_element. apply (rr_bind _ eq); [apply (rr_same False)|]. intros c _ <-. apply (rr_bind _ _ _ _ _ _ _ (rr_unwrap False phi _ _ (phi_de c))). intros g ? ->.
  apply (rr_bind _ eq); [apply (rr_same False)|]. intros r _ <-. reflexivity.
Qed.
Lemma cover_scalar b : @take_scalar A1 C1 b = (@take_scalar A C) b.
Proof. unfold take_scalar. destruct (slice 0 32 b); [|reflexivity]. cbn [rbind]. now rewrite sc_de_same. Qed.
Lemma cover_scalars n : forall b, @take_scalars A1 C1 n b = (@take_scalars A C) n b.
Proof.
  induction n as [|n IH]; intro b; [reflexivity|]. cbn [take_scalars]. rewrite cover_scalar. change (@F A1) with (@F A). destruct ((@take_scalar A C) b) as [[x r]|]; [|reflexivity]. cbn [rbind]. now rewrite IH.
Qed.
Lemma cover_pq b : rr False (mapped pq_map) (@deserialize_proof_query A1 C1 b) ((@deserialize_proof_query A C) b).
Proof.
  unfold deserialize_proof_query, proof_query_with. apply (rr_bind _ _ _ _ _ _ _ (cover_take b)). intros [g b1] ? ->. cbn [fst snd]. rewrite cover_scalars.
  apply (rr_bind _ eq); [apply (rr_same False)|]. intros [poly b2] _ <-. apply (rr_bind _ eq); [apply (rr_same False)|]. intros [z b3] _ <-. rewrite cover_scalar.
  apply (rr_bind _ eq); [apply (rr_same False)|]. intros [y b4] _ <-. apply (rr_bind _ eq); [apply (rr_same False)|]. intros _ _ _. reflexivity.
Qed.
Lemma cover_vq b : rr False (mapped vq_map) (@deserialize_verifier_query A1 C1 b) ((@deserialize_verifier_query A C) b).
Proof.
  unfold deserialize_verifier_query, verifier_query_with. apply (rr_bind _ _ _ _ _ _ _ (cover_take b)). intros [g b1] ? ->. cbn [fst snd].
  apply (rr_bind _ eq); [apply (rr_same False)|]. intros [z b3] _ <-. rewrite cover_scalar.
  apply (rr_bind _ eq); [apply (rr_same False)|]. intros [y b4] _ <-. apply (rr_bind _ eq); [apply (rr_same False)|]. intros _ _ _. reflexivity.
Qed.
Lemma rmap_id_fx {X Y1 Y2} (fy : Y1 -> Y2) (f : X -> res Y1) g (l : list X) : (forall x, rr False (mapped fy) (f x) (g x)) -> rr False (mapped (map fy)) (rmap f l) (rmap g l).
Proof. intro E. pose proof (cover_rmap (fun x : X => x) fy f g l E) as R. now rewrite map_id in R. Qed.
Lemma cover_mp_bytes p : (@mp_to_bytes A C) (mp_map p) = @mp_to_bytes A1 C1 p.
Proof.
  unfold mp_to_bytes, ipa_to_bytes. cbn [RefineIpa.mp_map mp_g mp_ipa ipa_map ipa_L ipa_R ipa_a].
  assert (S : forall l : list H, concat (map el_ser (map phi l)) = concat (map (@el_ser A1 C1) l)) by (intro l; rewrite map_map; f_equal; apply map_ext; intro; symmetry; apply phi_ser).
  rewrite !S, phi_ser, sc_same. reflexivity.
Qed.

Variables (cx1 : @Context_ A1) (cx : @Context_ A).
Hypothesis crs_same : cx_crs cx = crs_map phi (cx_crs cx1).
Hypothesis pw_same : cx_pw cx = @pw_map A H hz ha ho hm he (cx_pw cx1).

Lemma cover_ffi_verify input : @ffi_verify_proof A1 C1 HS cx1 input = @ffi_verify_proof A C HS cx input.
Proof.
  assert (E : rr False eq (@ffi_verify_proof A1 C1 HS cx1 input) (@ffi_verify_proof A C HS cx input)).
  2:{ destruct (@ffi_verify_proof A1 C1 HS cx1 input), (@ffi_verify_proof A C HS cx input); cbn [rr] in E; try contradiction; [now rewrite E|reflexivity]. }
  unfold ffi_verify_proof. apply (rr_bind _ eq); [apply (rr_same False)|]. intros pb _ <-. apply (rr_bind _ _ _ _ _ _ _ (cover_mp_read phi phi_de sc_de_same pb 256)).
  intros o ? ->. apply (rr_bind _ _ _ _ _ _ _ (rr_unwrap False mp_map o _ eq_refl)). intros p ? ->. apply (rr_bind _ eq); [apply (rr_same False)|]. intros qb _ <-.
  destruct (negb _); [reflexivity|]. apply (rr_bind _ _ _ _ _ _ _ (rmap_id_fx vq_map _ _ _ cover_vq)). intros qs ? ->.
  rewrite crs_same, pw_same. rewrite (@cover_check A C HS H hz ha ho hm he C1 phi phi_zero phi_add phi_opp phi_mul phi_eqb phi_ser sc_same p (cx_crs cx1) (cx_pw cx1) qs _).
  apply (rr_bind _ eq); [apply (rr_same False)|]. intros ok _ <-. reflexivity.
Qed.
Lemma cover_ffi_create o1 o2 input :
  (forall qs, rmap (@deserialize_proof_query A1 C1) (chunks_exact PROOF_CHUNK input) = Ok qs ->
     o2 (map gr_map (open_groups (tr_new (lbl "verkle")) qs)) = map gr_map (o1 (open_groups (tr_new (lbl "verkle")) qs))) ->
  @ffi_create_proof A1 C1 HS o1 cx1 input = @ffi_create_proof A C HS o2 cx input.
Proof.
  intro O. assert (E : rr False eq (@ffi_create_proof A1 C1 HS o1 cx1 input) (@ffi_create_proof A C HS o2 cx input)).
  2:{ destruct (@ffi_create_proof A1 C1 HS o1 cx1 input), (@ffi_create_proof A C HS o2 cx input); cbn [rr] in E; try contradiction; [now rewrite E|reflexivity]. }
  unfold ffi_create_proof. destruct (negb _); [reflexivity|].
  pose proof (rmap_id_fx pq_map _ _ (chunks_exact PROOF_CHUNK input) cover_pq) as R.
  destruct (rmap (@deserialize_proof_query A1 C1) (chunks_exact PROOF_CHUNK input)) as [qs|], (rmap (@deserialize_proof_query A C) (chunks_exact PROOF_CHUNK input)) as [qs'|]; cbn [rr] in R; try contradiction; [|exact Logic.I].
  subst qs'. cbn [rbind]. specialize (O qs eq_refl). rewrite crs_same, pw_same.
  apply (rr_bind _ _ _ _ _ _ _ (@cover_open A C HS H hz ha ho hm he C1 phi phi_zero phi_add phi_opp phi_mul phi_ser sc_same o1 o2 (cx_crs cx1) (cx_pw cx1) _ qs O)).
  intros [p tr'] ? ->. cbn [fst snd rr]. now rewrite cover_mp_bytes.
Qed.
Lemma cover_c_verify input : @c_verify_proof A1 C1 HS cx1 input = @c_verify_proof A C HS cx input.
Proof.
  assert (E : rr False eq (@c_verify_proof A1 C1 HS cx1 input) (@c_verify_proof A C HS cx input)).
  2:{ destruct (@c_verify_proof A1 C1 HS cx1 input), (@c_verify_proof A C HS cx input); cbn [rr] in E; try contradiction; [now rewrite E|reflexivity]. }
  unfold c_verify_proof, c_verify_with. apply (rr_bind _ eq); [apply (rr_same False)|]. intros pb _ <-. apply (rr_bind _ eq); [apply (rr_same False)|]. intros qb _ <-.
  apply (rr_bind _ eq); [apply (rr_same False)|]. intros _ _ _. apply (rr_bind _ _ _ _ _ _ _ (rmap_id_fx vq_map _ _ _ cover_vq)). intros qs ? ->.
  apply (rr_bind _ _ _ _ _ _ _ (cover_mp_read phi phi_de sc_de_same pb 256)).
  intros o ? ->. apply (rr_bind _ _ _ _ _ _ _ (rr_unwrap False mp_map o _ eq_refl)). intros p ? ->.
  rewrite crs_same, pw_same. rewrite (@cover_check A C HS H hz ha ho hm he C1 phi phi_zero phi_add phi_opp phi_mul phi_eqb phi_ser sc_same p (cx_crs cx1) (cx_pw cx1) qs _).
  apply (rr_same False).
Qed.
Lemma cover_c_create o1 o2 input :
  (forall qs, rmap (@deserialize_proof_query A1 C1) (chunks_exact PROOF_CHUNK input) = Ok qs ->
     o2 (map gr_map (open_groups (tr_new (lbl "verkle")) qs)) = map gr_map (o1 (open_groups (tr_new (lbl "verkle")) qs))) ->
  @c_create_proof A1 C1 HS o1 cx1 input = @c_create_proof A C HS o2 cx input.
Proof.
  intro O. assert (E : rr False eq (@c_create_proof A1 C1 HS o1 cx1 input) (@c_create_proof A C HS o2 cx input)).
  2:{ destruct (@c_create_proof A1 C1 HS o1 cx1 input), (@c_create_proof A C HS o2 cx input); cbn [rr] in E; try contradiction; [now rewrite E|reflexivity]. }
  unfold c_create_proof, c_create_with. apply (rr_bind _ eq); [apply (rr_same False)|]. intros _ _ _. unfold PROOF_CHUNK in O.
  pose proof (rmap_id_fx pq_map _ _ (chunks_exact (Z.to_nat 8257) input) cover_pq) as R.
  destruct (rmap (@deserialize_proof_query A1 C1) (chunks_exact (Z.to_nat 8257) input)) as [qs|], (rmap (@deserialize_proof_query A C) (chunks_exact (Z.to_nat 8257) input)) as [qs'|]; cbn [rr] in R; try contradiction; [|exact Logic.I].
  subst qs'. cbn [rbind]. specialize (O qs eq_refl). rewrite crs_same, pw_same.
  apply (rr_bind _ _ _ _ _ _ _ (@cover_open A C HS H hz ha ho hm he C1 phi phi_zero phi_add phi_opp phi_mul phi_ser sc_same o1 o2 (cx_crs cx1) (cx_pw cx1) _ qs O)).
  intros [p tr'] ? ->. cbn [fst snd]. rewrite cover_mp_bytes. apply (rr_same False).
Qed.
End Cover.
