(** Proofs about the C and Java bindings. *)
From Coq Require Import String Permutation.
From Verif Require Import Base BaseFacts Alg AlgFacts CodecModel BTree WireModel WireSpec WireProofs ProofModel IpaModel IpaSpec LagrangeSpec IpaProofs
  LagrangeProofs IpaTheorems MsmModel MsmSpec MsmProofs FfiModel FfiSpec FfiProofs SpecModel LayoutSpec LayoutProofs GoModel GoSpec GoProofs BindModel BindSpec.
Local Open Scope list_scope.

Section Bind.
Context {A : Alg} {L : AlgLaws A} {C : ECodec A} {CL : ECodecLaws C} {P : Par A}
        {I : FrInt A} {IL : FrIntLaws I} {W : Wnaf A} {WL : WnafLaws W} {H : Hasher}.
Notation Gs := (crs_G trie_crs).

(** ** C *)
Lemma open_size cx order qs p s : context_new = Ok cx -> mp_open order (cx_crs cx) (cx_pw cx) (tr_new (lbl "verkle")) qs = Ok (p, s) ->
  rounds (mp_ipa p) 8.
Proof.
  intros Hc E. apply context_inv in Hc as (E1 & _ & _). rewrite E1 in E. apply open_rounds in E. rewrite Gs_len in E. exact E.
Qed.

Lemma c_create_agrees cx order input : context_new = Ok cx ->
  c_create_proof order cx input =
  match ffi_create_proof order cx input with Ok (FOk out) => Ok out | _ => Panic end.
Proof.
  intro Hc. unfold c_create_proof, c_create_with, no_remainder, ffi_create_proof, PROOF_CHUNK.
  destruct (Z.of_nat (len input) mod 8257 =? 0); [|reflexivity]. cbn [assertb rbind negb].
  destruct (rmap deserialize_proof_query _) as [qs|]; [|reflexivity]. cbn [rbind].
  destruct (mp_open order (cx_crs cx) (cx_pw cx) (tr_new (lbl "verkle")) qs) as [[p s]|] eqn:E; [|reflexivity]. cbn [rbind].
  rewrite (mp_bytes_len p 8 (open_size _ _ _ _ _ Hc E)). reflexivity.
Qed.

Lemma c_verify_agrees cx input :
  c_verify_proof cx input =
  match ffi_verify_proof cx input with
  | Ok (FOk _) => Ok true
  | Ok (FErr_ ProofVerificationFailed) => Ok false
  | _ => Panic
  end.
Proof.
  unfold c_verify_proof, c_verify_with, no_remainder, ffi_verify_proof.
  destruct (slice 0 576 input) as [pb|] eqn:E1; [|reflexivity]. cbn [rbind].
  destruct (slice_from 576 input) as [vb|] eqn:E2.
  2:{ cbn [rbind]. destruct (mp_from_bytes pb 256) as [[p|]|]; reflexivity. }
  cbn [rbind]. change (Z.to_nat 65) with 65%nat.
  destruct (Z.of_nat (len vb) mod 65 =? 0) eqn:M.
  - cbn [assertb rbind negb]. destruct (rmap deserialize_verifier_query (chunks_exact 65 vb)) as [qs|] eqn:Q; cbn [rbind].
    + destruct (mp_from_bytes pb 256) as [[p|]|]; try reflexivity. cbn [unwrap rbind].
      destruct (mp_check p (cx_crs cx) (cx_pw cx) qs (tr_new (lbl "verkle"))) as [[|]|]; reflexivity.
    + destruct (mp_from_bytes pb 256) as [[p|]|]; reflexivity.
  - cbn [assertb rbind negb]. destruct (mp_from_bytes pb 256) as [[p|]|]; reflexivity.
Qed.

Lemma prover_ulen q : record_fits q -> Z.of_nat (len (prover_record_uncompressed q)) = 8289.
Proof.
  intros [F1 F2]. unfold prover_record_uncompressed. rewrite !app_length, eu_len, sc_len, scalars_len, F1. cbn [len]. lia.
Qed.
Lemma verifier_ulen c z y : len (verifier_record_uncompressed c z y) = 97%nat.
Proof. unfold verifier_record_uncompressed. rewrite !app_length, eu_len, sc_len. reflexivity. Qed.

Lemma c_create_u_parse order cx qs : context_new = Ok cx -> Forall record_fits qs ->
  c_create_proof_uncompressed order cx (concat (map prover_record_uncompressed qs)) =
  (let! (p, _) := mp_open order (cx_crs cx) (cx_pw cx) (tr_new (lbl "verkle")) qs in Ok (mp_to_bytes_uncompressed p)).
Proof.
  intros Hc HF. unfold c_create_proof_uncompressed, c_create_with, no_remainder.
  set (k := Z.to_nat 8289). assert (PC : (0 < k)%nat) by (unfold k; lia).
  assert (HL : Forall (fun b => len b = k) (map prover_record_uncompressed qs)).
  { rewrite Forall_forall in *. intros b Hb. apply in_map_iff in Hb as (q & <- & Hq). pose proof (prover_ulen q (HF q Hq)). unfold k. lia. }
  replace (Z.of_nat (len (concat (map prover_record_uncompressed qs))) mod 8289 =? 0) with true.
  2:{ symmetry. replace 8289 with (Z.of_nat k) by (unfold k; lia). apply mod_multiple; [exact PC|]. rewrite (concat_len k) by exact HL. eauto. }
  cbn [assertb rbind]. rewrite chunks_concat by assumption.
  rewrite (rmap_ok deserialize_proof_query_uncompressed prover_record_uncompressed (fun q => q)).
  2:{ intros q Hq. apply pqu_ok. rewrite Forall_forall in HF. now apply HF. }
  rewrite map_id. cbn [rbind].
  destruct (mp_open order (cx_crs cx) (cx_pw cx) (tr_new (lbl "verkle")) qs) as [[p s]|] eqn:E; [|reflexivity]. cbn [rbind].
  rewrite (mp_ubytes_len p 8 (open_size _ _ _ _ _ Hc E)). reflexivity.
Qed.

Lemma c_verify_u_parse cx p cs : rounds (mp_ipa p) 8 ->
  c_verify_proof_uncompressed cx (mp_to_bytes_uncompressed p ++ concat (map claim_record_uncompressed cs)) =
  mp_check p (cx_crs cx) (cx_pw cx) (map claim_query cs) (tr_new (lbl "verkle")).
Proof.
  intro HR. unfold c_verify_proof_uncompressed, c_verify_with, no_remainder.
  assert (Lp : len (mp_to_bytes_uncompressed p) = 1120%nat) by (rewrite (mp_ubytes_len p 8 HR); reflexivity).
  rewrite slice_app by exact Lp. cbn [rbind]. rewrite slice_from_app by exact Lp. cbn [rbind].
  assert (HF : Forall (fun b => len b = 97%nat) (map claim_record_uncompressed cs)).
  { apply Forall_forall. intros b Hb. apply in_map_iff in Hb as (x & <- & _). apply verifier_ulen. }
  replace (Z.of_nat (len (concat (map claim_record_uncompressed cs))) mod 97 =? 0) with true.
  2:{ symmetry. apply (mod_multiple 97); [lia|]. rewrite (concat_len 97) by exact HF. eauto. }
  cbn [assertb rbind]. change (Z.to_nat 97) with 97%nat. rewrite chunks_concat by (try exact HF; lia).
  rewrite (rmap_ok deserialize_verifier_query_uncompressed claim_record_uncompressed claim_query) by (intros; apply vqu_ok).
  cbn [rbind]. replace 256%nat with (2 ^ 8)%nat by reflexivity.
  rewrite mp_urt; [reflexivity|rewrite log2_up_pow; exact HR|rewrite log2_up_pow; lia].
Qed.

Lemma c_end_to_end cx order qs : context_new = Ok cx -> domain_fits 256 -> (forall l, Permutation (order l) l) ->
  qs <> [] -> Forall record_fits qs -> Forall (good_query 256 Gs) qs ->
  outside_domain 256 (mp_honest_t 256 verkle_tr trie_crs qs) ->
  Forall (fun x => x <> fzero) (mp_honest_challenges 8 verkle_tr trie_crs qs) ->
  (exists out, c_create_proof order cx (concat (map prover_record qs)) = Ok out /\ len out = 576%nat /\
     c_verify_proof cx (out ++ concat (map claim_record (map claim_of qs))) = Ok true) /\
  (exists out, c_create_proof_uncompressed order cx (concat (map prover_record_uncompressed qs)) = Ok out /\ len out = 1120%nat /\
     c_verify_proof_uncompressed cx (out ++ concat (map claim_record_uncompressed (map claim_of qs))) = Ok true).
Proof.
  intros Hc D Ho Hne Hf Hg Ht Hx. split.
  - destruct (end_to_end cx order qs Hc D Ho Hne Hf Hg Ht) as [M _]. destruct (M Hx) as (out & E1 & E2 & E3). exists out.
    rewrite (c_create_agrees _ _ _ Hc), E1, c_verify_agrees, E3. auto.
  - rewrite c_create_u_parse by assumption. pose proof Hc as Hc'. apply context_inv in Hc' as (E1 & E2 & E3).
    destruct (multi_theorem 256 8 (cx_pw cx) trie_crs D eq_refl eq_refl Gs_len E3 order verkle_tr qs Ho Hne Hg Ht) as [M1 _].
    change (tr_new (lbl "verkle")) with verkle_tr. destruct (M1 Hx) as (p & s & Eo & Ck). rewrite E1, Eo. cbn [rbind].
    exists (mp_to_bytes_uncompressed p). split; [reflexivity|].
    assert (HR : rounds (mp_ipa p) 8) by (rewrite <- E1 in Eo; exact (open_size _ _ _ _ _ Hc Eo)).
    split; [rewrite (mp_ubytes_len p 8 HR); reflexivity|]. rewrite c_verify_u_parse by exact HR. rewrite map_map, E1.
    rewrite (map_ext (fun q => claim_query (claim_of q)) public_query) by reflexivity. exact Ck.
Qed.

(** [multi_scalar_mul] *)
Lemma combination_firstn (v : list F) gs : combination v gs = combination (firstn (len gs) v) gs.
Proof.
  revert v. induction gs as [|g gs IH]; intros v; cbn [len firstn]; [now destruct v|]. destruct v as [|x v]; [reflexivity|].
  unfold combination in *. cbn [firstn combine map gsum fold_right]. f_equal. exact (IH v).
Qed.
Lemma chunks_app k l r : (0 < k)%nat -> Forall (fun b => len b = k) l -> (len r < k)%nat -> chunks_exact k (concat l ++ r) = l.
Proof.
  intros Hk F Hr. induction F as [|b l Hb F IH]; cbn [concat].
  - now apply chunks_nil.
  - rewrite <- app_assoc, chunks_cons by assumption. now rewrite IH.
Qed.
Lemma c_msm_ok split cx v r : context_new = Ok cx -> (len r < 32)%nat ->
  c_multi_scalar_mul split cx (scalars_bytes v ++ r) = Ok (el_ser (combination (firstn 256 v) Gs)).
Proof.
  intros Hc Hr. apply context_inv in Hc as (E1 & E2 & E3). unfold c_multi_scalar_mul, scalars_bytes.
  rewrite chunks_app; [|lia| |exact Hr].
  2:{ apply Forall_forall. intros b Hb. apply in_map_iff in Hb as (x & <- & _). apply sc_len. }
  rewrite (rmap_ok _ sc_ser (fun x => x)).
  2:{ intros x _. unfold fr_from_le_bytes. now rewrite sc_rt. }
  rewrite map_id. cbn [rbind]. rewrite (commit_lagrange_ok Gs _ E2). cbn [rbind].
  rewrite (combination_firstn v Gs), Gs_len. reflexivity.
Qed.
Lemma c_msm_bad split cx b : Exists (fun c => sc_de c = None) (chunks_exact 32 b) -> c_multi_scalar_mul split cx b = Panic.
Proof.
  intro E. unfold c_multi_scalar_mul.
  assert (X : rmap (fun b => match fr_from_le_bytes b with FOk x => Ok x | FErr_ _ => Panic end) (chunks_exact 32 b) = Panic).
  { apply rmap_panic. clear - E. induction E as [c l Hc|c l _ IH]; [left; unfold fr_from_le_bytes; now rewrite Hc|right; exact IH]. }
  now rewrite X.
Qed.
Lemma c_pedersen split cx a t : context_new = Ok cx -> len a = 32%nat -> len t = 32%nat ->
  c_pedersen_hash split (Some cx) (Some a) (Some t) true =
    Ok (Some (sc_ser (hash (combination (map of_Z (hash_input (a ++ t) 4)) Gs)))) /\
  (forall ctx a t out, ctx = None \/ a = None \/ t = None \/ out = false -> c_pedersen_hash split ctx a t out = Ok None).
Proof.
  intros Hc La Lt. split.
  - apply context_inv in Hc as (_ & E2 & _). unfold c_pedersen_hash, get_tree_key_hash, get_tree_key_hash_flat_input.
    rewrite (hash64_ok Gs) by (try exact E2; rewrite app_length; lia). reflexivity.
  - intros ctx a' t' out B. destruct ctx, a', t', out; try reflexivity.
    destruct B as [B|[B|[B|B]]]; discriminate.
Qed.

(** ** Java *)
Lemma sc_concat_mod v : (len (scalars_bytes v) mod 32 =? 0)%nat = true.
Proof. apply Nat.eqb_eq. rewrite scalars_len. apply Nat.mod_mul. lia. Qed.
Lemma j_commit_ok split cx v : context_new = Ok cx -> (len v <= 256)%nat ->
  j_commit split cx (Some (scalars_bytes v)) = Ok (JOk (eu_ser (combination v Gs))) /\
  j_commit_as_compressed split cx (Some (scalars_bytes v)) = Ok (JOk (el_ser (combination v Gs))).
Proof.
  intros Hc Hv. unfold j_commit, j_commit_as_compressed, parse_scalars. rewrite sc_concat_mod. cbn [jtry].
  rewrite (commit_ok split cx v Hc Hv). cbn [rbind jtry_f]. unfold serialize_commitment. rewrite eu_rt. split; reflexivity.
Qed.
Lemma j_commit_total split cx b : context_new = Ok cx ->
  match b with None => True | Some b => is_bytes b end ->
  (forall v, (len v <= 256)%nat -> b <> Some (scalars_bytes v)) ->
  j_commit split cx b = Ok JThrow /\ j_commit_as_compressed split cx b = Ok JThrow.
Proof.
  intros Hc Hb Hn. unfold j_commit, j_commit_as_compressed, parse_scalars. destruct b as [b|]; [|split; reflexivity].
  destruct (len b mod 32 =? 0)%nat; [|split; reflexivity]. cbn [jtry].
  destruct (commit_total split cx b Hc Hb) as [(v & Lv & -> & _)|(_ & e & E & _)]; [exfalso; exact (Hn v Lv eq_refl)|].
  rewrite E. split; reflexivity.
Qed.

Lemma scalars_chunks_ser v : chunks_exact 32 (scalars_bytes v) = map sc_ser v.
Proof. apply scalars_chunks. Qed.
Lemma j_sparse_ok cx split v c old l : context_new = Ok cx ->
  commit_to_scalars split cx (scalars_bytes v) = Ok (FOk c) -> len old = 64%nat -> eu_de old = eu_de c -> changes_of v l ->
  exists out, (forall split', j_commit split' cx (Some (scalars_bytes (replace_all v l))) = Ok (JOk out)) /\
    forall l', Permutation l l' ->
      j_update_sparse cx (Some old) (Some (map (fun c => Z.of_nat (ch_index c)) l'))
        (Some (scalars_bytes (map ch_old l'))) (Some (scalars_bytes (map ch_new l'))) = Ok (JOk out).
Proof.
  intros Hc E Lo Eo Ch. destruct (sparse_theorem cx split v c old l Hc E Eo Ch) as (out & K1 & K2). exists out. split.
  - intro split'. unfold j_commit, parse_scalars. rewrite sc_concat_mod. cbn [jtry]. rewrite K1. reflexivity.
  - intros l' Hp. unfold j_update_sparse, parse_commitment, parse_indices, parse_scalars. rewrite Lo, !sc_concat_mod. cbn [Nat.eqb jtry option_map].
    rewrite !scalars_chunks_ser, !map_map.
    rewrite (map_ext (fun x => Z.to_nat (Z.of_nat (ch_index x))) ch_index) by (intro; apply Nat2Z.id).
    rewrite (K2 l' Hp). reflexivity.
Qed.

Lemma chunks_eu gs : chunks_exact 64 (concat (map eu_ser gs)) = map eu_ser gs /\ (len (concat (map eu_ser gs)) mod 64 =? 0)%nat = true.
Proof.
  assert (F : Forall (fun b => len b = 64%nat) (map eu_ser gs)).
  { apply Forall_forall. intros b Hb. apply in_map_iff in Hb as (g & <- & _). apply eu_len. }
  split; [apply chunks_concat; [lia|exact F]|]. apply Nat.eqb_eq. rewrite (concat_len 64) by exact F. apply Nat.mod_mul. lia.
Qed.
Lemma j_many_ok gs :
  j_compress_many (Some (concat (map eu_ser gs))) = Ok (JOk (concat (map el_ser gs))) /\
  j_hash_many (Some (concat (map eu_ser gs))) = Ok (JOk (concat (map (fun g => sc_ser (hash g)) gs))).
Proof.
  unfold j_compress_many, j_hash_many, parse_commitments. destruct (chunks_eu gs) as [E1 E2]. rewrite E2. cbn [jtry]. rewrite E1.
  rewrite (rmap_ok serialize_commitment eu_ser el_ser) by (intros; unfold serialize_commitment; now rewrite eu_rt).
  rewrite (rmap_ok hash_commitment_ eu_ser (fun g => sc_ser (hash g))) by (intros; unfold hash_commitment_; now rewrite eu_rt).
  split; reflexivity.
Qed.
Lemma j_one_ok g h :
  j_compress (Some (eu_ser g)) = Ok (JOk (el_ser g)) /\ j_hash (Some (eu_ser g)) = Ok (JOk (sc_ser (hash g))) /\
  j_add_commitment (Some (eu_ser g)) (Some (eu_ser h)) = Ok (JOk (eu_ser (gadd g h))).
Proof.
  unfold j_compress, j_hash, j_add_commitment, parse_commitment. rewrite !eu_len. cbn [Nat.eqb jtry].
  unfold serialize_commitment, hash_commitment_, add_commitment. rewrite !eu_rt. split; [reflexivity|split; reflexivity].
Qed.
(** The same up to the choice of coordinates. *)
Lemma j_commit_same split cx v : context_new = Ok cx -> (len v <= 256)%nat ->
  (exists out, j_commit split cx (Some (scalars_bytes v)) = Ok (JOk out) /\ eu_de out = Some (combination v Gs)) /\
  j_commit_as_compressed split cx (Some (scalars_bytes v)) = Ok (JOk (el_ser (combination v Gs))).
Proof. intros Hc Hv. destruct (j_commit_ok split cx v Hc Hv) as [E1 E2]. split; [|exact E2]. eexists. split; [exact E1|apply eu_rt]. Qed.
Lemma j_sparse_same cx split v c old l : context_new = Ok cx ->
  commit_to_scalars split cx (scalars_bytes v) = Ok (FOk c) -> len old = 64%nat -> same_commitment old c -> changes_of v l ->
  forall l', Permutation l l' -> exists out,
    j_update_sparse cx (Some old) (Some (map (fun c => Z.of_nat (ch_index c)) l'))
      (Some (scalars_bytes (map ch_old l'))) (Some (scalars_bytes (map ch_new l'))) = Ok (JOk out) /\
    forall split', exists c', j_commit split' cx (Some (scalars_bytes (replace_all v l))) = Ok (JOk c') /\ same_commitment out c'.
Proof.
  intros Hc Hv Hlen (g & O1 & O2) Hl l' Hp. destruct (j_sparse_ok cx split v c old l Hc Hv Hlen ltac:(congruence) Hl) as (out & K1 & K2).
  exists out. split; [now apply K2|]. intro sp. exists out. split; [apply K1|].
  specialize (K1 Whole). unfold j_commit, parse_scalars in K1. rewrite sc_concat_mod in K1. cbn [jtry] in K1.
  destruct (commit_to_scalars Whole cx (scalars_bytes (replace_all v l))) as [[o|e]|] eqn:E; cbn [rbind jtry_f] in K1; [|discriminate K1|discriminate K1].
  injection K1 as ->. eapply commit_some; eassumption.
Qed.
Lemma j_one_same a b g h : len a = 64%nat -> len b = 64%nat -> eu_de a = Some g -> eu_de b = Some h ->
  j_compress (Some a) = Ok (JOk (el_ser g)) /\ j_hash (Some a) = Ok (JOk (sc_ser (hash g))) /\
  exists out, j_add_commitment (Some a) (Some b) = Ok (JOk out) /\ eu_de out = Some (gadd g h).
Proof.
  intros La Lb Ea Eb. unfold j_compress, j_hash, j_add_commitment, parse_commitment. rewrite La, Lb. cbn [Nat.eqb jtry].
  unfold serialize_commitment, hash_commitment_, add_commitment. rewrite Ea, Eb. cbn [unwrap rbind].
  split; [reflexivity|split; [reflexivity|]]. eexists. split; [reflexivity|apply eu_rt].
Qed.
Lemma j_many_same bs gs : Forall2 (fun b g => len b = 64%nat /\ eu_de b = Some g) bs gs ->
  j_compress_many (Some (concat bs)) = Ok (JOk (concat (map el_ser gs))) /\
  j_hash_many (Some (concat bs)) = Ok (JOk (concat (map (fun g => sc_ser (hash g)) gs))).
Proof.
  intro HF. assert (Fb : Forall (fun b => len b = 64%nat) bs) by (induction HF as [|b g bs gs [? ?] HF IH]; constructor; assumption).
  unfold j_compress_many, j_hash_many, parse_commitments.
  replace (len (concat bs) mod 64 =? 0)%nat with true by (symmetry; apply Nat.eqb_eq; rewrite (concat_len 64) by exact Fb; apply Nat.mod_mul; lia).
  cbn [jtry]. rewrite chunks_concat by (try exact Fb; lia).
  assert (E1 : rmap serialize_commitment bs = Ok (map el_ser gs)).
  { clear Fb. induction HF as [|b g bs gs [Lb E] HF IH]; [reflexivity|]. cbn [rmap map]. unfold serialize_commitment at 1. rewrite E. cbn [unwrap rbind]. now rewrite IH. }
  assert (E2 : rmap hash_commitment_ bs = Ok (map (fun g => sc_ser (hash g)) gs)).
  { clear Fb E1. induction HF as [|b g bs gs [Lb E] HF IH]; [reflexivity|]. cbn [rmap map]. unfold hash_commitment_ at 1. rewrite E. cbn [unwrap rbind]. now rewrite IH. }
  rewrite E1, E2. split; reflexivity.
Qed.
Lemma parse_c o : not_size 64 o -> parse_commitment o = None.
Proof. intro N. destruct o as [b|]; [|reflexivity]. cbn. destruct (Nat.eqb_spec (len b) 64); [|reflexivity]. exfalso. eapply N; eauto. Qed.
Lemma parse_cs o : not_multiple 64 o -> parse_commitments o = None.
Proof. intro N. destruct o as [b|]; [|reflexivity]. unfold parse_commitments. destruct (Nat.eqb_spec (len b mod 64) 0) as [E|E]; [|reflexivity]. exfalso. eapply N; eauto. Qed.
Lemma parse_s o : not_multiple 32 o -> parse_scalars o = None.
Proof. intro N. destruct o as [b|]; [|reflexivity]. unfold parse_scalars. destruct (Nat.eqb_spec (len b mod 32) 0) as [E|E]; [|reflexivity]. exfalso. eapply N; eauto. Qed.
Lemma j_sizes cx :
  (forall c, not_size 64 c -> j_compress c = Ok JThrow /\ j_hash c = Ok JThrow) /\
  (forall cs, not_multiple 64 cs -> j_compress_many cs = Ok JThrow /\ j_hash_many cs = Ok JThrow) /\
  (forall a b, not_size 64 a \/ not_size 64 b -> j_add_commitment a b = Ok JThrow) /\
  (forall c i o n, not_size 64 c \/ i = None \/ not_multiple 32 o \/ not_multiple 32 n -> j_update_sparse cx c i o n = Ok JThrow).
Proof.
  split; [|split; [|split]].
  - intros c N. unfold j_compress, j_hash. rewrite parse_c by exact N. split; reflexivity.
  - intros c N. unfold j_compress_many, j_hash_many. rewrite parse_cs by exact N. split; reflexivity.
  - intros a b [N|N]; unfold j_add_commitment; rewrite (parse_c _ N); [reflexivity|]. now destruct (parse_commitment a).
  - intros c i o n [N|[N|[N|N]]]; unfold j_update_sparse.
    + now rewrite (parse_c _ N).
    + subst i. now destruct (parse_commitment c).
    + rewrite (parse_s _ N). destruct (parse_commitment c), (parse_indices i); reflexivity.
    + rewrite (parse_s _ N). destruct (parse_commitment c), (parse_indices i), (parse_scalars o); reflexivity.
Qed.
Lemma j_undecodable b : len b = 64%nat -> eu_de b = None ->
  j_compress (Some b) = Panic /\ j_hash (Some b) = Panic /\ (forall c, len c = 64%nat -> j_add_commitment (Some b) (Some c) = Panic).
Proof.
  intros Lb E. unfold j_compress, j_hash, j_add_commitment, parse_commitment. rewrite Lb. cbn [Nat.eqb jtry].
  unfold serialize_commitment, hash_commitment_, add_commitment. rewrite E. split; [reflexivity|]. split; [reflexivity|].
  intros c Lc. rewrite Lc. reflexivity.
Qed.
Lemma j_sparse_bad cx old g i is_ o os n ns : len old = 64%nat -> eu_de old = Some g ->
  len o = 32%nat -> len n = 32%nat -> (len os mod 32 = 0)%nat -> (len ns mod 32 = 0)%nat ->
  sc_de o = None \/ sc_de n = None ->
  j_update_sparse cx (Some old) (Some (i :: is_)) (Some (o ++ os)) (Some (n ++ ns)) = Panic.
Proof.
  intros Lo Eo L1 L2 M1 M2 B. unfold j_update_sparse, parse_commitment, parse_indices, parse_scalars.
  rewrite Lo. cbn [Nat.eqb jtry option_map map]. rewrite !app_length, L1, L2.
  replace ((32 + len os) mod 32)%nat with 0%nat by (rewrite Nat.add_mod, M1 by lia; reflexivity).
  replace ((32 + len ns) mod 32)%nat with 0%nat by (rewrite Nat.add_mod, M2 by lia; reflexivity).
  cbn [Nat.eqb jtry]. rewrite !chunks_cons by (assumption || lia).
  unfold update_commitment_sparse. rewrite Eo. cbn [unwrap rbind sparse_deltas].
  unfold fr_from_le_bytes. cbn. destruct B as [B|B]; rewrite B; [|destruct (sc_de o)]; reflexivity.
Qed.

(** *** verifyPreStateRoot *)
Lemma j_2d_list l : j_2d (java_list l) = Ok l.
Proof. unfold j_2d, java_list. cbn [unwrap rbind]. rewrite (rmap_ok unwrap Some (fun b => b)) by reflexivity. now rewrite map_id. Qed.
Lemma j_2d_inv a l : j_2d a = Ok l -> a = java_list l.
Proof.
  unfold j_2d, java_list. destruct a as [m|]; [|discriminate]. cbn [unwrap rbind]. intro E. f_equal. revert l E.
  induction m as [|o m IH]; intros l E; cbn [rmap] in E; [inversion E; reflexivity|].
  destruct o as [b|]; [|discriminate]. cbn [unwrap rbind] in E. apply rbind_ok in E as (l' & E1 & E). inversion E; subst.
  cbn [map]. f_equal. now apply IH.
Qed.
Lemma j_keys_list ks : forall vs i, (i + len ks <= len vs)%nat -> forall pre, len pre = i -> Forall (fun k => len k = 32%nat) ks ->
  j_keys (java_list (pre ++ ks)) (java_list vs) i (len ks) = Ok (Some (ks, map java_read (firstn (len ks) (skipn i vs)))).
Proof.
  induction ks as [|k ks IH]; intros vs i Hl pre Hp F; cbn [len j_keys firstn map]; [reflexivity|].
  inversion F; subst. unfold get_array, get_optional_array. rewrite !j_2d_list. cbn [rbind].
  rewrite nth_error_app2, Nat.sub_diag by lia. cbn [nth_error]. rewrite H2, Nat.eqb_refl. cbn [qbind].
  cbn [len] in Hl. destruct (nth_error vs (len pre)) as [v|] eqn:Ev.
  2:{ apply nth_error_None in Ev. lia. }
  cbn [option_map qbind].
  replace (pre ++ k :: ks) with ((pre ++ [k]) ++ ks) by (now rewrite <- app_assoc).
  rewrite (IH vs (S (len pre))); [|lia|rewrite app_length; cbn; lia|assumption]. cbn [rbind qbind].
  assert (X : skipn (len pre) vs = v :: skipn (S (len pre)) vs).
  { clear - Ev. revert vs Ev. induction (len pre) as [|n IH]; intros [|w vs] E; try discriminate; cbn in *; [congruence|]. rewrite IH by exact E. reflexivity. }
  rewrite X. cbn [map firstn]. unfold java_read at 3. reflexivity.
Qed.
Lemma java_read_value o : match o with None => True | Some v => len v = 32%nat end -> java_read (match o with None => [] | Some v => v end) = o.
Proof. destruct o as [v|]; [|reflexivity]. unfold java_read. intros ->. reflexivity. Qed.
Lemma forallb_ser {X} n (f : X -> bytes) (Hf : forall x, len (f x) = n) l : forallb (fun b => (len b =? n)%nat) (map f l) = true.
Proof. induction l as [|x l IH]; [reflexivity|]. cbn. now rewrite Hf, Nat.eqb_refl. Qed.
Lemma j_elements_rt gs : j_elements (java_list (map el_ser gs)) = Ok (Some gs).
Proof. unfold j_elements. rewrite j_2d_list. cbn [rbind]. rewrite forallb_ser by apply el_len. now rewrite elements_rt. Qed.

Lemma j_status_ok b e d : j_status b = (e, d) <-> java_status_means b e d.
Proof.
  unfold j_status, java_status_means, status_means, bad_status.
  replace (Z.land b 3) with (b mod 4) by (change 3 with (Z.ones 2); rewrite Z.land_ones by lia; reflexivity).
  replace (Z.shiftr b 3) with (b / 8) by (rewrite Z.shiftr_div_pow2 by lia; reflexivity). cbn zeta.
  pose proof (Z.mod_pos_bound b 4 ltac:(lia)) as B.
  destruct (Z.eqb_spec (b mod 4) 0); [|destruct (Z.eqb_spec (b mod 4) 1); [|destruct (Z.eqb_spec (b mod 4) 2)]]; split; intro E.
  all: try (inversion E; subst; clear E; first [left; split; [assumption|reflexivity]|right; split; [lia|split; reflexivity]]).
  all: destruct E as [[E1 E2]|(E1 & E2 & E3)]; subst; try lia; try reflexivity; destruct e; try lia; reflexivity.
Qed.
Lemma j_verify_ok p keys values more r :
  hint_fits (vp_hint p) ->
  Forall (fun k => len k = 32%nat) keys -> len values = len keys ->
  Forall (fun o => match o with None => True | Some v => len v = 32%nat end) values ->
  j_verify_pre_state_root (java_list keys) (Some (map java_value values ++ map Some more))
    (java_list (map el_ser (vp_comms p)))
    (java_list (map el_ser (ipa_L (mp_ipa (vp_proof p))))) (java_list (map el_ser (ipa_R (mp_ipa (vp_proof p)))))
    (java_list (vh_diff (vp_hint p))) (Some (el_ser (mp_g (vp_proof p))))
    (Some (map (fun '(d, e) => 8 * d + ext_code e) (combine (vh_depths (vp_hint p)) (vh_ext (vp_hint p)))))
    (Some (rev (sc_ser (ipa_a (mp_ipa (vp_proof p)))))) (Some (el_ser r))
  = (let! (ok, _) := proof_check p keys values r in Ok ok).
Proof.
  intros HF HK HL HV. unfold j_verify_pre_state_root.
  assert (X : forall o, o = Some (p, keys, values, r) ->
    (match o with None => Ok false | Some (vp, keys, values, root) => let! (ok, _) := proof_check vp keys values root in Ok ok end)
    = (let! (ok, _) := proof_check p keys values r in Ok ok)) by (intros o ->; reflexivity).
  assert (Y : forall x y o (f : option (VerkleProof * list bytes * list (option bytes) * G) -> res bool), x = Ok o -> f o = y -> rbind x f = y) by (intros x y o f -> ; auto).
  eapply Y; [|apply X; reflexivity]. clear X Y.
  destruct p as [[ds es df] cm [[Ls Rs a] g]]. destruct HF as [H1 H2 H3 H4 H5 H6].
  cbn [vp_hint vp_comms vp_proof vh_depths vh_ext vh_diff mp_ipa mp_g ipa_L ipa_R ipa_a] in *.
  unfold j_decode. unfold java_list at 1. cbn [qbind]. rewrite map_length.
  replace (Some (map java_value values ++ map Some more)) with (java_list (map (fun o => match o with None => [] | Some v => v end) values ++ more))
    by (unfold java_list; rewrite map_app, map_map; reflexivity).
  rewrite (j_keys_list keys _ 0) with (pre := []); [|rewrite app_length, map_length; lia|reflexivity|exact HK].
  cbn [rbind qbind skipn]. rewrite <- HL. rewrite firstn_app, map_length, Nat.sub_diag. cbn [firstn]. rewrite app_nil_r.
  rewrite firstn_all2 by (rewrite map_length; lia).
  assert (EV : map java_read (map (fun o => match o with None => [] | Some v => v end) values) = values).
  { rewrite map_map, <- map_id. apply map_ext_in. intros o Ho. apply java_read_value. rewrite Forall_forall in HV. now apply HV. }
  rewrite EV.
  rewrite !j_elements_rt. cbn [rbind qbind]. unfold j_fixed. rewrite !el_len, rev_length, sc_len. cbn [Nat.eqb qbind].
  unfold j_scalar. rewrite rev_involutive, sc_rt. cbn [qbind]. rewrite !el_rt. cbn [qbind].
  unfold j_stems. rewrite j_2d_list. cbn [rbind].
  replace (forallb (fun b => (len b =? 31)%nat) df) with true.
  2:{ symmetry. apply forallb_forall. intros b Hb. rewrite Forall_forall in H3. apply Nat.eqb_eq. now apply H3. }
  cbn [qbind]. change (fold_left (fun s x => set_insert x s) df []) with (set_of df). rewrite set_of_sorted by assumption.
  assert (E : map j_status (map (fun '(d, e) => 8 * d + ext_code e) (combine ds es)) = combine es ds).
  { clear - H1. revert es H1. induction ds as [|d ds IH]; intros [|e es] Hl; try discriminate; [reflexivity|]. cbn [combine map]. rewrite IH by (cbn in Hl; lia).
    f_equal. apply j_status_ok. left. unfold status_means. rewrite ext_code_mod, ext_code_div. destruct e; auto. }
  rewrite E.
  assert (X : map fst (combine es ds) = es /\ map snd (combine es ds) = ds).
  { clear - H1. revert ds H1. induction es as [|e es IH]; intros [|d ds] Hl; try discriminate; [split; reflexivity|].
    cbn in *. destruct (IH ds) as [-> ->]; [lia|]. auto. }
  destruct X as [-> ->]. reflexivity.
Qed.

(** What an accepted call said. *)
Lemma j_keys_inv sk cv n : forall i ks vs, j_keys sk cv i n = Ok (Some (ks, vs)) ->
  (n <> 0%nat -> exists a, sk = java_list a) /\
    (n <> 0%nat -> exists b, cv = java_list b) /\
    forall a b, sk = java_list a -> cv = java_list b ->
    ks = firstn n (skipn i a) /\ vs = map java_read (firstn n (skipn i b)) /\ Forall (fun k => len k = 32%nat) ks /\
    len ks = n /\ len vs = n.
Proof.
  induction n as [|n IH]; intros i ks vs E; cbn [j_keys] in E.
  { inversion E; subst. split; [tauto|]. split; [tauto|]. intros. cbn. auto. }
  apply rbind_ok in E as (k & E1 & E). destruct k as [k|]; [|discriminate]. cbn [qbind] in E.
  apply rbind_ok in E as (v & E2 & E). destruct v as [v|]; [|discriminate]. cbn [qbind] in E.
  apply rbind_ok in E as (r & E3 & E). destruct r as [[ks' vs']|]; [|discriminate]. cbn [qbind] in E. inversion E; subst. clear E.
  unfold get_array in E1. apply rbind_ok in E1 as (a & Ea & E1). apply j_2d_inv in Ea. subst sk.
  unfold get_optional_array in E2. apply rbind_ok in E2 as (b & Eb & E2). apply j_2d_inv in Eb. subst cv.
  split; [eauto|]. split; [eauto|]. intros a' b' Ha Hb.
  assert (INJ : forall x y, java_list x = java_list y -> x = y).
  { unfold java_list. intros x y E. inversion E as [E']. clear - E'. revert y E'. induction x as [|z x IHx]; intros [|w y] E; try discriminate; [reflexivity|].
    cbn in E. inversion E. f_equal. now apply IHx. }
  apply INJ in Ha, Hb. subst a' b'.
  destruct (IH _ _ _ E3) as (_ & _ & K). destruct (K a b eq_refl eq_refl) as (-> & -> & F & L1 & L2).
  destruct (nth_error a i) as [k'|] eqn:Na; [|discriminate]. destruct (Nat.eqb_spec (len k') 32) as [Lk|]; [|discriminate]. inversion E1; subst k'.
  destruct (nth_error b i) as [v'|] eqn:Nb; [|discriminate]. cbn [option_map] in E2. inversion E2; subst v.
  assert (X : forall (l : list bytes) x, nth_error l i = Some x -> skipn i l = x :: skipn (S i) l).
  { clear. intros l. revert l. induction i as [|i IH]; intros [|w l] x E; try discriminate; cbn in *; [congruence|]. rewrite (IH l x E). reflexivity. }
  rewrite (X a k Na), (X b v' Nb). cbn [firstn map len]. split; [reflexivity|]. split; [reflexivity|]. split; [constructor; assumption|]. cbn [len] in *. lia.
Qed.

Lemma j_elements_inv a gs : j_elements a = Ok (Some gs) -> exists l, a = java_list l /\ Forall (fun b => len b = 32%nat) l /\ Forall2 (fun b g => el_de b = Some g) l gs.
Proof.
  unfold j_elements. intro E. apply rbind_ok in E as (l & El & E). apply j_2d_inv in El. exists l. split; [exact El|].
  destruct (forallb (fun b => (len b =? 32)%nat) l) eqn:B; [|discriminate]. inversion E as [E']. split; [|now apply elements_some].
  apply Forall_forall. intros b Hb. rewrite forallb_forall in B. apply B in Hb. now apply Nat.eqb_eq.
Qed.
Lemma j_fixed_inv o b : j_fixed o = Some b -> o = Some b /\ len b = 32%nat.
Proof. destruct o as [c|]; [|discriminate]. cbn. destruct (Nat.eqb_spec (len c) 32); [|discriminate]. intro E. inversion E; subst. auto. Qed.

Lemma j_accept sk cv cp cl cr os d dp fe root : j_verify_pre_state_root sk cv cp cl cr os d dp fe root = Ok true ->
  exists keys vals comms ls rs stems db dps feb rb p r uh,
    sk = java_list keys /\ (keys <> [] -> cv = java_list vals) /\ (len keys <= len vals)%nat /\ Forall (fun k => len k = 32%nat) keys /\
    cp = java_list comms /\ cl = java_list ls /\ cr = java_list rs /\ os = java_list stems /\
    d = Some db /\ dp = Some dps /\ fe = Some feb /\ root = Some rb /\
    Forall (fun b => len b = 32%nat) (comms ++ ls ++ rs ++ [db; feb; rb]) /\ Forall (fun b => len b = 31%nat) stems /\
    Forall2 (fun b g => el_de b = Some g) comms (vp_comms p) /\
    Forall2 (fun b g => el_de b = Some g) ls (ipa_L (mp_ipa (vp_proof p))) /\
    Forall2 (fun b g => el_de b = Some g) rs (ipa_R (mp_ipa (vp_proof p))) /\
    el_de db = Some (mp_g (vp_proof p)) /\ sc_de (rev feb) = Some (ipa_a (mp_ipa (vp_proof p))) /\ el_de rb = Some r /\
    len (vh_ext (vp_hint p)) = len dps /\ len (vh_depths (vp_hint p)) = len dps /\
    Forall2 (fun b ed => java_status_means b (fst ed) (snd ed)) dps (combine (vh_ext (vp_hint p)) (vh_depths (vp_hint p))) /\
    sorted (vh_diff (vp_hint p)) /\ (forall s, In s (vh_diff (vp_hint p)) <-> In s stems) /\
    proof_check p keys (map java_read (firstn (len keys) vals)) r = Ok (true, uh).
Proof.
  intro E. unfold j_verify_pre_state_root in E. apply rbind_ok in E as (o & E & Ck). destruct o as [[[[p keys] values] r]|]; [|discriminate].
  apply rbind_ok in Ck as ([ok uh] & Ck & Eq). inversion Eq; subst ok. clear Eq.
  unfold j_decode in E. destruct sk as [skl|]; [|discriminate]. cbn [qbind] in E.
  apply rbind_ok in E as (kv & E1 & E). destruct kv as [[ks vs]|]; [|discriminate]. cbn [qbind] in E.
  apply rbind_ok in E as (o1 & E2 & E). destruct o1 as [cm|]; [|discriminate]. cbn [qbind] in E.
  apply rbind_ok in E as (o2 & E3 & E). destruct o2 as [lv|]; [|discriminate]. cbn [qbind] in E.
  apply rbind_ok in E as (o3 & E4 & E). destruct o3 as [rv|]; [|discriminate]. cbn [qbind] in E.
  destruct (j_fixed d) as [db|] eqn:E5; [|discriminate]. cbn [qbind] in E.
  destruct (j_fixed fe) as [feb|] eqn:E6; [|discriminate]. cbn [qbind] in E.
  destruct (j_scalar feb) as [a|] eqn:E7; [|discriminate]. cbn [qbind] in E.
  destruct (el_de db) as [g|] eqn:E8; [|discriminate]. cbn [qbind] in E.
  destruct dp as [dps|]; [|discriminate]. cbn [qbind] in E. cbn zeta in E.
  apply rbind_ok in E as (o4 & E9 & E). destruct o4 as [st|]; [|discriminate]. cbn [qbind] in E.
  destruct (j_fixed root) as [rb|] eqn:E10; [|discriminate]. cbn [qbind] in E.
  destruct (el_de rb) as [r'|] eqn:E11; [|discriminate]. cbn [qbind] in E.
  inversion E; subst p ks vs r'. clear E.
  apply j_elements_inv in E2 as (comms & -> & L2 & F2). apply j_elements_inv in E3 as (ls & -> & L3 & F3). apply j_elements_inv in E4 as (rs & -> & L4 & F4).
  apply j_fixed_inv in E5 as [-> L5]. apply j_fixed_inv in E6 as [-> L6]. apply j_fixed_inv in E10 as [-> L10].
  unfold j_stems in E9. apply rbind_ok in E9 as (sl & Es & E9). apply j_2d_inv in Es. subst os.
  destruct (forallb (fun b => (len b =? 31)%nat) sl) eqn:B; [|discriminate].
  assert (Est : st = set_of sl) by (inversion E9; reflexivity). clear E9.
  assert (KV : exists vals, Some skl = java_list keys /\ (keys <> [] -> cv = java_list vals) /\ (len keys <= len vals)%nat /\
     Forall (fun k => len k = 32%nat) keys /\ values = map java_read (firstn (len keys) vals)).
  { destruct skl as [|k0 skl]; cbn [len] in E1.
    - cbn [j_keys] in E1. inversion E1; subst. exists []. cbn. repeat split; auto. tauto.
    - pose proof (j_keys_inv _ _ _ _ _ _ E1) as (X1 & X2 & X3). destruct X1 as (al & Ea); [discriminate|]. destruct X2 as (bl & Eb); [discriminate|].
      destruct (X3 al bl Ea Eb) as (-> & -> & F & K1 & K2). cbn [skipn] in *.
      assert (La : len al = S (len skl)) by (unfold java_list in Ea; inversion Ea as [Ea']; rewrite <- (map_length Some al), <- Ea'; reflexivity).
      assert (Fa : firstn (S (len skl)) al = al) by (apply firstn_all2; lia).
      rewrite Fa in *. exists bl. split; [exact Ea|]. split; [intros _; exact Eb|].
      rewrite map_length, firstn_length in K2. split; [lia|]. split; [exact F|]. now rewrite La. }
  destruct KV as (vals & Ek & Ev & Lv & FK & ->).
  exists keys, vals, comms, ls, rs, sl, db, dps, feb, rb. eexists. exists r, uh.
  split; [exact Ek|]. split; [exact Ev|]. split; [exact Lv|]. split; [exact FK|].
  do 8 (split; [reflexivity|]).
  split. { rewrite !Forall_app. repeat split; try assumption. repeat constructor; assumption. }
  split. { apply Forall_forall. intros b Hb. rewrite forallb_forall in B. apply B in Hb. now apply Nat.eqb_eq. }
  assert (XC : combine (map fst (map j_status dps)) (map snd (map j_status dps)) = map j_status dps).
  { generalize (map j_status dps). clear. induction l as [|[x y] l IH]; [reflexivity|]. cbn. now rewrite IH. }
  refine (conj _ (conj _ (conj _ (conj _ (conj _ (conj _ (conj _ (conj _ (conj _ (conj _ (conj _ Ck)))))))))));
    cbn [vp_hint vp_comms vp_proof vh_depths vh_ext vh_diff mp_ipa mp_g ipa_L ipa_R ipa_a]; try assumption.
  - now rewrite !map_length.
  - now rewrite !map_length.
  - rewrite XC. clear. induction dps as [|b dps IH]; cbn [map]; constructor; [|exact IH]. apply j_status_ok. now destruct (j_status b).
  - subst st. apply sorted_set_of.
  - subst st. intro s. apply In_set_of.
Qed.
Lemma j_wrong_size_value keys pre v v' post cp cl cr os d dp fe root : len v <> 32%nat -> len v' <> 32%nat ->
  j_verify_pre_state_root keys (java_list (pre ++ v :: post)) cp cl cr os d dp fe root =
  j_verify_pre_state_root keys (java_list (pre ++ v' :: post)) cp cl cr os d dp fe root.
Proof.
  intros N N'.
  assert (G0 : forall i, get_optional_array (java_list (pre ++ v :: post)) i = get_optional_array (java_list (pre ++ v' :: post)) i).
  { intro i. unfold get_optional_array. rewrite !j_2d_list. cbn [rbind]. f_equal.
    destruct (Nat.lt_ge_cases i (len pre)); [rewrite !nth_error_app1 by assumption; reflexivity|]. rewrite !nth_error_app2 by assumption.
    destruct (i - len pre)%nat; [|reflexivity]. cbn [nth_error option_map].
    destruct (Nat.eqb_spec (len v) 32); [contradiction|]. destruct (Nat.eqb_spec (len v') 32); [contradiction|]. reflexivity. }
  assert (K : forall n i, j_keys keys (java_list (pre ++ v :: post)) i n = j_keys keys (java_list (pre ++ v' :: post)) i n).
  { induction n as [|n IH]; intro i; cbn [j_keys]; [reflexivity|]. rewrite G0, IH. reflexivity. }
  unfold j_verify_pre_state_root, j_decode. destruct keys as [kl|]; [|reflexivity]. cbn [qbind]. rewrite K. reflexivity.
Qed.
Lemma j_null_panics key keys vals cp cl cr os d dp fe root : len key = 32%nat ->
  j_verify_pre_state_root (Some (None :: keys)) vals cp cl cr os d dp fe root = Panic /\
  j_verify_pre_state_root (java_list [key]) (Some [None]) cp cl cr os d dp fe root = Panic /\
  j_verify_pre_state_root (java_list [key]) None cp cl cr os d dp fe root = Panic.
Proof.
  intro Lk. unfold j_verify_pre_state_root, j_decode. split; [reflexivity|].
  unfold java_list. cbn [qbind map len j_keys]. unfold get_array at 1 2. change (Some [Some key]) with (java_list [key]). rewrite !j_2d_list. cbn [rbind nth_error].
  rewrite Lk. split; reflexivity.
Qed.
End Bind.
