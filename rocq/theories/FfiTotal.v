(** Outcomes of the interface for every input (C34). *)
From Coq Require Import String Permutation.
From Verif Require Import Base BaseFacts Alg AlgInst WireModel WireSpec WireProofs ProofModel IpaModel IpaSpec LagrangeSpec
  MsmModel MsmSpec MsmProofs FfiModel FfiSpec FfiProofs IpaTheorems CheckTotal.
Local Open Scope list_scope.

(** ** Specification *)
Section Spec.
Context {A : Alg} {C : ECodec A}.
(** The arguments of a sparse update give the changes [l]: one old and one new scalar for each index, below 256;
    scalars beyond the indices are not looked at. *)
Definition gives_changes (is_ : list nat) (olds news : list bytes) (l : list change) : Prop :=
  is_ = map ch_index l /\ Forall (fun c => (ch_index c < 256)%nat) l /\
  map sc_de (firstn (len l) olds) = map (fun c => Some (ch_old c)) l /\
  map sc_de (firstn (len l) news) = map (fun c => Some (ch_new c)) l.
(** The sum of the changes times the generators. *)
Definition total_change (gens : list G) (l : list change) : G :=
  combination (map (fun c => fsub (ch_new c) (ch_old c)) l) (map (fun c => nth (ch_index c) gens gzero) l).
(** Points of claims that fit a byte. *)
Definition small_points (cs : list claim) : Prop := Forall (fun c => 0 <= snd (fst c) < 256) cs.
End Spec.

Section Total.
Context {A : Alg} {L : AlgLaws A} {C : ECodec A} {CL : ECodecLaws C} {P : Par A}
        {I : FrInt A} {IL : FrIntLaws I} {W : Wnaf A} {WL : WnafLaws W} {H : Hasher}.
Notation Gs := (crs_G trie_crs).

Lemma res_total {X} (r : res X) : (exists x, r = Ok x) \/ r = Panic.
Proof. destruct r; eauto. Qed.

Lemma sparse_deltas_inv is_ : forall k olds news ds, sparse_deltas k is_ olds news = Ok ds ->
  exists l, is_ = map ch_index l /\
    map sc_de (firstn (len l) (skipn k olds)) = map (fun c => Some (ch_old c)) l /\
    map sc_de (firstn (len l) (skipn k news)) = map (fun c => Some (ch_new c)) l /\
    ds = map (fun c => (fsub (ch_new c) (ch_old c), ch_index c)) l.
Proof.
  assert (SK : forall (x : bytes) k l, nth_error l k = Some x -> skipn k l = x :: skipn (S k) l).
  { intros x k. induction k as [|k IH]; intros [|y l] E; try discriminate; cbn in E; [injection E as ->; reflexivity|].
    cbn [skipn]. now apply IH. }
  induction is_ as [|i is_ IH]; intros k olds news ds E; cbn [sparse_deltas] in E.
  - injection E as <-. exists []. repeat split.
  - apply rbind_ok in E as (ob & E1 & E). apply rbind_ok in E as (o & E2 & E). apply rbind_ok in E as (nb & E3 & E).
    apply rbind_ok in E as (n & E4 & E). apply rbind_ok in E as (r & E5 & E). injection E as <-.
    destruct (IH _ _ _ _ E5) as (l & -> & K1 & K2 & ->). exists (mkChange i o n :: l).
    unfold index in E1, E3. destruct (nth_error olds k) as [ob'|] eqn:N1; [|discriminate]. destruct (nth_error news k) as [nb'|] eqn:N2; [|discriminate].
    cbn in E1, E3. injection E1 as ->. injection E3 as ->.
    destruct (sc_de ob) as [o'|] eqn:D1; [|discriminate]. destruct (sc_de nb) as [n'|] eqn:D2; [|discriminate].
    cbn in E2, E4. injection E2 as ->. injection E4 as ->.
    rewrite (SK _ _ _ N1), (SK _ _ _ N2). cbn [List.length firstn map ch_index ch_old ch_new].
    rewrite D1, D2, K1, K2. repeat split.
Qed.
Lemma sparse_deltas_fwd l : forall k olds news,
  map sc_de (firstn (len l) (skipn k olds)) = map (fun c => Some (ch_old c)) l ->
  map sc_de (firstn (len l) (skipn k news)) = map (fun c => Some (ch_new c)) l ->
  sparse_deltas k (map ch_index l) olds news = Ok (map (fun c => (fsub (ch_new c) (ch_old c), ch_index c)) l).
Proof.
  assert (SK : forall k (l : list bytes) x r, skipn k l = x :: r -> nth_error l k = Some x /\ skipn (S k) l = r).
  { induction k as [|k IH]; intros [|y q] x r E; try discriminate.
    - cbn in E. injection E as -> ->. now split.
    - cbn [skipn nth_error] in *. now apply IH. }
  induction l as [|c l IH]; intros k olds news Ho Hn; [reflexivity|]. cbn [List.length] in Ho, Hn.
  destruct (skipn k olds) as [|ob os] eqn:E1; [discriminate|]. destruct (skipn k news) as [|nb ns] eqn:E2; [discriminate|].
  cbn [firstn map] in Ho, Hn. injection Ho as D1 Ho. injection Hn as D2 Hn.
  apply SK in E1 as [N1 E1]. apply SK in E2 as [N2 E2].
  cbn [map sparse_deltas]. unfold index. rewrite N1. cbn [unwrap rbind]. rewrite D1. cbn [unwrap rbind]. rewrite N2. cbn [unwrap rbind].
  rewrite D2. cbn [unwrap rbind]. rewrite (IH (S k)); [reflexivity|rewrite E1; exact Ho|rewrite E2; exact Hn].
Qed.

Lemma sparse_total cx old is_ olds news : context_new = Ok cx ->
  (exists g l out, eu_de old = Some g /\ gives_changes is_ olds news l /\
     update_commitment_sparse cx old is_ olds news = Ok (FOk out) /\ eu_de out = Some (gadd g (total_change Gs l))) \/
  ((forall g l, eu_de old = Some g -> ~ gives_changes is_ olds news l) /\ update_commitment_sparse cx old is_ olds news = Panic).
Proof.
  intro Hc. apply context_inv in Hc as (E1 & E2 & E3). unfold update_commitment_sparse.
  destruct (eu_de old) as [g|]; [|right; split; [discriminate|reflexivity]]. cbn [unwrap rbind].
  destruct (sparse_deltas 0 is_ olds news) as [ds|] eqn:ED; cbn [rbind].
  - destruct (sparse_deltas_inv _ _ _ _ _ ED) as (l & Ei & K1 & K2 & Eds). change (skipn 0 olds) with olds in K1. change (skipn 0 news) with news in K2.
    destruct (Forall_dec (fun c => (ch_index c < 256)%nat) (fun c => lt_dec (ch_index c) 256) l) as [HF|HF].
    + left. exists g, l. rewrite (commit_sparse_ok Gs _ ds E2).
      2:{ intros v i Hi. rewrite Eds in Hi. apply in_map_iff in Hi as (c & Ec & Hc). injection Ec as _ <-. rewrite Forall_forall in HF.
          rewrite Gs_len. now apply HF. }
      cbn [rbind]. eexists. split; [reflexivity|]. split; [repeat split; assumption|]. split; [reflexivity|]. rewrite eu_rt. f_equal.
      rewrite Eds, !map_map. cbn [fst snd]. unfold total_change. apply gadd_comm.
    + right. assert (X : exists c, In c l /\ (256 <= ch_index c)%nat).
      { apply neg_Forall_Exists_neg in HF; [|intro; apply lt_dec]. apply Exists_exists in HF as (c & Hc & Hn). exists c. split; [exact Hc|lia]. }
      destruct X as (c & Hc & Hn). split.
      * intros g' l' _ (Ei' & HF' & _). assert (X : In (ch_index c) (map ch_index l')) by (rewrite <- Ei', Ei; now apply in_map).
        apply in_map_iff in X as (c' & Ec & Hc'). rewrite Forall_forall in HF'. specialize (HF' _ Hc'). lia.
      * rewrite (commit_sparse_panic Gs _ ds (fsub (ch_new c) (ch_old c)) (ch_index c) E2); [reflexivity| |rewrite Gs_len; exact Hn].
        rewrite Eds. apply in_map_iff. now exists c.
  - right. split; [|reflexivity]. intros g' l _ (-> & _ & K1 & K2).
    rewrite (sparse_deltas_fwd l 0 olds news K1 K2) in ED. discriminate.
Qed.

Lemma create_total order cx b : is_bytes b ->
  (Z.of_nat (len b) mod 8257 <> 0 /\
     ffi_create_proof order cx b = Ok (FErr_ (LengthIsNotAnExpectedMultiple "Input length for proof" 8257 (Z.of_nat (len b))))) \/
  (exists qs, Forall record_fits qs /\ b = concat (map prover_record qs) /\
     ffi_create_proof order cx b = (let! (p, _) := mp_open order (cx_crs cx) (cx_pw cx) verkle_tr qs in Ok (FOk (mp_to_bytes p)))) \/
  (Z.of_nat (len b) mod 8257 = 0 /\ (forall qs, Forall record_fits qs -> b <> concat (map prover_record qs)) /\
     ffi_create_proof order cx b = Panic).
Proof.
  intro Hb. destruct (Z.eq_dec (Z.of_nat (len b) mod 8257) 0) as [EM|EM]; [right|left; split; [exact EM|now apply create_wrong_length]].
  assert (PC : (0 < PROOF_CHUNK)%nat) by (unfold PROOF_CHUNK; lia).
  assert (G1 : forall l qs, Forall is_bytes l -> rmap deserialize_proof_query l = Ok qs -> Forall record_fits qs /\ l = map prover_record qs).
  { induction l as [|c l IH]; intros qs' HB E; cbn [rmap] in E; [injection E as <-; split; [constructor|reflexivity]|].
    inversion HB; subst. apply rbind_ok in E as (q & E1 & E). apply rbind_ok in E as (r & E2 & E). injection E as <-.
    apply pq_inv in E1 as [-> Hf]; [|assumption]. apply IH in E2 as [Hr ->]; [|assumption]. split; [now constructor|reflexivity]. }
  destruct (rmap deserialize_proof_query (chunks_exact PROOF_CHUNK b)) as [qs|] eqn:Eq.
  - left. apply G1 in Eq as [Hf Hm]; [|now apply is_bytes_chunks].
    assert (Eb : b = concat (map prover_record qs)).
    { assert (EM' : Z.of_nat (len b) mod Z.of_nat PROOF_CHUNK =? 0 = true).
      { replace (Z.of_nat PROOF_CHUNK) with 8257 by (unfold PROOF_CHUNK; lia). now apply Z.eqb_eq. }
      apply mod_multiple in EM' as (n & En); [|exact PC]. destruct (chunks_inv PROOF_CHUNK PC n b En) as (K1 & _ & _). rewrite <- Hm. now symmetry. }
    exists qs. split; [exact Hf|]. split; [exact Eb|]. rewrite Eb. now apply create_parse.
  - right. split; [exact EM|]. split.
    + intros qs Hf Eb. assert (HL : Forall (fun b => len b = PROOF_CHUNK) (map prover_record qs)).
      { rewrite Forall_forall in *. intros c Hc. apply in_map_iff in Hc as (q & <- & Hq). apply prover_len. now apply Hf. }
      rewrite Eb, chunks_concat in Eq by assumption.
      rewrite (rmap_ok deserialize_proof_query prover_record (fun q => q)) in Eq; [discriminate|].
      intros q Hq. apply pq_ok. rewrite Forall_forall in Hf. now apply Hf.
    + unfold ffi_create_proof. apply Z.eqb_eq in EM. rewrite EM. cbn [negb]. now rewrite Eq.
Qed.

Lemma create_records order cx qs : context_new = Ok cx -> domain_fits 256 ->
  (forall l, Permutation (order l) l) -> qs <> [] -> Forall record_fits qs ->
  outside_domain 256 (mp_honest_t 256 verkle_tr trie_crs qs) ->
  (ffi_create_proof order cx (concat (map prover_record qs)) = Panic <->
     ~ Forall (fun x => x <> fzero) (mp_honest_challenges 8 verkle_tr trie_crs qs)) /\
  (forall e, ffi_create_proof order cx (concat (map prover_record qs)) <> Ok (FErr_ e)).
Proof.
  intros Hc D Ho Hne Hf Ht. rewrite create_parse by exact Hf. destruct (context_inv _ Hc) as (E1 & E2 & E3). rewrite E1.
  assert (HF : Forall (fitting_query 256) qs) by (eapply Forall_impl; [|exact Hf]; intros q [X Y]; split; [rewrite X; lia|exact Y]).
  pose proof (multi_total 256 8 (cx_pw cx) trie_crs D eq_refl eq_refl Gs_len E3 order verkle_tr qs Ho Hne HF Ht) as M.
  change (tr_new (lbl "verkle")) with verkle_tr. rewrite <- M.
  destruct (mp_open order trie_crs (cx_pw cx) verkle_tr qs) as [[p s]|]; cbn [rbind]; split; try easy.
Qed.
Lemma claims_inv : forall l qs, Forall is_bytes l -> rmap deserialize_verifier_query l = Ok qs ->
     exists cs, small_points cs /\ l = map claim_record cs /\ qs = map claim_query cs.
Proof.
  induction l as [|c l IH]; intros qs' HB Er; cbn [rmap] in Er.
    - injection Er as <-. exists []. repeat split. constructor.
    - inversion HB; subst. apply rbind_ok in Er as (q & X1 & Er). apply rbind_ok in Er as (r' & X2 & Er). injection Er as <-.
      apply vq_inv in X1 as (g & z & y & -> & Hz & ->); [|assumption]. apply IH in X2 as (cs & Hf & -> & ->); [|assumption].
      exists ((g, z, y) :: cs). split; [constructor; [exact Hz|exact Hf]|]. split; reflexivity.
Qed.
Lemma verify_total cx b : context_new = Ok cx -> domain_fits 256 -> is_bytes b ->
  (exists p r, rounds (mp_ipa p) 8 /\ b = mp_to_bytes p ++ r /\ Z.of_nat (len r) mod 65 <> 0 /\
     ffi_verify_proof cx b = Ok (FErr_ (LengthIsNotAnExpectedMultiple "Verifier queries" 65 (Z.of_nat (len r))))) \/
  (exists p cs ok, rounds (mp_ipa p) 8 /\ small_points cs /\ b = mp_to_bytes p ++ concat (map claim_record cs) /\
     mp_check p (cx_crs cx) (cx_pw cx) (map claim_query cs) verkle_tr = Ok ok /\
     ffi_verify_proof cx b = Ok (if ok : bool then FOk tt else FErr_ ProofVerificationFailed)) \/
  ((forall p r, rounds (mp_ipa p) 8 -> b = mp_to_bytes p ++ r ->
      Z.of_nat (len r) mod 65 = 0 /\ forall cs, r <> concat (map claim_record cs)) /\
   ffi_verify_proof cx b = Panic).
Proof.
  intros Hc D Hb. destruct (context_inv _ Hc) as (E1 & E2 & E3).
  destruct (Nat.lt_ge_cases (len b) 576) as [Hs|Hs].
  { right. right. split; [|now apply verify_short]. intros p r HR ->. rewrite app_length, (mp_bytes_len p 8 HR) in Hs. cbn in Hs. lia. }
  assert (Hd : (exists p, rounds (mp_ipa p) 8 /\ firstn 576 b = mp_to_bytes p) \/
               (forall p, rounds (mp_ipa p) 8 -> firstn 576 b <> mp_to_bytes p)).
  { destruct (mp_from_bytes (firstn 576 b) 256) as [[p|]|] eqn:E.
    - left. exists p. apply mp_accept in E as [E HR]; [|now apply is_bytes_firstn|rewrite firstn_length; lia]. split; [exact HR|now symmetry].
    - right. intros p HR Ep. rewrite Ep in E. replace 256%nat with (2 ^ 8)%nat in E by reflexivity.
      rewrite mp_rt in E; [discriminate|rewrite log2_up_pow; exact HR|rewrite log2_up_pow; unfold rounds_fit; lia].
    - right. intros p HR Ep. rewrite Ep in E. replace 256%nat with (2 ^ 8)%nat in E by reflexivity.
      rewrite mp_rt in E; [discriminate|rewrite log2_up_pow; exact HR|rewrite log2_up_pow; unfold rounds_fit; lia]. }
  assert (FS : forall p r, rounds (mp_ipa p) 8 -> b = mp_to_bytes p ++ r -> firstn 576 b = mp_to_bytes p /\ skipn 576 b = r).
  { intros p r HR ->. assert (Lp : len (mp_to_bytes p) = 576%nat) by (rewrite (mp_bytes_len p 8 HR); reflexivity).
    rewrite firstn_app, skipn_app, Lp, Nat.sub_diag, <- Lp, firstn_all, skipn_all, app_nil_r. now split. }
  destruct Hd as [(p & HR & Ep)|Hd].
  2:{ right. right. split; [|now apply verify_undecodable]. intros p r HR Eb. exfalso. apply (Hd p HR). now apply (FS p r). }
  assert (Eb : b = mp_to_bytes p ++ skipn 576 b) by (rewrite <- Ep; symmetry; apply firstn_skipn).
  assert (Lp : len (mp_to_bytes p) = 576%nat) by (rewrite (mp_bytes_len p 8 HR); reflexivity).
  set (r := skipn 576 b) in *. assert (Br : is_bytes r) by now apply is_bytes_skipn.
  destruct (Z.eq_dec (Z.of_nat (len r) mod 65) 0) as [EM|EM].
  2:{ left. exists p, r. repeat split; try assumption; try apply HR. rewrite Eb. now apply verify_wrong_length. }
  right.
  destruct (rmap deserialize_verifier_query (chunks_exact 65 r)) as [qs|] eqn:Eq.
  - left. apply claims_inv in Eq as (cs & Hf & Hm & Hq); [|now apply is_bytes_chunks].
    assert (EM' := EM). apply Z.eqb_eq in EM'. apply (mod_multiple 65) in EM' as (n & En); [|lia].
    destruct (chunks_inv 65 ltac:(lia) n _ En) as (K1 & K2 & _). rewrite Hm in K1.
    destruct (res_total (mp_check p (cx_crs cx) (cx_pw cx) (map claim_query cs) verkle_tr)) as [(ok & Ck)|Ck].
    + exists p, cs, ok. repeat split; try assumption; try apply HR.
      * rewrite Eb. f_equal. now symmetry.
      * rewrite Eb, <- K1, verify_parse by exact HR. change (tr_new (lbl "verkle")) with verkle_tr. now rewrite Ck.
    + exfalso. destruct HR as [HL HR]. rewrite E1 in Ck. apply (mp_check_panics 256 8 p trie_crs (cx_pw cx) _ _ D eq_refl eq_refl Gs_len E3) in Ck.
      destruct Ck as [_ Ck]. now apply Ck.
  - right. split.
    + intros p' r' HR' Eb'. destruct (FS p' r' HR' Eb') as [_ <-]. split; [exact EM|]. intros cs Er. fold r in Er.
      assert (HF : Forall (fun b => len b = 65%nat) (map claim_record cs)).
      { apply Forall_forall. intros c Hcc. apply in_map_iff in Hcc as (x & <- & _). apply verifier_len. }
      rewrite Er, chunks_concat in Eq by (try exact HF; lia).
      rewrite (rmap_ok deserialize_verifier_query claim_record claim_query) in Eq; [discriminate|]. intros. apply vq_ok.
    + rewrite Eb. unfold ffi_verify_proof. rewrite slice_app by exact Lp. cbn [rbind]. replace 256%nat with (2 ^ 8)%nat by reflexivity.
      rewrite mp_rt; [|rewrite log2_up_pow; exact HR|rewrite log2_up_pow; unfold rounds_fit; lia].
      cbn [rbind unwrap]. rewrite slice_from_app by exact Lp. cbn [rbind]. apply Z.eqb_eq in EM. rewrite EM. cbn [negb]. now rewrite Eq.
Qed.
End Total.
