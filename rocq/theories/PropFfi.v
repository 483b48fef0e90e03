(** Properties of the foreign-function interface (C33, C34, C45). *)
From Coq Require Import String Permutation.
From Verif Require Import Base Alg AlgInst WireModel WireSpec WireInst ProofModel IpaModel IpaSpec LagrangeSpec IpaInst
  MsmModel MsmSpec MsmInst FfiModel FfiSpec FfiProofs FfiInst.
Local Open Scope list_scope.

Section WithAlgebra.
Context {A : Alg} {L : AlgLaws A} {C : ECodec A} {CL : ECodecLaws C} {P : Par A}
        {I : FrInt A} {IL : FrIntLaws I} {W : Wnaf A} {WL : WnafLaws W} {H : Hasher}.

(** A context can be made when 1, .., 255 are not zero in the field. *)
Theorem C33_context : domain_fits 256 -> exists cx, context_new = Ok cx.
Proof. exact context_exists. Qed.

(** C33.  Committing gives the linear combination with the generators. *)
Theorem C33_commit : forall split cx v, context_new = Ok cx -> (len v <= 256)%nat ->
  exists out, commit_to_scalars split cx (scalars_bytes v) = Ok (FOk out) /\ eu_de out = Some (combination v (crs_G trie_crs)).
Proof. exact commit_same. Qed.

(** An update of one entry gives the commitment to the changed vector. *)
Theorem C33_update : forall cx split v c old i x w, context_new = Ok cx ->
  commit_to_scalars split cx (scalars_bytes v) = Ok (FOk c) -> same_commitment old c ->
  0 <= i < 256 -> nth_error v (Z.to_nat i) = Some x ->
  exists out, update_commitment cx old i (sc_ser x) (sc_ser w) = Ok (FOk out) /\
    forall split', exists c', commit_to_scalars split' cx (scalars_bytes (replace v (Z.to_nat i) w)) = Ok (FOk c') /\ same_commitment out c'.
Proof. exact update_same. Qed.

(** So does an update of several, whatever their order, *)
Theorem C33_update_sparse : forall cx split v c old l, context_new = Ok cx ->
  commit_to_scalars split cx (scalars_bytes v) = Ok (FOk c) -> same_commitment old c -> changes_of v l ->
  forall l', Permutation l l' -> exists out,
    update_commitment_sparse cx old (map ch_index l') (map (fun c => sc_ser (ch_old c)) l') (map (fun c => sc_ser (ch_new c)) l')
    = Ok (FOk out) /\
    forall split', exists c', commit_to_scalars split' cx (scalars_bytes (replace_all v l)) = Ok (FOk c') /\ same_commitment out c'.
Proof. exact sparse_same. Qed.
(** also when the request arrives as bytes. *)
Theorem C33_sparse_request : forall cx split v c old l, context_new = Ok cx ->
  commit_to_scalars split cx (scalars_bytes v) = Ok (FOk c) -> len old = 64%nat -> same_commitment old c -> changes_of v l ->
  exists a is_ os ns out c',
    deserialize_update_commitment_sparse (old ++ concat (map change_record l)) = Ok (FOk (a, is_, os, ns)) /\
    update_commitment_sparse cx a is_ os ns = Ok (FOk out) /\
    commit_to_scalars split cx (scalars_bytes (replace_all v l)) = Ok (FOk c') /\ same_commitment out c'.
Proof. exact sparse_request_same. Qed.
(** Adding commitments commits to the sums of the entries. *)
Theorem C33_add : forall cx split a b ca cb ca' cb', context_new = Ok cx -> len a = len b ->
  commit_to_scalars split cx (scalars_bytes a) = Ok (FOk ca) -> commit_to_scalars split cx (scalars_bytes b) = Ok (FOk cb) ->
  same_commitment ca' ca -> same_commitment cb' cb ->
  exists out c', add_commitment ca' cb' = Ok out /\
    commit_to_scalars split cx (scalars_bytes (map (fun '(x, y) => fadd x y) (combine a b))) = Ok (FOk c') /\ same_commitment out c'.
Proof. exact add_same. Qed.
Theorem C33_root_round_trip : forall c g, eu_de c = Some g -> exists b, serialize_commitment c = Ok b /\ len b = 32%nat /\
  exists c', deserialize_commitment b = FOk c' /\ eu_de c' = Some g.
Proof. exact root_round_trip. Qed.

(** C34.  Full statement: every entry point returns an error, and does not panic, on malformed input.
    True of [commit_to_scalars]: it accepts exactly the encodings of at most 256 scalars and reports
    what is wrong with anything else. *)
Theorem C34_commit_to_scalars_partial : forall split cx b, context_new = Ok cx -> is_bytes b ->
  (exists v out, (len v <= 256)%nat /\ b = scalars_bytes v /\
     commit_to_scalars split cx b = Ok (FOk out) /\ eu_de out = Some (combination v (crs_G trie_crs))) \/
  ((forall v, (len v <= 256)%nat -> b <> scalars_bytes v) /\ exists e, commit_to_scalars split cx b = Ok (FErr_ e) /\
     (len b mod 32 <> 0 -> e = LengthOfScalarsNotMultipleOf32 (Z.of_nat (len b)))%nat /\
     (len b mod 32 = 0 -> 256 * 32 < len b -> e = TooManyScalars 256 (Z.of_nat (len b) / 32))%nat /\
     (len b mod 32 = 0 -> len b <= 256 * 32 -> exists c, e = FailedToDeserializeScalar c /\ In c (chunks_exact 32 b) /\ sc_de c = None)%nat).
Proof. exact commit_total_same. Qed.
(** [deserialize_update_commitment_sparse] panics below 64 bytes, and above returns an error or parts that
    make up the input. *)
Theorem C34_sparse_request_partial : forall b, is_bytes b ->
  ((len b < 64)%nat /\ deserialize_update_commitment_sparse b = Panic) \/
  ((64 <= len b)%nat /\ ((len b - 64) mod 65 <> 0)%nat /\
     deserialize_update_commitment_sparse b =
       Ok (FErr_ (LengthIsNotAnExpectedMultiple "input for update commitment" 65 (Z.of_nat (len b) - 64)))) \/
  (exists c (t : list (nat * bytes * bytes)), len c = 64%nat /\
     b = c ++ concat (map (fun e => raw_record (fst (fst e)) (snd (fst e)) (snd e)) t) /\
     Forall (fun e => (fst (fst e) < 256)%nat /\ len (snd (fst e)) = 32%nat /\ len (snd e) = 32%nat) t /\
     deserialize_update_commitment_sparse b = Ok (FOk (c, map (fun e => fst (fst e)) t, map (fun e => snd (fst e)) t, map snd t))).
Proof. exact deser_sparse_total. Qed.
(** [update_commitment_sparse] panics on bad scalars, short vectors and large indices. *)
Theorem C34_update_bad_scalar_refuted : forall cx old g i is_ o os n ns, eu_de old = Some g -> sc_de o = None \/ sc_de n = None ->
  update_commitment_sparse cx old (i :: is_) (o :: os) (n :: ns) = Panic.
Proof. exact sparse_bad_scalar. Qed.
Theorem C34_update_short_refuted : forall cx old is_ olds news g, eu_de old = Some g ->
  (len olds < len is_)%nat \/ (len news < len is_)%nat -> update_commitment_sparse cx old is_ olds news = Panic.
Proof. exact sparse_short. Qed.
Theorem C34_update_bad_index_refuted : forall cx old is_ olds news i, context_new = Ok cx -> In i is_ -> (256 <= i)%nat ->
  update_commitment_sparse cx old is_ olds news = Panic.
Proof. exact sparse_bad_index. Qed.
(** [create_proof] reports wrong lengths; it panics on bad elements and on no query at all. *)
Theorem C34_create_proof_length_partial : forall order cx b, Z.of_nat (len b) mod 8257 <> 0 ->
  ffi_create_proof order cx b = Ok (FErr_ (LengthIsNotAnExpectedMultiple "Input length for proof" 8257 (Z.of_nat (len b)))).
Proof. exact create_wrong_length. Qed.
Theorem C34_create_proof_element_refuted : forall order cx b r, len b = Z.to_nat 8257 -> Z.of_nat (len r) mod 8257 = 0 ->
  el_de (firstn 32 b) = None -> ffi_create_proof order cx (b ++ r) = Panic.
Proof. exact create_bad_element. Qed.
Theorem C34_create_proof_empty_refuted : forall order cx, context_new = Ok cx -> order [] = [] ->
  ffi_create_proof order cx [] = Panic.
Proof. exact create_empty. Qed.
(** [verify_proof] reports wrong lengths of the queries; it panics when the proof is short or not an encoding. *)
Theorem C34_verify_proof_length_partial : forall cx p r, rounds (mp_ipa p) 8 -> Z.of_nat (len r) mod 65 <> 0 ->
  ffi_verify_proof cx (mp_to_bytes p ++ r) = Ok (FErr_ (LengthIsNotAnExpectedMultiple "Verifier queries" 65 (Z.of_nat (len r)))).
Proof. exact verify_wrong_length. Qed.
Theorem C34_verify_proof_short_refuted : forall cx b, (len b < 576)%nat -> ffi_verify_proof cx b = Panic.
Proof. exact verify_short. Qed.
Theorem C34_verify_proof_undecodable_refuted : forall cx b,
  (forall p, rounds (mp_ipa p) 8 -> firstn 576 b <> mp_to_bytes p) -> is_bytes b -> ffi_verify_proof cx b = Panic.
Proof. exact verify_undecodable. Qed.

(** C45.  Each record is parsed to the query it encodes, *)
Theorem C45_prover_query : forall q, len (pq_poly q) = 256%nat -> deserialize_proof_query (prover_record q) = Ok q.
Proof. exact pq_ok. Qed.
Theorem C45_prover_query_uncompressed : forall q, len (pq_poly q) = 256%nat ->
  deserialize_proof_query_uncompressed (prover_record_uncompressed q) = Ok q.
Proof. exact pqu_ok. Qed.
Theorem C45_verifier_query : forall c z y, deserialize_verifier_query (verifier_record c z y) = Ok (mkVQ c (of_Z z) y).
Proof. exact vq_ok. Qed.
Theorem C45_verifier_query_uncompressed : forall c z y,
  deserialize_verifier_query_uncompressed (verifier_record_uncompressed c z y) = Ok (mkVQ c (of_Z z) y).
Proof. exact vqu_ok. Qed.
(** nothing but a record is parsed, *)
Theorem C45_prover_query_canonical : forall b q, is_bytes b -> deserialize_proof_query b = Ok q ->
  b = prover_record q /\ record_fits q.
Proof. exact pq_inv. Qed.
Theorem C45_verifier_query_canonical : forall b q, is_bytes b -> deserialize_verifier_query b = Ok q ->
  exists c z y, b = verifier_record c z y /\ 0 <= z < 256 /\ q = mkVQ c (of_Z z) y.
Proof. exact vq_inv. Qed.
(** and whole requests are about the queries they list. *)
Theorem C45_create_proof : forall order cx qs, Forall record_fits qs ->
  ffi_create_proof order cx (concat (map prover_record qs)) =
  (let! (p, _) := mp_open order (cx_crs cx) (cx_pw cx) verkle_tr qs in Ok (FOk (mp_to_bytes p))).
Proof. exact create_parse. Qed.
Theorem C45_verify_proof : forall cx p cs, rounds (mp_ipa p) 8 ->
  ffi_verify_proof cx (mp_to_bytes p ++ concat (map claim_record cs)) =
  (let! ok := mp_check p (cx_crs cx) (cx_pw cx) (map claim_query cs) verkle_tr in
   Ok (if ok then FOk tt else FErr_ ProofVerificationFailed)).
Proof. exact verify_parse. Qed.
Theorem C45_create_proof_canonical : forall order cx b out, is_bytes b -> ffi_create_proof order cx b = Ok (FOk out) ->
  exists qs, Forall record_fits qs /\ b = concat (map prover_record qs).
Proof. exact create_accepted_inv. Qed.
Theorem C45_verify_proof_canonical : forall cx b, is_bytes b -> ffi_verify_proof cx b = Ok (FOk tt) ->
  exists p cs, rounds (mp_ipa p) 8 /\ b = mp_to_bytes p ++ concat (map claim_record cs) /\
    Forall (fun c => 0 <= snd (fst c) < 256) cs /\
    mp_check p (cx_crs cx) (cx_pw cx) (map claim_query cs) verkle_tr = Ok true.
Proof. exact verify_accepted_inv. Qed.
(** Proofs of true openings made through the interface are accepted through the interface; the prover
    panics exactly when one of its challenges is zero. *)
Theorem C45_created_proof_accepted : forall cx order qs, context_new = Ok cx -> domain_fits 256 ->
  (forall l, Permutation (order l) l) -> qs <> [] -> Forall record_fits qs -> Forall (good_query 256 (crs_G trie_crs)) qs ->
  outside_domain 256 (mp_honest_t 256 verkle_tr trie_crs qs) ->
  (Forall (fun x => x <> fzero) (mp_honest_challenges 8 verkle_tr trie_crs qs) -> exists out,
     ffi_create_proof order cx (concat (map prover_record qs)) = Ok (FOk out) /\
     len out = 576%nat /\
     ffi_verify_proof cx (out ++ concat (map claim_record (map claim_of qs))) = Ok (FOk tt)) /\
  (~ Forall (fun x => x <> fzero) (mp_honest_challenges 8 verkle_tr trie_crs qs) ->
     ffi_create_proof order cx (concat (map prover_record qs)) = Panic).
Proof. exact end_to_end. Qed.
End WithAlgebra.

(** ** Cases *)
(** In the example group: the vector 5, 7, 0, 9 with two changes, in both orders. *)
Example C33_case : exists cx out, context_new = Ok cx /\
  changes_of (ex_scalars [5; 7; 0; 9]) ex_changes /\
  replace_all (ex_scalars [5; 7; 0; 9]) ex_changes = ex_scalars [5; 1000; 0; 12] /\
  (exists c, commit_to_scalars Whole cx (scalars_bytes (ex_scalars [5; 7; 0; 9])) = Ok (FOk c) /\
     update_commitment_sparse cx c [3%nat; 1%nat] (map sc_ser (ex_scalars [9; 7])) (map sc_ser (ex_scalars [12; 1000])) = Ok (FOk out) /\
     update_commitment_sparse cx c [1%nat; 3%nat] (map sc_ser (ex_scalars [7; 9])) (map sc_ser (ex_scalars [1000; 12])) = Ok (FOk out)) /\
  commit_to_scalars Whole cx (scalars_bytes (ex_scalars [5; 1000; 0; 12])) = Ok (FOk out).
Proof. exact ffi_update_case. Qed.
(** Strings that are no encodings, hence panics. *)
Example C34_case : exists cx, context_new = Ok cx /\
  update_commitment_sparse cx (repeat 0 64) [0%nat] [repeat 255 32] [repeat 0 32] = Panic /\
  (exists g, eu_de (repeat 0 64) = Some g) /\
  ffi_create_proof (fun l => l) cx (repeat 255 (Z.to_nat 8257)) = Panic /\
  ffi_verify_proof cx (repeat 255 576) = Panic /\
  (exists e, commit_to_scalars Whole cx (repeat 255 32) = Ok (FErr_ e)).
Proof. exact ffi_malformed_case. Qed.
(** Two openings of vectors with 256 entries. *)
Example C45_case : exists cx out, context_new = Ok cx /\ Forall record_fits ffi_qs /\
  Forall (good_query 256 (crs_G trie_crs)) ffi_qs /\
  ffi_create_proof (@rev _) cx (concat (map prover_record ffi_qs)) = Ok (FOk out) /\
  ffi_verify_proof cx (out ++ concat (map claim_record (map claim_of ffi_qs))) = Ok (FOk tt).
Proof. exact ffi_proof_case. Qed.

Print Assumptions C33_context.
Print Assumptions C33_commit.
Print Assumptions C33_update.
Print Assumptions C33_update_sparse.
Print Assumptions C33_sparse_request.
Print Assumptions C33_add.
Print Assumptions C33_root_round_trip.
Print Assumptions C34_commit_to_scalars_partial.
Print Assumptions C34_sparse_request_partial.
Print Assumptions C34_update_bad_scalar_refuted.
Print Assumptions C34_update_short_refuted.
Print Assumptions C34_update_bad_index_refuted.
Print Assumptions C34_create_proof_length_partial.
Print Assumptions C34_create_proof_element_refuted.
Print Assumptions C34_create_proof_empty_refuted.
Print Assumptions C34_verify_proof_length_partial.
Print Assumptions C34_verify_proof_short_refuted.
Print Assumptions C34_verify_proof_undecodable_refuted.
Print Assumptions C45_prover_query.
Print Assumptions C45_prover_query_uncompressed.
Print Assumptions C45_verifier_query.
Print Assumptions C45_verifier_query_uncompressed.
Print Assumptions C45_prover_query_canonical.
Print Assumptions C45_verifier_query_canonical.
Print Assumptions C45_create_proof.
Print Assumptions C45_verify_proof.
Print Assumptions C45_create_proof_canonical.
Print Assumptions C45_verify_proof_canonical.
Print Assumptions C45_created_proof_accepted.
