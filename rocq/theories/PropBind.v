(** Properties of the C binding (C48) and the Java binding (C49). *)
From Coq Require Import Permutation String.
From Verif Require Import Base Alg AlgInst TreeSpec TrieModel ExData BTree WireModel WireSpec WireInst ProofModel ProofSpec ProofExamples
  IpaModel LagrangeSpec IpaSpec IpaInst MsmModel MsmSpec MsmInst FfiModel FfiSpec FfiInst SpecModel LayoutSpec CheckProofs GoModel GoSpec BindModel BindSpec BindProofs BindTrie.
Local Open Scope list_scope.

Section WithAlgebra.
Context {A : Alg} {L : AlgLaws A} {C : ECodec A} {CL : ECodecLaws C} {P : Par A}
        {I : FrInt A} {IL : FrIntLaws I} {W : Wnaf A} {WL : WnafLaws W} {H : Hasher}.

(** ** C *)
(** [create_proof] returns what the library function returns, and panics where that returns an error. *)
Theorem C48_create_proof : forall cx order input, context_new = Ok cx ->
  c_create_proof order cx input =
  match ffi_create_proof order cx input with Ok (FOk out) => Ok out | _ => Panic end.
Proof. exact c_create_agrees. Qed.
(** So does [verify_proof]; a proof that fails to verify gives false. *)
Theorem C48_verify_proof : forall cx input,
  c_verify_proof cx input =
  match ffi_verify_proof cx input with
  | Ok (FOk _) => Ok true
  | Ok (FErr_ ProofVerificationFailed) => Ok false
  | _ => Panic
  end.
Proof. exact c_verify_agrees. Qed.
(** Proofs made by either function verify with its counterpart. *)
Theorem C48_created_proofs_accepted : forall cx order qs, context_new = Ok cx -> domain_fits 256 -> (forall l, Permutation (order l) l) ->
  qs <> [] -> Forall record_fits qs -> Forall (good_query 256 (crs_G trie_crs)) qs ->
  outside_domain 256 (mp_honest_t 256 verkle_tr trie_crs qs) ->
  Forall (fun x => x <> fzero) (mp_honest_challenges 8 verkle_tr trie_crs qs) ->
  (exists out, c_create_proof order cx (concat (map prover_record qs)) = Ok out /\ len out = 576%nat /\
     c_verify_proof cx (out ++ concat (map claim_record (map claim_of qs))) = Ok true) /\
  (exists out, c_create_proof_uncompressed order cx (concat (map prover_record_uncompressed qs)) = Ok out /\ len out = 1120%nat /\
     c_verify_proof_uncompressed cx (out ++ concat (map claim_record_uncompressed (map claim_of qs))) = Ok true).
Proof. exact c_end_to_end. Qed.
(** The requests and proofs with points of 64 bytes. *)
Theorem C48_uncompressed_create : forall order cx qs, context_new = Ok cx -> Forall record_fits qs ->
  c_create_proof_uncompressed order cx (concat (map prover_record_uncompressed qs)) =
  (let! (p, _) := mp_open order (cx_crs cx) (cx_pw cx) (tr_new (lbl "verkle")) qs in Ok (mp_to_bytes_uncompressed p)).
Proof. exact c_create_u_parse. Qed.
Theorem C48_uncompressed_verify : forall cx p cs, rounds (mp_ipa p) 8 ->
  c_verify_proof_uncompressed cx (mp_to_bytes_uncompressed p ++ concat (map claim_record_uncompressed cs)) =
  mp_check p (cx_crs cx) (cx_pw cx) (map claim_query cs) (tr_new (lbl "verkle")).
Proof. exact c_verify_u_parse. Qed.
(** The product of at most 256 scalars with the generators.  Bytes after the last whole scalar and
    scalars after the 256th are ignored. *)
Theorem C48_multi_scalar_mul : forall split cx v r, context_new = Ok cx -> (len r < 32)%nat ->
  c_multi_scalar_mul split cx (scalars_bytes v ++ r) = Ok (el_ser (combination (firstn 256 v) (crs_G trie_crs))).
Proof. exact c_msm_ok. Qed.
(** A string that is no scalar makes the call panic. *)
Theorem C48_multi_scalar_mul_bad_scalar_refuted : forall split cx b, Exists (fun c => sc_de c = None) (chunks_exact 32 b) -> c_multi_scalar_mul split cx b = Panic.
Proof. exact c_msm_bad. Qed.
(** [pedersen_hash] writes the hash of the commitment to the documented input (that of C39); with a null pointer it writes nothing. *)
Theorem C48_pedersen_hash : forall split cx a t, context_new = Ok cx -> len a = 32%nat -> len t = 32%nat ->
  c_pedersen_hash split (Some cx) (Some a) (Some t) true =
    Ok (Some (sc_ser (hash (combination (map of_Z (hash_input (a ++ t) 4)) (crs_G trie_crs))))) /\
  (forall ctx a t out, ctx = None \/ a = None \/ t = None \/ out = false -> c_pedersen_hash split ctx a t out = Ok None).
Proof. exact c_pedersen. Qed.
(** ** Java *)
Theorem C49_commit : forall split cx v, context_new = Ok cx -> (len v <= 256)%nat ->
  (exists out, j_commit split cx (Some (scalars_bytes v)) = Ok (JOk out) /\ eu_de out = Some (combination v (crs_G trie_crs))) /\
  j_commit_as_compressed split cx (Some (scalars_bytes v)) = Ok (JOk (el_ser (combination v (crs_G trie_crs)))).
Proof. exact j_commit_same. Qed.
(** Anything but the encoding of at most 256 scalars gives an exception, not a panic. *)
Theorem C49_commit_exception : forall split cx b, context_new = Ok cx ->
  match b with None => True | Some b => is_bytes b end ->
  (forall v, (len v <= 256)%nat -> b <> Some (scalars_bytes v)) ->
  j_commit split cx b = Ok JThrow /\ j_commit_as_compressed split cx b = Ok JThrow.
Proof. exact j_commit_total. Qed.
(** The changes may come in any order; the result is the commitment to the changed vector. *)
Theorem C49_update_sparse : forall cx split v c old l, context_new = Ok cx ->
  commit_to_scalars split cx (scalars_bytes v) = Ok (FOk c) -> len old = 64%nat -> same_commitment old c -> changes_of v l ->
  forall l', Permutation l l' -> exists out,
    j_update_sparse cx (Some old) (Some (map (fun c => Z.of_nat (ch_index c)) l'))
      (Some (scalars_bytes (map ch_old l'))) (Some (scalars_bytes (map ch_new l'))) = Ok (JOk out) /\
    forall split', exists c', j_commit split' cx (Some (scalars_bytes (replace_all v l))) = Ok (JOk c') /\ same_commitment out c'.
Proof. exact j_sparse_same. Qed.
Theorem C49_one_point : forall a b g h, len a = 64%nat -> len b = 64%nat -> eu_de a = Some g -> eu_de b = Some h ->
  j_compress (Some a) = Ok (JOk (el_ser g)) /\ j_hash (Some a) = Ok (JOk (sc_ser (hash g))) /\
  exists out, j_add_commitment (Some a) (Some b) = Ok (JOk out) /\ eu_de out = Some (gadd g h).
Proof. exact j_one_same. Qed.
(** The batches are the single calls. *)
Theorem C49_many_points : forall bs gs, Forall2 (fun b g => len b = 64%nat /\ eu_de b = Some g) bs gs ->
  j_compress_many (Some (concat bs)) = Ok (JOk (concat (map el_ser gs))) /\
  j_hash_many (Some (concat bs)) = Ok (JOk (concat (map (fun g => sc_ser (hash g)) gs))).
Proof. exact j_many_same. Qed.
(** Null and arrays of the wrong size give an exception. *)
Theorem C49_sizes_exception : forall cx,
  (forall c, not_size 64 c -> j_compress c = Ok JThrow /\ j_hash c = Ok JThrow) /\
  (forall cs, not_multiple 64 cs -> j_compress_many cs = Ok JThrow /\ j_hash_many cs = Ok JThrow) /\
  (forall a b, not_size 64 a \/ not_size 64 b -> j_add_commitment a b = Ok JThrow) /\
  (forall c i o n, not_size 64 c \/ i = None \/ not_multiple 32 o \/ not_multiple 32 n -> j_update_sparse cx c i o n = Ok JThrow).
Proof. exact j_sizes. Qed.
(** Arrays of the right size that are no coordinates make the call panic. *)
Theorem C49_undecodable_refuted : forall b, len b = 64%nat -> eu_de b = None ->
  j_compress (Some b) = Panic /\ j_hash (Some b) = Panic /\ (forall c, len c = 64%nat -> j_add_commitment (Some b) (Some c) = Panic).
Proof. exact j_undecodable. Qed.
Theorem C49_update_bad_scalar_refuted : forall cx old g i is_ o os n ns, len old = 64%nat -> eu_de old = Some g ->
  len o = 32%nat -> len n = 32%nat -> (len os mod 32 = 0)%nat -> (len ns mod 32 = 0)%nat ->
  sc_de o = None \/ sc_de n = None ->
  j_update_sparse cx (Some old) (Some (i :: is_)) (Some (o ++ os)) (Some (n ++ ns)) = Panic.
Proof. exact j_sparse_bad. Qed.
(** The verifier on the arrays for a proof, its keys and their values is the check of that proof;
    arrays after the last value are ignored. *)
Theorem C49_verifier : forall p keys values more r,
  hint_fits (vp_hint p) ->
  Forall (fun k => len k = 32%nat) keys -> len values = len keys ->
  Forall (fun o => match o with None => True | Some v => len v = 32%nat end) values ->
  j_verify_pre_state_root (java_list keys) (Some (map java_value values ++ map Some more))
    (java_list (map el_ser (vp_comms p)))
    (java_list (map el_ser (ipa_L (mp_ipa (vp_proof p))))) (java_list (map el_ser (ipa_R (mp_ipa (vp_proof p)))))
    (java_list (vh_diff (vp_hint p))) (Some (el_ser (mp_g (vp_proof p))))
    (Some (map (fun '(d, e) => 8 * d + ext_code e) (combine (vh_depths (vp_hint p)) (vh_ext (vp_hint p)))))
    (Some (rev (sc_ser (ipa_a (mp_ipa (vp_proof p)))))) (Some (el_ser r))
  = (let! (ok, _) := proof_check p keys values r in Ok ok).
Proof. exact j_verify_ok. Qed.
(** What an accepted call said. *)
Theorem C49_accepted : forall sk cv cp cl cr os d dp fe root, j_verify_pre_state_root sk cv cp cl cr os d dp fe root = Ok true ->
  exists keys vals comms ls rs stems db dps feb rb p r uh,
    sk = java_list keys /\ (keys <> [] -> cv = java_list vals) /\ (len keys <= len vals)%nat /\ Forall (fun k => len k = 32%nat) keys /\
    cp = java_list comms /\ cl = java_list ls /\ cr = java_list rs /\ os = java_list stems /\
    d = Some db /\ dp = Some dps /\ fe = Some feb /\ root = Some rb /\
    Forall (fun b => len b = 32%nat) (comms ++ ls ++ rs ++ [db; feb; rb]) /\ Forall (fun b => len b = 31%nat) stems /\
    Forall2 (fun b g => el_de b = Some g) comms (vp_comms p) /\
    Forall2 (fun b g => el_de b = Some g) ls (ipa_L (mp_ipa (vp_proof p))) /\
    Forall2 (fun b g => el_de b = Some g) rs (ipa_R (mp_ipa (vp_proof p))) /\
    el_de db = Some (mp_g (vp_proof p)) /\ sc_de (rev feb) = Some (ipa_a (mp_ipa (vp_proof p))) /\ el_de rb = Some r /\
    len (vh_ext (vp_hint p)) = len dps /\ len (vh_depths (vp_hint p)) = len dps /\
    Forall2 (fun b ed => java_status_means b (fst ed) (snd ed)) dps (combine (vh_ext (vp_hint p)) (vh_depths (vp_hint p))) /\
    sorted (vh_diff (vp_hint p)) /\ (forall s, In s (vh_diff (vp_hint p)) <-> In s stems) /\
    proof_check p keys (map java_read (firstn (len keys) vals)) r = Ok (true, uh).
Proof. exact j_accept. Qed.
(** A value of the wrong size counts as absent, whatever it is. *)
Theorem C49_wrong_size_value_refuted : forall keys pre v v' post cp cl cr os d dp fe root, len v <> 32%nat -> len v' <> 32%nat ->
  j_verify_pre_state_root keys (java_list (pre ++ v :: post)) cp cl cr os d dp fe root =
  j_verify_pre_state_root keys (java_list (pre ++ v' :: post)) cp cl cr os d dp fe root.
Proof. exact j_wrong_size_value. Qed.
Theorem C49_null_panics_refuted : forall key keys vals cp cl cr os d dp fe root, len key = 32%nat ->
  j_verify_pre_state_root (Some (None :: keys)) vals cp cl cr os d dp fe root = Panic /\
  j_verify_pre_state_root (java_list [key]) (Some [None]) cp cl cr os d dp fe root = Panic /\
  j_verify_pre_state_root (java_list [key]) None cp cl cr os d dp fe root = Panic.
Proof. exact j_null_panics. Qed.
End WithAlgebra.

(** Proofs made from a tree. *)
Theorem C49_honest_proof_partial {A : Alg} {AL : AlgLaws A} {P : Par A} {PL : ParLaws P} {C : ECodec A} {CL : ECodecLaws C} {H : Hasher} :
  forall h (db : MemoryDb) keys order,
  domain_fits 256 -> wf_history h -> run_mem h = Ok db ->
  (forall k v, In k keys -> final_map h k = Some v -> len v = 32%nat) -> keys <> [] -> Forall is_key keys -> Z.of_nat (len keys) < 2 ^ 32 ->
  distinguishable (final_map h) (stems_of h) keys ->
  (forall l, Permutation (order l) l) ->
  exists qs hint comms root, create_proof_parts db keys = Ok (Some (qs, hint, comms)) /\ root_commitment db = Ok root /\
    (usable_challenges qs -> exists p, create_verkle_proof order db keys = Ok (Some p) /\
      j_verify_pre_state_root (java_list keys) (Some (map (fun k => java_value (final_map h k)) keys))
        (java_list (map el_ser (vp_comms p)))
        (java_list (map el_ser (ipa_L (mp_ipa (vp_proof p))))) (java_list (map el_ser (ipa_R (mp_ipa (vp_proof p)))))
        (java_list (vh_diff (vp_hint p))) (Some (el_ser (mp_g (vp_proof p))))
        (Some (map (fun '(d, e) => 8 * d + ext_code e) (combine (vh_depths (vp_hint p)) (vh_ext (vp_hint p)))))
        (Some (rev (sc_ser (ipa_a (mp_ipa (vp_proof p)))))) (Some (el_ser root)) = Ok true).
Proof. exact java_honest. Qed.
Example C48_case : exists cx, context_new = Ok cx /\ Forall record_fits ffi_qs /\ Forall (good_query 256 (crs_G trie_crs)) ffi_qs /\
  (exists out, c_create_proof (@rev _) cx (concat (map prover_record ffi_qs)) = Ok out /\
     c_verify_proof cx (out ++ concat (map claim_record (map claim_of ffi_qs))) = Ok true) /\
  (exists out, c_create_proof_uncompressed (@rev _) cx (concat (map prover_record_uncompressed ffi_qs)) = Ok out /\
     c_verify_proof_uncompressed cx (out ++ concat (map claim_record_uncompressed (map claim_of ffi_qs))) = Ok true).
Proof. exact c_proof_case. Qed.
Example C49_update_case : exists cx old out, context_new = Ok cx /\ len old = 64%nat /\
  j_commit Whole cx (Some (scalars_bytes (ex_scalars [5; 7; 0; 9]))) = Ok (JOk old) /\
  j_update_sparse cx (Some old) (Some [3; 1]) (Some (scalars_bytes (ex_scalars [9; 7]))) (Some (scalars_bytes (ex_scalars [12; 1000]))) = Ok (JOk out) /\
  j_commit Whole cx (Some (scalars_bytes (ex_scalars [5; 1000; 0; 12]))) = Ok (JOk out).
Proof. exact java_update_case. Qed.
Example C49_verify_case : exists cv cp cl cr os d dp fe root,
  j_verify_pre_state_root (A := ExA) (java_list ex_keys) cv cp cl cr os d dp fe root = Ok true.
Proof. exact java_verify_case. Qed.

Print Assumptions C48_create_proof.
Print Assumptions C48_verify_proof.
Print Assumptions C48_created_proofs_accepted.
Print Assumptions C48_uncompressed_create.
Print Assumptions C48_uncompressed_verify.
Print Assumptions C48_multi_scalar_mul.
Print Assumptions C48_multi_scalar_mul_bad_scalar_refuted.
Print Assumptions C48_pedersen_hash.
Print Assumptions C49_commit.
Print Assumptions C49_commit_exception.
Print Assumptions C49_update_sparse.
Print Assumptions C49_one_point.
Print Assumptions C49_many_points.
Print Assumptions C49_sizes_exception.
Print Assumptions C49_undecodable_refuted.
Print Assumptions C49_update_bad_scalar_refuted.
Print Assumptions C49_verifier.
Print Assumptions C49_accepted.
Print Assumptions C49_wrong_size_value_refuted.
Print Assumptions C49_null_panics_refuted.
Print Assumptions C49_honest_proof_partial.
