(** Properties of the inner-product and multipoint arguments and of whole proofs
    (C21, C23, C27, C28, C29, C30, C42). *)
From Coq Require Import String Permutation.
From Verif Require Import Base BaseFacts Alg AlgInst TreeSpec TrieModel TrieProofs TrieTheorems ExData BTree WireModel WireInst ProofModel ProofSpec
  ProofExamples IpaModel LagrangeSpec IpaSpec TranscriptSpec CheckProofs IpaTheorems IpaInst.
Local Open Scope list_scope.
Notation len := List.length.

Section WithAlgebra.
Context {A : Alg} {AL : AlgLaws A} {P : Par A} {PL : ParLaws P} {C : ECodec A} {CL : ECodecLaws C} {H : Hasher}.

(** C21.  Proofs made by [create] are accepted by [check].  [usable_challenges] says
    that the challenge t of this run is no domain point and that none of its eight
    inner-product challenges is zero.  Partial because of [distinguishable]: without it the
    check panics ([C21_check_panics], [C21_honest_proof_refuted]). *)
Theorem C21_honest_proof_accepted_partial : domain_fits 256 -> forall h (db : MemoryDb) keys order,
  wf_history h -> run_mem h = Ok db -> keys <> [] -> Forall is_key keys ->
  distinguishable (final_map h) (stems_of h) keys ->
  (forall l, Permutation (order l) l) ->
  exists qs hint comms root, create_proof_parts db keys = Ok (Some (qs, hint, comms)) /\
    root_commitment db = Ok root /\
    (usable_challenges qs -> exists p uh,
       create_verkle_proof order db keys = Ok (Some p) /\ vp_hint p = hint /\ vp_comms p = comms /\
       proof_check p keys (map (final_map h) keys) root = Ok (true, Some uh)).
Proof. exact honest_accepted. Qed.

(** The same from the proof's side: once a proof was made, only the challenge t
    can stand in the way. *)
Theorem C21_created_proof_accepted_partial : domain_fits 256 -> forall h (db : MemoryDb) keys order p,
  wf_history h -> run_mem h = Ok db -> keys <> [] -> Forall is_key keys ->
  distinguishable (final_map h) (stems_of h) keys ->
  (forall l, Permutation (order l) l) ->
  create_verkle_proof order db keys = Ok (Some p) ->
  exists root qs uh, root_commitment db = Ok root /\
    create_verifier_queries (vp_hint p) (vp_comms p) keys (map (final_map h) keys) root = Ok (Some (qs, uh)) /\
    (outside_domain 256 (fst (mp_t (tr_new (lbl "vt")) qs (mp_g (vp_proof p)))) ->
     proof_check p keys (map (final_map h) keys) root = Ok (true, Some uh)).
Proof. exact created_accepted. Qed.

Theorem C21_check_panics : domain_fits 256 -> forall h (db : MemoryDb) keys order p root,
  wf_history h -> run_mem h = Ok db -> Forall is_key keys -> root_commitment db = Ok root ->
  ~ distinguishable (final_map h) (stems_of h) keys ->
  create_verkle_proof order db keys = Ok (Some p) ->
  proof_check p keys (map (final_map h) keys) root = Panic.
Proof. exact created_panics. Qed.

(** C23 is false of the whole check: for every hash function and group there is a
    tree, a key in it, and hints and commitments, such that a multipoint proof makes
    the whole check accept that the key is absent (provided the challenges of that
    multipoint proof are usable). *)
Theorem C23_hidden_key_passes_check_refuted : domain_fits 256 ->
  exists h (db : MemoryDb) root hint comms k v qs uh,
    wf_history h /\ run_mem h = Ok db /\ root_commitment db = Ok root /\ is_key k /\
    trie_get db k = Ok (Some v) /\
    create_verifier_queries hint comms [k] [None] root = Ok (Some (map public_query qs, uh)) /\
    (usable_challenges qs -> exists mp, proof_check (mkVP hint comms mp) [k] [None] root = Ok (true, Some uh)).
Proof. exact hidden_key_checked. Qed.

(** And one that makes it accept a value that was never written. *)
Theorem C23_forged_value_passes_check_refuted : domain_fits 256 ->
  exists h (db : MemoryDb) root hint comms k1 v1 k2 v2 qs uh,
    wf_history h /\ run_mem h = Ok db /\ root_commitment db = Ok root /\ is_key k1 /\ is_key k2 /\ k1 <> k2 /\
    trie_get db k2 = Ok None /\
    create_verifier_queries hint comms [k1; k2] [Some v1; Some v2] root = Ok (Some (map public_query qs, uh)) /\
    (usable_challenges qs ->
     exists mp, proof_check (mkVP hint comms mp) [k1; k2] [Some v1; Some v2] root = Ok (true, Some uh)).
Proof. exact forged_value_checked. Qed.

(** C27. *)
Theorem C27_inner_product_proof_accepted : forall tr crs k a b z,
  crs_n crs = (2 ^ k)%nat -> len (crs_G crs) = (2 ^ k)%nat -> len a = (2 ^ k)%nat -> len b = (2 ^ k)%nat ->
  let c := commit (2 ^ k) a (crs_G crs) in
  (forall p tr', ipa_create tr crs a c b z = Ok (p, tr') ->
     len (ipa_L p) = k /\ len (ipa_R p) = k /\ ipa_verify p tr crs b c z (dot (2 ^ k) a b) = Ok true) /\
  (ipa_create tr crs a c b z <> Panic <-> Forall (fun x => x <> fzero) (ipa_challenges k tr crs a c b z)).
Proof. exact ipa_accepted. Qed.

(** C28, for proofs with k rounds each way, whatever they contain. *)
Theorem C28_verifiers_agree : forall p tr crs k b c z y,
  len (ipa_L p) = k -> len (ipa_R p) = k -> crs_n crs = (2 ^ k)%nat -> len (crs_G crs) = (2 ^ k)%nat ->
  len b = (2 ^ k)%nat ->
  exists v, ipa_verify p tr crs b c z y = Ok v /\ ipa_verify_multiexp p tr crs b c z y = Ok v /\
    ipa_verify_semi p tr crs b c z y = Ok v.
Proof. exact ipa_verifiers_agree. Qed.

(** And with a number of rounds that does not fit the reference string. *)
Theorem C28_wrong_rounds_rejected : forall p tr crs b c z y,
  crs_n crs <> (2 ^ len (ipa_L p))%nat ->
  ipa_verify p tr crs b c z y = Ok false /\ ipa_verify_multiexp p tr crs b c z y = Ok false /\
  ipa_verify_semi p tr crs b c z y = Ok false.
Proof. exact IpaProofs.verify_wrong_rounds. Qed.

(** C29. *)
Theorem C29_multipoint_proof_accepted : forall n k pw crs,
  domain_fits n -> n = (2 ^ k)%nat -> crs_n crs = n -> len (crs_G crs) = n -> precomputed_weights n = Ok pw ->
  forall order tr qs, (forall l, Permutation (order l) l) -> qs <> [] -> Forall (good_query n (crs_G crs)) qs ->
  outside_domain n (mp_honest_t n tr crs qs) ->
  (Forall (fun x => x <> fzero) (mp_honest_challenges k tr crs qs) -> exists p s,
     mp_open order crs pw tr qs = Ok (p, s) /\ mp_check p crs pw (map public_query qs) tr = Ok true) /\
  (~ Forall (fun x => x <> fzero) (mp_honest_challenges k tr crs qs) -> mp_open order crs pw tr qs = Panic).
Proof. exact multi_theorem. Qed.

Theorem C29_created_proof_accepted : forall n k pw crs,
  domain_fits n -> n = (2 ^ k)%nat -> crs_n crs = n -> len (crs_G crs) = n -> precomputed_weights n = Ok pw ->
  forall order tr qs p s, (forall l, Permutation (order l) l) -> qs <> [] -> Forall (good_query n (crs_G crs)) qs ->
  mp_open order crs pw tr qs = Ok (p, s) ->
  outside_domain n (fst (mp_t tr (map public_query qs) (mp_g p))) ->
  mp_check p crs pw (map public_query qs) tr = Ok true.
Proof. exact multi_created. Qed.

(** The prover does not look at whether the claims are true: on any polynomials and points of the domain it
    panics exactly when a challenge is zero, and its proof does not depend on the order of a hash map. *)
Theorem C29_prover_panics_exactly : forall n k pw crs,
  domain_fits n -> n = (2 ^ k)%nat -> crs_n crs = n -> len (crs_G crs) = n -> precomputed_weights n = Ok pw ->
  forall order tr qs, (forall l, Permutation (order l) l) -> qs <> [] -> Forall (fitting_query n) qs ->
  outside_domain n (mp_honest_t n tr crs qs) ->
  (mp_open order crs pw tr qs = Panic <-> ~ Forall (fun x => x <> fzero) (mp_honest_challenges k tr crs qs)).
Proof. exact multi_total. Qed.
Theorem C29_order_irrelevant : forall n k pw crs,
  domain_fits n -> n = (2 ^ k)%nat -> crs_n crs = n -> len (crs_G crs) = n -> precomputed_weights n = Ok pw ->
  forall order1 order2 tr qs, (forall l, Permutation (order1 l) l) -> (forall l, Permutation (order2 l) l) ->
  qs <> [] -> Forall (fitting_query n) qs -> outside_domain n (mp_honest_t n tr crs qs) ->
  mp_open order1 crs pw tr qs = mp_open order2 crs pw tr qs.
Proof. exact multi_order_irrelevant. Qed.

(** C30. *)
Theorem C30_weights : forall n, domain_fits n -> (0 < n)%nat -> exists pw, precomputed_weights n = Ok pw /\
  (forall i, (i < n)%nat -> prod_except n i (pt i) <> fzero /\
     get_barycentric_weight pw i = Ok (prod_except n i (pt i)) /\
     get_inverse_barycentric_weight pw i = Ok (finv (prod_except n i (pt i)))) /\
  (forall k, (0 < k < n)%nat ->
     get_inverted_element pw k false = Ok (finv (pt k)) /\ get_inverted_element pw k true = Ok (fopp (finv (pt k)))).
Proof. exact lagrange_weights. Qed.

Theorem C30_evaluation_outside : forall n pw f t,
  domain_fits n -> (0 < n)%nat -> precomputed_weights n = Ok pw -> (len f <= n)%nat -> outside_domain n t ->
  exists b, evaluate_lagrange_coefficients pw n t = Ok b /\ len b = n /\ inner_product (values_of f n) b = peval f t.
Proof. exact lagrange_evaluation. Qed.

Theorem C30_evaluation_inside : forall n f i, (i < n)%nat ->
  evaluate_in_domain (lb_new (values_of f n)) i = Ok (peval f (pt i)).
Proof. exact in_domain. Qed.

Theorem C30_division : forall n pw f i,
  domain_fits n -> (0 < n)%nat -> precomputed_weights n = Ok pw -> (len f <= n)%nat -> (i < n)%nat ->
  exists g, len g = (len f - 1)%nat /\ (forall x, fmul (fsub x (pt i)) (peval g x) = fsub (peval f x) (peval f (pt i))) /\
    divide_by_linear_vanishing (lb_new (values_of f n)) pw i = Ok (lb_new (values_of g n)).
Proof. exact lagrange_division. Qed.

(** Every vector is the evaluation form of some polynomial. *)
Theorem C30_every_vector : forall n, domain_fits n -> (0 < n)%nat -> forall v, len v = n ->
  exists f, (len f <= n)%nat /\ values_of f n = v.
Proof. exact LagrangeProofs.interpolate. Qed.

(** C42.  The challenges drawn by any sequence of calls are the hashes of the byte
    strings [hash_inputs]. *)
Theorem C42_challenges_are_hashes : forall ops tr,
  fst (run_ops tr ops) = map (fun i => to_scalar (sha256 i)) (hash_inputs tr ops).
Proof. exact TranscriptProofs.run_challenges. Qed.

(** For one protocol shape the strings determine everything absorbed before the
    last challenge. *)
Theorem C42_inputs_bind : forall ops1 ops2 (tr1 tr2 : bytes),
  map kind ops1 = map kind ops2 -> len tr1 = len tr2 ->
  hash_inputs tr1 ops1 = hash_inputs tr2 ops2 ->
  (exists l, last ops1 (TSep []) = TChallenge l) -> tr1 = tr2 /\ ops1 = ops2.
Proof. exact TranscriptProofs.same_inputs. Qed.

(** Without collisions among the strings that occur, the last challenge alone does. *)
Theorem C42_last_challenge_binds : forall ops1 ops2 (tr1 tr2 : bytes),
  map kind ops1 = map kind ops2 -> len tr1 = len tr2 ->
  (exists l, last ops1 (TSep []) = TChallenge l) ->
  no_collision (hash_inputs tr1 ops1) (hash_inputs tr2 ops2) ->
  last (fst (run_ops tr1 ops1)) fzero = last (fst (run_ops tr2 ops2)) fzero -> tr1 = tr2 /\ ops1 = ops2.
Proof. exact TranscriptProofs.last_input_binds. Qed.

(** For the multipoint argument: r and t hash these strings, and the first one
    determines the queries, also their number. *)
Theorem C42_multipoint_inputs : forall tr qs D, exists i1 i2,
  hash_inputs tr (mp_ops qs D) = [i1; i2] /\
  fst (mp_r tr qs) = to_scalar (sha256 i1) /\ fst (mp_t tr qs D) = to_scalar (sha256 i2) /\
  i1 = tr ++ lbl "multiproof" ++
       flat_map (fun q => lbl "C" ++ el_ser (vq_comm q) ++ lbl "z" ++ sc_ser (vq_point q) ++ lbl "y" ++ sc_ser (vq_result q)) qs ++
       lbl "r" /\
  i2 = lbl "r" ++ sc_ser (fst (mp_r tr qs)) ++ lbl "D" ++ el_ser D ++ lbl "t".
Proof. exact mp_t_inputs. Qed.

Theorem C42_multipoint_queries_bound : forall (tr : bytes) qs1 qs2 D1 D2,
  nth_error (hash_inputs tr (mp_ops qs1 D1)) 0 = nth_error (hash_inputs tr (mp_ops qs2 D2)) 0 -> qs1 = qs2.
Proof. exact mp_r_binds. Qed.

Theorem C42_multipoint_challenge_binds : forall tr1 tr2 qs1 qs2 D1 D2,
  len tr1 = len tr2 -> len qs1 = len qs2 ->
  no_collision (hash_inputs tr1 (mp_ops qs1 D1)) (hash_inputs tr2 (mp_ops qs2 D2)) ->
  fst (mp_t tr1 qs1 D1) = fst (mp_t tr2 qs2 D2) -> tr1 = tr2 /\ qs1 = qs2 /\ D1 = D2.
Proof. exact mp_binds. Qed.
End WithAlgebra.

Print Assumptions C21_honest_proof_accepted_partial.
Print Assumptions C21_created_proof_accepted_partial.
Print Assumptions C21_check_panics.
Print Assumptions C23_hidden_key_passes_check_refuted.
Print Assumptions C23_forged_value_passes_check_refuted.
Print Assumptions C27_inner_product_proof_accepted.
Print Assumptions C28_verifiers_agree.
Print Assumptions C28_wrong_rounds_rejected.
Print Assumptions C29_multipoint_proof_accepted.
Print Assumptions C29_created_proof_accepted.
Print Assumptions C29_prover_panics_exactly.
Print Assumptions C29_order_irrelevant.
Print Assumptions C30_weights.
Print Assumptions C30_evaluation_outside.
Print Assumptions C30_evaluation_inside.
Print Assumptions C30_division.
Print Assumptions C30_every_vector.
Print Assumptions C42_challenges_are_hashes.
Print Assumptions C42_inputs_bind.
Print Assumptions C42_last_challenge_binds.
Print Assumptions C42_multipoint_inputs.
Print Assumptions C42_multipoint_queries_bound.
Print Assumptions C42_multipoint_challenge_binds.

(** ** Cases *)
(** The proof for six keys of the example tree is accepted. *)
Example C21_whole_case : exists (db : MemoryDb) p uh root,
  run_mem ex_h = Ok db /\ root_commitment db = Ok root /\
  create_verkle_proof (@rev _) db ex_keys = Ok (Some p) /\
  proof_check p ex_keys (map (final_map ex_h) ex_keys) root = Ok (true, Some uh).
Proof.
  assert (Hw : wf_history ex_h) by (apply keys_okb_ok; vm_compute; reflexivity).
  destruct (root_spec ex_h Hw) as (db & E & _ & _).
  destruct (C21_honest_proof_accepted_partial (ex_fits 256 ltac:(lia)) ex_h db ex_keys (@rev _) Hw E) as (qs & hint & comms & root & Ep & Er & K).
  - discriminate.
  - exact ex_keys_ok.
  - exact ex_distinguishable.
  - intro l. symmetry. apply Permutation_rev.
  - destruct (K (ex_usable qs)) as (p & uh & Ec & _ & _ & Ck). exists db, p, uh, root. auto.
Qed.

(** In the example group, with the example hash, both forgeries pass the check. *)
Example C23_case :
  (exists h (db : MemoryDb) root p uh k v, run_mem h = Ok db /\ root_commitment db = Ok root /\
     trie_get db k = Ok (Some v) /\ proof_check p [k] [None] root = Ok (true, Some uh)) /\
  (exists h (db : MemoryDb) root p uh k1 v1 k2 v2, run_mem h = Ok db /\ root_commitment db = Ok root /\
     trie_get db k2 = Ok None /\ proof_check p [k1; k2] [Some v1; Some v2] root = Ok (true, Some uh)).
Proof.
  split.
  - destruct (C23_hidden_key_passes_check_refuted (ex_fits 256 ltac:(lia)))
      as (h & db & root & hint & comms & k & v & qs & uh & _ & E & Er & _ & Eg & _ & K).
    destruct (K (ex_usable qs)) as [mp Ck]. exists h, db, root, (mkVP hint comms mp), uh, k, v. auto.
  - destruct (C23_forged_value_passes_check_refuted (ex_fits 256 ltac:(lia)))
      as (h & db & root & hint & comms & k1 & v1 & k2 & v2 & qs & uh & _ & E & Er & _ & _ & _ & Eg & _ & K).
    destruct (K (ex_usable qs)) as [mp Ck]. exists h, db, root, (mkVP hint comms mp), uh, k1, v1, k2, v2. auto.
Qed.

(** A proof with three rounds; challenges are non-zero; a wrong result is refused. *)
Example C27_case :
  (let c := commit 8 ex_a (crs_G (ex_crs 8)) in
   let! (p, _) := ipa_create ex_tr (ex_crs 8) ex_a c ex_b (zred p31 5) in
   let! v := ipa_verify p ex_tr (ex_crs 8) ex_b c (zred p31 5) (dot 8 ex_a ex_b) in
   let! w := ipa_verify p ex_tr (ex_crs 8) ex_b c (zred p31 5) (zred p31 1) in
   Ok (v, w, nonzero (ipa_challenges 3 ex_tr (ex_crs 8) ex_a c ex_b (zred p31 5)))) = Ok (true, false, true).
Proof. vm_compute. reflexivity. Qed.
(** An honest and a dishonest proof, and one of the wrong size. *)
Example C28_case :
  (let c := commit 8 ex_a (crs_G (ex_crs 8)) in
   let z := zred p31 5 in
   let! (p, _) := ipa_create ex_tr (ex_crs 8) ex_a c ex_b z in
   let bad := mkIPA (ipa_L p) (ipa_R p) (zred p31 3) in
   let all q crs y := (ipa_verify q ex_tr crs ex_b c z y, ipa_verify_multiexp q ex_tr crs ex_b c z y, ipa_verify_semi q ex_tr crs ex_b c z y) in
   Ok (all p (ex_crs 8) (dot 8 ex_a ex_b), all bad (ex_crs 8) (dot 8 ex_a ex_b), all p (ex_crs 16) (dot 8 ex_a ex_b)))
  = Ok ((Ok true, Ok true, Ok true), (Ok false, Ok false, Ok false), (Ok false, Ok false, Ok false)).
Proof. vm_compute. reflexivity. Qed.

Example C29_hypotheses : domain_fits (A := ExA) 8 /\ Forall (good_query 8 (crs_G (ex_crs 8))) ex_qs /\
  outside_domain 8 (mp_honest_t 8 ex_tr (ex_crs 8) ex_qs) /\
  Forall (fun x => x <> fzero) (mp_honest_challenges 3 ex_tr (ex_crs 8) ex_qs).
Proof.
  split; [apply ex_fits; lia|]. split; [|split].
  - repeat constructor; cbn; lia.
  - apply ex_honest_t. lia.
  - apply ex_honest_challenges.
Qed.
Example C29_case :
  (let! pw := precomputed_weights 8 in
   let! (p, _) := mp_open (@rev _) (ex_crs 8) pw ex_tr ex_qs in
   let! v := mp_check p (ex_crs 8) pw (map public_query ex_qs) ex_tr in
   let! w := mp_check p (ex_crs 8) pw (map public_query (rev ex_qs)) ex_tr in Ok (v, w)) = Ok (true, false).
Proof. vm_compute. reflexivity. Qed.

(** A false claim: a proof is made and refused. *)
Definition C29_false : list ProverQuery :=
  map (fun q => mkPQ (pq_comm q) (pq_poly q) (pq_point q) (fadd (pq_result q) fone)) ex_qs.
Example C29_false_hypotheses : Forall (fitting_query 8) C29_false /\
  outside_domain 8 (mp_honest_t 8 ex_tr (ex_crs 8) C29_false) /\
  Forall (fun x => x <> fzero) (mp_honest_challenges 3 ex_tr (ex_crs 8) C29_false).
Proof.
  split; [|split].
  - repeat constructor; cbn; lia.
  - apply ex_honest_t. lia.
  - apply ex_honest_challenges.
Qed.
Example C29_false_case :
  (let! pw := precomputed_weights 8 in
   let! (p, _) := mp_open (@rev _) (ex_crs 8) pw ex_tr C29_false in
   mp_check p (ex_crs 8) pw (map public_query C29_false) ex_tr) = Ok false.
Proof. vm_compute. reflexivity. Qed.

(** f = 7 + 2 X + 5 X^3 on {0..7}: f(100), and the quotient by X - 3 is 47 + 15 X + 5 X^2. *)
Example C30_case :
  (let f := map (zred p31) [7; 2; 0; 5] in
   let! pw := precomputed_weights 8 in
   let! b := evaluate_lagrange_coefficients pw 8 (zred p31 100) in
   let! q := divide_by_linear_vanishing (lb_new (values_of f 8)) pw 3 in
   Ok (zval p31 (inner_product (values_of f 8) b), map (zval p31) (lb_values q))) =
  Ok (5000207, map (fun x => 47 + 15 * x + 5 * x * x) [0; 1; 2; 3; 4; 5; 6; 7]).
Proof. vm_compute. reflexivity. Qed.

(** Two runs that differ in one scalar. *)
Example C42_case :
  let ops y := [TScalar (A := ExA) (lbl "a") (zred p31 4); TChallenge (lbl "x"); TScalar (lbl "b") (zred p31 y); TChallenge (lbl "w")] in
  map kind (ops 1) = map kind (ops 2) /\
  map (zval p31) (fst (run_ops ex_tr (ops 1))) <> map (zval p31) (fst (run_ops ex_tr (ops 2))).
Proof. split; [reflexivity|]. vm_compute. discriminate. Qed.
