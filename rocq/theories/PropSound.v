(** Property C46 (see properties.jsonl).  Only statements; definitions in
    [SoundSpec], models in [IpaModel] and [ProofModel]. *)
From Coq Require Import String.
From Verif Require Import Base Alg AlgInst TreeSpec TrieModel ExData WireModel WireInst ProofModel ProofSpec ProofExamples IpaModel
  LagrangeSpec IpaSpec TranscriptSpec CheckProofs IpaInst SoundSpec SoundIpa SoundMulti SoundCheck SoundHonest SoundInst.
Local Open Scope list_scope.
Notation len := List.length.

Section WithAlgebra.
Context {A : Alg} {AL : AlgLaws A} {P : Par A} {PL : ParLaws P} {C : ECodec A}.

(** C46.  Whatever the proof says, each of the three verifiers accepts exactly when the
    textbook equation holds for the challenges it has drawn. *)
Theorem C46_ipa_equation : forall (H : Hasher) k p tr crs b c z y w xs,
  crs_n crs = (2 ^ k)%nat -> len (crs_G crs) = (2 ^ k)%nat -> len b = (2 ^ k)%nat ->
  len (ipa_L p) = k -> len (ipa_R p) = k ->
  fst (run_ops tr (ipa_ops c z y (ipa_L p) (ipa_R p))) = w :: xs -> Forall (fun x => x <> fzero) xs ->
  let Q := smul w (crs_Q crs) in
  exists v, ipa_verify p tr crs b c z y = Ok v /\ ipa_verify_semi p tr crs b c z y = Ok v /\
            ipa_verify_multiexp p tr crs b c z y = Ok v /\
  (v = true <-> ipa_holds xs (ipa_L p) (ipa_R p) (ipa_a p) (crs_G crs) b Q (gadd c (smul y Q))).
Proof. exact (fun H => @verify_holds A AL C H). Qed.

(** The multipoint verifier accepts exactly when the inner-product equation holds for
    [E - D] at [t], where [E = sum r^i C_i / (t - z_i)]. *)
Theorem C46_multipoint_equation : forall (H : Hasher) k p tr crs pw zs qs r t w xs,
  let n := (2 ^ k)%nat in
  domain_fits n -> crs_n crs = n -> len (crs_G crs) = n -> precomputed_weights n = Ok pw ->
  points_ok n zs qs -> outside_domain n t -> len (ipa_L (mp_ipa p)) = k -> len (ipa_R (mp_ipa p)) = k ->
  Forall (fun x => x <> fzero) xs ->
  let E := mp_E r t fone qs in let y := mp_y r t fone qs in
  fst (run_ops tr (mp_ops qs (mp_g p) ++ TPoint (lbl "E") E :: ipa_ops (gsub E (mp_g p)) t y (ipa_L (mp_ipa p)) (ipa_R (mp_ipa p))))
    = r :: t :: w :: xs ->
  let Q := smul w (crs_Q crs) in
  exists v, mp_check p crs pw qs tr = Ok v /\
  (v = true <-> ipa_holds xs (ipa_L (mp_ipa p)) (ipa_R (mp_ipa p)) (ipa_a (mp_ipa p)) (crs_G crs) (eval_vector n t) Q
                  (gadd (gsub E (mp_g p)) (smul y Q))).
Proof. exact (fun H k p tr crs pw zs qs r t w xs => @mp_check_holds A AL C H k (2 ^ k)%nat p tr crs pw zs qs r t w xs eq_refl). Qed.

(** A prover accepted for two values of w, with four challenges in every round, knows an
    opening: it is computed from the prover's last messages, or else those give a relation
    between the generators. *)
Theorem C46_ipa_extraction : forall k w1 t1 L1 R1 a1 w2 t2 L2 R2 a2 tr crs b c z y,
  crs_n crs = (2 ^ k)%nat -> len (crs_G crs) = (2 ^ k)%nat -> len b = (2 ^ k)%nat ->
  w1 <> fzero -> w2 <> fzero -> w1 <> w2 -> full_tree k t1 -> full_tree k t2 ->
  (forall xs, In xs (paths t1) -> ipa_run L1 R1 a1 tr crs b c z y w1 xs) ->
  (forall xs, In xs (paths t2) -> ipa_run L2 R2 a2 tr crs b c z y w2 xs) ->
  match extract_ipa w1 t1 a1 w2 t2 a2 b y with
  | Opening v => len v = (2 ^ k)%nat /\ c = commit (2 ^ k) v (crs_G crs) /\ dot (2 ^ k) v b = y
  | Relation v => relation (crs_G crs ++ [crs_Q crs]) v
  end.
Proof. exact ipa_extraction. Qed.

(** The same for the multipoint argument: every query is opened to the claimed value. *)
Theorem C46_multipoint_extraction : forall k zs qs ch p tr crs pw,
  let n := (2 ^ k)%nat in
  domain_fits n -> crs_n crs = n -> len (crs_G crs) = n -> precomputed_weights n = Ok pw ->
  points_ok n zs qs -> enough_challenges k (len qs) ch -> all_accepted p tr crs pw qs ch ->
  match extract_multi n zs qs ch (pr_a p) with
  | Opening vs => len vs = len qs /\ forall i q, nth_error qs i = Some q ->
      exists v, nth_error vs i = Some v /\ len v = n /\ vq_comm q = commit n v (crs_G crs) /\
                nth (nth i zs 0%nat) v fzero = vq_result q
  | Relation v => relation (crs_G crs ++ [crs_Q crs]) v
  end.
Proof. exact multi_extraction. Qed.

(** And for whole proofs: every claim derived from the hint, the keys and the values. *)
Theorem C46_whole_proof_extraction : forall hint comms keys values root qs uh ch p,
  domain_fits 256 -> Forall is_key keys ->
  create_verifier_queries hint comms keys values root = Ok (Some (qs, uh)) ->
  enough_challenges 8 (len qs) ch -> all_checked p hint comms keys values root qs ch ->
  exists zs, points_ok 256 zs qs /\
  match extract_multi 256 zs qs ch (pr_a p) with
  | Opening vs => len vs = len qs /\ forall i q, nth_error qs i = Some q ->
      exists v, nth_error vs i = Some v /\ len v = 256%nat /\ vq_comm q = commit 256 v (crs_G trie_crs) /\
                nth (nth i zs 0%nat) v fzero = vq_result q
  | Relation v => relation (crs_G trie_crs ++ [crs_Q trie_crs]) v
  end.
Proof. exact check_extraction. Qed.
End WithAlgebra.

Print Assumptions C46_ipa_equation.
Print Assumptions C46_multipoint_equation.
Print Assumptions C46_ipa_extraction.
Print Assumptions C46_multipoint_extraction.
Print Assumptions C46_whole_proof_extraction.

(** ** Cases *)
(** The equations: the example openings, for any challenges in the range of the example hash. *)
Example C46_equation_case :
  fst (run_ops (A := ExA) ex_tr (ipa_ops (commit 8 ex_a (crs_G (ex_crs 8))) (zred p31 4) (zred p31 77)
    (repeat (zred p31 3) 3) (repeat (zred p31 4) 3))) <> [] /\
  len (crs_G (ex_crs 8)) = (2 ^ 3)%nat /\ len ex_b = (2 ^ 3)%nat /\
  exists w xs, fst (run_ops (A := ExA) ex_tr (ipa_ops (commit 8 ex_a (crs_G (ex_crs 8))) (zred p31 4) (zred p31 77)
    (repeat (zred p31 3) 3) (repeat (zred p31 4) 3))) = w :: xs /\ Forall (fun x => x <> fzero) xs.
Proof.
  assert (R : forall i, to_scalar (sha256 i) <> @fzero ExA).
  { intros i. destruct (ex_hash_range i) as (z & B & ->). apply (ex_of_Z z). lia. }
  rewrite TranscriptProofs.run_challenges.
  split; [discriminate|]. split; [reflexivity|]. split; [reflexivity|].
  eexists. eexists. split; [reflexivity|]. repeat (constructor; [apply R|]). constructor.
Qed.

(** Eight generators, 2 * 4^3 accepted runs of the honest prover. *)
Example C46_ipa_case :
  let tr := ex_tr in let crs := ex_crs 8 in
  let run w := ipa_run (hon_L ex_a ex_b (crs_G crs) (smul w (crs_Q crs))) (hon_R ex_a ex_b (crs_G crs) (smul w (crs_Q crs)))
     (hon_a ex_a ex_b (crs_G crs)) tr crs ex_b (commit 8 ex_a (crs_G crs)) (zred p31 4) (dot 8 ex_a ex_b) w in
  let t := ex_tree 3 7 in
  full_tree 3 t /\ len (paths t) = 64%nat /\
  (forall xs, In xs (paths t) -> run (zred p31 5) xs) /\ (forall xs, In xs (paths t) -> run (zred p31 6) xs).
Proof.
  assert (Pp : 1000 < p31) by reflexivity.
  assert (K : forall w xs, In xs (paths (ex_tree 3 7)) ->
    ipa_run (hon_L ex_a ex_b (crs_G (ex_crs 8)) (smul w (crs_Q (ex_crs 8)))) (hon_R ex_a ex_b (crs_G (ex_crs 8)) (smul w (crs_Q (ex_crs 8))))
     (hon_a ex_a ex_b (crs_G (ex_crs 8))) ex_tr (ex_crs 8) ex_b (commit (2 ^ 3) ex_a (crs_G (ex_crs 8))) (zred p31 4) (dot (2 ^ 3) ex_a ex_b) w xs).
  { intros w xs I. destruct (ex_path_ok 3 7 xs ltac:(lia) ltac:(lia) I) as (L & Nz & Nd).
    apply (honest_ipa_run ex_enc ex_enc_ok 3); try assumption; try reflexivity; discriminate. }
  cbv zeta. split; [apply ex_tree_full; lia|]. split; [reflexivity|]. split; intros xs I; apply (K _ xs I).
Qed.

(** Three queries over eight generators: 3 values of r, 16 of t, all accepted. *)
Example C46_multipoint_case : exists pw,
  precomputed_weights 8 = Ok pw /\ points_ok 8 [3; 6; 3]%nat (map public_query ex_qs) /\
  enough_challenges 3 3 (ex_challenges 3 3) /\
  all_accepted (hon_prover 8 (ex_crs 8) ex_qs) ex_tr (ex_crs 8) pw (map public_query ex_qs) (ex_challenges 3 3).
Proof.
  assert (W : precomputed_weights 8 = Ok (LagrangeProofs.weights 8)) by (apply LagrangeProofs.weights_ok; [apply ex_fits; lia|lia]).
  exists (LagrangeProofs.weights 8). split; [exact W|].
  assert (Good : Forall (good_query 8 (crs_G (ex_crs 8))) ex_qs).
  { repeat constructor; cbn; try lia. }
  split; [exact (good_points 8 _ _ Good)|].
  split; [apply ex_enough; cbn; lia|].
  refine (ex_all_accepted 3 (ex_crs 8) (LagrangeProofs.weights 8) ex_qs 101 _ 3 _ _ eq_refl eq_refl W Good _); cbn [In]; cbn; lia.
Qed.

(** The proof for the keys of the example tree: every run of the check is accepted. *)
Example C46_whole_case : exists (db : MemoryDb) (hint : VerificationHint) comms root qs uh p,
  run_mem ex_h = Ok db /\ root_commitment db = Ok root /\ (exists q, In q qs) /\
  create_verifier_queries hint comms ex_keys (map (final_map ex_h) ex_keys) root = Ok (Some (qs, uh)) /\
  enough_challenges 8 (len qs) (ex_challenges 8 (len qs)) /\
  all_checked p hint comms ex_keys (map (final_map ex_h) ex_keys) root qs (ex_challenges 8 (len qs)).
Proof. exact ex_all_checked. Qed.
