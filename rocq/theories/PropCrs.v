(** The default generators (C57), and the laws the other theorems assume, for the constants of the real
    curve and those generators (C58). *)
From Coq Require Import Znumtheory Permutation String.
From Verif Require Import Base Alg TreeSpec TrieModel CodecModel MsmModel WireModel ProofModel ProofSpec IpaModel LagrangeSpec IpaSpec CheckProofs IpaTheorems
  ElementModel ElementSpec CurveModel CurveSpec CurveAlg Bander CrsModel DefaultCrs RealSpec CrsProofs RealProofs.
Local Open Scope Z_scope.
Local Open Scope list_scope.

(** ** C57 *)
Section Any.
Context {B : BaseField} {BL : BaseFieldLaws B}.
(** Generators read from 64-byte strings are written back as those strings, *)
Theorem C57_written_back : forall bs c, Forall (fun b => length b = 64%nat /\ is_bytes b) bs -> crs_from_bytes bs = Ok c ->
  crs_to_bytes c = Ok bs /\ (length (fst c) + 1)%nat = length bs.
Proof. exact crs_back. Qed.
(** and reading panics exactly if there is none or a coordinate is not below the modulus. *)
Theorem C57_panics_exactly : forall bs, Forall (fun b => length b = 64%nat) bs ->
  (crs_from_bytes bs = Panic <-> bs = [] \/ Exists (fun b => ~ coordinates_below b) bs).
Proof. exact crs_panics. Qed.
End Any.
(** The default generators can be read; *)
Theorem C57_default_loads : exists gens Q, @crs_from_bytes Bander default_crs_bytes = Ok (gens, Q) /\ length gens = 256%nat.
Proof. exact (let '(ex_intro _ gens (ex_intro _ Q (conj E (conj L _)))) := default_read in
  ex_intro _ gens (ex_intro _ Q (conj E L))). Qed.
(** the 256 and Q are elements of the group, no two of them equal and none zero, *)
Theorem C57_default_elements : forall gens Q, @crs_from_bytes Bander default_crs_bytes = Ok (gens, Q) ->
  length gens = 256%nat /\ Forall (@group_element Bander) (gens ++ [Q]) /\ @all_different Bander (gens ++ [Q]).
Proof. exact default_elements. Qed.
Theorem C57_default_not_zero : forall gens Q e, @crs_from_bytes Bander default_crs_bytes = Ok (gens, Q) -> In e (gens ++ [Q]) ->
  element_is_zero e = false.
Proof. exact default_nonzero. Qed.
(** and those at these positions, and no others, are in coordinates that the reader with the check refuses. *)
Theorem C57_default_unreadable : forall gens Q i e, @crs_from_bytes Bander default_crs_bytes = Ok (gens, Q) ->
  nth_error (gens ++ [Q]) i = Some e -> (readable e = false <-> In i unreadable_generators).
Proof. exact default_unreadable. Qed.

(** ** C58 *)
(** The constants, and the laws for them: both moduli are prime, the curve is complete, and its subgroup
    has the order of the scalars. *)
Theorem C58_constants :
  @q_modulus Bander = 0x73eda753299d7d483339d80809a1d80553bda402fffe5bfeffffffff00000001 /\
  @q_int Bander coeff_a = (-5) mod @q_modulus Bander /\
  @q_int Bander coeff_d = 0x6389c12633c267cbc66e3bf86be3b6d8cb66677177e54f92b369f2f5188d58e7 /\
  Z.of_nat (@q_order Bander) = 0x1cfb69d4ca675f520cce760202687600ff8f87007419047174fd06b52876e7e1 /\
  prime (@q_modulus Bander) /\ prime (Z.of_nat (@q_order Bander)).
Proof. exact real_constants. Qed.
Theorem C58_laws : BaseFieldLaws Bander /\ CurveLaws Bander /\ AlgLaws BanderF /\ ScalarLaws Bander BanderF BanderI /\
  2 ^ 240 < Z.of_nat (@q_order Bander).
Proof. exact (conj bander_laws (conj bander_curve (conj BanderF_laws (conj bander_scalars bander_big)))). Qed.
(** Every element is exactly one multiple of any element other than zero. *)
Theorem C58_cyclic : forall g e : @Element Bander, group_element g -> group_element e -> element_is_zero g = false ->
  exists s : @F BanderF, element_eqb e (@element_mul Bander BanderF BanderI g s) = true /\
    forall s', element_eqb e (@element_mul Bander BanderF BanderI g s') = true -> s' = s.
Proof. exact cyclic. Qed.
Theorem C58_multiples_differ : forall (g : @Element Bander) s t, group_element g -> element_is_zero g = false ->
  element_eqb (@element_mul Bander BanderF BanderI g s) (@element_mul Bander BanderF BanderI g t) = true -> s = t.
Proof. exact multiples_differ. Qed.
(** What the other theorems assume of the group, the generators, the encodings and the domain. *)
Theorem C58_hypotheses : AlgLaws real_alg /\ ParLaws real_par /\ CodecLaws real_codec /\ ECodecLaws real_ecodec /\
  FrIntLaws real_int /\ @domain_fits real_alg 256.
Proof. exact real_laws. Qed.
(** So for example the proofs made from a trie on the real curve are accepted (C21). *)
Section Proofs.
#[local] Existing Instance real_par.
#[local] Existing Instance real_ecodec.
Context {H : Hasher}.
Theorem C58_created_proof_accepted : forall h (db : @MemoryDb real_alg) keys (order : list (@Group real_alg) -> list (@Group real_alg)) (p : @VerkleProof real_alg),
  wf_history h -> @run_mem real_alg real_par h = Ok db -> keys <> [] -> Forall is_key keys ->
  @distinguishable real_alg real_par (final_map h) (stems_of h) keys ->
  (forall l, Permutation (order l) l) ->
  create_verkle_proof order db keys = Ok (Some p) ->
  exists root qs uh, root_commitment db = Ok root /\
    create_verifier_queries (vp_hint p) (vp_comms p) keys (map (final_map h) keys) root = Ok (Some (qs, uh)) /\
    (outside_domain 256 (fst (mp_t (tr_new (lbl "vt")) qs (mp_g (vp_proof p)))) ->
     proof_check p keys (map (final_map h) keys) root = Ok (true, Some uh)).
Proof. exact (@created_accepted real_alg (proj1 real_laws) real_par (proj1 (proj2 real_laws)) real_ecodec H
  (proj2 (proj2 (proj2 (proj2 (proj2 real_laws)))))). Qed.
End Proofs.

Print Assumptions C57_written_back.
Print Assumptions C57_panics_exactly.
Print Assumptions C57_default_loads.
Print Assumptions C57_default_elements.
Print Assumptions C57_default_not_zero.
Print Assumptions C57_default_unreadable.
Print Assumptions C58_constants.
Print Assumptions C58_laws.
Print Assumptions C58_cyclic.
Print Assumptions C58_multiples_differ.
Print Assumptions C58_hypotheses.
Print Assumptions C58_created_proof_accepted.
