(** C23: what an accepted proof says about the tree. *)
From Coq Require Import String Permutation.
From Verif Require Import Base Alg AlgInst RatInst TreeSpec TrieModel TrieTheorems ExData BTree WireModel WireInst ProofModel ProofSpec OpeningProofs
  IpaModel LagrangeSpec IpaSpec MultiProofs CheckProofs IpaInst SoundSpec SoundInst TruthSpec TruthTheorems TruthRefute TruthInst.
Local Open Scope list_scope.
Notation len := List.length.

Section Properties.
Context {A : Alg} {L : AlgLaws A} {P : Par A} {PL : ParLaws P}.

(** The keys are different, the claims of the proof fit one tree, the openings of the queries
    are known, and the commitments, hashes, stems and values at hand can be told apart.  Then
    every value is the one in the tree, except that a stem may be hidden.

    Missing for the full C23: the verifier does not check that the keys differ and the claims fit,
    and a stem can be hidden; the theorems [..._refuted] show that the full C23 is false. *)
Theorem C23_coherent_claims_true_partial : forall h (db : MemoryDb) root hint comms keys values qs uh vs,
  domain_fits 256 -> wf_history h -> run_mem h = Ok db -> root_commitment db = Ok root ->
  Forall is_key keys -> NoDup keys -> len values = len keys ->
  create_verifier_queries hint comms keys values root = Ok (Some (qs, uh)) -> Forall2 opening qs vs ->
  coherent hint keys -> ideal (final_map h) (stems_of h) qs vs ->
  scalars_apart (final_map h) (stems_of h) (map (firstn 31) keys ++ vh_diff hint) values ->
  forall k v, In (k, v) (combine keys values) -> trie_get db k = Ok v \/ hidden (stems_of h) hint keys k v.
Proof. exact claims_true. Qed.

(** The same for the whole check: from provers that are accepted for enough challenges one gets
    a relation between the generators or openings, and with the latter the claims are true. *)
Theorem C23_accepted_claims_true_partial {C : ECodec A} {H : Hasher} : forall h (db : MemoryDb) root hint comms keys values qs uh ch p,
  domain_fits 256 -> wf_history h -> run_mem h = Ok db -> root_commitment db = Ok root ->
  Forall is_key keys -> NoDup keys -> len values = len keys ->
  create_verifier_queries hint comms keys values root = Ok (Some (qs, uh)) ->
  enough_challenges 8 (len qs) ch -> all_checked p hint comms keys values root qs ch ->
  coherent hint keys ->
  scalars_apart (final_map h) (stems_of h) (map (firstn 31) keys ++ vh_diff hint) values ->
  exists zs, points_ok 256 zs qs /\
  match extract_multi 256 zs qs ch (pr_a p) with
  | Opening vs => ideal (final_map h) (stems_of h) qs vs ->
      forall k v, In (k, v) (combine keys values) -> trie_get db k = Ok v \/ hidden (stems_of h) hint keys k v
  | Relation v => relation (crs_G trie_crs ++ [crs_Q trie_crs]) v
  end.
Proof. exact accepted_true. Qed.

(** Two openings of one commitment that differ give a relation between the generators. *)
Theorem C23_double_opening_partial : forall m St (qs : list VerifierQuery) vs c f g z, Forall2 opening qs vs ->
  known m St qs vs c f -> known m St qs vs c g -> 0 <= z < 256 -> f z <> g z ->
  relation (crs_G trie_crs) (map (fun i => fsub (f (Z.of_nat i)) (g (Z.of_nat i))) (seq 0 256)).
Proof. exact double_opening. Qed.

(** Stems and values are different scalars in every field with more than 2^248 elements. *)
Theorem C23_scalars_apart_partial : forall m St others values,
  (forall a, 0 < a < 2 ^ 248 -> of_Z a <> fzero) ->
  Forall is_stem St -> Forall is_stem others ->
  (forall k v, m k = Some v -> is_value v) -> (forall v, In (Some v) values -> is_value v) ->
  scalars_apart m St others values.
Proof. exact scalars_apart_large. Qed.

(** The proofs the prover makes have claims that fit one tree and hide nothing. *)
Theorem C23_created_claims_coherent_partial {C : ECodec A} {H : Hasher} : forall h (db : MemoryDb) keys order p,
  wf_history h -> run_mem h = Ok db -> Forall is_key keys -> create_verkle_proof order db keys = Ok (Some p) ->
  coherent (vp_hint p) keys /\ forall k v, ~ hidden (stems_of h) (vp_hint p) keys k v.
Proof. exact created_coherent. Qed.

(** Each condition is needed: without it the check accepts a wrong value. *)
Theorem C23_repeated_key_refuted {C : ECodec A} {CL : ECodecLaws C} {H : Hasher} : domain_fits 256 ->
  exists hint comms keys values, falsehood hint comms keys values /\ coherent hint keys.
Proof. intro Fit. do 4 eexists. exact (twice_false Fit). Qed.

Theorem C23_two_stems_in_a_slot_refuted {C : ECodec A} {CL : ECodecLaws C} {H : Hasher} : domain_fits 256 ->
  exists hint comms keys values, falsehood hint comms keys values /\
    NoDup keys /\ ends_apart hint keys /\ empty_agree hint keys /\ others_unasked hint keys.
Proof. intro Fit. do 4 eexists. exact (both_false Fit). Qed.

Theorem C23_occupied_empty_slot_refuted {C : ECodec A} {CL : ECodecLaws C} {H : Hasher} : domain_fits 256 ->
  exists hint comms keys values, falsehood hint comms keys values /\
    NoDup keys /\ ends_apart hint keys /\ single_present hint keys /\ others_unasked hint keys.
Proof. intro Fit. do 4 eexists. exact (ghost_false Fit). Qed.

Theorem C23_stem_as_other_refuted {C : ECodec A} {CL : ECodecLaws C} {H : Hasher} : domain_fits 256 ->
  exists hint comms keys values, falsehood hint comms keys values /\
    NoDup keys /\ ends_apart hint keys /\ single_present hint keys /\ empty_agree hint keys.
Proof. intro Fit. do 4 eexists. exact (self_false Fit). Qed.

Theorem C23_claim_below_claim_refuted {C : ECodec A} {CL : ECodecLaws C} {H : Hasher} : domain_fits 256 ->
  exists hint comms keys values, falsehood hint comms keys values /\
    NoDup keys /\ single_present hint keys /\ empty_agree hint keys /\ others_unasked hint keys.
Proof. intro Fit. do 4 eexists. exact (below_false Fit). Qed.
End Properties.

Print Assumptions C23_coherent_claims_true_partial.
Print Assumptions C23_accepted_claims_true_partial.
Print Assumptions C23_double_opening_partial.
Print Assumptions C23_scalars_apart_partial.
Print Assumptions C23_created_claims_coherent_partial.
Print Assumptions C23_repeated_key_refuted.
Print Assumptions C23_two_stems_in_a_slot_refuted.
Print Assumptions C23_occupied_empty_slot_refuted.
Print Assumptions C23_stem_as_other_refuted.
Print Assumptions C23_claim_below_claim_refuted.

(** ** Cases *)
(** The proof for five keys of the example tree, two present, three absent in the three possible
    ways, meets all conditions. *)
Example C23_coherent_case : exists (db : MemoryDb) root hint comms qs uh vs p,
  run_mem ex_h = Ok db /\ root_commitment db = Ok root /\
  create_verifier_queries hint comms five_keys (map (final_map ex_h) five_keys) root = Ok (Some (qs, uh)) /\
  Forall2 opening qs vs /\ coherent hint five_keys /\ ideal (final_map ex_h) (stems_of ex_h) qs vs /\
  scalars_apart (final_map ex_h) (stems_of ex_h) (map (firstn 31) five_keys ++ vh_diff hint) (map (final_map ex_h) five_keys) /\
  enough_challenges 8 (len qs) (ex_challenges 8 (len qs)) /\
  all_checked p hint comms five_keys (map (final_map ex_h) five_keys) root qs (ex_challenges 8 (len qs)).
Proof. exact truth_case. Qed.
Example C23_keys_case : Forall is_key five_keys /\ NoDup five_keys /\ wf_history ex_h /\
  map (final_map ex_h) five_keys = [Some (repeat 0 32); None; None; None; Some (repeat 8 32)].
Proof.
  split; [exact five_keys_ok|]. split; [exact five_keys_nodup|]. split; [apply keys_okb_ok; vm_compute; reflexivity|vm_compute; reflexivity].
Qed.

(** The hidden stem: the claims of C23_present_key_hidden_refuted fit one tree. *)
Example C23_hidden_case : hidden (stems_of ProofRefute.hide_h) ProofRefute.hide_hint [ProofRefute.hide_k] ProofRefute.hide_k None.
Proof.
  split; [reflexivity|]. split; [vm_compute; auto|]. exists 2. split; [vm_compute; auto|vm_compute; auto].
Qed.

(** The rationals have enough elements. *)
Example C23_scalars_case : AlgLaws RatA /\ (forall a, 0 < a < 2 ^ 248 -> @of_Z RatA a <> fzero).
Proof. split; [exact RatL|]. intros a Ha. apply rat_nonzero. lia. Qed.

(** In the example group the commitment 0 has another opening. *)
Example C23_double_case :
  let g (i : Z) : @F ExA := @crs ExA ExP i in
  let v := g 1 :: fopp (g 0) :: repeat fzero 254 in
  let q := mkVQ (A := ExA) gzero (of_Z 0) (g 1) in
  Forall2 opening [q] [v] /\
  known (fun _ => None) [] [q] [v] gzero (entry v) /\ known (fun _ => None) [] [q] [v] gzero (fun _ => fzero) /\ entry v 0 <> fzero.
Proof.
  cbv zeta. split; [constructor; [|constructor]|].
  - split; [reflexivity|]. split; [vm_compute; reflexivity|]. exists 0. split; [lia|]. split; reflexivity.
  - split; [|split; [apply known_zero|intros E; vm_compute in E; discriminate]].
    refine (known_query (A := ExA) (fun _ => None) [] [_] [_] (mkVQ (A := ExA) gzero (of_Z 0) (@crs ExA ExP 1)) _ _). now left.
Qed.
