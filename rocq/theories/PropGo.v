(** Execution witnesses (C44). *)
From Coq Require Import Permutation String.
From Verif Require Import Base BaseFacts Alg AlgInst TreeSpec TrieModel TrieProofs TrieTheorems ExData BTree WireModel WireSpec WireInst ProofModel ProofSpec
  ProofExamples IpaModel LagrangeSpec IpaSpec CheckProofs IpaTheorems IpaInst GoModel GoSpec GoProofs GoTrie.
Local Open Scope list_scope.
Notation len := List.length.

(** ** Strings *)
Theorem C44_hex : forall n s, 
  (forall b, hex_to_fixed_size_array n s = Ok b <-> hex_means s b /\ len b = n) /\
  (hex_to_fixed_size_array n s = Panic <-> forall b, hex_means s b -> len b <> n).
Proof. exact (fun n s => conj (fixed_ok n s) (fixed_panic n s)). Qed.
Theorem C44_hex_unique : forall s b b', hex_means s b -> hex_means s b' -> b = b'.
Proof. exact hex_unique. Qed.
Theorem C44_hex_written : forall b, is_bytes b -> hex_means (hex_of b) b.
Proof. exact hex_of_means. Qed.
Theorem C44_parsed : forall w g, go_of_witness w = Ok g <-> witness_means w g /\ go_sized g.
Proof. exact go_of_witness_ok. Qed.
Theorem C44_parsed_round_trip : forall g, go_sized g -> go_of_witness (json_of_go g) = Ok g.
Proof. exact json_of_go_ok. Qed.

(** ** Keys and values *)
Theorem C44_keys : forall l, Forall (fun s => len (st_stem s) = 31%nat) l ->
  all_keys l = Ok (mkKV (diff_keys l) (diff_current l) (diff_new l)).
Proof. exact all_keys_ok. Qed.
Theorem C44_aligned : forall l, len (diff_keys l) = len (diff_current l) /\ len (diff_keys l) = len (diff_new l).
Proof. exact keys_aligned. Qed.

Section WithCodec.
Context {A : Alg} {C : ECodec A} {CL : ECodecLaws C}.

(** ** Conversion: what every witness becomes *)
Theorem C44_conversion : forall g, go_sized g ->
  (Exists bad_status (go_depths g) /\ verkle_proof_of_go g = Panic) \/
  (~ Exists bad_status (go_depths g) /\
   (~ (points_decode (go_comms g) /\ points_decode (go_cl (go_proof g)) /\ points_decode (go_cr (go_proof g))) /\
      verkle_proof_of_go g = Ok None \/
    points_decode (go_comms g) /\ points_decode (go_cl (go_proof g)) /\ points_decode (go_cr (go_proof g)) /\
     (sc_de (rev (go_final (go_proof g))) = None /\ verkle_proof_of_go g = Panic \/
      sc_de (rev (go_final (go_proof g))) <> None /\
      (el_de (go_d (go_proof g)) = None /\ verkle_proof_of_go g = Ok None \/
       exists p, go_says g p /\
         verkle_proof_of_go g = Ok (Some (p, mkKV (diff_keys (go_state g)) (diff_current (go_state g)) (diff_new (go_state g)))))))).
Proof. exact convert_cases. Qed.
Theorem C44_round_trip : forall p l, hint_fits (vp_hint p) -> state_sized l ->
  verkle_proof_of_go (go_of_proof p l) = Ok (Some (p, mkKV (diff_keys l) (diff_current l) (diff_new l))).
Proof. exact convert_rt. Qed.

(** ** The verifier *)
Context {P : Par A} {H : Hasher} {J : Json}.
Theorem C44_verifier : forall root json w p l r,
  json_de json = Some w -> witness_means w (go_of_proof p l) -> go_sized (go_of_proof p l) -> hint_fits (vp_hint p) ->
  hex_means root (el_ser r) ->
  verify_execution_witness root json = (let! (ok, _) := proof_check p (diff_keys l) (diff_current l) r in Ok ok).
Proof. exact verify_ok. Qed.
Theorem C44_accepted : forall root json, verify_execution_witness root json = Ok true ->
  exists w g p r uh, json_de json = Some w /\ witness_means w g /\ go_sized g /\ go_says g p /\ hex_means root (el_ser r) /\
    proof_check p (diff_keys (go_state g)) (diff_current (go_state g)) r = Ok (true, uh).
Proof. exact verify_accept. Qed.
(** The new values play no part. *)
Theorem C44_new_values_unchecked : forall root json json' w w' g g', json_de json = Some w -> json_de json' = Some w' ->
  witness_means w g -> witness_means w' g' -> go_sized g -> go_sized g' ->
  diff_keys (go_state g) = diff_keys (go_state g') -> diff_current (go_state g) = diff_current (go_state g') ->
  go_comms g = go_comms g' -> go_other g = go_other g' -> go_proof g = go_proof g' -> go_depths g = go_depths g' ->
  verify_execution_witness root json = verify_execution_witness root json'.
Proof. exact verify_ignores_new. Qed.
(** Malformed witnesses panic where the result type has room for [false]. *)
Theorem C44_malformed_panics_refuted : forall root json,
  (json_de json = None -> verify_execution_witness root json = Panic) /\
  (forall w, json_de json = Some w -> (forall g, witness_means w g -> ~ go_sized g) -> verify_execution_witness root json = Panic) /\
  (forall w g, json_de json = Some w -> witness_means w g -> go_sized g -> Exists bad_status (go_depths g) ->
     verify_execution_witness root json = Panic).
Proof. exact verify_bad. Qed.
End WithCodec.

(** Witnesses of trees are accepted, under the conditions of C21. *)
Theorem C44_honest_witness_partial {A : Alg} {AL : AlgLaws A} {P : Par A} {PL : ParLaws P} {C : ECodec A} {CL : ECodecLaws C} {H : Hasher} {J : Json} :
  forall h (db : MemoryDb) keys order l,
  domain_fits 256 -> (forall g, is_bytes (el_ser g)) -> (forall x, is_bytes (sc_ser x)) ->
  wf_history h -> run_mem h = Ok db -> keys <> [] -> Forall is_key keys -> Z.of_nat (len keys) < 2 ^ 32 ->
  distinguishable (final_map h) (stems_of h) keys ->
  (forall l, Permutation (order l) l) ->
  state_sized l -> diff_keys l = keys -> diff_current l = map (final_map h) keys ->
  exists qs hint comms root, create_proof_parts db keys = Ok (Some (qs, hint, comms)) /\ root_commitment db = Ok root /\
    (usable_challenges qs -> exists p, create_verkle_proof order db keys = Ok (Some p) /\
      forall json, json_de json = Some (json_of_go (go_of_proof p l)) ->
        verify_execution_witness (hex_of (el_ser root)) json = Ok true).
Proof. exact honest_witness. Qed.

(** Cases: a string, a witness of the example tree, one with a bad status. *)
Example C44_hex_case : hex_to_bytes [48; 120; 52; 70; 99; 48] = Ok [79; 192] /\ hex_of [79; 192] = [48; 120; 52; 102; 99; 48].
Proof. split; reflexivity. Qed.
Example C44_witness_case : exists w root (J : Json), json_de [] = Some w /\ (len (ew_state w) = 6)%nat /\
  verify_execution_witness (A := ExA) (hex_of (el_ser root)) [] = Ok true.
Proof. exact witness_case. Qed.
Example C44_bad_status_case : Exists bad_status [18; 11].
Proof. right. left. reflexivity. Qed.

Print Assumptions C44_hex.
Print Assumptions C44_hex_unique.
Print Assumptions C44_hex_written.
Print Assumptions C44_parsed.
Print Assumptions C44_parsed_round_trip.
Print Assumptions C44_keys.
Print Assumptions C44_aligned.
Print Assumptions C44_conversion.
Print Assumptions C44_round_trip.
Print Assumptions C44_verifier.
Print Assumptions C44_accepted.
Print Assumptions C44_new_values_unchecked.
Print Assumptions C44_malformed_panics_refuted.
Print Assumptions C44_honest_witness_partial.
