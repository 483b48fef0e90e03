(** When checking a proof and reading one from bytes panic (C22, C24, C50). *)
From Coq Require Import String Permutation.
From Verif Require Import Base BaseFacts Alg AlgInst TreeSpec TrieModel TrieProofs TrieTheorems ExData BTree WireModel WireSpec WireInst
  ProofModel ProofSpec ProofTheorems ProofExamples IpaModel LagrangeSpec IpaInst CheckProofs ReadSpec ReadProofs CheckTotal ProofReject CheckRefused.
Local Open Scope list_scope.
Notation len := List.length.

Section WithAlgebra.
Context {A : Alg} {AL : AlgLaws A} {P : Par A} {PL : ParLaws P} {C : ECodec A} {CL : ECodecLaws C} {H : Hasher}.

(** C22 for the whole check. *)
Theorem C22_absent_stem_refused : forall p keys values root stems k v i e,
  sorted stems -> (forall s, In s stems <-> In s (map (firstn 31) keys)) ->
  nth_error stems i = Some (firstn 31 k) -> nth_error (vh_ext (vp_hint p)) i = Some e -> e <> ExtPres ->
  In (k, Some v) (combine keys values) ->
  proof_check p keys values root = Ok (false, None) \/ proof_check p keys values root = Panic.
Proof. exact absent_claim_refused. Qed.

(** C24.  The verifier gets as far as the multipoint argument exactly on well-formed
    claims that give no value under a stem declared absent. *)
Theorem C24_queries_exactly : forall hint comms keys values root, typed hint keys values ->
  ((exists r, create_verifier_queries hint comms keys values root = Ok (Some r)) <->
   well_formed hint comms keys values /\ no_value_under_absent hint keys values).
Proof. exact queries_exactly. Qed.

(** So the check panics on exactly these proofs: those whose claims are not well formed,
    and those with eight points L and another number of points R. *)
Theorem C24_check_panics_exactly : domain_fits 256 -> forall p keys values root,
  typed (vp_hint p) keys values -> no_value_under_absent (vp_hint p) keys values ->
  (proof_check p keys values root <> Panic <->
   well_formed (vp_hint p) (vp_comms p) keys values /\
   (len (ipa_L (mp_ipa (vp_proof p))) = 8%nat -> len (ipa_R (mp_ipa (vp_proof p))) = 8%nat)).
Proof. exact check_panics_exactly. Qed.

(** Without the assumptions on values and lengths: the check answers false before looking at
    the multipoint proof exactly on the claims called [refused] in CheckRefused.v, *)
Theorem C24_refused_exactly : forall hint comms keys values root, typed_lists hint keys ->
  (create_verifier_queries hint comms keys values root = Ok None <-> refused hint keys values).
Proof. exact lists_refused. Qed.
Theorem C24_refused_answer : forall p keys values root,
  typed_lists (vp_hint p) keys -> refused (vp_hint p) keys values -> proof_check p keys values root = Ok (false, None).
Proof. exact refused_answer. Qed.
(** gets to it exactly on the claims called [in_order] there (which are the well-formed ones
    if there are as many values as keys), *)
Theorem C24_in_order_exactly : forall hint comms keys values root, typed_lists hint keys ->
  ((exists r, create_verifier_queries hint comms keys values root = Ok (Some r)) <->
   in_order hint comms keys values /\ no_value_under_absent hint keys values).
Proof. exact lists_in_order. Qed.
Theorem C24_in_order_well_formed : forall hint comms keys values, typed hint keys values -> no_value_under_absent hint keys values ->
  (in_order hint comms keys values <-> well_formed hint comms keys values).
Proof. exact in_order_well_formed. Qed.
(** and, for every proof, key list and value list, panics on exactly the others. *)
Theorem C24_check_exactly : domain_fits 256 -> forall p keys values root, typed_lists (vp_hint p) keys ->
  (proof_check p keys values root <> Panic <->
   refused (vp_hint p) keys values \/
   no_value_under_absent (vp_hint p) keys values /\ in_order (vp_hint p) (vp_comms p) keys values /\
   (len (ipa_L (mp_ipa (vp_proof p))) = 8%nat -> len (ipa_R (mp_ipa (vp_proof p))) = 8%nat)).
Proof. exact check_lists_exactly. Qed.

(** The multipoint check itself, for every list of queries. *)
Theorem C24_multipoint_check_panics_exactly : forall n k p crs pw qs tr,
  domain_fits n -> n = (2 ^ k)%nat -> crs_n crs = n -> len (crs_G crs) = n -> precomputed_weights n = Ok pw ->
  (mp_check p crs pw qs tr = Panic <-> len (ipa_L (mp_ipa p)) = k /\ len (ipa_R (mp_ipa p)) <> k).
Proof. exact mp_check_panics. Qed.

(** For proofs read from bytes only the claims matter. *)
Theorem C24_read_then_check : domain_fits 256 -> forall b p keys values root,
  is_bytes b -> Z.of_nat (len b) < 2 ^ 32 -> proof_read b = Ok (Some p) ->
  Forall is_key keys -> len values = len keys -> no_value_under_absent (vp_hint p) keys values ->
  (proof_check p keys values root <> Panic <-> well_formed (vp_hint p) (vp_comms p) keys values).
Proof. exact read_check_panics. Qed.

(** The proofs the prover makes are well formed. *)
Theorem C24_created_well_formed : forall h (db : MemoryDb) keys order p,
  wf_history h -> run_mem h = Ok db -> Forall is_key keys -> Z.of_nat (len keys) < 2 ^ 32 ->
  distinguishable (final_map h) (stems_of h) keys ->
  create_verkle_proof order db keys = Ok (Some p) ->
  well_formed (vp_hint p) (vp_comms p) keys (map (final_map h) keys) /\
  no_value_under_absent (vp_hint p) keys (map (final_map h) keys).
Proof. exact created_wf. Qed.

(** C50.  Exactly these byte strings are read as the proof [p]. *)
Theorem C50_accepted_strings : forall b p, is_bytes b -> Z.of_nat (len b) < 2 ^ 32 ->
  (proof_read b = Ok (Some p) <->
   exists stems buf, proof_layout b stems buf (map el_ser (vp_comms p)) (mp_to_bytes (vp_proof p)) /\
     Forall2 status_means buf (vh_ext (vp_hint p)) /\ vh_depths (vp_hint p) = map (fun x => x / 8) buf /\
     vh_diff (vp_hint p) = set_of stems /\ rounds (mp_ipa (vp_proof p)) 8).
Proof. exact read_accepts. Qed.

(** What was read fits the format, so writing it gives a string that is read as the same. *)
Theorem C50_read_proofs_fit : forall b p, is_bytes b -> Z.of_nat (len b) < 2 ^ 32 ->
  proof_read b = Ok (Some p) -> proof_fits p.
Proof. exact read_fits. Qed.

(** Exactly these make the reader panic; all others give an error. *)
Theorem C50_panics_exactly : forall b, is_bytes b -> Z.of_nat (len b) < 2 ^ 32 ->
  (proof_read b = Panic <->
   (exists stems buf rest, hint_layout b stems buf rest /\ Exists bad_status buf) \/
   (exists stems buf es comms tail, proof_layout b stems buf (map el_ser comms) tail /\ Forall2 status_means buf es /\ bad_tail tail)).
Proof. exact read_panics. Qed.

(** So C50 is false: every encoding with bytes missing at the end, and every one
    with bytes added, makes the reader panic; *)
Theorem C50_truncated_refuted : forall p n, proof_fits p -> (0 < n <= 576)%nat ->
  proof_read (firstn (len (proof_write p) - n) (proof_write p)) = Panic.
Proof. exact truncated_panics. Qed.
Theorem C50_trailing_refuted : forall p extra, proof_fits p -> extra <> [] -> Z.of_nat (len extra) < 2 ^ 32 - 576 ->
  proof_read (proof_write p ++ extra) = Panic.
Proof. exact trailing_panics. Qed.
(** and almost every proof has a second encoding. *)
Theorem C50_second_encoding_refuted : forall p d ds e es, proof_fits p ->
  vh_depths (vp_hint p) = d :: ds -> vh_ext (vp_hint p) = e :: es ->
  exists b, b <> proof_write p /\ proof_read b = Ok (Some p).
Proof. exact spare_bit. Qed.
End WithAlgebra.

Print Assumptions C22_absent_stem_refused.
Print Assumptions C24_queries_exactly.
Print Assumptions C24_check_panics_exactly.
Print Assumptions C24_refused_exactly.
Print Assumptions C24_refused_answer.
Print Assumptions C24_in_order_exactly.
Print Assumptions C24_in_order_well_formed.
Print Assumptions C24_check_exactly.
Print Assumptions C24_multipoint_check_panics_exactly.
Print Assumptions C24_read_then_check.
Print Assumptions C24_created_well_formed.
Print Assumptions C50_accepted_strings.
Print Assumptions C50_read_proofs_fit.
Print Assumptions C50_panics_exactly.
Print Assumptions C50_truncated_refuted.
Print Assumptions C50_trailing_refuted.
Print Assumptions C50_second_encoding_refuted.

(** ** Cases *)
(** Claims of all three kinds with a multipoint proof of the right shape: the check does
    not panic; with a point R too few it does. *)
Example C24_shapes_case : forall (c g a : @G ExA) s root,
  proof_check (mkVP wf_hint [c; c; c; c] (mkMP (mkIPA (repeat a 8) (repeat a 8) s) g)) wf_keys
    [None; Some (repeat 4 32); None; None] root <> Panic /\
  proof_check (mkVP wf_hint [c; c; c; c] (mkMP (mkIPA (repeat a 8) (repeat a 7) s) g)) wf_keys
    [None; Some (repeat 4 32); None; None] root = Panic.
Proof.
  intros c g a s root.
  assert (T : typed wf_hint wf_keys [None; Some (repeat 4 32); None; None]).
  { split; [repeat (constructor; [apply ProofRefute.key_okb; vm_compute; reflexivity|]); constructor|]. split; [reflexivity|].
    split; [apply (wp_diff_sorted _ _ _ _ (wf_ok c c c c))|]. repeat constructor; lia. }
  assert (N : no_value_under_absent wf_hint wf_keys [None; Some (repeat 4 32); None; None]).
  { intros k v d e Hk Hc. rewrite wf_claims in Hc. cbn [combine wf_keys In] in Hk.
    destruct Hk as [Hk|[Hk|[Hk|[Hk|[]]]]]; try discriminate. injection Hk as <- _.
    destruct Hc as [Hc|[Hc|[Hc|[Hc|[]]]]]; cbn [firstn repeat] in Hc; try discriminate. now injection Hc as _ <-. }
  split.
  - apply (C24_check_panics_exactly (ex_fits 256 ltac:(lia)) (mkVP wf_hint [c; c; c; c] (mkMP (mkIPA (repeat a 8) (repeat a 8) s) g)) wf_keys
      [None; Some (repeat 4 32); None; None] root T N). split; [apply wf_ok|reflexivity].
  - pose proof (proj1 (C24_check_panics_exactly (ex_fits 256 ltac:(lia)) (mkVP wf_hint [c; c; c; c] (mkMP (mkIPA (repeat a 8) (repeat a 7) s) g)) wf_keys
      [None; Some (repeat 4 32); None; None] root T N)) as X.
    destruct (proof_check _ _ _ _) as [r|]; [exfalso|reflexivity].
    destruct (X ltac:(discriminate)) as [_ Y]. specialize (Y eq_refl). discriminate.
Qed.

(** A value under the third stem, declared absent, with any commitments and any multipoint
    proof: refused.  The same with depth 32 claimed for the first stem: panic. *)
Example C24_refused_case : forall (cs : list (@G ExA)) mp root,
  refused wf_hint wf_keys [None; Some (repeat 4 32); Some (repeat 5 32); None] /\
  proof_check (mkVP wf_hint cs mp) wf_keys [None; Some (repeat 4 32); Some (repeat 5 32); None] root = Ok (false, None) /\
  proof_check (mkVP (mkHint [32; 1; 1; 2] (vh_ext wf_hint) (vh_diff wf_hint)) cs mp) wf_keys
    [None; Some (repeat 4 32); Some (repeat 5 32); None] root = Panic.
Proof.
  intros cs mp root.
  assert (T : typed_lists wf_hint wf_keys).
  { split; [repeat (constructor; [apply ProofRefute.key_okb; vm_compute; reflexivity|]); constructor|].
    split; [apply (wp_diff_sorted _ _ _ _ (wf_ok root root root root))|]. repeat constructor; lia. }
  assert (R : refused wf_hint wf_keys [None; Some (repeat 4 32); Some (repeat 5 32); None]).
  { exists [(3 :: repeat 0 31, None); (7 :: repeat 1 31, Some (repeat 4 32))], (7 :: repeat 2 31), (repeat 5 32), [(9 :: repeat 0 31, None)],
      1, ExtDifferentStem. split; [reflexivity|]. rewrite wf_claims. split; [right; right; now left|]. split; [discriminate|]. split; [lia|].
    intros k' v' [X|[X|[]]]; injection X as <- <-.
    - exists 1, ExtDifferentStem. split; [now left|]. split; [|auto]. cbn [claim_ok]. rewrite wf_claims. split; [lia|]. split.
      + intros s1 d1 s2 d2 H1 H2 _ _.
        repeat destruct H1 as [H1|H1]; try discriminate; try contradiction.
        repeat destruct H2 as [H2|H2]; try discriminate; try contradiction. injection H1 as <- <-. injection H2 as <- <-. reflexivity.
      + right. exists (3 :: repeat 5 30). split; [now left|reflexivity].
    - exists 1, ExtPres. split; [right; now left|]. split; [cbn [claim_ok]; lia|congruence]. }
  split; [exact R|]. split; [exact (C24_refused_answer (mkVP wf_hint cs mp) _ _ root T R)|]. reflexivity.
Qed.

(** With the last value missing the nodes of the last key need no commitments. *)
Example C24_lengths_case : forall (c g a : @G ExA) s root,
  in_order wf_hint [c; c; c] wf_keys [None; Some (repeat 4 32); None] /\
  proof_check (mkVP wf_hint [c; c; c] (mkMP (mkIPA (repeat a 8) (repeat a 8) s) g)) wf_keys [None; Some (repeat 4 32); None] root <> Panic.
Proof.
  intros c g a s root.
  assert (T : typed_lists wf_hint wf_keys).
  { split; [repeat (constructor; [apply ProofRefute.key_okb; vm_compute; reflexivity|]); constructor|].
    split; [apply (wp_diff_sorted _ _ _ _ (wf_ok root root root root))|]. repeat constructor; lia. }
  assert (X : exists r, create_verifier_queries wf_hint [c; c; c] wf_keys [None; Some (repeat 4 32); None] root = Ok (Some r)).
  { assert (Y : match create_verifier_queries wf_hint [c; c; c] wf_keys [None; Some (repeat 4 32); None] root with
                | Ok (Some _) => true | _ => false end = true) by (vm_compute; reflexivity).
    destruct (create_verifier_queries _ _ _ _ _) as [[r|]|]; [eauto|discriminate|discriminate]. }
  apply (C24_in_order_exactly wf_hint [c; c; c] wf_keys [None; Some (repeat 4 32); None] root T) in X as [W N].
  split; [exact W|].
  apply (C24_check_exactly (ex_fits 256 ltac:(lia)) (mkVP wf_hint [c; c; c] (mkMP (mkIPA (repeat a 8) (repeat a 8) s) g)) wf_keys
    [None; Some (repeat 4 32); None] root T). right. split; [exact N|]. split; [exact W|]. reflexivity.
Qed.

(** A proof of the example tree. *)
Example C24_created_case : exists (db : MemoryDb) p, run_mem ex_h = Ok db /\
  create_verkle_proof (@rev _) db ex_keys = Ok (Some p) /\
  well_formed (vp_hint p) (vp_comms p) ex_keys (map (final_map ex_h) ex_keys).
Proof.
  assert (Hw : wf_history ex_h) by (apply keys_okb_ok; vm_compute; reflexivity).
  destruct (root_spec ex_h Hw) as (db & E & _ & _).
  destruct (honest_accepted (ex_fits 256 ltac:(lia)) ex_h db ex_keys (@rev _) Hw E) as (qs & hint & comms & root & Ep & Er & K).
  - discriminate.
  - exact ex_keys_ok.
  - exact ex_distinguishable.
  - intro l. symmetry. apply Permutation_rev.
  - destruct (K (ex_usable qs)) as (p & uh & Ec & _). exists db, p. split; [exact E|]. split; [exact Ec|].
    apply (C24_created_well_formed ex_h db ex_keys (@rev _) p Hw E ex_keys_ok); [reflexivity|exact ex_distinguishable|exact Ec].
Qed.

(** The encoding of the example proof, cut short, lengthened and changed in one bit. *)
Example C50_case : proof_read (proof_write ex_proof) = Ok (Some ex_proof) /\
  proof_read (firstn (len (proof_write ex_proof) - 1) (proof_write ex_proof)) = Panic /\
  proof_read (proof_write ex_proof ++ [0]) = Panic /\
  exists b, b <> proof_write ex_proof /\ proof_read b = Ok (Some ex_proof).
Proof.
  split; [exact (WireProofs.proof_rt ex_proof ex_proof_fits)|].
  split; [apply (C50_truncated_refuted ex_proof 1 ex_proof_fits); lia|].
  split; [apply (C50_trailing_refuted ex_proof [0] ex_proof_fits); [discriminate|reflexivity]|].
  eapply C50_second_encoding_refuted; [exact ex_proof_fits|reflexivity|reflexivity].
Qed.
