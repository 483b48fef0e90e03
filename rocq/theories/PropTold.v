(** Property theorems C69: proofs from a trie on disk whose flushed values were written again. *)
From Coq Require Import Permutation.
From Verif Require Import Base Alg AlgInst TreeSpec TrieModel CodecModel VerkleDbModel DbSpec CodecInst VerkleDbExamples BTree
  WireModel WireInst ProofModel ProofSpec IpaModel LagrangeSpec IpaSpec IpaInst CheckProofs SoundSpec TruthSpec EventSpec RealSpec
  RewriteSpec RewriteCases RewriteTruth RewriteProofSpec RewriteTold RewriteToldCases.
Local Open Scope list_scope.

(** C69, proved part (stems settled as in C09; the flushed values are free): the prover returns; its hint, its
    commitments and the points it opens are those of the trie of the tallied contents (C67), and where it opens
    values it opens the commitment to the tallied values as if it were to the values that are read. *)
Theorem C69_openings_partial : forall (A : Alg) (L : AlgLaws A) (P : Par A) (PL : ParLaws P) (C : Codec A) (CL : CodecLaws C),
  forall l keys, wf_ops l -> settled_ops l -> keys <> [] -> Forall is_key keys ->
  exists v b qs hint comms, run_disk l = Ok v /\ run_mem (tallied l) = Ok b /\
    create_proof_parts b keys = Ok (Some (qs, hint, comms)) /\
    create_proof_parts v keys =
      Ok (Some (all_with_values (final_map (contents l)) (stems_of (contents l)) (all_entries (stems_of (contents l)) keys) qs, hint, comms)) /\
    root_commitment v = root_commitment b.
Proof. intros A L P PL C CL. exact rewritten_parts. Qed.
Print Assumptions C69_openings_partial.

(** Keys in half stems where no flushed value was changed: all openings are true, and the proof is accepted
    with the values last written, under the conditions of C21. *)
Theorem C69_untouched_accepted_partial : forall (A : Alg) (L : AlgLaws A) (P : Par A) (PL : ParLaws P) (C : Codec A) (CL : CodecLaws C) (EC : ECodec A) (H : Hasher),
  forall l keys order, domain_fits 256 -> wf_ops l -> settled_ops l -> keys <> [] -> Forall is_key keys ->
  Forall (untouched l) keys -> distinguishable (final_map (tallied l)) (stems_of (contents l)) keys ->
  (forall l, Permutation (order l) l) ->
  exists v qs hint comms root, run_disk l = Ok v /\ create_proof_parts v keys = Ok (Some (qs, hint, comms)) /\
    root_commitment v = Ok root /\ Forall true_opening qs /\
    (usable_challenges qs -> exists p uh,
       create_verkle_proof order v keys = Ok (Some p) /\ vp_hint p = hint /\ vp_comms p = comms /\
       proof_check p keys (map (final_map (contents l)) keys) root = Ok (true, Some uh)).
Proof. intros A L P PL C CL EC H. exact untouched_accepted. Qed.
Print Assumptions C69_untouched_accepted_partial.

(** A key in a half stem where a flushed value was changed: some opening is false, or two explicit different
    vectors have the same commitment. *)
Theorem C69_touched_false_partial : forall (A : Alg) (L : AlgLaws A) (P : Par A) (PL : ParLaws P) (C : Codec A) (CL : CodecLaws C),
  forall l keys k k', (forall a, 0 < a < 2 ^ 248 -> of_Z a <> fzero) -> wf_ops l -> settled_ops l ->
  (forall k v, In (OInsert k v) l -> is_value v) -> Z.of_nat (length l) < 2 ^ 100 ->
  Forall is_key keys -> In k keys -> is_key k' -> half_mates k k' -> (2 <= length (counted l k'))%nat ->
  exists v qs hint comms, run_disk l = Ok v /\ create_proof_parts v keys = Ok (Some (qs, hint, comms)) /\
    ((exists q, In q qs /\ ~ true_opening q) \/
     (exists j z, 0 <= z < 256 /\
        suffix_vec (final_map (contents l)) (firstn 31 k) j z <> suffix_vec (final_map (tallied l)) (firstn 31 k) j z /\
        vcommit (suffix_vec (final_map (contents l)) (firstn 31 k) j) = vcommit (suffix_vec (final_map (tallied l)) (firstn 31 k) j))).
Proof. intros A L P PL C CL. exact touched_false. Qed.
Print Assumptions C69_touched_false_partial.

(** Whoever makes the proof: against the root of such a trie, a key for which two values count cannot be shown
    with any value nor as absent, and another key only as [get] returns it - up to the exceptions of C23 (a
    hidden stem, an explicit event, an explicit relation among the generators). *)
Theorem C69_truth_partial : forall (A : Alg) (L : AlgLaws A) (P : Par A) (PL : ParLaws P) (C : Codec A) (CL : CodecLaws C) (EC : ECodec A),
  forall l, (forall a, 0 < a < 2 ^ 248 -> of_Z a <> fzero) -> domain_fits 256 -> wf_ops l -> settled_ops l ->
  (forall k v, In (OInsert k v) l -> is_value v) -> Z.of_nat (length l) < 2 ^ 100 ->
  exists v root, run_disk l = Ok v /\ root_commitment v = Ok root /\
  forall hint comms keys values qs uh ch p,
    Forall is_key keys -> NoDup keys -> length values = length keys -> (forall x, In (Some x) values -> is_value x) -> Forall is_stem (vh_diff hint) ->
    create_verifier_queries hint comms keys values root = Ok (Some (qs, uh)) ->
    enough_challenges 8 (length qs) ch -> all_checked p hint comms keys values root qs ch -> coherent hint keys ->
    exists zs, points_ok 256 zs qs /\
    match extract_multi 256 zs qs ch (pr_a p) with
    | Opening vs =>
        (forall k x, In (k, x) (combine keys values) ->
           ((length (counted l k) < 2)%nat /\ trie_get v k = Ok x) \/ hidden (stems_of (contents l)) hint keys k x) \/
        event (final_map (tallied l)) (stems_of (contents l)) qs vs
    | Relation w => relation (crs_G trie_crs ++ [crs_Q trie_crs]) w
    end.
Proof. intros A L P PL C CL EC. exact rewritten_truth. Qed.
Print Assumptions C69_truth_partial.

(** On the curve, the generators and the codecs of the library. *)
Theorem C69_default_truth_partial : forall l, wf_ops l -> settled_ops l -> (forall k v, In (OInsert k v) l -> is_value v) -> Z.of_nat (length l) < 2 ^ 100 ->
  exists v root, @run_disk real_alg real_par real_codec l = Ok v /\ @root_commitment real_alg _ (@verkle_db_ops real_alg real_codec) v = Ok root /\
  forall hint comms keys values qs uh ch p,
    Forall is_key keys -> NoDup keys -> length values = length keys -> (forall x, In (Some x) values -> is_value x) -> Forall is_stem (vh_diff hint) ->
    @create_verifier_queries real_alg real_par hint comms keys values root = Ok (Some (qs, uh)) ->
    @enough_challenges real_alg 8 (length qs) ch -> @all_checked real_alg real_ecodec real_par p hint comms keys values root qs ch -> coherent hint keys ->
    exists zs, @points_ok real_alg 256 zs qs /\
    match @extract_multi real_alg 256 zs qs ch (pr_a p) with
    | Opening vs =>
        (forall k x, In (k, x) (combine keys values) ->
           ((length (counted l k) < 2)%nat /\ @trie_get real_alg _ (@verkle_db_ops real_alg real_codec) v k = Ok x) \/ hidden (stems_of (contents l)) hint keys k x) \/
        @event real_alg real_par (final_map (tallied l)) (stems_of (contents l)) qs vs
    | Relation w => @relation real_alg (crs_G (@trie_crs real_alg real_par) ++ [crs_Q (@trie_crs real_alg real_par)]) w
    end.
Proof. exact default_rewritten_truth. Qed.
Print Assumptions C69_default_truth_partial.
Theorem C69_default_touched_false_partial : forall l keys k k', wf_ops l -> settled_ops l ->
  (forall k v, In (OInsert k v) l -> is_value v) -> Z.of_nat (length l) < 2 ^ 100 ->
  Forall is_key keys -> In k keys -> is_key k' -> half_mates k k' -> (2 <= length (counted l k'))%nat ->
  exists v qs hint comms, @run_disk real_alg real_par real_codec l = Ok v /\
    @create_proof_parts real_alg _ (@verkle_db_ops real_alg real_codec) v keys = Ok (Some (qs, hint, comms)) /\
    ((exists q, In q qs /\ ~ @true_opening real_alg real_par q) \/
     (exists j z, 0 <= z < 256 /\
        @suffix_vec real_alg (final_map (contents l)) (firstn 31 k) j z <> @suffix_vec real_alg (final_map (tallied l)) (firstn 31 k) j z /\
        @vcommit real_alg real_par (suffix_vec (final_map (contents l)) (firstn 31 k) j) =
        @vcommit real_alg real_par (suffix_vec (final_map (tallied l)) (firstn 31 k) j))).
Proof. exact default_touched_false. Qed.
Print Assumptions C69_default_touched_false_partial.

(** One half of a stem changed after two flushes; a key of the other half and a key of another stem. *)
Example C69_hypotheses : wf_ops twice_ops /\ settled_ops twice_ops /\ (forall k v, In (OInsert k v) twice_ops -> is_value v) /\
  (2 <= length (counted twice_ops e1))%nat /\ half_mates e1 e1 /\ firstn 31 e2 = firstn 31 e1 /\
  Forall (untouched twice_ops) quiet_keys /\ map (final_map (contents twice_ops)) quiet_keys = [Some (val 5); None].
Proof.
  destruct twice_case as (W & S & V & E & _). destruct quiet_case as (_ & U & _ & M & Hm & Hs).
  split; [exact W|]. split; [exact S|]. split; [exact V|]. split; [rewrite E; apply le_S, le_n|]. auto.
Qed.
Example C69_case : exists v p uh root, run_disk twice_ops = Ok v /\ root_commitment v = Ok root /\
  create_verkle_proof (@rev _) v quiet_keys = Ok (Some p) /\
  proof_check p quiet_keys [Some (val 5); None] root = Ok (true, Some uh).
Proof.
  destruct twice_case as (W & S & _). destruct quiet_case as (K & U & D & M & _).
  destruct (C69_untouched_accepted_partial _ _ _ _ _ _ _ _ twice_ops quiet_keys (@rev _) (ex_fits 256 ltac:(lia)) W S
    ltac:(discriminate) K U D ltac:(intro l; symmetry; apply Permutation_rev)) as (v & qs & hint & comms & root & E & _ & Er & _ & X).
  destruct (X (ex_usable qs)) as (p & uh & Ec & _ & _ & Ck). exists v, p, uh, root. rewrite <- M. auto.
Qed.
