(** Proofs from a trie with rewritten values: the default curve and an example. *)
From Coq Require Import Permutation.
From Verif Require Import Base BaseFacts Alg AlgFacts AlgInst TreeSpec TreeFacts TrieModel TrieProofs TrieTheorems BTree
  CodecModel VerkleDbModel DbSpec CodecInst VerkleDbExamples WireModel WireInst ProofModel ProofSpec IpaModel LagrangeSpec IpaSpec IpaInst CheckProofs ProofRefute ProofExamples DiskProof
  SoundSpec TruthSpec EventSpec RealSpec RealProofs CollisionCases RewriteSpec RewriteFacts RewriteCases RewriteTruth RewriteProofSpec RewriteTold.
Local Open Scope list_scope.

Definition untouchedb (l : list Op) (k : bytes) : bool :=
  forallb (fun o => match o with
    | OInsert k' _ => negb (beqb (firstn 31 k') (firstn 31 k) && Bool.eqb (nth 31 k' 0 <? 128) (nth 31 k 0 <? 128)) ||
        (length (counted l k') <? 2)%nat
    | _ => true end) l.
Lemma untouchedb_ok l k : untouchedb l k = true -> untouched l k.
Proof.
  intros H k' [M1 M2]. destruct (counted l k') as [|x c] eqn:E; [cbn; lia|].
  assert (X : In (OInsert k' x) l) by (apply counted_written; left; fold (counted l k'); rewrite E; left; reflexivity).
  unfold untouchedb in H. rewrite forallb_forall in H. specialize (H _ X). cbv beta iota in H.
  rewrite M1, M2, beqb_refl, Bool.eqb_reflx, E in H. cbn [andb negb orb] in H. now apply Nat.ltb_lt in H.
Qed.

(** One half of a stem was changed after a flush; the other half of it and another stem were not. *)
Definition quiet_keys : list bytes := [e3; e2].
Lemma quiet_case : Forall is_key quiet_keys /\ Forall (untouched twice_ops) quiet_keys /\
  distinguishable (final_map (tallied twice_ops)) (stems_of (contents twice_ops)) quiet_keys /\
  map (final_map (contents twice_ops)) quiet_keys = [Some (val 5); None] /\ half_mates e1 e1 /\ firstn 31 e2 = firstn 31 e1.
Proof.
  split; [apply Forall_cons; [|apply Forall_cons; [|apply Forall_nil]]; apply key_okb; vm_compute; reflexivity|].
  split; [apply Forall_cons; [|apply Forall_cons; [|apply Forall_nil]]; apply untouchedb_ok; vm_compute; reflexivity|].
  split; [apply distinguishableb_ok; vm_compute; reflexivity|].
  split; [vm_compute; reflexivity|]. split; [split; reflexivity|reflexivity].
Qed.

Local Opaque real_par.
Lemma default_rewritten_truth l : wf_ops l -> settled_ops l -> (forall k v, In (OInsert k v) l -> is_value v) -> Z.of_nat (length l) < 2 ^ 100 ->
  exists v root, @run_disk real_alg real_par real_codec l = Ok v /\ @root_commitment real_alg _ (@verkle_db_ops real_alg real_codec) v = Ok root /\
  forall hint comms keys values qs uh ch p,
    Forall is_key keys -> NoDup keys -> length values = length keys -> (forall x, In (Some x) values -> is_value x) -> Forall is_stem (vh_diff hint) ->
    @create_verifier_queries real_alg real_par hint comms keys values root = Ok (Some (qs, uh)) ->
    @enough_challenges real_alg 8 (length qs) ch -> @all_checked real_alg real_ecodec real_par p hint comms keys values root qs ch -> coherent hint keys ->
    exists zs, @points_ok real_alg 256 zs qs /\
    match @extract_multi real_alg 256 zs qs ch (pr_a p) with
    | Opening vs =>
        (forall k x, In (k, x) (combine keys values) ->
           ((length (counted l k) < 2)%nat /\ @trie_get real_alg _ (@verkle_db_ops real_alg real_codec) v k = Ok x) \/ hidden (stems_of (contents l)) hint keys k x) \/
        @event real_alg real_par (final_map (tallied l)) (stems_of (contents l)) qs vs
    | Relation w => @relation real_alg (crs_G (@trie_crs real_alg real_par) ++ [crs_Q (@trie_crs real_alg real_par)]) w
    end.
Proof.
  exact (@rewritten_truth real_alg (proj1 real_laws) real_par (proj1 (proj2 real_laws)) real_codec
    (proj1 (proj2 (proj2 real_laws))) real_ecodec l bander_large (proj2 (proj2 (proj2 (proj2 (proj2 real_laws)))))).
Qed.

Lemma default_touched_false l keys k k' : wf_ops l -> settled_ops l ->
  (forall k v, In (OInsert k v) l -> is_value v) -> Z.of_nat (length l) < 2 ^ 100 ->
  Forall is_key keys -> In k keys -> is_key k' -> half_mates k k' -> (2 <= length (counted l k'))%nat ->
  exists v qs hint comms, @run_disk real_alg real_par real_codec l = Ok v /\
    @create_proof_parts real_alg _ (@verkle_db_ops real_alg real_codec) v keys = Ok (Some (qs, hint, comms)) /\
    ((exists q, In q qs /\ ~ @true_opening real_alg real_par q) \/
     (exists j z, 0 <= z < 256 /\
        @suffix_vec real_alg (final_map (contents l)) (firstn 31 k) j z <> @suffix_vec real_alg (final_map (tallied l)) (firstn 31 k) j z /\
        @vcommit real_alg real_par (suffix_vec (final_map (contents l)) (firstn 31 k) j) =
        @vcommit real_alg real_par (suffix_vec (final_map (tallied l)) (firstn 31 k) j))).
Proof.
  exact (@touched_false real_alg (proj1 real_laws) real_par (proj1 (proj2 real_laws)) real_codec
    (proj1 (proj2 (proj2 real_laws))) l keys k k' bander_large).
Qed.
