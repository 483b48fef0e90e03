(** What can be shown against the root of a trie on disk whose flushed values were written again (C69). *)
From Coq Require Import Permutation Ring.
From Verif Require Import Base BaseFacts Alg AlgFacts TreeSpec TreeFacts TrieModel TrieProofs TrieTheorems BTree
  CodecModel VerkleDbModel DbSpec VerkleDbProofs VerkleDbSim VerkleDbTheorems WireModel ProofModel ProofSpec IpaModel LagrangeSpec IpaSpec MultiProofs CheckProofs
  SoundSpec TruthSpec TruthTheorems WitnessCases EventSpec EventProofs CollisionSpec CollisionProofs RewriteSpec RewriteSim RewriteProofs RewriteFacts.
Notation len := List.length.

Section Truth.
Context {A : Alg} {L : AlgLaws A} {P : Par A} {PL : ParLaws P} {C : Codec A} {CL : CodecLaws C} {EC : ECodec A}.
Add Ring FringRT : (@F_ring A L).

Lemma tallied_wf l : wf_ops l -> wf_history (tallied l).
Proof.
  intros Hwf. pose proof (contents_wf l Hwf) as Hw1. apply Forall_forall. intros [k e] Hin. unfold tallied in Hin.
  apply in_map_iff in Hin as ([k0 y] & Ek & Hin). cbn [fst] in Ek. injection Ek as -> _. unfold wf_history in Hw1. rewrite Forall_forall in Hw1. exact (Hw1 _ Hin).
Qed.

Lemma tallied_apart l others values : (forall a, 0 < a < 2 ^ 248 -> of_Z a <> fzero) -> wf_ops l ->
  (forall k v, In (OInsert k v) l -> is_value v) -> Z.of_nat (len l) < 2 ^ 100 ->
  (forall k, hd_error (counted l k) = final_map (contents l) k) ->
  Forall is_stem others -> (forall v, In (Some v) values -> is_value v) ->
  scalars_apart (final_map (tallied l)) (stems_of (contents l)) others values.
Proof.
  intros Fit Hwf Hval Hlen Hh Hos Hvs. pose proof (contents_wf l Hwf) as Hw1.
  destruct (run_mem_canon (contents l) Hw1) as (db & Em & Cn). pose proof (tallied_map l Hh) as Ht.
  assert (Hcv : forall k y, In y (counted l k) -> is_value y).
  { intros k y Hy. apply (Hval k y). apply counted_written. left; exact Hy. }
  assert (Hmv : forall k y, final_map (contents l) k = Some y -> is_value y).
  { intros k y Hy. rewrite <- Hh in Hy. apply (Hcv k). destruct (counted l k); [discriminate Hy|]. injection Hy as ->. left; reflexivity. }
  destruct (scalars_apart_large (final_map (contents l)) (stems_of (contents l)) others values Fit
     (proj2 (can_wf _ _ _ Cn)) Hos Hmv Hvs) as [S1 S2 S3].
  assert (Inj : forall a b, 0 <= a < b -> b < 2 ^ 248 -> of_Z a <> of_Z b).
  { intros a b Hab Hb X. apply (Fit (b - a)); [lia|]. rewrite of_Z_sub, X. ring. }
  assert (P0 : 0 < 2 ^ 128) by reflexivity.
  assert (P1 : 2 ^ 128 * 2 ^ 100 + 2 ^ 128 * 2 ^ 100 < 2 ^ 248) by reflexivity.
  assert (Hlow : forall c w, (forall y, In y c -> is_value y) -> Z.of_nat (len c) < 2 ^ 100 -> sum_entry c = Some w ->
     exists z, leaf_low (Some w) = of_Z z /\ 2 ^ 128 * Z.of_nat (len c) <= z < 2 ^ 248).
  { intros c w Hv Lc Ew. exists (zsum (map low_int c) + 2 ^ 128 * Z.of_nat (len c)). split.
    - rewrite <- Ew, sum_low. apply fsum_low.
    - assert (X := zsum_bound low_int (2 ^ 128) c (fun y Hy => value_low_int y (Hv y Hy)) P0).
      assert (Y : 2 ^ 128 * Z.of_nat (len c) <= 2 ^ 128 * 2 ^ 100) by (apply Z.mul_le_mono_nonneg_l; lia).
      generalize dependent (2 ^ 128 * 2 ^ 100). generalize dependent (2 ^ 128 * Z.of_nat (len c)). generalize dependent (2 ^ 248).
      intros. lia. }
  assert (Hlc : forall k, Z.of_nat (len (counted l k)) < 2 ^ 100).
  { intros k. destruct (counted_length l k) as [X _]. unfold counted. generalize dependent (2 ^ 100). intros. lia. }
  constructor.
  - exact S1.
  - intros w [(k & Hw)|Hw]; [|apply S2; right; exact Hw]. rewrite Ht in Hw.
    destruct (Hlow _ _ (Hcv k) (Hlc k) Hw) as (z & -> & Hz).
    assert (Y : 1 < z).
    { assert (1 <= Z.of_nat (len (counted l k))) by (destruct (counted l k); [discriminate Hw|cbn [length]; lia]).
      assert (1 < 2 ^ 128) by reflexivity.
      assert (2 ^ 128 * 1 <= 2 ^ 128 * Z.of_nat (len (counted l k))) by (apply Z.mul_le_mono_nonneg_l; lia). lia. }
    split; [apply Fit; lia|]. rewrite <- of_Z_1. intro X. symmetry in X. revert X. apply Inj; lia.
  - intros k v w Hy Hw Elo Ehi. rewrite Ht in Hy. destruct (counted l k) as [|a [|b c]] eqn:Ec; [discriminate Hy| |].
    + cbn [sum_entry] in Hy. injection Hy as ->. apply (S3 k v w); auto. rewrite <- Hh, Ec. reflexivity.
    + exfalso. rewrite <- Ec in Hy. destruct (Hlow _ _ (Hcv k) (Hlc k) Hy) as (z & Ez & Hz).
      rewrite Ec in Hz. cbn [length] in Hz. rewrite Ez in Elo.
      pose proof (value_low_int w (Hvs w Hw)) as By. cbn [leaf_low] in Elo. rewrite <- of_Z_add in Elo. fold (low_int w) in Elo.
      symmetry in Elo. revert Elo. apply Inj; [|lia]. split; [lia|].
      assert (2 ^ 128 * 2 <= 2 ^ 128 * Z.of_nat (S (S (len c)))) by (apply Z.mul_le_mono_nonneg_l; lia). lia.
Qed.

(** The entry of a key with two values that count is no value. *)
Lemma sum_is_value c w : (forall y, In y c -> len y = 32%nat) -> len w = 32%nat -> sum_entry c = Some w -> c = [w].
Proof.
  intros Hc Lw E. destruct c as [|a [|b c]]; [discriminate E|now injection E as ->|].
  pose proof (sum_entry_len _ _ Hc E) as X. cbn [length] in X. lia.
Qed.

Theorem rewritten_truth l : (forall a, 0 < a < 2 ^ 248 -> of_Z a <> fzero) -> domain_fits 256 -> wf_ops l -> settled_ops l ->
  (forall k v, In (OInsert k v) l -> is_value v) -> Z.of_nat (len l) < 2 ^ 100 ->
  exists v root, run_disk l = Ok v /\ root_commitment v = Ok root /\
  forall hint comms keys values qs uh ch p,
    Forall is_key keys -> NoDup keys -> len values = len keys -> (forall x, In (Some x) values -> is_value x) -> Forall is_stem (vh_diff hint) ->
    create_verifier_queries hint comms keys values root = Ok (Some (qs, uh)) ->
    enough_challenges 8 (len qs) ch -> all_checked p hint comms keys values root qs ch -> coherent hint keys ->
    exists zs, points_ok 256 zs qs /\
    match extract_multi 256 zs qs ch (pr_a p) with
    | Opening vs =>
        (forall k x, In (k, x) (combine keys values) ->
           ((len (counted l k) < 2)%nat /\ trie_get v k = Ok x) \/ hidden (stems_of (contents l)) hint keys k x) \/
        event (final_map (tallied l)) (stems_of (contents l)) qs vs
    | Relation w => relation (crs_G trie_crs ++ [crs_Q trie_crs]) w
    end.
Proof.
  intros Fit Dom Hwf Hst Hval Hlen. destruct (rewrite_exact l Hwf Hst) as (v & E & Hg & Rc & Rh & Hh & Hc).
  exists v, (spec_root (final_map (tallied l)) (stems_of (contents l))). split; [exact E|]. split; [exact Rc|].
  intros hint comms keys values qs uh ch p Hkeys Hdup Hlv Hvs Hdiff Ev Ech Ack Hco.
  pose proof (tallied_wf l Hwf) as Hw2. destruct (run_mem_canon (tallied l) Hw2) as (db2 & Em2 & Cn2).
  destruct (canon_root _ _ _ Cn2) as [R2 _]. rewrite tallied_stems in R2.
  assert (Hap : scalars_apart (final_map (tallied l)) (stems_of (tallied l)) (map (firstn 31) keys ++ vh_diff hint) values).
  { rewrite tallied_stems. apply tallied_apart; auto. apply Forall_app. split; [|exact Hdiff]. apply Forall_forall. intros s Hs.
    apply in_map_iff in Hs. destruct Hs as (k & <- & Hk). rewrite Forall_forall in Hkeys. apply key_stem. exact (Hkeys k Hk). }
  destruct (accepted_or_event (tallied l) db2 _ hint comms keys values qs uh ch p Dom Hw2 Em2 R2 Hkeys Hdup Hlv Ev Ech Ack Hco Hap) as (zs & Hz & X).
  exists zs. split; [exact Hz|]. destruct (extract_multi 256 zs qs ch (pr_a p)) as [vs|w]; [|exact X].
  rewrite tallied_stems in X. destruct X as [X|X]; [left|right; exact X]. intros k x Hin.
  destruct (X k x Hin) as [Y|Y]; [left|right; exact Y].
  assert (Kx : final_map (tallied l) k = x).
  { unfold trie_get in Y. cbn [get_leaf memory_db_ops] in Y. unfold mem_get_leaf in Y. rewrite (can_leaf _ _ _ Cn2) in Y. now injection Y. }
  rewrite (tallied_map l Hh) in Kx.
  assert (Hcl : forall y, In y (counted l k) -> len y = 32%nat).
  { intros y Hy. apply (Hval k y). apply counted_written. left; exact Hy. }
  rewrite Hg, <- Hh. destruct x as [w|].
  - assert (Lw : len w = 32%nat) by (apply (Hvs w); apply in_combine_r in Hin; exact Hin).
    rewrite (sum_is_value _ _ Hcl Lw Kx). cbn [length hd_error]. split; [lia|reflexivity].
  - apply sum_entry_none in Kx. rewrite Kx. cbn [length hd_error]. split; [lia|reflexivity].
Qed.
End Truth.
