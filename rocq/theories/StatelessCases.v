(** An accepted proof that meets the conditions of [PropUpdateTruth], and updates by it. *)
From Coq Require Import Permutation.
From Verif Require Import Base BaseFacts Alg AlgInst TreeSpec TreeFacts TrieModel TrieProofs TrieTheorems ExData BTree WireModel WireInst ProofModel ProofSpec
  OpeningProofs ProofRefute ProofExamples IpaModel LagrangeSpec IpaSpec CheckProofs IpaTheorems IpaInst SoundSpec SoundInst TruthSpec TruthTheorems TruthInst
  StatelessModel StatelessSpec StatelessProofs StatelessTheorems StatelessExact StatelessTruth.
Local Open Scope list_scope.
Notation len := List.length.

(** A value is changed, one is added to a stem of the tree, and a stem is added next to another one; *)
Definition five_updated : list (option bytes) := [Some (repeat 77 32); Some (repeat 78 32); Some (repeat 79 32); None].
(** and a stem is added in an empty slot. *)
Definition five_updated2 : list (option bytes) := [Some (repeat 77 32); None; None; Some (repeat 80 32); None].

Lemma five_writes : writes five_keys five_updated =
  [(ex_key 5 0 130, repeat 77 32); (ex_key 5 0 131, repeat 78 32); (ex_key 6 7 1, repeat 79 32)].
Proof. reflexivity. Qed.

Lemma five_case : exists (db : MemoryDb) root p uh qs uh' vs,
  run_mem ex_h = Ok db /\ root_commitment db = Ok root /\
  proof_check p five_keys (map (final_map ex_h) five_keys) root = Ok (true, uh) /\
  create_verifier_queries (vp_hint p) (vp_comms p) five_keys (map (final_map ex_h) five_keys) root = Ok (Some (qs, uh')) /\
  Forall2 opening qs vs /\ coherent (vp_hint p) five_keys /\ ideal (final_map ex_h) (stems_of ex_h) qs vs /\
  scalars_apart (final_map ex_h) (stems_of ex_h) (map (firstn 31) five_keys ++ vh_diff (vp_hint p)) (map (final_map ex_h) five_keys) /\
  ~ writes_empty (vp_hint p) five_keys five_updated /\ writes_empty (vp_hint p) five_keys five_updated2.
Proof.
  destruct truth_case_hint as (db & root & comms & qs & uh' & vs & pr & (pqs & Ep) & E & Er & Ev & Hop & Hco & Hid & Hsc & _).
  assert (Hw : wf_history ex_h) by (apply keys_okb_ok; vm_compute; reflexivity).
  assert (D : distinguishable (final_map ex_h) (stems_of ex_h) five_keys).
  { assert (X : opened (stems_of ex_h) five_keys = opened (stems_of ex_h) ex_keys) by (vm_compute; reflexivity).
    unfold distinguishable. rewrite X. exact ex_distinguishable. }
  destruct (honest_accepted (ex_fits 256 ltac:(lia)) ex_h db five_keys (fun l => l) Hw E ltac:(discriminate) five_keys_ok D
    (fun l => Permutation_refl l)) as (qs2 & hint2 & comms2 & root2 & Ep2 & Er2 & Hu).
  destruct (Hu (ex_usable qs2)) as (p & uh & _ & Eh & Ec & Ck).
  assert (X : (pqs, proof_hint (stems_of ex_h) five_keys, comms) = (qs2, hint2, comms2)) by congruence.
  apply pair_equal_spec in X as [X <-]. apply pair_equal_spec in X as [_ <-].
  assert (root2 = root) as -> by congruence.
  exists db, root, p, (Some uh), qs, uh', vs. rewrite Eh, Ec.
  split; [exact E|]. split; [exact Er|]. split; [exact Ck|]. split; [exact Ev|]. split; [exact Hop|]. split; [exact Hco|]. split; [exact Hid|].
  split; [exact Hsc|]. split.
  - intros (k & v & d & Hi & Hc).
    assert (Y : forallb (fun kv => forallb (fun c => match c with (s, _, ExtNone) => negb (beqb s (firstn 31 (fst kv))) | _ => true end)
      (claims (proof_hint (stems_of ex_h) five_keys) five_keys)) (writes five_keys five_updated) = true) by (vm_compute; reflexivity).
    rewrite forallb_forall in Y. specialize (Y _ Hi). rewrite forallb_forall in Y. specialize (Y _ Hc). cbn beta iota in Y. cbn [fst] in Y.
    apply negb_true_iff in Y. assert (Z : beqb (firstn 31 k) (firstn 31 k) = true) by now apply beqb_eq. congruence.
  - exists (99 :: repeat 3 31), (repeat 80 32), 1. split; [vm_compute; auto|vm_compute; auto 6].
Qed.
