(** A chain of two blocks, and one whose second block writes to an empty slot. *)
From Coq Require Import Permutation.
From Verif Require Import Base BaseFacts Alg AlgInst TreeSpec TreeFacts TrieModel TrieProofs TrieTheorems ExData BTree WireModel WireInst ProofModel ProofSpec PathProofs
  OpeningProofs ProofRefute ProofExamples IpaModel LagrangeSpec IpaSpec CheckProofs IpaInst SoundSpec StatelessModel StatelessSpec StatelessProofs StatelessTheorems StatelessExamples
  TruthSpec TruthInst StatelessTruth StatelessCases ChainSpec ChainProofs.
Local Open Scope list_scope.

Lemma make_block (h : history) keys updated : wf_history h -> keys <> [] -> Forall is_key keys ->
  distinguishable (final_map h) (stems_of h) keys ->
  exists b, bl_keys b = keys /\ bl_updated b = updated /\ honest_block h b.
Proof.
  intros Hw Nk Hk D. destruct (run_mem_canon h Hw) as (db & E & _).
  destruct (honest_accepted (ex_fits 256 ltac:(lia)) h db keys (fun l => l) Hw E Nk Hk D (fun l => Permutation_refl l)) as (qs & hint & comms & root & _ & Er & Hu).
  destruct (Hu (ex_usable qs)) as (p & uh & Cr & _ & _ & Ck).
  exists (mkBlock p keys (map (final_map h) keys) updated). split; [reflexivity|]. split; [reflexivity|]. split; [reflexivity|].
  exists db, root, (fun l => l), uh. repeat (split; [assumption|]). exact Ck.
Qed.

(** The first block changes a value and adds one; the second changes that one and adds a stem next to another
    one; the third changes a value of the new stem.  The last key of each belongs into an empty slot. *)
Definition chain_h : history := [(ex_key 5 0 7, repeat 9 32); (repeat 250 32, repeat 1 32)].
Definition keys1 : list bytes := [ex_key 5 0 7; ex_key 5 0 131; repeat 99 32].
Definition upd1 : list (option bytes) := [Some (repeat 77 32); Some (repeat 78 32)].
Definition h1 : history := chain_h ++ writes keys1 upd1.
Definition keys2 : list bytes := [ex_key 5 0 131; 250 :: repeat 1 31; repeat 99 32].
Definition upd2 : list (option bytes) := [Some (repeat 81 32); Some (repeat 82 32); None].
Definition h2 : history := h1 ++ writes keys2 upd2.
Definition keys3 : list bytes := [250 :: repeat 1 31; repeat 250 32; repeat 99 32].
Definition upd3 : list (option bytes) := [Some (repeat 83 32); None; None].
Definition upd4 : list (option bytes) := [Some (repeat 83 32); None; Some (repeat 84 32)].

Definition keysb (l : list bytes) : bool := forallb (fun k => keys_okb [(k, [])]) l.
Lemma keysb_ok l : keysb l = true -> Forall is_key l.
Proof.
  intro X. apply Forall_forall. intros k Hk. unfold keysb in X. rewrite forallb_forall in X. specialize (X k Hk).
  apply keys_okb_ok in X. inversion X. assumption.
Qed.
Definition occb (h : history) (k : bytes) : bool := match stem_at (stems_of h) (qpos (stems_of h) k) with Some _ => true | None => false end.
Lemma occb_ok h l : wf_history h -> wf_history l -> forallb (fun e => occb h (fst e)) l = true -> forall k v, In (k, v) l -> occupied (stems_of h) k.
Proof.
  intros Hw Hl E k v Hi. rewrite forallb_forall in E. specialize (E _ Hi). cbn [fst] in E.
  apply (occupied_slot h k Hw).
  - unfold wf_history in Hl. rewrite Forall_forall in Hl. exact (Hl _ Hi).
  - unfold occb in E. destruct (stem_at _ _); discriminate.
Qed.

Lemma chain_case : exists (db : MemoryDb) root b1 b2 b3 b4,
  run_mem chain_h = Ok db /\ root_commitment db = Ok root /\
  block_writes b1 = writes keys1 upd1 /\ block_writes b2 = writes keys2 upd2 /\ block_writes b3 = writes keys3 upd3 /\ block_writes b4 = writes keys3 upd4 /\
  Forall block_fits [b1; b2; b3; b4] /\
  along chain_h [b1; b2; b3] honest_block /\ along chain_h [b1; b2; b3] within_reach /\
  along chain_h [b1; b2; b4] honest_block /\ ~ along chain_h [b1; b2; b4] within_reach.
Proof.
  assert (W0 : wf_history chain_h) by (apply keys_okb_ok; vm_compute; reflexivity).
  assert (W1 : wf_history h1) by (apply keys_okb_ok; vm_compute; reflexivity).
  assert (W2 : wf_history h2) by (apply keys_okb_ok; vm_compute; reflexivity).
  assert (K1 : Forall is_key keys1) by (apply keysb_ok; vm_compute; reflexivity).
  assert (K2 : Forall is_key keys2) by (apply keysb_ok; vm_compute; reflexivity).
  assert (K3 : Forall is_key keys3) by (apply keysb_ok; vm_compute; reflexivity).
  assert (D1 : distinguishable (final_map chain_h) (stems_of chain_h) keys1) by (apply distinguishableb_ok; vm_compute; reflexivity).
  assert (D2 : distinguishable (final_map h1) (stems_of h1) keys2) by (apply distinguishableb_ok; vm_compute; reflexivity).
  assert (D3 : distinguishable (final_map h2) (stems_of h2) keys3) by (apply distinguishableb_ok; vm_compute; reflexivity).
  destruct (make_block chain_h keys1 upd1 W0 ltac:(discriminate) K1 D1) as (b1 & Ek1 & Eu1 & H1).
  destruct (make_block h1 keys2 upd2 W1 ltac:(discriminate) K2 D2) as (b2 & Ek2 & Eu2 & H2).
  destruct (make_block h2 keys3 upd3 W2 ltac:(discriminate) K3 D3) as (b3 & Ek3 & Eu3 & H3).
  destruct (make_block h2 keys3 upd4 W2 ltac:(discriminate) K3 D3) as (b4 & Ek4 & Eu4 & H4).
  destruct (run_mem_canon chain_h W0) as (db & E & _). destruct (root_spec chain_h W0) as (db' & E' & Er & _).
  assert (db' = db) by congruence. subst db'.
  assert (X1 : block_writes b1 = writes keys1 upd1) by (unfold block_writes; now rewrite Ek1, Eu1).
  assert (X2 : block_writes b2 = writes keys2 upd2) by (unfold block_writes; now rewrite Ek2, Eu2).
  assert (X3 : block_writes b3 = writes keys3 upd3) by (unfold block_writes; now rewrite Ek3, Eu3).
  assert (X4 : block_writes b4 = writes keys3 upd4) by (unfold block_writes; now rewrite Ek4, Eu4).
  exists db. eexists. exists b1, b2, b3, b4. split; [exact E|]. split; [exact Er|].
  split; [exact X1|]. split; [exact X2|]. split; [exact X3|]. split; [exact X4|]. split.
  { repeat (constructor; [split; [congruence|split; reflexivity || (rewrite ?Ek1, ?Ek2, ?Ek3, ?Ek4, ?Eu1, ?Eu2, ?Eu3, ?Eu4; reflexivity)]|]). constructor. }
  split; [|split; [|split]].
  - rewrite !along_cons, X1, X2. fold h1. fold h2. split; [exact H1|]. split; [exact H2|]. split; [exact H3|]. intros [|] ? ? X; discriminate X.
  - rewrite !along_cons, X1, X2. fold h1. fold h2.
    split; [|split; [|split]].
    + split; [rewrite Ek1; repeat (constructor; [cbn; intuition discriminate|]); constructor|]. rewrite X1. apply occb_ok; [exact W0|now apply writes_keys|vm_compute; reflexivity].
    + split; [rewrite Ek2; repeat (constructor; [cbn; intuition discriminate|]); constructor|]. rewrite X2. apply occb_ok; [exact W1|now apply writes_keys|vm_compute; reflexivity].
    + split; [rewrite Ek3; repeat (constructor; [cbn; intuition discriminate|]); constructor|]. rewrite X3. apply occb_ok; [exact W2|now apply writes_keys|vm_compute; reflexivity].
    + intros [|] ? ? X; discriminate X.
  - rewrite !along_cons, X1, X2. fold h1. fold h2. split; [exact H1|]. split; [exact H2|]. split; [exact H4|]. intros [|] ? ? X; discriminate X.
  - rewrite !along_cons, X1, X2. fold h1. fold h2. intros (_ & _ & (_ & X) & _). rewrite X4 in X.
    assert (Hi : In (repeat 99 32, repeat 84 32) (writes keys3 upd4)) by (vm_compute; auto).
    specialize (X _ _ Hi). apply (occupied_slot h2 _ W2) in X; [|rewrite Forall_forall in K3; apply K3; vm_compute; auto].
    apply X. vm_compute. reflexivity.
Qed.

(** A block for which the conditions of [ideal_block] hold. *)
Lemma five_block : exists (db : MemoryDb) root b, run_mem ex_h = Ok db /\ root_commitment db = Ok root /\ block_fits b /\ along ex_h [b] ideal_block /\
  block_writes b = [(ex_key 5 0 130, repeat 77 32); (ex_key 5 0 131, repeat 78 32); (ex_key 6 7 1, repeat 79 32)] /\
  forall hash_order, (forall l, Permutation (hash_order l) l) -> exists r, follow hash_order root [b] = Ok (VOk r).
Proof.
  destruct five_case as (db & root & p & uh & qs & uh' & vs & E & Er & Ck & Ev & Hop & Hco & Hid & Hsc & Hn & _).
  exists db, root, (mkBlock p five_keys (map (final_map ex_h) five_keys) five_updated).
  assert (Hw : wf_history ex_h) by (apply keys_okb_ok; vm_compute; reflexivity).
  split; [exact E|]. split; [exact Er|]. split; [split; [exact five_keys_ok|split; reflexivity]|]. split; [|split; [exact five_writes|]].
  - apply along_cons. split; [|intros [|] ? ? X; discriminate X]. split; [cbn [bl_values bl_keys]; now rewrite map_length|].
    cbn [bl_proof bl_keys bl_values]. intros db2 root2 qs2 uh2 uh3 E2 Er2 _ Ev2.
    assert (db2 = db) by congruence. subst db2. assert (root2 = root) by congruence. subst root2.
    assert (X : (qs2, uh3) = (qs, uh')) by congruence. apply pair_equal_spec in X as [-> _].
    split; [exact Hco|]. split; [exact Hsc|]. exists vs. split; [exact Hop|exact Hid].
  - intros hash_order Ho. cbn [follow bl_proof bl_keys bl_values bl_updated].
    destruct (claimed_verify ex_h db root p five_keys (map (final_map ex_h) five_keys) five_updated uh qs uh' vs hash_order
      (ex_fits 256 ltac:(lia)) Hw E Er five_keys_ok ltac:(now rewrite map_length) eq_refl eq_refl Ck Ev Hop Hco Hid Hsc Ho)
      as [(X & _)|[(_ & _ & db' & root' & _ & _ & ->)|(_ & X & _)]].
    + exfalso. apply X. repeat (constructor; [cbn; intuition discriminate|]). constructor.
    + cbn [rbind]. eauto.
    + contradiction.
Qed.
