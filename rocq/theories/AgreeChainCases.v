(** Clients at the same root. *)
From Coq Require Import Permutation.
From Verif Require Import Base BaseFacts Alg AlgInst TreeSpec TreeFacts TrieModel TrieProofs TrieTheorems ExData WireModel WireInst ProofModel ProofSpec IpaModel LagrangeSpec IpaSpec IpaInst
  SoundSpec StatelessModel StatelessSpec StatelessExamples CodecModel VerkleDbModel DbSpec VerkleDbSim CodecInst VerkleDbExamples TruthSpec TruthInst ChainSpec ChainProofs ChainCases EventSpec EventProofs EventWitness
  CollisionSpec CollisionCases RealSpec RealProofs CoordInst RewriteSpec RewriteFacts RewriteCases AgreeSpec AgreeProofs AgreeChain AgreeCases.
Local Open Scope list_scope.
Notation len := List.length.

(** One client follows three blocks, the other starts after the first of them. *)
Lemma honest_pair : exists (db1 db2 : MemoryDb) root1 root2 b1 b2 b3,
  let h2 := after chain_h [b1] in
  wf_history chain_h /\ wf_history h2 /\ run_mem chain_h = Ok db1 /\ root_commitment db1 = Ok root1 /\ run_mem h2 = Ok db2 /\ root_commitment db2 = Ok root2 /\
  Forall block_fits [b1; b2; b3] /\ along chain_h [b1; b2; b3] honest_block /\ along h2 [b2; b3] honest_block /\ 
  scalars_apart (final_map (after chain_h [b1; b2; b3])) (stems_of (after chain_h [b1; b2; b3])) (stems_of (after h2 [b2; b3]))
    (map (fun kv => Some (snd kv)) (after h2 [b2; b3])) /\
  forall ho, (forall l, Permutation (ho l) l) -> exists r, follow ho root1 [b1; b2; b3] = Ok (VOk r) /\ follow ho root2 [b2; b3] = Ok (VOk r).
Proof.
  destruct chain_case as (db & root & b1 & b2 & b3 & b4 & E & Er & Wb1 & Wb2 & Wb3 & _ & Hf & Hh & Hr & _).
  assert (W0 : wf_history chain_h) by (apply keys_okb_ok; vm_compute; reflexivity).
  apply Forall_cons_iff in Hf as [F1 Hf]. apply Forall_cons_iff in Hf as [F2 Hf]. apply Forall_cons_iff in Hf as [F3 _].
  assert (Fa : Forall block_fits [b1; b2; b3]) by (repeat apply Forall_cons; try assumption; apply Forall_nil).
  assert (Fb : Forall block_fits [b2; b3]) by (repeat apply Forall_cons; try assumption; apply Forall_nil).
  assert (W2 : wf_history (after chain_h [b1])) by (apply after_wf; [exact W0|repeat apply Forall_cons; try assumption; apply Forall_nil]).
  destruct (run_mem_canon _ W2) as (db2 & E2 & Cn2). destruct (canon_root _ _ _ Cn2) as [Er2 _].
  exists db, db2, root, (spec_root (final_map (after chain_h [b1])) (stems_of (after chain_h [b1]))), b1, b2, b3. cbv zeta.
  assert (Ha : after (after chain_h [b1]) [b2; b3] = after chain_h [b1; b2; b3]) by (unfold after; cbn [flat_map]; rewrite !app_nil_r, <- !app_assoc; reflexivity).
  assert (Hx : chain_h ++ block_writes b1 = after chain_h [b1]) by (unfold after; cbn [flat_map]; now rewrite app_nil_r).
  pose proof (proj2 (proj1 (along_cons _ _ _ _) Hh)) as Hh2. pose proof (proj2 (proj1 (along_cons _ _ _ _) Hr)) as Hr2. rewrite Hx in Hh2, Hr2.
  split; [exact W0|]. split; [exact W2|]. split; [exact E|]. split; [exact Er|]. split; [exact E2|]. split; [exact Er2|].
  split; [exact Fa|]. split; [exact Hh|]. split; [exact Hh2|]. split.
  - rewrite Ha. assert (Hv : after chain_h [b1; b2; b3] = chain_h ++ writes keys1 upd1 ++ writes keys2 upd2 ++ writes keys3 upd3).
    { unfold after. cbn [flat_map]. rewrite Wb1, Wb2, Wb3, app_nil_r. reflexivity. }
    rewrite Hv. apply (apartb_ok _ _ _ (map snd (chain_h ++ writes keys1 upd1 ++ writes keys2 upd2 ++ writes keys3 upd3)) _
      (map snd (chain_h ++ writes keys1 upd1 ++ writes keys2 upd2 ++ writes keys3 upd3))).
    + vm_compute. reflexivity.
    + intros k v Hk. apply final_map_In in Hk. exact Hk.
    + intros v Hin. apply in_map_iff in Hin as (kv & X & Hin). injection X as <-. apply in_map. exact Hin.
  - intros ho Ho. destruct (chain_honest ho Ho _ _ db root W0 E Er Fa Hh) as [[_ (d1 & g1 & X1 & Y1 & Z1)]|[N _]]; [|contradiction].
    destruct (chain_honest ho Ho _ _ db2 _ W2 E2 Er2 Fb Hh2) as [[_ (d2 & g2 & X2 & Y2 & Z2)]|[N _]]; [|contradiction].
    rewrite Ha in X2. rewrite X1 in X2. injection X2 as <-. rewrite Y1 in Y2. injection Y2 as <-.
    exists g1. split; [exact Z1|exact Z2].
Qed.

(** A block with its openings, and a client that starts after it. *)
Lemma opened_pair : exists (db1 db2 : @MemoryDb ExA) root1 root2 b open,
  let h2 := after ex_h [b] in
  wf_history ex_h /\ wf_history h2 /\ run_mem ex_h = Ok db1 /\ root_commitment db1 = Ok root1 /\ run_mem h2 = Ok db2 /\ root_commitment db2 = Ok root2 /\
  block_fits b /\ along ex_h [b] (opened_block open) /\ along h2 [] (opened_block open) /\
  scalars_apart (final_map (after ex_h [b])) (stems_of (after ex_h [b])) (stems_of (after h2 [])) (map (fun kv => Some (snd kv)) (after h2 [])) /\
  forall ho, (forall l, Permutation (ho l) l) -> follow ho root1 [b] = Ok (VOk root2) /\ follow ho root2 [] = Ok (VOk root2).
Proof.
  destruct five_block as (db & root & b & E & Er & Hf & Hi & Hw & Hfol).
  destruct (ideal_opened (after ex_h []) b (Hi [] b [] eq_refl)) as [open Hop].
  assert (W0 : wf_history ex_h) by (apply keys_okb_ok; vm_compute; reflexivity).
  assert (Hf1 : Forall block_fits [b]) by (apply Forall_cons; [exact Hf|apply Forall_nil]).
  assert (W2 : wf_history (after ex_h [b])) by (apply after_wf; [exact W0|exact Hf1]).
  destruct (run_mem_canon _ W2) as (db2 & E2 & Cn2). destruct (canon_root _ _ _ Cn2) as [Er2 _].
  exists db, db2, root, (spec_root (final_map (after ex_h [b])) (stems_of (after ex_h [b]))), b, open. cbv zeta.
  split; [exact W0|]. split; [exact W2|]. split; [exact E|]. split; [exact Er|]. split; [exact E2|]. split; [exact Er2|]. split; [exact Hf|].
  split. { intros before b' rest X. destruct before as [|c before]; [|destruct before; discriminate X]. injection X as -> _. exact Hop. }
  split. { intros [|c before] b' rest X; discriminate X. }
  split.
  - assert (Ha : after (after ex_h [b]) [] = after ex_h [b]) by (unfold after; cbn [flat_map]; rewrite !app_nil_r; reflexivity). rewrite Ha.
    assert (Hv : after ex_h [b] = ex_h ++ [(ex_key 5 0 130, repeat 77 32); (ex_key 5 0 131, repeat 78 32); (ex_key 6 7 1, repeat 79 32)]).
    { unfold after. cbn [flat_map]. rewrite Hw, app_nil_r. reflexivity. }
    rewrite Hv. set (hh := ex_h ++ [(ex_key 5 0 130, repeat 77 32); (ex_key 5 0 131, repeat 78 32); (ex_key 6 7 1, repeat 79 32)]).
    apply (apartb_ok _ _ _ (map snd hh) _ (map snd hh)).
    + vm_compute. reflexivity.
    + intros k v Hk. apply final_map_In in Hk. exact Hk.
    + intros v Hin. apply in_map_iff in Hin as (kv & X & Hin). injection X as <-. apply in_map. exact Hin.
  - intros ho Ho. split; [|reflexivity]. destruct (Hfol ho Ho) as [r Hr]. rewrite Hr.
    destruct (chain_any ho Ho (ex_fits 256 ltac:(lia)) [b] ex_h db root r W0 E Er Hf1 Hi Hr) as [(db' & X & Y) _].
    rewrite E2 in X. injection X as <-. rewrite Er2 in Y. revert Y. generalize (spec_root (final_map (after ex_h [b])) (stems_of (after ex_h [b]))).
    intros g Y. injection Y as ->. reflexivity.
Qed.

(** Tries on disk without changed values, at the roots of tries in memory, in every group. *)
Definition plain_ops : list Op := [OInsert e1 (val 1); OInsert e3 (val 5); OFlush; OInsert e2 (val 2); OInsert e3 (val 5); OReopen; OInsert e2 (val 7)].
Lemma memory_case {A : Alg} {L : AlgLaws A} {P : Par A} {PL : ParLaws P} {C : Codec A} {CL : CodecLaws C} :
  wf_ops plain_ops /\ settled_ops plain_ops /\ (forall k v, In (OInsert k v) plain_ops -> is_value v) /\
  wf_history (contents plain_ops) /\ Forall (fun kv => is_value (snd kv)) (contents plain_ops) /\
  exists v (db : MemoryDb), run_disk plain_ops = Ok v /\ run_mem (contents plain_ops) = Ok db /\ root_hash v = root_hash db.
Proof.
  assert (W : wf_ops plain_ops) by (apply ops_okb_ok; vm_compute; reflexivity).
  assert (S : settled_ops plain_ops) by (apply settledb_ok; vm_compute; reflexivity).
  split; [exact W|]. split; [exact S|]. split; [|split; [apply contents_wf; exact W|split]].
  - assert (X : Forall (fun o => match o with OInsert _ v => is_value v | _ => True end) plain_ops).
    { unfold plain_ops. repeat apply Forall_cons; try apply Forall_nil; try exact I; apply val_value; lia. }
    intros k v Hi. rewrite Forall_forall in X. exact (X _ Hi).
  - repeat apply Forall_cons; try apply Forall_nil; apply val_value; lia.
  - destruct (right_root plain_ops W S) as (v & db & X1 & X2 & _ & X3); [|exists v, db; auto].
    apply fresh_single. apply no_rewriteb_ok. vm_compute. reflexivity.
Qed.

