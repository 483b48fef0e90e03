(** Proofs made from a trie on disk: the prover only looks single entries up. *)
From Coq Require Import Permutation.
From Verif Require Import Base BaseFacts Alg TreeSpec TrieModel TrieProofs TrieTheorems CodecModel VerkleDbModel DbSpec VerkleDbSim
  VerkleDbTheorems BTree WireModel ProofModel ProofSpec IpaModel LagrangeSpec IpaSpec IpaTheorems CheckProofs
  AlgInst CodecInst VerkleDbExamples ProofRefute ProofExamples WireInst IpaInst.

Section Congruence.
Context {A : Alg} {S1 S2 : Type} {D1 : DbOps S1} {D2 : DbOps S2}.
Variables (a : S1) (b : S2).
Hypothesis Hleaf : forall k, get_leaf a k = get_leaf b k.
Hypothesis Hstem : forall s, get_stem_meta a s = get_stem_meta b s.
Hypothesis Hmeta : forall p, get_branch_meta a p = get_branch_meta b p.
Hypothesis Hchild : forall p i, get_branch_child a p i = get_branch_child b p i.

Lemma find_loop_same key rest : forall cur m nodes, find_loop a key rest cur m nodes = find_loop b key rest cur m nodes.
Proof.
  induction rest as [|i rest IH]; intros cur m nodes; cbn [find_loop]; [reflexivity|]. rewrite Hchild.
  destruct (get_branch_child b cur i) as [[[s|bm]|]|]; cbn [rbind]; try reflexivity; [|apply IH].
  rewrite Hstem. destruct (get_stem_meta b s) as [[sm|]|]; cbn [rbind unwrap]; try reflexivity.
  destruct (Base.index key 31); cbn [rbind]; [|reflexivity]. now rewrite Hleaf.
Qed.
Lemma find_same key : find_key_path a key = find_key_path b key.
Proof.
  unfold find_key_path. rewrite Hmeta. destruct (get_branch_meta b []) as [[m|]|]; cbn [rbind unwrap]; try reflexivity.
  apply find_loop_same.
Qed.
Lemma collect_same keys : forall od, collect_loop a od keys = collect_loop b od keys.
Proof.
  induction keys as [|k keys IH]; intro od; cbn [collect_loop]; [reflexivity|].
  replace (collect_one a od k) with (collect_one b od k) by (unfold collect_one; now rewrite find_same).
  destruct (collect_one b od k); cbn [rbind]; [apply IH|reflexivity].
Qed.
Lemma half_same stem l : half_hashes a stem l = half_hashes b stem l.
Proof. induction l as [|i l IH]; cbn [half_hashes]; [reflexivity|]. now rewrite Hleaf, IH. Qed.
Lemma suffixes_same stem m l : suffix_queries a stem m l = suffix_queries b stem m l.
Proof.
  induction l as [|sv l IH]; cbn [suffix_queries]; [reflexivity|]. rewrite IH.
  unfold suffix_query. destruct sv as [sfx o]. unfold get_half_hashes. now rewrite half_same.
Qed.
Lemma children_same path l : children_hashes a path l = children_hashes b path l.
Proof.
  induction l as [|i l IH]; cbn [children_hashes]; [reflexivity|]. rewrite Hchild, IH.
  destruct (get_branch_child b path i) as [[[s|bm]|]|]; cbn [rbind]; try reflexivity. now rewrite Hstem.
Qed.
Lemma open_all_same o : forall diff, open_all a o diff = open_all b o diff.
Proof.
  induction o as [|[path op] o IH]; intro diff; cbn [open_all]; [reflexivity|].
  assert (E : (match op with
        | OSuffix e s => let! q := suffix_open_query a e s in Ok (q, diff)
        | OBranch m c => let! q := branch_open_query a path m c in Ok (q, diff)
        | OExtension e => let! q := ext_open_query e false false in Ok (q, set_insert (eo_stem e) diff)
        end) = (match op with
        | OSuffix e s => let! q := suffix_open_query b e s in Ok (q, diff)
        | OBranch m c => let! q := branch_open_query b path m c in Ok (q, diff)
        | OExtension e => let! q := ext_open_query e false false in Ok (q, set_insert (eo_stem e) diff)
        end)).
  { destruct op as [e s|m c|e].
    - unfold suffix_open_query. destruct (ext_open_query _ _ _); cbn [rbind]; [|reflexivity].
      destruct (into_stem (eo_meta e)); cbn [rbind]; [|reflexivity]. now rewrite suffixes_same.
    - unfold branch_open_query, get_branch_children_hashes. now rewrite children_same.
    - reflexivity. }
  rewrite E. match goal with |- rbind ?x _ = _ => destruct x as [[q d]|] end; cbn [rbind]; [|reflexivity]. now rewrite IH.
Qed.
Lemma parts_same keys : create_proof_parts a keys = create_proof_parts b keys.
Proof.
  unfold create_proof_parts. destruct keys as [|k keys]; [reflexivity|].
  unfold create_prover_queries, collect_opening_data. destruct (assertb _); cbn [rbind]; [|reflexivity].
  rewrite collect_same. destruct (collect_loop b _ _) as [od|]; cbn [rbind]; [|reflexivity]. now rewrite open_all_same.
Qed.
Context {P : Par A} {C : ECodec A} {H : Hasher}.
Lemma create_same order keys : create_verkle_proof order a keys = create_verkle_proof order b keys.
Proof. unfold create_verkle_proof. now rewrite parts_same. Qed.
End Congruence.

Section Disk.
Context {A : Alg} {L : AlgLaws A} {P : Par A} {PL : ParLaws P} {C : Codec A} {CL : CodecLaws C}.

Lemma canon_same db1 db2 m S : Canon db1 m S -> Canon db2 m S ->
  (forall k, leaf_table db1 k = leaf_table db2 k) /\ (forall s, stem_table db1 s = stem_table db2 s) /\
  (forall p, branch_table db1 p = branch_table db2 p).
Proof.
  intros C1 C2. split; [|split]; intro x.
  - now rewrite (can_leaf _ _ _ C1), (can_leaf _ _ _ C2).
  - now rewrite (can_stem _ _ _ C1), (can_stem _ _ _ C2).
  - now rewrite (can_branch _ _ _ C1), (can_branch _ _ _ C2).
Qed.

Lemma disk_reads l : wf_ops l -> settled_ops l -> no_rewrite l ->
  exists v db, run_disk l = Ok v /\ run_mem (contents l) = Ok db /\ Reads v db.
Proof.
  intros Hwf Hsp Hnr. destruct (disk_run_inv l Hwf Hsp Hnr) as (v & E & [(db & pb & R & Cn & _) _ _]).
  rewrite <- contents_eq in Cn. destruct (run_mem_canon (contents l) (contents_wf l Hwf)) as (db' & E' & Cn').
  exists v, db'. split; [exact E|]. split; [exact E'|].
  pose proof (rel_view _ _ _ _ _ R) as V. destruct (canon_same _ _ _ _ Cn Cn') as (T1 & T2 & T3).
  constructor; intros.
  - now rewrite (rd_leaf _ _ V), T1.
  - now rewrite (rd_stem _ _ V), T2.
  - rewrite (rd_meta _ _ V). unfold mem_get_branch_meta. now rewrite T3.
  - now rewrite (rd_child _ _ V), T3.
Qed.

Context {EC : ECodec A} {H : Hasher}.
Lemma disk_proof l : wf_ops l -> settled_ops l -> no_rewrite l ->
  exists v db, run_disk l = Ok v /\ run_mem (contents l) = Ok db /\ root_commitment v = root_commitment db /\
    forall order keys, create_proof_parts v keys = create_proof_parts db keys /\
      create_verkle_proof order v keys = create_verkle_proof order db keys.
Proof.
  intros Hwf Hsp Hnr. destruct (disk_reads l Hwf Hsp Hnr) as (v & db & E & E' & V).
  exists v, db. split; [exact E|]. split; [exact E'|]. split.
  - unfold root_commitment. cbn [get_branch_meta verkle_db_ops memory_db_ops]. now rewrite (rd_meta _ _ V).
  - assert (H1 : forall k, get_leaf v k = get_leaf db k) by (intro k; exact (rd_leaf _ _ V k)).
    assert (H2 : forall s, get_stem_meta v s = get_stem_meta db s) by (intro s; exact (rd_stem _ _ V s)).
    assert (H3 : forall p, get_branch_meta v p = get_branch_meta db p) by (intro p; exact (rd_meta _ _ V p)).
    assert (H4 : forall p i, get_branch_child v p i = get_branch_child db p i) by (intros p i; exact (rd_child _ _ V p i)).
    intros order keys. split; [exact (parts_same v db H1 H2 H3 H4 keys)|exact (create_same v db H1 H2 H3 H4 order keys)].
Qed.

Context {ECL : ECodecLaws EC}.
Lemma disk_honest (fits : domain_fits 256) l keys order : wf_ops l -> settled_ops l -> no_rewrite l ->
  keys <> [] -> Forall is_key keys -> distinguishable (final_map (contents l)) (stems_of (contents l)) keys ->
  (forall g, Permutation (order g) g) ->
  exists v qs hint comms root, run_disk l = Ok v /\ create_proof_parts v keys = Ok (Some (qs, hint, comms)) /\
    root_commitment v = Ok root /\
    (usable_challenges qs -> exists p uh, create_verkle_proof order v keys = Ok (Some p) /\
       proof_check p keys (map (final_map (contents l)) keys) root = Ok (true, Some uh)).
Proof.
  intros Hwf Hsp Hnr Hne Hk Hd Ho. destruct (disk_proof l Hwf Hsp Hnr) as (v & db & E & E' & Er & Same).
  destruct (honest_accepted fits (contents l) db keys order (contents_wf l Hwf) E' Hne Hk Hd Ho) as (qs & hint & comms & root & Ep & Ert & K).
  destruct (Same order keys) as [S1 S2].
  exists v, qs, hint, comms, root. split; [exact E|]. split; [now rewrite S1|]. split; [now rewrite Er|].
  intro U. destruct (K U) as (p & uh & Ec & _ & _ & Ek). exists p, uh. split; [now rewrite S2|exact Ek].
Qed.
End Disk.

(** ** Where the restrictions are needed *)
Definition commits_okb (q : @ProverQuery ExA) : bool :=
  geqb (pq_comm q) (vcommit (fun i => nth (Z.to_nat i) (pq_poly q) fzero)).
Lemma commits_okb_true q : true_opening q -> commits_okb q = true.
Proof. intros (_ & _ & E & _). unfold commits_okb. rewrite <- E. now apply geqb_true. Qed.

Definition openings_okb (ops : list Op) (keys : list bytes) : res bool :=
  let! v := run_disk ops in
  let! o := create_proof_parts v keys in
  match o with Some (qs, _, _) => Ok (forallb commits_okb qs) | None => Panic end.
Lemma false_openings ops keys : openings_okb ops keys = Ok false ->
  exists v qs hint comms, run_disk ops = Ok v /\ create_proof_parts v keys = Ok (Some (qs, hint, comms)) /\ ~ Forall true_opening qs.
Proof.
  unfold openings_okb. destruct (run_disk ops) as [v|]; cbn [rbind]; [|discriminate].
  destruct (create_proof_parts v keys) as [[[[qs hint] comms]|]|] eqn:E; cbn [rbind]; try discriminate. intro X.
  exists v, qs, hint, comms. split; [reflexivity|]. split; [exact E|]. intro T.
  enough (Y : forallb commits_okb qs = true) by congruence.
  apply forallb_forall. rewrite Forall_forall in T. intros q Hq. apply commits_okb_true, T, Hq.
Qed.

Lemma rewrite_false : openings_okb rewrite_ops [kA] = Ok false.
Proof. vm_compute. reflexivity. Qed.
Definition deep_ops : list Op := stale_ops ++ [OFlush; OReopen].
Lemma deep_false : openings_okb deep_ops [kB] = Ok false.
Proof. vm_compute. reflexivity. Qed.

Definition ok_keys : list bytes := [e1; e4; e5; e2].

Lemma ok_keys_ok : Forall is_key ok_keys.
Proof. repeat (constructor; [apply key_okb; vm_compute; reflexivity|]). constructor. Qed.
Lemma ok_distinguishable : distinguishable (final_map (contents ok_ops)) (stems_of (contents ok_ops)) ok_keys.
Proof. apply distinguishableb_ok. vm_compute. reflexivity. Qed.
