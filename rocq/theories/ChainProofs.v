From Coq Require Import Permutation.
From Verif Require Import Base BaseFacts Alg AlgFacts TreeSpec TreeFacts TrieModel TrieProofs TrieTheorems WireModel ProofModel ProofSpec ProofTheorems
  IpaModel LagrangeSpec IpaSpec CheckProofs SoundSpec StatelessModel StatelessSpec StatelessProofs StatelessTheorems StatelessExact TruthSpec TruthTheorems
  StatelessTruth ChainSpec.
Local Open Scope list_scope.

Section Chain.
Context {A : Alg} {L : AlgLaws A} {P : Par A} {PL : ParLaws P} {C : ECodec A} {CL : ECodecLaws C} {H : Hasher}.

Lemma along_cons (h : history) b bs (Q : history -> block -> Prop) : along h (b :: bs) Q <-> Q h b /\ along (h ++ block_writes b) bs Q.
Proof.
  unfold along, after. split.
  - intro X. split.
    + specialize (X [] b bs eq_refl). cbn [flat_map] in X. now rewrite app_nil_r in X.
    + intros before b' rest E. subst bs. specialize (X (b :: before) b' rest eq_refl). cbn [flat_map] in X. now rewrite app_assoc in X.
  - intros [X Y] [|b1 before] b' rest E; cbn [app] in E; injection E as -> E.
    + cbn [flat_map]. now rewrite app_nil_r.
    + cbn [flat_map]. rewrite app_assoc. now apply (Y before b' rest).
Qed.
Lemma after_cons (h : history) b bs : after h (b :: bs) = after (h ++ block_writes b) bs.
Proof. unfold after. cbn [flat_map]. apply app_assoc. Qed.

Lemma writes_keys keys updated : Forall is_key keys -> wf_history (writes keys updated).
Proof.
  intro Hk. apply Forall_forall. intros [k v] Hi. apply writes_In in Hi. rewrite Forall_forall in Hk. now apply Hk.
Qed.
Lemma run_more h (db : MemoryDb) kvs : run_mem h = Ok db -> run_mem (h ++ kvs) = trie_insert db kvs.
Proof.
  unfold run_mem, run. destruct (trie_new memory_db_new) as [d|]; cbn [rbind]; [|discriminate]. intro E.
  now rewrite insert_app, E.
Qed.

Variable hash_order : list bytes -> list bytes.
Hypothesis Ho : forall l, Permutation (hash_order l) l.

Lemma chain_honest bs : forall h (db : MemoryDb) root, wf_history h -> run_mem h = Ok db -> root_commitment db = Ok root ->
  Forall block_fits bs -> along h bs honest_block ->
  (along h bs within_reach /\ exists db' root', run_mem (after h bs) = Ok db' /\ root_commitment db' = Ok root' /\
     follow hash_order root bs = Ok (VOk root')) \/
  (~ along h bs within_reach /\ (follow hash_order root bs = Panic \/ follow hash_order root bs = Ok (VErr DuplicateKeys))).
Proof.
  induction bs as [|b bs IH]; intros h db root Hw E Er Hf Hh.
  - left. split; [intros [|] ? ? X; discriminate X|]. exists db, root. unfold after. cbn [flat_map]. rewrite app_nil_r. auto.
  - apply Forall_cons_iff in Hf as [(Hk & B1 & B2) Hf]. apply along_cons in Hh as [(Hv & db1 & root1 & order & uh & E1 & Er1 & Cr & Ck) Hh].
    assert (db1 = db) by congruence. subst db1. assert (root1 = root) by congruence. subst root1.
    cbn [follow]. rewrite after_cons. rewrite along_cons. rewrite Hv in Ck.
    pose proof (update_exactly h db (bl_keys b) (bl_updated b) order hash_order (bl_proof b) root Hw E Er Hk B1 B2 Ho Cr (ex_intro _ uh Ck)) as X.
    cbv zeta in X. rewrite <- Hv in X.
    destruct X as [(Hd & ->)|[(Hd & Hocc & db' & root' & Ei & Er' & ->)|(Hd & (k & v & Hi & Hn) & ->)]].
    + right. split; [intros [[Y _] _]; contradiction|]. right. reflexivity.
    + cbn [rbind]. assert (Hw' : wf_history (h ++ block_writes b)) by (apply Forall_app; split; [exact Hw|now apply writes_keys]).
      assert (E' : run_mem (h ++ block_writes b) = Ok db') by (rewrite (run_more h db _ E); exact Ei).
      destruct (IH _ db' root' Hw' E' Er' Hf Hh) as [[Y Z]|[Y Z]].
      * left. split; [split; [split; [exact Hd|exact Hocc]|exact Y]|exact Z].
      * right. split; [intros [_ Y']; contradiction|exact Z].
    + right. split; [intros [[_ Y] _]; apply Hn; exact (Y k v Hi)|]. left. reflexivity.
Qed.

Lemma chain_any (Fit : domain_fits 256) bs : forall h (db : MemoryDb) root r, wf_history h -> run_mem h = Ok db -> root_commitment db = Ok root ->
  Forall block_fits bs -> along h bs ideal_block -> follow hash_order root bs = Ok (VOk r) ->
  (exists db' : MemoryDb, run_mem (after h bs) = Ok db' /\ root_commitment db' = Ok r) /\
  along h bs (fun h' b => forall k v, In (k, v) (combine (bl_keys b) (bl_values b)) ->
    final_map h' k = v \/ hidden (stems_of h') (vp_hint (bl_proof b)) (bl_keys b) k v).
Proof.
  induction bs as [|b bs IH]; intros h db root r Hw E Er Hf Hh Ef.
  - cbn [follow] in Ef. split; [|intros [|] ? ? X; discriminate X]. exists db. unfold after. cbn [flat_map]. rewrite app_nil_r.
    split; [exact E|]. congruence.
  - apply Forall_cons_iff in Hf as [(Hk & B1 & B2) Hf]. apply along_cons in Hh as [(Hl & Hb) Hh].
    cbn [follow] in Ef. rewrite after_cons. rewrite along_cons.
    destruct (verify_and_update hash_order (bl_proof b) root (bl_keys b) (bl_values b) (bl_updated b)) as [[root'|]|] eqn:Ev; cbn [rbind] in Ef; try discriminate.
    assert (B3 : Z.of_nat (len (bl_values b)) < 2 ^ 63) by (rewrite Hl; exact B1).
    destruct (only_verified hash_order (bl_proof b) root (bl_keys b) (bl_values b) (bl_updated b) root' B1 B3 B2 Ev) as (ND & uh & Ck).
    assert (Q : exists qs uh', create_verifier_queries (vp_hint (bl_proof b)) (vp_comms (bl_proof b)) (bl_keys b) (bl_values b) root = Ok (Some (qs, uh'))).
    { unfold proof_check in Ck. destruct (create_verifier_queries _ _ _ _ _) as [[[qs uh']|]|]; cbn [rbind] in Ck; [now exists qs, uh'|discriminate|discriminate]. }
    destruct Q as (qs & uh' & Eq). destruct (Hb db root qs (Some uh) uh' E Er Ck Eq) as (Hco & Hsc & vs & Hop & Hid).
    assert (Ht : forall k v, In (k, v) (combine (bl_keys b) (bl_values b)) ->
      final_map h k = v \/ hidden (stems_of h) (vp_hint (bl_proof b)) (bl_keys b) k v).
    { intros k v Hi. destruct (claims_true h db root _ _ (bl_keys b) (bl_values b) qs uh' vs Fit Hw E Er Hk ND Hl Eq Hop Hco Hid Hsc k v Hi) as [T|T]; [left|now right].
      destruct (get_last h Hw) as (db0 & E0 & Hg). assert (db0 = db) by congruence. subst db0. rewrite Hg in T. congruence. }
    pose proof (claimed_verify h db root (bl_proof b) (bl_keys b) (bl_values b) (bl_updated b) (Some uh) qs uh' vs hash_order
      Fit Hw E Er Hk Hl B1 B2 Ck Eq Hop Hco Hid Hsc Ho) as X. cbv zeta in X. rewrite Ev in X.
    destruct X as [(_ & X)|[(_ & _ & db' & root2 & Ei & Er' & X)|(_ & _ & X)]]; try discriminate.
    assert (root2 = root') by congruence. subst root2.
    assert (Hw' : wf_history (h ++ block_writes b)) by (apply Forall_app; split; [exact Hw|now apply writes_keys]).
    assert (E' : run_mem (h ++ block_writes b) = Ok db') by (rewrite (run_more h db _ E); exact Ei).
    destruct (IH _ db' root' r Hw' E' Er' Hf Hh Ef) as [Y Z]. split; [exact Y|]. split; [exact Ht|exact Z].
Qed.
End Chain.
