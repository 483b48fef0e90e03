(** Whole proofs: creation and check, with the multipoint argument. *)
From Coq Require Import String Permutation.
From Verif Require Import Base BaseFacts Alg AlgFacts TreeSpec TrieModel TrieProofs TrieTheorems BTree WireModel ProofModel ProofSpec
  ProofTheorems ProofRefute ExData IpaModel LagrangeSpec IpaSpec IpaProofs LagrangeProofs MultiProofs.
Local Open Scope list_scope.

Section CheckProofs.
Context {A : Alg} {AL : AlgLaws A} {P : Par A} {PL : ParLaws P} {C : ECodec A} {H : Hasher}.
Notation len := List.length.

Lemma trie_crs_len : len (crs_G trie_crs) = 256%nat.
Proof. unfold trie_crs. cbn [crs_G]. now rewrite map_length, seq_length. Qed.

Lemma commit_vcommit f v : (forall i, (i < 256)%nat -> nth i v fzero = f (Z.of_nat i)) ->
  commit 256 v (crs_G trie_crs) = vcommit f.
Proof.
  intros E. unfold commit, vcommit. apply gsum_ext. intros i B.
  rewrite E by lia. rewrite Z2Nat.id by lia. f_equal.
  rewrite (nth_indep _ _ (crs (Z.of_nat 0))) by (rewrite trie_crs_len; lia).
  unfold trie_crs. cbn [crs_G]. rewrite (map_nth (fun i => crs (Z.of_nat i))). rewrite seq_nth by lia. cbn [Nat.add]. now rewrite Z2Nat.id by lia.
Qed.

Lemma opening_good q : true_opening q -> good_query 256 (crs_G trie_crs) q.
Proof.
  intros (L & B & Ec & Er). split; [exact L|]. split; [exact B|]. split.
  - rewrite Ec. symmetry. apply commit_vcommit. intros i _. now rewrite Nat2Z.id.
  - symmetry. now apply nth_error_nth.
Qed.

Lemma claims_provable qs : Forall true_claim qs ->
  exists pqs, map public_query pqs = qs /\ Forall (good_query 256 (crs_G trie_crs)) pqs.
Proof.
  induction 1 as [|q qs (w & z & B & Ec & Ep & Er) _ (pqs & IH & F)].
  - exists []. split; [easy|constructor].
  - exists (mkPQ (vq_comm q) (map (fun i => w (Z.of_nat i)) (seq 0 256)) z (vq_result q) :: pqs). split.
    + cbn [map]. rewrite IH. f_equal. unfold public_query. cbn [pq_comm pq_point pq_result]. rewrite <- Ep. now destruct q.
    + constructor; [|exact F].
      assert (N : forall i, (i < 256)%nat -> nth i (map (fun i => w (Z.of_nat i)) (seq 0 256)) fzero = w (Z.of_nat i)).
      { intros i L. rewrite (nth_indep _ _ (w (Z.of_nat 0))) by (rewrite map_length, seq_length; exact L).
        rewrite (map_nth (fun i => w (Z.of_nat i))). now rewrite seq_nth by exact L. }
      unfold good_query. cbn [pq_poly pq_point pq_comm pq_result]. split; [rewrite map_length, seq_length; lia|]. split; [lia|]. split.
      * rewrite Ec. symmetry. apply commit_vcommit. exact N.
      * rewrite N by lia. rewrite Z2Nat.id by lia. exact Er.
Qed.

Hypothesis Hfit : domain_fits 256.
Let vt := tr_new (lbl "vt").

(** The challenges of a run about the queries [qs] are usable: [t] is outside the domain
    and no inner-product challenge is zero. *)
Definition usable_challenges (qs : list ProverQuery) : Prop :=
  outside_domain 256 (mp_honest_t 256 (tr_new (lbl "vt")) trie_crs qs) /\
  Forall (fun x => x <> fzero) (mp_honest_challenges 8 (tr_new (lbl "vt")) trie_crs qs).

Lemma weights256 : precomputed_weights 256 = Ok (weights 256).
Proof. apply weights_ok; [exact Hfit|lia]. Qed.

Lemma parts_nonempty db keys (qs : list ProverQuery) hint comms :
  create_proof_parts (S := MemoryDb) db keys = Ok (Some (qs, hint, comms)) -> qs <> [].
Proof.
  unfold create_proof_parts. destruct keys; [discriminate|].
  destruct (create_prover_queries _ _) as [[[|q l] ?]|]; cbn [rbind]; try discriminate. intros [= <- _ _]. discriminate.
Qed.

Lemma order_id l : Permutation ((fun l : list Group => l) l) l.
Proof. apply Permutation_refl. Qed.

Lemma honest_accepted h (db : MemoryDb) keys order :
  wf_history h -> run_mem h = Ok db -> keys <> [] -> Forall is_key keys ->
  distinguishable (final_map h) (stems_of h) keys ->
  (forall l, Permutation (order l) l) ->
  exists qs hint comms root, create_proof_parts db keys = Ok (Some (qs, hint, comms)) /\
    root_commitment db = Ok root /\
    (usable_challenges qs -> exists p uh,
       create_verkle_proof order db keys = Ok (Some p) /\ vp_hint p = hint /\ vp_comms p = comms /\
       proof_check p keys (map (final_map h) keys) root = Ok (true, Some uh)).
Proof.
  intros Hw E Nk Hk Hd Ho.
  destruct (prover_ok h db keys Hw E Nk Hk) as (qs & hint & comms & Ep & Ht & _).
  destruct (honest_queries h db keys Hw E Nk Hk Hd) as (qs' & hint' & comms' & root & uh & Ep' & Er & Ev).
  rewrite Ep in Ep'. injection Ep' as <- <- <-.
  exists qs, hint, comms, root. split; [exact Ep|]. split; [exact Er|]. intros [Ut Uc].
  destruct (multi_complete 256 Hfit ltac:(lia) order trie_crs 8 (tr_new (lbl "vt")) qs Ho) as (p & s & Op & Ck); try assumption.
  - reflexivity.
  - reflexivity.
  - apply trie_crs_len.
  - eapply parts_nonempty; eassumption.
  - eapply Forall_impl; [|exact Ht]. apply opening_good.
  - exists (mkVP hint comms p), uh. split; [|split; [reflexivity|split; [reflexivity|]]].
    + unfold create_verkle_proof. rewrite Ep. cbn [rbind]. rewrite weights256. cbn [rbind]. rewrite Op. reflexivity.
    + unfold proof_check. cbn [vp_hint vp_comms vp_proof]. rewrite Ev. cbn [rbind]. rewrite weights256. cbn [rbind].
      change (map (fun q => mkVQ (pq_comm q) (of_Z (pq_point q)) (pq_result q)) qs) with (map public_query qs).
      rewrite Ck. reflexivity.
Qed.

Lemma trie_pow : 256%nat = (2 ^ 8)%nat. Proof. reflexivity. Qed.

(** The same seen from the proof: whatever is created is accepted. *)
Lemma created_accepted h (db : MemoryDb) keys order p :
  wf_history h -> run_mem h = Ok db -> keys <> [] -> Forall is_key keys ->
  distinguishable (final_map h) (stems_of h) keys ->
  (forall l, Permutation (order l) l) ->
  create_verkle_proof order db keys = Ok (Some p) ->
  exists root qs uh, root_commitment db = Ok root /\
    create_verifier_queries (vp_hint p) (vp_comms p) keys (map (final_map h) keys) root = Ok (Some (qs, uh)) /\
    (outside_domain 256 (fst (mp_t (tr_new (lbl "vt")) qs (mp_g (vp_proof p)))) ->
     proof_check p keys (map (final_map h) keys) root = Ok (true, Some uh)).
Proof.
  intros Hw E Nk Hk Hd Ho Cr.
  destruct (prover_ok h db keys Hw E Nk Hk) as (qs & hint & comms & Ep & Ht & _).
  destruct (honest_queries h db keys Hw E Nk Hk Hd) as (qs' & hint' & comms' & root & uh & Ep' & Er & Ev).
  rewrite Ep in Ep'. injection Ep' as <- <- <-.
  unfold create_verkle_proof in Cr. rewrite Ep in Cr. cbn [rbind] in Cr. rewrite weights256 in Cr. cbn [rbind] in Cr.
  destruct (mp_open order trie_crs (weights 256) (tr_new (lbl "vt")) qs) as [[mp s]|] eqn:Op; cbn [rbind] in Cr; [|discriminate].
  injection Cr as <-. cbn [vp_hint vp_comms vp_proof].
  exists root, (map public_query qs), uh. split; [exact Er|]. split; [exact Ev|]. intros O.
  unfold proof_check. cbn [vp_hint vp_comms vp_proof]. rewrite Ev. cbn [rbind]. rewrite weights256. cbn [rbind].
  change (map (fun q => mkVQ (pq_comm q) (of_Z (pq_point q)) (pq_result q)) qs) with (map public_query qs).
  destruct (multi_accept 256 Hfit ltac:(lia) order trie_crs 8 (tr_new (lbl "vt")) qs Ho) with (p := mp) (s := s) as [_ Ck].
  - reflexivity.
  - reflexivity.
  - apply trie_crs_len.
  - eapply parts_nonempty; eassumption.
  - eapply Forall_impl; [|exact Ht]. apply opening_good.
  - exact Op.
  - rewrite Ck by exact O. reflexivity.
Qed.

(** Without [distinguishable] the check of an honest proof panics. *)
Lemma created_panics h (db : MemoryDb) keys order p root :
  wf_history h -> run_mem h = Ok db -> Forall is_key keys -> root_commitment db = Ok root ->
  ~ distinguishable (final_map h) (stems_of h) keys ->
  create_verkle_proof order db keys = Ok (Some p) ->
  proof_check p keys (map (final_map h) keys) root = Panic.
Proof.
  intros Hw E Hk Er Hd Cr. unfold create_verkle_proof in Cr.
  destruct (create_proof_parts db keys) as [[[[qs hint] comms]|]|] eqn:Ep; cbn [rbind] in Cr; try discriminate.
  rewrite weights256 in Cr. cbn [rbind] in Cr.
  destruct (mp_open order trie_crs (weights 256) (tr_new (lbl "vt")) qs) as [[mp s]|] eqn:Op; cbn [rbind] in Cr; [|discriminate].
  injection Cr as <-. unfold proof_check. cbn [vp_hint vp_comms vp_proof].
  rewrite (honest_panics h db keys qs hint comms root Hw E Hk Ep Er Hd). reflexivity.
Qed.

(** Claims that are true of some vectors can be given an accepted proof. *)
Lemma true_claims_accepted hint comms keys values root qs uh :
  create_verifier_queries hint comms keys values root = Ok (Some (qs, uh)) -> qs <> [] -> Forall true_claim qs ->
  exists pqs, map public_query pqs = qs /\ (usable_challenges pqs ->
    exists mp, proof_check (mkVP hint comms mp) keys values root = Ok (true, Some uh)).
Proof.
  intros Ev N F. destruct (claims_provable qs F) as (pqs & E & G). exists pqs. split; [exact E|]. intros [Ut Uc].
  destruct (multi_complete 256 Hfit ltac:(lia) (fun l => l) trie_crs 8 (tr_new (lbl "vt")) pqs order_id) as (p & s & Op & Ck); try assumption.
  - reflexivity.
  - reflexivity.
  - apply trie_crs_len.
  - intros ->. now subst qs.
  - exists p. unfold proof_check. cbn [vp_hint vp_comms vp_proof]. rewrite Ev. cbn [rbind]. rewrite weights256. cbn [rbind].
    rewrite <- E, Ck. reflexivity.
Qed.

(** ** Forgeries pass the whole check *)
Lemma tree_claim m St q : true_of_tree m St q -> true_claim q.
Proof. intros (p & z & _ & B & Ec & Ep & Er). exists (node_vec m St p), z. exact (conj B (conj Ec (conj Ep Er))). Qed.

Lemma hidden_key_checked : exists h (db : MemoryDb) root hint comms k v qs uh,
  wf_history h /\ run_mem h = Ok db /\ root_commitment db = Ok root /\ is_key k /\
  trie_get db k = Ok (Some v) /\
  create_verifier_queries hint comms [k] [None] root = Ok (Some (map public_query qs, uh)) /\
  (usable_challenges qs -> exists mp, proof_check (mkVP hint comms mp) [k] [None] root = Ok (true, Some uh)).
Proof.
  assert (Hw : wf_history hide_h) by (apply keys_okb_ok; vm_compute; reflexivity).
  destruct (root_spec hide_h Hw) as (db & E & _ & _).
  pose proof (root_node hide_h db Hw E) as Er.
  destruct (hide_accepted (node_comm (final_map hide_h) (stems_of hide_h) [])) as [uh Ea].
  destruct (true_claims_accepted _ _ _ _ _ _ _ Ea) as (pqs & Eq & Hp).
  - discriminate.
  - eapply Forall_impl; [|exact hide_true]. intros q. apply tree_claim.
  - exists hide_h, db, (node_comm (final_map hide_h) (stems_of hide_h) []), hide_hint, hide_comms, hide_k, hide_v, pqs, uh.
    split; [exact Hw|]. split; [exact E|]. split; [exact Er|]. split; [apply key_okb; vm_compute; reflexivity|]. split.
    + pose proof (run_canon hide_h db Hw E) as Ca.
      unfold trie_get. cbn [get_leaf memory_db_ops]. unfold mem_get_leaf. rewrite (can_leaf _ _ _ Ca).
      vm_compute. reflexivity.
    + rewrite Eq. split; [exact Ea|exact Hp].
Qed.

Lemma forged_value_checked : exists h (db : MemoryDb) root hint comms k1 v1 k2 v2 qs uh,
  wf_history h /\ run_mem h = Ok db /\ root_commitment db = Ok root /\ is_key k1 /\ is_key k2 /\ k1 <> k2 /\
  trie_get db k2 = Ok None /\
  create_verifier_queries hint comms [k1; k2] [Some v1; Some v2] root = Ok (Some (map public_query qs, uh)) /\
  (usable_challenges qs ->
   exists mp, proof_check (mkVP hint comms mp) [k1; k2] [Some v1; Some v2] root = Ok (true, Some uh)).
Proof.
  assert (Hw : wf_history forge_h) by (apply keys_okb_ok; vm_compute; reflexivity).
  destruct (root_spec forge_h Hw) as (db & E & _ & _).
  pose proof (root_node forge_h db Hw E) as Er.
  destruct (forge_accepted (node_comm (final_map forge_h) (stems_of forge_h) [])) as [uh Ea].
  destruct (true_claims_accepted _ _ _ _ _ _ _ Ea) as (pqs & Eq & Hp).
  - discriminate.
  - exact forge_true.
  - exists forge_h, db, (node_comm (final_map forge_h) (stems_of forge_h) []), forge_hint, forge_comms,
      forge_k1, forge_v1, forge_k2, forge_v2, pqs, uh.
    split; [exact Hw|]. split; [exact E|]. split; [exact Er|]. split; [apply key_okb; vm_compute; reflexivity|].
    split; [apply key_okb; vm_compute; reflexivity|]. split; [intros X; vm_compute in X; discriminate|]. split.
    + pose proof (run_canon forge_h db Hw E) as Ca.
      unfold trie_get. cbn [get_leaf memory_db_ops]. unfold mem_get_leaf. rewrite (can_leaf _ _ _ Ca).
      vm_compute. reflexivity.
    + rewrite Eq. split; [exact Ea|exact Hp].
Qed.
End CheckProofs.
