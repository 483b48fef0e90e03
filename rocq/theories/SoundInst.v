(** Challenges for all runs in the example group, and the honest prover's runs under them. *)
From Coq Require Import String Permutation.
From Verif Require Import Base BaseFacts Alg AlgInst AlgFacts TreeSpec TrieModel TrieTheorems ExData BTree WireModel WireInst ProofModel ProofSpec
  ProofTheorems ProofExamples IpaModel LagrangeSpec LagrangeProofs IpaSpec MultiProofs TranscriptSpec CheckProofs IpaInst
  SoundSpec SoundIpa SoundMulti SoundCheck SoundHonest.
Local Open Scope list_scope.
Notation len := List.length.

Definition ex_enc (x : @F ExA) : bytes := Z_le 32 (zval p31 x).
Lemma ex_enc_ok x : @to_scalar ExA (ex_enc x) = x.
Proof.
  unfold to_scalar, ex_enc. assert (R := zval_range p31 p31_prime x). rewrite le_Z_Z_le; [exact (zred_val p31 p31_prime x)|].
  change (256 ^ Z.of_nat 32) with (2 ^ 256). assert (p31 < 2 ^ 256) by reflexivity. lia.
Qed.
Lemma ex_inj a b : 0 <= a < p31 -> 0 <= b < p31 -> zred p31 a = zred p31 b -> a = b.
Proof. intros Ba Bb E. apply (f_equal (zval p31)) in E. rewrite !zval_red, !Z.mod_small in E by lia. exact E. Qed.

(** In every round the challenges [z, .., z + 3], in the next one [z + 4, ..]. *)
Fixpoint ex_tree (k : nat) (z : Z) : @CTree ExA :=
  match k with
  | O => CLeaf
  | S k' => let t := ex_tree k' (z + 4) in
            CNode (A := ExA) (zred p31 z) t (zred p31 (z + 1)) t (zred p31 (z + 2)) t (zred p31 (z + 3)) t
  end.
Lemma ex_nodup l : NoDup l -> Forall (fun z => 0 <= z < p31) l -> NoDup (map (zred p31) l).
Proof.
  induction 1 as [|z l Nz N IH]; intros B; cbn [map]; [constructor|]. apply Forall_cons_iff in B as [Bz B].
  constructor; [|now apply IH]. intros I. apply in_map_iff in I as (y & E & Iy). rewrite Forall_forall in B.
  apply ex_inj in E; [|now apply B|exact Bz]. now subst.
Qed.
Lemma ex_tree_full k : forall z, 0 < z -> z + 4 * Z.of_nat k < p31 -> full_tree k (ex_tree k z).
Proof.
  induction k as [|k IH]; intros z B1 B2; cbn [ex_tree full_tree]; [easy|].
  assert (T := IH (z + 4) ltac:(lia) ltac:(lia)). split; [|split; [|easy]].
  - apply (ex_nodup [z; z + 1; z + 2; z + 3]).
    + repeat constructor; cbn [In]; lia.
    + repeat constructor; lia.
  - intros I. assert (Z0 : forall y, 0 < y < p31 -> zred p31 y <> @fzero ExA) by (intros y; apply (ex_of_Z y)).
    cbn [In] in I. repeat (destruct I as [I|I]; [eapply Z0; [|exact I]; lia|]). exact I.
Qed.
Lemma ex_tree_paths k : forall z xs, 0 < z -> z + 4 * Z.of_nat k < p31 -> In xs (paths (ex_tree k z)) ->
  len xs = k /\ exists zs, xs = map (zred p31) zs /\ NoDup zs /\ Forall (fun y => z <= y < z + 4 * Z.of_nat k) zs.
Proof.
  induction k as [|k IH]; intros z xs B1 B2 I; cbn [ex_tree paths] in I.
  - cbn [In] in I. destruct I as [<-|[]]. split; [easy|]. exists []. repeat split; constructor.
  - assert (K : exists y xs', z <= y < z + 4 /\ xs = zred p31 y :: xs' /\ In xs' (paths (ex_tree k (z + 4)))).
    { apply in_app_or in I as [I|I]; [|apply in_app_or in I as [I|I]; [|apply in_app_or in I as [I|I]]];
        apply in_map_iff in I as (xs' & <- & I); eexists; exists xs'; (split; [|split; [reflexivity|exact I]]); lia. }
    destruct K as (y & xs' & By & -> & I'). destruct (IH (z + 4) xs' ltac:(lia) ltac:(lia) I') as (L & zs & -> & N & F).
    split; [cbn [List.length]; now f_equal|]. exists (y :: zs). split; [reflexivity|]. split.
    + constructor; [|exact N]. intros Iy. rewrite Forall_forall in F. specialize (F y Iy). lia.
    + constructor; [lia|]. rewrite Forall_forall in *. intros u Iu. specialize (F u Iu). lia.
Qed.
Lemma nodup_removelast {X} (l : list X) : NoDup l -> NoDup (removelast l).
Proof.
  destruct l as [|x l]; intros N; [constructor|]. rewrite (app_removelast_last x (l := x :: l)) in N by discriminate.
  exact (NoDup_app_l _ _ N).
Qed.
Lemma ex_path_ok k z xs : 0 < z -> z + 4 * Z.of_nat k < p31 -> In xs (paths (ex_tree k z)) ->
  len xs = k /\ Forall (fun x => x <> @fzero ExA) xs /\ NoDup (removelast xs).
Proof.
  intros B1 B2 I. destruct (ex_tree_paths k z xs B1 B2 I) as (L & zs & -> & N & F). split; [exact L|].
  rewrite Forall_forall in F. split.
  - apply Forall_forall. intros x Ix. apply in_map_iff in Ix as (y & <- & Iy). specialize (F y Iy). apply (ex_of_Z y). lia.
  - apply nodup_removelast. apply ex_nodup; [exact N|]. apply Forall_forall. intros y Iy. specialize (F y Iy). lia.
Qed.

(** [m] values of r, [2 * 2^k] values of t, two of w. *)
Definition ex_challenges (k m : nat) : @Challenges ExA :=
  mkChal (A := ExA) (map (fun i => zred p31 (Z.of_nat i)) (seq 0 m))
    (fun _ => map (fun i => zred p31 (1000 + Z.of_nat i)) (seq 0 (2 * 2 ^ k)))
    (fun _ _ => zred p31 5) (fun _ _ => zred p31 6) (fun _ _ _ => ex_tree k 7).
Lemma ex_outside n z : (n <= 1000)%nat -> 1000 <= z < p31 -> @outside_domain ExA n (zred p31 z).
Proof.
  intros L B i Hi E. unfold pt in E. cbn [of_Z ExA zp_alg] in E. apply ex_inj in E; unfold p31 in *; lia.
Qed.
Lemma ex_map_seq_nodup c n : 0 <= c -> c + Z.of_nat n <= p31 -> NoDup (map (fun i => zred p31 (c + Z.of_nat i)) (seq 0 n)).
Proof.
  intros B1 B2. rewrite <- (map_map (fun i => c + Z.of_nat i) (zred p31)). apply ex_nodup.
  - apply FinFun.Injective_map_NoDup; [|apply seq_NoDup]. intros x y E. lia.
  - apply Forall_forall. intros z I. apply in_map_iff in I as (i & <- & I). apply in_seq in I. lia.
Qed.
Lemma ex_enough k m : (2 ^ k <= 1000)%nat -> (k <= 1000)%nat -> (m <= 1000)%nat -> enough_challenges k m (ex_challenges k m).
Proof.
  intros Lk Lk' Lm. unfold enough_challenges, ex_challenges. cbn [ch_r ch_t ch_w1 ch_w2 ch_x].
  assert (P : 1000000 < p31) by reflexivity.
  split; [|split; [now rewrite map_length, seq_length|]].
  - apply (ex_map_seq_nodup 0); lia.
  - intros r _. split; [apply ex_map_seq_nodup; lia|]. split; [now rewrite map_length, seq_length|].
    intros t I. apply in_map_iff in I as (i & <- & I). apply in_seq in I.
    split; [apply ex_outside; lia|].
    split; [apply (ex_of_Z 5); lia|]. split; [apply (ex_of_Z 6); lia|].
    split; [intros E; apply ex_inj in E; lia|]. split; apply ex_tree_full; lia.
Qed.

(** The honest prover for [qs] is accepted in every run. *)
Lemma ex_all_accepted k crs pw (qs : list (@ProverQuery ExA)) b tr m :
  (2 ^ k <= 1000)%nat -> (k <= 1000)%nat -> crs_n crs = (2 ^ k)%nat -> len (crs_G crs) = (2 ^ k)%nat ->
  precomputed_weights (2 ^ k) = Ok pw -> Forall (good_query (2 ^ k) (crs_G crs)) qs -> ~ In b [114; 116; 119; 120] ->
  all_accepted (hon_prover (2 ^ k) crs qs) (b :: tr) crs pw (map public_query qs) (ex_challenges k m).
Proof.
  intros Lk Lk' Hcn HG Hpw K B r t w xs Ir It Iw Ix.
  assert (P : 1000000 < p31) by reflexivity.
  unfold ex_challenges in It, Iw, Ix. cbn [ch_t ch_w1 ch_w2 ch_x] in It, Iw, Ix.
  destruct (ex_path_ok k 7 xs ltac:(lia) ltac:(lia) Ix) as (Lx & Nz & Nd).
  apply in_map_iff in It as (i & <- & I). apply in_seq in I.
  apply (honest_run ex_enc ex_enc_ok k); try assumption; [reflexivity|apply ex_fits; lia|apply ex_outside; lia].
Qed.

(** The same for the check of a whole proof of the example tree. *)
Lemma ex_all_checked : exists (db : MemoryDb) (hint : VerificationHint) comms root qs uh p,
  run_mem ex_h = Ok db /\ root_commitment db = Ok root /\ (exists q, In q qs) /\
  create_verifier_queries hint comms ex_keys (map (final_map ex_h) ex_keys) root = Ok (Some (qs, uh)) /\
  enough_challenges 8 (len qs) (ex_challenges 8 (len qs)) /\
  all_checked p hint comms ex_keys (map (final_map ex_h) ex_keys) root qs (ex_challenges 8 (len qs)).
Proof.
  assert (Hw : wf_history ex_h) by (apply keys_okb_ok; vm_compute; reflexivity).
  destruct (root_spec ex_h Hw) as (db & E & _ & _).
  assert (Nk : ex_keys <> []) by discriminate.
  destruct (prover_ok ex_h db ex_keys Hw E Nk ex_keys_ok) as (qs & hint & comms & Ep & Ht & _).
  destruct (honest_queries ex_h db ex_keys Hw E Nk ex_keys_ok ex_distinguishable) as (qs' & hint' & comms' & root & uh & Ep' & Er & Ev).
  assert (X : (qs', hint', comms') = (qs, hint, comms)) by congruence. apply pair_equal_spec in X as [X ->]. apply pair_equal_spec in X as [-> ->].
  change (map (fun q => mkVQ (pq_comm q) (of_Z (pq_point q)) (pq_result q)) qs) with (map public_query qs) in Ev.
  exists db, hint, comms, root, (map public_query qs), uh, (hon_prover 256 trie_crs qs).
  split; [exact E|]. split; [exact Er|]. split.
  { assert (Ne := parts_nonempty _ _ _ _ _ Ep). destruct qs as [|q qs]; [contradiction|]. exists (public_query q). now left. }
  split; [exact Ev|].
  assert (Lq := proj2 (verifier_points _ _ _ _ _ _ _ ex_keys_ok Ev)). change (len ex_keys) with 6%nat in Lq.
  split; [apply ex_enough; [cbn; lia|lia|lia]|].
  intros r t w xs Ir It Iw Ix.
  assert (W := weights256 (ex_fits 256 ltac:(lia))).
  assert (Good : Forall (good_query 256 (crs_G trie_crs)) qs) by (eapply Forall_impl; [|exact Ht]; apply opening_good).
  destruct (ex_all_accepted 8 trie_crs (weights 256) qs 118 [116] (len (map public_query qs)) ltac:(cbn; lia) ltac:(lia) eq_refl trie_crs_len W
    Good ltac:(cbn [In]; lia) r t w xs Ir It Iw Ix) as (H & R & Ck).
  exists H, (Some uh). split; [exact R|].
  unfold proof_check. cbn [vp_hint vp_comms vp_proof]. rewrite Ev. cbn [rbind]. rewrite W. cbn [rbind].
  change (tr_new (lbl "vt")) with [118; 116]. change (2 ^ 8)%nat with 256%nat in Ck. rewrite Ck. reflexivity.
Qed.
