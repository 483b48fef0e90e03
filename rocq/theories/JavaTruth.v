(** Claims accepted by the Java verifier. *)
From Coq Require Import Permutation.
From Verif Require Import Base BaseFacts Alg AlgFacts AlgInst TreeSpec TreeFacts TrieModel TrieProofs TrieTheorems BTree WireModel WireSpec ProofModel ProofSpec
  IpaModel LagrangeSpec IpaSpec IpaInst WireInst MultiProofs CheckProofs SoundSpec TruthSpec TruthTheorems TruthInst GoModel GoSpec GoProofs GoTrie ProofTheorems BindModel BindSpec BindProofs StatelessModel StatelessSpec
  ChainSpec ChainProofs WitnessCases BindTrie EventSpec EventProofs EventWitness JavaSpec.
Local Open Scope list_scope.
Notation len := List.length.

Section Java.
Context {A : Alg} {L : AlgLaws A} {P : Par A} {PL : ParLaws P} {C : ECodec A} {CL : ECodecLaws C} {H : Hasher}.

Lemma decode_unique {X Y} (f : X -> option Y) bs l l' : Forall2 (fun b g => f b = Some g) bs l -> Forall2 (fun b g => f b = Some g) bs l' -> l = l'.
Proof.
  intros E1. revert l'. induction E1 as [|b g bs l Hb E1 IH]; intros l' E2; inversion E2; subst; [reflexivity|].
  f_equal; [congruence|now apply IH].
Qed.
Lemma java_list_inj l l' : java_list l = java_list l' -> l = l'.
Proof. unfold java_list. intro E. injection E as E. apply (WitnessCases.map_inj Some); [|exact E]. intros a b X. now injection X. Qed.
Lemma combine_inj {X Y} (a a' : list X) (b b' : list Y) : len a = len b -> len a' = len b' -> combine a b = combine a' b' -> a = a' /\ b = b'.
Proof.
  revert a' b b'. induction a as [|x a IH]; intros [|x' a'] [|y b] [|y' b'] L1 L2 E; try discriminate; [auto|].
  cbn [combine] in E. injection E as -> -> E. cbn [List.length] in *. destruct (IH a' b b') as [-> ->]; [lia|lia|exact E|auto].
Qed.
Lemma status_unique b e d e' d' : java_status_means b e d -> java_status_means b e' d' -> (e, d) = (e', d').
Proof.
  intros [[S ->]|(B & -> & ->)] [[S' ->]|(B' & -> & ->)]; [| | |reflexivity].
  - unfold status_means in *. f_equal. destruct e, e'; congruence.
  - exfalso. unfold bad_status, status_means in *. destruct e; congruence.
  - exfalso. unfold bad_status, status_means in *. destruct e'; congruence.
Qed.
Lemma java_unique cp cl cr os d dp fe p p' : java_says cp cl cr os d dp fe p -> java_says cp cl cr os d dp fe p' -> p = p'.
Proof.
  intros [(c1 & -> & C1) (l1 & -> & L1) (r1 & -> & R1) (o1 & -> & S1 & O1) (d1 & -> & D1) (s1 & -> & N1 & M1 & T1) (f1 & -> & F1)]
         [(c2 & Ec & C2) (l2 & El & L2) (r2 & Er & R2) (o2 & Eo & S2 & O2) (d2 & Ed & D2) (s2 & Es & N2 & M2 & T2) (f2 & Ef & F2)].
  apply java_list_inj in Ec, El, Er, Eo. injection Ed as <-. injection Es as <-. injection Ef as <-. subst c2 l2 r2 o2.
  destruct p as [[ds es df] cm [[l r a] gg]], p' as [[ds' es' df'] cm' [[l' r' a'] gg']]. cbn [vp_hint vp_comms vp_proof vh_depths vh_ext vh_diff mp_ipa mp_g ipa_L ipa_R ipa_a] in *.
  assert (cm = cm') by exact (decode_unique el_de _ _ _ C1 C2). assert (l = l') by exact (decode_unique el_de _ _ _ L1 L2). assert (r = r') by exact (decode_unique el_de _ _ _ R1 R2).
  assert (df = df') by (apply (sorted_ext df df' S1 S2); intro s; rewrite O1, O2; reflexivity).
  assert (X : combine es ds = combine es' ds').
  { clear - T1 T2. revert T2. generalize (combine es' ds'). induction T1 as [|b [e dd] bs q Hb T1 IH]; intros q' T2; inversion T2 as [|? [e' d'] ? ? Hb' T2']; subst; [reflexivity|].
    f_equal; [exact (status_unique b e dd e' d' Hb Hb')|now apply IH]. }
  apply combine_inj in X as [-> ->]; [|congruence|congruence]. congruence.
Qed.

(** One block: what the check accepts is true, hidden, or an event. *)
Lemma check_true_or_event open h (db : MemoryDb) r b uh : domain_fits 256 -> wf_history h -> run_mem h = Ok db -> root_commitment db = Ok r ->
  Forall is_key (bl_keys b) -> NoDup (bl_keys b) -> opened_block open h b ->
  proof_check (bl_proof b) (bl_keys b) (bl_values b) r = Ok (true, uh) ->
  (forall k v, In (k, v) (combine (bl_keys b) (bl_values b)) -> trie_get db k = Ok v \/ hidden (stems_of h) (vp_hint (bl_proof b)) (bl_keys b) k v) \/
  block_event open h b.
Proof.
  intros D Wf Er Rt Hk ND Hop Ck. destruct (block_or_event open h b Wf Hop) as [[Hl Hb]|He]; [left|right; exact He].
  assert (Q : exists qs uh', create_verifier_queries (vp_hint (bl_proof b)) (vp_comms (bl_proof b)) (bl_keys b) (bl_values b) r = Ok (Some (qs, uh'))).
  { unfold proof_check in Ck. destruct (create_verifier_queries _ _ _ _ _) as [[[qs uh']|]|]; cbn [rbind] in Ck; [now exists qs, uh'|discriminate|discriminate]. }
  destruct Q as (qs & uh' & Eq). destruct (Hb db r qs uh uh' Er Rt Ck Eq) as (Hco & Hsc & vs & Ho & Hi). intros k v Hin.
  exact (claims_true h db r _ _ _ _ qs uh' vs D Wf Er Rt Hk ND Hl Eq Ho Hco Hi Hsc k v Hin).
Qed.

Lemma java_true_or_event open h (db : MemoryDb) r keys vals cp cl cr os d dp fe : domain_fits 256 -> wf_history h ->
  run_mem h = Ok db -> root_commitment db = Ok r -> Forall is_key keys -> NoDup keys ->
  j_verify_pre_state_root (java_list keys) (java_list vals) cp cl cr os d dp fe (Some (el_ser r)) = Ok true ->
  exists p, java_says cp cl cr os d dp fe p /\
    (opened_block open h (java_block p keys vals) ->
     (forall k v, In (k, v) (combine keys (java_claims keys vals)) -> trie_get db k = Ok v \/ hidden (stems_of h) (vp_hint p) keys k v) \/
     block_event open h (java_block p keys vals)).
Proof.
  intros D Wf Er Rt Hk ND V.
  destruct (j_accept _ _ _ _ _ _ _ _ _ _ V) as (keys' & vals' & comms & ls & rs & stems & dbb & dps & feb & rb & p & r' & uh &
    E1 & E2 & Hle & _ & -> & -> & -> & -> & -> & -> & -> & Eb & _ & _ & F1 & F2 & F3 & F4 & F5 & F6 & F7 & F8 & F9 & F10 & F11 & Ck).
  apply java_list_inj in E1. subst keys'. injection Eb as <-. rewrite el_rt in F6. injection F6 as <-.
  exists p. split.
  - constructor; eauto 6.
  - intro Hop. apply (check_true_or_event open h db r (java_block p keys vals) uh D Wf Er Rt Hk ND Hop).
    cbn [java_block bl_proof bl_keys bl_values]. unfold java_claims. destruct keys as [|k keys]; [exact Ck|].
    assert (X : vals' = vals) by (symmetry; apply java_list_inj; apply E2; discriminate). now rewrite X in Ck.
Qed.
(** The arguments written from a proof say that proof. *)
Lemma status_written d e : java_status_means (8 * d + ext_code e) e d.
Proof.
  left. split.
  - unfold status_means. replace (8 * d + ext_code e) with (ext_code e + (2 * d) * 4) by ring.
    destruct e; rewrite Z.mod_add by discriminate; reflexivity.
  - replace (8 * d + ext_code e) with (ext_code e + d * 8) by ring. rewrite Z.div_add by discriminate.
    destruct e; reflexivity.
Qed.
Lemma points_written l : Forall2 (fun b g => el_de b = Some g) (map el_ser l) l.
Proof. induction l as [|g l IH]; [constructor|]. constructor; [apply el_rt|exact IH]. Qed.
Lemma java_written p : hint_fits (vp_hint p) ->
  java_says (java_list (map el_ser (vp_comms p))) (java_list (map el_ser (ipa_L (mp_ipa (vp_proof p))))) (java_list (map el_ser (ipa_R (mp_ipa (vp_proof p)))))
    (java_list (vh_diff (vp_hint p))) (Some (el_ser (mp_g (vp_proof p))))
    (Some (map (fun '(d, e) => 8 * d + ext_code e) (combine (vh_depths (vp_hint p)) (vh_ext (vp_hint p)))))
    (Some (rev (sc_ser (ipa_a (mp_ipa (vp_proof p)))))) p.
Proof.
  intros HF. constructor.
  - eexists. split; [reflexivity|apply points_written].
  - eexists. split; [reflexivity|apply points_written].
  - eexists. split; [reflexivity|apply points_written].
  - eexists. split; [reflexivity|]. split; [exact (hf_sorted _ HF)|reflexivity].
  - eexists. split; [reflexivity|apply el_rt].
  - eexists. split; [reflexivity|]. pose proof (hf_len _ HF) as L1. rewrite map_length, combine_length. split; [lia|]. split; [lia|].
    clear HF. revert L1. generalize (vh_ext (vp_hint p)). generalize (vh_depths (vp_hint p)).
    induction l as [|x l IH]; intros [|e es] L1; try discriminate; [constructor|]. cbn [combine map]. constructor; [apply status_written|].
    apply IH. now injection L1.
  - eexists. split; [reflexivity|]. rewrite rev_involutive. apply sc_rt.
Qed.
End Java.

(** A proof of the account tree of [WitnessCases], through the Java verifier. *)
Definition acc_values : list bytes := map (fun k => match final_map acc_h k with None => [] | Some v => v end) acc_keys.
Lemma java_case : exists open (db : @MemoryDb ExA) r cp cl cr os d dp fe, run_mem acc_h = Ok db /\ root_commitment db = Ok r /\
  j_verify_pre_state_root (java_list acc_keys) (java_list acc_values) cp cl cr os d dp fe (Some (el_ser r)) = Ok true /\
  forall p, java_says cp cl cr os d dp fe p -> opened_block open acc_h (java_block p acc_keys acc_values).
Proof.
  destruct (run_mem_canon (A := ExA) acc_h acc_wf) as (db & E & _).
  assert (Hv : forall k v, In k acc_keys -> final_map acc_h k = Some v -> len v = 32%nat).
  { intros k v Hk Ev. assert (X : forallb (fun k => match final_map acc_h k with None => true | Some v => (len v =? 32)%nat end) acc_keys = true)
      by (vm_compute; reflexivity).
    rewrite forallb_forall in X. apply X in Hk. rewrite Ev in Hk. now apply Nat.eqb_eq. }
  destruct (java_honest acc_h db acc_keys (fun l => l) (ex_fits 256 ltac:(lia)) acc_wf E Hv ltac:(discriminate)
    acc_keys_ok ltac:(vm_compute; reflexivity) acc_d ltac:(intro l; apply Permutation_refl)) as (qs & hint & comms & root & Ep & Er & K).
  destruct (K (ex_usable qs)) as (p & Cr & V).
  assert (Hc : java_claims acc_keys acc_values = map (final_map acc_h) acc_keys) by (vm_compute; reflexivity).
  destruct (ideal_opened acc_h (java_block p acc_keys acc_values)) as [open Hop].
  { unfold java_block. rewrite Hc. exact (honest_ideal acc_h db acc_keys (fun l => l) p [] acc_wf E ltac:(discriminate) acc_keys_ok acc_d acc_i acc_a Cr). }
  exists open, db, root.
  replace (Some (map (fun k => java_value (final_map acc_h k)) acc_keys)) with (java_list acc_values) in V by (vm_compute; reflexivity).
  do 7 eexists. split; [exact E|]. split; [exact Er|]. split; [exact V|].
  intros p' J'. replace p' with p; [exact Hop|]. symmetry. refine (java_unique _ _ _ _ _ _ _ _ _ J' (java_written p _)).
  destruct (created_parts db _ _ p qs hint comms Cr Ep) as [-> _].
  exact (prover_hint_fits acc_h db acc_keys qs hint comms acc_wf E acc_keys_ok ltac:(vm_compute; reflexivity) Ep).
Qed.
