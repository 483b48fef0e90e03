(** The stateless update: theorems. *)
From Coq Require Import Permutation String.
From Verif Require Import Base BaseFacts Alg AlgFacts TreeSpec TreeFacts TrieModel TrieProofs TrieTheorems BTree WireModel ProofModel ProofSpec PathProofs OpeningProofs VerifierProofs ProofTheorems
  IpaModel CheckProofs StatelessModel StatelessSpec StatelessProofs HybridProofs StatelessUpdate.
Local Open Scope list_scope.
Notation len := List.length.

Section Theorems.
Context {A : Alg} {AL : AlgLaws A} {P : Par A} {PL : ParLaws P} {C : ECodec A} {H : Hasher}.
Opaque vcommit gsum subtree_hash.

Lemma occupied_slot h k : wf_history h -> is_key k ->
  occupied (stems_of h) k <-> stem_at (stems_of h) (qpos (stems_of h) k) <> None.
Proof.
  intros W Hk. assert (Hl : len (firstn 31 k) = 31%nat) by (apply key_stem; exact Hk). split.
  - intros (q & t & Hq & Hp). rewrite qpos_slot, (slot_of h W q t (firstn 31 k) Hq Hl Hp), Hq. discriminate.
  - intro Hn. destruct (stem_at (stems_of h) (qpos (stems_of h) k)) as [t|] eqn:E; [|congruence].
    exists (qpos (stems_of h) k), t. split; [exact E|]. rewrite qpos_slot. apply slot_prefix.
Qed.

Lemma verifier_short_dec (db : MemoryDb) m St (Cn : Canon db m St) keys (Hk : Forall is_key keys) (Nk : keys <> []) qs :
  Forall2 (opens m St) (all_entries St keys) qs ->
  distinguishable m St keys \/
  create_verifier_queries (proof_hint St keys) (comms_of_queries qs (node_comm m St [])) keys (map m keys) (node_comm m St []) = Panic.
Proof.
  intro Hq. destruct (Nat.eq_dec (S (len (comms_of_queries qs (node_comm m St [])))) (len (opened St keys))) as [E|E].
  - left. exact (comms_short db m St Cn keys Hk Nk qs Hq E).
  - right. apply (verifier_short db m St Cn keys Hk Nk qs Hq). intro D. apply E.
    pose proof (comms_ok db m St Cn keys Hk Nk qs Hq D) as X. apply (f_equal (@len _)) in X. rewrite map_length in X. exact X.
Qed.

(** What an accepted check of a created proof hands to the update. *)
Lemma honest_hint h (db : MemoryDb) keys order p root ok o :
  wf_history h -> run_mem h = Ok db -> Forall is_key keys -> root_commitment db = Ok root ->
  create_verkle_proof order db keys = Ok (Some p) ->
  proof_check p keys (map (final_map h) keys) root = Ok (ok, o) ->
  root = node_comm (final_map h) (stems_of h) [] /\
  exists others, o = Some (mkUH (stat_graph (stems_of h) keys) (comm_graph (final_map h) (stems_of h) keys) others) /\
   forall p t, map_get p others = Some t <->
    stem_at (stems_of h) p = Some t /\ exists k, In k keys /\ p = qpos (stems_of h) k /\ t <> firstn 31 k.
Proof.
  intros Hw E Hk Er Cr Ck. pose proof (root_node h db Hw E) as Er'. rewrite Er in Er'. injection Er' as ->.
  split; [reflexivity|].
  pose proof (run_canon h db Hw E) as Cn.
  assert (Nk : keys <> []).
  { intros ->. unfold create_verkle_proof, create_proof_parts in Cr. cbn in Cr. discriminate. }
  destruct (proof_parts_ok db _ _ Cn keys Hk Nk) as (qs & Ep & Hop).
  unfold create_verkle_proof in Cr. rewrite Ep in Cr. cbn [rbind] in Cr.
  destruct (precomputed_weights 256) as [pw|]; cbn [rbind] in Cr; [|discriminate].
  match type of Cr with context [mp_open ?a ?b ?c ?d ?e] => destruct (mp_open a b c d e) as [[mp s]|] end; cbn [rbind] in Cr; [|discriminate].
  injection Cr as <-. unfold proof_check in Ck. cbn [vp_hint vp_comms vp_proof] in Ck.
  destruct (create_verifier_queries (proof_hint (stems_of h) keys) (comms_of_queries qs (node_comm (final_map h) (stems_of h) [])) keys
     (map (final_map h) keys) (node_comm (final_map h) (stems_of h) [])) as [x|] eqn:Ev; [|discriminate].
  assert (Hd : distinguishable (final_map h) (stems_of h) keys).
  { destruct (verifier_short_dec db _ _ Cn keys Hk Nk qs Hop) as [D|Pn]; [exact D|]. rewrite Pn in Ev. discriminate. }
  destruct (verifier_ok db _ _ Cn keys Hk Nk qs Hop Hd) as (others & Eo & _ & Ho).
  rewrite Eo in Ev. injection Ev as <-. cbn [rbind] in Ck.
  destruct (precomputed_weights 256); cbn [rbind] in Ck; [|discriminate].
  match type of Ck with context [mp_check ?a ?b ?c ?d ?e] => destruct (mp_check a b c d e) as [b0|] end; cbn [rbind] in Ck; [|discriminate].
  injection Ck as _ <-. exists others. split; [reflexivity|exact Ho].
Qed.

Lemma stateless_update h (db : MemoryDb) keys updated order horder p root :
  wf_history h -> run_mem h = Ok db -> root_commitment db = Ok root ->
  Forall is_key keys -> NoDup keys -> len updated = len keys ->
  (forall l, Permutation (horder l) l) ->
  create_verkle_proof order db keys = Ok (Some p) ->
  (exists uh, proof_check p keys (map (final_map h) keys) root = Ok (true, uh)) ->
  let r := verify_and_update horder p root keys (map (final_map h) keys) updated in
  ((forall k v, In (k, v) (writes keys updated) -> occupied (stems_of h) k) ->
   exists db' root', trie_insert db (writes keys updated) = Ok db' /\ root_commitment db' = Ok root' /\ r = Ok (VOk root')) /\
  ((exists k v, In (k, v) (writes keys updated) /\ ~ occupied (stems_of h) k) -> r = Panic).
Proof.
  intros Hw E Er Hk Hnd Hl Ho Cr (uh & Ck) r.
  destruct (honest_hint h db keys order p root true uh Hw E Hk Er Cr Ck) as (-> & others & -> & Hot).
  pose proof (run_canon h db Hw E) as Cn.
  destruct (update_root_ok h db keys updated others horder Hw Cn Hk Hnd Hl Hot Ho) as [H1 H2].
  assert (Ekey : forall k v, In (k, v) (writes keys updated) -> is_key k).
  { intros k v Hi. apply writes_In in Hi. rewrite Forall_forall in Hk. now apply Hk. }
  unfold r, verify_and_update. rewrite Ck. cbn [rbind negb unwrap]. split.
  - intro Hoc. destruct (hcanon_insert_all (writes keys updated) db h Cn) as (db' & E' & C').
    { apply Forall_forall. intros [k v] Hi. eapply Ekey; eauto. }
    exists db', (spec_root (final_map (h ++ writes keys updated)) (stems_of (h ++ writes keys updated))).
    split; [exact E'|]. split; [exact (proj1 (canon_root _ _ _ C'))|]. apply H1.
    intros k v Hi. apply occupied_slot; [exact Hw|eapply Ekey; eauto|eapply Hoc; eauto].
  - intros (k & v & Hi & Hn). apply H2. exists k, v. split; [exact Hi|].
    destruct (stem_at (stems_of h) (qpos (stems_of h) k)) as [t|] eqn:Es; [|reflexivity].
    exfalso. apply Hn. apply occupied_slot; [exact Hw|eapply Ekey; eauto|]. rewrite Es. discriminate.
Qed.

(** ** Malformed requests *)
Lemma not_usize_small a b : Z.of_nat a < 2 ^ 63 -> Z.of_nat b < 2 ^ 63 -> (not_usize a =? Z.of_nat b) = false.
Proof. intros. unfold not_usize. apply Z.eqb_neq. change (2 ^ 64) with (2 * 2 ^ 63). lia. Qed.

Lemma update_small horder hint keys values updated root :
  Z.of_nat (len keys) < 2 ^ 63 -> Z.of_nat (len values) < 2 ^ 63 -> Z.of_nat (len updated) < 2 ^ 63 ->
  update_root horder hint keys values updated root =
  if negb (has_unique_elements keys) then Ok (VErr DuplicateKeys)
  else
    let! o := process_stems hint (mkU [] bempty) (updated_stems keys values updated) in
    match o with
    | None => Ok (VErr OldValueIsPopulated)
    | Some u =>
        let! t := process_prefixes horder (uh_comms hint) (u_stem u) (mkSparse root bempty) (u_prefix u) in
        Ok (VOk (sp_root t))
    end.
Proof. intros. unfold update_root. rewrite !not_usize_small by assumption. reflexivity. Qed.

Lemma duplicates_rejected horder hint keys values updated root :
  Z.of_nat (len keys) < 2 ^ 63 -> Z.of_nat (len values) < 2 ^ 63 -> Z.of_nat (len updated) < 2 ^ 63 ->
  ~ NoDup keys -> update_root horder hint keys values updated root = Ok (VErr DuplicateKeys).
Proof.
  intros B1 B2 B3 Hd. rewrite update_small by assumption. destruct (has_unique_elements keys) eqn:E; [|reflexivity].
  apply has_unique_NoDup in E. contradiction.
Qed.

Lemma combine_short {X Y} (a : list X) : forall (b c : list Y), (len a <= len b)%nat -> combine a (b ++ c) = combine a b.
Proof.
  induction a as [|x a IH]; intros [|y b] c Hl; cbn [combine app len] in *; auto; [lia|]. rewrite IH by lia. reflexivity.
Qed.

Lemma combine_app_r {X Y} (a : list X) : forall (b c : list Y), exists d,
  combine a (b ++ c) = combine a b ++ d /\ forall e, In e d -> In (snd e) c.
Proof.
  induction a as [|x a IH]; intros b c; [exists []; split; [reflexivity|intros e []]|].
  destruct b as [|y b].
  - exists (combine (x :: a) c). split; [reflexivity|]. intros [u v] He. apply in_combine_r in He. exact He.
  - destruct (IH b c) as (d & E & Hd). exists d. cbn [combine app]. rewrite E. auto.
Qed.

Lemma collect_none l : (forall e, In e l -> snd e = None) -> forall us, fold_left collect_update l us = us.
Proof.
  induction l as [|[[k o] n] l IH]; intros Hn us; cbn [fold_left]; [reflexivity|].
  pose proof (Hn _ (or_introl eq_refl)) as E. cbn [snd] in E. subst n. cbn [collect_update]. apply IH. intros; apply Hn; now right.
Qed.

Lemma trailing_ignored horder hint keys values updated extra root :
  Z.of_nat (len keys) < 2 ^ 63 -> Z.of_nat (len values) < 2 ^ 63 -> Z.of_nat (len (updated ++ extra)) < 2 ^ 63 ->
  (len keys <= len updated)%nat ->
  update_root horder hint keys values (updated ++ extra) root = update_root horder hint keys values updated root.
Proof.
  intros B1 B2 B3 Hl. rewrite app_length, Nat2Z.inj_add in B3. rewrite !update_small by (rewrite ?app_length, ?Nat2Z.inj_add; lia).
  assert (E : updated_stems keys values (updated ++ extra) = updated_stems keys values updated).
  { unfold updated_stems. rewrite combine_short; [reflexivity|]. rewrite combine_length. lia. }
  rewrite E. reflexivity.
Qed.

Lemma missing_ignored horder hint keys values updated n root :
  Z.of_nat (len keys) < 2 ^ 63 -> Z.of_nat (len values) < 2 ^ 63 -> Z.of_nat (len updated + n) < 2 ^ 63 ->
  update_root horder hint keys values updated root = update_root horder hint keys values (updated ++ repeat None n) root.
Proof.
  intros B1 B2 B3. rewrite Nat2Z.inj_add in B3. rewrite !update_small by (rewrite ?app_length, ?repeat_length, ?Nat2Z.inj_add; lia).
  assert (E : updated_stems keys values (updated ++ repeat None n) = updated_stems keys values updated).
  { unfold updated_stems. destruct (combine_app_r (combine keys values) updated (repeat None n)) as (d & -> & Hd).
    rewrite fold_left_app. apply collect_none. intros e He. apply Hd in He. now apply repeat_spec in He. }
  rewrite E. reflexivity.
Qed.

Lemma no_length_error horder hint keys values updated root r :
  Z.of_nat (len keys) < 2 ^ 63 -> Z.of_nat (len values) < 2 ^ 63 -> Z.of_nat (len updated) < 2 ^ 63 ->
  update_root horder hint keys values updated root = Ok (VErr r) -> r = DuplicateKeys \/ r = OldValueIsPopulated.
Proof.
  intros B1 B2 B3. rewrite update_small by assumption. destruct (negb _); [intros [= <-]; auto|].
  destruct (process_stems _ _ _) as [[u|]|]; cbn [rbind]; [|intros [= <-]; auto|discriminate].
  destruct (process_prefixes _ _ _ _ _); discriminate.
Qed.

Lemma update_needs_proof horder p root keys values updated r :
  verify_and_update horder p root keys values updated = Ok r ->
  match r with VErr InvalidProof => exists o, proof_check p keys values root = Ok (false, o)
  | _ => exists uh, proof_check p keys values root = Ok (true, Some uh) /\ update_root horder uh keys values updated root = Ok r end.
Proof.
  unfold verify_and_update. destruct (proof_check p keys values root) as [[[|] o]|] eqn:E; cbn [rbind negb]; [| |discriminate].
  - destruct o as [uh|]; cbn [unwrap rbind]; [|discriminate]. intro Hr.
    assert (X : r <> VErr InvalidProof).
    { intros ->. revert Hr. unfold update_root.
      destruct (_ =? _); [discriminate|]. destruct (_ =? _); [discriminate|]. destruct (negb _); [discriminate|].
      destruct (process_stems _ _ _) as [[u|]|]; cbn [rbind]; [|discriminate|discriminate].
      destruct (process_prefixes _ _ _ _ _); discriminate. }
    destruct r as [c|[]]; try (exists uh; split; [reflexivity|exact Hr]). congruence.
  - intros [= <-]. eauto.
Qed.

Lemma stateless_update_ok h (db : MemoryDb) keys updated order horder p root :
  wf_history h -> run_mem h = Ok db -> root_commitment db = Ok root ->
  Forall is_key keys -> NoDup keys -> len updated = len keys ->
  (forall l, Permutation (horder l) l) ->
  create_verkle_proof order db keys = Ok (Some p) ->
  (exists uh, proof_check p keys (map (final_map h) keys) root = Ok (true, uh)) ->
  (forall k v, In (k, v) (writes keys updated) -> occupied (stems_of h) k) ->
  exists db' root', trie_insert db (writes keys updated) = Ok db' /\ root_commitment db' = Ok root' /\
    verify_and_update horder p root keys (map (final_map h) keys) updated = Ok (VOk root').
Proof. intros. now apply (stateless_update h db keys updated order horder p root). Qed.
Lemma stateless_update_panics h (db : MemoryDb) keys updated order horder p root k v :
  wf_history h -> run_mem h = Ok db -> root_commitment db = Ok root ->
  Forall is_key keys -> NoDup keys -> len updated = len keys ->
  (forall l, Permutation (horder l) l) ->
  create_verkle_proof order db keys = Ok (Some p) ->
  (exists uh, proof_check p keys (map (final_map h) keys) root = Ok (true, uh)) ->
  In (k, v) (writes keys updated) -> ~ occupied (stems_of h) k ->
  verify_and_update horder p root keys (map (final_map h) keys) updated = Panic.
Proof. intros. apply (stateless_update h db keys updated order horder p root); eauto. Qed.

Lemma only_verified horder p root keys values updated r :
  Z.of_nat (len keys) < 2 ^ 63 -> Z.of_nat (len values) < 2 ^ 63 -> Z.of_nat (len updated) < 2 ^ 63 ->
  verify_and_update horder p root keys values updated = Ok (VOk r) ->
  NoDup keys /\ exists uh, proof_check p keys values root = Ok (true, Some uh).
Proof.
  intros B1 B2 B3 E. apply update_needs_proof in E as (uh & Ck & Eu). split; [|eauto].
  rewrite update_small in Eu by assumption. destruct (has_unique_elements keys) eqn:X; [|discriminate]. now apply has_unique_NoDup.
Qed.
Lemma bad_proof horder p root keys values updated o :
  proof_check p keys values root = Ok (false, o) ->
  verify_and_update horder p root keys values updated = Ok (VErr InvalidProof).
Proof. intro E. unfold verify_and_update. rewrite E. reflexivity. Qed.

(** Ignored entries, for the whole call. *)
Lemma trailing_ignored_call horder p root keys values updated extra :
  Z.of_nat (len keys) < 2 ^ 63 -> Z.of_nat (len values) < 2 ^ 63 -> Z.of_nat (len (updated ++ extra)) < 2 ^ 63 ->
  (len keys <= len updated)%nat ->
  verify_and_update horder p root keys values (updated ++ extra) = verify_and_update horder p root keys values updated.
Proof.
  intros. unfold verify_and_update. destruct (proof_check p keys values root) as [[ok o]|]; cbn [rbind]; [|reflexivity].
  destruct ok; cbn [negb]; [|reflexivity]. destruct o; cbn [unwrap rbind]; [|reflexivity]. now apply trailing_ignored.
Qed.
End Theorems.
