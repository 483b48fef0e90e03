(** The outcome of a stateless update by an accepted honest proof, for every list of keys and of new values. *)
From Coq Require Import Permutation.
From Verif Require Import Base BaseFacts Alg AlgFacts TreeSpec TrieModel TrieProofs TrieTheorems WireModel ProofModel ProofSpec
  IpaModel CheckProofs OpeningProofs StatelessModel StatelessSpec StatelessProofs StatelessUpdate StatelessTheorems.
Local Open Scope list_scope.

Section Exact.
Context {A : Alg} {AL : AlgLaws A} {P : Par A} {PL : ParLaws P} {C : ECodec A} {CL : ECodecLaws C} {H : Hasher}.
Notation len := List.length.

(** The list of new values brought to the length of the keys. *)
Definition fitted (keys : list bytes) (updated : list (option bytes)) : list (option bytes) :=
  firstn (len keys) updated ++ repeat None (len keys - len updated).
Lemma fitted_length keys updated : len (fitted keys updated) = len keys.
Proof. unfold fitted. rewrite app_length, firstn_length, repeat_length. lia. Qed.

Lemma writes_none keys n : writes keys (repeat None n) = [].
Proof. revert n. induction keys as [|k keys IH]; intros [|n]; cbn [repeat writes]; auto. Qed.
Lemma writes_fitted keys : forall updated, writes keys (fitted keys updated) = writes keys updated.
Proof.
  unfold fitted. induction keys as [|k keys IH]; intros [|[v|] updated]; try reflexivity.
  - exact (writes_none (k :: keys) _).
  - cbn [len firstn app writes Nat.sub]. now rewrite IH.
  - cbn [len firstn app writes Nat.sub]. now rewrite IH.
Qed.

Lemma update_fitted horder hint keys values updated root :
  Z.of_nat (len keys) < 2 ^ 63 -> Z.of_nat (len values) < 2 ^ 63 -> Z.of_nat (len updated) < 2 ^ 63 ->
  update_root horder hint keys values updated root = update_root horder hint keys values (fitted keys updated) root.
Proof.
  intros B1 B2 B3. unfold fitted. destruct (Nat.le_gt_cases (len keys) (len updated)) as [Hl|Hl].
  - replace (len keys - len updated)%nat with 0%nat by lia. cbn [repeat]. rewrite app_nil_r.
    rewrite <- (firstn_skipn (len keys) updated) at 1. apply trailing_ignored; auto.
    + now rewrite firstn_skipn.
    + rewrite firstn_length. lia.
  - rewrite firstn_all2 by lia. apply missing_ignored; auto. lia.
Qed.
Lemma verify_fitted horder p root keys values updated :
  Z.of_nat (len keys) < 2 ^ 63 -> Z.of_nat (len values) < 2 ^ 63 -> Z.of_nat (len updated) < 2 ^ 63 ->
  verify_and_update horder p root keys values updated = verify_and_update horder p root keys values (fitted keys updated).
Proof.
  intros. unfold verify_and_update. destruct (proof_check p keys values root) as [[[|] [o|]]|]; cbn [rbind negb unwrap]; try reflexivity.
  now apply update_fitted.
Qed.

Lemma update_exactly h (db : MemoryDb) keys updated proof_order hash_order p root :
  wf_history h -> run_mem h = Ok db -> root_commitment db = Ok root -> Forall is_key keys ->
  Z.of_nat (len keys) < 2 ^ 63 -> Z.of_nat (len updated) < 2 ^ 63 ->
  (forall l, Permutation (hash_order l) l) ->
  create_verkle_proof proof_order db keys = Ok (Some p) ->
  (exists uh, proof_check p keys (map (final_map h) keys) root = Ok (true, Some uh)) ->
  let result := verify_and_update hash_order p root keys (map (final_map h) keys) updated in
  (~ NoDup keys /\ result = Ok (VErr DuplicateKeys)) \/
  (NoDup keys /\ (forall k v, In (k, v) (writes keys updated) -> occupied (stems_of h) k) /\
     exists db' root', trie_insert db (writes keys updated) = Ok db' /\ root_commitment db' = Ok root' /\ result = Ok (VOk root')) \/
  (NoDup keys /\ (exists k v, In (k, v) (writes keys updated) /\ ~ occupied (stems_of h) k) /\ result = Panic).
Proof.
  intros W E Er Kk B1 B2 Hp Ep (uh & Ec) result.
  assert (B3 : Z.of_nat (len (map (final_map h) keys)) < 2 ^ 63) by now rewrite map_length.
  destruct (ListDec.NoDup_dec bytes_dec keys) as [ND|ND].
  - right. pose proof (fitted_length keys updated) as Hl. unfold result. rewrite verify_fitted by assumption.
    rewrite <- (writes_fitted keys updated).
    assert (D : (forall k v, In (k, v) (writes keys (fitted keys updated)) -> occupied (stems_of h) k) \/
                (exists k v, In (k, v) (writes keys (fitted keys updated)) /\ ~ occupied (stems_of h) k)).
    { assert (Hk : forall k v, In (k, v) (writes keys (fitted keys updated)) -> is_key k).
      { intros k v Hi. apply writes_In in Hi. rewrite Forall_forall in Kk. now apply Kk. }
      revert Hk. generalize (writes keys (fitted keys updated)) as ws. induction ws as [|[k v] ws IH]; intros Hk; [left; intros k v []|].
      destruct (stem_at (stems_of h) (qpos (stems_of h) k)) as [t|] eqn:Es.
      - destruct IH as [IH|(k' & v' & Hi & Hn)].
        + intros k' v' Hi. apply (Hk k' v'). now right.
        + left. intros k' v' [Hi|Hi]; [|eapply IH; eauto]. injection Hi as <- <-.
          apply occupied_slot; [exact W|apply (Hk k v); now left|]. rewrite Es. discriminate.
        + right. exists k', v'. split; [now right|exact Hn].
      - right. exists k, v. split; [now left|]. intro Ho. apply occupied_slot in Ho; [|exact W|apply (Hk k v); now left]. congruence. }
    destruct D as [D|(k & v & Hi & Hn)].
    + left. split; [exact ND|]. split; [exact D|].
      apply (stateless_update_ok h db keys (fitted keys updated) proof_order hash_order p root); eauto.
    + right. split; [exact ND|]. split; [eauto|].
      apply (stateless_update_panics h db keys (fitted keys updated) proof_order hash_order p root k v); eauto.
  - left. split; [exact ND|]. unfold result, verify_and_update. rewrite Ec. cbn [rbind negb unwrap].
    now apply duplicates_rejected.
Qed.
End Exact.
