(** Concrete cases for [PropStateless]. *)
From Coq Require Import Permutation.
From Verif Require Import Base BaseFacts Alg AlgInst TreeSpec TreeFacts TrieModel TrieProofs TrieTheorems ExData BTree WireModel WireInst ProofModel ProofSpec
  OpeningProofs ProofRefute ProofExamples IpaModel CheckProofs IpaTheorems IpaInst StatelessModel StatelessSpec StatelessProofs StatelessTheorems StatelessExact.
Local Open Scope list_scope.
Notation len := List.length.

Definition su_keys : list bytes :=
  [ex_key 5 0 7; ex_key 5 0 131; repeat 99 32; ex_key 6 7 1; repeat 250 32; ex_key 6 8 2].
Definition su_updated : list (option bytes) :=
  [Some (repeat 77 32); Some (repeat 78 32); None; Some (repeat 79 32); None; Some (repeat 80 32)].
Definition su_updated2 : list (option bytes) :=
  [Some (repeat 77 32); None; Some (repeat 5 32); None; None; None].

Lemma su_keys_ok : Forall is_key su_keys.
Proof. repeat (constructor; [apply key_okb; vm_compute; reflexivity|]). constructor. Qed.
Lemma su_nodup : NoDup su_keys.
Proof. repeat (constructor; [cbn; intuition discriminate|]). constructor. Qed.
Lemma su_distinguishable : distinguishable (final_map ex_h) (stems_of ex_h) su_keys.
Proof. apply distinguishableb_ok. vm_compute. reflexivity. Qed.
Lemma ex_wf : wf_history ex_h.
Proof. apply keys_okb_ok. vm_compute. reflexivity. Qed.

Definition occupiedb (k : bytes) : bool :=
  match stem_at (stems_of ex_h) (qpos (stems_of ex_h) k) with Some _ => true | None => false end.
Lemma su_occupied k v : In (k, v) (writes su_keys su_updated) -> occupied (stems_of ex_h) k.
Proof.
  intro Hi. assert (E : forallb (fun e => occupiedb (fst e)) (writes su_keys su_updated) = true) by (vm_compute; reflexivity).
  rewrite forallb_forall in E. specialize (E _ Hi). cbn [fst] in E.
  apply (occupied_slot ex_h k ex_wf).
  - apply writes_In in Hi. pose proof su_keys_ok as X. rewrite Forall_forall in X. now apply X.
  - unfold occupiedb in E. destruct (stem_at _ _); [discriminate|discriminate].
Qed.
Lemma su_not_occupied : ~ occupied (stems_of ex_h) (repeat 99 32).
Proof.
  rewrite (occupied_slot ex_h _ ex_wf).
  - intro X. apply X. vm_compute. reflexivity.
  - apply key_okb. vm_compute. reflexivity.
Qed.

Lemma su_proof : exists db p root, run_mem ex_h = Ok db /\ root_commitment db = Ok root /\
  create_verkle_proof (fun l => l) db su_keys = Ok (Some p) /\
  (exists uh, proof_check p su_keys (map (final_map ex_h) su_keys) root = Ok (true, uh)).
Proof.
  destruct (run_mem_canon ex_h ex_wf) as (db & E & _).
  destruct (honest_accepted (ex_fits 256 ltac:(lia)) ex_h db su_keys (fun l => l) ex_wf E ltac:(discriminate) su_keys_ok su_distinguishable
    (fun l => Permutation_refl l)) as (qs & hint & comms & root & _ & Er & Hu).
  destruct (Hu (ex_usable qs)) as (p & uh & Cr & _ & _ & Ck). exists db, p, root. eauto 6.
Qed.

Lemma su_case : NoDup su_keys /\ Forall is_key su_keys /\ len su_updated = len su_keys /\
  writes su_keys su_updated =
    [(ex_key 5 0 7, repeat 77 32); (ex_key 5 0 131, repeat 78 32); (ex_key 6 7 1, repeat 79 32); (ex_key 6 8 2, repeat 80 32)] /\
  (forall k v, In (k, v) (writes su_keys su_updated) -> occupied (stems_of ex_h) k) /\
  exists db p root db' root', run_mem ex_h = Ok db /\ root_commitment db = Ok root /\
    create_verkle_proof (fun l => l) db su_keys = Ok (Some p) /\
    (exists uh, proof_check p su_keys (map (final_map ex_h) su_keys) root = Ok (true, uh)) /\
    trie_insert db (writes su_keys su_updated) = Ok db' /\ root_commitment db' = Ok root' /\
    verify_and_update (@rev bytes) p root su_keys (map (final_map ex_h) su_keys) su_updated = Ok (VOk root') /\
    verify_and_update (@rev bytes) p root su_keys (map (final_map ex_h) su_keys) (su_updated ++ [Some []; None]) = Ok (VOk root').
Proof.
  split; [exact su_nodup|]. split; [exact su_keys_ok|]. split; [reflexivity|]. split; [reflexivity|]. split; [exact su_occupied|].
  destruct su_proof as (db & p & root & E & Er & Cr & Ck).
  destruct (stateless_update_ok ex_h db su_keys su_updated (fun l => l) (@rev bytes) p root ex_wf E Er su_keys_ok su_nodup eq_refl
    (fun l => Permutation_sym (Permutation_rev l)) Cr Ck su_occupied) as (db' & root' & E1 & E2 & E3).
  exists db, p, root, db', root'. split; [exact E|]. split; [exact Er|]. split; [exact Cr|]. split; [exact Ck|].
  split; [exact E1|]. split; [exact E2|]. split; [exact E3|].
  rewrite trailing_ignored_call; [exact E3|reflexivity|reflexivity|reflexivity|cbn; lia].
Qed.
Lemma su_empty_case : exists (db : MemoryDb) p root, run_mem ex_h = Ok db /\ root_commitment db = Ok root /\
    create_verkle_proof (fun l => l) db su_keys = Ok (Some p) /\
    (exists uh, proof_check p su_keys (map (final_map ex_h) su_keys) root = Ok (true, uh)) /\
    In (repeat 99 32, repeat 5 32) (writes su_keys su_updated2) /\ ~ occupied (stems_of ex_h) (repeat 99 32) /\
    verify_and_update (@rev bytes) p root su_keys (map (final_map ex_h) su_keys) su_updated2 = Panic.
Proof.
  destruct su_proof as (db & p & root & E & Er & Cr & Ck). exists db, p, root.
  assert (Hi : In (repeat 99 32, repeat 5 32) (writes su_keys su_updated2)) by (right; left; reflexivity).
  split; [exact E|]. split; [exact Er|]. split; [exact Cr|]. split; [exact Ck|]. split; [exact Hi|].
  split; [exact su_not_occupied|].
  exact (stateless_update_panics ex_h db su_keys su_updated2 (fun l => l) (@rev bytes) p root _ _ ex_wf E Er su_keys_ok su_nodup eq_refl
    (fun l => Permutation_sym (Permutation_rev l)) Cr Ck Hi su_not_occupied).
Qed.

(** The three outcomes: a list of new values shorter than the keys, a write to an
    empty slot in a list that is longer, and a key asked for twice. *)
Definition su_twice : list bytes := su_keys ++ [ex_key 5 0 7].
Lemma su_twice_proof : exists db p root, run_mem ex_h = Ok db /\ root_commitment db = Ok root /\
  create_verkle_proof (fun l => l) db su_twice = Ok (Some p) /\
  (exists uh, proof_check p su_twice (map (final_map ex_h) su_twice) root = Ok (true, Some uh)).
Proof.
  destruct (run_mem_canon ex_h ex_wf) as (db & E & _).
  assert (Kt : Forall is_key su_twice) by (repeat (constructor; [apply key_okb; vm_compute; reflexivity|]); constructor).
  assert (D : distinguishable (final_map ex_h) (stems_of ex_h) su_twice) by (apply distinguishableb_ok; vm_compute; reflexivity).
  destruct (honest_accepted (ex_fits 256 ltac:(lia)) ex_h db su_twice (fun l => l) ex_wf E ltac:(discriminate) Kt D
    (fun l => Permutation_refl l)) as (qs & hint & comms & root & _ & Er & Hu).
  destruct (Hu (ex_usable qs)) as (p & uh & Cr & _ & _ & Ck). exists db, p, root. split; [exact E|]. split; [exact Er|]. split; [exact Cr|].
  destruct (honest_hint ex_h db su_twice (fun l => l) p root true (Some uh) ex_wf E Kt Er Cr Ck) as (_ & o & Eo & _). eauto.
Qed.
Lemma su_exact_cases :
  (exists (db : MemoryDb) p root db' root', run_mem ex_h = Ok db /\ root_commitment db = Ok root /\
    create_verkle_proof (fun l => l) db su_keys = Ok (Some p) /\
    (exists uh, proof_check p su_keys (map (final_map ex_h) su_keys) root = Ok (true, Some uh)) /\
    trie_insert db [(ex_key 5 0 7, repeat 77 32)] = Ok db' /\ root_commitment db' = Ok root' /\
    verify_and_update (@rev bytes) p root su_keys (map (final_map ex_h) su_keys) [Some (repeat 77 32)] = Ok (VOk root') /\
    verify_and_update (@rev bytes) p root su_keys (map (final_map ex_h) su_keys) (su_updated2 ++ [None]) = Panic) /\
  (exists (db : MemoryDb) p root, run_mem ex_h = Ok db /\ root_commitment db = Ok root /\
    create_verkle_proof (fun l => l) db su_twice = Ok (Some p) /\
    (exists uh, proof_check p su_twice (map (final_map ex_h) su_twice) root = Ok (true, Some uh)) /\
    verify_and_update (@rev bytes) p root su_twice (map (final_map ex_h) su_twice) su_updated = Ok (VErr DuplicateKeys)).
Proof.
  split.
  - destruct su_proof as (db & p & root & E & Er & Cr & (uh & Ck)).
    destruct (honest_hint ex_h db su_keys (fun l => l) p root true uh ex_wf E su_keys_ok Er Cr Ck) as (_ & o & Eo & _).
    assert (Ck' : exists uh, proof_check p su_keys (map (final_map ex_h) su_keys) root = Ok (true, Some uh)) by (rewrite Ck, Eo; eauto).
    clear Ck Eo o uh.
    destruct (update_exactly ex_h db su_keys [Some (repeat 77 32)] (fun l => l) (@rev bytes) p root ex_wf E Er su_keys_ok eq_refl eq_refl
      (fun l => Permutation_sym (Permutation_rev l)) Cr Ck') as [(N & _)|[(_ & _ & db' & root' & E1 & E2 & E3)|(_ & (k & v & Hi & Hn) & _)]].
    + now destruct (N su_nodup).
    + exists db, p, root, db', root'. split; [exact E|]. split; [exact Er|]. split; [exact Cr|]. split; [exact Ck'|]. split; [exact E1|].
      split; [exact E2|]. split; [exact E3|].
      destruct (update_exactly ex_h db su_keys (su_updated2 ++ [None]) (fun l => l) (@rev bytes) p root ex_wf E Er su_keys_ok eq_refl eq_refl
        (fun l => Permutation_sym (Permutation_rev l)) Cr Ck') as [(N & _)|[(_ & Ho & _)|(_ & _ & E4)]].
      * now destruct (N su_nodup).
      * destruct (su_not_occupied (Ho (repeat 99 32) (repeat 5 32) ltac:(right; left; reflexivity))).
      * exact E4.
    + destruct Hi as [Hi|[]]. destruct Hn. apply (su_occupied k (repeat 77 32)). left. congruence.
  - destruct su_twice_proof as (db & p & root & E & Er & Cr & Ck). exists db, p, root.
    split; [exact E|]. split; [exact Er|]. split; [exact Cr|]. split; [exact Ck|].
    assert (Kt : Forall is_key su_twice) by (repeat (constructor; [apply key_okb; vm_compute; reflexivity|]); constructor).
    assert (N : ~ NoDup su_twice). { intro N. inversion N as [|x l Hn _]. apply Hn. do 5 right. left. reflexivity. }
    destruct (update_exactly ex_h db su_twice su_updated (fun l => l) (@rev bytes) p root ex_wf E Er Kt eq_refl eq_refl
      (fun l => Permutation_sym (Permutation_rev l)) Cr Ck) as [(_ & E1)|[(N' & _)|(N' & _)]]; [exact E1|now destruct (N N')|now destruct (N N')].
Qed.
