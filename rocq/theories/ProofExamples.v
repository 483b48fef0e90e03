(** Concrete cases for the theorems of [PropProof]. *)
From Verif Require Import Base BaseFacts Alg AlgInst TreeSpec TrieModel TrieProofs ExData BTree WireModel ProofModel ProofSpec ProofRefute.

(** Present, absent next to others of its stem, in the slot of another stem, in
    an empty slot, and one of them twice. *)
Definition ex_keys : list bytes :=
  [ex_key 5 0 130; ex_key 5 0 131; ex_key 6 7 1; repeat 99 32; ex_key 5 0 7; ex_key 5 0 131].

Lemma ex_keys_ok : Forall is_key ex_keys.
Proof. repeat (constructor; [apply key_okb; vm_compute; reflexivity|]). constructor. Qed.

Definition state_tag (s : KeyState) : Z * bytes :=
  match s with
  | KFound v => (0, v)
  | KNotFound NFStemFound => (1, [])
  | KNotFound (NFDifferentStem s) => (2, s)
  | KNotFound NFEmpty => (3, [])
  end.

Fixpoint distinctb {A : Alg} (l : list G) : bool :=
  match l with
  | [] => true
  | x :: l' => match l' with [] => true | y :: _ => negb (geqb x y) end && distinctb l'
  end.
Definition distinguishableb {A : Alg} {P : Par A} m St keys : bool :=
  let o := map (node_comm m St) (opened St keys) in
  let r := node_comm m St [] in
  distinctb o &&
  forallb (fun p => beqb p [] || negb (geqb (node_comm m St p) r)) (opened St keys).

Lemma distinctb_ok {A : Alg} {L : AlgLaws A} l : distinctb l = true -> adjacent_distinct l.
Proof.
  induction l as [|x l IH]; cbn [distinctb adjacent_distinct]; auto. intro H.
  apply andb_true_iff in H as [H1 H2]. split; auto. destruct l as [|y l]; auto.
  intros ->. apply negb_true_iff in H1. assert (X : geqb y y = true) by now apply geqb_true. congruence.
Qed.

Lemma distinguishableb_ok {A : Alg} {L : AlgLaws A} {P : Par A} m St keys :
  distinguishableb m St keys = true -> distinguishable m St keys.
Proof.
  intro H. apply andb_true_iff in H as [H1 H2]. split; [now apply distinctb_ok|].
  intros p Hp Hn X. rewrite forallb_forall in H2. specialize (H2 p Hp).
  apply orb_true_iff in H2 as [H2|H2]; [apply beqb_eq in H2; contradiction|].
  apply geqb_true in X. rewrite X in H2. discriminate.
Qed.

Lemma ex_distinguishable : distinguishable (final_map ex_h) (stems_of ex_h) ex_keys.
Proof. apply distinguishableb_ok. vm_compute. reflexivity. Qed.

(** Well-formed claims of all three kinds. *)
Definition wf_keys : list bytes := [3 :: repeat 0 31; 7 :: repeat 1 31; 7 :: repeat 2 31; 9 :: repeat 0 31].
Definition wf_hint : VerificationHint :=
  mkHint [1; 1; 1; 2] [ExtDifferentStem; ExtPres; ExtDifferentStem; ExtNone] [3 :: repeat 5 30].
Definition wf_paths : list bytes := [[]; [3]; [7]; [7; 2]; [9]].

Lemma wf_claims : claims wf_hint wf_keys =
  [(3 :: repeat 0 30, 1, ExtDifferentStem); (7 :: repeat 1 30, 1, ExtPres); (7 :: repeat 2 30, 1, ExtDifferentStem);
   (9 :: repeat 0 30, 2, ExtNone)].
Proof. vm_compute. reflexivity. Qed.

Lemma wf_ok {A : Alg} (c1 c2 c3 c4 : G) : well_formed wf_hint [c1; c2; c3; c4] wf_keys [None; Some (repeat 4 32); None; None].
Proof.
  constructor.
  - reflexivity.
  - vm_compute. repeat constructor.
  - vm_compute. repeat constructor.
  - rewrite wf_claims. intros s d e H. repeat destruct H as [H|H]; try (injection H as <- <- <-; cbn; lia). destruct H.
  - rewrite wf_claims. intros s d s1 d1 s2 d2 H H1 H2.
    repeat destruct H1 as [H1|H1]; try discriminate; try contradiction.
    repeat destruct H2 as [H2|H2]; try discriminate; try contradiction. injection H1 as <- <-. injection H2 as <- <-. intros. reflexivity.
  - rewrite wf_claims. intros s d H.
    repeat destruct H as [H|H]; try discriminate; try contradiction; injection H as <- <-.
    + right. exists (3 :: repeat 5 30). split; [now left|reflexivity].
    + left. exists (7 :: repeat 1 30), 1. split; [right; now left|reflexivity].
  - vm_compute. repeat constructor.
  - rewrite wf_claims. intros t [<-|[]]. exists (3 :: repeat 0 30), 1. split; [now left|]. split; [reflexivity|].
    split; [intros t' [<-|[]]; auto|].
    intros s1 d1 H. repeat destruct H as [H|H]; try discriminate; try contradiction. injection H as <- <-. vm_compute. discriminate.
  - exists wf_paths. split; [|split; [reflexivity|]].
    + repeat constructor; cbn; intuition discriminate.
    + rewrite wf_claims. intro p. split.
      * intro H. cbn [wf_paths In] in H.
        destruct H as [<-|[<-|[<-|[<-|[<-|[]]]]]].
        -- exists (3 :: repeat 0 31), 1, ExtDifferentStem. (split; [cbn; auto|split; [cbn; auto 6|vm_compute; auto 6]]).
        -- exists (3 :: repeat 0 31), 1, ExtDifferentStem. (split; [cbn; auto|split; [cbn; auto 6|vm_compute; auto 6]]).
        -- exists (7 :: repeat 1 31), 1, ExtPres. (split; [cbn; auto|split; [cbn; auto 6|vm_compute; auto 6]]).
        -- exists (7 :: repeat 1 31), 1, ExtPres. (split; [cbn; auto|split; [cbn; auto 6|vm_compute; auto 6]]).
        -- exists (9 :: repeat 0 31), 2, ExtNone. (split; [cbn; auto|split; [cbn; auto 6|vm_compute; auto 6]]).
      * intros (k & d & e & Hk & Hc & Hp). cbn [wf_keys In] in Hk.
        destruct Hk as [<-|[<-|[<-|[<-|[]]]]];
          (repeat destruct Hc as [Hc|Hc]; try (vm_compute in Hc; discriminate Hc); try contradiction;
           injection Hc as <- <-; vm_compute in Hp; vm_compute; intuition).
Qed.
