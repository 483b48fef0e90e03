(** The label a transcript is created with is bound like everything absorbed after it. *)
From Coq Require Import String.
From Verif Require Import Base BaseFacts Alg AlgFacts WireModel ProofModel IpaModel IpaSpec TranscriptSpec TranscriptProofs.
Local Open Scope list_scope.

Section TranscriptLabel.
Context {A : Alg} {C : ECodec A} {CL : ECodecLaws C} {H : Hasher}.
Notation len := List.length.

Lemma inputs_nonempty ops : forall tr, (exists l, last ops (TSep []) = TChallenge l) -> hash_inputs tr ops <> [].
Proof.
  induction ops as [|o ops IH]; intros tr [l Last]; [discriminate|].
  destruct ops as [|o' ops]; [cbn in Last; subst o; discriminate|].
  destruct o; cbn [hash_inputs]; try discriminate; apply IH; exists l; exact Last.
Qed.

Lemma start_len ops1 : forall ops2 tr1 tr2,
  map kind ops1 = map kind ops2 -> (exists l, last ops1 (TSep []) = TChallenge l) ->
  no_collision (hash_inputs tr1 ops1) (hash_inputs tr2 ops2) ->
  last (fst (run_ops tr1 ops1)) fzero = last (fst (run_ops tr2 ops2)) fzero -> len tr1 = len tr2.
Proof.
  induction ops1 as [|o1 ops1 IH]; intros [|o2 ops2] tr1 tr2 K [lb Last] NC E; try discriminate.
  cbn [map] in K. injection K as K1 K.
  assert (Last' : ops1 <> [] -> exists l, last ops1 (TSep []) = TChallenge l).
  { intros N. exists lb. destruct ops1; [easy|exact Last]. }
  rewrite !run_challenges in E.
  destruct o1 as [l1 p1|l1 x1|l1|l1], o2 as [l2 p2|l2 x2|l2|l2]; cbn [kind] in K1; try discriminate;
    injection K1 as <-; cbn [hash_inputs] in NC, E.
  - destruct ops1 as [|o ops1]; [discriminate|]. rewrite <- !run_challenges in E.
    apply IH in E; [|exact K|apply Last'; discriminate|exact NC]. rewrite !app_length, !el_len in E. lia.
  - destruct ops1 as [|o ops1]; [discriminate|]. rewrite <- !run_challenges in E.
    apply IH in E; [|exact K|apply Last'; discriminate|exact NC]. rewrite !app_length, !sc_len in E. lia.
  - destruct ops1 as [|o ops1]; [discriminate|]. rewrite <- !run_challenges in E.
    apply IH in E; [|exact K|apply Last'; discriminate|exact NC]. rewrite !app_length in E. lia.
  - assert (X : tr1 ++ l1 = tr2 ++ l1); [|apply (f_equal (@List.length Z)) in X; rewrite !app_length in X; lia].
    apply NC; [now left|now left|].
    destruct ops1 as [|o ops1].
    + destruct ops2; [|discriminate]. exact E.
    + set (s1 := l1 ++ sc_ser (to_scalar (sha256 (tr1 ++ l1)))) in *.
      set (s2 := l1 ++ sc_ser (to_scalar (sha256 (tr2 ++ l1)))) in *.
      assert (N1 : hash_inputs s1 (o :: ops1) <> []) by (apply inputs_nonempty, Last'; discriminate).
      assert (N2 : hash_inputs s2 ops2 <> []).
      { intros Z. pose proof (hash_inputs_kind (o :: ops1) ops2 s1 s2 K) as Q. rewrite Z in Q.
        destruct (hash_inputs s1 (o :: ops1)); [congruence|discriminate]. }
      assert (LC : forall (x : F) l, l <> [] -> last (x :: l) fzero = last l fzero) by (intros x [|y l] N; easy).
      cbn [map] in E. rewrite !LC in E by (intros Z; apply map_eq_nil in Z; easy).
      rewrite <- !run_challenges in E.
      destruct (last_input_binds (o :: ops1) ops2 s1 s2 K) as [S _]; try assumption.
      * unfold s1, s2. rewrite !app_length, !sc_len. reflexivity.
      * apply Last'. discriminate.
      * intros a b Ia Ib. apply NC; now right.
      * apply app_inv_head in S. now apply sc_ser_inj in S.
Qed.

Lemma label_hashed label ops :
  fst (run_ops (tr_new label) ops) = map (fun i => to_scalar (sha256 i)) (hash_inputs label ops).
Proof. exact (run_challenges ops label). Qed.

Lemma label_binds ops1 ops2 l1 l2 :
  map kind ops1 = map kind ops2 -> (exists l, last ops1 (TSep []) = TChallenge l) ->
  no_collision (hash_inputs l1 ops1) (hash_inputs l2 ops2) ->
  last (fst (run_ops (tr_new l1) ops1)) fzero = last (fst (run_ops (tr_new l2) ops2)) fzero -> l1 = l2 /\ ops1 = ops2.
Proof.
  intros K L NC E. apply last_input_binds; try assumption. exact (start_len ops1 ops2 l1 l2 K L NC E).
Qed.
End TranscriptLabel.
