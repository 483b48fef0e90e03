(** The derived equality on the records of the opening data is equality, so the
    assertions of [insert_suffix_opening] compare the whole record. *)
From Verif Require Import Base BaseFacts Alg AlgFacts TreeSpec TrieModel TrieProofs ProofModel.

Section OpeningEq.
Context {A : Alg} {AL : AlgLaws A}.

Lemma beqb_iff x y : beqb x y = true <-> x = y.
Proof. destruct (beqb_spec x y); split; congruence. Qed.

Lemma stem_meta_eqb_iff x y : stem_meta_eqb x y = true <-> x = y.
Proof.
  unfold stem_meta_eqb. rewrite !andb_true_iff, !geqb_true, !feqb_true. destruct x, y; cbn. split; [intuition congruence|].
  intros [= -> -> -> -> -> ->]. tauto.
Qed.

Lemma meta_eqb_iff x y : meta_eqb x y = true <-> x = y.
Proof.
  destruct x as [x|x], y as [y|y]; cbn [meta_eqb]; try (split; discriminate).
  - rewrite stem_meta_eqb_iff. split; [intros ->|intros [= ->]]; reflexivity.
  - rewrite andb_true_iff, geqb_true, feqb_true. destruct x, y; cbn. split; [intros [-> ->]; reflexivity|intros [= -> ->]; auto].
Qed.

Lemma ext_opening_eqb_iff x y : ext_opening_eqb x y = true <-> x = y.
Proof.
  unfold ext_opening_eqb. rewrite andb_true_iff, beqb_iff, meta_eqb_iff. destruct x, y; cbn.
  split; [intros [-> ->]; reflexivity|intros [= -> ->]; auto].
Qed.
End OpeningEq.
