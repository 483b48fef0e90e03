(** The label of a new transcript (C42). *)
From Coq Require Import String.
From Verif Require Import Base Alg AlgInst WireModel WireInst ProofModel IpaModel IpaSpec IpaInst TranscriptSpec TranscriptLabel.
Local Open Scope list_scope.

Section WithAlgebra.
Context {A : Alg} {C : ECodec A} {CL : ECodecLaws C} {H : Hasher}.

(** C42.  The challenges drawn from a transcript created with a label are the hashes of
    the strings of [hash_inputs], the first of which begins with the label. *)
Theorem C42_label_hashed : forall label ops,
  fst (run_ops (tr_new label) ops) = map (fun i => to_scalar (sha256 i)) (hash_inputs label ops).
Proof. exact label_hashed. Qed.

(** For one protocol shape and without collisions among the strings that occur, the last
    challenge determines the label, of whatever length, and everything absorbed. *)
Theorem C42_label_bound : forall ops1 ops2 label1 label2,
  map kind ops1 = map kind ops2 -> (exists l, last ops1 (TSep []) = TChallenge l) ->
  no_collision (hash_inputs label1 ops1) (hash_inputs label2 ops2) ->
  last (fst (run_ops (tr_new label1) ops1)) fzero = last (fst (run_ops (tr_new label2) ops2)) fzero ->
  label1 = label2 /\ ops1 = ops2.
Proof. exact label_binds. Qed.
End WithAlgebra.

(** The labels of the trie's proofs and of the bindings' proofs: the same two scalars, a
    challenge after each; the challenges differ. *)
Example C42_label_case :
  let ops := [TScalar (A := ExA) (lbl "a") (zred p31 4); TChallenge (lbl "x"); TScalar (lbl "b") (zred p31 1); TChallenge (lbl "w")] in
  no_collision (hash_inputs (lbl "vt") ops) (hash_inputs (lbl "verkle") ops) /\
  last (fst (run_ops (tr_new (lbl "vt")) ops)) fzero <> last (fst (run_ops (tr_new (lbl "verkle")) ops)) fzero.
Proof.
  cbv zeta. split.
  - intros a b Ia Ib E. exfalso. revert E.
    repeat destruct Ia as [<-|Ia]; try contradiction; repeat destruct Ib as [<-|Ib]; try contradiction;
      intros E; apply (f_equal (zval p31)) in E; vm_compute in E; discriminate.
  - intros E. apply (f_equal (zval p31)) in E. vm_compute in E. discriminate.
Qed.

Print Assumptions C42_label_hashed.
Print Assumptions C42_label_bound.
