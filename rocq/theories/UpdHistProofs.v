(** Many updates through the foreign-function interface. *)
From Coq Require Import Permutation.
From Verif Require Import Base BaseFacts Alg MsmModel MsmSpec WireModel WireSpec IpaModel IpaSpec FfiModel FfiSpec FfiProofs UpdHistSpec.
Local Open Scope Z_scope.

Section Hist.
Context {A : Alg} {L : AlgLaws A} {C : ECodec A} {CL : ECodecLaws C} {P : Par A}
        {I : FrInt A} {IL : FrIntLaws I} {W : Wnaf A} {WL : WnafLaws W}.

Lemma one_changes v c : changes_of v [c] -> nth_error v (ch_index c) = Some (ch_old c).
Proof. intros [_ Hf]. now inversion Hf. Qed.
Lemma history_same cx : context_new = Ok cx -> forall rs split v c old,
  commit_to_scalars split cx (scalars_bytes v) = Ok (FOk c) -> same_commitment old c -> requests_of v rs ->
  exists out c', make_requests cx old rs = Ok (FOk out) /\
    commit_to_scalars split cx (scalars_bytes (vector_after v rs)) = Ok (FOk c') /\ same_commitment out c'.
Proof.
  intros Hc. induction rs as [|r rs IH]; intros split v c old Ev So Hr; cbn [make_requests vector_after fold_left].
  - exists old, c. split; [reflexivity|]. now split.
  - destruct Hr as [H1 H2]. fold (vector_after (replace_all v (request_changes r)) rs).
    assert (K : exists out c', make_request cx old r = Ok (FOk out) /\
      commit_to_scalars split cx (scalars_bytes (replace_all v (request_changes r))) = Ok (FOk c') /\ same_commitment out c').
    { destruct r as [ch|l]; cbn [request_changes make_request] in *.
      - pose proof (one_changes _ _ H1) as Hx. destruct (commit_few _ _ _ _ Hc Ev) as [Hv _].
        assert (Hl : (ch_index ch < len v)%nat) by (apply nth_error_Some; congruence).
        destruct (update_same cx split v c old (Z.of_nat (ch_index ch)) (ch_old ch) (ch_new ch) Hc Ev So) as (out & E & K); [lia|now rewrite Nat2Z.id|].
        destruct (K split) as (c' & K1 & K2). rewrite Nat2Z.id in K1. exists out, c'. split; [exact E|]. split; [exact K1|exact K2].
      - destruct (sparse_same cx split v c old l Hc Ev So H1 l (Permutation_refl l)) as (out & E & K).
        destruct (K split) as (c' & K1 & K2). exists out, c'. split; [exact E|]. split; [exact K1|exact K2]. }
    destruct K as (o1 & c1 & E1 & E2 & E3). rewrite E1. cbn [rbind fbind]. exact (IH split _ c1 o1 E2 E3 H2).
Qed.
End Hist.
