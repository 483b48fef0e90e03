(** Concrete inputs shared by the examples. *)
From Verif Require Import Base Alg TreeSpec.

Definition ex_key (a b c : Z) : bytes := [1; 2; 3; 4] ++ a :: repeat 0 25 ++ [b; c].
Definition ex_h : history :=
  [ (ex_key 5 0 7, repeat 9 32); (ex_key 6 1 200, repeat 3 32); (ex_key 5 0 130, repeat 0 32);
    (ex_key 5 0 7, repeat 8 32); (repeat 250 32, repeat 1 32); (ex_key 6 1 200, repeat 3 32) ].

Fixpoint keys_okb (h : history) : bool :=
  match h with
  | [] => true
  | (k, _) :: h' => (length k =? 32)%nat && forallb (fun b => (0 <=? b) && (b <? 256)) k && keys_okb h'
  end.
Lemma keys_okb_ok h : keys_okb h = true -> wf_history h.
Proof.
  induction h as [|[k v] h IH]; intros H; [constructor|]. cbn [keys_okb] in H.
  apply andb_true_iff in H as [H H3]. apply andb_true_iff in H as [H1 H2].
  constructor; [|apply IH; exact H3]. cbn [fst]. split; [apply Nat.eqb_eq; exact H1|].
  apply Forall_forall. intros b Hb. rewrite forallb_forall in H2. specialize (H2 b Hb). unfold is_byte. lia.
Qed.

