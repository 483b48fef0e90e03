(** Proofs that [create_verkle_proof] returns fit the wire format. *)
From Coq Require Import Permutation String.
From Verif Require Import Base BaseFacts Alg TreeSpec TreeFacts TrieModel TrieProofs TrieTheorems BTree WireModel WireSpec WireProofs ProofModel ProofSpec PathProofs ProofTheorems VerifierProofs
  IpaModel LagrangeSpec IpaSpec.
Local Open Scope list_scope.
Local Notation len := List.length.

Section Fits.
Context {A : Alg} {AL : AlgLaws A} {P : Par A} {PL : ParLaws P} {C : ECodec A} {H : Hasher}.

Lemma rounds_len k : forall tr a b Gs Q Ls Rs a0 tr', create_rounds k tr a b Gs Q = Ok (Ls, Rs, a0, tr') -> len Ls = k /\ len Rs = k.
Proof.
  induction k as [|k IH]; intros tr a b Gs Q Ls Rs a0 tr' E; cbn [create_rounds] in E.
  - destruct (index a 0); cbn [rbind] in E; [|discriminate]. injection E as <- <- <- <-. now split.
  - destruct (halve a), (halve b), (halve Gs).
    repeat match goal with
    | E : rbind ?r _ = Ok _ |- _ => let X := fresh "X" in apply rbind_ok in E as (? & X & E)
    | E : (let '(_, _) := ?r in _) = Ok _ |- _ => destruct r as [? ?] eqn:?
    end.
    subst. match goal with X : create_rounds _ _ _ _ _ _ = Ok _ |- _ => apply IH in X as [L1 L2] end.
    inversion E; subst. cbn [List.length]. lia.
Qed.
Lemma open_rounds order pw tr qs mp tr' : mp_open order trie_crs pw tr qs = Ok (mp, tr') -> rounds (mp_ipa mp) 8.
Proof.
  unfold mp_open. intro E.
  repeat match goal with
  | E : rbind ?r _ = Ok _ |- _ => let X := fresh "X" in apply rbind_ok in E as (? & X & E)
  | E : (let '(_, _) := ?r in _) = Ok _ |- _ => destruct r as [? ?] eqn:?
  end.
  subst. match goal with X : open_point_outside_of_domain _ _ _ _ _ _ = Ok _ |- _ => rename X into O end.
  inversion E; subst. cbn [mp_ipa]. unfold open_point_outside_of_domain in O.
  apply rbind_ok in O as (b & _ & O). unfold ipa_create in O.
  repeat match goal with
  | E : rbind ?r _ = Ok _ |- _ => let X := fresh "X" in apply rbind_ok in E as (? & X & E)
  | E : (let '(_, _) := ?r in _) = Ok _ |- _ => destruct r as [? ?] eqn:?
  end.
  subst. match goal with E : create_rounds _ _ _ _ _ _ = Ok _ |- _ => apply rounds_len in E as [L1 L2] end.
  inversion O; subst. split; assumption.
Qed.

Lemma dedup_len (l : list G) : (len (dedup l) <= len l)%nat.
Proof.
  induction l as [|x l IH]; cbn [dedup]; [lia|]. destruct l as [|y l]; [cbn; lia|]. destruct (geqb x y); cbn [List.length] in *; lia.
Qed.
Lemma entries_len St k : wfS St -> is_key k -> (len (entries St k) <= 36)%nat.
Proof.
  intros W Hk. unfold entries. rewrite app_length, map_length, seq_length.
  destruct (sd_spec St (firstn 31 k) W) as (_ & _ & B); [rewrite firstn_length; destruct Hk as [-> _]; reflexivity|].
  destruct (stem_at _ _) as [t|]; [|cbn [List.length]; lia]. destruct (beqb t (firstn 31 k)); cbn [List.length app]; lia.
Qed.
Lemma all_entries_len St keys : wfS St -> Forall is_key keys -> (len (all_entries St keys) <= 36 * len keys)%nat.
Proof.
  intros W Hk. unfold all_entries. etransitivity; [apply set_of_length|]. induction Hk as [|k l Hk _ IH]; cbn [flat_map List.length]; [lia|].
  rewrite app_length. pose proof (entries_len St k W Hk). lia.
Qed.

Theorem created_fits h (db : MemoryDb) keys order p : wf_history h -> run_mem h = Ok db -> Forall is_key keys ->
  36 * Z.of_nat (len keys) < 2 ^ 32 -> create_verkle_proof order db keys = Ok (Some p) -> proof_fits p.
Proof.
  intros Hw E Hk Hn Cr. unfold create_verkle_proof in Cr.
  destruct (create_proof_parts db keys) as [[[[qs hint] comms]|]|] eqn:Ep; cbn [rbind] in Cr; try discriminate.
  destruct (precomputed_weights 256) as [pw|]; cbn [rbind] in Cr; [|discriminate].
  destruct (mp_open _ _ _ _ _) as [[mp s]|] eqn:Em; cbn [rbind] in Cr; [|discriminate]. injection Cr as <-.
  constructor; cbn [vp_hint vp_comms vp_proof].
  - apply (prover_hint_fits h db keys qs hint comms Hw E Hk); [lia|exact Ep].
  - exact (open_rounds _ _ _ _ _ _ Em).
  - pose proof (run_canon h db Hw E) as Cn. assert (Hne : keys <> []) by (intros ->; discriminate).
    destruct (proof_parts_ok db _ _ Cn keys Hk Hne) as (qs' & Ep' & Hq). rewrite Ep' in Ep. injection Ep as <- <- <-.
    unfold comms_of_queries. pose proof (dedup_len (map pq_comm (filter (fun q => negb (geqb (pq_comm q) (node_comm (final_map h) (stems_of h) []))) qs'))) as D.
    rewrite map_length in D. pose proof (filter_len (fun q => negb (geqb (pq_comm q) (node_comm (final_map h) (stems_of h) []))) qs') as Fl.
    pose proof (all_entries_len (stems_of h) keys (can_wf _ _ _ Cn) Hk) as L.
    assert (Lq : len qs' = len (all_entries (stems_of h) keys)).
    { symmetry. clear - Hq. induction Hq; cbn [List.length]; congruence. }
    unfold bytes in *. lia.
Qed.
End Fits.
