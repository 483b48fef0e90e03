(** A toy hash function and concrete runs of the arguments in the example group. *)
From Coq Require Import String.
From Verif Require Import Base BaseFacts Alg AlgInst TreeSpec TrieModel ExData BTree WireModel WireInst ProofModel ProofSpec
  ProofRefute ProofExamples IpaModel LagrangeSpec IpaSpec TranscriptSpec CheckProofs.
Local Open Scope list_scope.

(** A polynomial hash with 32 bytes of output; not sha256.  Its values, read as integers, lie
    between 1000 and 2^30 + 1000, so that no challenge is ever zero or a domain point. *)
#[export] Instance ExH : Hasher :=
  fun b => Z_le 32 (1000 + fold_left (fun a x => (a * 65599 + x + 1) mod 1073741824) b 7).

Lemma ex_of_Z k : 0 < k < p31 -> @of_Z ExA k <> fzero.
Proof.
  intros B E. apply (f_equal (zval p31)) in E. cbn in E. rewrite Z.mod_small in E by lia. change (0 mod p31) with 0 in E. lia.
Qed.
Lemma ex_fits n : (n <= 1000)%nat -> @domain_fits ExA n.
Proof. intros L k B. apply ex_of_Z. unfold p31. lia. Qed.

Lemma ex_hash_range b : exists z, 1000 <= z < p31 /\ @to_scalar ExA (sha256 b) = zred p31 z.
Proof.
  assert (B : forall b a, 0 <= a < 1073741824 -> 0 <= fold_left (fun a x => (a * 65599 + x + 1) mod 1073741824) b a < 1073741824).
  { induction b0 as [|x l IH]; intros a Ha; cbn [fold_left]; [exact Ha|]. apply IH. apply Z.mod_pos_bound. lia. }
  specialize (B b 7 ltac:(lia)). unfold sha256, ExH.
  exists (1000 + fold_left (fun a x => (a * 65599 + x + 1) mod 1073741824) b 7). split; [unfold p31; lia|].
  unfold to_scalar. rewrite le_Z_Z_le; [reflexivity|].
  change (256 ^ Z.of_nat 32) with (2 ^ 256). assert (2000000000 < 2 ^ 256) by reflexivity. lia.
Qed.
Lemma ex_challenge tr l : fst (challenge_scalar (A := ExA) tr l) <> fzero /\
  forall n, (n <= 1000)%nat -> outside_domain n (fst (challenge_scalar (A := ExA) tr l)).
Proof.
  unfold challenge_scalar. cbn [fst]. match goal with |- context [sha256 ?b] => destruct (ex_hash_range b) as (z & B & E) end.
  unfold to_scalar in E. rewrite E. split.
  - apply (ex_of_Z z). lia.
  - intros n L i Hi X. apply (f_equal (zval p31)) in X. unfold pt in X. cbn [of_Z ExA zp_alg] in X. rewrite !zval_red in X.
    rewrite !Z.mod_small in X by (unfold p31 in *; lia). lia.
Qed.

(** So every run in this instance has usable challenges. *)
Lemma ex_round_challenges k : forall tr a b Gs (Q : @G ExA), Forall (fun x => x <> fzero) (round_challenges k tr a b Gs Q).
Proof.
  induction k as [|k IH]; intros tr a b Gs Q; cbn [round_challenges]; [constructor|].
  match goal with |- context [challenge_scalar ?t ?l] => destruct (ex_challenge t l) as [N _]; destruct (challenge_scalar t l) as [x tr'] end.
  constructor; [exact N|apply IH].
Qed.
Lemma ex_ipa_challenges k tr crs a (c : @G ExA) b z : Forall (fun x => x <> fzero) (ipa_challenges k tr crs a c b z).
Proof. unfold ipa_challenges. destruct (ipa_absorb _ _ _ _). apply ex_round_challenges. Qed.
Lemma ex_honest_challenges k tr crs (qs : list (@ProverQuery ExA)) : Forall (fun x => x <> fzero) (mp_honest_challenges k tr crs qs).
Proof.
  unfold mp_honest_challenges. destruct (mp_t _ _ _). destruct (precomputed_weights _); [|constructor].
  destruct (evaluate_lagrange_coefficients _ _ _); [apply ex_ipa_challenges|constructor].
Qed.
Lemma ex_honest_t n m tr crs (qs : list (@ProverQuery ExA)) : (n <= 1000)%nat -> outside_domain n (mp_honest_t m tr crs qs).
Proof. intros L. unfold mp_honest_t, mp_t. now apply ex_challenge. Qed.
Lemma ex_usable (qs : list (@ProverQuery ExA)) : usable_challenges qs.
Proof. split; [apply ex_honest_t; lia|apply ex_honest_challenges]. Qed.

Definition ex_crs (n : nat) : @CRS ExA :=
  mkCRS (A := ExA) n (map (fun i => zred p31 (Z.of_nat (i * i * i + 11))) (seq 0 n)) (zred p31 987654).

Definition ex_a : list (@F ExA) := map (zred p31) [3; 1; 4; 1; 5; 9; 2; 6].
Definition ex_b : list (@F ExA) := map (zred p31) [2; 7; 1; 8; 2; 8; 1; 8].
Definition ex_tr : Transcript := tr_new (lbl "example").

(** Three openings of two vectors, two of them at the same point. *)
Definition ex_query (a : list (@F ExA)) (z : Z) : @ProverQuery ExA :=
  mkPQ (A := ExA) (commit 8 a (crs_G (ex_crs 8))) a z (nth (Z.to_nat z) a fzero).
Definition ex_qs : list (@ProverQuery ExA) := [ex_query ex_a 3; ex_query ex_b 6; ex_query (map (zred p31) [5; 6]) 3].

Definition nonzero (l : list (@F ExA)) : bool := forallb (fun x => negb (feqb x fzero)) l.
Lemma nonzero_ok l : nonzero l = true -> Forall (fun x => x <> fzero) l.
Proof.
  unfold nonzero. rewrite forallb_forall, Forall_forall. intros H x Hx E. specialize (H x Hx).
  apply negb_true_iff in H. assert (X : feqb x fzero = true) by (apply feqb_true; exact E). congruence.
Qed.
Definition outsideb (n : nat) (t : @F ExA) : bool := forallb (fun i => negb (feqb t (pt i))) (seq 0 n).
Lemma outsideb_ok n t : outsideb n t = true -> outside_domain n t.
Proof.
  unfold outsideb. rewrite forallb_forall. intros H i Hi E. specialize (H i). rewrite in_seq in H. specialize (H ltac:(lia)).
  apply negb_true_iff in H. assert (X : feqb t (pt i) = true) by (apply feqb_true; exact E). congruence.
Qed.
