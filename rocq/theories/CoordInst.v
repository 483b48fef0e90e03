(** Concrete cases for [PropCoord]: proofs and updates on the curve of [MidInst], and a proof for the default
    generators of the real curve. *)
From Coq Require Import Permutation String Znumtheory.
From Verif Require Import Base BaseFacts Alg AlgInst TreeSpec TrieModel TrieProofs TrieTheorems ExData BTree CodecModel VerkleDbModel DbSpec MsmModel WireModel WireSpec ProofModel ProofSpec OpeningProofs ProofRefute
  IpaModel LagrangeSpec IpaSpec TranscriptSpec CheckProofs StatelessModel StatelessSpec StatelessProofs StatelessTheorems ElementModel ElementSpec ElementInst CurveModel CurveSpec CurveAlg CurveRep CoordSpec RootTotal RepRefine RepProof
  Bander RealSpec RealRefine CoordProofs MidInst.
Local Open Scope list_scope.

(** ** A hash whose values, read as integers, lie between 300 and 1100 *)
Definition toy : Hasher := fun b => Z_le 32 (300 + fold_left (fun a x => (a * 31 + x + 1) mod 800) b 7).
Lemma toy_range b : exists z, 300 <= z < 1100 /\ le_Z (toy b) = z.
Proof.
  assert (R : forall b a, 0 <= a < 800 -> 0 <= fold_left (fun a x => (a * 31 + x + 1) mod 800) b a < 800).
  { induction b0 as [|x l IH]; intros a Ha; cbn [fold_left]; [exact Ha|]. apply IH. apply Z.mod_pos_bound. lia. }
  specialize (R b 7 ltac:(lia)). exists (300 + fold_left (fun a x => (a * 31 + x + 1) mod 800) b 7). split; [lia|].
  unfold toy. apply le_Z_Z_le. change (256 ^ Z.of_nat 32) with (2 ^ 256). assert (2000 < 2 ^ 256) by reflexivity. lia.
Qed.
Section Usable.
Context {A : Alg} {P : Par A} {C : ECodec A}.
#[local] Existing Instance toy.
Hypothesis apart : forall z i, 300 <= z < 1100 -> 0 <= i < 256 -> of_Z z <> of_Z i.
Hypothesis of_Z_zero : of_Z 0 = fzero.
Lemma toy_challenge tr l : fst (challenge_scalar tr l) <> fzero /\ outside_domain 256 (fst (challenge_scalar tr l)).
Proof.
  unfold challenge_scalar. cbn [fst]. match goal with |- context [sha256 ?b] => destruct (toy_range b) as (z & R & E) end.
  unfold sha256. rewrite E. split.
  - rewrite <- of_Z_zero. apply apart; lia.
  - intros i Hi. apply apart; lia.
Qed.
Lemma toy_rounds k : forall tr a b Gs (Q : G), Forall (fun x => x <> fzero) (round_challenges k tr a b Gs Q).
Proof.
  induction k as [|k IH]; intros tr a b Gs Q; [constructor|]. cbn [round_challenges].
  match goal with |- context [challenge_scalar ?t ?l] => destruct (toy_challenge t l) as [N _]; destruct (challenge_scalar t l) as [x tr'] end.
  constructor; [exact N|apply IH].
Qed.
Lemma toy_usable (qs : list ProverQuery) : usable_challenges qs.
Proof.
  split.
  - unfold mp_honest_t, mp_t. apply toy_challenge.
  - unfold mp_honest_challenges. destruct (mp_t _ _ _). destruct (precomputed_weights _); [|constructor].
    destruct (evaluate_lagrange_coefficients _ _ _); [|constructor]. unfold ipa_challenges. destruct (ipa_absorb _ _ _ _). apply toy_rounds.
Qed.
Lemma toy_outside tr (qs : list VerifierQuery) D : outside_domain 256 (fst (mp_t tr qs D)).
Proof. unfold mp_t. apply toy_challenge. Qed.
End Usable.
(** ** Proofs on the curve of [MidInst] *)
Section Mid.
#[local] Existing Instance Mid_laws.
#[local] Existing Instance Mid_curve.
#[local] Existing Instance Mid_scalars.
#[local] Existing Instance MidF_laws.
Local Notation RA := (@rep_alg Mid Mid_laws MidF MidI).
Local Notation CA := (@curve_alg Mid Mid_laws MidF MidI).
Local Notation RE := (@rep_ecodec Mid Mid_laws MidF MidI).
Local Notation CE := (@curve_ecodec Mid Mid_laws MidF MidI).
Lemma mid_apart z i : 300 <= z < 1100 -> 0 <= i < 256 -> @of_Z MidF z <> of_Z i.
Proof.
  intros Hz Hi E. apply (f_equal (zval 1201)) in E. cbn in E. rewrite !Z.mod_small in E by lia. lia.
Qed.
Lemma mid_usable (qs : list (@ProverQuery CA)) : @usable_challenges CA mid_cpar CE toy qs.
Proof. exact (@toy_usable CA mid_cpar CE mid_apart (@of_Z_0 MidF MidF_laws) qs). Qed.
Lemma mid_wf : wf_history mid_h.
Proof. apply keys_okb_ok. vm_compute. reflexivity. Qed.
Lemma mid_keys_ok : Forall is_key mid_keys.
Proof. repeat (constructor; [apply key_okb; vm_compute; reflexivity|]). constructor. Qed.
Lemma mid_nodup : NoDup mid_keys.
Proof. repeat (constructor; [cbn; intuition discriminate|]). constructor. Qed.

Local Opaque mid_par mid_cpar.
Lemma mid_proof : exists db root p uh, @run_mem RA mid_par mid_h = Ok db /\ @root_commitment RA _ _ db = Ok root /\
  @create_verkle_proof RA RE toy mid_par MemoryDb _ (fun l => l) db mid_keys = Ok (Some p) /\
  @proof_check RA RE toy mid_par p mid_keys (map (final_map mid_h) mid_keys) root = Ok (true, Some uh).
Proof.
  destruct (sf_trie mid_stands mid_h mid_wf) as (db & c & E & _).
  assert (Nk : mid_keys <> []) by discriminate.
  destruct (sf_honest (HS := toy) mid_stands mid_fits mid_h db mid_keys (fun l => l) mid_wf E Nk mid_keys_ok mid_distinguishable (fun l => Permutation_refl l))
    as (qs & hint & comms & root & _ & Er & Hu).
  destruct (Hu (mid_usable _)) as (p & uh & Cr & _ & _ & Ck). exists db, root, p, uh. auto.
Qed.

Definition mid_updated : list (option bytes) := [Some (repeat 77 32); Some (repeat 78 32); Some (repeat 79 32); None].
Definition mid_updated2 : list (option bytes) := [Some (repeat 77 32); None; None; Some (repeat 5 32)].
Definition mid_occupiedb (k : bytes) : bool :=
  match stem_at (stems_of mid_h) (qpos (stems_of mid_h) k) with Some _ => true | None => false end.
Lemma mid_occupied k v : In (k, v) (writes mid_keys mid_updated) -> occupied (stems_of mid_h) k.
Proof.
  intro Hi. assert (E : forallb (fun e => mid_occupiedb (fst e)) (writes mid_keys mid_updated) = true) by (vm_compute; reflexivity).
  rewrite forallb_forall in E. specialize (E _ Hi). cbn [fst] in E.
  apply (occupied_slot mid_h k mid_wf).
  - apply writes_In in Hi. pose proof mid_keys_ok as X. rewrite Forall_forall in X. now apply X.
  - unfold mid_occupiedb in E. destruct (stem_at _ _); [discriminate|discriminate].
Qed.
Lemma mid_not_occupied : ~ occupied (stems_of mid_h) (mid_key 99 0 0).
Proof.
  rewrite (occupied_slot mid_h _ mid_wf).
  - intro X. apply X. vm_compute. reflexivity.
  - apply key_okb. vm_compute. reflexivity.
Qed.

(** The proof is sent as bytes, and so is the root; the receiver checks what they read and updates by it. *)
Lemma mid_case : exists db root p q root' db' r r',
  @run_mem RA mid_par mid_h = Ok db /\ @root_commitment RA _ _ db = Ok root /\
  @create_verkle_proof RA RE toy mid_par MemoryDb _ (fun l => l) db mid_keys = Ok (Some p) /\
  @proof_read RA RE (@proof_write RA RE p) = Ok (Some q) /\ @el_de RA RE (@el_ser RA RE root) = Some root' /\
  (exists uh, @proof_check RA RE toy mid_par q mid_keys (map (final_map mid_h) mid_keys) root' = Ok (true, Some uh)) /\
  @trie_insert RA mid_par _ _ db (writes mid_keys mid_updated) = Ok db' /\ @root_commitment RA _ _ db' = Ok r /\
  @verify_and_update RA mid_par (@rev bytes) toy RE q root' mid_keys (map (final_map mid_h) mid_keys) mid_updated = Ok (VOk r') /\ same_coord r r' /\
  @verify_and_update RA mid_par (@rev bytes) toy RE q root' mid_keys (map (final_map mid_h) mid_keys) mid_updated2 = Panic.
Proof.
  destruct mid_proof as (db & root & p & uh & E & Er & Cr & Ck).
  destruct (sf_sent (HS := toy) mid_stands mid_h db mid_keys (fun l => l) p mid_wf E mid_keys_ok (fun l => Permutation_refl l) eq_refl Cr) as (q & Rd & Sp).
  destruct (root_sent root) as (root' & Rr & Sr).
  assert (Kq : exists uh, @proof_check RA RE toy mid_par q mid_keys (map (final_map mid_h) mid_keys) root' = Ok (true, Some uh)).
  { pose proof (sf_check (HS := toy) mid_stands p q root root' mid_keys (map (final_map mid_h) mid_keys) Sp Sr) as S.
    rewrite Ck in S. destruct (@proof_check RA RE toy mid_par q mid_keys (map (final_map mid_h) mid_keys) root') as [[b o]|]; [|destruct S].
    destruct S as [S1 S2]. cbn [fst snd] in *. subst b. destruct o as [uh'|]; [exists uh'; reflexivity|]. destruct S2 as [_ S2]. discriminate (S2 eq_refl). }
  assert (Kq' : exists uh, @proof_check RA RE toy mid_par q mid_keys (map (final_map mid_h) mid_keys) root' = Ok (true, uh)).
  { destruct Kq as [u Kq]. exists (Some u). exact Kq. }
  destruct (sf_stateless (HS := toy) mid_stands mid_h db mid_keys mid_updated (fun l => l) (@rev bytes) p root q root' mid_wf E Er mid_keys_ok mid_nodup eq_refl
    (fun l => Permutation_refl l) (fun l => Permutation_sym (Permutation_rev l)) Cr Sp Sr Kq' mid_occupied) as (db' & r & r' & E1 & E2 & E3 & S).
  exists db, root, p, q, root', db', r, r'.
  split; [exact E|]. split; [exact Er|]. split; [exact Cr|]. split; [exact Rd|]. split; [exact Rr|]. split; [exact Kq|].
  split; [exact E1|]. split; [exact E2|]. split; [exact E3|]. split; [exact S|].
  apply (sf_stateless_panics (HS := toy) mid_stands mid_h db mid_keys mid_updated2 (fun l => l) (@rev bytes) p root q root' (mid_key 99 0 0) (repeat 5 32) mid_wf E Er mid_keys_ok mid_nodup eq_refl
    (fun l => Permutation_refl l) (fun l => Permutation_sym (Permutation_rev l)) Cr Sp Sr Kq').
  - vm_compute. right. left. reflexivity.
  - exact mid_not_occupied.
Qed.
End Mid.

(** ** The default generators of the real curve: a key in an empty slot *)
Section Real.
#[local] Existing Instance bander_laws.
#[local] Existing Instance bander_curve.
#[local] Existing Instance bander_scalars.
#[local] Existing Instance BanderF_laws.
Local Notation RA := (@rep_alg Bander bander_laws BanderF BanderI).
Local Notation RE := (@rep_ecodec Bander bander_laws BanderF BanderI).
Local Opaque default_par real_par edwards_multiple.
Lemma small_apart z i : 0 <= z < 2000 -> 0 <= i < 2000 -> @of_Z BanderF z = of_Z i -> z = i.
Proof.
  intros Hz Hi E. apply (f_equal (zval bander_r)) in E. change (z mod bander_r = i mod bander_r) in E.
  assert (L : 2000 < bander_r) by reflexivity. rewrite !Z.mod_small in E by (split; [lia|eapply Z.lt_trans; [|exact L]; lia]). exact E.
Qed.
Lemma real_apart z i : 300 <= z < 1100 -> 0 <= i < 256 -> @of_Z BanderF z <> of_Z i.
Proof. intros Hz Hi E. apply small_apart in E; lia. Qed.
Lemma real_fits : @domain_fits BanderF 256.
Proof.
  intros k Hk E. rewrite <- (@of_Z_0 BanderF BanderF_laws) in E. apply small_apart in E; lia.
Qed.
Lemma real_usable (qs : list (@ProverQuery real_alg)) : @usable_challenges real_alg real_par real_ecodec toy qs.
Proof. exact (@toy_usable real_alg real_par real_ecodec real_apart (@of_Z_0 BanderF BanderF_laws) qs). Qed.
Definition slot_key : bytes := mid_key 99 0 0.
Lemma slot_distinguishable : @distinguishable real_alg real_par (final_map mid_h) (stems_of mid_h) [slot_key].
Proof.
  assert (O : opened (stems_of mid_h) [slot_key] = [[]]) by (vm_compute; reflexivity).
  unfold distinguishable. rewrite O. split; [now split|]. intros p [<-|[]] N. now elim N.
Qed.
Lemma slot_key_ok : Forall is_key [slot_key].
Proof. repeat (constructor; [apply key_okb; vm_compute; reflexivity|]). constructor. Qed.
Lemma real_case : exists db root p q root',
  @run_mem RA default_par mid_h = Ok db /\ @root_commitment RA _ _ db = Ok root /\
  @create_verkle_proof RA RE toy default_par MemoryDb _ (fun l => l) db [slot_key] = Ok (Some p) /\
  @proof_read RA RE (@proof_write RA RE p) = Ok (Some q) /\ @el_de RA RE (@el_ser RA RE root) = Some root' /\
  (exists uh, @proof_check RA RE toy default_par q [slot_key] [None] root' = Ok (true, Some uh)) /\
  @verify_and_update RA default_par (@rev bytes) toy RE q root' [slot_key] [None] [Some (repeat 5 32)] = Panic.
Proof.
  destruct (sf_trie default_stands mid_h mid_wf) as (db & c & E & _).
  assert (Nk : [slot_key] <> []) by discriminate.
  destruct (sf_honest (HS := toy) default_stands real_fits mid_h db [slot_key] (fun l => l) mid_wf E Nk slot_key_ok slot_distinguishable (fun l => Permutation_refl l))
    as (qs & hint & comms & root & _ & Er & Hu).
  destruct (Hu (real_usable _)) as (p & uh & Cr & _ & _ & Ck).
  destruct (sf_sent (HS := toy) default_stands mid_h db [slot_key] (fun l => l) p mid_wf E slot_key_ok (fun l => Permutation_refl l) eq_refl Cr) as (q & Rd & Sp).
  destruct (root_sent root) as (root' & Rr & Sr).
  assert (Ev : map (final_map mid_h) [slot_key] = [None]) by (vm_compute; reflexivity). rewrite Ev in Ck.
  assert (Kq : exists uh, @proof_check RA RE toy default_par q [slot_key] [None] root' = Ok (true, Some uh)).
  { pose proof (sf_check (HS := toy) default_stands p q root root' [slot_key] [None] Sp Sr) as S.
    rewrite Ck in S. destruct (@proof_check RA RE toy default_par q [slot_key] [None] root') as [[b o]|]; [|destruct S].
    destruct S as [S1 S2]. cbn [fst snd] in *. subst b. destruct o as [uh'|]; [exists uh'; reflexivity|]. destruct S2 as [_ S2]. discriminate (S2 eq_refl). }
  assert (Kq' : exists uh, @proof_check RA RE toy default_par q [slot_key] (map (final_map mid_h) [slot_key]) root' = Ok (true, uh)).
  { rewrite Ev. destruct Kq as [u Kq]. exists (Some u). exact Kq. }
  exists db, root, p, q, root'.
  split; [exact E|]. split; [exact Er|]. split; [exact Cr|]. split; [exact Rd|]. split; [exact Rr|]. split; [exact Kq|].
  pose proof (sf_stateless_panics (HS := toy) default_stands mid_h db [slot_key] [Some (repeat 5 32)] (fun l => l) (@rev bytes) p root q root' slot_key (repeat 5 32) mid_wf E Er slot_key_ok
    ltac:(repeat constructor; intros []) eq_refl
    (fun l => Permutation_refl l) (fun l => Permutation_sym (Permutation_rev l)) Cr Sp Sr Kq' ltac:(left; reflexivity) mid_not_occupied) as Pn.
  rewrite Ev in Pn. exact Pn.
Qed.
End Real.
