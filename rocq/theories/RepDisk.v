(** A key on disk, on coordinates: when the records written for it can be read back. *)
From Coq Require Import Znumtheory.
From Verif Require Import Base BaseFacts Alg AlgFacts TreeSpec TrieModel CodecModel VerkleDbModel DbSpec MsmModel MsmInt WireModel IpaModel
  ElementModel ElementSpec ElementProofs CurveModel CurveSpec CurveProofs CurveAlg CurveRep RepSpec DiskWeak.
Local Open Scope Z_scope.

Section Rep.
Context {B : BaseField} {BL : BaseFieldLaws B} {CL : CurveLaws B} {A : Alg} {AL : AlgLaws A} {I : FrInt A} {SL : ScalarLaws B A I}.
Local Notation RA := (@rep_alg B BL A I).
Local Notation RI := (@rep_int B BL A I).
Local Notation RC := (@rep_codec B BL A I).
Local Notation order := (Z.of_nat q_order).
#[local] Instance rep_mod2 : IntModule RA RI order := rep_module.
#[local] Existing Instance rep_codec.
#[local] Existing Instance rep_int.
Context {P : Par RA}.
Local Notation gen := (@crs RA P).
Local Notation int := (@fr_int RA RI).

Lemma rd_pt_len (g : @G RA) : length (@pt_ser RA RC g) = 64%nat.
Proof. rewrite rep_pt_ser. rewrite app_length, !fq_ser_len. reflexivity. Qed.
Lemma rd_fr_len (x : @F RA) : length (@fr_ser RA RC x) = 32%nat.
Proof. apply Z_le_length. Qed.
Lemma rd_fr_back (x : @F RA) : @fr_de RA RC (fr_ser x) = Some x.
Proof. exact (@scalar_rt B A I SL (x : @F A)). Qed.

Theorem rep_reopen k x k2 x2 : is_key k -> is_key k2 -> length x = 32%nat ->
  firstn 31 k2 = firstn 31 k -> (k2, x2) <> (k, x) ->
  (@run_disk RA P RC [OInsert k x; OFlush; OReopen; OInsert k2 x2] = Panic <->
   twisted (@key_half RA P k x) = true \/ twisted (@key_stem RA P k x) = true \/ twisted (@key_root RA P k x) = true).
Proof.
  intros. apply (@reopen_insert RA P RC twisted); try assumption.
  - apply twisted_zero.
  - apply rd_pt_len.
  - apply rd_fr_len.
  - apply rd_fr_back.
  - apply rep_pt_de.
Qed.

Lemma int_small z : 0 <= z < order -> int (of_Z z) = z.
Proof. intro. exact (@scalar_int_of B A AL I SL z H). Qed.
Lemma sub_zero (s : @F RA) : fsub s fzero = s.
Proof. change (@fsub A s (@fzero A) = s). Add Ring Fringd : (@F_ring A AL). ring. Qed.
Lemma le_bound l : is_bytes l -> 0 <= le_Z l < 256 ^ Z.of_nat (length l).
Proof. intro H. apply le_Z_bound. exact H. Qed.
Lemma le_odd b l : Z.odd (le_Z (b :: l)) = Z.odd b.
Proof. cbn [le_Z]. rewrite Z.odd_add, Z.odd_mul. apply xorb_false_r. Qed.
Lemma half_twisted k x : 2 ^ 129 < order -> length x = 32%nat -> is_bytes x ->
  twisted (@key_half RA P k x) =
  xorb (Z.odd (nth 0 x 0) && twisted (gen (2 * (nth 31 k 0 mod 128)))) (Z.odd (nth 16 x 0) && twisted (gen (2 * (nth 31 k 0 mod 128) + 1))).
Proof.
  intros HN Hx Hb. unfold key_half, scalar_mul. rewrite !sub_zero. cbn [gadd gzero rep_alg].
  rewrite !twisted_add, twisted_zero, !im_smul, !twisted_zmul, xorb_false_l.
  assert (H1 : is_bytes (firstn 16 x)) by (unfold is_bytes in *; rewrite Forall_forall in *; intros y Hy; apply Hb; rewrite <- (firstn_skipn 16 x); apply in_or_app; now left).
  assert (H2 : is_bytes (firstn 16 (skipn 16 x))).
  { unfold is_bytes in *; rewrite Forall_forall in *; intros y Hy; apply Hb. rewrite <- (firstn_skipn 16 x). apply in_or_app. right.
    rewrite <- (firstn_skipn 16 (skipn 16 x)). apply in_or_app. now left. }
  pose proof (le_bound _ H1) as B1. pose proof (le_bound _ H2) as B2. rewrite firstn_length, Hx in B1. rewrite firstn_length, skipn_length, Hx in B2.
  change (256 ^ Z.of_nat (Nat.min 16 32)) with (2 ^ 128) in B1. change (256 ^ Z.of_nat (Nat.min 16 (32 - 16))) with (2 ^ 128) in B2.
  change (2 ^ 129) with (2 * 2 ^ 128) in HN.
  assert (E1 : int (value_low x) = le_Z (firstn 16 x) + 2 ^ 128).
  { unfold value_low, two_pow_128.
    assert (X : @fadd RA (of_Z (le_Z (firstn 16 x))) (of_Z (2 ^ 128)) = of_Z (le_Z (firstn 16 x) + 2 ^ 128)) by (symmetry; exact (@of_Z_add A AL _ _)).
    rewrite X. apply int_small. lia. }
  assert (E2 : int (value_high x) = le_Z (firstn 16 (skipn 16 x))) by (apply int_small; lia).
  assert (O1 : Z.odd (le_Z (firstn 16 x) + 2 ^ 128) = Z.odd (nth 0 x 0)).
  { rewrite Z.odd_add. change (Z.odd (2 ^ 128)) with false. rewrite xorb_false_r.
    destruct x as [|b x]; [discriminate|]. change (firstn 16 (b :: x)) with (b :: firstn 15 x). apply le_odd. }
  assert (O2 : Z.odd (le_Z (firstn 16 (skipn 16 x))) = Z.odd (nth 16 x 0)).
  { rewrite <- (firstn_skipn 16 x) at 2. rewrite app_nth2 by (rewrite firstn_length, Hx; cbn; lia).
    rewrite firstn_length, Hx. change (16 - Nat.min 16 32)%nat with 0%nat.
    assert (L : length (skipn 16 x) = 16%nat) by (rewrite skipn_length, Hx; reflexivity).
    destruct (skipn 16 x) as [|b y]; [discriminate|]. change (firstn 16 (b :: y)) with (b :: firstn 15 y). apply le_odd. }
  rewrite E1, E2, O1, O2. reflexivity.
Qed.
Lemma stem_twisted k x : twisted (@key_stem RA P k x) =
  xorb (xorb (twisted (gen 0)) (Z.odd (int (of_Z (le_Z (firstn 31 k)))) && twisted (gen 1)))
       (Z.odd (int (fsub (hash (@key_half RA P k x)) (hash gzero))) && twisted (gen (if nth 31 k 0 <? 128 then 2 else 3))).
Proof. unfold key_stem, scalar_mul. cbn [gadd rep_alg]. now rewrite !twisted_add, !im_smul, !twisted_zmul. Qed.
Lemma root_twisted k x : twisted (@key_root RA P k x) = Z.odd (int (hash (@key_stem RA P k x))) && twisted (gen (nth 0 k 0)).
Proof. unfold key_root, scalar_mul. rewrite sub_zero. cbn [gadd gzero rep_alg]. now rewrite twisted_add, twisted_zero, im_smul, twisted_zmul, xorb_false_l. Qed.
Theorem rep_reopen_panics k x k2 x2 : 2 ^ 129 < order -> is_key k -> is_key k2 -> length x = 32%nat -> is_bytes x ->
  firstn 31 k2 = firstn 31 k -> (k2, x2) <> (k, x) ->
  xorb (Z.odd (nth 0 x 0) && twisted (gen (2 * (nth 31 k 0 mod 128)))) (Z.odd (nth 16 x 0) && twisted (gen (2 * (nth 31 k 0 mod 128) + 1))) = true ->
  @run_disk RA P RC [OInsert k x; OFlush; OReopen; OInsert k2 x2] = Panic.
Proof. intros HN Hk Hk2 Hx Hb Es Nd T. apply rep_reopen; try assumption. left. now rewrite half_twisted. Qed.
Theorem reopen_checks k x k2 x2 : is_key k -> is_key k2 -> length x = 32%nat ->
  firstn 31 k2 = firstn 31 k -> (k2, x2) <> (k, x) ->
  (@run_disk RA P RC [OInsert k x; OFlush; OReopen; OInsert k2 x2] = Panic <->
   point_check (coords (@key_half RA P k x)) = false \/ point_check (coords (@key_stem RA P k x)) = false \/
   point_check (coords (@key_root RA P k x)) = false).
Proof.
  intros H1 H2 H3 H4 H5. rewrite (rep_reopen k x k2 x2 H1 H2 H3 H4 H5). unfold twisted. now rewrite !negb_true_iff.
Qed.
End Rep.
