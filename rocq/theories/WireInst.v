(** A lawful instance of the wire codecs and concrete hints and proofs. *)
From Verif Require Import Base BaseFacts Alg AlgInst CodecModel CodecInst BTree WireModel WireSpec WireProofs.

#[export] Instance ExE : ECodec ExA := {|
  el_ser (g : @G ExA) := Z_le 32 (zval p31 g); el_de := (ex_de 32 : bytes -> option (@G ExA));
  eu_ser (g : @G ExA) := Z_le 64 (zval p31 g); eu_de := (ex_de 64 : bytes -> option (@G ExA));
  sc_ser (x : @F ExA) := Z_le 32 (zval p31 x); sc_de := (ex_de 32 : bytes -> option (@F ExA))
|}.

Lemma ex_canon b (g : zp p31) : is_bytes b -> length b = 32%nat -> ex_de 32 b = Some g ->
  Z_le 32 (zval p31 g) = b.
Proof.
  intros Hb Hl. unfold ex_de. destruct ((length b =? 32)%nat && (le_Z b <? p31)) eqn:E; [|discriminate].
  apply andb_prop in E as [_ E]. apply Z.ltb_lt in E. intro H. injection H as <-.
  cbn [zval zred]. pose proof (le_Z_bound b Hb). rewrite Z.mod_small by lia.
  rewrite <- Hl. now apply Z_le_le_Z.
Qed.

#[export] Instance ExEL : ECodecLaws ExE.
Proof.
  constructor.
  - intros g. apply Z_le_len.
  - intros g. apply (ex_rt 32). lia.
  - intros b g Hb Hl H. exact (ex_canon b g Hb Hl H).
  - intros g. apply Z_le_len.
  - intros g. apply (ex_rt 64). lia.
  - intros g. apply Z_le_len.
  - intros g. apply (ex_rt 32). lia.
  - intros b g Hb Hl H. exact (ex_canon b g Hb Hl H).
Qed.

(** Two stems met on the way, four keys with every kind of status and depths up
    to 31. *)
Definition ex_hint : VerificationHint :=
  mkHint [1; 31; 2; 0] [ExtPres; ExtNone; ExtDifferentStem; ExtPres]
    [repeat 7 31; 9 :: repeat 0 30].

Lemma ex_hint_fits : hint_fits ex_hint.
Proof.
  constructor; cbn [ex_hint vh_ext vh_depths vh_diff]; auto.
  - repeat constructor; lia.
  - repeat constructor; vm_compute; discriminate.
  - vm_compute. reflexivity.
  - vm_compute. reflexivity.
Qed.

Definition ex_ipa (r : nat) : @IPAProof ExA :=
  mkIPA (A := ExA) (map (fun i => zred p31 (Z.of_nat i + 3)) (seq 0 r))
    (map (fun i => zred p31 (Z.of_nat i * 5)) (seq 0 r)) (zred p31 77).
Definition ex_mp (r : nat) : @MultiPointProof ExA := mkMP (A := ExA) (ex_ipa r) (zred p31 12).
Definition ex_proof : @VerkleProof ExA :=
  mkVP (A := ExA) ex_hint [zred p31 5; zred p31 6; zred p31 5] (ex_mp 8).

Lemma ex_rounds r : rounds (ex_ipa r) r.
Proof. split; cbn [ex_ipa ipa_L ipa_R]; now rewrite map_length, seq_length. Qed.

Lemma ex_proof_fits : proof_fits ex_proof.
Proof.
  constructor.
  - apply ex_hint_fits.
  - apply (ex_rounds 8).
  - vm_compute. reflexivity.
Qed.
