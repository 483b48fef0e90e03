(** Properties of the wire formats (C15, C16, C17, C18, C43). *)
From Verif Require Import Base Alg AlgInst BTree WireModel WireSpec WireProofs WireInst.

(** C15.  Reading back a written hint gives the hint and leaves exactly the
    bytes that followed it. *)
Theorem C15_hint_round_trip : forall h rest,
  hint_fits h -> hint_read (hint_write h ++ rest) = Ok (Some (h, rest)).
Proof. exact hint_rt. Qed.
Print Assumptions C15_hint_round_trip.

(** No encoding is a prefix of another one. *)
Theorem C15_hint_injective : forall h h' rest rest',
  hint_fits h -> hint_fits h' ->
  hint_write h ++ rest = hint_write h' ++ rest' -> h = h' /\ rest = rest'.
Proof. exact hint_prefix_inj. Qed.
Print Assumptions C15_hint_injective.

Example C15_case : hint_fits ex_hint /\ hint_read (hint_write ex_hint ++ [1; 2; 3]) = Ok (Some (ex_hint, [1; 2; 3])).
Proof. split; [exact ex_hint_fits | vm_compute; reflexivity]. Qed.

(** The bound on depths is needed: depth 32, which the comments and the debug
    assertion of [write] allow, is read back as depth 0. *)
Theorem C15_depth_32_lost :
  hint_read (hint_write (mkHint [32] [ExtPres] [])) = Ok (Some (mkHint [0] [ExtPres] [], [])).
Proof. vm_compute. reflexivity. Qed.
Print Assumptions C15_depth_32_lost.

(** C16 is false: eight header bytes and one byte with status bits 3 panic. *)
Theorem C16_hint_read_panics_refuted :
  ~ (forall b, is_bytes b -> hint_read b <> Panic).
Proof.
  exact (fun H => H [0;0;0;0;1;0;0;0;3]
    ltac:(repeat constructor; unfold is_byte; lia) ltac:(vm_compute; reflexivity)).
Qed.
Print Assumptions C16_hint_read_panics_refuted.

(** What [read] does on every byte string: an error exactly when the input is
    too short for the counts in it, a panic exactly when a packed byte has
    status bits 3, otherwise the hint the bytes mean. *)
Theorem C16_hint_read_total_partial : forall b, is_bytes b ->
  (hint_read b = Ok None /\ ~ exists stems buf rest, hint_layout b stems buf rest)
  \/ exists stems buf rest, hint_layout b stems buf rest /\
     ((Exists bad_status buf /\ hint_read b = Panic)
      \/ exists es, Forall2 status_means buf es /\
         hint_read b = Ok (Some (mkHint (map (fun x => x / 8) buf) es (set_of stems), rest))).
Proof. exact hint_read_cases. Qed.
Print Assumptions C16_hint_read_total_partial.

Example C16_case_ok : hint_read ([0;0;0;0] ++ [2;0;0;0] ++ [18; 25] ++ [9])
  = Ok (Some (mkHint [2; 3] [ExtPres; ExtDifferentStem] [], [9])).
Proof. vm_compute. reflexivity. Qed.
Example C16_case_short : hint_read [0;0;0;0;5;0;0;0;3] = Ok None.
Proof. vm_compute. reflexivity. Qed.

Section WithCodec.
Context {A : Alg} {C : ECodec A} {CL : ECodecLaws C}.

(** C17. *)
Theorem C17_proof_round_trip : forall p : VerkleProof,
  proof_fits p -> proof_read (proof_write p) = Ok (Some p).
Proof. exact proof_rt. Qed.

Theorem C17_proof_injective : forall p q : VerkleProof,
  proof_fits p -> proof_fits q -> proof_write p = proof_write q -> p = q.
Proof. exact proof_write_inj. Qed.

(** C18.  The compressed formats: length, round trip, accepted strings. *)
Theorem C18_ipa_length : forall (p : IPAProof) r,
  rounds p r -> length (ipa_to_bytes p) = ((2 * r + 1) * 32)%nat.
Proof. exact ipa_bytes_len. Qed.

Theorem C18_ipa_round_trip : forall (p : IPAProof) k,
  Z.of_nat k < 2 ^ 25 - 1 -> rounds p k ->
  ipa_from_bytes (ipa_to_bytes p) (2 ^ k) = Ok (Some p).
Proof.
  exact (fun p k Hk H => ipa_rt p (2 ^ k)
    (eq_ind_r (rounds p) H (log2_up_pow k)) (eq_ind_r rounds_fit Hk (log2_up_pow k))).
Qed.

Theorem C18_ipa_accepted_is_encoding : forall b n (p : IPAProof),
  is_bytes b -> Z.of_nat (length b) < 2 ^ 32 ->
  ipa_from_bytes b n = Ok (Some p) -> ipa_to_bytes p = b /\ rounds p (Nat.log2_up n).
Proof. exact ipa_accept. Qed.

Theorem C18_multipoint_round_trip : forall (p : MultiPointProof) k,
  Z.of_nat k < 2 ^ 25 - 1 -> rounds (mp_ipa p) k ->
  mp_from_bytes (mp_to_bytes p) (2 ^ k) = Ok (Some p)
  /\ length (mp_to_bytes p) = (32 + (2 * k + 1) * 32)%nat.
Proof.
  exact (fun p k Hk H => conj (mp_rt p (2 ^ k)
    (eq_ind_r (rounds (mp_ipa p)) H (log2_up_pow k)) (eq_ind_r rounds_fit Hk (log2_up_pow k)))
    (mp_bytes_len p k H)).
Qed.

Theorem C18_multipoint_accepted_is_encoding : forall b n (p : MultiPointProof),
  is_bytes b -> Z.of_nat (length b) < 2 ^ 32 ->
  mp_from_bytes b n = Ok (Some p) -> mp_to_bytes p = b /\ rounds (mp_ipa p) (Nat.log2_up n).
Proof. exact mp_accept. Qed.

(** The uncompressed formats. *)
Theorem C18_ipa_uncompressed : forall (p : IPAProof) k,
  Z.of_nat k < 2 ^ 24 -> rounds p k ->
  ipa_from_bytes_uncompressed (ipa_to_bytes_uncompressed p) (2 ^ k) = Ok (Some p)
  /\ length (ipa_to_bytes_uncompressed p) = (2 * k * 64 + 32)%nat.
Proof.
  exact (fun p k Hk H => conj (ipa_urt p (2 ^ k)
    (eq_ind_r (rounds p) H (log2_up_pow k))
    (eq_ind_r (fun r => Z.of_nat r < 2 ^ 24) Hk (log2_up_pow k))) (ipa_ubytes_len p k H)).
Qed.

Theorem C18_multipoint_uncompressed : forall (p : MultiPointProof) k,
  Z.of_nat k < 2 ^ 24 -> rounds (mp_ipa p) k ->
  mp_from_bytes_uncompressed (mp_to_bytes_uncompressed p) (2 ^ k) = Ok (Some p)
  /\ length (mp_to_bytes_uncompressed p) = (64 + (2 * k * 64 + 32))%nat.
Proof.
  exact (fun p k Hk H => conj (mp_urt p (2 ^ k)
    (eq_ind_r (rounds (mp_ipa p)) H (log2_up_pow k))
    (eq_ind_r (fun r => Z.of_nat r < 2 ^ 24) Hk (log2_up_pow k))) (mp_ubytes_len p k H)).
Qed.

(** The length test compares lengths modulo 2^32, so the bound on [length b] in
    the acceptance theorems is needed: an encoding followed by exactly 2^32
    bytes of anything is accepted. *)
Theorem C18_ipa_accepts_overlong_refuted : forall (p : IPAProof) k pad,
  Z.of_nat k < 2 ^ 25 - 1 -> rounds p k -> Z.of_nat (length pad) = 2 ^ 32 ->
  ipa_from_bytes (ipa_to_bytes p ++ pad) (2 ^ k) = Ok (Some p).
Proof.
  exact (fun p k pad Hk H Hp => ipa_rt_tail p (2 ^ k) pad
    (eq_ind_r (rounds p) H (log2_up_pow k)) (eq_ind_r rounds_fit Hk (log2_up_pow k))
    (eq_ind_r (fun z => z mod 2 ^ 32 = 0) (Z.mod_same (2 ^ 32) ltac:(lia)) Hp)).
Qed.

(** A string of the wrong length is not reported: the decoder panics. *)
Theorem C18_ipa_wrong_length_panics : forall b n,
  Z.of_nat (length b) < 2 ^ 32 -> length b <> ((2 * Nat.log2_up n + 1) * 32)%nat ->
  ipa_from_bytes b n = Panic.
Proof. exact ipa_wrong_length_panics. Qed.

(** C43. *)
Theorem C43_crs_round_trip : forall c : CRS,
  crs_from_bytes (crs_to_bytes c) = Ok (mkCRS (length (crs_G c)) (crs_G c) (crs_Q c)).
Proof. exact crs_rt. Qed.
End WithCodec.

Print Assumptions C17_proof_round_trip.
Print Assumptions C17_proof_injective.
Print Assumptions C18_ipa_length.
Print Assumptions C18_ipa_round_trip.
Print Assumptions C18_ipa_accepted_is_encoding.
Print Assumptions C18_multipoint_round_trip.
Print Assumptions C18_multipoint_accepted_is_encoding.
Print Assumptions C18_ipa_uncompressed.
Print Assumptions C18_multipoint_uncompressed.
Print Assumptions C18_ipa_accepts_overlong_refuted.
Print Assumptions C18_ipa_wrong_length_panics.
Print Assumptions C43_crs_round_trip.

Example C17_case : proof_fits ex_proof.
Proof. exact ex_proof_fits. Qed.
Example C17_case_reads :
  (let! o := proof_read (proof_write ex_proof) in
   Ok (match o with Some p => Some (length (vp_comms p), vh_depths (vp_hint p), length (ipa_L (mp_ipa (vp_proof p))))
       | None => None end)) = Ok (Some (3%nat, [1; 31; 2; 0], 8%nat)).
Proof. vm_compute. reflexivity. Qed.
Example C18_case : rounds (ex_ipa 3) 3 /\ length (ipa_to_bytes (ex_ipa 3)) = 224%nat
  /\ length (mp_to_bytes_uncompressed (ex_mp 3)) = 480%nat.
Proof. exact (conj (ex_rounds 3) (conj eq_refl eq_refl)). Qed.
Example C18_case_overlong : exists pad : bytes, Z.of_nat (length pad) = 2 ^ 32.
Proof. exists (repeat 0 (Z.to_nat (2 ^ 32))). rewrite repeat_length. apply Z2Nat.id. lia. Qed.
Example C43_case :
  (let! c := crs_from_bytes (crs_to_bytes (mkCRS (A := ExA) 2 [zred p31 8; zred p31 9] (zred p31 4))) in
   Ok (crs_n c, map (zval p31) (crs_G c), zval p31 (crs_Q c))) = Ok (2%nat, [8; 9], 4).
Proof. vm_compute. reflexivity. Qed.
