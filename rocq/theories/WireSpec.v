(** What the wire theorems quantify over, independent of the readers and
    writers of [WireModel]. *)
From Verif Require Import Base BTree WireModel.

(** Hints whose fields fit the format: one status per depth, depths that fit
    five bits, 31-byte stems in set order, counts that fit 32 bits. *)
Record hint_fits (h : VerificationHint) : Prop := {
  hf_len : length (vh_ext h) = length (vh_depths h);
  hf_depth : Forall (fun d => 0 <= d <= 31) (vh_depths h);
  hf_stem : Forall (fun s => length s = 31%nat) (vh_diff h);
  hf_sorted : sorted (vh_diff h);
  hf_n1 : Z.of_nat (length (vh_diff h)) < 2 ^ 32;
  hf_n2 : Z.of_nat (length (vh_depths h)) < 2 ^ 32
}.

(** [b] consists of a count of stems, that many 31-byte stems, a count of
    packed bytes, that many bytes, and a remainder. *)
Definition hint_layout (b : bytes) (stems : list bytes) (buf rest : bytes) : Prop :=
  b = Z_le 4 (Z.of_nat (length stems)) ++ concat stems ++
      Z_le 4 (Z.of_nat (length buf)) ++ buf ++ rest
  /\ Forall (fun s => length s = 31%nat) stems
  /\ Z.of_nat (length stems) < 2 ^ 32 /\ Z.of_nat (length buf) < 2 ^ 32.

(** The meaning of one packed byte: low two bits status, high five bits depth. *)
Definition status_means (byte : Z) (e : ExtPresent) : Prop :=
  match e with
  | ExtNone => byte mod 4 = 0
  | ExtDifferentStem => byte mod 4 = 1
  | ExtPres => byte mod 4 = 2
  end.
Definition bad_status (byte : Z) : Prop := byte mod 4 = 3.

(** Proofs with [r] rounds. *)
Definition rounds {A} (p : @IPAProof A) (r : nat) : Prop :=
  length (ipa_L p) = r /\ length (ipa_R p) = r.

(** A proof the wire format is meant for: a hint that fits, eight rounds
    (2^8 = 256 children per node), a number of commitments that fits 32 bits. *)
Record proof_fits {A} (p : @VerkleProof A) : Prop := {
  pf_hint : hint_fits (vp_hint p);
  pf_rounds : rounds (mp_ipa (vp_proof p)) 8;
  pf_comms : Z.of_nat (length (vp_comms p)) < 2 ^ 32
}.
