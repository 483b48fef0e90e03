(** C68: the functions of the foreign-function interface that read commitments without a check, on any 64
    bytes. *)
From Verif Require Import Base BaseFacts Alg AlgInst MsmModel WireModel IpaModel ProofModel FfiModel ElementModel ElementSpec ElementProofs ElementInst
  CurveModel CurveSpec CurveProofs CurveAlg CurveRep CurveInst CurveOrder Bander RawModel RawSpec RawProofs RawCases.

Section Raw.
Context {B : BaseField} {BL : BaseFieldLaws B}.

(** Of the strings of 64 bytes exactly those with a half that is no number below the modulus are refused,
    and all by a panic. *)
Theorem C68_refused : forall (b c : bytes), is_bytes b -> length b = 64%nat -> (forall P, b <> pair_bytes P) ->
  raw_serialize_commitment b = Panic /\ raw_add_commitment b c = Panic /\
  (forall P, raw_add_commitment (pair_bytes P) b = Panic).
Proof. exact raw_refused. Qed.

(** Any two numbers are serialized, on the curve or not; of y only its sign counts. *)
Theorem C68_serialize : forall P, raw_serialize_commitment (pair_bytes P) = Ok (rev (Z_le 32 (q_int (larger_x P)))).
Proof. exact raw_serialize. Qed.

(** So bytes that are no commitment become an encoding that reads back as one. *)
Theorem C68_serialize_refuted : forall x y y', valid_point (mkAff x y) -> is_positive y = is_positive y' -> y' <> y ->
  ~ on_curve (mkAff x y') /\
  exists c, raw_serialize_commitment (pair_bytes (mkAff x y')) = Ok c /\ raw_serialize_commitment (pair_bytes (mkAff x y)) = Ok c /\
    exists Q, same_element Q (mkAff x y) /\ raw_deserialize_commitment c = Ok (FOk (pair_bytes Q)).
Proof. exact raw_laundered. Qed.

(** Any two pairs of numbers are added by the formula for points, and the call panics exactly if the
    formula divides by zero. *)
Theorem C68_add : forall P Q,
  (summable P Q -> raw_add_commitment (pair_bytes P) (pair_bytes Q) = Ok (pair_bytes (edwards_sum P Q))) /\
  (~ summable P Q -> raw_add_commitment (pair_bytes P) (pair_bytes Q) = Panic).
Proof. exact (fun P Q => conj (raw_add P Q) (raw_add_panic P Q)). Qed.

(** The projective coordinates in which the code holds the summands do not matter. *)
Theorem C68_any_scale : forall e1 e1' e2 e2' P Q, holds e1 P -> holds e1' P -> holds e2 Q -> holds e2' Q ->
  to_bytes_uncompressed (element_add e1 e2) = to_bytes_uncompressed (element_add e1' e2').
Proof. exact raw_add_any_scale. Qed.

Section Hash.
Context {A : Alg} {C : ECodec A}.

(** Hashing one commitment panics for y = 0, hashing a batch takes x/y for zero there. *)
Theorem C68_hash : forall P,
  (ay P <> 0%fq -> hash_commitment (pair_bytes P) = Ok (sc_ser (of_Z (q_int (ax P / ay P)%fq) : F))) /\
  (ay P = 0%fq -> hash_commitment (pair_bytes P) = Panic).
Proof. exact (fun P => conj (raw_hash P) (raw_hash_panic P)). Qed.
Theorem C68_hash_batch : forall Ps, hash_commitments (map pair_bytes Ps) =
  Ok (map (fun P => sc_ser (of_Z (if qeqb (ay P) 0%fq then 0 else q_int (ax P / ay P)%fq) : F)) Ps).
Proof. exact raw_hashes. Qed.

(** So bytes that are no commitment have the hash of one. *)
Theorem C68_hash_refuted : forall P c, on_curve P -> c <> 0%fq -> c <> 1%fq -> c <> (- (1))%fq ->
  ~ on_curve (mkAff (c * ax P)%fq (c * ay P)%fq) /\
  hash_commitment (pair_bytes (mkAff (c * ax P)%fq (c * ay P)%fq)) = hash_commitment (pair_bytes P).
Proof. exact raw_hash_forged. Qed.
End Hash.

Context {CL : CurveLaws B}.

(** Commitments never make the addition panic; with other bytes, all but those with x = 0 do. *)
Theorem C68_add_commitments : forall P Q, valid_point P -> valid_point Q ->
  raw_add_commitment (pair_bytes P) (pair_bytes Q) = Ok (pair_bytes (edwards_sum P Q)) /\ valid_point (edwards_sum P Q).
Proof. exact (fun P Q HP HQ => conj (raw_add P Q (valid_summable P Q HP HQ)) (valid_sum P Q HP HQ)). Qed.
Theorem C68_add_refuted : forall P, valid_point P -> ax P <> 0%fq ->
  exists Q, ~ valid_point Q /\ raw_add_commitment (pair_bytes P) (pair_bytes Q) = Panic.
Proof. exact raw_add_panics. Qed.

Section Update.
Context {A : Alg} {AL : AlgLaws A} {I : FrInt A} {SL : ScalarLaws B A I}.
Local Notation RA := (@rep_alg B BL A I).
#[local] Existing Instance rep_int.
#[local] Existing Instance rep_ecodec.
Context {P0 : Par RA} {W : Wnaf RA} {H : Hasher}.

(** An update adds to any two numbers what it adds to the commitment to nothing. *)
Theorem C68_update : forall cx P i o n,
  with_update (update_commitment cx (pair_bytes (mkAff 0 1)%fq) i o n) P (raw_update_commitment cx (pair_bytes P) i o n).
Proof. exact raw_update. Qed.
Theorem C68_update_sparse : forall cx P is_ os ns,
  with_update (update_commitment_sparse cx (pair_bytes (mkAff 0 1)%fq) is_ os ns) P (raw_update_commitment_sparse cx (pair_bytes P) is_ os ns).
Proof. exact raw_update_sparse. Qed.
(** A commitment that is not made of two numbers below the modulus: both panic, whatever the other arguments. *)
Theorem C68_update_refused : forall b : bytes, is_bytes b -> length b = 64%nat -> (forall P, b <> pair_bytes P) ->
  (forall cx i o n, raw_update_commitment cx b i o n = Panic) /\ (forall cx is_ os ns, raw_update_commitment_sparse cx b is_ os ns = Panic).
Proof. exact raw_update_refused. Qed.

(** On the bytes of commitments, the only ones that [FfiModel] reads, these functions are those of
    [FfiModel], so the other theorems about them hold of the functions here. *)
Theorem C68_readable : forall (b : bytes) g, is_bytes b -> length b = 64%nat ->
  (@eu_de RA rep_ecodec b = Some g <-> b = pair_bytes (coords g)).
Proof. exact readable_iff. Qed.
Theorem C68_on_commitments : forall (b c : bytes) g h, @eu_de RA rep_ecodec b = Some g -> @eu_de RA rep_ecodec c = Some h ->
  raw_serialize_commitment b = @serialize_commitment RA rep_ecodec b /\
  raw_add_commitment b c = @add_commitment RA rep_ecodec b c /\
  (forall cx i o n, raw_update_commitment cx b i o n = update_commitment cx b i o n) /\
  (forall cx is_ os ns, raw_update_commitment_sparse cx b is_ os ns = update_commitment_sparse cx b is_ os ns).
Proof. exact on_commitments. Qed.
Theorem C68_deserialize : forall b : bytes, raw_deserialize_commitment b = Ok (@deserialize_commitment RA rep_ecodec b).
Proof. exact agree_deserialize. Qed.
End Update.
End Raw.

Local Notation bpt := (pt bander_q bander_a bander_d bander_order).
(** On the banderwagon curve, (1, y) is a commitment and (1, y + 1) bytes with the same sign; 2 is a factor
    as in [C68_hash_refuted]. *)
Example C68_case : let P := bpt 1 base_y in
  @valid_point Bander P /\ @ax Bander P <> @qzero Bander /\
  @is_positive Bander (@ay Bander P) = @is_positive Bander (@ay Bander (bpt 1 (base_y + 1))) /\
  @ay Bander (bpt 1 (base_y + 1)) <> @ay Bander P /\
  let c := @qadd Bander (@qone Bander) (@qone Bander) in c <> @qzero Bander /\ c <> @qone Bander /\ c <> @qopp Bander (@qone Bander).
Proof. exact real_raw_case. Qed.
Example C68_small_case : @valid_point B13 (pt13 5 6) /\ ~ @on_curve B13 (pt13 5 5) /\
  @raw_serialize_commitment B13 (pair_bytes (pt13 5 5)) = @raw_serialize_commitment B13 (pair_bytes (pt13 5 6)) /\
  @summable B13 (pt13 5 6) (pt13 1 1) /\ ~ @on_curve B13 (pt13 1 1) /\
  exists y, ~ @summable B13 (pt13 5 6) (pt13 1 y) /\ @raw_add_commitment B13 (pair_bytes (pt13 5 6)) (pair_bytes (pt13 1 y)) = Panic.
Proof. exact small_raw_case. Qed.

Print Assumptions C68_refused.
Print Assumptions C68_serialize.
Print Assumptions C68_serialize_refuted.
Print Assumptions C68_add.
Print Assumptions C68_any_scale.
Print Assumptions C68_hash.
Print Assumptions C68_hash_batch.
Print Assumptions C68_hash_refuted.
Print Assumptions C68_add_commitments.
Print Assumptions C68_add_refuted.
Print Assumptions C68_update.
Print Assumptions C68_update_sparse.
Print Assumptions C68_update_refused.
Print Assumptions C68_readable.
Print Assumptions C68_on_commitments.
Print Assumptions C68_deserialize.
Print Assumptions C68_case.
Print Assumptions C68_small_case.
