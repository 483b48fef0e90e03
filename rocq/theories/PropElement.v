(** Group elements by coordinates: encodings (C40), the map to the field (C41), batch hashing (C35)
    and the generation of the reference string (C47). *)
From Coq Require Import Field.
From Verif Require Import Base BaseFacts Alg AlgInst WireModel WireInst ProofModel IpaModel IpaInst ElementModel ElementSpec ElementProofs ElementInst.

Section Element.
Context {B : BaseField} {BL : BaseFieldLaws B}.

(** ** C40 *)
(** Equality holds exactly for (x, y) and (-x, -y), whatever the scaling. *)
Theorem C40_equality : forall e1 e2 P1 P2, holds e1 P1 -> holds e2 P2 -> on_curve P1 -> on_curve P2 ->
  (element_eqb e1 e2 = true <-> same_element P1 P2).
Proof. exact eqb_theorem. Qed.

(** Equal elements are those with equal encodings. *)
Theorem C40_equal_iff_encodings_equal : forall e1 e2, curve_element e1 -> curve_element e2 ->
  exists b1 b2, to_bytes e1 = Ok b1 /\ to_bytes e2 = Ok b2 /\ length b1 = 32%nat /\ length b2 = 32%nat /\
    (element_eqb e1 e2 = true <-> b1 = b2).
Proof. exact eq_iff_bytes. Qed.

Theorem C40_round_trip : forall e, group_element e ->
  exists b e', to_bytes e = Ok b /\ from_bytes b = Ok (Some e') /\ element_eqb e' e = true /\ group_element e'.
Proof. exact from_bytes_to_bytes. Qed.

(** Of the 32-byte strings, only encodings are accepted. *)
Theorem C40_canonical : forall b e, is_bytes b -> length b = 32%nat -> from_bytes b = Ok (Some e) ->
  group_element e /\ to_bytes e = Ok b.
Proof. exact from_bytes_canonical. Qed.

(** Whatever the bytes, decoding returns, and returns a group element or nothing. *)
Theorem C40_decoding_total : forall b, exists o, from_bytes b = Ok o.
Proof. exact from_bytes_total. Qed.
Theorem C40_decoded_elements_valid : forall b e, from_bytes b = Ok (Some e) -> group_element e.
Proof. exact from_bytes_valid. Qed.
Theorem C40_outside_subgroup_rejected : forall e P, holds e P -> on_curve P -> ~ in_subgroup P ->
  exists b, to_bytes e = Ok b /\ from_bytes b = Ok None.
Proof. exact from_bytes_outside. Qed.
Theorem C40_short_rejected : forall b, (length b < 32)%nat -> from_bytes b = Ok None.
Proof. exact from_bytes_short. Qed.

(** Longer strings are accepted too: all but the last 32 bytes are ignored. *)
Theorem C40_longer_accepted_refuted : forall pad b, length b = 32%nat -> from_bytes (pad ++ b) = from_bytes b.
Proof. exact from_bytes_long. Qed.

(** The uncompressed encoding keeps the representative. *)
Theorem C40_uncompressed_round_trip : forall e P, holds e P ->
  exists b e', to_bytes_uncompressed e = Ok b /\ length b = 64%nat /\
    from_bytes_unchecked_uncompressed b = Ok e' /\ holds e' P.
Proof. exact uncompressed_rt. Qed.
Theorem C40_uncompressed_injective : forall e1 e2 P1 P2 b, holds e1 P1 -> holds e2 P2 ->
  to_bytes_uncompressed e1 = Ok b -> to_bytes_uncompressed e2 = Ok b -> P1 = P2.
Proof. exact uncompressed_inj. Qed.
(** So equal elements can have different uncompressed encodings. *)
Theorem C40_uncompressed_not_canonical : forall e1 e2 P, holds e1 P -> holds e2 (negated P) -> on_curve P ->
  element_eqb e1 e2 = true /\ to_bytes_uncompressed e1 <> to_bytes_uncompressed e2.
Proof. exact uncompressed_differ. Qed.

(** Reading from a stream takes exactly the bytes that writing produced. *)
Theorem C40_stream_round_trip : forall e rest, group_element e ->
  exists b e', serialize_compressed e = Ok b /\ length b = 32%nat /\
    deserialize_compressed (b ++ rest) = Ok (Some (e', rest)) /\ element_eqb e' e = true.
Proof. exact deserialize_compressed_ok. Qed.
Theorem C40_stream_canonical : forall b e rest, is_bytes b -> deserialize_compressed b = Ok (Some (e, rest)) ->
  exists b', b = b' ++ rest /\ length b' = 32%nat /\ group_element e /\ serialize_compressed e = Ok b'.
Proof. exact deserialize_compressed_inv. Qed.
(** Uncompressed, reading succeeds exactly for representatives of prime order. *)
Theorem C40_stream_uncompressed : forall e P rest, holds e P ->
  exists b, serialize_uncompressed e = Ok b /\ length b = 64%nat /\
    ((on_curve P /\ prime_order P -> deserialize_uncompressed (b ++ rest) = Some (of_affine P, rest)) /\
     (~ (on_curve P /\ prime_order P) -> deserialize_uncompressed (b ++ rest) = None)).
Proof. exact deserialize_uncompressed_ok. Qed.
(** Decoding the compressed form can give the other representative, which cannot be read back
    after writing it uncompressed. *)
Theorem C40_stream_uncompressed_refuted : forall e P, holds e P -> on_curve P -> in_subgroup P -> prime_order P ->
  is_positive (ay P) = false ->
  exists b e' u, to_bytes e = Ok b /\ from_bytes b = Ok (Some e') /\ element_eqb e' e = true /\
    serialize_uncompressed e' = Ok u /\ deserialize_uncompressed u = None.
Proof. exact uncompressed_unreadable. Qed.

(** ** C41 *)
(** x/y exists, and is the same exactly for equal elements. *)
Theorem C41_field_map : forall e1 e2, curve_element e1 -> curve_element e2 ->
  exists v1 v2, map_to_field e1 = Ok v1 /\ map_to_field e2 = Ok v2 /\ (v1 = v2 <-> element_eqb e1 e2 = true).
Proof. exact map_iff. Qed.
Theorem C41_field_value : forall e P, holds e P -> on_curve P -> map_to_field e = Ok (ax P / ay P)%fq.
Proof. exact map_ok. Qed.
Theorem C41_zero : forall e, curve_element e -> (element_is_zero e = true <-> map_to_field e = Ok qzero).
Proof. exact is_zero_iff. Qed.
(** Addition of representatives gives a representative of one and the same element. *)
Theorem C41_sum_of_representatives : forall P P' Q Q', same_element P P' -> same_element Q Q' ->
  same_element (edwards_sum P Q) (edwards_sum P' Q').
Proof. exact sum_respects. Qed.

Theorem C41_scalar_map : forall (A : Alg) e1 e2, curve_element e1 -> curve_element e2 -> element_eqb e1 e2 = true ->
  exists s, map_to_scalar_field e1 = Ok s /\ map_to_scalar_field e2 = Ok s.
Proof. exact (@scalar_same B BL). Qed.
Theorem C41_scalar_value : forall (A : Alg) e P, holds e P -> on_curve P ->
  map_to_scalar_field e = Ok (of_Z (q_int (ax P / ay P)%fq)).
Proof. exact (@scalar_ok B BL). Qed.
Theorem C41_scalar_zero : forall (A : Alg) e, curve_element e -> element_is_zero e = true ->
  map_to_scalar_field e = Ok (of_Z 0).
Proof. exact (@scalar_zero B BL). Qed.

(** ** C35 *)
Theorem C35_batch : forall (A : Alg) es, Forall curve_element es ->
  rmap map_to_scalar_field es = Ok (batch_map_to_scalar_field es).
Proof. exact (@batch_ok B BL). Qed.
(** Off the curve too, as long as hashing one by one returns. *)
Theorem C35_batch_any : forall (A : Alg) es ss, rmap map_to_scalar_field es = Ok ss -> batch_map_to_scalar_field es = ss.
Proof. exact (@batch_one_by_one B BL). Qed.
Theorem C35_commitments : forall (A : Alg) (C : ECodec A) es bs, Forall curve_element es ->
  rmap to_bytes_uncompressed es = Ok bs ->
  exists hs, rmap hash_commitment bs = Ok hs /\ hash_commitments bs = Ok hs /\ length hs = length es.
Proof. exact (@hashes_ok B BL). Qed.
Theorem C35_commitments_any : forall (A : Alg) (C : ECodec A) cs hs, rmap hash_commitment cs = Ok hs -> hash_commitments cs = Ok hs.
Proof. exact (@hash_batch B BL). Qed.
(** The hash of a commitment does not depend on which representative's bytes are given. *)
Theorem C35_hash_representative : forall (A : Alg) (C : ECodec A) e1 e2 b1 b2, curve_element e1 -> curve_element e2 ->
  element_eqb e1 e2 = true -> to_bytes_uncompressed e1 = Ok b1 -> to_bytes_uncompressed e2 = Ok b2 ->
  exists h, hash_commitment b1 = Ok h /\ hash_commitment b2 = Ok h.
Proof. exact (@hash_representative B BL). Qed.
(** With y = 0, which no point of the curve has, the two differ. *)
Theorem C35_off_curve : forall (A : Alg) e, ey e = qzero ->
  map_to_scalar_field e = Panic /\ batch_map_to_scalar_field [e] = [of_Z 0].
Proof. exact (@batch_degenerate B BL). Qed.

(** ** C47 *)
(** A hash gives an element when, read as a big-endian number and reduced, it is the x coordinate of a
    point of the subgroup; of the two such points the one with the larger y is taken. *)
Theorem C47_element_of_hash : forall b e, try_reduce_to_element b = Ok (Some e) <->
  exists P, e = of_affine P /\ ax P = q_of (be_Z b) /\ q_int (qopp (ay P)) < q_int (ay P) /\ on_curve P /\ in_subgroup P.
Proof. exact reduce_iff. Qed.
Theorem C47_reference_string : forall (H : Hasher) fuel n seed Gs, crs_new fuel n seed = Ok (Some Gs) ->
  length Gs = n /\ Forall group_element Gs /\ all_different Gs /\ exists k, Gs = candidates seed 0 k.
Proof. exact (@crs_result B BL). Qed.
Theorem C47_prefix : forall (H : Hasher) fuel fuel' n m seed Gs Gs', crs_new fuel n seed = Ok (Some Gs) ->
  crs_new fuel' m seed = Ok (Some Gs') -> (m <= n)%nat -> Gs' = firstn m Gs.
Proof. exact (@crs_prefix B BL). Qed.
Theorem C47_stops_only_on_duplicates : forall (H : Hasher) fuel n seed, let found := candidates seed 0 fuel in
  (n <= length found)%nat ->
  (all_different (firstn n found) -> crs_new fuel n seed = Ok (Some (firstn n found))) /\
  (~ all_different (firstn n found) -> crs_new fuel n seed = Panic).
Proof. exact (@crs_stops B BL). Qed.
End Element.

(** The hypotheses can be met: a curve over 13 elements, with both representatives of an element,
    another element, a point outside the subgroup, and an element of prime order whose other
    representative cannot be read back. *)
Example C40_case : BaseFieldLaws B13 /\
  @group_element B13 el_a /\ @group_element B13 el_b /\ @group_element B13 el_c /\
  @element_eqb B13 el_a el_b = true /\ @element_eqb B13 el_a el_c = false /\
  @to_bytes B13 el_a = @to_bytes B13 el_b /\ @to_bytes B13 el_a <> @to_bytes B13 el_c /\
  @to_bytes_uncompressed B13 el_a <> @to_bytes_uncompressed B13 el_b /\
  @to_bytes B13 el_a = Ok (repeat 0 31 ++ [8]) /\
  exists e, @from_bytes B13 (repeat 0 31 ++ [8]) = Ok (Some e) /\ @element_eqb B13 e el_a = true.
Proof. exact (conj B13_laws el_case). Qed.
Example C40_outside_case : exists e P b, @holds B13 e P /\ @on_curve B13 P /\ ~ @in_subgroup B13 P /\
  @to_bytes B13 e = Ok b /\ @from_bytes B13 b = Ok None.
Proof. exact el_outside_case. Qed.
Example C40_longer_case : exists b e, length b = 33%nat /\ is_bytes b /\ @from_bytes B13 b = Ok (Some e) /\ @to_bytes B13 e <> Ok b.
Proof. exact long_case. Qed.
Example C40_unreadable_case : exists e P b e' u, @holds B13 e P /\ @on_curve B13 P /\ @in_subgroup B13 P /\ @prime_order B13 P /\
  @to_bytes B13 e = Ok b /\ @from_bytes B13 b = Ok (Some e') /\ @element_eqb B13 e' e = true /\
  @serialize_uncompressed B13 e' = Ok u /\ @deserialize_uncompressed B13 u = None.
Proof. exact unreadable_case. Qed.
Example C35_case : Forall (@curve_element B13) [el_a; element_zero; el_c; el_b; el_a] /\
  map (zval p31) (@batch_map_to_scalar_field B13 ExA [el_a; element_zero; el_c; el_b; el_a]) = [3; 0; 6; 3; 3].
Proof. exact hash_case. Qed.
Example C47_case : exists Gs Gs', @crs_new B13 ExH 20 3 [1] = Ok (Some Gs) /\ @crs_new B13 ExH 10 2 [1] = Ok (Some Gs') /\
  Gs' = firstn 2 Gs /\ length Gs = 3%nat.
Proof. exact crs_case. Qed.
Example C47_duplicate_case : @crs_new B13 ExH 40 6 [1] = Panic.
Proof. exact crs_panic_case. Qed.

Print Assumptions C40_equality.
Print Assumptions C40_equal_iff_encodings_equal.
Print Assumptions C40_round_trip.
Print Assumptions C40_canonical.
Print Assumptions C40_decoding_total.
Print Assumptions C40_decoded_elements_valid.
Print Assumptions C40_outside_subgroup_rejected.
Print Assumptions C40_short_rejected.
Print Assumptions C40_longer_accepted_refuted.
Print Assumptions C40_uncompressed_round_trip.
Print Assumptions C40_uncompressed_injective.
Print Assumptions C40_uncompressed_not_canonical.
Print Assumptions C40_stream_round_trip.
Print Assumptions C40_stream_canonical.
Print Assumptions C40_stream_uncompressed.
Print Assumptions C40_stream_uncompressed_refuted.
Print Assumptions C41_field_map.
Print Assumptions C41_field_value.
Print Assumptions C41_zero.
Print Assumptions C41_sum_of_representatives.
Print Assumptions C41_scalar_map.
Print Assumptions C41_scalar_value.
Print Assumptions C41_scalar_zero.
Print Assumptions C35_batch.
Print Assumptions C35_batch_any.
Print Assumptions C35_commitments.
Print Assumptions C35_commitments_any.
Print Assumptions C35_hash_representative.
Print Assumptions C35_off_curve.
Print Assumptions C47_reference_string.
Print Assumptions C47_prefix.
Print Assumptions C47_stops_only_on_duplicates.
Print Assumptions C47_element_of_hash.
