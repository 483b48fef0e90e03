(** C33 and C55 over any number of updates: a client that keeps a vector and its commitment. *)
From Verif Require Import Base Alg AlgInst MsmModel MsmSpec MsmInst CodecModel WireModel WireSpec WireInst IpaModel IpaSpec IpaInst FfiModel FfiSpec FfiInst
  ElementModel ElementSpec CurveModel CurveSpec CurveAlg CurveRep RepSpec UpdHistSpec UpdHistProofs RepHistory Bander RealSpec RealInst RealHistory.

(** The commitment kept over any requests is the commitment to the vector they lead to. *)
Theorem C33_update_history : forall {A : Alg} {L : AlgLaws A} {C : ECodec A} {CL : ECodecLaws C} {P : Par A}
    {I : FrInt A} {IL : FrIntLaws I} {W : Wnaf A} {WL : WnafLaws W} cx, context_new = Ok cx -> forall rs split v c old,
  commit_to_scalars split cx (scalars_bytes v) = Ok (FOk c) -> same_commitment old c -> requests_of v rs ->
  exists out c', make_requests cx old rs = Ok (FOk out) /\
    commit_to_scalars split cx (scalars_bytes (vector_after v rs)) = Ok (FOk c') /\ same_commitment out c'.
Proof. exact @history_same. Qed.

(** On coordinates: the bytes kept are those of a new commitment exactly if the number of entries that
    were ever lowered on a generator not of prime order is even.  Hash and compressed form agree always. *)
Section Rep.
Context {B : BaseField} {BL : BaseFieldLaws B} {CL : CurveLaws B} {A : Alg} {AL : AlgLaws A} {I : FrInt A} {SL : ScalarLaws B A I}.
Local Notation RA := (@rep_alg B BL A I).
Local Notation RI := (@rep_int B BL A I).
Local Notation RE := (@rep_ecodec B BL A I).
Local Notation int := (@fr_int RA RI).
Local Notation same_point := (@same_point B BL A I).
#[local] Existing Instance rep_int.
#[local] Existing Instance rep_ecodec.
Context {P : Par RA} {W : Wnaf RA} {WL : WnafLaws W} (big : 2 ^ 240 < Z.of_nat q_order).
Local Notation gen := (@crs RA P).
Theorem C55_update_history : forall (cx : @Context_ RA) split v c rs, context_new = Ok cx -> (length v <= 256)%nat ->
  commit_to_scalars split cx (scalars_bytes v) = Ok (FOk c) -> requests_of v rs ->
  exists out c', make_requests cx c rs = Ok (FOk out) /\
    commit_to_scalars split cx (scalars_bytes (vector_after v rs)) = Ok (FOk c') /\
    same_point out c' /\
    (out = c' <-> Nat.even (length (filter (fun c => (int (ch_new c) <? int (ch_old c)) && negb (point_check (coords (gen (Z.of_nat (ch_index c))))))
                                        (concat (map request_changes rs)))) = true) /\
    (exists x, @hash_commitment B RA RE out = Ok x /\ @hash_commitment B RA RE c' = Ok x) /\
    @serialize_commitment RA RE out = @serialize_commitment RA RE c'.
Proof. exact (history_bytes big). Qed.
End Rep.

(** With the default generators. *)
Section Default.
Local Notation RA := (@rep_alg Bander bander_laws BanderF BanderI).
Local Notation RI := (@rep_int Bander bander_laws BanderF BanderI).
Local Notation RE := (@rep_ecodec Bander bander_laws BanderF BanderI).
Local Notation int := (@fr_int RA RI).
Local Notation same_point := (@same_point Bander bander_laws BanderF BanderI).
#[local] Existing Instance rep_int.
#[local] Existing Instance rep_ecodec.
#[local] Existing Instance default_par.
Theorem C55_default_update_history : forall {W : Wnaf RA} {WL : WnafLaws W} (cx : @Context_ RA) split (v : list (@F RA)) c rs,
  context_new = Ok cx -> (length v <= 256)%nat ->
  commit_to_scalars split cx (scalars_bytes v) = Ok (FOk c) -> requests_of v rs ->
  exists out c', make_requests cx c rs = Ok (FOk out) /\
    commit_to_scalars split cx (scalars_bytes (vector_after v rs)) = Ok (FOk c') /\
    same_point out c' /\
    (out = c' <-> Nat.even (length (filter (fun c => (int (ch_new c) <? int (ch_old c)) && unreadable (Z.of_nat (ch_index c))) (concat (map request_changes rs)))) = true) /\
    (exists x, @hash_commitment Bander RA RE out = Ok x /\ @hash_commitment Bander RA RE c' = Ok x) /\
    @serialize_commitment RA RE out = @serialize_commitment RA RE c'.
Proof. exact @default_history. Qed.
(** An entry raised from 0 to 1 and lowered again leaves other bytes; done twice, the first ones. *)
#[local] Existing Instance rep_wnaf.
Example C55_history_case : exists (cx : @Context_ RA) (c once twice : bytes), context_new = Ok cx /\
  commit_to_scalars Whole cx (scalars_bytes [of_Z 0 : @F RA]) = Ok (FOk c) /\
  requests_of [of_Z 0 : @F RA] up_down /\ vector_after [of_Z 0 : @F RA] up_down = [of_Z 0 : @F RA] /\
  make_requests cx c up_down = Ok (FOk once) /\ once <> c /\
  requests_of [of_Z 0 : @F RA] (up_down ++ up_down) /\ make_requests cx c (up_down ++ up_down) = Ok (FOk twice) /\ twice = c.
Proof. exact history_cases. Qed.
End Default.

Print Assumptions C33_update_history.
Print Assumptions C55_update_history.
Print Assumptions C55_default_update_history.
Print Assumptions C55_history_case.
