(** Many updates on the real curve with the default generators. *)
From Verif Require Import Base BaseFacts Alg AlgInst MsmModel MsmSpec MsmProofs MsmInst MsmInt CodecModel WireModel IpaModel IpaSpec
  FfiModel FfiSpec ElementModel ElementSpec ElementProofs ElementInst CurveModel CurveSpec CurveProofs CurveAlg CurveRep RepSpec RepFfi UpdHistSpec RepHistory
  Bander CrsModel DefaultCrs RealSpec RealProofs RealInst.
Local Open Scope Z_scope.
#[local] Existing Instance bander_laws.
#[local] Existing Instance bander_curve.
#[local] Existing Instance bander_scalars.
#[local] Existing Instance BanderF_laws.
Local Notation RA := (@rep_alg Bander bander_laws BanderF BanderI).
Local Notation RI := (@rep_int Bander bander_laws BanderF BanderI).
Local Notation RE := (@rep_ecodec Bander bander_laws BanderF BanderI).
Local Notation int := (@fr_int RA RI).
Local Notation P := default_par.
Local Notation same_point := (@same_point Bander bander_laws BanderF BanderI).
#[local] Existing Instance rep_int.
#[local] Existing Instance rep_ecodec.
#[local] Existing Instance default_par.
Local Opaque default_par.

Section Ffi.
Context {W : Wnaf RA} {WL : WnafLaws W}.
Theorem default_history (cx : @Context_ RA) split (v : list (@F RA)) c rs : context_new = Ok cx -> (length v <= 256)%nat ->
  commit_to_scalars split cx (scalars_bytes v) = Ok (FOk c) -> requests_of v rs ->
  exists out c', make_requests cx c rs = Ok (FOk out) /\
    commit_to_scalars split cx (scalars_bytes (vector_after v rs)) = Ok (FOk c') /\
    same_point out c' /\
    (out = c' <-> Nat.even (length (filter (fun c => (int (ch_new c) <? int (ch_old c)) && unreadable (Z.of_nat (ch_index c))) (concat (map request_changes rs)))) = true) /\
    (exists x, @hash_commitment Bander RA RE out = Ok x /\ @hash_commitment Bander RA RE c' = Ok x) /\
    @serialize_commitment RA RE out = @serialize_commitment RA RE c'.
Proof.
  intros Hc Hv Ec Hl.
  destruct (@history_bytes Bander _ _ BanderF _ BanderI _ P W WL bander_big cx split v c rs Hc Hv Ec Hl) as (out & c' & E1 & E2 & E3 & E4 & E5).
  exists out, c'. split; [exact E1|]. split; [exact E2|]. split; [exact E3|]. split; [|exact E5]. rewrite E4.
  erewrite (filter_ext_in _ (fun c => (int (ch_new c) <? int (ch_old c)) && unreadable (Z.of_nat (ch_index c)))); [reflexivity|].
  intros e He. cbv beta. apply and_right. apply default_check. pose proof (requests_small rs v e Hl He). lia.
Qed.
End Ffi.

#[local] Existing Instance rep_wnaf.
#[local] Existing Instance rep_wnaf_laws.
Local Notation s0 := (of_Z 0 : @F RA).
Local Notation s1 := (of_Z 1 : @F RA).
(** An entry raised from 0 to 1 and lowered again, then both once more. *)
Definition up_down : list (@request RA) := [One (mkChange (A := RA) 0 s0 s1); Many [mkChange (A := RA) 0 s1 s0]].
Lemma history_cases : exists (cx : @Context_ RA) (c once twice : bytes), context_new = Ok cx /\
  commit_to_scalars Whole cx (scalars_bytes [s0]) = Ok (FOk c) /\
  requests_of [s0] up_down /\ vector_after [s0] up_down = [s0] /\
  make_requests cx c up_down = Ok (FOk once) /\ once <> c /\
  requests_of [s0] (up_down ++ up_down) /\ make_requests cx c (up_down ++ up_down) = Ok (FOk twice) /\ twice = c.
Proof.
  destruct default_context as (cx & Hc).
  assert (L : (length [s0] <= 256)%nat) by (cbn; lia).
  pose proof (@r_commit Bander _ _ BanderF _ BanderI _ P _ _ bander_big Whole cx [s0] Hc L) as E0.
  match type of E0 with _ = Ok (FOk ?c) => set (c0 := c) in E0; clearbody c0 end.
  assert (R1 : requests_of [s0] up_down).
  { split; [|split; [|exact Logic.I]]; (split; [repeat constructor; intros []|repeat constructor]). }
  assert (R2 : requests_of [s0] (up_down ++ up_down)).
  { do 4 (split; [split; [repeat constructor; intros []|repeat constructor]|]). exact Logic.I. }
  destruct (default_history cx Whole [s0] c0 up_down Hc L E0 R1) as (o1 & c1 & A1 & A2 & _ & A3 & _).
  destruct (default_history cx Whole [s0] c0 (up_down ++ up_down) Hc L E0 R2) as (o2 & c2 & B1 & B2 & _ & B3 & _).
  change (vector_after [s0] up_down) with [s0] in A2. change (vector_after [s0] (up_down ++ up_down)) with [s0] in B2.
  assert (c1 = c0) by congruence. assert (c2 = c0) by congruence. subst c1 c2.
  exists cx, c0, o1, o2. split; [exact Hc|]. split; [exact E0|]. split; [exact R1|]. split; [reflexivity|]. split; [exact A1|].
  cbn [up_down app map request_changes concat filter ch_new ch_old ch_index] in A3, B3. rewrite int_0, int_1 in A3, B3.
  change (unreadable (Z.of_nat 0)) with true in A3, B3. cbn in A3, B3.
  split; [intros E; apply A3 in E; discriminate E|]. split; [exact R2|]. split; [exact B1|]. now apply B3.
Qed.
