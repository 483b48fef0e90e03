(** The bytes of commitments handed out by the foreign-function interface (C55) and a trie reopened from
    disk (C56), with elements held as the coordinates the code computes; and both with the generators of
    [CRS::default] on the real curve. *)
From Verif Require Import Base Alg TreeSpec TrieModel CodecModel VerkleDbModel DbSpec MsmModel WireModel IpaModel
  FfiModel FfiSpec ElementModel ElementSpec CurveModel CurveSpec CurveAlg CurveRep RepSpec RepFfi RepDisk
  Bander RealSpec RealProofs RealInst.

Section Rep.
Context {B : BaseField} {BL : BaseFieldLaws B} {CL : CurveLaws B} {A : Alg} {AL : AlgLaws A} {I : FrInt A} {SL : ScalarLaws B A I}.
Local Notation RA := (@rep_alg B BL A I).
Local Notation RI := (@rep_int B BL A I).
Local Notation RC := (@rep_codec B BL A I).
Local Notation RE := (@rep_ecodec B BL A I).
Local Notation order := (Z.of_nat q_order).
Local Notation int := (@fr_int RA RI).
Context {P : Par RA}.
Local Notation gen := (@crs RA P).
Local Notation same_point := (@same_point B BL A I).
#[local] Existing Instance rep_int.
#[local] Existing Instance rep_ecodec.

(** ** C55 *)
Section Ffi.
Context {W : Wnaf RA} {WL : WnafLaws W} (big : 2 ^ 240 < order).
(** An updated commitment is the commitment to the updated vector as an element, and in bytes exactly if
    the generator has prime order or the entry did not decrease. *)
Theorem C55_update : forall (cx : @Context_ RA) split v c i x w, context_new = Ok cx -> (length v <= 256)%nat ->
  commit_to_scalars split cx (scalars_bytes v) = Ok (FOk c) -> 0 <= i -> nth_error v (Z.to_nat i) = Some x ->
  exists out c', update_commitment cx c i (sc_ser x) (sc_ser w) = Ok (FOk out) /\
    commit_to_scalars split cx (scalars_bytes (replace v (Z.to_nat i) w)) = Ok (FOk c') /\
    same_point out c' /\ (out = c' <-> prime_order (coords (gen i)) \/ int x <= int w).
Proof. exact (update_bytes big). Qed.
(** Several entries at once: the number of those that decreased on a generator not of prime order is even. *)
Theorem C55_update_sparse : forall (cx : @Context_ RA) split v c l, context_new = Ok cx -> (length v <= 256)%nat ->
  commit_to_scalars split cx (scalars_bytes v) = Ok (FOk c) -> changes_of v l ->
  exists out c', update_commitment_sparse cx c (map ch_index l) (map (fun c => sc_ser (ch_old c)) l) (map (fun c => sc_ser (ch_new c)) l) = Ok (FOk out) /\
    commit_to_scalars split cx (scalars_bytes (replace_all v l)) = Ok (FOk c') /\
    same_point out c' /\
    (out = c' <-> Nat.even (length (filter (fun c => (int (ch_new c) <? int (ch_old c)) && negb (point_check (coords (gen (Z.of_nat (ch_index c)))))) l)) = true).
Proof. exact (sparse_bytes big). Qed.
(** A sum of commitments: the number of entries whose sum passes the order, on generators not of prime order, is even. *)
Theorem C55_add : forall (cx : @Context_ RA) split (a b : list (@F RA)) ca cb, context_new = Ok cx -> length a = length b -> (length a <= 256)%nat ->
  commit_to_scalars split cx (scalars_bytes a) = Ok (FOk ca) -> commit_to_scalars split cx (scalars_bytes b) = Ok (FOk cb) ->
  exists out c', @add_commitment RA RE ca cb = Ok out /\
    commit_to_scalars split cx (scalars_bytes (map (fun '(x, y) => fadd x y) (combine a b))) = Ok (FOk c') /\
    same_point out c' /\
    (out = c' <-> Nat.even (length (filter (fun e : (@F RA * @F RA) * Coord => (order <=? int (fst (fst e)) + int (snd (fst e))) && negb (point_check (coords (snd e))))
                                        (combine (combine a b) (crs_G (trie_crs (A := RA)))))) = true).
Proof. exact (add_bytes big). Qed.
(** The bytes of a commitment are accepted by the reader that checks them exactly if the number of odd
    entries on generators not of prime order is even. *)
Theorem C55_readable : forall (cx : @Context_ RA) split (v : list (@F RA)) c, context_new = Ok cx -> (length v <= 256)%nat ->
  commit_to_scalars split cx (scalars_bytes v) = Ok (FOk c) ->
  ((exists e r, deserialize_uncompressed c = Some (e, r)) <->
   Nat.even (length (filter (fun e : @F RA * Coord => Z.odd (int (fst e)) && negb (point_check (coords (snd e)))) (combine v (crs_G (trie_crs (A := RA)))))) = true).
Proof. exact (commit_readable big). Qed.
End Ffi.

(** ** C56 *)
(** A trie with one key is flushed and reopened; a second insertion on the same stem panics exactly if one
    of the three commitments written is held in coordinates not of prime order. *)
Theorem C56_reopen_partial : forall k x k2 x2, is_key k -> is_key k2 -> length x = 32%nat ->
  firstn 31 k2 = firstn 31 k -> (k2, x2) <> (k, x) ->
  (@run_disk RA P RC [OInsert k x; OFlush; OReopen; OInsert k2 x2] = Panic <->
   point_check (coords (@key_half RA P k x)) = false \/ point_check (coords (@key_stem RA P k x)) = false \/
   point_check (coords (@key_root RA P k x)) = false).
Proof. exact (fun k x k2 x2 H1 H2 H3 H4 H5 => reopen_checks k x k2 x2 H1 H2 H3 H4 H5). Qed.
(** For the first of them it depends on the lowest bits of the two halves of the value. *)
Theorem C56_reopen_panics_refuted : forall k x k2 x2, 2 ^ 129 < order -> is_key k -> is_key k2 -> length x = 32%nat -> is_bytes x ->
  firstn 31 k2 = firstn 31 k -> (k2, x2) <> (k, x) ->
  xorb (Z.odd (nth 0 x 0) && negb (point_check (coords (gen (2 * (nth 31 k 0 mod 128))))))
       (Z.odd (nth 16 x 0) && negb (point_check (coords (gen (2 * (nth 31 k 0 mod 128) + 1))))) = true ->
  @run_disk RA P RC [OInsert k x; OFlush; OReopen; OInsert k2 x2] = Panic.
Proof. exact rep_reopen_panics. Qed.
End Rep.

(** ** With the default generators *)
Section Default.
Local Notation RA := (@rep_alg Bander bander_laws BanderF BanderI).
Local Notation RI := (@rep_int Bander bander_laws BanderF BanderI).
Local Notation RC := (@rep_codec Bander bander_laws BanderF BanderI).
Local Notation RE := (@rep_ecodec Bander bander_laws BanderF BanderI).
Local Notation int := (@fr_int RA RI).
Local Notation same_point := (@same_point Bander bander_laws BanderF BanderI).
#[local] Existing Instance rep_int.
#[local] Existing Instance rep_ecodec.
#[local] Existing Instance default_par.
Section Ffi.
Context {W : Wnaf RA} {WL : WnafLaws W}.
Theorem C55_default_context : exists cx, context_new (A := RA) = Ok cx.
Proof. exact default_context. Qed.
Theorem C55_default_update : forall (cx : @Context_ RA) split (v : list (@F RA)) c i x w, context_new = Ok cx -> (length v <= 256)%nat ->
  commit_to_scalars split cx (scalars_bytes v) = Ok (FOk c) -> 0 <= i -> nth_error v (Z.to_nat i) = Some x ->
  exists out c', update_commitment cx c i (sc_ser x) (sc_ser w) = Ok (FOk out) /\
    commit_to_scalars split cx (scalars_bytes (replace v (Z.to_nat i) w)) = Ok (FOk c') /\
    same_point out c' /\ (out = c' <-> unreadable i = false \/ int x <= int w).
Proof. exact default_update. Qed.
Theorem C55_default_update_sparse : forall (cx : @Context_ RA) split (v : list (@F RA)) c l, context_new = Ok cx -> (length v <= 256)%nat ->
  commit_to_scalars split cx (scalars_bytes v) = Ok (FOk c) -> changes_of v l ->
  exists out c', update_commitment_sparse cx c (map ch_index l) (map (fun c => sc_ser (ch_old c)) l) (map (fun c => sc_ser (ch_new c)) l) = Ok (FOk out) /\
    commit_to_scalars split cx (scalars_bytes (replace_all v l)) = Ok (FOk c') /\
    same_point out c' /\
    (out = c' <-> Nat.even (length (filter (fun c => (int (ch_new c) <? int (ch_old c)) && unreadable (Z.of_nat (ch_index c))) l)) = true).
Proof. exact default_sparse. Qed.
Theorem C55_default_add : forall (cx : @Context_ RA) split (a b : list (@F RA)) ca cb, context_new = Ok cx -> length a = length b -> (length a <= 256)%nat ->
  commit_to_scalars split cx (scalars_bytes a) = Ok (FOk ca) -> commit_to_scalars split cx (scalars_bytes b) = Ok (FOk cb) ->
  exists out c', @add_commitment RA RE ca cb = Ok out /\
    commit_to_scalars split cx (scalars_bytes (map (fun '(x, y) => fadd x y) (combine a b))) = Ok (FOk c') /\
    same_point out c' /\
    (out = c' <-> Nat.even (length (filter (fun i => (bander_r <=? int (nth i a fzero) + int (nth i b fzero)) && unreadable (Z.of_nat i)) (seq 0 (length a)))) = true).
Proof. exact default_add. Qed.
Theorem C55_default_readable : forall (cx : @Context_ RA) split (v : list (@F RA)) c, context_new = Ok cx -> (length v <= 256)%nat ->
  commit_to_scalars split cx (scalars_bytes v) = Ok (FOk c) ->
  ((exists e r, @deserialize_uncompressed Bander c = Some (e, r)) <->
   Nat.even (length (filter (fun i => Z.odd (int (nth i v fzero)) && unreadable (Z.of_nat i)) (seq 0 (length v)))) = true).
Proof. exact default_commit_readable. Qed.
End Ffi.

Theorem C56_default_reopen_partial : forall k x k2 x2, is_key k -> is_key k2 -> length x = 32%nat -> is_bytes x ->
  firstn 31 k2 = firstn 31 k -> (k2, x2) <> (k, x) ->
  (@run_disk RA default_par RC [OInsert k x; OFlush; OReopen; OInsert k2 x2] = Panic <->
   xorb (Z.odd (nth 0 x 0) && unreadable (2 * (nth 31 k 0 mod 128))) (Z.odd (nth 16 x 0) && unreadable (2 * (nth 31 k 0 mod 128) + 1)) = true \/
   Z.odd (int (@hash RA default_par (@key_half RA default_par k x))) = false \/
   Z.odd (int (@hash RA default_par (@key_stem RA default_par k x))) = true /\ unreadable (nth 0 k 0) = true).
Proof. exact default_reopen. Qed.

(** Cases. *)
Local Notation s0 := (of_Z 0 : @F RA).
Local Notation s1 := (of_Z 1 : @F RA).
#[local] Existing Instance rep_wnaf.
Example C55_case : exists (cx : @Context_ RA) (c0 c1 down up : bytes), context_new = Ok cx /\
  commit_to_scalars Whole cx (scalars_bytes [s0]) = Ok (FOk c0) /\
  commit_to_scalars Whole cx (scalars_bytes [s1]) = Ok (FOk c1) /\
  update_commitment cx c1 0 (sc_ser s1) (sc_ser s0) = Ok (FOk down) /\ down <> c0 /\
  update_commitment cx c0 0 (sc_ser s0) (sc_ser s1) = Ok (FOk up) /\ up = c1 /\
  ~ (exists e r, @deserialize_uncompressed Bander c1 = Some (e, r)).
Proof. exact update_cases. Qed.
Example C56_case : forall x2,
  @run_disk RA default_par RC [OInsert key_1 value_1; OFlush; OReopen; OInsert key_2 x2] = Panic /\
  @run_disk RA default_par RC [OInsert key_1 value_0; OFlush; OReopen; OInsert key_2 x2] <> Panic.
Proof. exact reopen_cases. Qed.
End Default.

Print Assumptions C55_update.
Print Assumptions C55_update_sparse.
Print Assumptions C55_add.
Print Assumptions C55_readable.
Print Assumptions C55_default_context.
Print Assumptions C55_default_update.
Print Assumptions C55_default_update_sparse.
Print Assumptions C55_default_add.
Print Assumptions C55_default_readable.
Print Assumptions C56_reopen_partial.
Print Assumptions C56_reopen_panics_refuted.
Print Assumptions C56_default_reopen_partial.
Print Assumptions C55_case.
Print Assumptions C56_case.
