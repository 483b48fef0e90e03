(** Cases for C68: a point of the banderwagon curve, and the small curve of [ElementInst]. *)
From Coq Require Import Znumtheory.
From Verif Require Import Base BaseFacts Alg AlgInst MsmModel FfiModel ElementModel ElementSpec ElementProofs ElementInst CurveModel CurveSpec CurveProofs CurveInst CurveOrder Bander
  RawModel RawSpec RawProofs.

Local Notation bpt := (pt bander_q bander_a bander_d bander_order).

(** The same x with y + 1 for y, and both coordinates doubled. *)
Lemma real_raw_case : let P := bpt 1 base_y in
  @valid_point Bander P /\ @ax Bander P <> @qzero Bander /\
  @is_positive Bander (@ay Bander P) = @is_positive Bander (@ay Bander (bpt 1 (base_y + 1))) /\
  @ay Bander (bpt 1 (base_y + 1)) <> @ay Bander P /\
  let c := @qadd Bander (@qone Bander) (@qone Bander) in c <> @qzero Bander /\ c <> @qone Bander /\ c <> @qopp Bander (@qone Bander).
Proof.
  cbv zeta. split; [exact base_valid|]. split; [intros E; apply (f_equal (zval bander_q)) in E; vm_compute in E; discriminate E|].
  split; [vm_compute; reflexivity|].
  split; [intros E; apply (f_equal (zval bander_q)) in E; vm_compute in E; discriminate E|].
  repeat split; intros E; apply (f_equal (zval bander_q)) in E; vm_compute in E; discriminate E.
Qed.
(** (5, 6) is a point, (5, 5) is not; both are serialized to the same bytes, which read back as (5, 6) or
    (8, 7); adding (1, 1) to (5, 6) gives numbers, adding other ones panics. *)
Lemma small_raw_case : @valid_point B13 (pt13 5 6) /\ ~ @on_curve B13 (pt13 5 5) /\
  @raw_serialize_commitment B13 (pair_bytes (pt13 5 5)) = @raw_serialize_commitment B13 (pair_bytes (pt13 5 6)) /\
  @summable B13 (pt13 5 6) (pt13 1 1) /\ ~ @on_curve B13 (pt13 1 1) /\
  exists y, ~ @summable B13 (pt13 5 6) (pt13 1 y) /\ @raw_add_commitment B13 (pair_bytes (pt13 5 6)) (pair_bytes (pt13 1 y)) = Panic.
Proof.
  split; [exact (conj (proj1 pt_a_ok) (proj1 (proj2 pt_a_ok)))|].
  split; [intros E; apply (f_equal (zval 13)) in E; vm_compute in E; discriminate E|].
  split; [vm_compute; reflexivity|].
  split; [split; intros E; apply (f_equal (zval 13)) in E; vm_compute in E; discriminate E|].
  split; [intros E; apply (f_equal (zval 13)) in E; vm_compute in E; discriminate E|].
  exists 8. assert (N : ~ @summable B13 (pt13 5 6) (pt13 1 8)).
  { intros [N1 N2]. first [apply N1; apply (zp_eq 13); vm_compute; reflexivity|apply N2; apply (zp_eq 13); vm_compute; reflexivity]. }
  split; [exact N|]. apply (@raw_add_panic B13 B13_laws). exact N.
Qed.
