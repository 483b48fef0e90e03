(** The functions of the C binding that read points without a check (bindings/c/src/lib.rs:146-200
    [create_proof_uncompressed], 256-309 [verify_proof_uncompressed]) on any bytes: the functions of
    [WireModel], [IpaModel], [FfiModel] and [BindModel], unchanged, over elements as the code holds them, any
    four numbers x, y, t, z.  [BindModel] uses them for bytes that are coordinates of group elements. *)
From Verif Require Import Base Alg MsmModel CodecModel WireModel ProofModel IpaModel FfiModel BindModel ElementModel CurveModel CurveAlg CurveRep.
Local Open Scope list_scope.

Section RawAlg.
Context {B : BaseField} {BL : BaseFieldLaws B} {A : Alg} {I : FrInt A}.

(** trait_impls/ops.rs and element.rs:  the operations of [CurveModel] and [ElementModel]. *)
Definition raw_alg : Alg := {|
  F := F; fzero := fzero; fone := fone; fadd := fadd; fmul := fmul; fsub := fsub; fopp := fopp; fdiv := fdiv; finv := finv;
  feqb := feqb; of_Z := of_Z;
  G := Element; gzero := element_zero; gadd := element_add; gopp := element_neg; smul := fun s e => element_mul e s; geqb := element_eqb |}.

(** element.rs:82-88 [to_bytes], [from_bytes], [to_bytes_uncompressed], [from_bytes_unchecked_uncompressed].
    Simplification: writing an element with z = 0 panics in the code and gives no bytes here. *)
Definition raw_ecodec : ECodec raw_alg := @mkECodec raw_alg
  (fun e => unbytes (to_bytes e))
  (fun b => match from_bytes b with Ok o => o | Panic => None end)
  (fun e => unbytes (to_bytes_uncompressed e))
  (fun b => match from_bytes_unchecked_uncompressed b with Ok e => Some e | Panic => None end)
  (@scalar_ser A I) (@scalar_de B A).

Context {HS : Hasher}.
(** c/src/lib.rs:256-309, on any input. *)
Definition raw_verify_proof_uncompressed (cx : @Context_ raw_alg) (input : bytes) : res bool :=
  @c_verify_proof_uncompressed raw_alg raw_ecodec HS cx input.
(** c/src/lib.rs:146-200, on any input. *)
Definition raw_create_proof_uncompressed (order : list (@Group raw_alg) -> list (@Group raw_alg)) (cx : @Context_ raw_alg) (input : bytes) : res bytes :=
  @c_create_proof_uncompressed raw_alg raw_ecodec HS order cx input.
End RawAlg.
