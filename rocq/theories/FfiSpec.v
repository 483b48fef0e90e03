(** Byte formats of the foreign-function interface, independent of its parsers. *)
From Coq Require Import String.
From Verif Require Import Base Alg WireModel ProofModel IpaModel MsmSpec.
Local Open Scope list_scope.
Notation len := List.length.

Section FfiSpec.
Context {A : Alg} {C : ECodec A}.

(** Scalars, 32 bytes each. *)
Definition scalars_bytes (v : list F) : bytes := concat (map sc_ser v).

(** One opening for the prover: commitment, 256 evaluations, point, value. *)
Definition prover_record (q : ProverQuery) : bytes :=
  el_ser (pq_comm q) ++ scalars_bytes (pq_poly q) ++ [pq_point q] ++ sc_ser (pq_result q).
Definition prover_record_uncompressed (q : ProverQuery) : bytes :=
  eu_ser (pq_comm q) ++ scalars_bytes (pq_poly q) ++ [pq_point q] ++ sc_ser (pq_result q).
Definition record_fits (q : ProverQuery) : Prop := len (pq_poly q) = 256%nat /\ 0 <= pq_point q < 256.

(** One opening for the verifier: commitment, point, value. *)
Definition verifier_record (c : G) (z : Z) (y : F) : bytes := el_ser c ++ [z] ++ sc_ser y.
Definition verifier_record_uncompressed (c : G) (z : Z) (y : F) : bytes := eu_ser c ++ [z] ++ sc_ser y.

(** One change of a sparse update: the entry [i] changes from [old] to [new]. *)
Record change := mkChange { ch_index : nat; ch_old : F; ch_new : F }.
Definition change_record (c : change) : bytes := sc_ser (ch_old c) ++ sc_ser (ch_new c) ++ [Z.of_nat (ch_index c)].

(** [v] with entry [i] set to [x]. *)
Definition replace (v : list F) (i : nat) (x : F) : list F := firstn i v ++ [x] ++ skipn (S i) v.
Definition replace_all (v : list F) (l : list change) : list F :=
  fold_left (fun v c => replace v (ch_index c) (ch_new c)) l v.
(** The changes start from the entries of [v], each entry changing at most once. *)
Definition changes_of (v : list F) (l : list change) : Prop :=
  NoDup (map ch_index l) /\ Forall (fun c => nth_error v (ch_index c) = Some (ch_old c)) l.
(** Uninterpreted bytes in the same layout. *)
Definition raw_record (i : nat) (o n : bytes) : bytes := o ++ n ++ [Z.of_nat i].

(** Two 64-byte strings that stand for one commitment.  The bytes themselves can differ: which of the
    two coordinate pairs of an element is written depends on how it was computed (C55). *)
Definition same_commitment (a b : bytes) : Prop := exists g, eu_de a = Some g /\ eu_de b = Some g.

(** What a verifier is asked about: commitment, point, value. *)
Definition claim := (G * Z * F)%type.
Definition claim_record (c : claim) : bytes := verifier_record (fst (fst c)) (snd (fst c)) (snd c).
Definition claim_query (c : claim) : VerifierQuery := mkVQ (fst (fst c)) (of_Z (snd (fst c))) (snd c).
Definition claim_of (q : ProverQuery) : claim := (pq_comm q, pq_point q, pq_result q).

(** The transcript of the interface. *)
Definition verkle_tr : Transcript := tr_new (lbl "verkle").
End FfiSpec.
