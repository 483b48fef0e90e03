(** The test vectors of transcript.rs (80-124), with SHA-256 itself in place of an arbitrary hash. *)
From Coq Require Import String.
From Verif Require Import Base Alg WireModel IpaModel TranscriptSpec Bander RealSpec Sha256.
Local Open Scope list_scope.
#[local] Existing Instance real_ecodec.
#[local] Instance sha2 : Hasher := sha2_256.

Definition drawn (ops : list (@TOp real_alg)) : list Z :=
  map (fun x : @F real_alg => @real_int x) (fst (run_ops (tr_new (lbl "simple_protocol")) ops)).
Definition scalar (z : Z) : @F real_alg := @of_Z real_alg z.

(** transcript.rs:80-89 [test_vector_1]. *)
Example transcript_1 : drawn [TChallenge (lbl "simple_challenge")] =
  [le_Z (rev (Z_le 32 0xc2aa02607cbdf5595f00ee0dd94a2bbff0bed6a2bf8452ada9011eadb538d003))].
Proof. vm_compute. reflexivity. Qed.
(** transcript.rs:91-104 [test_vector_2]. *)
Example transcript_2 : drawn [TScalar (lbl "five") (scalar 5); TScalar (lbl "five again") (scalar 5); TChallenge (lbl "simple_challenge")] =
  [le_Z (rev (Z_le 32 0x498732b694a8ae1622d4a9347535be589e4aee6999ffc0181d13fe9e4d037b0b))].
Proof. vm_compute. reflexivity. Qed.
(** transcript.rs:106-123 [test_vector_3]. *)
Example transcript_3 : drawn [TScalar (lbl "-1") (scalar (-1)); TSep (lbl "separate me"); TScalar (lbl "-1 again") (scalar (-1));
    TSep (lbl "separate me again"); TScalar (lbl "now 1") (scalar 1); TChallenge (lbl "simple_challenge")] =
  [le_Z (rev (Z_le 32 0x14f59938e9e9b1389e74311a464f45d3d88d8ac96adf1c1129ac466de088d618))].
Proof. vm_compute. reflexivity. Qed.
