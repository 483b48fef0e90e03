(** What the foreign-function interface does with every input (C34). *)
From Coq Require Import String Permutation.
From Verif Require Import Base Alg AlgInst WireModel WireSpec WireInst ProofModel IpaModel IpaSpec LagrangeSpec IpaInst
  MsmModel MsmSpec MsmInst FfiModel FfiSpec FfiInst FfiTotal FfiTotalInst.
Local Open Scope list_scope.

Section WithAlgebra.
Context {A : Alg} {L : AlgLaws A} {C : ECodec A} {CL : ECodecLaws C} {P : Par A}
        {I : FrInt A} {IL : FrIntLaws I} {W : Wnaf A} {WL : WnafLaws W} {H : Hasher}.

(** C34.  Full statement: every entry point returns an error, and does not panic, on malformed input.
    What is true instead, with no input left out:

    [update_commitment_sparse] adds the changes its arguments give, also when an index is listed twice, and
    panics when the arguments give no changes; it never returns an error. *)
Theorem C34_update_sparse_exactly_partial : forall cx old is_ olds news, context_new = Ok cx ->
  (exists g l out, eu_de old = Some g /\ gives_changes is_ olds news l /\
     update_commitment_sparse cx old is_ olds news = Ok (FOk out) /\ eu_de out = Some (gadd g (total_change (crs_G trie_crs) l))) \/
  ((forall g l, eu_de old = Some g -> ~ gives_changes is_ olds news l) /\ update_commitment_sparse cx old is_ olds news = Panic).
Proof. exact sparse_total. Qed.

(** [create_proof]: an error exactly on a wrong length; on records, what the prover does with the queries they
    encode; a panic on everything else. *)
Theorem C34_create_proof_exactly_partial : forall order cx b, is_bytes b ->
  (Z.of_nat (len b) mod 8257 <> 0 /\
     ffi_create_proof order cx b = Ok (FErr_ (LengthIsNotAnExpectedMultiple "Input length for proof" 8257 (Z.of_nat (len b))))) \/
  (exists qs, Forall record_fits qs /\ b = concat (map prover_record qs) /\
     ffi_create_proof order cx b = (let! (p, _) := mp_open order (cx_crs cx) (cx_pw cx) verkle_tr qs in Ok (FOk (mp_to_bytes p)))) \/
  (Z.of_nat (len b) mod 8257 = 0 /\ (forall qs, Forall record_fits qs -> b <> concat (map prover_record qs)) /\
     ffi_create_proof order cx b = Panic).
Proof. exact create_total. Qed.
(** On records, true or false, the prover panics exactly when one of its challenges is zero. *)
Theorem C34_create_proof_records_partial : forall order cx qs, context_new = Ok cx -> domain_fits 256 ->
  (forall l, Permutation (order l) l) -> qs <> [] -> Forall record_fits qs ->
  outside_domain 256 (mp_honest_t 256 verkle_tr trie_crs qs) ->
  (ffi_create_proof order cx (concat (map prover_record qs)) = Panic <->
     ~ Forall (fun x => x <> fzero) (mp_honest_challenges 8 verkle_tr trie_crs qs)) /\
  (forall e, ffi_create_proof order cx (concat (map prover_record qs)) <> Ok (FErr_ e)).
Proof. exact create_records. Qed.

(** [verify_proof]: an error on a wrong length of the claims after a proof; the answer of the verifier on a
    proof followed by claims; a panic on everything else. *)
Theorem C34_verify_proof_exactly_partial : forall cx b, context_new = Ok cx -> domain_fits 256 -> is_bytes b ->
  (exists p r, rounds (mp_ipa p) 8 /\ b = mp_to_bytes p ++ r /\ Z.of_nat (len r) mod 65 <> 0 /\
     ffi_verify_proof cx b = Ok (FErr_ (LengthIsNotAnExpectedMultiple "Verifier queries" 65 (Z.of_nat (len r))))) \/
  (exists p cs ok, rounds (mp_ipa p) 8 /\ small_points cs /\ b = mp_to_bytes p ++ concat (map claim_record cs) /\
     mp_check p (cx_crs cx) (cx_pw cx) (map claim_query cs) verkle_tr = Ok ok /\
     ffi_verify_proof cx b = Ok (if ok : bool then FOk tt else FErr_ ProofVerificationFailed)) \/
  ((forall p r, rounds (mp_ipa p) 8 -> b = mp_to_bytes p ++ r ->
      Z.of_nat (len r) mod 65 = 0 /\ forall cs, r <> concat (map claim_record cs)) /\
   ffi_verify_proof cx b = Panic).
Proof. exact verify_total. Qed.
End WithAlgebra.

(** ** Cases *)
(** An index listed twice: both changes are added.  Arguments that give no changes. *)
Example C34_update_sparse_case : exists cx out, context_new = Ok cx /\
  gives_changes [3%nat; 3%nat] (map sc_ser (ex_scalars [9; 12]) ++ [repeat 255 32]) (map sc_ser (ex_scalars [12; 1])) ex_twice /\
  update_commitment_sparse cx (eu_ser gzero) [3%nat; 3%nat]
    (map sc_ser (ex_scalars [9; 12]) ++ [repeat 255 32]) (map sc_ser (ex_scalars [12; 1])) = Ok (FOk out) /\
  (forall l, ~ gives_changes [256%nat] (map sc_ser (ex_scalars [9])) (map sc_ser (ex_scalars [9])) l) /\
  (forall l, ~ gives_changes [2%nat] [repeat 255 32] (map sc_ser (ex_scalars [9])) l).
Proof. exact sparse_total_case. Qed.
(** Claims that are false: a proof is made all the same. *)
Example C34_false_claim_case : exists cx out, context_new = Ok cx /\ Forall record_fits ffi_false_qs /\
  outside_domain 256 (mp_honest_t 256 verkle_tr trie_crs ffi_false_qs) /\
  Forall (fun x => x <> fzero) (mp_honest_challenges 8 verkle_tr trie_crs ffi_false_qs) /\
  ~ Forall (good_query 256 (crs_G trie_crs)) ffi_false_qs /\
  ffi_create_proof (@rev _) cx (concat (map prover_record ffi_false_qs)) = Ok (FOk out).
Proof. exact ffi_false_case. Qed.

Print Assumptions C34_update_sparse_exactly_partial.
Print Assumptions C34_create_proof_exactly_partial.
Print Assumptions C34_create_proof_records_partial.
Print Assumptions C34_verify_proof_exactly_partial.
