(** Chains of blocks on coordinates. *)
From Coq Require Import Permutation.
From Verif Require Import Base Alg TreeSpec TrieModel MsmModel WireModel ProofModel IpaModel StatelessModel StatelessSpec ElementModel CurveModel CurveSpec CurveAlg CurveRep CoordSpec ChainSpec.
Local Open Scope list_scope.

Section CoordChainSpec.
Context {B : BaseField} {BL : BaseFieldLaws B} {A : Alg} {I : FrInt A}.
Local Notation RA := (@rep_alg B BL A I).
Local Notation CA := (@curve_alg B BL A I).
Local Notation RE := (@rep_ecodec B BL A I).

(** A proof, and a block, on the elements that its coordinates stand for. *)
Definition elem_proof (p : @VerkleProof RA) : @VerkleProof CA :=
  @mkVP CA (vp_hint p) (map elem (vp_comms p))
    (@mkMP CA (@mkIPA CA (map elem (ipa_L (mp_ipa (vp_proof p)))) (map elem (ipa_R (mp_ipa (vp_proof p)))) (ipa_a (mp_ipa (vp_proof p)))) (elem (mp_g (vp_proof p)))).
Definition elem_block (b : @block RA) : @block CA := @mkBlock CA (elem_proof (bl_proof b)) (bl_keys b) (bl_values b) (bl_updated b).

Context {RP : Par RA} {HS : Hasher}.
(** A block from a full node that computes with coordinates and holds the trie of the history [h]: the true values
    and a proof that is equal to the one the prover makes, which the check accepts. *)
Definition sent_block (h : history) (b : @block RA) : Prop :=
  bl_values b = map (final_map h) (bl_keys b) /\
  exists (db : @MemoryDb RA) root order p uh, @run_mem RA RP h = Ok db /\ @root_commitment RA _ _ db = Ok root /\
    (forall l, Permutation (order l) l) /\
    @create_verkle_proof RA RE HS RP MemoryDb _ order db (bl_keys b) = Ok (Some p) /\ same_proof p (bl_proof b) /\
    @proof_check RA RE HS RP (bl_proof b) (bl_keys b) (bl_values b) root = Ok (true, Some uh).
End CoordChainSpec.
