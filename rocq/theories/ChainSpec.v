(** A client that knows only the root and follows a chain of blocks by stateless updates. *)
From Coq Require Import Permutation.
From Verif Require Import Base Alg TreeSpec TrieModel TrieProofs WireModel ProofModel ProofSpec IpaModel StatelessModel StatelessSpec SoundSpec TruthSpec.
Local Open Scope list_scope.
Notation len := List.length.

Section ChainSpec.
Context {A : Alg} {P : Par A} {C : ECodec A} {H : Hasher}.

(** What the client is sent for a block: the keys it touches, the values they are said to have before it, a
    proof, and the values after it. *)
Record block := mkBlock { bl_proof : VerkleProof; bl_keys : list bytes; bl_values : list (option bytes); bl_updated : list (option bytes) }.
Definition block_writes (b : block) : history := writes (bl_keys b) (bl_updated b).

(** The client: one [verify_and_update] per block, starting from the root the last one returned. *)
Fixpoint follow (hash_order : list bytes -> list bytes) (root : G) (bs : list block) : res vresult :=
  match bs with
  | [] => Ok (VOk root)
  | b :: bs' =>
      let! r := verify_and_update hash_order (bl_proof b) root (bl_keys b) (bl_values b) (bl_updated b) in
      match r with VOk root' => follow hash_order root' bs' | VErr e => Ok (VErr e) end
  end.

(** What the trie holds after the blocks. *)
Definition after (h : history) (bs : list block) : history := h ++ flat_map block_writes bs.

(** A property of every block together with the history before it. *)
Definition along (h : history) (bs : list block) (Q : history -> block -> Prop) : Prop :=
  forall before b rest, bs = before ++ b :: rest -> Q (after h before) b.

(** Sizes that fit the machine's integers. *)
Definition block_fits (b : block) : Prop :=
  Forall is_key (bl_keys b) /\ Z.of_nat (len (bl_keys b)) < 2 ^ 63 /\ Z.of_nat (len (bl_updated b)) < 2 ^ 63.

(** A block sent by a full node that holds the trie of the history [h]: the true values with a proof made by
    the prover, which the check accepts (C21 says when that is so). *)
Definition honest_block (h : history) (b : block) : Prop :=
  bl_values b = map (final_map h) (bl_keys b) /\
  exists (db : MemoryDb) root order uh, run_mem h = Ok db /\ root_commitment db = Ok root /\
    create_verkle_proof order db (bl_keys b) = Ok (Some (bl_proof b)) /\
    proof_check (bl_proof b) (bl_keys b) (bl_values b) root = Ok (true, Some uh).

(** No key twice and no write to an empty slot: what the update can do (C25). *)
Definition within_reach (h : history) (b : block) : Prop :=
  NoDup (bl_keys b) /\ forall k v, In (k, v) (block_writes b) -> occupied (stems_of h) k.

(** A block sent by anybody.  If the check accepts it, its claims fit one tree, its openings are known and the
    commitments, hashes, stems and values at hand can be told apart (C23). *)
Definition ideal_block (h : history) (b : block) : Prop :=
  len (bl_values b) = len (bl_keys b) /\
  forall (db : MemoryDb) root qs uh uh', run_mem h = Ok db -> root_commitment db = Ok root ->
    proof_check (bl_proof b) (bl_keys b) (bl_values b) root = Ok (true, uh) ->
    create_verifier_queries (vp_hint (bl_proof b)) (vp_comms (bl_proof b)) (bl_keys b) (bl_values b) root = Ok (Some (qs, uh')) ->
    coherent (vp_hint (bl_proof b)) (bl_keys b) /\
    scalars_apart (final_map h) (stems_of h) (map (firstn 31) (bl_keys b) ++ vh_diff (vp_hint (bl_proof b))) (bl_values b) /\
    exists vs, Forall2 opening qs vs /\ ideal (final_map h) (stems_of h) qs vs.
End ChainSpec.
