(** What it takes to break the idealisation of C23: one explicit event among finitely many. *)
From Verif Require Import Base Alg TreeSpec TrieModel WireModel ProofModel ProofSpec IpaModel GoModel GoSpec StatelessModel SoundSpec TruthSpec ChainSpec.

Section EventSpec.
Context {A : Alg} {P : Par A}.

(** Among the commitments at hand, with their openings: two have the same hash, one hashes to the marker of
    extension nodes, one that is not zero hashes to a stem or to half a value of the tree. *)
Inductive hash_event (m : bytes -> option bytes) (St : list bytes) (qs : list VerifierQuery) (vs : list (list F)) : Prop :=
| same_hash c f c' f' : known m St qs vs c f -> known m St qs vs c' f' -> c <> c' -> hash c = hash c' -> hash_event m St qs vs
| hash_marker c f : known m St qs vs c f -> hash c = fone -> hash_event m St qs vs
| hash_stem c f t : known m St qs vs c f -> c <> gzero -> In t St -> hash c = of_Z (le_Z t) -> hash_event m St qs vs
| hash_value c f k v : known m St qs vs c f -> c <> gzero -> m k = Some v ->
    hash c = leaf_low (Some v) \/ hash c = leaf_high (Some v) -> hash_event m St qs vs.

(** Or one commitment has two openings, which is a relation between the generators: their difference. *)
Inductive event m St (qs : list VerifierQuery) (vs : list (list F)) : Prop :=
| ev_hash : hash_event m St qs vs -> event m St qs vs
| ev_openings c f g z : known m St qs vs c f -> known m St qs vs c g -> 0 <= z < 256 -> f z <> g z ->
    relation (crs_G trie_crs) (map (fun i => fsub (f (Z.of_nat i)) (g (Z.of_nat i))) (seq 0 256)) -> event m St qs vs.

Context {C : ECodec A} {H : Hasher}.
(** [ideal_block] (ChainSpec) without the idealisation: if the check accepts the block then its claims fit one
    tree and openings of its queries are known (C46 computes them from accepted provers). *)
Definition opened_block (open : block -> list (list F)) (h : history) (b : block) : Prop :=
  length (bl_values b) = length (bl_keys b) /\
  forall (db : MemoryDb) root qs uh uh', run_mem h = Ok db -> root_commitment db = Ok root ->
    proof_check (bl_proof b) (bl_keys b) (bl_values b) root = Ok (true, uh) ->
    create_verifier_queries (vp_hint (bl_proof b)) (vp_comms (bl_proof b)) (bl_keys b) (bl_values b) root = Ok (Some (qs, uh')) ->
    coherent (vp_hint (bl_proof b)) (bl_keys b) /\
    scalars_apart (final_map h) (stems_of h) (map (firstn 31) (bl_keys b) ++ vh_diff (vp_hint (bl_proof b))) (bl_values b) /\
    Forall2 opening qs (open b).
(** An event at a block that the client accepted. *)
Definition block_event (open : block -> list (list F)) (h : history) (b : block) : Prop :=
  exists (db : MemoryDb) root qs uh uh', run_mem h = Ok db /\ root_commitment db = Ok root /\
    proof_check (bl_proof b) (bl_keys b) (bl_values b) root = Ok (true, uh) /\
    create_verifier_queries (vp_hint (bl_proof b)) (vp_comms (bl_proof b)) (bl_keys b) (bl_values b) root = Ok (Some (qs, uh')) /\
    event (final_map h) (stems_of h) qs (open b).
(** What an execution witness says, with the proof [p] it writes, as a block that writes nothing. *)
Definition witness_block (g : VerkleProofGo) (p : VerkleProof) : block := mkBlock p (diff_keys (go_state g)) (diff_current (go_state g)) [].
End EventSpec.
