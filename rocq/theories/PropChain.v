(** C65: a client that knows only the root follows a chain of blocks. *)
From Coq Require Import Permutation.
From Verif Require Import Base Alg AlgInst TreeSpec TrieModel ExData WireModel WireInst ProofModel ProofSpec IpaModel LagrangeSpec IpaInst StatelessModel StatelessSpec
  TruthSpec ChainSpec ChainProofs ChainCases.
Local Open Scope list_scope.

Section Properties.
Context {A : Alg} {L : AlgLaws A} {P : Par A} {PL : ParLaws P} {C : ECodec A} {CL : ECodecLaws C} {H : Hasher}.

(** Blocks from full nodes: the client ends with the root of the trie after all the writes, unless some block
    has a repeated key or writes to a slot that is empty at that point; then it gets no root. *)
Theorem C65_honest_chain_partial : forall hash_order, (forall l, Permutation (hash_order l) l) ->
  forall bs h (db : MemoryDb) root, wf_history h -> run_mem h = Ok db -> root_commitment db = Ok root ->
  Forall block_fits bs -> along h bs honest_block ->
  (along h bs within_reach /\ exists db' root', run_mem (after h bs) = Ok db' /\ root_commitment db' = Ok root' /\
     follow hash_order root bs = Ok (VOk root')) \/
  (~ along h bs within_reach /\ (follow hash_order root bs = Panic \/ follow hash_order root bs = Ok (VErr DuplicateKeys))).
Proof. exact chain_honest. Qed.

(** Blocks from anybody, the commitments at hand being idealised: if the client ends with a root, it is that
    of the trie after all the writes, and the values it was told before each block were true at that point
    (but for the exception of C23). *)
Theorem C65_untrusted_chain_partial : forall hash_order, (forall l, Permutation (hash_order l) l) -> domain_fits 256 ->
  forall bs h (db : MemoryDb) root r, wf_history h -> run_mem h = Ok db -> root_commitment db = Ok root ->
  Forall block_fits bs -> along h bs ideal_block -> follow hash_order root bs = Ok (VOk r) ->
  (exists db' : MemoryDb, run_mem (after h bs) = Ok db' /\ root_commitment db' = Ok r) /\
  along h bs (fun h' b => forall k v, In (k, v) (combine (bl_keys b) (bl_values b)) ->
    final_map h' k = v \/ hidden (stems_of h') (vp_hint (bl_proof b)) (bl_keys b) k v).
Proof. exact chain_any. Qed.
End Properties.

Print Assumptions C65_honest_chain_partial.
Print Assumptions C65_untrusted_chain_partial.

(** Three blocks that change values, add some, and add a stem; and the same with a write to an empty slot in the last. *)
Example C65_honest_case : exists (db : MemoryDb) root b1 b2 b3 b4,
  run_mem chain_h = Ok db /\ root_commitment db = Ok root /\
  block_writes b1 = writes keys1 upd1 /\ block_writes b2 = writes keys2 upd2 /\ block_writes b3 = writes keys3 upd3 /\ block_writes b4 = writes keys3 upd4 /\
  Forall block_fits [b1; b2; b3; b4] /\
  along chain_h [b1; b2; b3] honest_block /\ along chain_h [b1; b2; b3] within_reach /\
  along chain_h [b1; b2; b4] honest_block /\ ~ along chain_h [b1; b2; b4] within_reach.
Proof. exact chain_case. Qed.
(** A block that changes a value, adds one and adds a stem, and meets the idealised conditions. *)
Example C65_untrusted_case : exists (db : MemoryDb) root b, run_mem ex_h = Ok db /\ root_commitment db = Ok root /\ block_fits b /\ along ex_h [b] ideal_block /\
  block_writes b = [(ex_key 5 0 130, repeat 77 32); (ex_key 5 0 131, repeat 78 32); (ex_key 6 7 1, repeat 79 32)] /\
  forall hash_order, (forall l, Permutation (hash_order l) l) -> exists r, follow hash_order root [b] = Ok (VOk r).
Proof. exact five_block. Qed.
