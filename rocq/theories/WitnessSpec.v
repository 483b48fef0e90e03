(** Execution witnesses and chains of blocks about accounts: the vocabulary of C66. *)
From Verif Require Import Base Alg TreeSpec TrieModel WireModel ProofModel IpaModel GoModel GoSpec StatelessModel SpecModel LayoutSpec AccountSpec ChainSpec.
Local Open Scope list_scope.

(** The keys verkle-spec computes for a list of items. *)
Definition item_keys (h64 : bytes -> res bytes) (l : list (bytes * item)) : res (list bytes) :=
  rmap (fun '(a, i) => item_key h64 a i) l.

Section WitnessSpec.
Context {A : Alg} {P : Par A} {C : ECodec A} {H : Hasher}.
(** The claims of a witness, sent by anybody, under the conditions of C23 for the trie of the history [h]: see
    [ideal_block].  [p] is the proof the witness writes. *)
Definition ideal_witness (h : history) (g : VerkleProofGo) : Prop :=
  forall p, go_says g p -> ideal_block h (mkBlock p (diff_keys (go_state g)) (diff_current (go_state g)) []).

(** The witness denies a present key by way of C23's [hidden]. *)
Definition hides (h : history) (g : VerkleProofGo) (k : bytes) (v : option bytes) : Prop :=
  exists p, go_says g p /\ TruthSpec.hidden (stems_of h) (vp_hint p) (diff_keys (go_state g)) k v.

(** Every block writes what its list of account writes says. *)
Definition account_blocks (h64 : bytes -> res bytes) (bs : list block) (ws : list writes) : Prop :=
  Forall2 (fun b w => insertions h64 w = Ok (block_writes b)) bs ws.
End WitnessSpec.
