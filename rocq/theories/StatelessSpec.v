(** Specification of a stateless update: the insertions that a list of keys
    and new values stands for. *)
From Verif Require Import Base Alg TreeSpec TrieProofs WireModel ProofModel ProofSpec.

(** The writes asked for: the keys for which a new value is given. *)
Fixpoint writes (keys : list bytes) (updated : list (option bytes)) : history :=
  match keys, updated with
  | k :: keys', Some v :: updated' => (k, v) :: writes keys' updated'
  | _ :: keys', None :: updated' => writes keys' updated'
  | _, _ => []
  end.

(** Walking from the root towards [k] ends at a stem, not in an empty slot. *)
Definition occupied (St : list bytes) (k : bytes) : Prop :=
  exists q t, stem_at St q = Some t /\ has_prefix q (firstn 31 k) = true.

(** Some written stem is said by the claims of a proof to belong into an empty slot. *)
Definition writes_empty (hint : VerificationHint) (keys : list bytes) (updated : list (option bytes)) : Prop :=
  exists k v d, In (k, v) (writes keys updated) /\ In (firstn 31 k, d, ExtNone) (claims hint keys).
