(** What an accepted proof says about the tree: claims that fit one tree, openings
    somebody knows, and the idealisation under which commitments and hashes can be
    told apart. *)
From Verif Require Import Base Alg TreeSpec TrieModel TrieTheorems BTree WireModel ProofModel ProofSpec IpaModel IpaSpec MultiProofs CheckProofs.

Section TruthSpec.
Context {A : Alg} {P : Par A}.

(** [claims hint keys] (ProofSpec) are triples of a stem, the depth of the slot it ends in
    and what the slot is said to hold: nothing, another stem, or this stem.  The claims of
    a hint fit one tree if

    no claim goes on below the slot in which another one ends, *)
Definition ends_apart (hint : VerificationHint) (keys : list bytes) : Prop :=
  forall s1 d1 e1 s2 d2 e2, In (s1, d1, e1) (claims hint keys) -> In (s2, d2, e2) (claims hint keys) ->
    (Z.to_nat d1 < Z.to_nat d2)%nat -> firstn (Z.to_nat d1) s1 <> firstn (Z.to_nat d1) s2.
(** of different stems that end in the same slot *)
Definition share_slot (hint : VerificationHint) (keys : list bytes) (e1 e2 : ExtPresent) : Prop :=
  exists s1 d1 s2 d2, In (s1, d1, e1) (claims hint keys) /\ In (s2, d2, e2) (claims hint keys) /\ s1 <> s2 /\
    Z.to_nat d1 = Z.to_nat d2 /\ firstn (Z.to_nat d1) s1 = firstn (Z.to_nat d1) s2.
(** not both are present, *)
Definition single_present (hint : VerificationHint) (keys : list bytes) : Prop := ~ share_slot hint keys ExtPres ExtPres.
(** and both find it empty or none does, *)
Definition empty_agree (hint : VerificationHint) (keys : list bytes) : Prop :=
  forall e1 e2, share_slot hint keys e1 e2 -> (e1 = ExtNone <-> e2 = ExtNone).
(** and the stems listed as others are not asked for. *)
Definition others_unasked (hint : VerificationHint) (keys : list bytes) : Prop :=
  forall t, In t (vh_diff hint) -> ~ In t (map (firstn 31) keys).
Record coherent (hint : VerificationHint) (keys : list bytes) : Prop := {
  co_ends : ends_apart hint keys;
  co_present : single_present hint keys;
  co_empty : empty_agree hint keys;
  co_diff : others_unasked hint keys
}.

(** A vector of 256 scalars opens the commitment of a query to the result at its point. *)
Definition entry (v : list F) (z : Z) : F := nth (Z.to_nat z) v fzero.
Definition opening (q : VerifierQuery) (v : list F) : Prop :=
  length v = 256%nat /\ vq_comm q = vcommit (entry v) /\
  exists z, 0 <= z < 256 /\ vq_point q = of_Z z /\ vq_result q = entry v z.

(** The openings known when the tree has the stems [St] and the values [m] and the queries
    [qs] are opened by [vs]. *)
Inductive known (m : bytes -> option bytes) (St : list bytes) (qs : list VerifierQuery) (vs : list (list F))
  : G -> (Z -> F) -> Prop :=
| known_query q v : In (q, v) (combine qs vs) -> known m St qs vs (vq_comm q) (entry v)
| known_node p : is_node St p -> known m St qs vs (node_comm m St p) (node_vec m St p)
| known_zero : known m St qs vs gzero (fun _ => fzero).

(** Idealised commitments, for the commitments at hand only. *)
Record ideal m St qs vs : Prop := {
  (* nobody knows two openings of one commitment *)
  id_binding : forall c f g z, known m St qs vs c f -> known m St qs vs c g -> 0 <= z < 256 -> f z = g z;
  (* the map from commitments to scalars does not collide *)
  id_hash : forall c f c' f', known m St qs vs c f -> known m St qs vs c' f' -> hash c = hash c' -> c = c';
  (* nor does it hit the marker of extension nodes, a stem or a value of the tree *)
  id_marker : forall c f, known m St qs vs c f -> hash c <> fone;
  id_stem : forall c f t, known m St qs vs c f -> c <> gzero -> In t St -> hash c <> of_Z (le_Z t);
  id_value : forall c f k v, known m St qs vs c f -> c <> gzero -> m k = Some v ->
    hash c <> leaf_low (Some v) /\ hash c <> leaf_high (Some v)
}.

(** The stems and values at hand are different scalars. *)
Record scalars_apart (m : bytes -> option bytes) (St others : list bytes) (values : list (option bytes)) : Prop := {
  sa_stem : forall t s, In t St -> In s others -> of_Z (le_Z t) = of_Z (le_Z s) -> t = s;
  sa_marked : forall v, (exists k, m k = Some v) \/ In (Some v) values ->
    leaf_low (Some v) <> fzero /\ leaf_low (Some v) <> fone;
  sa_value : forall k v w, m k = Some v -> In (Some w) values ->
    leaf_low (Some v) = leaf_low (Some w) -> leaf_high (Some v) = leaf_high (Some w) -> v = w
}.

(** The one exception: the stem of the key is in the tree and is said to be missing in a slot
    deeper than the one it is in. *)
Definition hidden (St : list bytes) (hint : VerificationHint) (keys : list bytes) (k : bytes) (v : option bytes) : Prop :=
  v = None /\ In (firstn 31 k) St /\
  exists d, In (firstn 31 k, d, ExtNone) (claims hint keys) /\ (sd St (firstn 31 k) < Z.to_nat d)%nat.

(** The check accepts a wrong value, and not because the key is hidden. *)
Definition falsehood {C : ECodec A} {H : Hasher} hint comms keys values : Prop :=
  exists h (db : MemoryDb) root qs uh,
    wf_history h /\ run_mem h = Ok db /\ root_commitment db = Ok root /\ Forall is_key keys /\ length values = length keys /\
    create_verifier_queries hint comms keys values root = Ok (Some (map public_query qs, uh)) /\
    (usable_challenges qs -> exists mp, proof_check (mkVP hint comms mp) keys values root = Ok (true, Some uh)) /\
    exists k v, In (k, v) (combine keys values) /\ trie_get db k <> Ok v /\ ~ hidden (stems_of h) hint keys k v.

End TruthSpec.
