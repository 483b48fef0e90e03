(** Specification of proofs of a tree, independent of how the prover and the
    verifier collect them: which nodes and entries a proof about a list of keys
    has to open, and what those nodes commit to. *)
From Verif Require Import Base Alg TreeSpec TrieProofs BTree WireModel ProofModel.

Section ProofSpec.
Context {A : Alg} {P : Par A}.

(** [internal St p] (TrieProofs): the tree over the stems [St] has an inner node
    at path [p] -- the root, or at least two stems below [p].

    The number of inner nodes on the way to the stem [s]: the length of the first
    prefix of [s] at which there is no inner node. *)
Fixpoint descend (fuel : nat) (St : list bytes) (s : bytes) (i : nat) : nat :=
  match fuel with
  | O => i
  | S f => if internal St (firstn i s) then descend f St s (S i) else i
  end.
Definition sd (St : list bytes) (s : bytes) : nat := descend 32 St s 0.

(** The stem whose extension node sits at path [p]: the only stem below [p],
    with an inner node right above. *)
Definition stem_at (St : list bytes) (p : bytes) : option bytes :=
  if internal St p then None
  else if internal St (removelast p) then
    match under St p with [t] => Some t | _ => None end
  else None.

(** The 256 entries committed to by the node at path [p]: an inner node, an
    extension node, or one of the two halves of the values of a stem, which are
    numbered 2 and 3 below the extension node. *)
Definition node_vec (m : bytes -> option bytes) (St : list bytes) (p : bytes) : Z -> F :=
  if internal St p then inner_vec m St p
  else match stem_at St p with
       | Some t => ext_vec m t
       | None =>
           match stem_at St (removelast p) with
           | Some t => suffix_vec m t (last p 0 - 2)
           | None => fun _ => fzero
           end
       end.
Definition node_comm m St p : G := vcommit (node_vec m St p).

Definition is_node (St : list bytes) (p : bytes) : Prop :=
  internal St p = true \/ (exists t, stem_at St p = Some t) \/
  (exists q t, stem_at St q = Some t /\ (p = q ++ [2] \/ p = q ++ [3])).

(** The entries a proof about the key [k] opens: the inner nodes on the way to
    the stem of [k] at the next byte; if the walk ends in a stem, the marker and
    the stem of its extension node; if that stem is the key's, also the link to
    the half of the values the key is in, and the two entries of the key there. *)
Definition entries (St : list bytes) (k : bytes) : list (bytes * Z) :=
  let s := firstn 31 k in
  let n := sd St s in
  let q := firstn n s in
  let half := if nth 31 k 0 <? 128 then 2 else 3 in
  let pos := 2 * (nth 31 k 0 mod 128) in
  map (fun i => (firstn i s, nth i s 0)) (seq 0 n) ++
  match stem_at St q with
  | None => []
  | Some t =>
      [(q, 0); (q, 1)] ++
      (if beqb t s then [(q, half); (q ++ [half], pos); (q ++ [half], pos + 1)] else [])
  end.
Definition all_entries (St : list bytes) (keys : list bytes) : list (bytes * Z) :=
  set_of (flat_map (entries St) keys).
(** The nodes opened, in path order; the first one is the root. *)
Definition opened (St : list bytes) (keys : list bytes) : list bytes :=
  set_of (map fst (all_entries St keys)).

(** A query of the prover is true: the commitment commits to the polynomial (given by
    its values on the domain, missing ones being 0) and the result is the
    polynomial's value at the point. *)
Definition true_opening (q : ProverQuery) : Prop :=
  (length (pq_poly q) <= 256)%nat /\ 0 <= pq_point q < 256 /\
  pq_comm q = vcommit (fun i => nth (Z.to_nat i) (pq_poly q) fzero) /\
  nth_error (pq_poly q) (Z.to_nat (pq_point q)) = Some (pq_result q).

(** The commitments of the opened nodes can be told apart where the proof needs
    it: neighbours in path order have different commitments and only the root
    has the root's. *)
Fixpoint adjacent_distinct {X} (l : list X) : Prop :=
  match l with
  | [] => True
  | x :: l' => match l' with [] => True | y :: _ => x <> y end /\ adjacent_distinct l'
  end.
Definition distinguishable m St keys : Prop :=
  adjacent_distinct (map (node_comm m St) (opened St keys)) /\
  forall p, In p (opened St keys) -> p <> [] -> node_comm m St p <> node_comm m St [].

(** What a sound multipoint argument shows about a query of the verifier: the commitment
    commits to some vector with the claimed entry. *)
Definition true_claim (q : VerifierQuery) : Prop :=
  exists w z, 0 <= z < 256 /\ vq_comm q = vcommit w /\ vq_point q = of_Z z /\ vq_result q = w z.
(** In addition the commitment is one of the tree's own nodes. *)
Definition true_of_tree m St (q : VerifierQuery) : Prop :=
  exists p z, is_node St p /\ 0 <= z < 256 /\
    vq_comm q = node_comm m St p /\ vq_point q = of_Z z /\ vq_result q = node_vec m St p z.

(** What a proof claims about each stem: the distinct stems of the keys in
    ascending order, matched up with the depths and statuses of the hint. *)
Definition claims (hint : VerificationHint) (keys : list bytes) : list (bytes * Z * ExtPresent) :=
  combine (combine (set_of (map (firstn 31) keys)) (vh_depths hint)) (vh_ext hint).

(** The nodes a claim about the key [k] talks about. *)
Definition claim_paths (k : bytes) (d : Z) (e : ExtPresent) : list bytes :=
  let q := firstn (Z.to_nat d) k in
  map (fun i => firstn i k) (seq 0 (Z.to_nat d)) ++
  match e with
  | ExtNone => []
  | ExtDifferentStem => [q]
  | ExtPres => [q; q ++ [if nth 31 k 0 <? 128 then 2 else 3]]
  end.

(** The claims are in a shape an honest prover could produce. *)
Record well_formed (hint : VerificationHint) (comms : list G) (keys : list bytes) (values : list (option bytes)) : Prop := {
  wp_values : length values = length keys;
  wp_claims : (length (set_of (map (firstn 31) keys)) <= length (vh_depths hint))%nat;
  wp_status : (length (set_of (map (firstn 31) keys)) <= length (vh_ext hint))%nat;
  wp_depth : forall s d e, In (s, d, e) (claims hint keys) ->
    match e with ExtPres => 0 <= d <= 31 | ExtDifferentStem => 0 <= d <= 30 | ExtNone => 1 <= d <= 31 end;
  (* at most one stem claimed present shares the slot of a stem claimed absent *)
  wp_one : forall s d s1 d1 s2 d2, In (s, d, ExtDifferentStem) (claims hint keys) ->
    In (s1, d1, ExtPres) (claims hint keys) -> In (s2, d2, ExtPres) (claims hint keys) ->
    firstn (Z.to_nat d) s1 = firstn (Z.to_nat d) s -> firstn (Z.to_nat d) s2 = firstn (Z.to_nat d) s -> s1 = s2;
  (* if there is none, one of the listed stems does *)
  wp_other : forall s d, In (s, d, ExtDifferentStem) (claims hint keys) ->
    (exists s1 d1, In (s1, d1, ExtPres) (claims hint keys) /\ firstn (Z.to_nat d) s1 = firstn (Z.to_nat d) s) \/
    (exists t, In t (vh_diff hint) /\ firstn (Z.to_nat d) t = firstn (Z.to_nat d) s);
  wp_diff_sorted : sorted (vh_diff hint);
  (* no listed stem is superfluous *)
  wp_diff_used : forall t, In t (vh_diff hint) -> exists s d, In (s, d, ExtDifferentStem) (claims hint keys) /\
    firstn (Z.to_nat d) t = firstn (Z.to_nat d) s /\
    (forall t', In t' (vh_diff hint) -> firstn (Z.to_nat d) t' = firstn (Z.to_nat d) s -> t' = t \/ klt t' t) /\
    (forall s1 d1, In (s1, d1, ExtPres) (claims hint keys) -> firstn (Z.to_nat d) s1 <> firstn (Z.to_nat d) s);
  (* one commitment for each node but the root *)
  wp_comms : exists paths, NoDup paths /\ length paths = S (length comms) /\
    forall p, In p paths <-> exists k d e, In k keys /\ In (firstn 31 k, d, e) (claims hint keys) /\ In p (claim_paths k d e)
}.
(** No value is claimed under a stem declared absent. *)
Definition no_value_under_absent (hint : VerificationHint) (keys : list bytes) (values : list (option bytes)) : Prop :=
  forall k v d e, In (k, Some v) (combine keys values) -> In (firstn 31 k, d, e) (claims hint keys) -> e = ExtPres.

(** The claims have the types the code gives them. *)
Definition typed (hint : VerificationHint) (keys : list bytes) (values : list (option bytes)) : Prop :=
  Forall is_key keys /\ length values = length keys /\ sorted (vh_diff hint) /\ Forall (fun d => 0 <= d) (vh_depths hint).

End ProofSpec.
