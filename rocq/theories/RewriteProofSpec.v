(** What a prover shows when the values it reads and the commitments it holds
    belong to different contents: definitions used in the statements of C69. *)
From Verif Require Import Base BaseFacts Alg TreeSpec TrieModel TrieProofs VerkleDbModel DbSpec ProofModel ProofSpec RewriteSpec.

(** Two keys with the same stem and with suffixes in the same half of it: their
    values are under one commitment. *)
Definition half_mates (k k' : bytes) : Prop :=
  firstn 31 k' = firstn 31 k /\ (nth 31 k' 0 <? 128) = (nth 31 k 0 <? 128).
(** No flushed value was changed in the half stem of [k]. *)
Definition untouched (l : list Op) (k : bytes) : Prop :=
  forall k', half_mates k k' -> (length (counted l k') < 2)%nat.

Section Shown.
Context {A : Alg} {P : Par A}.

(** A position that holds the values of half a stem: neither an inner node nor
    a stem's own node. *)
Definition holds_values (St : list bytes) (p : bytes) : bool :=
  negb (internal St p) && match stem_at St p with None => true | Some _ => false end.

(** The opening [q] of the entry [e] with the values of [m] put in: the
    commitment and the point are kept, the vector and the result are those of
    [m]. Openings of other nodes do not change. *)
Definition with_values (m : bytes -> option bytes) (St : list bytes) (e : bytes * Z) (q : ProverQuery) : ProverQuery :=
  if holds_values St (fst e)
  then mkPQ (pq_comm q) (map (fun i => node_vec m St (fst e) (Z.of_nat i)) (seq 0 256)) (pq_point q)
         (node_vec m St (fst e) (snd e))
  else q.
Definition all_with_values (m : bytes -> option bytes) (St : list bytes) (es : list (bytes * Z))
    (qs : list ProverQuery) : list ProverQuery :=
  map (fun x => with_values m St (fst x) (snd x)) (combine es qs).
End Shown.
