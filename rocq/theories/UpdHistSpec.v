(** A client that keeps a vector and its commitment over many updates of the foreign-function interface. *)
From Verif Require Import Base Alg MsmModel WireModel IpaModel FfiModel FfiSpec.

Section UpdHist.
Context {A : Alg} {C : ECodec A} {I : FrInt A} {W : Wnaf A}.
(** One request: a single entry changes, or several at once. *)
Inductive request := One (c : change) | Many (l : list change).
Definition request_changes (r : request) : list change := match r with One c => [c] | Many l => l end.

(** The vector after the requests. *)
Definition vector_after (v : list F) (rs : list request) : list F :=
  fold_left (fun v r => replace_all v (request_changes r)) rs v.
(** Every request names entries of the vector as it is at that time, none twice. *)
Fixpoint requests_of (v : list F) (rs : list request) : Prop :=
  match rs with
  | [] => True
  | r :: rs' => changes_of v (request_changes r) /\ requests_of (replace_all v (request_changes r)) rs'
  end.

(** Each request is made on the commitment returned by the one before. *)
Definition make_request (cx : Context_) (c : bytes) (r : request) : res (fresult bytes) :=
  match r with
  | One ch => update_commitment cx c (Z.of_nat (ch_index ch)) (sc_ser (ch_old ch)) (sc_ser (ch_new ch))
  | Many l => update_commitment_sparse cx c (map ch_index l) (map (fun ch => sc_ser (ch_old ch)) l) (map (fun ch => sc_ser (ch_new ch)) l)
  end.
Fixpoint make_requests (cx : Context_) (c : bytes) (rs : list request) : res (fresult bytes) :=
  match rs with
  | [] => Ok (FOk c)
  | r :: rs' => let! r' := make_request cx c r in fbind r' (fun c' => make_requests cx c' rs')
  end.
End UpdHist.
