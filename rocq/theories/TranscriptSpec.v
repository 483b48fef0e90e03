(** Uses of a transcript, and the byte strings hashed on the way. *)
From Coq Require Import String.
From Verif Require Import Base Alg WireModel ProofModel IpaModel.
Local Open Scope list_scope.

Section TranscriptSpec.
Context {A : Alg} {C : ECodec A} {H : Hasher}.

(** One call of the transcript's interface. *)
Inductive TOp :=
| TPoint (label : bytes) (p : G)
| TScalar (label : bytes) (x : F)
| TSep (label : bytes)
| TChallenge (label : bytes).

(** Running the calls: the challenges returned, and the transcript at the end. *)
Fixpoint run_ops (tr : Transcript) (ops : list TOp) : list F * Transcript :=
  match ops with
  | [] => ([], tr)
  | TPoint l p :: ops' => run_ops (append_point tr l p) ops'
  | TScalar l x :: ops' => run_ops (append_scalar tr l x) ops'
  | TSep l :: ops' => run_ops (domain_sep tr l) ops'
  | TChallenge l :: ops' =>
      let '(x, tr) := challenge_scalar tr l in
      let '(xs, tr) := run_ops tr ops' in (x :: xs, tr)
  end.

(** What a challenge is a function of: everything absorbed since the last
    challenge, each message behind its label, after the last challenge itself
    behind its label. *)
Definition to_scalar (hash : bytes) : F := of_Z (le_Z hash).
Fixpoint hash_inputs (absorbed : bytes) (ops : list TOp) : list bytes :=
  match ops with
  | [] => []
  | TPoint l p :: ops' => hash_inputs (absorbed ++ l ++ el_ser p) ops'
  | TScalar l x :: ops' => hash_inputs (absorbed ++ l ++ sc_ser x) ops'
  | TSep l :: ops' => hash_inputs (absorbed ++ l) ops'
  | TChallenge l :: ops' =>
      (absorbed ++ l) :: hash_inputs (l ++ sc_ser (to_scalar (sha256 (absorbed ++ l)))) ops'
  end.

(** No input of the first list gives the same challenge as a different one of the second. *)
Definition no_collision (i1 i2 : list bytes) : Prop :=
  forall a b, In a i1 -> In b i2 -> to_scalar (sha256 a) = to_scalar (sha256 b) -> a = b.

(** The protocol without its data. *)
Inductive TKind := KPoint (l : bytes) | KScalar (l : bytes) | KSep (l : bytes) | KChallenge (l : bytes).
Definition kind (o : TOp) : TKind :=
  match o with TPoint l _ => KPoint l | TScalar l _ => KScalar l | TSep l => KSep l | TChallenge l => KChallenge l end.

(** The calls of the multipoint verifier up to the challenge [t]. *)
Definition mp_ops (qs : list VerifierQuery) (D : G) : list TOp :=
  TSep (lbl "multiproof") ::
  flat_map (fun q => [TPoint (lbl "C") (vq_comm q); TScalar (lbl "z") (vq_point q); TScalar (lbl "y") (vq_result q)]) qs ++
  [TChallenge (lbl "r"); TPoint (lbl "D") D; TChallenge (lbl "t")].
(** The calls of the inner-product verifier. *)
Definition ipa_ops (c : G) (z y : F) (Ls Rs : list G) : list TOp :=
  [TSep (lbl "ipa"); TPoint (lbl "C") c; TScalar (lbl "input point") z; TScalar (lbl "output point") y; TChallenge (lbl "w")] ++
  flat_map (fun '(l, r) => [TPoint (lbl "L") l; TPoint (lbl "R") r; TChallenge (lbl "x")]) (combine Ls Rs).
End TranscriptSpec.
