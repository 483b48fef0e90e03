(** The bytes of a proof, independent of the reader. *)
From Verif Require Import Base BTree WireModel WireSpec.

(** [b] consists of a hint made of [stems] and [buf], a count of commitments, that
    many 32-byte strings, and a tail. *)
Definition proof_layout (b : bytes) (stems : list bytes) (buf : bytes) (cs : list bytes) (tail : bytes) : Prop :=
  hint_layout b stems buf (Z_le 4 (Z.of_nat (length cs)) ++ concat cs ++ tail)
  /\ Forall (fun c => length c = 32%nat) cs /\ Z.of_nat (length cs) < 2 ^ 32.

(** The tail cannot hold a multipoint proof: it is too short to hold its first
    element, or it starts with an element and is not 576 bytes long. *)
Definition bad_tail {A} {C : ECodec A} (tail : bytes) : Prop :=
  (length tail < 32)%nat \/ (exists g, firstn 32 tail = el_ser g) /\ length tail <> 576%nat.
