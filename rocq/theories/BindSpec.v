(** What the theorems about the bindings say. *)
From Verif Require Import Base Alg WireModel WireSpec ProofModel IpaModel FfiModel FfiSpec GoModel GoSpec BindModel.
Local Open Scope list_scope.

Section BindSpec.
Context {A : Alg} {C : ECodec A}.
(** A claim with the commitment in 64 bytes. *)
Definition claim_record_uncompressed (c : claim) : bytes := verifier_record_uncompressed (fst (fst c)) (snd (fst c)) (snd c).
(** Java's array for a value: empty for an absent one. *)
Definition java_value (o : option bytes) : jbytes := Some (match o with None => [] | Some v => v end).
(** What the Java binding makes of a value: 32 bytes are the value, anything else is absent. *)
Definition java_read (b : bytes) : option bytes := if (len b =? 32)%nat then Some b else None.
Definition java_list (l : list bytes) : jarray := Some (map Some l).
(** A status byte as the Java binding reads it: the fourth status is depth 0 and absent. *)
Definition java_status_means (byte : Z) (e : ExtPresent) (depth : Z) : Prop :=
  (status_means byte e /\ depth = byte / 8) \/ (bad_status byte /\ e = ExtNone /\ depth = 0).
(** Null, or an array of another size. *)
Definition not_size (n : nat) (o : jbytes) : Prop := forall b, o = Some b -> len b <> n.
Definition not_multiple (n : nat) (o : jbytes) : Prop := forall b, o = Some b -> (len b mod n <> 0)%nat.
End BindSpec.
