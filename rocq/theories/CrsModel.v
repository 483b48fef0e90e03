(** Model of how a set of generators is read and written (ipa-multipoint/src/crs.rs), and of the default
    one.  [CRS] is (G, Q); the field [n] is the length of G. *)
From Verif Require Import Base Alg IpaModel ElementModel.

Section Crs.
Context {B : BaseField}.

(** crs.rs:38-51 [from_bytes]: the last of the 64-byte strings is Q, and there must be one. *)
Definition crs_from_bytes (bs : list bytes) : res (list Element * Element) :=
  match rev bs with
  | [] => Panic
  | q_bytes :: g_rev =>
      let! Q := from_bytes_unchecked_uncompressed q_bytes in
      let! G := rmap from_bytes_unchecked_uncompressed (rev g_rev) in
      Ok (G, Q)
  end.

(** crs.rs:61-68 [to_bytes]. *)
Definition crs_to_bytes (crs : list Element * Element) : res (list bytes) :=
  let! g := rmap to_bytes_uncompressed (fst crs) in
  let! q := to_bytes_uncompressed (snd crs) in
  Ok (g ++ [q]).
End Crs.
