(** Specification for the theorems on coordinates: the three points written when one key is stored in an
    empty trie, and byte strings that are coordinates of one element. *)
From Verif Require Import Base Alg TrieModel MsmModel IpaModel WireModel CodecModel ElementModel ElementSpec CurveModel CurveSpec CurveRep.

Section Points.
Context {A : Alg} {P : Par A}.
(** The commitment to the half of the stem that holds the key: the two halves of its value, the first
    with 2^128 added, times the generators 2 i and 2 i + 1, i the position of the key in that half. *)
Definition key_half (k x : bytes) : G :=
  let i := 2 * (nth 31 k 0 mod 128) in
  gadd (gadd gzero (scalar_mul (fsub (value_low x) fzero) i)) (scalar_mul (fsub (value_high x) fzero) (i + 1)).
(** The commitment of the stem: 1, the stem and the hashes of its halves. *)
Definition key_stem (k x : bytes) : G :=
  gadd (gadd (crs 0) (scalar_mul (of_Z (le_Z (firstn 31 k))) 1))
       (scalar_mul (fsub (hash (key_half k x)) (hash gzero)) (if nth 31 k 0 <? 128 then 2 else 3)).
(** The root. *)
Definition key_root (k x : bytes) : G :=
  gadd gzero (scalar_mul (fsub (hash (key_stem k x)) fzero) (nth 0 k 0)).
End Points.

Section Bytes.
Context {B : BaseField} {BL : BaseFieldLaws B} {A : Alg} {I : FrInt A}.
(** Both byte strings are uncompressed coordinates, of the same element. *)
Definition same_point (a b : bytes) : Prop :=
  exists g h, @eu_de _ (@rep_ecodec B BL A I) a = Some g /\ @eu_de _ (@rep_ecodec B BL A I) b = Some h /\ same_element (coords g) (coords h).
End Bytes.
