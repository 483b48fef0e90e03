(** Base definitions shared by every model file: panics, bytes, byte-string
    maps.  Nothing here models a specific Rust function; it fixes how Rust
    values are represented. *)
From Coq Require Export List ZArith Lia Bool Arith.
Export ListNotations.
#[global] Open Scope Z_scope.

(** A computation that can panic ([unwrap] on [None], out-of-range index,
    failed [assert!], explicit [panic!]). *)
Inductive res (A : Type) : Type :=
| Ok (a : A)
| Panic.
Arguments Ok {A} a.
Arguments Panic {A}.

Definition rbind {A B} (x : res A) (k : A -> res B) : res B :=
  match x with Ok a => k a | Panic => Panic end.

Notation "'let!' x ':=' e 'in' k" := (rbind e (fun x => k))
  (at level 200, x pattern, e at level 100, k at level 200, right associativity).

(** [Option::unwrap] / [Option::expect]. *)
Definition unwrap {A} (o : option A) : res A :=
  match o with Some a => Ok a | None => Panic end.

(** [assert!]. *)
Definition assertb (b : bool) : res unit := if b then Ok tt else Panic.

(** [u8] values are integers in [0,256). *)
Definition bytes := list Z.
Definition is_byte (b : Z) : Prop := 0 <= b < 256.
Definition is_bytes (l : bytes) : Prop := Forall is_byte l.

(** [[u8; 32]] keys and values, [[u8; 31]] stems. *)
Definition is_key (k : bytes) : Prop := length k = 32%nat /\ is_bytes k.
Definition is_stem (s : bytes) : Prop := length s = 31%nat /\ is_bytes s.
Definition is_value (v : bytes) : Prop := length v = 32%nat /\ is_bytes v.

(** Boolean equality of byte strings. *)
Fixpoint beqb (a b : bytes) : bool :=
  match a, b with
  | [], [] => true
  | x :: a', y :: b' => if Z.eqb x y then beqb a' b' else false
  | _, _ => false
  end.

(** Maps keyed by byte strings (HashMap point access and insertion). *)
Definition bmap (V : Type) := bytes -> option V.
Definition bempty {V} : bmap V := fun _ => None.
Definition upd {V} (m : bmap V) (k : bytes) (v : V) : bmap V :=
  fun k' => if beqb k k' then Some v else m k'.

(** Little-endian and big-endian integers. *)
Fixpoint le_Z (l : bytes) : Z :=
  match l with [] => 0 | b :: l' => b + 256 * le_Z l' end.
Definition be_Z (l : bytes) : Z := le_Z (rev l).

(** The [n] low-order bytes of [z], little-endian ([to_le_bytes]). *)
Fixpoint Z_le (n : nat) (z : Z) : bytes :=
  match n with O => [] | S n' => (z mod 256) :: Z_le n' (z / 256) end.
Definition Z_be (n : nat) (z : Z) : bytes := rev (Z_le n z).

(** [l[i..]], panicking when [i > l.len()]. *)
Definition slice_from {A} (i : nat) (l : list A) : res (list A) :=
  if (i <=? length l)%nat then Ok (skipn i l) else Panic.
(** [l[a..b]], panicking when [a > b] or [b > l.len()]. *)
Definition slice {A} (a b : nat) (l : list A) : res (list A) :=
  if ((a <=? b) && (b <=? length l))%nat%bool then Ok (firstn (b - a) (skipn a l)) else Panic.
(** [l[i]], panicking when out of range. *)
Definition index {A} (l : list A) (i : nat) : res A := unwrap (nth_error l i).
