(** Group elements by coordinates: banderwagon/src/element.rs, banderwagon/src/lib.rs:26-50,
    ipa-multipoint/src/crs.rs:20-31, 73-81, 101-125, and the hashing functions of
    ffi_interface/src/lib.rs.  Elsewhere the group is abstract ([Alg]). *)
From Coq Require Import Field.
From Verif Require Import Base Alg WireModel ProofModel IpaModel.
Notation len := List.length.

(** The base field [Fq] of the curve (arkworks, not part of the repository): its operations,
    the integer representing an element, [Field::sqrt], [legendre().is_qr()], the modulus and the
    coefficients [COEFF_A], [COEFF_D] of the curve a x^2 + y^2 = 1 + d x^2 y^2. *)
Class BaseField := mkBaseField {
  Fq : Type;
  qzero : Fq; qone : Fq;
  qadd : Fq -> Fq -> Fq; qmul : Fq -> Fq -> Fq; qsub : Fq -> Fq -> Fq; qopp : Fq -> Fq;
  qdiv : Fq -> Fq -> Fq; qinv : Fq -> Fq;
  qeqb : Fq -> Fq -> bool;
  q_modulus : Z;
  q_int : Fq -> Z;
  q_of : Z -> Fq;
  q_sqrt : Fq -> option Fq;
  q_is_qr : Fq -> bool;
  coeff_a : Fq; coeff_d : Fq;
  q_order : nat                        (* the modulus of the scalar field *)
}.

(** banderwagon/src/element.rs:2 [Fq]. What is assumed of it.  Neither coefficient is a square, and the scalar field is not of
    characteristic two. *)
Class BaseFieldLaws (B : BaseField) : Prop := {
  Fq_field : field_theory qzero qone qadd qmul qsub qopp qdiv qinv (@eq Fq);
  qeqb_true : forall x y : Fq, qeqb x y = true <-> x = y;
  q_two : qadd qone qone <> qzero;
  q_modulus_range : 0 < q_modulus <= 2 ^ 256;
  q_of_int : forall x : Fq, q_of (q_int x) = x;
  q_int_of : forall z, q_int (q_of z) = z mod q_modulus;
  q_int_0 : q_int qzero = 0;
  q_sqrt_some : forall x y : Fq, q_sqrt x = Some y -> qmul y y = x;
  q_sqrt_none : forall x : Fq, q_sqrt x = None -> forall y, qmul y y <> x;
  q_is_qr_true : forall x : Fq, q_is_qr x = true <-> (x <> qzero /\ exists y, qmul y y = x);
  coeff_a_nonsquare : forall y : Fq, qmul y y <> coeff_a;
  coeff_d_nonsquare : forall y : Fq, qmul y y <> coeff_d;
  q_order_odd : Nat.odd q_order = true
}.

Section Element.
Context {B : BaseField}.

(** element.rs:2 and 8-10. [EdwardsProjective], in extended coordinates, and [EdwardsAffine]. *)
Record Element := mkEl { ex : Fq; ey : Fq; et : Fq; ez : Fq }.
(** element.rs:2 [EdwardsAffine]. *)
Record Affine := mkAff { ax : Fq; ay : Fq }.

(** For element.rs:37-75. arkworks: serialization of field elements as 32 bytes, least significant first; reading takes the
    first 32 bytes and wants a number below the modulus. *)
Definition fq_ser (x : Fq) : bytes := Z_le 32 (q_int x).
(** For element.rs:77-104, reading. *)
Definition fq_de (b : bytes) : option Fq :=
  if (32 <=? len b)%nat then
    let z := le_Z (firstn 32 b) in
    if z <? q_modulus then Some (q_of z) else None
  else None.

(** For element.rs:114-131. arkworks: [x / y] unwraps the inverse of [y]. *)
Definition fq_div (x y : Fq) : res Fq := if qeqb y qzero then Panic else Ok (qmul x (qinv y)).

(** For element.rs:41, 63-75. arkworks: [EdwardsAffine::from] and back. *)
Definition to_affine (e : Element) : res Affine :=
  if qeqb (ex e) qzero && qeqb (ey e) (ez e) && negb (qeqb (ey e) qzero) && qeqb (et e) qzero
  then Ok (mkAff qzero qone)
  else if qeqb (ez e) qone then Ok (mkAff (ex e) (ey e))
  else if qeqb (ez e) qzero then Panic
  else Ok (mkAff (qmul (ex e) (qinv (ez e))) (qmul (ey e) (qinv (ez e)))).
(** element.rs:71-75, the way back. *)
Definition of_affine (a : Affine) : Element := mkEl (ax a) (ay a) (qmul (ax a) (ay a)) qone.

(** element.rs:11-34 [PartialEq]. *)
Definition element_eqb (e1 e2 : Element) : bool :=
  if qeqb (ex e1) qzero && qeqb (ey e1) qzero then false
  else if qeqb (ex e2) qzero && qeqb (ey e2) qzero then false
  else qeqb (qmul (ex e1) (ey e2)) (qmul (ex e2) (ey e1)).

(** element.rs:184-187 [is_positive]; [Fq]'s order is that of the integers. *)
Definition is_positive (c : Fq) : bool := q_int (qopp c) <? q_int c.

(** element.rs:37-55 [to_bytes]. *)
Definition to_bytes (e : Element) : res bytes :=
  let! a := to_affine e in
  let x := if is_positive (ay a) then ax a else qopp (ax a) in
  Ok (rev (fq_ser x)).

(** element.rs:63-69 [to_bytes_uncompressed]; arkworks writes x and y of the affine point. *)
Definition to_bytes_uncompressed (e : Element) : res bytes :=
  let! a := to_affine e in
  Ok (fq_ser (ax a) ++ fq_ser (ay a)).

(** element.rs:71-75 [from_bytes_unchecked_uncompressed], on 64 bytes; nothing but the two field
    elements is checked. *)
Definition from_bytes_unchecked_uncompressed (b : bytes) : res Element :=
  let! x := unwrap (fq_de b) in
  let! y := unwrap (fq_de (skipn 32 b)) in
  Ok (of_affine (mkAff x y)).

(** For trait_impls/ops.rs:10-40 on affine points. arkworks: the addition law of the curve in affine coordinates, and multiples of a point. *)
Definition edwards_sum (P Q : Affine) : Affine :=
  let k := qmul (qmul (qmul (qmul coeff_d (ax P)) (ax Q)) (ay P)) (ay Q) in
  mkAff (qdiv (qadd (qmul (ax P) (ay Q)) (qmul (ay P) (ax Q))) (qadd qone k))
        (qdiv (qsub (qmul (ay P) (ay Q)) (qmul (qmul coeff_a (ax P)) (ax Q))) (qsub qone k)).
(** For trait_impls/ops.rs:10-23 on affine points: multiples. *)
Definition edwards_multiple (n : nat) (P : Affine) : Affine := Nat.iter n (edwards_sum P) (mkAff qzero qone).

(** For element.rs:71-75 and serialize.rs:58-61. arkworks: [Valid::check] of a point: on the curve, and its multiple by the order of the scalar
    field is the neutral point. *)
Definition point_check (P : Affine) : bool :=
  qeqb (qadd (qmul coeff_a (qmul (ax P) (ax P))) (qmul (ay P) (ay P)))
       (qadd qone (qmul coeff_d (qmul (qmul (ax P) (ax P)) (qmul (ay P) (ay P))))) &&
  let R := edwards_multiple q_order P in qeqb (ax R) qzero && qeqb (ay R) qone.

(** trait_impls/serialize.rs:5-18 [serialize_with_mode]: compressed (line 12) and not (line 15). *)
Definition serialize_compressed (e : Element) : res bytes := to_bytes e.
(** trait_impls/serialize.rs:16. *)
Definition serialize_uncompressed (e : Element) : res bytes :=
  let! a := to_affine e in Ok (fq_ser (ax a) ++ fq_ser (ay a)).

(** element.rs:114-126 [get_point_from_x]. *)
Definition get_point_from_x (x : Fq) (choose_largest : bool) : res (option Affine) :=
  let dx_squared_minus_one := qsub (qmul coeff_d (qmul x x)) qone in
  let ax_squared_minus_one := qsub (qmul coeff_a (qmul x x)) qone in
  let! y_squared := fq_div ax_squared_minus_one dx_squared_minus_one in
  match q_sqrt y_squared with
  | None => Ok None
  | Some y =>
      let is_largest := is_positive y in
      let y := if is_largest && choose_largest then y else qopp y in
      Ok (Some (mkAff x y))
  end.

(** element.rs:189-192 [legendre_check_point] and 179-181 [subgroup_check]. *)
Definition legendre_check_point (x : Fq) : bool := q_is_qr (qsub qone (qmul coeff_a (qmul x x))).
(** element.rs:179-181 [subgroup_check]. *)
Definition subgroup_check (e : Element) : bool := legendre_check_point (ex e).

(** element.rs:77-104 [from_bytes]. *)
Definition from_bytes (b : bytes) : res (option Element) :=
  match fq_de (rev b) with
  | None => Ok None
  | Some x =>
      let! o := get_point_from_x x true in
      match o with
      | None => Ok None
      | Some point =>
          let element := of_affine point in
          if negb (subgroup_check element) then Ok None else Ok (Some element)
      end
  end.

(** trait_impls/serialize.rs:36-70 [deserialize_with_mode], compressed (46-56) and not (57-60); the
    bytes left in the reader are returned too.  [None] stands for the error. *)
Definition deserialize_compressed (b : bytes) : res (option (Element * bytes)) :=
  if (len b <? 32)%nat then Ok None else
  let! o := from_bytes (firstn 32 b) in
  Ok (option_map (fun e => (e, skipn 32 b)) o).
(** trait_impls/serialize.rs:58-61. *)
Definition deserialize_uncompressed (b : bytes) : option (Element * bytes) :=
  match fq_de b, fq_de (skipn 32 b) with
  | Some x, Some y =>
      let point := mkAff x y in
      if point_check point then Some (of_affine point, skipn 64 b) else None
  | _, _ => None
  end.

(** element.rs:171-177 [zero], [is_zero]. *)
Definition element_zero : Element := mkEl qzero qone qzero qone.
(** element.rs:175-177 [is_zero]. *)
Definition element_is_zero (e : Element) : bool := element_eqb e element_zero.

(** element.rs:128-130 [map_to_field]. *)
Definition map_to_field (e : Element) : res Fq := fq_div (ex e) (ey e).

(** lib.rs:33-50 [try_reduce_to_element]. *)
Definition try_reduce_to_element (b : bytes) : res (option Element) :=
  let x_coord := q_of (be_Z b) in
  from_bytes (rev (fq_ser x_coord)).

(** ** Scalars *)
Context {A : Alg}.

(** element.rs:133-143 and 160-165. [Fr::from_le_bytes_mod_order] of a serialized [Fq]. *)
Definition fr_of_fq (x : Fq) : F := of_Z (le_Z (fq_ser x)).

(** element.rs:132-143 [map_to_scalar_field]. *)
Definition map_to_scalar_field (e : Element) : res F :=
  let! base_field := map_to_field e in
  Ok (fr_of_fq base_field).

(** For element.rs:153. arkworks: [batch_inversion] inverts every entry that is not zero. *)
Definition batch_inversion_q (l : list Fq) : list Fq := map (fun y => if qeqb y qzero then y else qinv y) l.

(** element.rs:145-169 [batch_map_to_scalar_field]. *)
Definition batch_map_to_scalar_field (elements : list Element) : list F :=
  let inverted := batch_inversion_q (map ey elements) in
  let x_div_y := map (fun '(i, e) => qmul i (ex e)) (combine inverted elements) in
  map fr_of_fq x_div_y.

(** ffi_interface/src/lib.rs:255-261 [hash_commitment] and 267-276 [hash_commitments]; the scalar
    is serialized by [fr_to_le_bytes]. *)
Context {C : ECodec A}.
Definition hash_commitment (commitment : bytes) : res bytes :=
  let! e := from_bytes_unchecked_uncompressed commitment in
  let! x := map_to_scalar_field e in
  Ok (sc_ser x).
(** ffi_interface/src/lib.rs:267-276 [hash_commitments]. *)
Definition hash_commitments (commitments : list bytes) : res (list bytes) :=
  let! elements := rmap from_bytes_unchecked_uncompressed commitments in
  Ok (map sc_ser (batch_map_to_scalar_field elements)).

(** ** Generators *)
Context {H : Hasher}.

(** crs.rs:107-113 [hash_to_x]; the index is written as 8 bytes, most significant first. *)
Definition hash_to_x (seed : bytes) (i : Z) : bytes := sha256 (seed ++ Z_be 8 i).

(** crs.rs:101-119 [generate_random_elements]: from index [i] on, the first [n] hashes that give an
    element.  [None] means that [fuel] hashes were not enough; the loop has no bound. *)
Fixpoint generate_from (fuel : nat) (seed : bytes) (i : Z) (n : nat) : res (option (list Element)) :=
  match n with
  | O => Ok (Some [])
  | S n' =>
      match fuel with
      | O => Ok None
      | S fuel' =>
          let! o := try_reduce_to_element (hash_to_x seed i) in
          match o with
          | None => generate_from fuel' seed (i + 1) n
          | Some e =>
              let! r := generate_from fuel' seed (i + 1) n' in
              Ok (option_map (cons e) r)
          end
      end
  end.

(** crs.rs:73-81 [assert_dedup]. *)
Fixpoint assert_dedup_from (seen : list bytes) (points : list Element) : res unit :=
  match points with
  | [] => Ok tt
  | p :: points' =>
      let! b := to_bytes p in
      let! _ := assertb (negb (existsb (beqb b) seen)) in
      assert_dedup_from (b :: seen) points'
  end.

(** crs.rs:20-31 [CRS::new]; the extra point [Q] is a constant and left out. *)
Definition crs_new (fuel : nat) (n : nat) (seed : bytes) : res (option (list Element)) :=
  let! o := generate_from fuel seed 0 n in
  match o with
  | None => Ok None
  | Some Gs => let! _ := assert_dedup_from [] Gs in Ok (Some Gs)
  end.
End Element.
