(** The byte formats proofs travel in: verkle-trie/src/proof.rs (hint and
    proof), ipa-multipoint/src/ipa.rs and multiproof.rs (inner and multipoint
    proofs), ipa-multipoint/src/crs.rs (generators). *)
From Verif Require Import Base Alg CodecModel BTree.

(** The element and scalar encodings these formats use.
    [el_ser]/[el_de] are [Element::to_bytes]/[from_bytes]
    (banderwagon/src/element.rs:37-55, 77-104), [eu_ser]/[eu_de] are
    [to_bytes_uncompressed]/[from_bytes_unchecked_uncompressed]
    (element.rs:57-75; a failed decode is an [expect] panic), [sc_ser]/[sc_de]
    are arkworks' [serialize_compressed]/[deserialize_compressed] on [Fr]
    ([serialize_uncompressed] writes the same bytes). *)
Class ECodec (A : Alg) := mkECodec {
  el_ser : G -> bytes; el_de : bytes -> option G;
  eu_ser : G -> bytes; eu_de : bytes -> option G;
  sc_ser : F -> bytes; sc_de : bytes -> option F
}.

(** For element.rs:37-104. What those encodings guarantee: fixed sizes, decoding undoes encoding, and
    the compressed ones accept a string of the right size only if it is the
    encoding of the result. *)
Class ECodecLaws {A : Alg} (C : ECodec A) : Prop := {
  el_len : forall g, length (el_ser g) = 32%nat;
  el_rt : forall g, el_de (el_ser g) = Some g;
  el_canon : forall b g, is_bytes b -> length b = 32%nat -> el_de b = Some g -> el_ser g = b;
  eu_len : forall g, length (eu_ser g) = 64%nat;
  eu_rt : forall g, eu_de (eu_ser g) = Some g;
  sc_len : forall x, length (sc_ser x) = 32%nat;
  sc_rt : forall x, sc_de (sc_ser x) = Some x;
  sc_canon : forall b x, is_bytes b -> length b = 32%nat -> sc_de b = Some x -> sc_ser x = b
}.

(** proof.rs:26-40 [ExtPresent]. *)
Inductive ExtPresent := ExtNone | ExtDifferentStem | ExtPres.

(** proof.rs:44-51 [VerificationHint]; the [BTreeSet] is its sorted list. *)
Record VerificationHint := mkHint {
  vh_depths : list Z;
  vh_ext : list ExtPresent;
  vh_diff : list bytes
}.

(** For proof.rs:74-94, 188-195. [Read::read_exact] into a buffer of [n] bytes; [None] is the error on a
    short input. *)
Definition read_exact (n : nat) (b : bytes) : option (bytes * bytes) :=
  if (n <=? length b)%nat then Some (firstn n b, skipn n b) else None.

(** For proof.rs:74-75, 86-87, 188-189. [u32::from_le_bytes] after [read_exact], and [(len as u32).to_le_bytes()]. *)
Definition read_u32 (b : bytes) : option (Z * bytes) :=
  match read_exact 4 b with Some (x, r) => Some (le_Z x, r) | None => None end.
(** proof.rs:120, 127, 218. *)
Definition u32_bytes (n : nat) : bytes := Z_le 4 (Z.of_nat n mod 2 ^ 32).

(** proof.rs:78-82, the loop reading the stems into the set. *)
Fixpoint read_stems (n : nat) (acc : list bytes) (b : bytes) : option (list bytes * bytes) :=
  match n with
  | O => Some (acc, b)
  | S n' =>
      match read_exact 31 b with
      | None => None
      | Some (stem, r) => read_stems n' (set_insert stem acc) r
      end
  end.

(** proof.rs:98-106, decoding the two status bits; the fourth value panics. *)
Definition ext_of_byte (byte : Z) : res ExtPresent :=
  let s := Z.land 3 byte in
  if s =? 0 then Ok ExtNone else
  if s =? 1 then Ok ExtDifferentStem else
  if s =? 2 then Ok ExtPres else Panic.

(** proof.rs:95-111, the loop over the packed bytes. *)
Fixpoint read_statuses (buf : bytes) : res (list Z * list ExtPresent) :=
  match buf with
  | [] => Ok ([], [])
  | byte :: buf' =>
      let! e := ext_of_byte byte in
      let depth := Z.shiftr byte 3 in
      let! (ds, es) := read_statuses buf' in
      Ok (depth :: ds, e :: es)
  end.

(** proof.rs:72-119 [VerificationHint::read], returning the hint and the unread
    input.  Simplification: memory exhaustion by [vec![0; num_depths]] is not
    modelled. *)
Definition hint_read (b : bytes) : res (option (VerificationHint * bytes)) :=
  qbind (read_u32 b) (fun '(num_stems, b) =>
  qbind (read_stems (Z.to_nat num_stems) [] b) (fun '(diff, b) =>
  qbind (read_u32 b) (fun '(num_depths, b) =>
  qbind (read_exact (Z.to_nat num_depths) b) (fun '(buffer, b) =>
  let! (depths, exts) := read_statuses buffer in
  Ok (Some (mkHint depths exts diff, b)))))).

(** proof.rs:137-161, one packed byte; [depth << 3] on a [u8] drops the high
    bits.  The [debug_assert!] of line 158 is absent from release builds and
    not modelled. *)
Definition ext_code (e : ExtPresent) : Z :=
  match e with ExtNone => 0 | ExtDifferentStem => 1 | ExtPres => 2 end.
(** proof.rs:137-161. *)
Definition status_byte (depth : Z) (e : ExtPresent) : Z :=
  Z.lor (ext_code e) (Z.shiftl depth 3 mod 256).

(** proof.rs:120-166 [VerificationHint::write] (writing to memory cannot fail).
    [zip] stops at the shorter of the two vectors. *)
Definition hint_write (h : VerificationHint) : bytes :=
  u32_bytes (length (vh_diff h)) ++ concat (vh_diff h) ++
  u32_bytes (length (vh_depths h)) ++
  map (fun '(d, e) => status_byte d e) (combine (vh_depths h) (vh_ext h)).

(** ipa.rs:224-226 [log2]: [n.next_power_of_two().trailing_zeros()]. *)
Definition log2_up (n : nat) : nat := Nat.log2_up n.

Section Wire.
Context {A : Alg} {C : ECodec A}.

(** ipa.rs:16-22 [IPAProof], multiproof.rs:163-171 [MultiPointProof]. *)
Record IPAProof := mkIPA { ipa_L : list G; ipa_R : list G; ipa_a : F }.
(** multiproof.rs:163-171. *)
Record MultiPointProof := mkMP { mp_ipa : IPAProof; mp_g : G }.
(** proof.rs:180-185 [VerkleProof]. *)
Record VerkleProof := mkVP {
  vp_hint : VerificationHint; vp_comms : list G; vp_proof : MultiPointProof
}.

(** ipa.rs:47-52 and 54-59: [n] chunks of 32 bytes, each an element; running
    out of chunks panics ([unwrap]), a bad element is an error. *)
Fixpoint read_points (n : nat) (b : bytes) : res (option (list G * bytes)) :=
  match n with
  | O => Ok (Some ([], b))
  | S n' =>
      let! chunk := slice 0 32 b in
      qbind (el_de chunk) (fun p =>
      let! r := read_points n' (skipn 32 b) in
      qbind r (fun '(ps, b') => Ok (Some (p :: ps, b'))))
  end.

(** ipa.rs:32-64 [IPAProof::from_bytes]. *)
Definition ipa_from_bytes (b : bytes) (poly_degree : nat) : res (option IPAProof) :=
  let num_points := log2_up poly_degree in
  let! _ := assertb (((Z.of_nat num_points * 2) + 1) * 32 =? Z.of_nat (length b) mod 2 ^ 32) in
  let! _ := assertb (length b mod 32 =? 0)%nat in
  let! l := read_points num_points b in
  qbind l (fun '(L, b) =>
  let! r := read_points num_points b in
  qbind r (fun '(R, b) =>
  let! last := slice 0 32 b in
  qbind (sc_de last) (fun a => Ok (Some (mkIPA L R a))))).

(** ipa.rs:80-92, the uncompressed points; a bad element panics. *)
Fixpoint read_upoints (n : nat) (b : bytes) : res (list G * bytes) :=
  match n with
  | O => Ok ([], b)
  | S n' =>
      let! chunk := slice 0 64 b in
      let! p := unwrap (eu_de chunk) in
      let! (ps, b') := read_upoints n' (skipn 64 b) in
      Ok (p :: ps, b')
  end.

(** ipa.rs:65-101 [IPAProof::from_bytes_unchecked_uncompressed]. *)
Definition ipa_from_bytes_uncompressed (b : bytes) (poly_degree : nat) : res (option IPAProof) :=
  let num_points := log2_up poly_degree in
  let! _ := assertb ((Z.of_nat num_points * 2) * 64 + 32 =? Z.of_nat (length b) mod 2 ^ 32) in
  let points_bytes := firstn (length b - 32) b in
  let a_bytes := skipn (length b - 32) b in
  let! _ := assertb (length a_bytes =? 32)%nat in
  let! (L, pb) := read_upoints num_points points_bytes in
  let! (R, _) := read_upoints num_points pb in
  qbind (sc_de a_bytes) (fun a => Ok (Some (mkIPA L R a))).

(** ipa.rs:102-118 [IPAProof::to_bytes]. *)
Definition ipa_to_bytes (p : IPAProof) : bytes :=
  concat (map el_ser (ipa_L p)) ++ concat (map el_ser (ipa_R p)) ++ sc_ser (ipa_a p).

(** ipa.rs:119-134 [IPAProof::to_bytes_uncompressed]. *)
Definition ipa_to_bytes_uncompressed (p : IPAProof) : bytes :=
  concat (map eu_ser (ipa_L p)) ++ concat (map eu_ser (ipa_R p)) ++ sc_ser (ipa_a p).

(** multiproof.rs:175-190 [MultiPointProof::from_bytes]. *)
Definition mp_from_bytes (b : bytes) (poly_degree : nat) : res (option MultiPointProof) :=
  let! g_bytes := slice 0 32 b in
  let! ipa_bytes := slice_from 32 b in
  qbind (el_de g_bytes) (fun g =>
  let! o := ipa_from_bytes ipa_bytes poly_degree in
  qbind o (fun o => Ok (Some (mkMP o g)))).

(** multiproof.rs:192-208 [from_bytes_unchecked_uncompressed]. *)
Definition mp_from_bytes_uncompressed (b : bytes) (poly_degree : nat)
  : res (option MultiPointProof) :=
  let! g_bytes := slice 0 64 b in
  let! ipa_bytes := slice_from 64 b in
  let! g := unwrap (eu_de g_bytes) in
  let! o := ipa_from_bytes_uncompressed ipa_bytes poly_degree in
  qbind o (fun o => Ok (Some (mkMP o g))).

(** multiproof.rs:209-215 [to_bytes], 216-222 [to_bytes_uncompressed]. *)
Definition mp_to_bytes (p : MultiPointProof) : bytes :=
  el_ser (mp_g p) ++ ipa_to_bytes (mp_ipa p).
(** multiproof.rs:214-222. *)
Definition mp_to_bytes_uncompressed (p : MultiPointProof) : bytes :=
  eu_ser (mp_g p) ++ ipa_to_bytes_uncompressed (mp_ipa p).

(** proof.rs:192-202, the commitments: a short input and a bad element are both
    errors. *)
Fixpoint read_comms (n : nat) (b : bytes) : option (list G * bytes) :=
  match n with
  | O => Some ([], b)
  | S n' =>
      match read_exact 32 b with
      | None => None
      | Some (c, r) =>
          match el_de c with
          | None => None
          | Some p =>
              match read_comms n' r with
              | None => None
              | Some (ps, r') => Some (p :: ps, r')
              end
          end
      end
  end.

(** proof.rs:183-212 [VerkleProof::read]; [read_to_end] hands all remaining
    bytes to the multipoint decoder, with degree [VERKLE_NODE_WIDTH] = 256
    (constants.rs). *)
Definition proof_read (b : bytes) : res (option VerkleProof) :=
  let! h := hint_read b in
  qbind h (fun '(hint, b) =>
  qbind (read_u32 b) (fun '(num_comms, b) =>
  qbind (read_comms (Z.to_nat num_comms) b) (fun '(comms, b) =>
  let! p := mp_from_bytes b 256 in
  qbind p (fun p => Ok (Some (mkVP hint comms p)))))).

(** proof.rs:214-231 [VerkleProof::write]. *)
Definition proof_write (p : VerkleProof) : bytes :=
  hint_write (vp_hint p) ++ u32_bytes (length (vp_comms p)) ++
  concat (map el_ser (vp_comms p)) ++ mp_to_bytes (vp_proof p).

(** crs.rs:6-10 [CRS]. *)
Record CRS := mkCRS { crs_n : nat; crs_G : list G; crs_Q : G }.

(** crs.rs:61-68 [CRS::to_bytes]. *)
Definition crs_to_bytes (c : CRS) : list bytes := map eu_ser (crs_G c) ++ [eu_ser (crs_Q c)].

(** crs.rs:39-51 [CRS::from_bytes]. *)
Fixpoint decode_all (l : list bytes) : res (list G) :=
  match l with
  | [] => Ok []
  | b :: l' =>
      let! p := unwrap (eu_de b) in
      let! ps := decode_all l' in
      Ok (p :: ps)
  end.
(** crs.rs:39-51 [CRS::from_bytes]. *)
Definition crs_from_bytes (l : list bytes) : res CRS :=
  match rev l with
  | [] => Panic
  | q_bytes :: g_rev =>
      let! Q := unwrap (eu_de q_bytes) in
      let! Gs := decode_all (rev g_rev) in
      Ok (mkCRS (length Gs) Gs Q)
  end.
End Wire.
