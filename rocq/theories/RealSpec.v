(** Specification for the theorems about the default generators: reading back what was written, which
    generators fail, and the parameters of the other models made of them. *)
From Verif Require Import Base Alg MsmModel CodecModel WireModel IpaModel ElementModel ElementSpec CurveModel CurveSpec CurveAlg CurveRep Bander CrsModel DefaultCrs.
Local Open Scope Z_scope.

(** The uncompressed bytes of the element are accepted by the reader that checks them. *)
Definition readable {B : BaseField} (e : Element) : bool :=
  match serialize_uncompressed e with
  | Ok b => match deserialize_uncompressed b with Some _ => true | None => false end
  | Panic => false
  end.
(** Both coordinates in a 64-byte string are below the modulus. *)
Definition coordinates_below {B : BaseField} (b : bytes) : Prop :=
  le_Z (firstn 32 b) < q_modulus /\ le_Z (firstn 32 (skipn 32 b)) < q_modulus.

(** Positions, among the 257 default generators, of those that are not. *)
Definition unreadable_generators : list nat := [
  0; 2; 3; 4; 7; 8; 10; 11; 14; 15; 16; 17; 19; 22; 28; 30; 31; 32; 36; 40; 42; 44; 45; 46; 50; 51; 52; 56; 57; 58; 59; 60; 63; 65; 67; 68; 70;
  72; 73; 76; 77; 79; 81; 85; 86; 90; 91; 95; 97; 98; 101; 104; 105; 110; 111; 112; 114; 118; 119; 120; 121; 125; 127; 130; 132; 134; 136; 140;
  143; 147; 148; 152; 156; 159; 161; 163; 164; 168; 169; 170; 172; 173; 174; 178; 181; 182; 183; 187; 188; 189; 191; 192; 195; 196; 198; 200;
  207; 209; 210; 211; 213; 215; 219; 220; 221; 222; 223; 224; 225; 226; 227; 229; 230; 231; 232; 233; 235; 241; 242; 243; 244; 245; 246; 249;
  254; 255]%nat.
Definition unreadable (i : Z) : bool := existsb (Nat.eqb (Z.to_nat i)) unreadable_generators.

(** crs.rs:12-16 [CRS::default], as the generators of the models on coordinates. *)
#[local] Existing Instance bander_laws.
Definition co_element (e : @Element Bander) : Coord := match to_affine e with Ok P => co_of P | Panic => co_zero end.
Definition par_of (r : res (list (@Element Bander) * @Element Bander)) : Par (@rep_alg Bander bander_laws BanderF BanderI) :=
  match r with
  | Ok (gens, Q) => @rep_par Bander bander_laws BanderF BanderI (fun i => co_element (nth (Z.to_nat i) gens element_zero)) (co_element Q)
  | Panic => @rep_par Bander bander_laws BanderF BanderI (fun _ => co_zero) co_zero
  end.
Definition default_par : Par (@rep_alg Bander bander_laws BanderF BanderI) := par_of (@crs_from_bytes Bander default_crs_bytes).

(** The same with one value per element, as the other models use them. *)
Definition real_alg : Alg := @curve_alg Bander bander_laws BanderF BanderI.
Definition real_par_of (r : res (list (@Element Bander) * @Element Bander)) : Par real_alg :=
  match r with
  | Ok (gens, Q) => @curve_par Bander bander_laws BanderF BanderI (fun i => group_of (nth (Z.to_nat i) gens element_zero)) (group_of Q)
  | Panic => @curve_par Bander bander_laws BanderF BanderI (fun _ => pt_zero) pt_zero
  end.
Definition real_par : Par real_alg := real_par_of (@crs_from_bytes Bander default_crs_bytes).
Definition real_codec : Codec real_alg := @curve_codec Bander bander_laws BanderF BanderI.
Definition real_ecodec : ECodec real_alg := @curve_ecodec Bander bander_laws BanderF BanderI.
Definition real_int : FrInt real_alg := (@fr_int BanderF BanderI : @F real_alg -> Z).
