(** Specification for bytes read without a check (C68): pairs of numbers as 64 bytes, and the pairs that
    the addition law of the curve has a sum for. *)
From Verif Require Import Base Alg FfiModel ElementModel ElementSpec CurveModel CurveSpec.

Section Spec.
Context {B : BaseField}.

(** x and y, 32 bytes each, least significant first. *)
Definition pair_bytes (P : Affine) : bytes := Z_le 32 (q_int (ax P)) ++ Z_le 32 (q_int (ay P)).

(** The denominators 1 + k and 1 - k of the addition law are not zero. *)
Definition summable (P Q : Affine) : Prop :=
  (1 + coeff_d * (ax P * ax Q * ay P * ay Q) <> 0 /\ 1 - coeff_d * (ax P * ax Q * ay P * ay Q) <> 0)%fq.

(** The x coordinate of the two representatives (x, y) and (-x, -y) whose y is the larger one. *)
Definition larger_x (P : Affine) : Fq := if is_positive (ay P) then ax P else (- ax P)%fq.
(** [r] is what an update does to the numbers of [P] if it makes [u] of the commitment to nothing: the same
    error or panic, or the sum, or a panic if there is none. *)
Definition with_update (u : res (fresult bytes)) (P : Affine) (r : res (fresult bytes)) : Prop :=
  match u with
  | Ok (FOk d) => exists D, d = pair_bytes D /\ valid_point D /\
      (summable D P -> r = Ok (FOk (pair_bytes (edwards_sum D P)))) /\ (~ summable D P -> r = Panic)
  | _ => r = u
  end.
End Spec.
