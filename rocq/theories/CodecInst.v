(** Concrete codecs for the example algebras: a lawful one, and one in which
    some group elements are written but refused when read back. *)
From Verif Require Import Base BaseFacts Alg AlgInst TrieModel CodecModel.

(** Little-endian encodings of the representative. *)
Definition ex_de (n : nat) (b : bytes) : option (zp p31) :=
  if (length b =? n)%nat && (le_Z b <? p31) then Some (zred p31 (le_Z b)) else None.
#[export] Instance ExC : Codec ExA := {|
  pt_ser (g : @G ExA) := Z_le 64 (zval p31 g); pt_de := (ex_de 64 : bytes -> option (@G ExA));
  fr_ser (x : @F ExA) := Z_le 32 (zval p31 x); fr_de := (ex_de 32 : bytes -> option (@F ExA))
|}.

Lemma Z_le_len n : forall z, length (Z_le n z) = n.
Proof. induction n; intros; cbn [Z_le length]; auto. Qed.
Lemma le_Z_le n : forall z, 0 <= z < 256 ^ Z.of_nat n -> le_Z (Z_le n z) = z.
Proof.
  induction n as [|n IH]; intros z Hz.
  - cbn in *. lia.
  - cbn [Z_le le_Z]. rewrite Nat2Z.inj_succ, Z.pow_succ_r in Hz by lia. rewrite IH.
    + pose proof (Z.div_mod z 256). lia.
    + split; [apply Z.div_pos; lia|apply Z.div_lt_upper_bound; lia].
Qed.

Lemma ex_rt n (g : zp p31) : (4 <= n)%nat -> ex_de n (Z_le n (zval p31 g)) = Some g.
Proof.
  intros Hn. pose proof (zval_range p31 p31_prime g) as Hr. unfold ex_de. rewrite Z_le_len, Nat.eqb_refl.
  rewrite le_Z_le.
  - destruct (Z.ltb_spec (zval p31 g) p31); [|lia]. cbn [andb]. rewrite (zred_val p31 p31_prime). reflexivity.
  - split; [lia|]. apply Z.lt_le_trans with (256 ^ 4); [unfold p31 in *; lia|]. apply Z.pow_le_mono_r; lia.
Qed.

#[export] Instance ExCL : CodecLaws ExC.
Proof.
  constructor.
  - intros g. apply Z_le_len.
  - intros g. apply (ex_rt 64). lia.
  - intros g. apply Z_le_len.
  - intros g. apply (ex_rt 32). lia.
Qed.

(** Representatives with a torsion part.  An [Element] is a curve point up to
    adding the point (0,-1) of order two; the code stores one of the two
    representatives and arkworks refuses, on reading, the one outside the
    prime-order subgroup.  Here a group element is a pair of a class and one
    bit saying which representative is held.  [of_Z k] times a point scales
    the bit by the parity of [k].  Equality ignores the bit, as
    element.rs:11-34 does.  Generator 0 is held by its refused representative. *)
Definition ExTA : Alg := {|
  F := zp p31; fzero := zred p31 0; fone := zred p31 1;
  fadd := @fadd ExA; fmul := @fmul ExA; fsub := @fsub ExA; fopp := @fopp ExA;
  fdiv := @fdiv ExA; finv := @finv ExA; feqb := @feqb ExA; of_Z := @of_Z ExA;
  G := zp p31 * bool; gzero := (zred p31 0, false);
  gadd x y := (@gadd ExA (fst x) (fst y), xorb (snd x) (snd y));
  gopp x := (@gopp ExA (fst x), snd x);
  smul a x := (@smul ExA a (fst x), Z.odd (zval p31 a) && snd x);
  geqb x y := @geqb ExA (fst x) (fst y)
|}.
Definition ExTP : Par ExTA :=
  @mkPar ExTA (fun x : zp p31 * bool => @hash ExA ExP (fst x))
    (fun i => (@crs ExA ExP i, i =? 0)) (@crsQ ExA ExP, false).
Definition ExTC : Codec ExTA := {|
  pt_ser (g : @G ExTA) := (if snd g then 1 else 0) :: Z_le 63 (zval p31 (fst g));
  pt_de (b : bytes) := (match b with
    | 0 :: b' => match ex_de 63 b' with Some x => Some (x, false) | None => None end
    | _ => None end : option (@G ExTA));
  fr_ser (x : @F ExTA) := Z_le 32 (zval p31 x);
  fr_de := (ex_de 32 : bytes -> option (@F ExTA))
|}.
