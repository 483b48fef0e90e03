(** What an execution witness says, independent of the conversion in [GoModel]. *)
From Verif Require Import Base Alg BTree WireModel WireSpec ProofModel GoModel.

(** ** Hexadecimal *)
(** A digit, in either case. *)
Definition digit (c v : Z) : Prop := (0 <= v <= 9 /\ c = 48 + v) \/ (10 <= v <= 15 /\ (c = 87 + v \/ c = 55 + v)).
(** [s] writes [b]: any number of "0x", then two digits for each byte. *)
Definition hex_means (s b : bytes) : Prop :=
  exists k pairs, s = concat (repeat [48; 120] k) ++ flat_map (fun e => [fst e; snd e]) pairs /\
    Forall2 (fun e x => exists h l, digit (fst e) h /\ digit (snd e) l /\ x = 16 * h + l) pairs b.
(** The usual way of writing: one "0x" and lower-case digits. *)
Definition hex_char (v : Z) : Z := if v <? 10 then 48 + v else 87 + v.
Definition hex_of (b : bytes) : bytes := [48; 120] ++ flat_map (fun x => [hex_char (x / 16); hex_char (x mod 16)]) b.

(** ** Keys and values *)
Definition diff_keys (l : list StateDiff) : list bytes :=
  flat_map (fun s => map (fun d => st_stem s ++ [sd_suffix d]) (st_diffs s)) l.
Definition diff_current (l : list StateDiff) : list (option bytes) := flat_map (fun s => map sd_current (st_diffs s)) l.
Definition diff_new (l : list StateDiff) : list (option bytes) := flat_map (fun s => map sd_new (st_diffs s)) l.

(** ** Sizes *)
Definition sized (n : nat) (b : bytes) : Prop := is_bytes b /\ length b = n.
Definition value_sized (o : option bytes) : Prop := match o with None => True | Some b => sized 32 b end.
Definition state_sized (l : list StateDiff) : Prop :=
  Forall (fun s => sized 31 (st_stem s) /\ Forall (fun d => value_sized (sd_current d) /\ value_sized (sd_new d)) (st_diffs s)) l.
Record go_sized (g : VerkleProofGo) : Prop := {
  gs_state : state_sized (go_state g);
  gs_comms : Forall (sized 32) (go_comms g);
  gs_other : Forall (sized 31) (go_other g);
  gs_d : sized 32 (go_d (go_proof g));
  gs_cl : Forall (sized 32) (go_cl (go_proof g));
  gs_cr : Forall (sized 32) (go_cr (go_proof g));
  gs_final : sized 32 (go_final (go_proof g));
  gs_depths : is_bytes (go_depths g)
}.

(** ** The string form of a witness *)
Definition json_of_go (g : VerkleProofGo) : ExecutionWitness :=
  mkEW (map (fun s => mkJST (hex_of (st_stem s))
               (map (fun d => mkJSD (sd_suffix d) (option_map hex_of (sd_current d)) (option_map hex_of (sd_new d))) (st_diffs s)))
          (go_state g))
       (mkJVP (map hex_of (go_other g)) (hex_of (go_depths g)) (map hex_of (go_comms g)) (hex_of (go_d (go_proof g)))
          (mkJIPA (map hex_of (go_cl (go_proof g))) (map hex_of (go_cr (go_proof g))) (hex_of (go_final (go_proof g))))).

(** The strings of the witness write the bytes. *)
Definition value_means (s b : option bytes) : Prop :=
  match s, b with None, None => True | Some s, Some b => hex_means s b | _, _ => False end.
Record witness_means (w : ExecutionWitness) (g : VerkleProofGo) : Prop := {
  wm_state : Forall2 (fun j s => hex_means (jt_stem j) (st_stem s) /\
      Forall2 (fun x d => js_suffix x = sd_suffix d /\ value_means (js_current x) (sd_current d) /\ value_means (js_new x) (sd_new d))
        (jt_diffs j) (st_diffs s)) (ew_state w) (go_state g);
  wm_other : Forall2 hex_means (jv_other (ew_proof w)) (go_other g);
  wm_comms : Forall2 hex_means (jv_comms (ew_proof w)) (go_comms g);
  wm_d : hex_means (jv_d (ew_proof w)) (go_d (go_proof g));
  wm_cl : Forall2 hex_means (ji_cl (jv_ipa (ew_proof w))) (go_cl (go_proof g));
  wm_cr : Forall2 hex_means (ji_cr (jv_ipa (ew_proof w))) (go_cr (go_proof g));
  wm_final : hex_means (ji_final (jv_ipa (ew_proof w))) (go_final (go_proof g));
  wm_depths : hex_means (jv_depth (ew_proof w)) (go_depths g)
}.

Section Spec.
Context {A : Alg} {C : ECodec A}.
(** A proof and state diffs in the witness format: the scalar is big-endian, depth and status share
    a byte as in the wire format. *)
Definition go_of_proof (p : VerkleProof) (l : list StateDiff) : VerkleProofGo :=
  let i := mp_ipa (vp_proof p) in
  mkGo l (map el_ser (vp_comms p)) (vh_diff (vp_hint p))
    (mkMPGo (el_ser (mp_g (vp_proof p))) (map el_ser (ipa_L i)) (map el_ser (ipa_R i)) (rev (sc_ser (ipa_a i))))
    (map (fun '(d, e) => 8 * d + ext_code e) (combine (vh_depths (vp_hint p)) (vh_ext (vp_hint p)))).

(** What the bytes of a witness say about the proof. *)
Record go_says (g : VerkleProofGo) (p : VerkleProof) : Prop := {
  gy_ext : Forall2 status_means (go_depths g) (vh_ext (vp_hint p));
  gy_depths : vh_depths (vp_hint p) = map (fun b => b / 8) (go_depths g);
  gy_diff : sorted (vh_diff (vp_hint p)) /\ forall s, In s (vh_diff (vp_hint p)) <-> In s (go_other g);
  gy_comms : map el_ser (vp_comms p) = go_comms g;
  gy_d : el_ser (mp_g (vp_proof p)) = go_d (go_proof g);
  gy_cl : map el_ser (ipa_L (mp_ipa (vp_proof p))) = go_cl (go_proof g);
  gy_cr : map el_ser (ipa_R (mp_ipa (vp_proof p))) = go_cr (go_proof g);
  gy_final : rev (sc_ser (ipa_a (mp_ipa (vp_proof p)))) = go_final (go_proof g)
}.

(** The points of a witness decode. *)
Definition points_decode (l : list bytes) : Prop := Forall (fun b => el_de b <> None) l.
End Spec.
