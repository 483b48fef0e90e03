(** Execution witnesses: verkle-trie/src/proof/golang_proof_format.rs and [verify_execution_witness]
    of ffi_interface/src/lib.rs.  Strings are lists of UTF-8 bytes. *)
From Verif Require Import Base Alg BTree WireModel ProofModel IpaModel CodecModel.

(** ** Hexadecimal *)
(** [str::trim_start_matches("0x")]: removes the prefix as often as it occurs. *)
Fixpoint trim_0x (s : bytes) : bytes :=
  match s with
  | c :: d :: s' => if (c =? 48) && (d =? 120) then trim_0x s' else s
  | _ => s
  end.

(** For golang_proof_format.rs:206 and 213. [hex::decode] (external): pairs of digits of either case; an odd number of digits and other
    characters are errors. *)
Definition hex_digit (c : Z) : option Z :=
  if (48 <=? c) && (c <=? 57) then Some (c - 48)
  else if (97 <=? c) && (c <=? 102) then Some (c - 87)
  else if (65 <=? c) && (c <=? 70) then Some (c - 55)
  else None.
(** golang_proof_format.rs:206 and 213, whole strings. *)
Fixpoint hex_decode (s : bytes) : option bytes :=
  match s with
  | [] => Some []
  | [_] => None
  | c :: d :: s' =>
      match hex_digit c, hex_digit d, hex_decode s' with
      | Some h, Some l, Some r => Some (16 * h + l :: r)
      | _, _, _ => None
      end
  end.

(** golang_proof_format.rs:204-210 [hex_to_fixed_size_array], 198-203 [hex_to_bytes32] and
    [hex_to_bytes31], 211-217 [hex_to_bytes]; [copy_from_slice] panics unless the lengths agree. *)
Definition hex_to_fixed_size_array (n : nat) (hex : bytes) : res bytes :=
  let! b := unwrap (hex_decode (trim_0x hex)) in
  let! _ := assertb (length b =? n)%nat in
  Ok b.
(** golang_proof_format.rs:198-200. *)
Definition hex_to_bytes32 := hex_to_fixed_size_array 32.
(** golang_proof_format.rs:201-203. *)
Definition hex_to_bytes31 := hex_to_fixed_size_array 31.
(** golang_proof_format.rs:211-217. *)
Definition hex_to_bytes (hex : bytes) : res bytes := unwrap (hex_decode (trim_0x hex)).

(** ** The parsed JSON: [serde_conversions] (293-344) *)
(** golang_proof_format.rs:313-319 [SuffixDiff]. *)
Record JSuffixDiff := mkJSD { js_suffix : Z; js_current : option bytes; js_new : option bytes }.
(** golang_proof_format.rs:306-310 [StateDiff]. *)
Record JStateDiff := mkJST { jt_stem : bytes; jt_diffs : list JSuffixDiff }.
(** golang_proof_format.rs:335-340 [IpaProof]. *)
Record JIpaProof := mkJIPA { ji_cl : list bytes; ji_cr : list bytes; ji_final : bytes }.
(** golang_proof_format.rs:322-332 [VerkleProof]. *)
Record JVerkleProof := mkJVP {
  jv_other : list bytes; jv_depth : bytes; jv_comms : list bytes; jv_d : bytes; jv_ipa : JIpaProof }.
(** golang_proof_format.rs:298-303 [ExecutionWitness]. *)
Record ExecutionWitness := mkEW { ew_state : list JStateDiff; ew_proof : JVerkleProof }.

(** For golang_proof_format.rs:124-125. [serde_json::from_str] (external). *)
Class Json := json_de : bytes -> option ExecutionWitness.

(** ** The proof in bytes (9-18, 48-60, 191-196) *)
(** golang_proof_format.rs:9-13. *)
Record SuffixDiff := mkSD { sd_suffix : Z; sd_current : option bytes; sd_new : option bytes }.
(** golang_proof_format.rs:15-18. *)
Record StateDiff := mkST { st_stem : bytes; st_diffs : list SuffixDiff }.
(** golang_proof_format.rs:191-196. *)
Record MultiPointProofGo := mkMPGo { go_d : bytes; go_cl : list bytes; go_cr : list bytes; go_final : bytes }.
(** golang_proof_format.rs:48-54. *)
Record VerkleProofGo := mkGo {
  go_state : list StateDiff; go_comms : list bytes; go_other : list bytes;
  go_proof : MultiPointProofGo; go_depths : bytes }.
(** golang_proof_format.rs:56-60. *)
Record KeysValues := mkKV { kv_keys : list bytes; kv_current : list (option bytes); kv_new : list (option bytes) }.

(** golang_proof_format.rs:137-138, one optional value in [from_json_str]. *)
Definition opt_hex (o : option bytes) : res (option bytes) :=
  match o with None => Ok None | Some s => let! b := hex_to_bytes32 s in Ok (Some b) end.
(** golang_proof_format.rs:135-139, one suffix. *)
Definition suffix_of_json (j : JSuffixDiff) : res SuffixDiff :=
  let! c := opt_hex (js_current j) in
  let! n := opt_hex (js_new j) in
  Ok (mkSD (js_suffix j) c n).
(** golang_proof_format.rs:130-141, one stem. *)
Definition state_of_json (j : JStateDiff) : res StateDiff :=
  let! stem := hex_to_bytes31 (jt_stem j) in
  let! l := rmap suffix_of_json (jt_diffs j) in
  Ok (mkST stem l).

(** golang_proof_format.rs:123-188, [from_json_str] after the parser. *)
Definition go_of_witness (w : ExecutionWitness) : res VerkleProofGo :=
  let v := ew_proof w in
  let! state_diffs := rmap state_of_json (ew_state w) in
  let! other_stems := rmap hex_to_bytes31 (jv_other v) in
  let! commitments_by_path := rmap hex_to_bytes32 (jv_comms v) in
  let! d := hex_to_bytes32 (jv_d v) in
  let! cl := rmap hex_to_bytes32 (ji_cl (jv_ipa v)) in
  let! cr := rmap hex_to_bytes32 (ji_cr (jv_ipa v)) in
  let! final_evaluation := hex_to_bytes32 (ji_final (jv_ipa v)) in
  let! depths := hex_to_bytes (jv_depth v) in
  Ok (mkGo state_diffs commitments_by_path other_stems (mkMPGo d cl cr final_evaluation) depths).

(** golang_proof_format.rs:23-45 [keys_with_current_values]; the key has 32 bytes because the stem has 31. *)
Definition keys_with_current_values (s : StateDiff) : res (list bytes * list (option bytes) * list (option bytes)) :=
  let! keys := rmap (fun d =>
    let key := st_stem s ++ [sd_suffix d] in
    let! _ := assertb (length key =? 32)%nat in Ok key) (st_diffs s) in
  Ok (keys, map sd_current (st_diffs s), map sd_new (st_diffs s)).

(** golang_proof_format.rs:71-80, the loop over the stems. *)
Fixpoint all_keys (l : list StateDiff) : res KeysValues :=
  match l with
  | [] => Ok (mkKV [] [] [])
  | s :: l' =>
      let! (k, c, n) := keys_with_current_values s in
      let! r := all_keys l' in
      Ok (mkKV (k ++ kv_keys r) (c ++ kv_current r) (n ++ kv_new r))
  end.

(** golang_proof_format.rs:226-236 [byte_to_depth_extension_present]. *)
Definition byte_to_depth_extension_present (value : Z) : res (ExtPresent * Z) :=
  let s := Z.land value 3 in
  let! e := if s =? 0 then Ok ExtNone else if s =? 1 then Ok ExtDifferentStem
            else if s =? 2 then Ok ExtPres else Panic in
  Ok (e, Z.shiftr value 3).

Section Go.
Context {A : Alg} {C : ECodec A}.

(** golang_proof_format.rs:82-95, the loops with [bytes32_to_element(..)?] (218-220). *)
Fixpoint elements (l : list bytes) : option (list G) :=
  match l with
  | [] => Some []
  | b :: l' =>
      match el_de b with
      | None => None
      | Some g => match elements l' with None => None | Some gs => Some (g :: gs) end
      end
  end.

(** golang_proof_format.rs:221-224 [bytes32_to_scalar]. *)
Definition bytes32_to_scalar (b : bytes) : res F := unwrap (sc_de (rev b)).

(** golang_proof_format.rs:63-121 [from_verkle_proof_go_to_verkle_proof].  The statements run in this order; the scalar is
    decoded before [d]. *)
Definition verkle_proof_of_go (g : VerkleProofGo) : res (option (VerkleProof * KeysValues)) :=
  let! ed := rmap byte_to_depth_extension_present (go_depths g) in
  let! kv := all_keys (go_state g) in
  qbind (elements (go_comms g)) (fun comms_sorted =>
  qbind (elements (go_cl (go_proof g))) (fun l_vec =>
  qbind (elements (go_cr (go_proof g))) (fun r_vec =>
  let! a := bytes32_to_scalar (go_final (go_proof g)) in
  qbind (el_de (go_d (go_proof g))) (fun g_x_comm =>
  let diff := fold_left (fun s x => set_insert x s) (go_other g) [] in
  Ok (Some (mkVP (mkHint (map snd ed) (map fst ed) diff) comms_sorted (mkMP (mkIPA l_vec r_vec a) g_x_comm), kv)))))).

Context {P : Par A} {H : Hasher} {J : Json}.

(** ffi_interface/src/lib.rs:397-414 [verify_execution_witness]. *)
Definition verify_execution_witness (root json : bytes) : res bool :=
  let! w := unwrap (json_de json) in
  let! go := go_of_witness w in
  let! o := verkle_proof_of_go go in
  match o with
  | None => Ok false
  | Some (vp, kv) =>
      let! rb := hex_to_bytes32 root in
      match el_de rb with
      | None => Ok false
      | Some r =>
          let! (ok, _) := proof_check vp (kv_keys kv) (kv_current kv) r in
          Ok ok
      end
  end.
End Go.
