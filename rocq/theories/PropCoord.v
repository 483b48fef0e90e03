(** The trie, its store, proofs and the stateless update with group elements held as the coordinates the code computes
    with (C56, C59, C60, C61), and what follows for proofs sent as bytes (C03, C17).  An element of the group has two
    pairs of coordinates; the code keeps whichever its additions led to. *)
From Coq Require Import Permutation String.
From Verif Require Import Base Alg TreeSpec TrieModel CodecModel VerkleDbModel DbSpec MsmModel WireModel WireSpec WireProofs ProofModel ProofSpec
  IpaModel LagrangeSpec IpaSpec CheckProofs StatelessModel StatelessSpec ElementModel ElementSpec ElementInst CurveModel CurveSpec CurveInst CurveAlg CurveRep CoordSpec
  RootTotal RepRefine RepProof SameProofs CreatedFits Bander RealSpec CoordProofs MidInst CoordInst CoordCases.
Local Open Scope list_scope.

(** ** In any group *)
Section Group.
Context {A : Alg} {AL : AlgLaws A} {P : Par A} {PL : ParLaws P} {C : ECodec A} {CL : ECodecLaws C} {H : Hasher}.
(** C17.  A proof made by the prover is read back from its bytes. *)
Theorem C17_created_proof_round_trip : forall h (db : MemoryDb) keys order p,
  wf_history h -> run_mem h = Ok db -> Forall is_key keys -> 36 * Z.of_nat (List.length keys) < 2 ^ 32 ->
  create_verkle_proof order db keys = Ok (Some p) -> proof_read (proof_write p) = Ok (Some p).
Proof. exact (fun h db keys order p Hw E Hk Hn Cr => proof_rt p (created_fits h db keys order p Hw E Hk Hn Cr)). Qed.
(** C03.  Two tries with the same contents give the same proof, whatever the order in which the prover's hash
    maps are walked. *)
Theorem C03_same_proof : domain_fits 256 -> forall h1 h2 (db1 db2 : MemoryDb) keys order1 order2 p1,
  wf_history h1 -> wf_history h2 -> (forall k, final_map h1 k = final_map h2 k) ->
  run_mem h1 = Ok db1 -> run_mem h2 = Ok db2 -> Forall is_key keys ->
  (forall l, Permutation (order1 l) l) -> (forall l, Permutation (order2 l) l) ->
  create_verkle_proof order1 db1 keys = Ok (Some p1) ->
  exists qs, create_proof_parts db1 keys = Ok (Some (qs, vp_hint p1, vp_comms p1)) /\
  (outside_domain 256 (fst (mp_t (tr_new (lbl "vt"%string)) (map public_query qs) (mp_g (vp_proof p1)))) ->
   create_verkle_proof order2 db2 keys = Ok (Some p1)).
Proof. exact same_contents_proof. Qed.
End Group.

(** A trie on disk that did not panic has a root. *)
Theorem C56_root_always {A : Alg} {P : Par A} {C : Codec A} : forall l v, run_disk l = Ok v ->
  exists c x, root_commitment v = Ok c /\ root_hash v = Ok x.
Proof. exact root_answers. Qed.

(** ** On coordinates *)
Section Coord.
Context {B : BaseField} {BL : BaseFieldLaws B} {CL : CurveLaws B} {A : Alg} {AL : AlgLaws A} {I : FrInt A} {SL : ScalarLaws B A I}.
Local Notation RA := (@rep_alg B BL A I).
Local Notation RC := (@rep_codec B BL A I).
Local Notation RE := (@rep_ecodec B BL A I).
Local Notation RD := (@verkle_db_ops RA RC).
Local Notation CA := (@curve_alg B BL A I).
Local Notation CC := (@curve_codec B BL A I).
Local Notation CE := (@curve_ecodec B BL A I).
Local Notation CD := (@verkle_db_ops CA CC).

(** The theorems below are for generators [RP] given by coordinates and their elements [CP].  Any coordinates will do. *)
Theorem C59_any_generators : forall (gens : Z -> Coord) (Q : Coord),
  @stands_for B BL A I (rep_par gens Q) (curve_par (fun i => elem (gens i)) (elem Q)).
Proof. exact stands_any. Qed.

Context {RP : Par RA} {CP : Par CA} {HS : Hasher}.

(** C59.  On coordinates no insertion panics, reads return the last value, and the root is, as an element, the
    commitment computed from scratch; its hash is that of its coordinates. *)
Theorem C59_trie : stands_for RP CP -> forall h, wf_history h ->
  exists db c, @run_mem RA RP h = Ok db /\ (forall k, @trie_get RA _ _ db k = Ok (final_map h k)) /\
    @root_commitment RA _ _ db = Ok c /\ elem c = @spec_root CA CP (final_map h) (stems_of h) /\
    @root_hash RA _ _ db = Ok (@hash RA RP c).
Proof. exact (fun sf h => sf_trie sf h). Qed.
(** Every row of the tables holds coordinates of the element that the trie over the group holds there. *)
Theorem C59_tables : stands_for RP CP -> forall h,
  match @run_mem RA RP h, @run_mem CA CP h with
  | Ok d1, Ok d2 => (forall k, leaf_table d1 k = leaf_table d2 k) /\
      (forall s, stem_table d2 s = option_map (fun m : @StemMeta RA => @mkStemMeta CA (elem (sm_c1 m)) (sm_hash_c1 m) (elem (sm_c2 m)) (sm_hash_c2 m) (elem (sm_comm m)) (sm_hash_comm m)) (stem_table d1 s)) /\
      (forall p, branch_table d2 p = option_map (fun c : @BranchChild RA => match c with CStem s => @CStem CA s | CBranch m => CBranch (@mkBranchMeta CA (elem (bm_comm m)) (bm_hash m)) end) (branch_table d1 p))
  | Panic, Panic => True
  | _, _ => False
  end.
Proof. exact (fun sf h => sf_tables sf h). Qed.
(** The same contents give roots that compare equal, have equal bytes and equal hashes. *)
Theorem C59_same_root : stands_for RP CP -> forall h1 h2, wf_history h1 -> wf_history h2 -> (forall k, final_map h1 k = final_map h2 k) ->
  exists db1 db2 c1 c2 x, @run_mem RA RP h1 = Ok db1 /\ @run_mem RA RP h2 = Ok db2 /\
    @root_commitment RA _ _ db1 = Ok c1 /\ @root_commitment RA _ _ db2 = Ok c2 /\
    element_eqb (of_affine (coords c1)) (of_affine (coords c2)) = true /\
    to_bytes (of_affine (coords c1)) = to_bytes (of_affine (coords c2)) /\
    @root_hash RA _ _ db1 = Ok x /\ @root_hash RA _ _ db2 = Ok x.
Proof. exact (fun sf h1 h2 => sf_same_root sf h1 h2). Qed.
(** A trie on disk, for any operations: it differs from the trie over the group only if it panics, and then it
    did so with a record in its store that its own reader refuses. *)
Theorem C59_disk : stands_for RP CP -> forall l,
  match @run_disk RA RP RC l, @run_disk CA CP CC l with
  | Ok v1, Ok v2 => (forall k, @trie_get RA _ RD v1 k = @trie_get CA _ CD v2 k) /\
      (exists c x, @root_commitment RA _ RD v1 = Ok c /\ @root_commitment CA _ CD v2 = Ok (elem c) /\
         @root_hash RA _ RD v1 = Ok x /\ @root_hash CA _ CD v2 = Ok x)
  | Panic, Panic => True
  | Panic, Ok _ => exists l1 l2 v, l = l1 ++ l2 /\ @run_disk RA RP RC l1 = Ok v /\ @record_refused RA RC (vd_storage v)
  | Ok _, Panic => False
  end.
Proof. exact (fun sf l => sf_disk sf l). Qed.

(** C56.  In the histories of C09, the trie on disk answers like the trie in memory or panics on such a record. *)
Theorem C56_history_partial : stands_for RP CP -> forall l, wf_ops l -> settled_ops l -> no_rewrite l ->
  (exists v db c x, @run_disk RA RP RC l = Ok v /\ @run_mem RA RP (contents l) = Ok db /\
     (forall k, @trie_get RA _ RD v k = @trie_get RA _ _ db k) /\
     @root_commitment RA _ RD v = Ok c /\ @root_hash RA _ RD v = Ok x /\
     (exists c', @root_commitment RA _ _ db = Ok c' /\ same_coord c c') /\
     @root_hash RA _ _ db = Ok x) \/
  (@run_disk RA RP RC l = Panic /\ exists l1 l2 v, l = l1 ++ l2 /\ @run_disk RA RP RC l1 = Ok v /\ @record_refused RA RC (vd_storage v)).
Proof. exact (fun sf l => sf_history sf l). Qed.
(** After any operations, a flushed trie panics when it is opened exactly if the coordinates of its root are not
    of prime order. *)
Theorem C56_reopen_exactly : forall l v c, @run_disk RA RP RC l = Ok v -> @root_commitment RA _ RD v = Ok c ->
  (@run_disk RA RP RC (l ++ [OFlush; OReopen]) = Panic <-> point_check (coords c) = false).
Proof. exact (fun l v c => coord_reopen l v c). Qed.

(** C60.  Proofs. *)
Theorem C60_honest_accepted_partial : stands_for RP CP -> @domain_fits A 256 -> forall h db keys order,
  wf_history h -> @run_mem RA RP h = Ok db -> keys <> [] -> Forall is_key keys ->
  @distinguishable CA CP (final_map h) (stems_of h) keys -> (forall l, Permutation (order l) l) ->
  exists qs hint comms root, @create_proof_parts RA MemoryDb _ db keys = Ok (Some (qs, hint, comms)) /\ @root_commitment RA _ _ db = Ok root /\
    (@usable_challenges CA CP CE HS (map elem_query qs) -> exists p uh,
       @create_verkle_proof RA RE HS RP MemoryDb _ order db keys = Ok (Some p) /\ vp_hint p = hint /\ vp_comms p = comms /\
       @proof_check RA RE HS RP p keys (map (final_map h) keys) root = Ok (true, Some uh)).
Proof. exact (fun sf fits h db keys order => sf_honest sf fits h db keys order). Qed.
(** The check answers alike for other coordinates of the same elements, in the proof and in the root. *)
Theorem C60_check_of_elements : stands_for RP CP -> forall p q root root' keys values, same_proof p q -> same_coord root root' ->
  same_outcome (fun a b => fst a = fst b /\ (snd a = None <-> snd b = None))
    (@proof_check RA RE HS RP p keys values root) (@proof_check RA RE HS RP q keys values root').
Proof. exact (fun sf p q root root' keys values => sf_check sf p q root root' keys values). Qed.
(** Proofs have equal bytes exactly if their elements are equal. *)
Theorem C60_bytes_of_elements : forall p q : @VerkleProof RA, proof_fits p -> proof_fits q ->
  (@proof_write RA RE p = @proof_write RA RE q <-> same_proof p q).
Proof. exact (fun p q => write_same p q). Qed.
(** A proof is made, written and read, and so is the root: what was read is accepted. *)
Theorem C60_end_to_end_partial : stands_for RP CP -> @domain_fits A 256 -> forall h db keys order p,
  wf_history h -> @run_mem RA RP h = Ok db -> keys <> [] -> Forall is_key keys ->
  @distinguishable CA CP (final_map h) (stems_of h) keys -> (forall l, Permutation (order l) l) ->
  36 * Z.of_nat (List.length keys) < 2 ^ 32 -> @create_verkle_proof RA RE HS RP MemoryDb _ order db keys = Ok (Some p) ->
  exists root q root' qs uh, @root_commitment RA _ _ db = Ok root /\
    @proof_read RA RE (@proof_write RA RE p) = Ok (Some q) /\ @el_de RA RE (@el_ser RA RE root) = Some root' /\
    @create_verifier_queries RA RP (vp_hint p) (vp_comms p) keys (map (final_map h) keys) root = Ok (Some (qs, uh)) /\
    (@outside_domain RA 256 (fst (@mp_t RA RE HS (tr_new (lbl "vt"%string)) qs (mp_g (vp_proof p)))) ->
     exists uh', @proof_check RA RE HS RP q keys (map (final_map h) keys) root' = Ok (true, Some uh')).
Proof. exact (fun sf fits h db keys order p => sf_end_to_end sf fits h db keys order p). Qed.
(** Two tries with the same contents give proofs with the same bytes. *)
Theorem C60_same_bytes : stands_for RP CP -> @domain_fits A 256 -> forall h1 h2 db1 db2 keys o1 o2 p1,
  wf_history h1 -> wf_history h2 -> (forall k, final_map h1 k = final_map h2 k) ->
  @run_mem RA RP h1 = Ok db1 -> @run_mem RA RP h2 = Ok db2 -> Forall is_key keys ->
  (forall l, Permutation (o1 l) l) -> (forall l, Permutation (o2 l) l) ->
  @create_verkle_proof RA RE HS RP MemoryDb _ o1 db1 keys = Ok (Some p1) ->
  exists qs, @create_proof_parts RA MemoryDb _ db1 keys = Ok (Some (qs, vp_hint p1, vp_comms p1)) /\
  (@outside_domain RA 256 (fst (@mp_t RA RE HS (tr_new (lbl "vt"%string)) (map public_query qs) (mp_g (vp_proof p1)))) ->
   exists p2, @create_verkle_proof RA RE HS RP MemoryDb _ o2 db2 keys = Ok (Some p2) /\ same_proof p1 p2 /\ @proof_write RA RE p1 = @proof_write RA RE p2).
Proof. exact (fun sf fits h1 h2 db1 db2 keys o1 o2 p1 => sf_same_proof sf fits h1 h2 db1 db2 keys o1 o2 p1). Qed.
(** The trie on disk gives the bytes of the trie in memory, or panics on a record that its reader refuses. *)
Theorem C60_disk_partial : stands_for RP CP -> @domain_fits A 256 -> forall l v db keys o1 o2 p, wf_ops l -> settled_ops l -> no_rewrite l ->
  @run_disk RA RP RC l = Ok v -> @run_mem RA RP (contents l) = Ok db -> Forall is_key keys ->
  (forall g, Permutation (o1 g) g) -> (forall g, Permutation (o2 g) g) ->
  @create_verkle_proof RA RE HS RP MemoryDb _ o1 db keys = Ok (Some p) ->
  exists qs, @create_proof_parts RA MemoryDb _ db keys = Ok (Some (qs, vp_hint p, vp_comms p)) /\
  (@outside_domain RA 256 (fst (@mp_t RA RE HS (tr_new (lbl "vt"%string)) (map public_query qs) (mp_g (vp_proof p)))) ->
   (exists q, @create_verkle_proof RA RE HS RP (@VerkleDb RA) RD o2 v keys = Ok (Some q) /\ same_proof p q /\ @proof_write RA RE p = @proof_write RA RE q) \/
   (@create_verkle_proof RA RE HS RP (@VerkleDb RA) RD o2 v keys = Panic /\ @record_refused RA RC (vd_storage v))).
Proof. exact (fun sf fits l v db keys o1 o2 p => sf_disk_proof sf fits l v db keys o1 o2 p). Qed.

(** C61.  The stateless update answers alike for other coordinates of the same elements. *)
Theorem C61_update_of_elements : stands_for RP CP -> forall hash_order p q root root' keys values updated, same_proof p q -> same_coord root root' ->
  same_outcome same_update (@verify_and_update RA RP hash_order HS RE p root keys values updated) (@verify_and_update RA RP hash_order HS RE q root' keys values updated).
Proof. exact (fun sf ho p q root root' keys values updated => sf_update sf ho p q root root' keys values updated). Qed.
(** With a received proof and root it gives the root of the updated trie. *)
Theorem C61_stateless_partial : stands_for RP CP -> forall h db keys updated proof_order hash_order p root q root',
  wf_history h -> @run_mem RA RP h = Ok db -> @root_commitment RA _ _ db = Ok root ->
  Forall is_key keys -> NoDup keys -> List.length updated = List.length keys ->
  (forall l, Permutation (proof_order l) l) -> (forall l, Permutation (hash_order l) l) ->
  @create_verkle_proof RA RE HS RP MemoryDb _ proof_order db keys = Ok (Some p) ->
  same_proof p q -> same_coord root root' ->
  (exists uh, @proof_check RA RE HS RP q keys (map (final_map h) keys) root' = Ok (true, uh)) ->
  (forall k v, In (k, v) (writes keys updated) -> occupied (stems_of h) k) ->
  exists db' r r', @trie_insert RA RP _ _ db (writes keys updated) = Ok db' /\ @root_commitment RA _ _ db' = Ok r /\
    @verify_and_update RA RP hash_order HS RE q root' keys (map (final_map h) keys) updated = Ok (VOk r') /\ same_coord r r'.
Proof. exact (fun sf h db keys updated po ho p root q root' => sf_stateless sf h db keys updated po ho p root q root'). Qed.
Theorem C61_empty_slot_refuted : stands_for RP CP -> forall h db keys updated proof_order hash_order p root q root' k v,
  wf_history h -> @run_mem RA RP h = Ok db -> @root_commitment RA _ _ db = Ok root ->
  Forall is_key keys -> NoDup keys -> List.length updated = List.length keys ->
  (forall l, Permutation (proof_order l) l) -> (forall l, Permutation (hash_order l) l) ->
  @create_verkle_proof RA RE HS RP MemoryDb _ proof_order db keys = Ok (Some p) ->
  same_proof p q -> same_coord root root' ->
  (exists uh, @proof_check RA RE HS RP q keys (map (final_map h) keys) root' = Ok (true, uh)) ->
  In (k, v) (writes keys updated) -> ~ occupied (stems_of h) k ->
  @verify_and_update RA RP hash_order HS RE q root' keys (map (final_map h) keys) updated = Panic.
Proof. exact (fun sf h db keys updated po ho p root q root' k v => sf_stateless_panics sf h db keys updated po ho p root q root' k v). Qed.
End Coord.

(** The generators of [CRS::default] on the real curve: the hypotheses of the theorems above hold of them. *)
Theorem C59_default_generators : @stands_for Bander bander_laws BanderF BanderI default_par real_par.
Proof. exact default_stands. Qed.
Theorem C60_default_domain : @domain_fits BanderF 256.
Proof. exact real_fits. Qed.

(** ** Cases *)
(** A curve of 20 points: two histories with the same contents lead to other coordinates of the same root; and a store
    that is reopened, added to, and then cannot be opened. *)
Example C59_case : (forall k, final_map tiny_h1 k = final_map tiny_h2 k) /\
  exists db1 db2 c1 c2, @run_mem (@rep_alg B13 B13_laws A5 I5) tiny_par tiny_h1 = Ok db1 /\ @run_mem (@rep_alg B13 B13_laws A5 I5) tiny_par tiny_h2 = Ok db2 /\
    @root_commitment (@rep_alg B13 B13_laws A5 I5) _ _ db1 = Ok c1 /\ @root_commitment (@rep_alg B13 B13_laws A5 I5) _ _ db2 = Ok c2 /\
    coords c1 <> coords c2 /\ same_coord c1 c2.
Proof. exact (conj tiny_final tiny_roots). Qed.
Example C56_history_case : (wf_ops tiny_ops /\ settled_ops tiny_ops /\ no_rewrite tiny_ops) /\
  (exists v c, @run_disk (@rep_alg B13 B13_laws A5 I5) tiny_par (@rep_codec B13 B13_laws A5 I5) tiny_ops = Ok v /\
     @root_commitment (@rep_alg B13 B13_laws A5 I5) _ (@verkle_db_ops _ (@rep_codec B13 B13_laws A5 I5)) v = Ok c /\ point_check (coords c) = false) /\
  @run_disk (@rep_alg B13 B13_laws A5 I5) tiny_par (@rep_codec B13 B13_laws A5 I5) (tiny_ops ++ [OFlush; OReopen]) = Panic.
Proof. exact (conj tiny_ops_ok tiny_reopen). Qed.
(** A curve of 4804 points, four keys of which one has no stem and one sits in an empty slot: the proof is made,
    sent, accepted, and used for an update. *)
Example C60_case : exists db root p q root' db' r r',
  @run_mem (@rep_alg Mid Mid_laws MidF MidI) mid_par mid_h = Ok db /\ @root_commitment (@rep_alg Mid Mid_laws MidF MidI) _ _ db = Ok root /\
  @create_verkle_proof (@rep_alg Mid Mid_laws MidF MidI) (@rep_ecodec Mid Mid_laws MidF MidI) toy mid_par MemoryDb _ (fun l => l) db mid_keys = Ok (Some p) /\
  @proof_read _ (@rep_ecodec Mid Mid_laws MidF MidI) (@proof_write _ (@rep_ecodec Mid Mid_laws MidF MidI) p) = Ok (Some q) /\
  @el_de _ (@rep_ecodec Mid Mid_laws MidF MidI) (@el_ser _ (@rep_ecodec Mid Mid_laws MidF MidI) root) = Some root' /\
  (exists uh, @proof_check _ (@rep_ecodec Mid Mid_laws MidF MidI) toy mid_par q mid_keys (map (final_map mid_h) mid_keys) root' = Ok (true, Some uh)) /\
  @trie_insert (@rep_alg Mid Mid_laws MidF MidI) mid_par _ _ db (writes mid_keys mid_updated) = Ok db' /\ @root_commitment (@rep_alg Mid Mid_laws MidF MidI) _ _ db' = Ok r /\
  @verify_and_update (@rep_alg Mid Mid_laws MidF MidI) mid_par (@rev bytes) toy (@rep_ecodec Mid Mid_laws MidF MidI) q root' mid_keys (map (final_map mid_h) mid_keys) mid_updated = Ok (VOk r') /\
  same_coord r r' /\
  @verify_and_update (@rep_alg Mid Mid_laws MidF MidI) mid_par (@rev bytes) toy (@rep_ecodec Mid Mid_laws MidF MidI) q root' mid_keys (map (final_map mid_h) mid_keys) mid_updated2 = Panic.
Proof. exact mid_case. Qed.
(** The default generators: a proof that a key in an empty slot is absent. *)
Example C60_default_case : exists db root p q root',
  @run_mem (@rep_alg Bander bander_laws BanderF BanderI) default_par mid_h = Ok db /\ @root_commitment (@rep_alg Bander bander_laws BanderF BanderI) _ _ db = Ok root /\
  @create_verkle_proof (@rep_alg Bander bander_laws BanderF BanderI) (@rep_ecodec Bander bander_laws BanderF BanderI) toy default_par MemoryDb _ (fun l => l) db [slot_key] = Ok (Some p) /\
  @proof_read _ (@rep_ecodec Bander bander_laws BanderF BanderI) (@proof_write _ (@rep_ecodec Bander bander_laws BanderF BanderI) p) = Ok (Some q) /\
  @el_de _ (@rep_ecodec Bander bander_laws BanderF BanderI) (@el_ser _ (@rep_ecodec Bander bander_laws BanderF BanderI) root) = Some root' /\
  (exists uh, @proof_check _ (@rep_ecodec Bander bander_laws BanderF BanderI) toy default_par q [slot_key] [None] root' = Ok (true, Some uh)) /\
  @verify_and_update (@rep_alg Bander bander_laws BanderF BanderI) default_par (@rev bytes) toy (@rep_ecodec Bander bander_laws BanderF BanderI) q root' [slot_key] [None] [Some (repeat 5 32)] = Panic.
Proof. exact real_case. Qed.
(** In the group: one proof from two histories and two orders, read back from its bytes. *)
Example C17_created_case : exists db db2 p, @run_mem (@curve_alg Mid Mid_laws MidF MidI) mid_cpar mid_h = Ok db /\ @run_mem (@curve_alg Mid Mid_laws MidF MidI) mid_cpar mid_h2 = Ok db2 /\
  @create_verkle_proof (@curve_alg Mid Mid_laws MidF MidI) (@curve_ecodec Mid Mid_laws MidF MidI) toy mid_cpar MemoryDb _ (fun l => l) db mid_keys = Ok (Some p) /\
  @create_verkle_proof (@curve_alg Mid Mid_laws MidF MidI) (@curve_ecodec Mid Mid_laws MidF MidI) toy mid_cpar MemoryDb _ (@rev _) db2 mid_keys = Ok (Some p) /\
  @proof_read _ (@curve_ecodec Mid Mid_laws MidF MidI) (@proof_write _ (@curve_ecodec Mid Mid_laws MidF MidI) p) = Ok (Some p).
Proof. exact mid_group_case. Qed.

Print Assumptions C17_created_proof_round_trip.
Print Assumptions C03_same_proof.
Print Assumptions C56_root_always.
Print Assumptions C59_any_generators.
Print Assumptions C59_trie.
Print Assumptions C59_tables.
Print Assumptions C59_same_root.
Print Assumptions C59_disk.
Print Assumptions C56_history_partial.
Print Assumptions C56_reopen_exactly.
Print Assumptions C60_honest_accepted_partial.
Print Assumptions C60_check_of_elements.
Print Assumptions C60_bytes_of_elements.
Print Assumptions C60_end_to_end_partial.
Print Assumptions C60_same_bytes.
Print Assumptions C60_disk_partial.
Print Assumptions C61_update_of_elements.
Print Assumptions C61_stateless_partial.
Print Assumptions C61_empty_slot_refuted.
Print Assumptions C59_default_generators.
Print Assumptions C60_default_domain.
Print Assumptions C59_case.
Print Assumptions C56_history_case.
Print Assumptions C60_case.
Print Assumptions C60_default_case.
Print Assumptions C17_created_case.
