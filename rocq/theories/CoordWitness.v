(** Execution witnesses and chains of account writes ([WitnessProofs], [EventWitness]) on coordinates. *)
From Coq Require Import Permutation String.
From Verif Require Import Base BaseFacts Alg AlgFacts TreeSpec TrieModel TrieProofs TrieTheorems CodecModel VerkleDbModel MsmModel WireModel WireSpec ProofModel ProofSpec
  IpaModel LagrangeSpec IpaSpec CheckProofs SoundSpec StatelessModel StatelessSpec SpecModel LayoutSpec AccountSpec AccountProofs GoModel GoSpec GoProofs TruthSpec ChainSpec ChainProofs
  WitnessSpec WitnessProofs EventSpec EventProofs EventWitness
  ElementModel ElementSpec ElementProofs CurveModel CurveSpec CurveProofs CurveAlg CurveRep CoordSpec Refine RefineDb RefineProof RefineIpa RepRefine RepProof CoordProofs CoordChainSpec CoordChain.
Local Open Scope list_scope.

Section Rep.
Context {B : BaseField} {BL : BaseFieldLaws B} {CL : CurveLaws B} {A : Alg} {AL : AlgLaws A} {I : FrInt A} {SL : ScalarLaws B A I}.
Local Notation RA := (@rep_alg B BL A I).
Local Notation CA := (@curve_alg B BL A I).
Local Notation RE := (@rep_ecodec B BL A I).
Local Notation CE := (@curve_ecodec B BL A I).
Context {RP : Par RA} {CP : Par CA} {HS : Hasher} {J : Json}.

Lemma elem_elements l : @elements CA CE l = option_map (map elem) (@elements RA RE l).
Proof.
  induction l as [|b l IH]; [reflexivity|]. cbn [elements]. rewrite elem_de. destruct (@el_de RA RE b) as [g|]; [|reflexivity]. cbn [option_map].
  rewrite IH. destruct (@elements RA RE l); reflexivity.
Qed.
Lemma coord_of_go g : @verkle_proof_of_go CA CE g = ok_map (option_map (fun r => (el_vp (fst r), snd r))) (@verkle_proof_of_go RA RE g).
Proof.
  unfold verkle_proof_of_go. destruct (rmap byte_to_depth_extension_present (go_depths g)) as [ed|]; [|reflexivity]. cbn [rbind].
  destruct (all_keys (go_state g)) as [kv|]; [|reflexivity]. cbn [rbind]. rewrite !elem_elements.
  destruct (@elements RA RE (go_comms g)) as [cm|]; [|reflexivity]. cbn [qbind option_map].
  destruct (@elements RA RE (go_cl (go_proof g))) as [cl|]; [|reflexivity]. cbn [qbind option_map].
  destruct (@elements RA RE (go_cr (go_proof g))) as [cr|]; [|reflexivity]. cbn [qbind option_map].
  change (@bytes32_to_scalar CA CE (go_final (go_proof g))) with (@bytes32_to_scalar RA RE (go_final (go_proof g))).
  destruct (@bytes32_to_scalar RA RE (go_final (go_proof g))) as [a|]; [|reflexivity]. cbn [rbind].
  rewrite elem_de. destruct (@el_de RA RE (go_d (go_proof g))); reflexivity.
Qed.
Lemma coord_verdict root json : @stands_for B BL A I RP CP -> @verify_execution_witness RA RE RP HS J root json = @verify_execution_witness CA CE CP HS J root json.
Proof.
  intros [s1 s2 s3 s4]. unfold verify_execution_witness. destruct (json_de json) as [w|]; [|reflexivity]. cbn [unwrap rbind].
  destruct (go_of_witness w) as [g|]; [|reflexivity]. cbn [rbind]. rewrite coord_of_go.
  destruct (@verkle_proof_of_go RA RE g) as [[[p kv]|]|]; [|reflexivity|reflexivity]. cbn [ok_map rbind option_map fst snd].
  destruct (hex_to_bytes32 root) as [rb|]; [|reflexivity]. cbn [rbind]. rewrite elem_de. destruct (@el_de RA RE rb) as [r|]; [|reflexivity]. cbn [option_map].
  rewrite (coord_check s1 s2 s3 s4). destruct (@proof_check RA RE HS RP p (kv_keys kv) (kv_current kv) r) as [[b o]|]; reflexivity.
Qed.
Lemma elem_go p l : @go_of_proof CA CE (el_vp p) l = @go_of_proof RA RE p l.
Proof.
  assert (S : forall l : list Coord, map (@el_ser CA CE) (map elem l) = map (@el_ser RA RE) l) by (intro x; rewrite map_map; apply map_ext; intro; symmetry; apply elem_ser).
  destruct p as [hp cp [[Lp Rp ap] gp]]. unfold go_of_proof. cbn [el_vp vp_map mp_map ipa_map vp_hint vp_comms vp_proof mp_ipa mp_g ipa_L ipa_R ipa_a].
  f_equal; [apply S|]. f_equal; [symmetry; apply elem_ser|apply S|apply S].
Qed.
End Rep.

Section Accounts.
Context {B : BaseField} {BL : BaseFieldLaws B} {CL : CurveLaws B} {A : Alg} {AL : AlgLaws A} {I : FrInt A} {SL : ScalarLaws B A I}.
Local Notation RA := (@rep_alg B BL A I).
Local Notation CA := (@curve_alg B BL A I).
Local Notation RE := (@rep_ecodec B BL A I).
Local Notation CE := (@curve_ecodec B BL A I).
Context {RP : Par RA} {CP : Par CA} {HS : Hasher} {J : Json}.
Variable h64 : bytes -> res bytes.
Hypothesis Htot : hash_total h64.
Hypothesis sf : @stands_for B BL A I RP CP.

Lemma coord_account_witness w its l order : @domain_fits A 256 ->
  Forall account_item (map fst w) -> its <> [] -> Forall account_item its -> collision_free h64 (its ++ map fst w) ->
  Z.of_nat (length its) < 2 ^ 32 -> (forall l, Permutation (order l) l) ->
  state_sized l -> item_keys h64 its = Ok (diff_keys l) -> diff_current l = map (fun ai => written w (fst ai) (snd ai)) its ->
  exists h db qs hint comms root, insertions h64 w = Ok h /\ @run_mem RA RP h = Ok db /\ @root_commitment RA _ _ db = Ok root /\
    @create_proof_parts RA MemoryDb _ db (diff_keys l) = Ok (Some (qs, hint, comms)) /\
    (@distinguishable CA CP (final_map h) (stems_of h) (diff_keys l) -> @usable_challenges CA CP CE HS (map elem_query qs) ->
     exists p, @create_verkle_proof RA RE HS RP MemoryDb _ order db (diff_keys l) = Ok (Some p) /\
      forall json root', same_coord root root' -> json_de json = Some (json_of_go (@go_of_proof RA RE p l)) ->
        @verify_execution_witness RA RE RP HS J (hex_of (@el_ser RA RE root')) json = Ok true).
Proof.
  intros D Hw Hne Hi Hc Hn Ho S Ek Ecur.
  destruct (insertions_ok h64 Htot w Hw) as (h & E & Wf & _).
  assert (X0 : exists db c, @run_mem RA RP h = Ok db /\ @root_commitment RA _ _ db = Ok c).
  { destruct (@root_spec CA curve_laws CP (coord_par_laws (sf_hash _ _ sf)) h Wf) as (d & Er & Rt & _).
    destruct (run_back sf h d _ Er Rt) as (db & c & K1 & K2 & _). eauto. }
  destruct X0 as (db & root & Er & Rt). destruct (run_pair sf h db root Er Rt) as (d & Er2 & R & Rt2). pose proof sf as [s1 s2 s3 s4].
  assert (Y : exists o2, (forall l, Permutation (o2 l) l) /\
    rr False (fun o o' => o' = option_map el_vp o) (@create_verkle_proof RA RE HS RP MemoryDb _ order db (diff_keys l)) (@create_verkle_proof CA CE HS CP MemoryDb _ o2 d (diff_keys l)))
    by exact (coord_create s3 s4 _ False (@mem_sim CA Coord co_zero co_add co_opp (@co_mul B BL A I) co_eqb elem False) order db d (diff_keys l) Ho R).
  destruct Y as (o2 & P2 & X).
  assert (Bs : forall g, is_bytes (@el_ser CA CE g)) by (intro g; cbn [el_ser curve_ecodec]; rewrite (to_bytes_ok _ _ (holds_of_affine (point g))); cbn [unbytes]; apply is_bytes_rev, fq_ser_bytes).
  destruct (@account_witness h64 Htot CA curve_laws CP (coord_par_laws s2) CE curve_ecodec_laws HS J w its l o2 D Bs (fun x => Z_le_bytes 32 _) Hw Hne Hi Hc Hn P2 S Ek Ecur)
    as (h' & d' & qs2 & hint & comms2 & root2 & E' & Er' & Rt' & Ep & K).
  assert (h' = h) by congruence. subst h'. assert (d' = d) by congruence. subst d'. assert (root2 = elem root) by congruence. subst root2.
  assert (Y : rr False (fun o o' => o' = option_map (fun r => (map el_pq (fst (fst r)), snd (fst r), map elem (snd r))) o)
    (@create_proof_parts RA MemoryDb _ db (diff_keys l)) (@create_proof_parts CA MemoryDb _ d (diff_keys l)))
    by exact (coord_parts _ False (@mem_sim CA Coord co_zero co_add co_opp (@co_mul B BL A I) co_eqb elem False) db d (diff_keys l) R).
  rewrite Ep in Y. destruct (@create_proof_parts RA MemoryDb _ db (diff_keys l)) as [[[[qs hint1] comms]|]|] eqn:Ep1; cbn [rr option_map fst snd] in Y; try contradiction; try discriminate.
  assert (Eqs : map el_pq qs = qs2) by congruence. subst qs2.
  exists h, db, qs, hint1, comms, root. split; [exact E|]. split; [exact Er|]. split; [exact Rt|]. split; [exact Ep1|]. intros Hd Hu.
  destruct (K Hd Hu) as (p2 & C2 & V). rewrite C2 in X.
  destruct (@create_verkle_proof RA RE HS RP MemoryDb _ order db (diff_keys l)) as [[p|]|]; cbn [rr option_map] in X; try contradiction; try discriminate.
  assert (p2 = el_vp p) by congruence. subst p2. exists p. split; [reflexivity|]. intros json root' Sr Ej.
  rewrite (coord_verdict _ _ sf). rewrite elem_ser. apply (same_iff (A := A)) in Sr. rewrite <- Sr. apply V. rewrite elem_go. exact Ej.
Qed.

Lemma coord_witness_event open w h (db : @MemoryDb RA) r root json wit g : @domain_fits A 256 ->
  Forall account_item (map fst w) -> insertions h64 w = Ok h -> @run_mem RA RP h = Ok db -> @root_commitment RA _ _ db = Ok r -> hex_means root (@el_ser RA RE r) ->
  json_de json = Some wit -> witness_means wit g -> go_sized g -> Forall is_key (diff_keys (go_state g)) -> NoDup (diff_keys (go_state g)) ->
  (forall p, @go_says CA CE g p -> @opened_block CA CP CE HS open h (witness_block g p)) -> @verify_execution_witness RA RE RP HS J root json = Ok true ->
  (forall a i k v, account_item (a, i) -> collision_free h64 ((a, i) :: map fst w) -> item_key h64 a i = Ok k ->
    In (k, v) (combine (diff_keys (go_state g)) (diff_current (go_state g))) -> v = written w a i \/ @hides CA CE h g k v) \/
  exists p, @go_says CA CE g p /\ @block_event CA CP CE HS open h (witness_block g p).
Proof.
  intros D Hw E Er Rt Hr Ej Mw Gs Hk ND Hop V. destruct (run_pair sf h db r Er Rt) as (d & E2 & _ & Er2).
  rewrite elem_ser in Hr. rewrite (coord_verdict _ _ sf) in V.
  exact (@witness_true_or_event CA curve_laws CP (coord_par_laws (sf_hash _ _ sf)) CE curve_ecodec_laws HS J h64 Htot open w h d (elem r) root json wit g D Hw E E2 Er2 Hr Ej Mw Gs Hk ND Hop V).
Qed.

Lemma elem_account_blocks (bs : list (@block RA)) ws : @account_blocks RA h64 bs ws -> @account_blocks CA h64 (map elem_block bs) ws.
Proof. unfold account_blocks. induction 1 as [|b w bs ws X _ IH]; cbn [map]; constructor; [exact X|exact IH]. Qed.

(** The trie of other writes that leave the same account data. *)
Lemma coord_root_transfer w w' h (db : @MemoryDb RA) c r : Forall account_item (map fst w) -> Forall account_item (map fst w') -> collision_free h64 (map fst w ++ map fst w') ->
  (forall a i, account_item (a, i) -> written w a i = written w' a i) -> insertions h64 w = Ok h ->
  @run_mem RA RP h = Ok db -> @root_commitment RA _ _ db = Ok c -> same_coord c r ->
  exists h' (db' : @MemoryDb RA) c', insertions h64 w' = Ok h' /\ @run_mem RA RP h' = Ok db' /\ @root_commitment RA _ _ db' = Ok c' /\ same_coord c' r.
Proof.
  intros F1 F2 Hc Hs E Er Rt Sr. destruct (run_pair sf h db c Er Rt) as (d & E2 & _ & Er2).
  destruct (@root_transfer h64 Htot CA curve_laws CP (coord_par_laws (sf_hash _ _ sf)) w w' h d _ F1 F2 Hc Hs E E2 Er2) as (h' & d' & X1 & X2 & X3).
  destruct (run_back sf h' d' _ X2 X3) as (db' & c' & Y1 & Y2 & Y3). exists h', db', c'. split; [exact X1|]. split; [exact Y1|]. split; [exact Y2|].
  apply (same_iff (A := A)). apply (same_iff (A := A)) in Sr. congruence.
Qed.
Lemma coord_account_honest ho (Ho : forall l, Permutation (ho l) l) bs ws w w' h (db : @MemoryDb RA) c root :
  Forall account_item (map fst (w ++ concat ws)) -> Forall account_item (map fst w') -> collision_free h64 (map fst (w ++ concat ws) ++ map fst w') ->
  (forall a i, account_item (a, i) -> written (w ++ concat ws) a i = written w' a i) ->
  insertions h64 w = Ok h -> @run_mem RA RP h = Ok db -> @root_commitment RA _ _ db = Ok c -> same_coord c root ->
  @account_blocks RA h64 bs ws -> Forall block_fits bs -> along h bs (@sent_block B BL A I RP HS) -> along h bs within_reach ->
  exists h' (db' : @MemoryDb RA) c' r, insertions h64 w' = Ok h' /\ @run_mem RA RP h' = Ok db' /\ @root_commitment RA _ _ db' = Ok c' /\
    @follow RA RP RE HS ho root bs = Ok (VOk r) /\ same_coord c' r.
Proof.
  intros F1 F2 Hc Hs E Er Rt Sr Hb Hf Hh Hr.
  assert (Fw : Forall account_item (map fst w)) by (rewrite map_app in F1; now apply Forall_app in F1).
  destruct (insertions_ok h64 Htot w Fw) as (h0 & E0 & Wf & _). assert (h0 = h) by congruence. subst h0.
  destruct (coord_chain_honest sf ho Ho bs h db c root Wf Er Rt Sr Hf Hh) as [(_ & db' & c' & r & Er' & Rt' & V & S')|[X _]]; [|contradiction].
  destruct (coord_root_transfer _ w' _ db' c' r F1 F2 Hc Hs (insertions_chain h64 bs ws Hb w h E) Er' Rt' S') as (h2 & db2 & c2 & X1 & X2 & X3 & X4).
  exists h2, db2, c2, r. auto.
Qed.
Lemma coord_account_event (D : @domain_fits A 256) ho (Ho : forall l, Permutation (ho l) l) open bs ws w w' h (db : @MemoryDb RA) c root r :
  Forall account_item (map fst (w ++ concat ws)) -> Forall account_item (map fst w') -> collision_free h64 (map fst (w ++ concat ws) ++ map fst w') ->
  (forall a i, account_item (a, i) -> written (w ++ concat ws) a i = written w' a i) ->
  insertions h64 w = Ok h -> @run_mem RA RP h = Ok db -> @root_commitment RA _ _ db = Ok c -> same_coord c root ->
  @account_blocks RA h64 bs ws -> Forall block_fits bs -> along h bs (fun h b => @opened_block CA CP CE HS open h (elem_block b)) ->
  @follow RA RP RE HS ho root bs = Ok (VOk r) ->
  (exists h' (db' : @MemoryDb RA) c', insertions h64 w' = Ok h' /\ @run_mem RA RP h' = Ok db' /\ @root_commitment RA _ _ db' = Ok c' /\ same_coord c' r) \/
  exists before b rest, bs = before ++ b :: rest /\ @block_event CA CP CE HS open (after h before) (elem_block b).
Proof.
  intros F1 F2 Hc Hs E Er Rt Sr Hb Hf Hop V.
  assert (Fw : Forall account_item (map fst w)) by (rewrite map_app in F1; now apply Forall_app in F1).
  destruct (insertions_ok h64 Htot w Fw) as (h0 & E0 & Wf & _). assert (h0 = h) by congruence. subst h0.
  destruct (coord_chain_event sf D ho Ho open bs h db c root r Wf Er Rt Sr Hf Hop V) as [[(db' & c' & Er' & Rt' & S') _]|He]; [left|right; exact He].
  exact (coord_root_transfer _ w' _ db' c' r F1 F2 Hc Hs (insertions_chain h64 bs ws Hb w h E) Er' Rt' S').
Qed.
End Accounts.
