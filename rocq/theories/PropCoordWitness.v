(** C66 on coordinates: execution witnesses and chains of account writes. *)
From Coq Require Import Permutation.
From Verif Require Import Base Alg TreeSpec TrieModel CodecModel MsmModel WireModel WireSpec ProofModel ProofSpec
  IpaModel LagrangeSpec IpaSpec CheckProofs SoundSpec StatelessModel StatelessSpec SpecModel LayoutSpec LayoutInst AccountSpec GoModel GoSpec TruthSpec ChainSpec
  WitnessSpec AccountProofs WitnessCases EventSpec ElementModel ElementSpec CurveModel CurveSpec CurveAlg CurveRep CoordSpec MidInst CoordInst CoordChainSpec CoordWitness CoordWitnessCases.
Local Open Scope list_scope.

Section Coordinates.
Context {B : BaseField} {BL : BaseFieldLaws B} {CL : CurveLaws B} {A : Alg} {AL : AlgLaws A} {I : FrInt A} {SL : ScalarLaws B A I}.
Local Notation RA := (@rep_alg B BL A I).
Local Notation RE := (@rep_ecodec B BL A I).
Local Notation CA := (@curve_alg B BL A I).
Local Notation CE := (@curve_ecodec B BL A I).
Context {RP : Par RA} {CP : Par CA} {HS : Hasher} {J : Json}.

(** [verify_execution_witness] gives the verdict of the group for every root and every JSON text. *)
Theorem C66_coord_verdict : @stands_for B BL A I RP CP -> forall root json,
  @verify_execution_witness RA RE RP HS J root json = @verify_execution_witness CA CE CP HS J root json.
Proof. exact (fun sf root json => coord_verdict root json sf). Qed.

(** The witness of a full node that computes with coordinates is accepted, for the bytes of any coordinates of its root. *)
Theorem C66_coord_witness_accepted_partial : @stands_for B BL A I RP CP -> forall h64, hash_total h64 -> forall w its l order, @domain_fits A 256 ->
  Forall account_item (map fst w) -> its <> [] -> Forall account_item its -> collision_free h64 (its ++ map fst w) ->
  Z.of_nat (length its) < 2 ^ 32 -> (forall l, Permutation (order l) l) ->
  state_sized l -> item_keys h64 its = Ok (diff_keys l) -> diff_current l = map (fun ai => written w (fst ai) (snd ai)) its ->
  exists h db qs hint comms root, insertions h64 w = Ok h /\ @run_mem RA RP h = Ok db /\ @root_commitment RA _ _ db = Ok root /\
    @create_proof_parts RA MemoryDb _ db (diff_keys l) = Ok (Some (qs, hint, comms)) /\
    (@distinguishable CA CP (final_map h) (stems_of h) (diff_keys l) -> @usable_challenges CA CP CE HS (map elem_query qs) ->
     exists p, @create_verkle_proof RA RE HS RP MemoryDb _ order db (diff_keys l) = Ok (Some p) /\
      forall json root', same_coord root root' -> json_de json = Some (json_of_go (@go_of_proof RA RE p l)) ->
        @verify_execution_witness RA RE RP HS J (hex_of (@el_ser RA RE root')) json = Ok true).
Proof. exact (fun sf h64 Htot => coord_account_witness h64 Htot sf). Qed.

(** An accepted witness tells the truth about the accounts, up to the exceptions of C23. *)
Theorem C66_coord_witness_or_event_partial : @stands_for B BL A I RP CP -> forall h64, hash_total h64 ->
  forall open w h (db : @MemoryDb RA) r root json wit g, @domain_fits A 256 ->
  Forall account_item (map fst w) -> insertions h64 w = Ok h -> @run_mem RA RP h = Ok db -> @root_commitment RA _ _ db = Ok r -> hex_means root (@el_ser RA RE r) ->
  json_de json = Some wit -> witness_means wit g -> go_sized g -> Forall is_key (diff_keys (go_state g)) -> NoDup (diff_keys (go_state g)) ->
  (forall p, @go_says CA CE g p -> @opened_block CA CP CE HS open h (witness_block g p)) -> @verify_execution_witness RA RE RP HS J root json = Ok true ->
  (forall a i k v, account_item (a, i) -> collision_free h64 ((a, i) :: map fst w) -> item_key h64 a i = Ok k ->
    In (k, v) (combine (diff_keys (go_state g)) (diff_current (go_state g))) -> v = written w a i \/ @hides CA CE h g k v) \/
  exists p, @go_says CA CE g p /\ @block_event CA CP CE HS open h (witness_block g p).
Proof. exact (fun sf h64 Htot => coord_witness_event h64 Htot sf). Qed.

(** A stateless client that follows honest blocks of account writes ends at the root of any trie with the same account data. *)
Theorem C66_coord_honest_account_chain_partial : @stands_for B BL A I RP CP -> forall h64, hash_total h64 -> forall hash_order, (forall l, Permutation (hash_order l) l) ->
  forall bs ws w w' h (db : @MemoryDb RA) c root,
  Forall account_item (map fst (w ++ concat ws)) -> Forall account_item (map fst w') -> collision_free h64 (map fst (w ++ concat ws) ++ map fst w') ->
  (forall a i, account_item (a, i) -> written (w ++ concat ws) a i = written w' a i) ->
  insertions h64 w = Ok h -> @run_mem RA RP h = Ok db -> @root_commitment RA _ _ db = Ok c -> same_coord c root ->
  @account_blocks RA h64 bs ws -> Forall block_fits bs -> along h bs (@sent_block B BL A I RP HS) -> along h bs within_reach ->
  exists h' (db' : @MemoryDb RA) c' r, insertions h64 w' = Ok h' /\ @run_mem RA RP h' = Ok db' /\ @root_commitment RA _ _ db' = Ok c' /\
    @follow RA RP RE HS hash_order root bs = Ok (VOk r) /\ same_coord c' r.
Proof. exact (fun sf h64 Htot ho Ho => coord_account_honest h64 Htot sf ho Ho). Qed.

(** The same for blocks from anybody, up to the exceptions of C23. *)
Theorem C66_coord_account_chain_or_event_partial : @stands_for B BL A I RP CP -> @domain_fits A 256 ->
  forall h64, hash_total h64 -> forall hash_order, (forall l, Permutation (hash_order l) l) ->
  forall open bs ws w w' h (db : @MemoryDb RA) c root r,
  Forall account_item (map fst (w ++ concat ws)) -> Forall account_item (map fst w') -> collision_free h64 (map fst (w ++ concat ws) ++ map fst w') ->
  (forall a i, account_item (a, i) -> written (w ++ concat ws) a i = written w' a i) ->
  insertions h64 w = Ok h -> @run_mem RA RP h = Ok db -> @root_commitment RA _ _ db = Ok c -> same_coord c root ->
  @account_blocks RA h64 bs ws -> Forall block_fits bs -> along h bs (fun h b => @opened_block CA CP CE HS open h (elem_block b)) ->
  @follow RA RP RE HS hash_order root bs = Ok (VOk r) ->
  (exists h' (db' : @MemoryDb RA) c', insertions h64 w' = Ok h' /\ @run_mem RA RP h' = Ok db' /\ @root_commitment RA _ _ db' = Ok c' /\ same_coord c' r) \/
  exists before b rest, bs = before ++ b :: rest /\ @block_event CA CP CE HS open (after h before) (elem_block b).
Proof. exact (fun sf D h64 Htot ho Ho => coord_account_event h64 Htot sf D ho Ho). Qed.
End Coordinates.

(** The accounts of C66 on the curve of [MidInst]: a witness that is accepted and a block of writes. *)
#[local] Existing Instance Mid_laws.
#[local] Existing Instance toy.
Local Notation RA := (@rep_alg Mid Mid_laws MidF MidI).
Local Notation RE := (@rep_ecodec Mid Mid_laws MidF MidI).
Example C66_coord_witness_case : exists (J : Json) (db : @MemoryDb RA) r p,
  @run_mem RA mid_par acc_h = Ok db /\ @root_commitment RA _ _ db = Ok r /\ json_de [] = Some (json_of_go (@go_of_proof RA RE p acc_diffs)) /\
  @verify_execution_witness RA RE mid_par toy J (hex_of (@el_ser RA RE r)) [] = Ok true.
Proof. exact mid_acc_witness. Qed.
Example C66_coord_chain_case : exists (db : @MemoryDb RA) root b,
  @run_mem RA mid_par acc_h = Ok db /\ @root_commitment RA _ _ db = Ok root /\ @account_blocks RA toy64 [b] [acc_block] /\ Forall block_fits [b] /\
  along acc_h [b] (@sent_block Mid Mid_laws MidF MidI mid_par toy) /\ along acc_h [b] within_reach.
Proof. exact mid_acc_chain. Qed.

Print Assumptions C66_coord_verdict.
Print Assumptions C66_coord_witness_accepted_partial.
Print Assumptions C66_coord_witness_or_event_partial.
Print Assumptions C66_coord_honest_account_chain_partial.
Print Assumptions C66_coord_account_chain_or_event_partial.
Print Assumptions C66_coord_chain_case.
