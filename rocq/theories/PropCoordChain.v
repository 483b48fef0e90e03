(** C65, C67, C70 and C71 for programs that compute with coordinates, whatever the generators, and for the default
    generators. *)
From Coq Require Import Permutation.
From Verif Require Import Base Alg AlgInst TreeSpec TrieModel ExData CodecModel VerkleDbModel DbSpec MsmModel WireModel ProofModel ProofSpec
  IpaModel LagrangeSpec IpaSpec SoundSpec StatelessModel StatelessSpec ElementModel CurveModel CurveSpec CurveAlg CurveRep CoordSpec
  Bander RealSpec RealRefine CoordProofs MidInst CoordInst TruthSpec ChainSpec EventSpec CollisionSpec CollisionCases VerkleDbExamples RewriteSpec AgreeSpec AgreeCases
  CoordChainSpec CoordChain CoordChainCases.
Local Open Scope list_scope.
Notation len := List.length.

Section Coordinates.
Context {B : BaseField} {BL : BaseFieldLaws B} {CL : CurveLaws B} {A : Alg} {AL : AlgLaws A} {I : FrInt A} {SL : ScalarLaws B A I}.
Local Notation RA := (@rep_alg B BL A I).
Local Notation RC := (@rep_codec B BL A I).
Local Notation RE := (@rep_ecodec B BL A I).
Local Notation RD := (@verkle_db_ops RA RC).
Local Notation CA := (@curve_alg B BL A I).
Local Notation CE := (@curve_ecodec B BL A I).
Context {RP : Par RA} {CP : Par CA} {HS : Hasher}.

(** C65, honest blocks: the client ends at the root of the full node's trie, or the chain leaves what the update
    can do (C25) and the client panics or reports a key twice. *)
Theorem C65_coord_honest_chain_partial : @stands_for B BL A I RP CP -> forall hash_order, (forall l, Permutation (hash_order l) l) ->
  forall bs h (db : @MemoryDb RA) c root, wf_history h -> @run_mem RA RP h = Ok db -> @root_commitment RA _ _ db = Ok c -> same_coord c root ->
  Forall block_fits bs -> along h bs (@sent_block B BL A I RP HS) ->
  (along h bs within_reach /\ exists (db' : @MemoryDb RA) c' r, @run_mem RA RP (after h bs) = Ok db' /\ @root_commitment RA _ _ db' = Ok c' /\
     @follow RA RP RE HS hash_order root bs = Ok (VOk r) /\ same_coord c' r) \/
  (~ along h bs within_reach /\ (@follow RA RP RE HS hash_order root bs = Panic \/ @follow RA RP RE HS hash_order root bs = Ok (VErr DuplicateKeys))).
Proof. exact coord_chain_honest. Qed.

(** C65, blocks from anybody: a root that the client ends with is that of the trie after all the writes, and what it
    was told was true but for the exception of C23; or a block exhibits an event. *)
Theorem C65_coord_chain_or_event_partial : @stands_for B BL A I RP CP -> @domain_fits A 256 -> forall hash_order, (forall l, Permutation (hash_order l) l) ->
  forall open bs h (db : @MemoryDb RA) c root r, wf_history h -> @run_mem RA RP h = Ok db -> @root_commitment RA _ _ db = Ok c -> same_coord c root ->
  Forall block_fits bs -> along h bs (fun h b => @opened_block CA CP CE HS open h (elem_block b)) ->
  @follow RA RP RE HS hash_order root bs = Ok (VOk r) ->
  ((exists (db' : @MemoryDb RA) c', @run_mem RA RP (after h bs) = Ok db' /\ @root_commitment RA _ _ db' = Ok c' /\ same_coord c' r) /\
   along h bs (fun h' b => forall k v, In (k, v) (combine (bl_keys b) (bl_values b)) ->
     final_map h' k = v \/ hidden (stems_of h') (vp_hint (bl_proof b)) (bl_keys b) k v)) \/
  exists before b rest, bs = before ++ b :: rest /\ @block_event CA CP CE HS open (after h before) (elem_block b).
Proof. exact coord_chain_event. Qed.

(** C71: two clients that follow honest blocks to the same root hash speak of the same values, or the tries contain
    a collision. *)
Theorem C71_coord_honest_clients : @stands_for B BL A I RP CP ->
  forall ho1 ho2, (forall l, Permutation (ho1 l) l) -> (forall l, Permutation (ho2 l) l) ->
  forall bs1 bs2 g1 g2 (db1 db2 : @MemoryDb RA) c1 c2 root1 root2 r1 r2,
  wf_history g1 -> wf_history g2 -> @run_mem RA RP g1 = Ok db1 -> @root_commitment RA _ _ db1 = Ok c1 -> same_coord c1 root1 ->
  @run_mem RA RP g2 = Ok db2 -> @root_commitment RA _ _ db2 = Ok c2 -> same_coord c2 root2 ->
  Forall block_fits bs1 -> Forall block_fits bs2 -> along g1 bs1 (@sent_block B BL A I RP HS) -> along g2 bs2 (@sent_block B BL A I RP HS) ->
  @follow RA RP RE HS ho1 root1 bs1 = Ok (VOk r1) -> @follow RA RP RE HS ho2 root2 bs2 = Ok (VOk r2) ->
  @scalars_apart CA (final_map (after g1 bs1)) (stems_of (after g1 bs1)) (stems_of (after g2 bs2)) (map (fun kv => Some (snd kv)) (after g2 bs2)) ->
  @hash RA RP r1 = @hash RA RP r2 ->
  (forall k, final_map (after g1 bs1) k = final_map (after g2 bs2) k) \/ @collision CA CP (after g1 bs1) (after g2 bs2).
Proof. exact coord_honest_clients. Qed.

(** C67: a trie on disk whose flushed values were changed answers with the last values and has exactly this root;
    or it panics, and then a node record that it wrote itself is refused by its reader (C56). *)
Theorem C67_coord_exact_root_partial : @stands_for B BL A I RP CP -> forall l, wf_ops l -> settled_ops l ->
  (exists v c, @run_disk RA RP RC l = Ok v /\ (forall k, @trie_get RA _ RD v k = Ok (final_map (contents l) k)) /\
     @root_commitment RA _ RD v = Ok c /\ elem c = @spec_root CA CP (final_map (tallied l)) (stems_of (contents l)) /\
     @root_hash RA _ RD v = Ok (@hash RA RP c)) \/
  (@run_disk RA RP RC l = Panic /\ exists l1 l2 v, l = l1 ++ l2 /\ @run_disk RA RP RC l1 = Ok v /\ @record_refused RA RC (vd_storage v)).
Proof. exact coord_rewritten. Qed.

(** C70: the root hash of a trie on disk tells the totals, and against a trie in memory the contents. *)
Theorem C70_coord_root_totals_partial : @stands_for B BL A I RP CP -> (forall a, 0 < a < 2 ^ 248 -> @of_Z A a <> fzero) -> forall l1 l2 v1 v2,
  wf_ops l1 -> settled_ops l1 -> wf_ops l2 -> settled_ops l2 ->
  (forall k v, In (OInsert k v) (l1 ++ l2) -> is_value v) -> Z.of_nat (len (l1 ++ l2)) < 2 ^ 100 ->
  @run_disk RA RP RC l1 = Ok v1 -> @run_disk RA RP RC l2 = Ok v2 -> @root_hash RA _ RD v1 = @root_hash RA _ RD v2 ->
  (forall k, totals l1 k = totals l2 k) \/ @collision CA CP (summed l1) (summed l2).
Proof. exact coord_root_totals. Qed.
Theorem C70_coord_memory_root_partial : @stands_for B BL A I RP CP -> (forall a, 0 < a < 2 ^ 248 -> @of_Z A a <> fzero) -> forall l h v (db : @MemoryDb RA),
  wf_ops l -> settled_ops l -> (forall k v, In (OInsert k v) l -> is_value v) -> Z.of_nat (len l) < 2 ^ 100 ->
  wf_history h -> Forall (fun kv => is_value (snd kv)) h ->
  @run_disk RA RP RC l = Ok v -> @run_mem RA RP h = Ok db -> @root_hash RA _ RD v = @root_hash RA _ _ db ->
  (forall k, @trie_get RA _ RD v k = @trie_get RA _ _ db k) /\ ~ rewrites l \/ @collision CA CP h (tallied l).
Proof. exact coord_memory_binds. Qed.
End Coordinates.

(** The coordinates, generators and hash of the library. *)
Local Notation RA := (@rep_alg Bander bander_laws BanderF BanderI).
Local Notation RC := (@rep_codec Bander bander_laws BanderF BanderI).
Local Notation RD := (@verkle_db_ops RA RC).
Theorem C70_coord_default_refuted : exists v1 v2, @run_disk RA default_par RC up_ops = Ok v1 /\ @run_disk RA default_par RC down_ops = Ok v2 /\
  @root_hash RA _ RD v1 = @root_hash RA _ RD v2 /\
  @trie_get RA _ RD v1 e1 = Ok (Some (val 3)) /\ @trie_get RA _ RD v2 e1 = Ok (Some (val 1)).
Proof. exact default_coord_swapped. Qed.
Theorem C70_coord_default_root_totals_partial : forall l1 l2 v1 v2, wf_ops l1 -> settled_ops l1 -> wf_ops l2 -> settled_ops l2 ->
  (forall k v, In (OInsert k v) (l1 ++ l2) -> is_value v) -> Z.of_nat (len (l1 ++ l2)) < 2 ^ 100 ->
  @run_disk RA default_par RC l1 = Ok v1 -> @run_disk RA default_par RC l2 = Ok v2 -> @root_hash RA _ RD v1 = @root_hash RA _ RD v2 ->
  (forall k, totals l1 k = totals l2 k) \/ @collision real_alg real_par (summed l1) (summed l2).
Proof. exact default_coord_totals. Qed.
Theorem C70_coord_default_memory_root_partial : forall l h v (db : @MemoryDb RA),
  wf_ops l -> settled_ops l -> (forall k v, In (OInsert k v) l -> is_value v) -> Z.of_nat (len l) < 2 ^ 100 ->
  wf_history h -> Forall (fun kv => is_value (snd kv)) h ->
  @run_disk RA default_par RC l = Ok v -> @run_mem RA default_par h = Ok db -> @root_hash RA _ RD v = @root_hash RA _ _ db ->
  (forall k, @trie_get RA _ RD v k = @trie_get RA _ _ db k) /\ ~ rewrites l \/ @collision real_alg real_par h (tallied l).
Proof. exact default_coord_memory. Qed.

Print Assumptions C65_coord_honest_chain_partial.
Print Assumptions C65_coord_chain_or_event_partial.
Print Assumptions C71_coord_honest_clients.
Print Assumptions C67_coord_exact_root_partial.
Print Assumptions C70_coord_root_totals_partial.
Print Assumptions C70_coord_memory_root_partial.
Print Assumptions C70_coord_default_refuted.
Print Assumptions C70_coord_default_root_totals_partial.
Print Assumptions C70_coord_default_memory_root_partial.

(** Two blocks within reach on a curve of 4804 points, of which the first changes values; *)
Example C65_coord_case : exists (db : @MemoryDb (@rep_alg Mid Mid_laws MidF MidI)) root b1 b2,
  wf_history mid_h /\ @run_mem _ mid_par mid_h = Ok db /\ @root_commitment _ _ (@memory_db_ops _) db = Ok root /\
  bl_keys b1 = mid_keys /\ bl_updated b1 = mid_updated /\ bl_keys b2 = [slot_key] /\ bl_updated b2 = [None] /\
  Forall block_fits [b1; b2] /\ along mid_h [b1; b2] (@sent_block Mid Mid_laws MidF MidI mid_par toy) /\ along mid_h [b1; b2] within_reach /\
  (exists k v, In (k, v) (block_writes b1) /\ final_map mid_h k <> Some v).
Proof. exact mid_chain. Qed.
(** and one with the default generators. *)
Example C65_coord_default_case : exists (db : @MemoryDb RA) root b,
  wf_history mid_h /\ @run_mem RA default_par mid_h = Ok db /\ @root_commitment RA _ _ db = Ok root /\
  bl_keys b = [slot_key] /\ bl_updated b = [None] /\ block_fits b /\
  along mid_h [b] (@sent_block Bander bander_laws BanderF BanderI default_par toy) /\ along mid_h [b] within_reach.
Proof. exact default_block. Qed.
(** Two clients at one root, with the default generators. *)
Example C71_coord_case : exists (db : @MemoryDb RA) root b,
  wf_history mid_h /\ @run_mem RA default_par mid_h = Ok db /\ @root_commitment RA _ _ db = Ok root /\ Forall block_fits [b] /\
  along mid_h [b] (@sent_block Bander bander_laws BanderF BanderI default_par toy) /\ along mid_h [] (@sent_block Bander bander_laws BanderF BanderI default_par toy) /\
  @scalars_apart (@curve_alg Bander bander_laws BanderF BanderI) (final_map (after mid_h [b])) (stems_of (after mid_h [b])) (stems_of (@after RA mid_h [])) (map (fun kv => Some (snd kv)) (@after RA mid_h [])) /\
  forall ho, (forall l, Permutation (ho l) l) -> exists r, @follow RA default_par (@rep_ecodec Bander bander_laws BanderF BanderI) toy ho root [b] = Ok (VOk r) /\
    @follow RA default_par (@rep_ecodec Bander bander_laws BanderF BanderI) toy ho root [] = Ok (VOk root) /\ @hash RA default_par r = @hash RA default_par root.
Proof. exact default_clients. Qed.
(** The hypotheses of C70 and C67 with the default generators. *)
Example C70_coord_case : (wf_ops up_ops /\ settled_ops up_ops /\ wf_ops down_ops /\ settled_ops down_ops /\
  (forall k v, In (OInsert k v) (up_ops ++ down_ops) -> is_value v)) /\ Z.of_nat (len (up_ops ++ down_ops)) < 2 ^ 100 /\ rewrites up_ops /\
  (forall k, totals up_ops k = totals down_ops k).
Proof. exact swap_coord_case. Qed.
