(** Clients that follow chains of blocks and nodes on disk, at the same root. *)
From Coq Require Import Permutation.
From Verif Require Import Base BaseFacts Alg AlgFacts TreeSpec TreeFacts TrieModel TrieProofs TrieTheorems WireModel ProofModel ProofSpec IpaModel LagrangeSpec IpaSpec
  CheckProofs SoundSpec StatelessModel StatelessSpec CodecModel VerkleDbModel DbSpec TruthSpec ChainSpec ChainProofs EventSpec EventProofs
  CollisionSpec CollisionProofs RewriteSpec RewriteFacts AgreeSpec AgreeProofs.
Local Open Scope list_scope.
Notation len := List.length.

Section AgreeChain.
Context {A : Alg} {L : AlgLaws A} {P : Par A} {PL : ParLaws P} {C : ECodec A} {CL : ECodecLaws C} {H : Hasher}.

Lemma after_wf h bs : wf_history h -> Forall block_fits bs -> wf_history (after h bs).
Proof.
  intros Hw Hf. apply Forall_app. split; [exact Hw|]. apply Forall_forall. intros kv Hi. apply in_flat_map in Hi as (b & Hb & Hi).
  rewrite Forall_forall in Hf. destruct (Hf b Hb) as (Hk & _). pose proof (writes_keys (bl_keys b) (bl_updated b) Hk) as W.
  unfold wf_history in W. rewrite Forall_forall in W. exact (W kv Hi).
Qed.
Lemma commitment_hash (db : MemoryDb) r : root_commitment db = Ok r -> forall h, wf_history h -> run_mem h = Ok db -> root_hash db = Ok (hash r).
Proof.
  intros E h W R. destruct (run_mem_canon h W) as (db' & R' & Cn). rewrite R in R'. injection R' as <-.
  destruct (canon_root _ _ _ Cn) as [A1 A2]. rewrite A2. rewrite A1 in E. revert E. generalize (spec_root (final_map h) (stems_of h)).
  intros g E. injection E as ->. reflexivity.
Qed.

(** Two tries given by histories, at the same root hash. *)
Lemma maps_agree h1 h2 (db1 db2 : MemoryDb) r1 r2 : wf_history h1 -> wf_history h2 ->
  scalars_apart (final_map h1) (stems_of h1) (stems_of h2) (map (fun kv => Some (snd kv)) h2) ->
  run_mem h1 = Ok db1 -> root_commitment db1 = Ok r1 -> run_mem h2 = Ok db2 -> root_commitment db2 = Ok r2 -> hash r1 = hash r2 ->
  (forall k, final_map h1 k = final_map h2 k) \/ collision h1 h2.
Proof.
  intros W1 W2 S R1 C1 R2 C2 E.
  pose proof (commitment_hash db1 r1 C1 h1 W1 R1) as H1. pose proof (commitment_hash db2 r2 C2 h2 W2 R2) as H2. rewrite E, <- H2 in H1.
  destruct (root_binds_apart h1 h2 db1 db2 W1 W2 S R1 R2 H1) as [G|G]; [left|right; exact G].
  intros k. specialize (G k). destruct (get_last h1 W1) as (d1 & X1 & Y1). rewrite R1 in X1. injection X1 as <-.
  destruct (get_last h2 W2) as (d2 & X2 & Y2). rewrite R2 in X2. injection X2 as <-. rewrite Y1, Y2 in G. now injection G as G.
Qed.

Lemma honest_clients ho1 ho2 (Ho1 : forall l, Permutation (ho1 l) l) (Ho2 : forall l, Permutation (ho2 l) l)
  bs1 bs2 h1 h2 (db1 db2 : MemoryDb) root1 root2 r1 r2 :
  wf_history h1 -> wf_history h2 -> run_mem h1 = Ok db1 -> root_commitment db1 = Ok root1 -> run_mem h2 = Ok db2 -> root_commitment db2 = Ok root2 ->
  Forall block_fits bs1 -> Forall block_fits bs2 -> along h1 bs1 honest_block -> along h2 bs2 honest_block ->
  follow ho1 root1 bs1 = Ok (VOk r1) -> follow ho2 root2 bs2 = Ok (VOk r2) ->
  scalars_apart (final_map (after h1 bs1)) (stems_of (after h1 bs1)) (stems_of (after h2 bs2)) (map (fun kv => Some (snd kv)) (after h2 bs2)) ->
  hash r1 = hash r2 ->
  (forall k, final_map (after h1 bs1) k = final_map (after h2 bs2) k) \/ collision (after h1 bs1) (after h2 bs2).
Proof.
  intros W1 W2 R1 C1 R2 C2 F1 F2 A1 A2 E1 E2 S E.
  destruct (chain_honest ho1 Ho1 bs1 h1 db1 root1 W1 R1 C1 F1 A1) as [[_ (d1 & g1 & X1 & Y1 & Z1)]|[_ [Z1|Z1]]]; rewrite Z1 in E1; try discriminate E1.
  destruct (chain_honest ho2 Ho2 bs2 h2 db2 root2 W2 R2 C2 F2 A2) as [[_ (d2 & g2 & X2 & Y2 & Z2)]|[_ [Z2|Z2]]]; rewrite Z2 in E2; try discriminate E2.
  injection E1 as ->. injection E2 as ->.
  exact (maps_agree _ _ d1 d2 r1 r2 (after_wf h1 bs1 W1 F1) (after_wf h2 bs2 W2 F2) S X1 Y1 X2 Y2 E).
Qed.

Lemma clients_agree (Fit : domain_fits 256) ho1 ho2 (Ho1 : forall l, Permutation (ho1 l) l) (Ho2 : forall l, Permutation (ho2 l) l)
  open1 open2 bs1 bs2 h1 h2 (db1 db2 : MemoryDb) root1 root2 r1 r2 :
  wf_history h1 -> wf_history h2 -> run_mem h1 = Ok db1 -> root_commitment db1 = Ok root1 -> run_mem h2 = Ok db2 -> root_commitment db2 = Ok root2 ->
  Forall block_fits bs1 -> Forall block_fits bs2 -> along h1 bs1 (opened_block open1) -> along h2 bs2 (opened_block open2) ->
  follow ho1 root1 bs1 = Ok (VOk r1) -> follow ho2 root2 bs2 = Ok (VOk r2) ->
  scalars_apart (final_map (after h1 bs1)) (stems_of (after h1 bs1)) (stems_of (after h2 bs2)) (map (fun kv => Some (snd kv)) (after h2 bs2)) ->
  hash r1 = hash r2 ->
  (forall k, final_map (after h1 bs1) k = final_map (after h2 bs2) k) \/ collision (after h1 bs1) (after h2 bs2) \/
  (exists before b rest, bs1 = before ++ b :: rest /\ block_event open1 (after h1 before) b) \/
  (exists before b rest, bs2 = before ++ b :: rest /\ block_event open2 (after h2 before) b).
Proof.
  intros W1 W2 R1 C1 R2 C2 F1 F2 A1 A2 E1 E2 S E.
  destruct (chain_or_event ho1 Ho1 Fit open1 bs1 h1 db1 root1 r1 W1 R1 C1 F1 A1 E1) as [[(d1 & X1 & Y1) _]|X]; [|right; right; left; exact X].
  destruct (chain_or_event ho2 Ho2 Fit open2 bs2 h2 db2 root2 r2 W2 R2 C2 F2 A2 E2) as [[(d2 & X2 & Y2) _]|X]; [|right; right; right; exact X].
  destruct (maps_agree _ _ d1 d2 r1 r2 (after_wf h1 bs1 W1 F1) (after_wf h2 bs2 W2 F2) S X1 Y1 X2 Y2 E) as [X|X]; [left; exact X|right; left; exact X].
Qed.

(** A client and a node that keeps its trie on disk. *)
Context {K : Codec A} {KL : CodecLaws K}.
Lemma client_and_disk (Big : forall a, 0 < a < 2 ^ 248 -> of_Z a <> fzero) (Fit : domain_fits 256) ho (Ho : forall l, Permutation (ho l) l)
  open bs h (db : MemoryDb) root r l v :
  wf_history h -> run_mem h = Ok db -> root_commitment db = Ok root -> Forall block_fits bs -> along h bs (opened_block open) ->
  Forall (fun kv => is_value (snd kv)) (after h bs) -> follow ho root bs = Ok (VOk r) ->
  wf_ops l -> settled_ops l -> (forall k v, In (OInsert k v) l -> is_value v) -> Z.of_nat (len l) < 2 ^ 100 ->
  run_disk l = Ok v -> root_hash v = Ok (hash r) ->
  ((forall k, trie_get v k = Ok (final_map (after h bs) k)) /\ ~ rewrites l) \/ collision (after h bs) (tallied l) \/
  (exists before b rest, bs = before ++ b :: rest /\ block_event open (after h before) b).
Proof.
  intros W R C1 F A1 V E Wl Sl Vl Nl Ev Er.
  destruct (chain_or_event ho Ho Fit open bs h db root r W R C1 F A1 E) as [[(d & X & Y) _]|X]; [|right; right; exact X].
  pose proof (after_wf h bs W F) as Wa. pose proof (commitment_hash d r Y _ Wa X) as Hd. rewrite <- Hd in Er.
  destruct (memory_binds Big l (after h bs) v d Wl Sl Vl Nl Wa V Ev X Er) as [[G N]|G]; [left|right; left; exact G].
  split; [|exact N]. intros k. rewrite G. destruct (get_last _ Wa) as (d' & X' & Y'). rewrite X in X'. injection X' as <-. apply Y'.
Qed.
End AgreeChain.
