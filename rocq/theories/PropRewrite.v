(** Property theorems C67: what a trie on disk commits to when flushed values are written again. *)
From Verif Require Import Base Alg AlgInst TreeSpec TrieModel CodecModel VerkleDbModel DbSpec CodecInst VerkleDbExamples
  CollisionSpec RealSpec RewriteSpec RewriteSim RewriteProofs RewriteFacts RewriteCases.
Local Open Scope list_scope.

(** C67, proved part (stems settled as in C09; the flushed values are free): nothing panics, every [get] returns
    the value last written, and the root commitment is that of a trie in which each key has, as its two scalars,
    the sums over one value for every period between two flushes that changed the key. *)
Theorem C67_exact_root_partial :
  forall (A : Alg) (L : AlgLaws A) (P : Par A) (PL : ParLaws P) (C : Codec A) (CL : CodecLaws C) (l : list Op),
  wf_ops l -> settled_ops l ->
  exists v, run_disk l = Ok v /\ (forall k, trie_get v k = Ok (final_map (contents l) k)) /\
    root_commitment v = Ok (spec_root (final_map (tallied l)) (stems_of (contents l))) /\
    root_hash v = Ok (hash (spec_root (final_map (tallied l)) (stems_of (contents l)))) /\
    counts (final_map (tallied l)) (counted l) /\ (forall k, hd_error (counted l k) = final_map (contents l) k).
Proof. intros A L P PL C CL. exact exact_root. Qed.
Print Assumptions C67_exact_root_partial.

(** With no second value counting for any key the roots are those of the trie in memory; that is so if no flushed value is changed. *)
Theorem C67_right_root_partial :
  forall (A : Alg) (L : AlgLaws A) (P : Par A) (PL : ParLaws P) (C : Codec A) (CL : CodecLaws C) (l : list Op),
  wf_ops l -> settled_ops l -> ~ rewrites l ->
  exists v db, run_disk l = Ok v /\ run_mem (contents l) = Ok db /\
    root_commitment v = root_commitment db /\ root_hash v = root_hash db.
Proof. intros A L P PL C CL. exact right_root. Qed.
Print Assumptions C67_right_root_partial.
Theorem C67_unchanged_counts_once : forall l, no_rewrite l -> ~ rewrites l.
Proof. exact fresh_single. Qed.
Print Assumptions C67_unchanged_counts_once.

(** With a second value counting for some key the root hash differs from that of the trie in memory, or two
    explicit lists of scalars collide. *)
Theorem C67_wrong_root_partial :
  forall (A : Alg) (L : AlgLaws A) (P : Par A) (PL : ParLaws P) (C : Codec A) (CL : CodecLaws C) (l : list Op),
  (forall a, 0 < a < 2 ^ 248 -> of_Z a <> fzero) -> wf_ops l -> settled_ops l ->
  (forall k v, In (OInsert k v) l -> is_value v) -> Z.of_nat (length l) < 2 ^ 100 -> rewrites l ->
  exists v db, run_disk l = Ok v /\ run_mem (contents l) = Ok db /\
    (root_hash v <> root_hash db \/ collision (contents l) (tallied l)).
Proof. intros A L P PL C CL. exact wrong_root. Qed.
Print Assumptions C67_wrong_root_partial.

(** The first change of a flushed value does it: old and new value both count. *)
Theorem C67_first_change_partial :
  forall (A : Alg) (L : AlgLaws A) (P : Par A) (PL : ParLaws P) (C : Codec A) (CL : CodecLaws C) (l : list Op) k x y,
  (forall a, 0 < a < 2 ^ 248 -> of_Z a <> fzero) -> no_rewrite l ->
  final_map (durable l) k = Some y -> x <> y -> wf_ops (l ++ [OInsert k x]) -> settled_ops (l ++ [OInsert k x]) ->
  (forall k' v, In (OInsert k' v) (l ++ [OInsert k x]) -> is_value v) -> Z.of_nat (length (l ++ [OInsert k x])) < 2 ^ 100 ->
  counted (l ++ [OInsert k x]) k = [x; y] /\
  exists v db, run_disk (l ++ [OInsert k x]) = Ok v /\ run_mem (contents (l ++ [OInsert k x])) = Ok db /\
    (root_hash v <> root_hash db \/ collision (contents (l ++ [OInsert k x])) (tallied (l ++ [OInsert k x]))).
Proof. intros A L P PL C CL. exact first_change. Qed.
Print Assumptions C67_first_change_partial.

(** And once flushed it is never mended, whatever is written, flushed or reopened later: writing the old value again included. *)
Theorem C67_never_mended_partial :
  forall (A : Alg) (L : AlgLaws A) (P : Par A) (PL : ParLaws P) (C : Codec A) (CL : CodecLaws C) (l l' : list Op),
  (forall a, 0 < a < 2 ^ 248 -> of_Z a <> fzero) -> rewrites l ->
  wf_ops (l ++ OFlush :: l') -> settled_ops (l ++ OFlush :: l') ->
  (forall k v, In (OInsert k v) (l ++ OFlush :: l') -> is_value v) -> Z.of_nat (length (l ++ OFlush :: l')) < 2 ^ 100 ->
  exists v db, run_disk (l ++ OFlush :: l') = Ok v /\ run_mem (contents (l ++ OFlush :: l')) = Ok db /\
    (root_hash v <> root_hash db \/ collision (contents (l ++ OFlush :: l')) (tallied (l ++ OFlush :: l'))).
Proof. intros A L P PL C CL. exact wrong_forever. Qed.
Print Assumptions C67_never_mended_partial.

(** On the curve, the generators and the codec of the library. *)
Theorem C67_default_wrong_root_partial : forall l,
  wf_ops l -> settled_ops l -> (forall k v, In (OInsert k v) l -> is_value v) ->
  Z.of_nat (length l) < 2 ^ 100 -> rewrites l ->
  exists v (db : @MemoryDb real_alg), @run_disk real_alg real_par real_codec l = Ok v /\
    @run_mem real_alg real_par (contents l) = Ok db /\
    (@root_hash real_alg _ (@verkle_db_ops real_alg real_codec) v <> @root_hash real_alg _ (@memory_db_ops real_alg) db \/
     @collision real_alg real_par (contents l) (tallied l)).
Proof. exact default_wrong_root. Qed.
Print Assumptions C67_default_wrong_root_partial.

(** A history with two keys, one of them changed after two flushes, and what reopening leaves of it. *)
Example C67_hypotheses : wf_ops twice_ops /\ settled_ops twice_ops /\ (forall k v, In (OInsert k v) twice_ops -> is_value v) /\
  counted twice_ops e1 = [val 4; val 3; val 1] /\ counted twice_ops e3 = [val 5] /\ rewrites twice_ops /\
  counted (removelast twice_ops ++ [OReopen]) e1 = [val 3; val 1].
Proof. exact twice_case. Qed.
(** The roots do differ in the example group. *)
Example C67_differs : exists v db, run_disk rewrite_ops = Ok v /\ run_mem (contents rewrite_ops) = Ok db /\
  root_commitment v <> root_commitment db.
Proof. exact rewrite_wrong_root. Qed.
