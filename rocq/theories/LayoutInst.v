(** Concrete cases of the layout, of chunking and of tree keys. *)
From Verif Require Import Base BaseFacts Alg AlgInst CodecInst WireModel WireInst ProofModel IpaModel IpaInst
  MsmModel MsmSpec MsmInst FfiModel FfiSpec FfiProofs FfiInst SpecModel LayoutSpec LayoutProofs.

(** 40 bytes: a PUSH4 as the 30th byte, whose data runs two bytes into the second chunk. *)
Definition code40 : bytes := repeat 1 28 ++ [99; 96; 96; 96; 96] ++ repeat 1 7.
(** 32 bytes ending the first chunk with PUSH32: the extra chunk. *)
Definition code_push32 : bytes := repeat 1 30 ++ [127; 5].
(** 94 bytes, PUSH32 before the second of four chunks: 31 data bytes in it, one in the next. *)
Definition code94 : bytes := repeat 1 30 ++ [127] ++ repeat 96 63.

Lemma code40_case : chunkify_code true code40 = Ok (code_chunks code40) /\
  code_chunks code40 = [0 :: repeat 1 28 ++ [99; 96; 96]; 2 :: [96; 96] ++ repeat 1 7 ++ repeat 0 22].
Proof. split; reflexivity. Qed.
Lemma code94_case : chunkify_code true code94 = Ok (code_chunks code94) /\
  map (fun c => hd 0 c) (code_chunks code94) = [0; 31; 1; 0] /\ (length (code_chunks code94) = 4)%nat.
Proof. split; [|split]; reflexivity. Qed.

Lemma push32_case : push32_before_last_chunk code_push32 /\
  chunkify_code true code_push32 = Ok (code_chunks code_push32 ++ [repeat 0 32]) /\ (length (code_chunks code_push32) = 2)%nat.
Proof.
  split; [|split; reflexivity]. exists 30%nat. repeat split.
Qed.

(** A hash for examples: the first bytes of the input, all of which matter for small indices. *)
Definition toy_hash (b : bytes) : res bytes := Ok (firstn 4 (b ++ repeat 0 4) ++ firstn 28 (skipn 32 b ++ repeat 0 28)).
Lemma toy_len : forall x h, toy_hash x = Ok h -> length h = 32%nat.
Proof.
  intros x h E. unfold toy_hash in E.
  match type of E with Ok ?v = _ => replace h with v by congruence end. clear E.
  rewrite app_length, !firstn_length, !app_length, !repeat_length. lia.
Qed.
Lemma layout_case :
  storage_slot_key toy_hash (repeat 7 32) 5 = Ok ([7; 7; 7; 7] ++ repeat 0 27 ++ [69]) /\
  code_chunk_key toy_hash (repeat 7 32) 200 = Ok ([7; 7; 7; 7] ++ [1] ++ repeat 0 26 ++ [72]) /\
  (exists h, header_new toy_hash (repeat 7 32) = Ok h /\ hd_nonce h = [7; 7; 7; 7] ++ repeat 0 27 ++ [2]) /\
  storage_slot_key toy_hash (repeat 7 32) (2 ^ 256 - 1) = Panic.
Proof. split; [reflexivity|]. split; [reflexivity|]. split; [eexists; split; reflexivity|reflexivity]. Qed.

Lemma key_case : exists cx h, context_new (A := ExA) = Ok cx /\
  get_tree_key Whole cx (repeat 7 32) (Z_le 32 3) 9 = Ok (firstn 31 h ++ [9]) /\
  get_tree_key_hash Whole cx (repeat 7 32) (Z_le 32 3) = Ok h /\
  storage_slot_key (hash64 Whole (cx_committer cx)) (repeat 7 32) 5 = get_tree_key Whole cx (repeat 7 32) (Z_le 32 0) 69.
Proof.
  destruct ex_context as [cx Hc]. exists cx.
  destruct (tree_key_ok cx Whole (repeat 7 32) 3 9 Hc eq_refl ltac:(lia) ltac:(lia)) as (h & _ & E1 & _ & E2 & _).
  destruct (tree_key_ok cx Whole (repeat 7 32) 0 69 Hc eq_refl ltac:(lia) ltac:(lia)) as (h' & _ & _ & _ & _ & E3).
  exists h. split; [exact Hc|]. split; [exact E2|]. split; [exact E1|].
  pose proof pow_facts as [F1 F2].
  rewrite E3. rewrite storage_key_ok by lia. reflexivity.
Qed.
