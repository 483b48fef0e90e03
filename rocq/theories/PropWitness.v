(** What a client that knows only the root of the state learns about accounts from execution witnesses and
    chains of blocks (C66). *)
From Coq Require Import Permutation.
From Verif Require Import Base Alg AlgInst TreeSpec TrieModel WireModel WireSpec WireInst ProofModel ProofSpec IpaModel LagrangeSpec IpaSpec CheckProofs IpaInst SoundSpec GoModel GoSpec
  StatelessModel StatelessSpec TruthSpec SpecModel LayoutSpec LayoutInst AccountSpec AccountProofs ChainSpec WitnessSpec WitnessProofs WitnessCases.
Local Open Scope list_scope.

Section Properties.
Context {A : Alg} {L : AlgLaws A} {P : Par A} {PL : ParLaws P} {C : ECodec A} {CL : ECodecLaws C} {H : Hasher} {J : Json}.

(** The witness a full node makes for any items of any accounts, with what was last written to each of them,
    is accepted (conditions of C21). *)
Theorem C66_witness_accepted_partial : forall h64, hash_total h64 -> forall w its l order,
  domain_fits 256 -> (forall g, is_bytes (el_ser g)) -> (forall x, is_bytes (sc_ser x)) ->
  Forall account_item (map fst w) -> its <> [] -> Forall account_item its -> collision_free h64 (its ++ map fst w) ->
  Z.of_nat (length its) < 2 ^ 32 -> (forall l, Permutation (order l) l) ->
  state_sized l -> item_keys h64 its = Ok (diff_keys l) -> diff_current l = map (fun ai => written w (fst ai) (snd ai)) its ->
  exists h db qs hint comms root, insertions h64 w = Ok h /\ run_mem h = Ok db /\ root_commitment db = Ok root /\
    create_proof_parts db (diff_keys l) = Ok (Some (qs, hint, comms)) /\
    (distinguishable (final_map h) (stems_of h) (diff_keys l) -> usable_challenges qs ->
     exists p, create_verkle_proof order db (diff_keys l) = Ok (Some p) /\
      forall json, json_de json = Some (json_of_go (go_of_proof p l)) ->
        verify_execution_witness (hex_of (el_ser root)) json = Ok true).
Proof. exact (fun h64 Ht => account_witness h64 Ht). Qed.

(** An accepted witness, made by anybody, gives for every item what was last written to it (conditions of C23). *)
Theorem C66_witness_true_partial : forall h64, hash_total h64 -> forall w h (db : MemoryDb) r root json wit g, domain_fits 256 ->
  Forall account_item (map fst w) -> insertions h64 w = Ok h -> run_mem h = Ok db -> root_commitment db = Ok r -> hex_means root (el_ser r) ->
  json_de json = Some wit -> witness_means wit g -> go_sized g -> Forall is_key (diff_keys (go_state g)) -> NoDup (diff_keys (go_state g)) ->
  ideal_witness h g -> verify_execution_witness root json = Ok true ->
  forall a i k v, account_item (a, i) -> collision_free h64 ((a, i) :: map fst w) -> item_key h64 a i = Ok k ->
    In (k, v) (combine (diff_keys (go_state g)) (diff_current (go_state g))) -> v = written w a i \/ hides h g k v.
Proof. exact (fun h64 Ht => witness_true h64 Ht). Qed.

(** The code of an account is what the chunks of an accepted witness hold. *)
Theorem C66_witness_code_partial : forall h64, hash_total h64 -> forall checked code chunks a w1 w2 h (db : MemoryDb) r root json wit g vs, domain_fits 256 ->
  code <> [] -> Z.of_nat (length code) < 2 ^ 64 -> length a = 32%nat ->
  Forall account_item (map fst w1) -> Forall account_item (map fst w2) -> (forall c v, ~ In (a, Chunk c, v) w2) ->
  chunkify_code checked code = Ok chunks -> let w := w1 ++ code_writes a chunks ++ w2 in
  collision_free h64 (map fst w) -> insertions h64 w = Ok h -> run_mem h = Ok db -> root_commitment db = Ok r -> hex_means root (el_ser r) ->
  json_de json = Some wit -> witness_means wit g -> go_sized g -> Forall is_key (diff_keys (go_state g)) -> NoDup (diff_keys (go_state g)) ->
  ideal_witness h g -> verify_execution_witness root json = Ok true ->
  length vs = chunk_count code ->
  (forall i c, nth_error vs i = Some c -> exists k, code_chunk_key h64 a (Z.of_nat i) = Ok k /\
     In (k, Some c) (combine (diff_keys (go_state g)) (diff_current (go_state g)))) ->
  firstn (length code) (concat (map (@tl Z) vs)) = code.
Proof. exact (fun h64 Ht => witness_code h64 Ht). Qed.

(** Following blocks of account writes: the root obtained is that of any trie that holds the same accounts,
    however they were written there. *)
Theorem C66_honest_account_chain_partial : forall h64, hash_total h64 -> forall hash_order, (forall l, Permutation (hash_order l) l) ->
  forall bs ws w w' h (db : MemoryDb) root,
  Forall account_item (map fst (w ++ concat ws)) -> Forall account_item (map fst w') -> collision_free h64 (map fst (w ++ concat ws) ++ map fst w') ->
  (forall a i, account_item (a, i) -> written (w ++ concat ws) a i = written w' a i) ->
  insertions h64 w = Ok h -> run_mem h = Ok db -> root_commitment db = Ok root ->
  account_blocks h64 bs ws -> Forall block_fits bs -> along h bs honest_block -> along h bs within_reach ->
  exists h' (db' : MemoryDb) r, insertions h64 w' = Ok h' /\ run_mem h' = Ok db' /\ root_commitment db' = Ok r /\ follow hash_order root bs = Ok (VOk r).
Proof. exact (fun h64 Ht ho Ho => account_chain_honest h64 Ht ho Ho). Qed.

(** The same for blocks sent by anybody; and what they said about an item before each block was what the
    writes so far had left there. *)
Theorem C66_untrusted_account_chain_partial : forall h64, hash_total h64 -> forall hash_order, (forall l, Permutation (hash_order l) l) ->
  forall bs ws w w' h (db : MemoryDb) root r, domain_fits 256 ->
  Forall account_item (map fst (w ++ concat ws)) -> Forall account_item (map fst w') -> collision_free h64 (map fst (w ++ concat ws) ++ map fst w') ->
  (forall a i, account_item (a, i) -> written (w ++ concat ws) a i = written w' a i) ->
  insertions h64 w = Ok h -> run_mem h = Ok db -> root_commitment db = Ok root ->
  account_blocks h64 bs ws -> Forall block_fits bs -> along h bs ideal_block -> follow hash_order root bs = Ok (VOk r) ->
  (exists h' (db' : MemoryDb), insertions h64 w' = Ok h' /\ run_mem h' = Ok db' /\ root_commitment db' = Ok r) /\
  (forall before b rest, bs = before ++ b :: rest -> forall a i k v, account_item (a, i) ->
     collision_free h64 ((a, i) :: map fst (w ++ concat (firstn (length before) ws))) -> item_key h64 a i = Ok k ->
     In (k, v) (combine (bl_keys b) (bl_values b)) ->
     v = written (w ++ concat (firstn (length before) ws)) a i \/ hidden (stems_of (after h before)) (vp_hint (bl_proof b)) (bl_keys b) k v).
Proof. exact (fun h64 Ht ho Ho => account_chain_any h64 Ht ho Ho). Qed.
End Properties.

(** Cases: an accepted witness about two accounts and their code, and a block for them. *)
Example C66_witness_case : exists (J : Json) (db : @MemoryDb ExA) r wit p,
  run_mem acc_h = Ok db /\ root_commitment db = Ok r /\ json_de [] = Some wit /\ let g := go_of_proof p acc_diffs in
  witness_means wit g /\ go_sized g /\ ideal_witness acc_h g /\ verify_execution_witness (hex_of (el_ser r)) [] = Ok true.
Proof. exact acc_witness. Qed.
Example C66_witness_case_items : insertions toy64 acc = Ok acc_h /\ Forall account_item (map fst acc) /\ collision_free toy64 (acc_items ++ map fst acc) /\
  diff_keys acc_diffs = acc_keys /\ NoDup acc_keys /\ Forall is_key acc_keys /\
  diff_current acc_diffs = [Some (repeat 4 32); None; nth_error (code_chunks code40) 0; nth_error (code_chunks code40) 1; Some (repeat 2 32); None].
Proof.
  split; [exact acc_ins|]. split; [exact acc_targets|]. split; [exact acc_free|]. split; [exact (proj1 (proj2 acc_diffs_ok))|].
  split; [exact acc_nodup|]. split; [exact acc_keys_ok|]. rewrite (proj2 (proj2 acc_diffs_ok)). vm_compute. reflexivity.
Qed.
Example C66_chain_case : exists (db : @MemoryDb ExA) root b,
  run_mem acc_h = Ok db /\ root_commitment db = Ok root /\ account_blocks toy64 [b] [acc_block] /\ Forall block_fits [b] /\
  along acc_h [b] honest_block /\ along acc_h [b] within_reach /\ along acc_h [b] ideal_block /\
  (forall hash_order, (forall l, Permutation (hash_order l) l) -> exists h' (db' : @MemoryDb ExA) r,
     insertions toy64 acc_other = Ok h' /\ run_mem h' = Ok db' /\ root_commitment db' = Ok r /\ follow hash_order root [b] = Ok (VOk r)).
Proof.
  destruct acc_chain as (db & root & b & E & Er & Hb & Hf & Hh & Hr & Hi). destruct acc_chain_items as (I1 & I2 & I3).
  exists db, root, b. repeat (split; [assumption|]). intros hash_order Ho.
  exact (account_chain_honest toy64 toy_total hash_order Ho [b] [acc_block] acc acc_other acc_h db root I1 I2 I3 acc_same acc_ins E Er Hb Hf Hh Hr).
Qed.

Print Assumptions C66_witness_accepted_partial.
Print Assumptions C66_witness_true_partial.
Print Assumptions C66_witness_code_partial.
Print Assumptions C66_honest_account_chain_partial.
Print Assumptions C66_untrusted_account_chain_partial.
