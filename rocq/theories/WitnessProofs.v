(** Proofs about execution witnesses and chains of blocks of accounts (C66). *)
From Coq Require Import Permutation.
From Verif Require Import Base BaseFacts Alg AlgFacts TreeSpec TreeFacts TrieModel TrieProofs TrieTheorems BTree WireModel ProofModel ProofSpec PathProofs OpeningProofs VerifierProofs ProofTheorems
  IpaModel LagrangeSpec IpaSpec CheckProofs IpaTheorems SoundSpec GoModel GoSpec GoProofs GoTrie StatelessModel StatelessSpec StatelessProofs StatelessTheorems TruthSpec TruthTheorems
  MsmModel FfiModel SpecModel LayoutSpec LayoutProofs AccountSpec AccountProofs ChainSpec ChainProofs WitnessSpec.
Local Open Scope list_scope.
Notation len := List.length.

Lemma rmap_Forall2 {X Y} (f : X -> res Y) l r : rmap f l = Ok r -> Forall2 (fun x y => f x = Ok y) l r.
Proof.
  revert r. induction l as [|x l IH]; cbn [rmap]; intros r E; [injection E as <-; constructor|].
  destruct (f x) as [y|] eqn:Ex; cbn [rbind] in E; [|discriminate]. destruct (rmap f l) as [ys|]; cbn [rbind] in E; [|discriminate].
  injection E as <-. constructor; [exact Ex|now apply IH].
Qed.

Lemma Forall2_len {X Y} (R : X -> Y -> Prop) l r : Forall2 R l r -> len l = len r.
Proof. induction 1; cbn [len]; congruence. Qed.

Section Keys.
Variable h64 : bytes -> res bytes.
Hypothesis Htot : hash_total h64.

Lemma item_keys_ok l : Forall account_item l -> exists keys, item_keys h64 l = Ok keys /\ Forall is_key keys /\
  Forall2 (fun ai k => item_key h64 (fst ai) (snd ai) = Ok k) l keys.
Proof.
  induction l as [|[a i] l IH]; intro Hf; [exists []; repeat split; constructor|].
  apply Forall_cons_iff in Hf as [Ha Hf]. destruct (IH Hf) as (keys & E & Hk & H2).
  destruct (item_is_key h64 Htot a i Ha) as (k & Ek & Kk). exists (k :: keys). unfold item_keys in *. cbn [rmap]. rewrite Ek. cbn [rbind].
  rewrite E. cbn [rbind]. split; [reflexivity|]. split; constructor; assumption.
Qed.

Lemma read_keys w h l keys : Forall account_item (map fst w) -> Forall account_item l -> insertions h64 w = Ok h ->
  collision_free h64 (l ++ map fst w) -> Forall2 (fun ai k => item_key h64 (fst ai) (snd ai) = Ok k) l keys ->
  map (final_map h) keys = map (fun ai => written w (fst ai) (snd ai)) l.
Proof.
  intros Hw Hl E Hc H2. destruct (insertions_ok h64 Htot w Hw) as (h' & E' & _ & Hm). assert (h' = h) by congruence. subst h'.
  assert (G : forall ai k, In ai l -> item_key h64 (fst ai) (snd ai) = Ok k -> final_map h k = written w (fst ai) (snd ai)).
  { intros [a i] k Hi Ek. apply Hm; [rewrite Forall_forall in Hl; apply (Hl _ Hi)|exact Ek|].
    intros a1 i1 a2 i2 I1 I2. apply Hc; apply in_or_app.
    - destruct I1 as [I1|I1]; [left; rewrite <- I1; exact Hi|now right].
    - destruct I2 as [I2|I2]; [left; rewrite <- I2; exact Hi|now right]. }
  clear Hl Hc. induction H2 as [|ai k l keys Ek H2 IH]; [reflexivity|]. cbn [map]. f_equal; [apply G; [now left|exact Ek]|].
  apply IH. intros ai' k' Hi. apply G. now right.
Qed.

Context {A : Alg} {AL : AlgLaws A} {P : Par A} {PL : ParLaws P} {C : ECodec A} {CL : ECodecLaws C} {H : Hasher} {J : Json}.

Lemma account_witness w its l order : domain_fits 256 -> (forall g, is_bytes (el_ser g)) -> (forall x, is_bytes (sc_ser x)) ->
  Forall account_item (map fst w) -> its <> [] -> Forall account_item its -> collision_free h64 (its ++ map fst w) ->
  Z.of_nat (len its) < 2 ^ 32 -> (forall l, Permutation (order l) l) ->
  state_sized l -> item_keys h64 its = Ok (diff_keys l) -> diff_current l = map (fun ai => written w (fst ai) (snd ai)) its ->
  exists h db qs hint comms root, insertions h64 w = Ok h /\ run_mem h = Ok db /\ root_commitment db = Ok root /\
    create_proof_parts db (diff_keys l) = Ok (Some (qs, hint, comms)) /\
    (distinguishable (final_map h) (stems_of h) (diff_keys l) -> usable_challenges qs ->
     exists p, create_verkle_proof order db (diff_keys l) = Ok (Some p) /\
      forall json, json_de json = Some (json_of_go (go_of_proof p l)) ->
        verify_execution_witness (hex_of (el_ser root)) json = Ok true).
Proof.
  intros D Be Bs Hw Hne Hi Hc Hn Ho S Ek Ecur.
  destruct (insertions_ok h64 Htot w Hw) as (h & E & Wf & _). destruct (root_spec h Wf) as (db & Er & Rt & _).
  destruct (item_keys_ok its Hi) as (keys & Ek' & Kk & H2). assert (keys = diff_keys l) by congruence. subst keys.
  pose proof (read_keys w h its _ Hw Hi E Hc H2) as Rd. rewrite <- Rd in Ecur.
  assert (Hne' : diff_keys l <> []) by (intro X; rewrite X in H2; inversion H2; subst; contradiction).
  assert (Hn' : Z.of_nat (len (diff_keys l)) < 2 ^ 32) by (pose proof (Forall2_len _ _ _ H2); lia).
  pose proof (run_canon h db Wf Er) as K.
  destruct (proof_parts_ok db _ _ K (diff_keys l) Kk Hne') as (qs & Ep & _).
  eexists h, db, qs, _, _, _. split; [exact E|]. split; [exact Er|]. split; [exact Rt|]. split; [exact Ep|]. intros Hd U.
  destruct (honest_witness h db (diff_keys l) order l D Be Bs Wf Er Hne' Kk Hn' Hd Ho S eq_refl Ecur) as (qs' & hint' & comms' & root' & Ep' & Rt' & V).
  assert (qs' = qs) by congruence. subst qs'. destruct (V U) as (p & Cp & Vp). exists p. split; [exact Cp|].
  assert (X : forall r1 r2, root_commitment db = Ok r1 -> root_commitment db = Ok r2 -> r1 = r2) by (intros; congruence).
  rewrite <- (X _ _ Rt' Rt). exact Vp.
Qed.

Lemma el_ser_inj (a b : G) : el_ser a = el_ser b -> a = b.
Proof. intro E. pose proof (el_rt a) as X. rewrite E, el_rt in X. now injection X. Qed.

Lemma witness_true w h (db : MemoryDb) r root json wit g : domain_fits 256 ->
  Forall account_item (map fst w) -> insertions h64 w = Ok h -> run_mem h = Ok db -> root_commitment db = Ok r -> hex_means root (el_ser r) ->
  json_de json = Some wit -> witness_means wit g -> go_sized g -> Forall is_key (diff_keys (go_state g)) -> NoDup (diff_keys (go_state g)) ->
  ideal_witness h g -> verify_execution_witness root json = Ok true ->
  forall a i k v, account_item (a, i) -> collision_free h64 ((a, i) :: map fst w) -> item_key h64 a i = Ok k ->
    In (k, v) (combine (diff_keys (go_state g)) (diff_current (go_state g))) -> v = written w a i \/ hides h g k v.
Proof.
  intros D Hw E Er Rt Hr Ej Mw Gs Hk ND Hid V a i k v Ha Hc Ek Hin.
  destruct (insertions_ok h64 Htot w Hw) as (h' & E' & Wf & Hm). assert (h' = h) by congruence. subst h'.
  destruct (verify_accept root json V) as (wit' & g' & p & r' & uh & Ej' & Mw' & Gs' & Hsay & Hr' & Ck).
  assert (wit' = wit) by congruence. subst wit'.
  assert (X1 : go_of_witness wit = Ok g) by (apply go_of_witness_ok; auto).
  assert (X2 : go_of_witness wit = Ok g') by (apply go_of_witness_ok; auto).
  assert (g' = g) by congruence. subst g'.
  assert (r' = r) by (apply el_ser_inj; exact (hex_unique root _ _ Hr' Hr)). subst r'.
  destruct (Hid p Hsay) as [Hl Hb]. cbn [bl_keys bl_values bl_proof] in *.
  assert (Q : exists qs uh', create_verifier_queries (vp_hint p) (vp_comms p) (diff_keys (go_state g)) (diff_current (go_state g)) r = Ok (Some (qs, uh'))).
  { unfold proof_check in Ck. destruct (create_verifier_queries _ _ _ _ _) as [[[qs uh']|]|]; cbn [rbind] in Ck; [now exists qs, uh'|discriminate|discriminate]. }
  destruct Q as (qs & uh' & Eq). destruct (Hb db r qs uh uh' Er Rt Ck Eq) as (Hco & Hsc & vs & Hop & Hi).
  destruct (claims_true h db r _ _ _ _ qs uh' vs D Wf Er Rt Hk ND Hl Eq Hop Hco Hi Hsc k v Hin) as [T|T].
  - left. destruct (get_last h Wf) as (db0 & E0 & Hg). assert (db0 = db) by congruence. subst db0. rewrite Hg in T.
    rewrite <- (Hm a i k Ha Ek Hc). congruence.
  - right. exists p. split; [exact Hsay|exact T].
Qed.

(** ** Code *)
Lemma list_ext {X} (l1 l2 : list X) : (forall i, nth_error l1 i = nth_error l2 i) -> l1 = l2.
Proof.
  revert l2. induction l1 as [|x l1 IH]; intros [|y l2] E; [reflexivity|discriminate (E 0%nat)|discriminate (E 0%nat)|].
  pose proof (E 0%nat) as E0. cbn [nth_error] in E0. injection E0 as ->. f_equal. apply IH. intro i. exact (E (S i)).
Qed.

Lemma witness_code checked code chunks a w1 w2 h (db : MemoryDb) r root json wit g vs : domain_fits 256 ->
  code <> [] -> Z.of_nat (len code) < 2 ^ 64 -> len a = 32%nat ->
  Forall account_item (map fst w1) -> Forall account_item (map fst w2) -> (forall c v, ~ In (a, Chunk c, v) w2) ->
  chunkify_code checked code = Ok chunks -> let w := w1 ++ code_writes a chunks ++ w2 in
  collision_free h64 (map fst w) -> insertions h64 w = Ok h -> run_mem h = Ok db -> root_commitment db = Ok r -> hex_means root (el_ser r) ->
  json_de json = Some wit -> witness_means wit g -> go_sized g -> Forall is_key (diff_keys (go_state g)) -> NoDup (diff_keys (go_state g)) ->
  ideal_witness h g -> verify_execution_witness root json = Ok true ->
  len vs = chunk_count code ->
  (forall i c, nth_error vs i = Some c -> exists k, code_chunk_key h64 a (Z.of_nat i) = Ok k /\
     In (k, Some c) (combine (diff_keys (go_state g)) (diff_current (go_state g)))) ->
  firstn (len code) (concat (map (@tl Z) vs)) = code.
Proof.
  intros D Hne Hlen La F1 F2 Hno Ech w Hc E Er Rt Hr Ej Mw Gs Hk ND Hid V Lv Hv.
  destruct (code_readable h64 Htot checked code a w1 w2 Hne Hlen La F1 F2 Hno) as (chunks' & Ech' & X).
  assert (chunks' = chunks) by congruence. subst chunks'. cbv zeta in X. fold w in X. destruct (X Hc) as (h' & db' & l & E' & Er' & Hg & Ll & Hcode).
  assert (h' = h) by congruence. subst h'. assert (db' = db) by congruence. subst db'.
  pose proof (chunk_count_le code) as Hcc. assert (P64 : 2 ^ 64 + 65 < 2 ^ 248) by reflexivity.
  assert (Lc : (chunk_count code <= len chunks)%nat).
  { destruct (chunkify_ok checked code Hne) as (extra & Ee & _). assert (chunks = code_chunks code ++ extra) by congruence. subst chunks.
    destruct (chunks_payload code) as (_ & _ & P3). rewrite app_length. lia. }
  assert (Fw : Forall account_item (map fst w)).
  { unfold w. rewrite !map_app. apply Forall_app. split; [exact F1|]. apply Forall_app. split; [|exact F2]. apply code_targets; [exact La|].
    destruct (chunkify_ok checked code Hne) as (extra & Ee & Hx & _). assert (chunks = code_chunks code ++ extra) by congruence. subst chunks.
    destruct (chunks_payload code) as (_ & _ & P3). rewrite app_length, P3. destruct Hx as [-> | ->]; cbn [len]; lia. }
  rewrite <- Hcode at 2. f_equal. f_equal. f_equal. apply list_ext. intro i.
  destruct (Nat.lt_ge_cases i (len vs)) as [Hi|Hi].
  2:{ transitivity (@None bytes); [now apply nth_error_None|]. symmetry. apply nth_error_None. lia. }
  destruct (nth_error vs i) as [c|] eqn:Ec; [|apply nth_error_None in Ec; lia].
  destruct (Hv i c Ec) as (k & Ek & Hin). destruct (Hg i ltac:(lia)) as (k' & Ek' & Gk). assert (k' = k) by congruence. subst k'.
  assert (Ii : In (a, Chunk (Z.of_nat i)) (map fst w)).
  { unfold w. rewrite !map_app. apply in_or_app. right. apply in_or_app. left. unfold code_writes. rewrite map_map.
    apply in_map_iff. exists (i, nth i chunks []). split; [reflexivity|].
    replace (i, nth i chunks []) with (nth i (combine (seq 0 (len chunks)) chunks) (0%nat, [])).
    - apply nth_In. rewrite combine_length, seq_length. lia.
    - rewrite combine_nth by apply seq_length. now rewrite seq_nth by lia. }
  assert (Ai : account_item (a, Chunk (Z.of_nat i))) by (rewrite Forall_forall in Fw; apply Fw, Ii).
  assert (Hc' : collision_free h64 ((a, Chunk (Z.of_nat i)) :: map fst w)).
  { intros a1 i1 a2 i2 I1 I2. apply Hc.
    - destruct I1 as [I1|I1]; [rewrite <- I1; exact Ii|exact I1].
    - destruct I2 as [I2|I2]; [rewrite <- I2; exact Ii|exact I2]. }
  destruct (witness_true w h db r root json wit g D Fw E Er Rt Hr Ej Mw Gs Hk ND Hid V a _ k (Some c) Ai Hc' Ek Hin) as [T|T].
  - destruct (insertions_ok h64 Htot w Fw) as (h' & E2 & Wf & Hm). assert (h' = h) by congruence. subst h'.
    destruct (get_last h Wf) as (db0 & E0 & Hgl). assert (db0 = db) by congruence. subst db0.
    rewrite Hgl, (Hm a _ k Ai Ek Hc') in Gk. congruence.
  - destruct T as (p & _ & T & _). discriminate T.
Qed.

(** ** Chains *)
Lemma insertions_app w1 w2 h1 h2 : insertions h64 w1 = Ok h1 -> insertions h64 w2 = Ok h2 -> insertions h64 (w1 ++ w2) = Ok (h1 ++ h2).
Proof.
  unfold insertions. revert h1. induction w1 as [|x w1 IH]; cbn [rmap app]; intros h1 E1 E2; [injection E1 as <-; exact E2|].
  destruct x as [[a i] v]. destruct (item_key h64 a i) as [k|]; cbn [rbind] in *; [|discriminate].
  destruct (rmap _ w1) as [h1'|]; cbn [rbind] in *; [|discriminate]. injection E1 as <-. rewrite (IH h1' eq_refl E2). reflexivity.
Qed.
Lemma insertions_chain bs ws : account_blocks h64 bs ws -> forall w h, insertions h64 w = Ok h -> insertions h64 (w ++ concat ws) = Ok (after h bs).
Proof.
  unfold after. induction 1 as [|b wb bs ws Eb _ IH]; intros w h E; cbn [concat flat_map]; [now rewrite !app_nil_r|].
  rewrite !app_assoc. apply IH. now apply insertions_app.
Qed.

Variable hash_order : list bytes -> list bytes.
Hypothesis Ho : forall l, Permutation (hash_order l) l.

(** The root of the trie of one list of writes is that of any other list that leaves the same state. *)
Lemma root_transfer w w' h (db : MemoryDb) r : Forall account_item (map fst w) -> Forall account_item (map fst w') -> collision_free h64 (map fst w ++ map fst w') ->
  (forall a i, account_item (a, i) -> written w a i = written w' a i) -> insertions h64 w = Ok h -> run_mem h = Ok db -> root_commitment db = Ok r ->
  exists h' (db' : MemoryDb), insertions h64 w' = Ok h' /\ run_mem h' = Ok db' /\ root_commitment db' = Ok r.
Proof.
  intros F1 F2 Hc Hs E Er Rt. destruct (same_state h64 Htot w w' F1 F2 Hc Hs) as (h1 & h2 & db1 & db2 & E1 & E2 & R1 & R2 & Rc).
  assert (h1 = h) by congruence. subst h1. assert (db1 = db) by congruence. subst db1. exists h2, db2. split; [exact E2|]. split; [exact R2|]. congruence.
Qed.

Lemma account_chain_any bs ws w w' h (db : MemoryDb) root r : domain_fits 256 ->
  Forall account_item (map fst (w ++ concat ws)) -> Forall account_item (map fst w') -> collision_free h64 (map fst (w ++ concat ws) ++ map fst w') ->
  (forall a i, account_item (a, i) -> written (w ++ concat ws) a i = written w' a i) ->
  insertions h64 w = Ok h -> run_mem h = Ok db -> root_commitment db = Ok root ->
  account_blocks h64 bs ws -> Forall block_fits bs -> along h bs ideal_block -> follow hash_order root bs = Ok (VOk r) ->
  (exists h' (db' : MemoryDb), insertions h64 w' = Ok h' /\ run_mem h' = Ok db' /\ root_commitment db' = Ok r) /\
  (forall before b rest, bs = before ++ b :: rest -> forall a i k v, account_item (a, i) ->
     collision_free h64 ((a, i) :: map fst (w ++ concat (firstn (len before) ws))) -> item_key h64 a i = Ok k ->
     In (k, v) (combine (bl_keys b) (bl_values b)) ->
     v = written (w ++ concat (firstn (len before) ws)) a i \/ hidden (stems_of (after h before)) (vp_hint (bl_proof b)) (bl_keys b) k v).
Proof.
  intros D F1 F2 Hc Hs E Er Rt Hb Hf Hid V.
  assert (Fw : Forall account_item (map fst w)) by (rewrite map_app in F1; now apply Forall_app in F1).
  destruct (insertions_ok h64 Htot w Fw) as (h0 & E0 & Wf & _). assert (h0 = h) by congruence. subst h0.
  destruct (chain_any hash_order Ho D bs h db root r Wf Er Rt Hf Hid V) as [(db' & Er' & Rt') T]. split.
  - exact (root_transfer _ w' _ db' r F1 F2 Hc Hs (insertions_chain bs ws Hb w h E) Er' Rt').
  - intros before b rest Eb a i k v Ha Hc' Ek Hin. destruct (T before b rest Eb k v Hin) as [T1|T1]; [left|now right].
    assert (Hb' : account_blocks h64 before (firstn (len before) ws)).
    { subst bs. unfold account_blocks in *. clear -Hb. revert ws Hb. induction before as [|x before IH]; intros ws Hb; cbn [len firstn app] in *; [constructor|].
      destruct ws as [|y ws]; [inversion Hb|]. inversion Hb; subst. constructor; [assumption|now apply IH]. }
    assert (F3 : Forall account_item (map fst (w ++ concat (firstn (len before) ws)))).
    { rewrite map_app in *. apply Forall_app in F1 as [_ F1]. apply Forall_app. split; [exact Fw|].
      rewrite <- (firstn_skipn (len before) ws), concat_app, map_app in F1. now apply Forall_app in F1. }
    destruct (insertions_ok h64 Htot _ F3) as (h3 & E3 & _ & Hm). rewrite (insertions_chain _ _ Hb' w h E) in E3. injection E3 as <-.
    rewrite <- T1. now apply Hm.
Qed.

Lemma account_chain_honest bs ws w w' h (db : MemoryDb) root :
  Forall account_item (map fst (w ++ concat ws)) -> Forall account_item (map fst w') -> collision_free h64 (map fst (w ++ concat ws) ++ map fst w') ->
  (forall a i, account_item (a, i) -> written (w ++ concat ws) a i = written w' a i) ->
  insertions h64 w = Ok h -> run_mem h = Ok db -> root_commitment db = Ok root ->
  account_blocks h64 bs ws -> Forall block_fits bs -> along h bs honest_block -> along h bs within_reach ->
  exists h' (db' : MemoryDb) r, insertions h64 w' = Ok h' /\ run_mem h' = Ok db' /\ root_commitment db' = Ok r /\ follow hash_order root bs = Ok (VOk r).
Proof.
  intros F1 F2 Hc Hs E Er Rt Hb Hf Hh Hr.
  assert (Fw : Forall account_item (map fst w)) by (rewrite map_app in F1; now apply Forall_app in F1).
  destruct (insertions_ok h64 Htot w Fw) as (h0 & E0 & Wf & _). assert (h0 = h) by congruence. subst h0.
  destruct (chain_honest hash_order Ho bs h db root Wf Er Rt Hf Hh) as [(_ & db' & r & Er' & Rt' & V)|[X _]]; [|contradiction].
  destruct (root_transfer _ w' _ db' r F1 F2 Hc Hs (insertions_chain bs ws Hb w h E) Er' Rt') as (h2 & db2 & X1 & X2 & X3).
  exists h2, db2, r. auto.
Qed.
End Keys.
