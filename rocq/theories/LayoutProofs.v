(** Proofs about the tree layout, code chunking and tree keys. *)
From Verif Require Import Base BaseFacts Alg WireModel ProofModel IpaModel MsmModel MsmSpec MsmProofs FfiModel FfiSpec FfiProofs SpecModel LayoutSpec.

(** ** Push data *)
(** Data bytes still to come after [code]. *)
Fixpoint pend (p : nat) (code : bytes) : nat :=
  match code with
  | [] => p
  | op :: code' => match p with S p' => pend p' code' | O => pend (push_size op) code' end
  end.

Lemma push_size_32 op : (push_size op <= 32)%nat.
Proof.
  unfold push_size. destruct (Z.leb_spec 96 op), (Z.leb_spec op 127); cbn [andb]; lia.
Qed.
Lemma push_size_is_32 op : push_size op = 32%nat <-> op = 127.
Proof.
  unfold push_size. split.
  - destruct (Z.leb_spec 96 op), (Z.leb_spec op 127); cbn [andb]; lia.
  - intros ->. reflexivity.
Qed.

Lemma pend_32 code : forall p, (p <= 32)%nat -> (pend p code <= 32)%nat.
Proof.
  induction code as [|op code IH]; intros p Hp; cbn [pend]; [exact Hp|].
  destruct p; apply IH; [apply push_size_32|lia].
Qed.

Lemma pend_app a b : forall p, pend p (a ++ b) = pend (pend p a) b.
Proof. induction a as [|op a IH]; intros p; cbn [app pend]; [reflexivity|]. destruct p; apply IH. Qed.

Lemma pend_short code : forall p, (len code <= p)%nat -> pend p code = (p - len code)%nat.
Proof.
  induction code as [|op code IH]; intros p Hp; cbn [pend len length] in *; [lia|].
  destruct p; [lia|]. rewrite IH by lia. lia.
Qed.
Lemma pend_skip code : forall p, (p <= len code)%nat -> pend p code = pend 0 (skipn p code).
Proof.
  induction code as [|op code IH]; intros p Hp; cbn [len length] in Hp.
  - destruct p; [reflexivity|lia].
  - destruct p; [reflexivity|]. cbn [pend skipn]. apply IH. lia.
Qed.

Lemma marks_len code : forall p, len (data_marks p code) = len code.
Proof. induction code as [|op code IH]; intros p; cbn [data_marks]; [reflexivity|]. destruct p; cbn [len length]; now rewrite IH. Qed.
Lemma marks_app a b : forall p, data_marks p (a ++ b) = data_marks p a ++ data_marks (pend p a) b.
Proof.
  induction a as [|op a IH]; intros p; cbn [app data_marks pend]; [reflexivity|].
  destruct p; cbn [app]; now rewrite IH.
Qed.
Lemma marks_leading code : forall p, leading (data_marks p code) = Nat.min p (len code).
Proof.
  induction code as [|op code IH]; intros p; cbn [data_marks len length]; [cbn; lia|].
  destruct p; cbn [leading]; [reflexivity|]. rewrite IH. lia.
Qed.

(** The scan of one chunk. *)
Lemma leftover_loop_ok code : forall fuel pos, (pos + fuel >= len code)%nat ->
  leftover_loop fuel code pos = Ok (if (pos <=? len code)%nat then (len code + pend 0 (skipn pos code))%nat else pos).
Proof.
  induction fuel as [|fuel IH]; intros pos H; cbn [leftover_loop].
  - destruct (Nat.ltb_spec pos (len code)); [lia|]. f_equal. destruct (Nat.leb_spec pos (len code)); [|reflexivity].
    assert (pos = len code) by lia. subst pos. rewrite skipn_all. cbn [pend]. lia.
  - destruct (Nat.ltb_spec pos (len code)) as [L|L].
    + destruct (nth_error code pos) as [op|] eqn:N; [|apply nth_error_None in N; unfold len in *; lia].
      unfold index. rewrite N. cbn [unwrap rbind].
      assert (S : skipn pos code = op :: skipn (S pos) code).
      { clear -N. revert pos N. induction code as [|x code IH]; intros [|pos] N; try discriminate.
        - cbn in N. inversion N. reflexivity.
        - cbn [nth_error] in N. cbn [skipn]. rewrite (IH pos N). reflexivity. }
      destruct (Nat.leb_spec pos (len code)); [|lia]. rewrite S. cbn [pend].
      set (r := skipn (Datatypes.S pos) code) in *.
      assert (Lr : len r = (len code - Datatypes.S pos)%nat) by apply skipn_length.
      change (PUSH1 <=? op) with (96 <=? op). change (op <=? PUSH32) with (op <=? 127).
      replace (if (96 <=? op) && (op <=? 127) then (Datatypes.S pos + Z.to_nat (op - PUSH_OFFSET))%nat else Datatypes.S pos)
        with (Datatypes.S pos + push_size op)%nat.
      2:{ unfold push_size. change PUSH_OFFSET with 95. destruct ((96 <=? op) && (op <=? 127)); lia. }
      rewrite IH by lia. f_equal. destruct (Nat.leb_spec (Datatypes.S pos + push_size op) (len code)).
      * rewrite (pend_skip r) by lia. f_equal. f_equal. unfold r. rewrite skipn_add. reflexivity.
      * rewrite (pend_short r) by lia. lia.
    + f_equal. destruct (Nat.leb_spec pos (len code)); [|reflexivity].
      assert (pos = len code) by lia. subst pos. rewrite skipn_all. cbn [pend]. lia.
Qed.

Lemma leftover_ok code : compute_leftover_push_data code = Ok (pend 0 code).
Proof.
  unfold compute_leftover_push_data. rewrite leftover_loop_ok by lia. cbn [rbind]. change (0 <=? len code)%nat with true.
  cbn [skipn]. replace (len code + pend 0 code - len code)%nat with (pend 0 code) by lia.
  pose proof (pend_32 code 0 ltac:(lia)). replace (pend 0 code <? 256)%nat with true by (symmetry; apply Nat.ltb_lt; lia). reflexivity.
Qed.

(** ** Chunks *)
(** The first bytes of the chunks [l], entered with [p] pending bytes of data. *)
Fixpoint prefixes (p : nat) (l : list bytes) : list nat :=
  match l with [] => [] | c :: l' => Nat.min p 31 :: prefixes (pend p c) l' end.

Lemma prefixes_len l : forall p, len (prefixes p l) = len l.
Proof. induction l as [|c l IH]; intros p; cbn; [reflexivity|now rewrite IH]. Qed.

Lemma push_loop_ok l : forall p i, (p <= 32)%nat -> Forall (fun c => len c = 31%nat) l -> l <> [] ->
  exists ms flag, push_loop (i + Z.of_nat (len l) - 1) i p l = Ok (ms, flag) /\
    firstn (len l) (Nat.min p 31 :: ms) = prefixes p l /\
    (flag = true <-> pend p (concat (removelast l)) = 32%nat).
Proof.
  induction l as [|c l IH]; intros p i Hp F NE; [congruence|]. inversion F as [|? ? Lc F']; subst.
  cbn [push_loop]. rewrite Lc.
  assert (G : forall q, (q <= 32)%nat -> q = pend p c -> l <> [] ->
    exists ms flag, push_loop (i + Z.of_nat (len (c :: l)) - 1) (i + 1) q l = Ok (ms, flag) /\
      firstn (len l) (Nat.min q 31 :: ms) = prefixes q l /\
      (flag = true <-> pend p (concat (removelast (c :: l))) = 32%nat)).
  { intros q Hq Eq Hl. destruct (IH q (i + 1) Hq F' Hl) as (ms & flag & E1 & E2 & E3).
    exists ms, flag. replace (i + Z.of_nat (len (c :: l)) - 1) with (i + 1 + Z.of_nat (len l) - 1) by (cbn [len length]; lia).
    split; [exact E1|]. split; [exact E2|]. rewrite E3, Eq.
    destruct l as [|c' l]; [congruence|]. change (removelast (c :: c' :: l)) with (c :: removelast (c' :: l)).
    cbn [concat]. now rewrite pend_app. }
  destruct (Nat.ltb_spec 31 p) as [P|P].
  - assert (p = 32%nat) by lia. subst p.
    destruct (Z.eqb_spec i (i + Z.of_nat (len (c :: l)) - 1)) as [E|E].
    + destruct l; [|cbn [len length] in E; lia]. exists [], true. cbn. now repeat split.
    + assert (Hl : l <> []) by (intros ->; cbn in E; lia).
      assert (Eq : pend 32 c = 1%nat) by (rewrite pend_short; lia).
      destruct (G 1%nat ltac:(lia) (eq_sym Eq) Hl) as (ms & flag & E1 & E2 & E3).
      change (32 - 31)%nat with 1%nat. rewrite E1. cbn [rbind].
      exists (1%nat :: ms), flag. split; [reflexivity|]. split; [|exact E3].
      cbn [prefixes len length firstn]. rewrite Eq. f_equal. exact E2.
  - unfold slice_from. rewrite Lc. replace (p <=? 31)%nat with true by (symmetry; apply Nat.leb_le; lia).
    cbn [rbind]. rewrite leftover_ok. cbn [rbind]. rewrite <- pend_skip by lia.
    set (q := pend p c). assert (Hq : (q <= 32)%nat) by (apply pend_32; lia).
    destruct l as [|c' l].
    + cbn [push_loop rbind]. eexists _, _. split; [reflexivity|]. split; [reflexivity|]. cbn. split; [discriminate|lia].
    + destruct (G q Hq eq_refl ltac:(discriminate)) as (ms & flag & E1 & E2 & E3). rewrite E1. cbn [rbind].
      eexists _, _. split; [reflexivity|]. split; [|exact E3].
      change (prefixes p (c :: c' :: l)) with (Nat.min p 31 :: prefixes q (c' :: l)). rewrite <- E2. reflexivity.
Qed.

Lemma combine_firstn_l {X Y} (a : list X) (b : list Y) : combine a b = combine (firstn (len b) a) b.
Proof.
  revert a. induction b as [|y b IH]; intros [|x a]; cbn; try reflexivity. now rewrite IH.
Qed.

Lemma merge_ok ps l : Forall (fun p => (p < 256)%nat) ps ->
  rmap merge_chunk (combine ps l) = Ok (map (fun '(p, c) => Z.of_nat p :: c) (combine ps l)).
Proof.
  intros F. revert l. induction F as [|p ps Hp F IH]; intros [|c l]; cbn [combine rmap map]; try reflexivity.
  unfold merge_chunk at 1. replace (p <? 256)%nat with true by (symmetry; now apply Nat.ltb_lt). cbn [assertb rbind].
  rewrite IH. reflexivity.
Qed.
Lemma prefixes_bound l : forall p, Forall (fun q => (q < 256)%nat) (prefixes p l).
Proof. induction l as [|c l IH]; intros p; cbn [prefixes]; constructor; [lia|apply IH]. Qed.

(** The specified chunks, for a list of 31-byte pieces. *)
Lemma chunks_spec l : forall p, Forall (fun c => len c = 31%nat) l ->
  map (fun i => Z.of_nat (leading (firstn 31 (skipn (31 * i) (data_marks p (concat l))))) ::
                firstn 31 (skipn (31 * i) (concat l))) (seq 0 (len l)) =
  map (fun '(q, c) => Z.of_nat q :: c) (combine (prefixes p l) l).
Proof.
  induction l as [|c l IH]; intros p F; [reflexivity|]. inversion F as [|? ? Lc F']; subst.
  cbn [len length seq map prefixes combine concat]. f_equal.
  - rewrite marks_app. change (31 * 0)%nat with 0%nat. cbn [skipn].
    rewrite (firstn_app_exact (data_marks p c)) by now rewrite marks_len.
    rewrite (firstn_app_exact c) by exact Lc. rewrite marks_leading, Lc. reflexivity.
  - rewrite <- seq_shift, map_map, <- (IH (pend p c) F'). apply map_ext. intros i.
    rewrite marks_app. replace (31 * S i)%nat with (31 + 31 * i)%nat by lia. rewrite <- !skipn_add.
    rewrite (skipn_app_exact (data_marks p c)) by now rewrite marks_len.
    now rewrite (skipn_app_exact c) by exact Lc.
Qed.

Lemma padded_len code : len (padded code) = (chunk_count code * 31)%nat.
Proof.
  unfold padded, chunk_count. rewrite app_length, repeat_length.
  pose proof (Nat.div_mod (len code + 30) 31 ltac:(lia)). pose proof (Nat.mod_upper_bound (len code + 30) 31 ltac:(lia)). lia.
Qed.

Lemma zero_align_ok code : zero_align_bytes code 31 = Ok (padded code).
Proof.
  unfold zero_align_bytes. cbn [Nat.ltb Nat.leb assertb rbind]. unfold padded, chunk_count.
  pose proof (Nat.div_mod (len code) 31 ltac:(lia)) as D. pose proof (Nat.mod_upper_bound (len code) 31 ltac:(lia)) as M.
  destruct (Nat.eqb_spec (len code mod 31) 0) as [E|E].
  - replace ((len code + 30) / 31)%nat with (len code / 31)%nat.
    + replace (31 * (len code / 31) - len code)%nat with 0%nat by lia. cbn [repeat]. now rewrite app_nil_r.
    + apply (Nat.div_unique _ _ _ 30); lia.
  - replace ((len code + 30) / 31)%nat with (S (len code / 31)).
    + do 3 f_equal. lia.
    + apply (Nat.div_unique _ _ _ (len code mod 31 - 1)); lia.
Qed.

Lemma pend_snoc code op p : pend p (code ++ [op]) = match pend p code with O => push_size op | S q => q end.
Proof. rewrite pend_app. cbn [pend]. destruct (pend p code); reflexivity. Qed.
Lemma marks_snoc code op p : data_marks p (code ++ [op]) = data_marks p code ++ [match pend p code with O => false | S _ => true end].
Proof. rewrite marks_app. cbn [data_marks]. destruct (pend p code); reflexivity. Qed.

Lemma pend_is_32 a b : pend 0 a = 32%nat <->
  exists j, S j = len a /\ nth_error (a ++ b) j = Some 127 /\ nth_error (data_marks 0 (a ++ b)) j = Some false.
Proof.
  destruct a as [|op a _] using rev_ind.
  - cbn. split; [discriminate|]. intros (j & E & _). discriminate.
  - rewrite pend_snoc. rewrite app_length. cbn [len length].
    assert (N : forall (X : Type) (l r : list X) x, nth_error ((l ++ [x]) ++ r) (len l) = Some x).
    { intros X l r x. rewrite <- app_assoc. rewrite nth_error_app2 by lia. now rewrite Nat.sub_diag. }
    split.
    + intros E. exists (len a). split; [lia|]. rewrite (N Z), marks_app, marks_snoc.
      rewrite <- (marks_len a 0), N.
      destruct (pend 0 a) as [|q] eqn:EQ; [apply push_size_is_32 in E; now subst|].
      pose proof (pend_32 a 0 ltac:(lia)). lia.
    + intros (j & Ej & N1 & N2). assert (j = len a) by lia. subst j. rewrite N in N1.
      rewrite marks_app, marks_snoc in N2. rewrite <- (marks_len a 0) in N2. rewrite N in N2.
      destruct (pend 0 a); [|discriminate]. apply push_size_is_32. congruence.
Qed.

(** The whole function. *)
Lemma chunkify_ok checked code : code <> [] ->
  exists extra, chunkify_code checked code = Ok (code_chunks code ++ extra) /\
    (extra = [] \/ extra = [repeat 0 32]) /\ (extra <> [] <-> push32_before_last_chunk code).
Proof.
  intros NE. unfold chunkify_code. rewrite zero_align_ok. cbn [rbind].
  destruct (chunks_inv 31 ltac:(lia) (chunk_count code) (padded code) (padded_len code)) as (E1 & E2 & E3).
  set (l := chunks_exact 31 (padded code)) in *.
  assert (Hk : (0 < chunk_count code)%nat).
  { unfold chunk_count. apply Nat.div_str_pos. destruct code; [congruence|]. cbn. lia. }
  rewrite E3. replace (chunk_count code =? 0)%nat with false by (symmetry; apply Nat.eqb_neq; lia). cbn [rbind].
  assert (Hl : l <> []) by (intros E; rewrite E in E3; rewrite <- E3 in Hk; cbn in Hk; lia).
  destruct (push_loop_ok l 0 0 ltac:(lia) E2 Hl) as (ms & flag & L1 & L2 & L3).
  assert (L1' : push_loop (Z.of_nat (chunk_count code) - 1) 0 0 l = Ok (ms, flag)) by (rewrite <- E3; exact L1).
  rewrite L1'. cbn [rbind]. rewrite combine_firstn_l.
  match goal with |- context [firstn ?n ?x] => replace (firstn n x) with (prefixes 0 l) by (symmetry; exact L2) end.
  assert (EM : rmap merge_chunk (combine (prefixes 0 l) l) = Ok (code_chunks code)).
  { etransitivity; [exact (merge_ok _ l (prefixes_bound l 0))|]. f_equal.
    etransitivity; [symmetry; exact (chunks_spec l 0 E2)|]. unfold code_chunks, code_chunk. rewrite <- E3, <- E1. reflexivity. }
  rewrite EM. cbn [rbind].
  exists (if flag then [repeat 0 32] else []). split; [destruct flag; [reflexivity|now rewrite app_nil_r]|].
  split; [destruct flag; auto|].
  transitivity (flag = true); [destruct flag; split; intros X; try reflexivity; try discriminate; now elim X|]. rewrite L3. unfold push32_before_last_chunk.
  destruct (exists_last Hl) as (l' & c & El). rewrite El, removelast_last.
  assert (LL : len (concat l') = (31 * (chunk_count code - 1))%nat).
  { rewrite <- E3, El, app_length. cbn [len length]. rewrite El in E2. apply Forall_app in E2 as [E2 _].
    clear -E2. induction E2 as [|x l' Hx _ IH]; [reflexivity|]. cbn [concat len length]. rewrite app_length, IH, Hx. lia. }
  rewrite <- LL. assert (EP : padded code = concat l' ++ c).
  { rewrite <- E1, El, concat_app. cbn [concat]. now rewrite app_nil_r. }
  rewrite EP. apply pend_is_32.
Qed.

Lemma chunkify_empty : chunkify_code true [] = Panic /\ chunkify_code false [] = Ok [].
Proof. split; reflexivity. Qed.

Lemma chunks_payload code : concat (map (@tl Z) (code_chunks code)) = padded code /\
  Forall (fun c => len c = 32%nat) (code_chunks code) /\ len (code_chunks code) = chunk_count code.
Proof.
  unfold code_chunks, code_chunk. rewrite map_map. cbn [tl].
  destruct (chunks_inv 31 ltac:(lia) (chunk_count code) (padded code) (padded_len code)) as (E1 & E2 & E3).
  assert (E : map (fun i => firstn 31 (skipn (31 * i) (padded code))) (seq 0 (chunk_count code)) = chunks_exact 31 (padded code)).
  { unfold chunks_exact. rewrite padded_len, Nat.div_mul by lia. apply map_ext. intros i. now rewrite Nat.mul_comm. }
  split; [rewrite E; exact E1|]. split; [|now rewrite map_length, seq_length].
  apply Forall_forall. intros c Hc. apply in_map_iff in Hc as (i & <- & Hi). cbn [len length]. f_equal.
  rewrite Forall_forall in E2. apply E2. rewrite <- E. apply in_map_iff. now exists i.
Qed.

Lemma push32_panic_free checked code : code <> [] -> chunkify_code checked code <> Panic.
Proof. intros H. destruct (chunkify_ok checked code H) as (x & E & _). rewrite E. discriminate. Qed.

(** ** Positions *)
Lemma main_offset : MAIN_STORAGE_OFFSET = 2 ^ 248.
Proof. reflexivity. Qed.
Lemma pow_facts : 2 ^ 248 + 2 ^ 248 <= 2 ^ 256 /\ 1000 < 2 ^ 248.
Proof. split; [apply Z.leb_le|apply Z.ltb_lt]; reflexivity. Qed.

Lemma swap_ok h b : 0 <= b < 256 -> swap_last_byte h b = Ok (firstn 31 h ++ [b]).
Proof.
  intros H. unfold swap_last_byte.
  replace (b <? 2 ^ 32) with true by (symmetry; apply Z.ltb_lt; change (2 ^ 32) with 4294967296; lia).
  replace (b <? 256) with true by (symmetry; apply Z.ltb_lt; lia). reflexivity.
Qed.

Section Keys.
Variable h64 : bytes -> res bytes.

Lemma key_at_swap addr s : 0 <= s ->
  (let! base_hash := hash_addr_int h64 addr (s / 256) in swap_last_byte base_hash (s mod 256)) = key_at h64 addr s.
Proof.
  intros H. unfold hash_addr_int, key_at. destruct (h64 _) as [h|]; cbn [rbind]; [|reflexivity].
  apply swap_ok. apply Z.mod_pos_bound. lia.
Qed.

Lemma storage_key_ok addr k : 0 <= k < 2 ^ 256 - 2 ^ 248 ->
  storage_slot_key h64 addr k = key_at h64 addr (position (Slot k)).
Proof.
  intros H. pose proof pow_facts as [F1 F2]. unfold storage_slot_key. change (u256_sub CODE_OFFSET HEADER_STORAGE_OFFSET) with (Ok 64). cbn [rbind].
  unfold position. destruct (Z.ltb_spec k 64) as [L|L].
  - unfold u256_add. change HEADER_STORAGE_OFFSET with 64.
    replace (64 + k <? 2 ^ 256) with true by (symmetry; apply Z.ltb_lt; lia). cbn [rbind]. apply key_at_swap. lia.
  - unfold u256_add. rewrite main_offset.
    replace (2 ^ 248 + k <? 2 ^ 256) with true by (symmetry; apply Z.ltb_lt; lia). cbn [rbind]. apply key_at_swap. lia.
Qed.

Lemma storage_key_overflow addr k : 2 ^ 256 - 2 ^ 248 <= k -> storage_slot_key h64 addr k = Panic.
Proof.
  intros H. pose proof pow_facts as [F1 F2]. unfold storage_slot_key. change (u256_sub CODE_OFFSET HEADER_STORAGE_OFFSET) with (Ok 64). cbn [rbind].
  destruct (Z.ltb_spec k 64) as [L|L]; [lia|]. unfold u256_add. rewrite main_offset.
  replace (2 ^ 248 + k <? 2 ^ 256) with false by (symmetry; apply Z.ltb_ge; lia). reflexivity.
Qed.

Lemma code_key_ok addr c : 0 <= c < 2 ^ 256 - 128 -> code_chunk_key h64 addr c = key_at h64 addr (position (Chunk c)).
Proof.
  intros H. unfold code_chunk_key, u256_add, position. change CODE_OFFSET with 128.
  replace (128 + c <? 2 ^ 256) with true by (symmetry; apply Z.ltb_lt; lia). cbn [rbind]. apply key_at_swap. lia.
Qed.
Lemma code_key_overflow addr c : 2 ^ 256 - 128 <= c -> code_chunk_key h64 addr c = Panic.
Proof.
  intros H. unfold code_chunk_key, u256_add. change CODE_OFFSET with 128.
  replace (128 + c <? 2 ^ 256) with false by (symmetry; apply Z.ltb_ge; lia). reflexivity.
Qed.

Lemma header_ok addr t : 0 <= t ->
  header_with_tree_index h64 addr t =
  (let! v := key_at h64 addr (256 * t + 0) in let! b := key_at h64 addr (256 * t + 1) in
   let! n := key_at h64 addr (256 * t + 2) in let! k := key_at h64 addr (256 * t + 3) in
   let! s := key_at h64 addr (256 * t + 4) in Ok (mkHeader v b n k s)).
Proof.
  intros H. unfold header_with_tree_index, hash_addr_int, key_at.
  assert (D : forall i, 0 <= i < 256 -> (256 * t + i) / 256 = t /\ (256 * t + i) mod 256 = i).
  { intros i Hi. split; [symmetry; apply (Z.div_unique _ _ _ i)|symmetry; apply (Z.mod_unique _ _ t)]; lia. }
  destruct (D 0 ltac:(lia)) as [-> ->], (D 1 ltac:(lia)) as [-> ->], (D 2 ltac:(lia)) as [-> ->],
    (D 3 ltac:(lia)) as [-> ->], (D 4 ltac:(lia)) as [-> ->].
  destruct (h64 _) as [h|]; cbn [rbind]; [|reflexivity].
  rewrite !swap_ok by (unfold VERSION_LEAF_KEY, BALANCE_LEAF_KEY, NONCE_LEAF_KEY, CODE_KECCAK_LEAF_KEY, CODE_SIZE_LEAF_KEY; lia).
  reflexivity.
Qed.

Lemma position_range i : item_ok i -> 0 <= position i < 2 ^ 256.
Proof.
  pose proof pow_facts as [F1 F2]. destruct i as [i|c|k]; cbn [item_ok position]; intros H; try lia.
  destruct (Z.ltb_spec k 64); lia.
Qed.

Lemma position_inj i j : item_ok i -> item_ok j -> position i = position j -> i = j.
Proof.
  pose proof pow_facts as [F1 F2].
  destruct i as [i|c|k], j as [i'|c'|k']; cbn [item_ok position]; intros Hi Hj; try destruct (Z.ltb_spec k 64); try destruct (Z.ltb_spec k' 64);
    intros E; try (exfalso; lia); f_equal; lia.
Qed.

Lemma Z_le_inj32 x y : 0 <= x < 2 ^ 256 -> 0 <= y < 2 ^ 256 -> Z_le 32 x = Z_le 32 y -> x = y.
Proof.
  intros Hx Hy E. rewrite <- (le_Z_Z_le 32 x), <- (le_Z_Z_le 32 y), E; [reflexivity| |];
    change (256 ^ Z.of_nat 32) with (2 ^ 256); assumption.
Qed.

Lemma key_at_inj a1 a2 p1 p2 k : (forall x h, h64 x = Ok h -> len h = 32%nat) ->
  len a1 = 32%nat -> len a2 = 32%nat -> 0 <= p1 < 2 ^ 256 -> 0 <= p2 < 2 ^ 256 ->
  key_at h64 a1 p1 = Ok k -> key_at h64 a2 p2 = Ok k ->
  (a1 = a2 /\ p1 = p2) \/ same_prefix h64 (a1 ++ Z_le 32 (p1 / 256)) (a2 ++ Z_le 32 (p2 / 256)).
Proof.
  intros HL L1 L2 R1 R2 E1 E2. unfold key_at in E1, E2.
  destruct (h64 (a1 ++ Z_le 32 (p1 / 256))) as [h1|] eqn:H1; [|discriminate].
  destruct (h64 (a2 ++ Z_le 32 (p2 / 256))) as [h2|] eqn:H2; [|discriminate].
  assert (E : firstn 31 h1 ++ [p1 mod 256] = firstn 31 h2 ++ [p2 mod 256]) by congruence.
  apply app_inj_len in E as [EP EM].
  2:{ rewrite !firstn_length, (HL _ _ H1), (HL _ _ H2). reflexivity. }
  assert (EM' : p1 mod 256 = p2 mod 256) by congruence. clear EM.
  destruct (list_eq_dec Z.eq_dec (a1 ++ Z_le 32 (p1 / 256)) (a2 ++ Z_le 32 (p2 / 256))) as [EI|NI].
  - left. apply app_inj_len in EI as [EA EZ]; [|congruence]. split; [exact EA|].
    assert (B : forall p, 0 <= p < 2 ^ 256 -> 0 <= p / 256 < 2 ^ 256).
    { intros p Hp. split; [apply Z.div_pos; lia|]. apply Z.div_lt_upper_bound; lia. }
    apply Z_le_inj32 in EZ; [|now apply B|now apply B].
    rewrite (Z.div_mod p1 256), (Z.div_mod p2 256), EZ, EM' by lia. reflexivity.
  - right. split; [exact NI|]. exists h1, h2. auto.
Qed.

Lemma items_distinct a1 a2 i1 i2 k : (forall x h, h64 x = Ok h -> len h = 32%nat) ->
  len a1 = 32%nat -> len a2 = 32%nat -> item_ok i1 -> item_ok i2 ->
  key_at h64 a1 (position i1) = Ok k -> key_at h64 a2 (position i2) = Ok k ->
  (a1 = a2 /\ i1 = i2) \/ same_prefix h64 (a1 ++ Z_le 32 (position i1 / 256)) (a2 ++ Z_le 32 (position i2 / 256)).
Proof.
  intros HL L1 L2 O1 O2 E1 E2.
  destruct (key_at_inj a1 a2 _ _ k HL L1 L2 (position_range i1 O1) (position_range i2 O2) E1 E2) as [[EA EP]|PC]; [left|now right].
  split; [exact EA|]. now apply position_inj.
Qed.

(** Items of one account in the same group of 256 never share a key, whatever the hash. *)
Lemma group_distinct addr i1 i2 k : (forall x h, h64 x = Ok h -> len h = 32%nat) -> len addr = 32%nat ->
  item_ok i1 -> item_ok i2 -> position i1 / 256 = position i2 / 256 ->
  key_at h64 addr (position i1) = Ok k -> key_at h64 addr (position i2) = Ok k -> i1 = i2.
Proof.
  intros HL La O1 O2 EG E1 E2. destruct (items_distinct addr addr i1 i2 k HL La La O1 O2 E1 E2) as [[_ E]|[NE _]]; [exact E|].
  exfalso. apply NE. now rewrite EG.
Qed.

(** A chunk number so large that its position is that of a storage slot. *)
Lemma huge_chunk addr k : 64 <= k < 2 ^ 256 - 2 ^ 248 ->
  code_chunk_key h64 addr (2 ^ 248 - 128 + k) = storage_slot_key h64 addr k.
Proof.
  intros H. pose proof pow_facts as [F1 F2]. rewrite storage_key_ok by lia. rewrite code_key_ok by lia. f_equal.
  unfold position. destruct (Z.ltb_spec k 64); lia.
Qed.
End Keys.

Lemma addr_ok a : len a = 20%nat -> len (addr20_to_addr32 a) = 32%nat.
Proof. intros H. unfold addr20_to_addr32. rewrite app_length, repeat_length, H. reflexivity. Qed.
Lemma addr_inj a b : addr20_to_addr32 a = addr20_to_addr32 b -> a = b.
Proof. apply app_inv_head. Qed.

(** ** Hash input *)
Lemma le_Z_zeros n : le_Z (repeat 0 n) = 0.
Proof. induction n as [|n IH]; cbn [repeat le_Z]; [reflexivity|rewrite IH; reflexivity]. Qed.
Lemma le_Z_pad a n : le_Z (a ++ repeat 0 n) = le_Z a.
Proof. rewrite le_Z_app, le_Z_zeros. lia. Qed.

Lemma chunks_aux_ok n b : (0 < n)%nat -> forall k fuel, (k <= fuel)%nat -> len b = (k * n)%nat ->
  chunks_aux fuel n b = map (fun i => firstn n (skipn (n * i) b)) (seq 0 k).
Proof.
  intros Hn k. revert b. induction k as [|k IH]; intros b fuel Hf L.
  - destruct b; [|cbn in L; lia]. destruct fuel; reflexivity.
  - destruct fuel as [|fuel]; [lia|]. destruct b as [|x b]; [cbn in L; lia|]. cbn [chunks_aux seq map].
    rewrite Nat.mul_0_r. change (skipn 0 (x :: b)) with (x :: b). f_equal.
    rewrite <- seq_shift, map_map. rewrite IH; [|lia|rewrite skipn_length; lia].
    apply map_ext. intros i. rewrite skipn_add. f_equal. f_equal. lia.
Qed.
Lemma chunks_ok n k b : (0 < n)%nat -> len b = (k * n)%nat -> chunks n b = map (fun i => firstn n (skipn (n * i) b)) (seq 0 k).
Proof. intros Hn L. unfold chunks. apply chunks_aux_ok; [exact Hn|nia|exact L]. Qed.

Lemma chunk64_ok b : len b = 64%nat -> chunk64 b = hash_input b 4.
Proof.
  intros L. unfold chunk64, hash_input. rewrite (chunks_ok 16 4) by (exact L || lia).
  rewrite firstn_all2 by (rewrite map_length, seq_length; lia). cbn [map]. rewrite map_map.
  rewrite le_Z_Z_le by (change (256 ^ Z.of_nat 16) with (2 ^ 128); change (2 ^ 128) with 340282366920938463463374607431768211456; lia).
  rewrite L. reflexivity.
Qed.

Lemma rmap_u128 l : Forall (fun c => len c = 16%nat) l -> rmap u128_of_chunk l = Ok (map le_Z l).
Proof.
  induction 1 as [|c l Hc _ IH]; cbn [rmap map]; [reflexivity|]. unfold u128_of_chunk at 1. rewrite Hc. cbn [Nat.eqb assertb rbind].
  rewrite IH. reflexivity.
Qed.

Lemma piece_pad b n i : (16 * i + 16 <= len b + n)%nat -> le_Z (firstn 16 (skipn (16 * i) (b ++ repeat 0 n))) = piece b i.
Proof.
  intros H. unfold piece. rewrite skipn_app, firstn_app.
  assert (Z : forall k m j, firstn j (skipn k (repeat 0 m)) = repeat 0 (Nat.min j (m - k))).
  { intros k m j. revert m j. induction k as [|k IH]; intros m j.
    - rewrite Nat.sub_0_r. cbn [skipn]. revert j. induction m as [|m IHm]; intros [|j]; cbn; try reflexivity. now rewrite IHm.
    - destruct m as [|m]; [destruct j; reflexivity|]. cbn [repeat skipn Nat.sub]. apply IH. }
  rewrite Z, le_Z_pad. reflexivity.
Qed.

Lemma chunk_bytes_ok b : (len b <= 255 * 16)%nat -> chunk_bytes b = Ok (hash_input b 255).
Proof.
  intros L. unfold chunk_bytes. change (u256_sub VERKLE_NODE_WIDTH 1) with (Ok 255). cbn [rbind].
  change (Z.to_nat 255) with 255%nat. replace (len b <=? 255 * 16)%nat with true by (symmetry; now apply Nat.leb_le). cbn [assertb rbind].
  set (flag := 2 + 256 * Z.of_nat (len b)). set (n := (255 * 16 - len b)%nat).
  assert (LF : len (Z_le 16 flag) = 16%nat) by apply Z_le_length.
  rewrite (chunks_ok 16 256); [|lia|rewrite !app_length, LF, repeat_length; unfold n; lia].
  rewrite rmap_u128.
  - f_equal. rewrite map_map. change (seq 0 256) with (0%nat :: seq 1 255). cbn [map]. unfold hash_input. f_equal.
    + change (16 * 0)%nat with 0%nat. cbn [skipn]. rewrite firstn_app_exact by exact LF. apply le_Z_Z_le.
      change (256 ^ Z.of_nat 16) with 340282366920938463463374607431768211456. unfold flag. lia.
    + rewrite <- seq_shift, map_map. apply map_ext_in. intros i Hi. apply in_seq in Hi.
      replace (16 * S i)%nat with (16 + 16 * i)%nat by lia. rewrite <- skipn_add.
      rewrite skipn_app_exact by exact LF. apply piece_pad. unfold n. lia.
  - apply Forall_forall. intros c Hc. apply in_map_iff in Hc as (i & <- & Hi). apply in_seq in Hi.
    rewrite firstn_length, skipn_length, !app_length, LF, repeat_length. unfold n. lia.
Qed.

Lemma chunk_bytes_long b : (255 * 16 < len b)%nat -> chunk_bytes b = Panic.
Proof.
  intros L. unfold chunk_bytes. change (u256_sub VERKLE_NODE_WIDTH 1) with (Ok 255). cbn [rbind].
  change (Z.to_nat 255) with 255%nat. replace (len b <=? 255 * 16)%nat with false by (symmetry; now apply Nat.leb_gt). reflexivity.
Qed.

Lemma piece_split b b' : forall n, is_bytes b -> is_bytes b' -> len b = len b' -> (len b <= 16 * n)%nat ->
  map (piece b) (seq 0 n) = map (piece b') (seq 0 n) -> b = b'.
Proof.
  intros n. revert b b'. induction n as [|n IH]; intros b b' Hb Hb' L Ln E.
  - destruct b, b'; cbn in *; (reflexivity || lia).
  - cbn [seq map] in E. apply (f_equal (@tl Z)) in E as ET. cbn [tl] in ET. apply (f_equal (hd 0)) in E. cbn [hd] in E.
    rewrite <- (firstn_skipn 16 b), <- (firstn_skipn 16 b'). f_equal.
    + apply le_Z_inj; [rewrite !firstn_length; lia|now apply is_bytes_firstn|now apply is_bytes_firstn|exact E].
    + apply IH; [now apply is_bytes_skipn|now apply is_bytes_skipn|rewrite !skipn_length; lia|rewrite skipn_length; lia|].
      rewrite <- seq_shift, !map_map in ET.
      assert (P : forall c i, piece (skipn 16 c) i = piece c (S i)).
      { intros c i. unfold piece. rewrite skipn_add. do 3 f_equal. lia. }
      rewrite (map_ext _ _ (P b)), (map_ext _ _ (P b')). exact ET.
Qed.

Lemma hash_input_inj b b' n : is_bytes b -> is_bytes b' -> (len b <= 16 * n)%nat -> (len b' <= 16 * n)%nat ->
  hash_input b n = hash_input b' n -> b = b'.
Proof.
  intros Hb Hb' L L' E. unfold hash_input in E. apply (f_equal (@tl Z)) in E as ET. apply (f_equal (hd 0)) in E. cbn [hd tl] in E, ET.
  apply (piece_split b b' n); try assumption. lia.
Qed.

Lemma hash_input_range b n : is_bytes b -> (len b <= 4080)%nat -> Forall (fun z => 0 <= z < 2 ^ 128) (hash_input b n).
Proof.
  intros Hb L. unfold hash_input. constructor.
  - change (2 ^ 128) with 340282366920938463463374607431768211456. lia.
  - apply Forall_forall. intros z Hz. apply in_map_iff in Hz as (i & <- & _). unfold piece.
    pose proof (le_Z_bound (firstn 16 (skipn (16 * i) b)) (is_bytes_firstn _ _ (is_bytes_skipn _ _ Hb))) as [Lo Hi].
    split; [exact Lo|]. eapply Z.lt_le_trans; [exact Hi|]. change (2 ^ 128) with (256 ^ 16).
    apply Z.pow_le_mono_r; [lia|]. rewrite firstn_length. lia.
Qed.

Section Hash.
Context {A : Alg} {L : AlgLaws A} {C : ECodec A} {CL : ECodecLaws C} {P : Par A}
  {I : FrInt A} {IL : FrIntLaws I} {W : Wnaf A} {WL : WnafLaws W}.

Lemma hash64_ok points c split b : committer_new points = Ok c -> len b = 64%nat ->
  hash64 split c b = Ok (sc_ser (hash (combination (map of_Z (hash_input b 4)) points))).
Proof.
  intros E Lb. unfold hash64. rewrite (commit_lagrange_ok points c E). cbn [rbind]. now rewrite chunk64_ok.
Qed.

Lemma hash64_total points c split b : committer_new points = Ok c -> exists h, hash64 split c b = Ok h /\ len h = 32%nat.
Proof.
  intros E. unfold hash64. rewrite (commit_lagrange_ok points c E). cbn [rbind]. eexists. split; [reflexivity|apply sc_len].
Qed.

Lemma tree_key_ok cx split addr idx i : context_new = Ok cx -> len addr = 32%nat -> 0 <= idx -> 0 <= i < 256 ->
  exists h, hash64 split (cx_committer cx) (addr ++ Z_le 32 idx) = Ok h /\
    get_tree_key_hash split cx addr (Z_le 32 idx) = Ok h /\ len h = 32%nat /\
    get_tree_key split cx addr (Z_le 32 idx) i = Ok (firstn 31 h ++ [i]) /\
    get_tree_key split cx addr (Z_le 32 idx) i = key_at (hash64 split (cx_committer cx)) addr (256 * idx + i).
Proof.
  intros Hc La Hi Hs. apply context_inv in Hc as (_ & E & _).
  destruct (hash64_total _ _ split (addr ++ Z_le 32 idx) E) as (h & Eh & Lh). exists h.
  unfold get_tree_key, get_tree_key_hash, get_tree_key_hash_flat_input, key_at.
  replace ((256 * idx + i) / 256) with idx by (apply (Z.div_unique _ _ _ i); lia).
  replace ((256 * idx + i) mod 256) with i by (apply (Z.mod_unique _ _ idx); lia).
  rewrite Eh. cbn [rbind]. auto.
Qed.

Lemma input_scalars_inj b b' n : is_bytes b -> is_bytes b' -> (len b <= 16 * n)%nat -> (len b' <= 16 * n)%nat -> (n <= 255)%nat ->
  map of_Z (hash_input b n) = map of_Z (hash_input b' n) -> b = b' \/ scalar_overlap.
Proof.
  intros Hb Hb' Ln Ln' Hn E.
  assert (H : forall l l', Forall (fun z => 0 <= z < 2 ^ 128) l -> Forall (fun z => 0 <= z < 2 ^ 128) l' ->
    map of_Z l = map of_Z l' -> l = l' \/ scalar_overlap).
  { intros l l' F. revert l'. induction F as [|x l Hx _ IH]; intros [|y l'] F' EE; try discriminate; [now left|].
    inversion F'; subst. cbn [map] in EE. injection EE as E1 E2. destruct (IH l') as [->|S]; [assumption|assumption| |now right].
    destruct (Z.eq_dec x y) as [->|NE]; [now left|right]. exists x, y. auto. }
  destruct (H _ _ (hash_input_range b n Hb ltac:(lia)) (hash_input_range b' n Hb' ltac:(lia)) E) as [EI|S]; [left|now right].
  now apply (hash_input_inj b b' n).
Qed.

(** Different inputs with the same hash are an explicit collision of "commit, then map". *)
Lemma hash64_collision points c split b b' h :
  committer_new points = Ok c -> len b = 64%nat -> len b' = 64%nat -> is_bytes b -> is_bytes b' ->
  hash64 split c b = Ok h -> hash64 split c b' = Ok h ->
  let v := map of_Z (hash_input b 4) in let v' := map of_Z (hash_input b' 4) in
  hash (combination v points) = hash (combination v' points) /\ (v = v' -> b = b' \/ scalar_overlap).
Proof.
  intros E Lb Lb' Hb Hb' E1 E2 v v'. rewrite (hash64_ok points) in E1, E2 by assumption. split.
  - assert (X : sc_ser (hash (combination v points)) = sc_ser (hash (combination v' points))) by (unfold v, v'; congruence).
    apply (f_equal sc_de) in X. rewrite !sc_rt in X. congruence.
  - apply input_scalars_inj; try assumption; lia.
Qed.
End Hash.
