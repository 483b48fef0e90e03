(** Proofs about accounts kept in a trie (C52). *)
From Verif Require Import Base BaseFacts Alg TreeSpec TrieModel TrieProofs TrieTheorems WireModel ProofModel IpaModel MsmModel FfiModel
  SpecModel LayoutSpec LayoutProofs LayoutInst AccountSpec.
Notation len := List.length.

Lemma item_eqb_eq i j : item_eqb i j = true <-> i = j.
Proof.
  destruct i, j; cbn [item_eqb]; try (split; discriminate); rewrite Z.eqb_eq; split; intro X; try congruence; now injection X.
Qed.

Section Keys.
Variable h64 : bytes -> res bytes.
Hypothesis Htot : hash_total h64.
(** [items_distinct] asks for 32 bytes on all inputs; the hash cut to 64-byte inputs has them. *)
Definition cut (x : bytes) : res bytes := if (len x =? 64)%nat then h64 x else Panic.
Lemma cut_len x h : cut x = Ok h -> len h = 32%nat.
Proof.
  unfold cut. destruct (Nat.eqb_spec (len x) 64) as [E|]; [|discriminate]. destruct (Htot x E) as (h' & E1 & E2 & _). congruence.
Qed.
Lemma input_len a pos : len a = 32%nat -> len (a ++ Z_le 32 pos) = 64%nat.
Proof. intro E. rewrite app_length, Z_le_length, E. reflexivity. Qed.
Lemma cut_key a pos : len a = 32%nat -> key_at cut a pos = key_at h64 a pos.
Proof. intro E. unfold key_at, cut. rewrite input_len by exact E. reflexivity. Qed.
Lemma cut_prefix x y : same_prefix cut x y -> same_prefix h64 x y.
Proof.
  intros (N & hx & hy & E1 & E2 & E3). split; [exact N|]. exists hx, hy. unfold cut in *.
  destruct (len x =? 64)%nat; [|discriminate]. destruct (len y =? 64)%nat; [|discriminate]. auto.
Qed.

Lemma key_ok a pos : len a = 32%nat -> 0 <= pos -> exists k, key_at h64 a pos = Ok k /\ is_key k.
Proof.
  intros E Hp. unfold key_at. destruct (Htot _ (input_len a (pos / 256) E)) as (h & E1 & E2 & E3). rewrite E1.
  eexists. split; [reflexivity|]. split.
  - rewrite app_length, firstn_length, E2. reflexivity.
  - apply Forall_app. split; [apply is_bytes_firstn; exact E3|]. constructor; [|constructor].
    unfold is_byte. pose proof (Z.mod_pos_bound pos 256 ltac:(lia)). lia.
Qed.

Lemma item_key_ok a i : account_item (a, i) -> item_key h64 a i = key_at h64 a (position i).
Proof.
  intros [E Ho]. cbn [fst snd] in *. destruct i as [f|c|k]; cbn [item_key item_ok] in *.
  - assert (K : forall j, 0 <= j -> exists k, key_at h64 a j = Ok k) by (intros j Hj; destruct (key_ok a j E Hj) as (k & X & _); eauto).
    pose proof (header_ok h64 a 0 ltac:(lia)) as X. rewrite !Z.mul_0_r, !Z.add_0_l in X.
    destruct (K 0 ltac:(lia)) as [k0 K0], (K 1 ltac:(lia)) as [k1 K1], (K 2 ltac:(lia)) as [k2 K2], (K 3 ltac:(lia)) as [k3 K3], (K 4 ltac:(lia)) as [k4 K4].
    rewrite K0, K1, K2, K3, K4 in X. cbn [rbind] in X.
    assert (Hf : f = 0 \/ f = 1 \/ f = 2 \/ f = 3 \/ f = 4) by lia. cbn [position].
    unfold header_new. destruct Hf as [->|[->|[->|[->| ->]]]]; rewrite X; cbn [rbind hd_version hd_balance hd_nonce hd_code_keccak hd_code_size]; congruence.
  - pose proof pow_facts. apply code_key_ok. lia.
  - apply storage_key_ok. lia.
Qed.

Lemma item_is_key a i : account_item (a, i) -> exists k, item_key h64 a i = Ok k /\ is_key k.
Proof.
  intro Ha. rewrite item_key_ok by exact Ha. destruct Ha as [E Ho]. apply key_ok; [exact E|]. apply position_range, Ho.
Qed.

Lemma item_key_inj a1 i1 a2 i2 k : account_item (a1, i1) -> account_item (a2, i2) ->
  item_key h64 a1 i1 = Ok k -> item_key h64 a2 i2 = Ok k ->
  ~ same_prefix h64 (a1 ++ Z_le 32 (position i1 / 256)) (a2 ++ Z_le 32 (position i2 / 256)) ->
  a1 = a2 /\ i1 = i2.
Proof.
  intros H1 H2 E1 E2 N. rewrite item_key_ok in E1, E2 by assumption. destruct H1 as [L1 O1], H2 as [L2 O2]. cbn [fst snd] in *.
  rewrite <- cut_key in E1, E2 by assumption.
  destruct (items_distinct cut a1 a2 i1 i2 k cut_len L1 L2 O1 O2 E1 E2) as [X|X]; [exact X|].
  destruct N. apply cut_prefix, X.
Qed.

Definition targets (w : writes) : list (bytes * item) := map fst w.
Lemma insertions_ok w : Forall account_item (targets w) ->
  exists h, insertions h64 w = Ok h /\ wf_history h /\
    forall a i k, account_item (a, i) -> item_key h64 a i = Ok k -> collision_free h64 ((a, i) :: targets w) ->
      final_map h k = written w a i.
Proof.
  unfold insertions, targets. induction w as [|[[a j] v] w IH]; cbn [map fst rmap]; intro Hf.
  - exists []. split; [reflexivity|]. split; [constructor|]. reflexivity.
  - pose proof (Forall_inv Hf) as Ha. destruct (IH (Forall_inv_tail Hf)) as (h & E & Hw & Hm).
    destruct (item_is_key a j Ha) as (k & Ek & Kk). rewrite Ek. cbn [rbind]. rewrite E. cbn [rbind].
    exists ((k, v) :: h). split; [reflexivity|]. split; [constructor; assumption|].
    intros a' i k' Hi Ek' Hc. cbn [final_map written]. rewrite (Hm a' i k' Hi Ek').
    2:{ intros a1 i1 a2 i2 I1 I2. apply Hc.
        - destruct I1 as [I1|I1]; [now left|now do 2 right].
        - destruct I2 as [I2|I2]; [now left|now do 2 right]. }
    destruct (written w a' i); [reflexivity|].
    destruct (beqb k k') eqn:B.
    + apply beqb_eq in B. subst k'.
      destruct (item_key_inj a j a' i k Ha Hi Ek Ek') as [-> ->].
      { apply Hc; [right; left; reflexivity|left; reflexivity]. }
      rewrite beqb_refl. destruct (item_eqb i i) eqn:X; [reflexivity|].
      assert (Y : item_eqb i i = true) by now apply item_eqb_eq. congruence.
    + destruct (beqb a a') eqn:B1; [|reflexivity]. destruct (item_eqb j i) eqn:B2; [|reflexivity].
      apply beqb_eq in B1. apply item_eqb_eq in B2. subst. rewrite Ek in Ek'. injection Ek' as <-.
      now rewrite beqb_refl in B.
Qed.

Lemma insertions_In w h k v : insertions h64 w = Ok h -> In (k, v) h -> exists a i, In (a, i, v) w /\ item_key h64 a i = Ok k.
Proof.
  unfold insertions. revert h. induction w as [|[[a j] x] w IH]; cbn [rmap]; intros h E.
  - injection E as <-. intros [].
  - destruct (item_key h64 a j) as [k0|] eqn:Ek; cbn [rbind] in E; [|discriminate].
    destruct (rmap _ w) as [h'|] eqn:E'; cbn [rbind] in E; [|discriminate].
    assert (E'' : h = (k0, x) :: h') by congruence. subst h. intros [X|X].
    + injection X as <- <-. exists a, j. split; [now left|exact Ek].
    + destruct (IH h' eq_refl X) as (a' & i & I1 & I2). exists a', i. split; [now right|exact I2].
Qed.

Context {A : Alg} {AL : AlgLaws A} {P : Par A} {PL : ParLaws P}.

Lemma read_back w : Forall account_item (targets w) ->
  exists h db, insertions h64 w = Ok h /\ run_mem h = Ok db /\
    forall a i, account_item (a, i) -> collision_free h64 ((a, i) :: targets w) ->
      exists k, item_key h64 a i = Ok k /\ trie_get db k = Ok (written w a i).
Proof.
  intro Hf. destruct (insertions_ok w Hf) as (h & E & Hw & Hm). destruct (get_last h Hw) as (db & Er & Hg).
  exists h, db. split; [exact E|]. split; [exact Er|]. intros a i Hi Hc. destruct (item_is_key a i Hi) as (k & Ek & _).
  exists k. split; [exact Ek|]. now rewrite Hg, (Hm a i k Hi Ek Hc).
Qed.

Lemma same_state w1 w2 : Forall account_item (targets w1) -> Forall account_item (targets w2) ->
  collision_free h64 (targets w1 ++ targets w2) ->
  (forall a i, account_item (a, i) -> written w1 a i = written w2 a i) ->
  exists h1 h2 db1 db2, insertions h64 w1 = Ok h1 /\ insertions h64 w2 = Ok h2 /\ run_mem h1 = Ok db1 /\ run_mem h2 = Ok db2 /\
    root_commitment db1 = root_commitment db2.
Proof.
  intros F1 F2 Hc Hs.
  destruct (insertions_ok w1 F1) as (h1 & E1 & Hw1 & Hm1). destruct (insertions_ok w2 F2) as (h2 & E2 & Hw2 & Hm2).
  assert (sub : forall a i w, In (a, i) (targets w1 ++ targets w2) -> incl (targets w) (targets w1 ++ targets w2) ->
    collision_free h64 ((a, i) :: targets w)).
  { intros a i w Ha Hi a1 i1 a2 i2 I1 I2. apply Hc.
    - destruct I1 as [I1|I1]; [now rewrite <- I1|apply Hi, I1].
    - destruct I2 as [I2|I2]; [now rewrite <- I2|apply Hi, I2]. }
  assert (S1 : incl (targets w1) (targets w1 ++ targets w2)) by (intros x Hx; apply in_or_app; now left).
  assert (S2 : incl (targets w2) (targets w1 ++ targets w2)) by (intros x Hx; apply in_or_app; now right).
  assert (G : forall a i k, In (a, i) (targets w1 ++ targets w2) -> item_key h64 a i = Ok k -> final_map h1 k = final_map h2 k).
  { intros a i k Ha Ek.
    assert (Hi : account_item (a, i)).
    { apply in_app_or in Ha as [Ha|Ha]; [rewrite Forall_forall in F1; apply F1, Ha|rewrite Forall_forall in F2; apply F2, Ha]. }
    rewrite (Hm1 a i k Hi Ek (sub a i w1 Ha S1)), (Hm2 a i k Hi Ek (sub a i w2 Ha S2)). apply Hs, Hi. }
  assert (Em : forall k, final_map h1 k = final_map h2 k).
  { intro k. destruct (final_map h1 k) as [v|] eqn:X1.
    - destruct (insertions_In w1 h1 k v E1 (final_map_In _ _ _ X1)) as (a & i & Ia & Ek). rewrite <- X1. apply (G a i k); [|exact Ek].
      apply S1. apply (in_map fst) in Ia. exact Ia.
    - destruct (final_map h2 k) as [v|] eqn:X2; [|reflexivity].
      destruct (insertions_In w2 h2 k v E2 (final_map_In _ _ _ X2)) as (a & i & Ia & Ek). rewrite <- X1, <- X2. apply (G a i k); [|exact Ek].
      apply S2. apply (in_map fst) in Ia. exact Ia. }
  destruct (history_independent h1 h2 Hw1 Hw2 Em) as (db1 & db2 & R1 & R2 & Rc & _). exists h1, h2, db1, db2. auto.
Qed.
End Keys.

(** ** Code *)
Lemma written_app w1 w2 a i : written (w1 ++ w2) a i = match written w2 a i with Some x => Some x | None => written w1 a i end.
Proof.
  induction w1 as [|[[b j] v] w1 IH]; cbn [app written]; [now destruct (written w2 a i)|].
  rewrite IH. now destruct (written w2 a i), (written w1 a i).
Qed.
Lemma written_code_aux a l : forall s i, written (map (fun ic => (a, Chunk (Z.of_nat (fst ic)), snd ic)) (combine (seq s (len l)) l)) a (Chunk (Z.of_nat (s + i)))
  = nth_error l i.
Proof.
  induction l as [|c l IH]; intros s i; cbn [len seq combine map written fst snd]; [now destruct i|].
  destruct i as [|i]; cbn [nth_error].
  - assert (N : written (map (fun ic => (a, Chunk (Z.of_nat (fst ic)), snd ic)) (combine (seq (S s) (len l)) l)) a (Chunk (Z.of_nat (s + 0))) = None).
    { clear IH. assert (Hlt : (s + 0 < S s)%nat) by lia. revert Hlt. generalize (S s) as t. generalize (s + 0)%nat as n.
      induction l as [|x l IH]; intros n t Hlt; cbn [len seq combine map written fst snd]; [reflexivity|].
      rewrite IH by lia. cbn [item_eqb]. destruct (Z.eqb_spec (Z.of_nat t) (Z.of_nat n)); [lia|]. now rewrite andb_false_r. }
    rewrite N, beqb_refl. cbn [item_eqb andb]. replace (s + 0)%nat with s by lia. now rewrite Z.eqb_refl.
  - replace (s + S i)%nat with (S s + i)%nat by lia. rewrite IH. destruct (nth_error l i); [reflexivity|].
    rewrite beqb_refl. cbn [item_eqb andb]. destruct (Z.eqb_spec (Z.of_nat s) (Z.of_nat (S s + i))); [lia|reflexivity].
Qed.
Lemma written_code a l i : written (code_writes a l) a (Chunk (Z.of_nat i)) = nth_error l i.
Proof. exact (written_code_aux a l 0 i). Qed.

(** ** The hash of the library *)
Section Hash.
Context {A : Alg} {L : AlgLaws A} {C : ECodec A} {CL : ECodecLaws C} {P : Par A}
  {I : FrInt A} {IL : FrIntLaws I} {W : Wnaf A} {WL : WnafLaws W}.
Lemma library_hash_total points c split : (forall x, is_bytes (sc_ser x)) -> committer_new points = Ok c -> hash_total (hash64 split c).
Proof.
  intros Hb Hc x Hx. rewrite (hash64_ok points c split x Hc Hx). eexists. split; [reflexivity|]. split; [apply sc_len|apply Hb].
Qed.
End Hash.

Section Code.
Variable h64 : bytes -> res bytes.
Hypothesis Htot : hash_total h64.
Context {A : Alg} {AL : AlgLaws A} {P : Par A} {PL : ParLaws P}.

Lemma code_targets a l : len a = 32%nat -> Z.of_nat (len l) < 2 ^ 248 - 64 -> Forall account_item (targets (code_writes a l)).
Proof.
  intros La Hl. apply Forall_forall. intros [b j] Hin. unfold targets, code_writes in Hin. rewrite map_map in Hin.
  apply in_map_iff in Hin as ([i c] & E & Hin). cbn [fst snd] in E. assert (E1 : b = a) by congruence. assert (E2 : j = Chunk (Z.of_nat i)) by congruence.
  subst. split; [exact La|]. cbn [snd item_ok]. apply in_combine_l in Hin. apply in_seq in Hin. lia.
Qed.
Lemma targets_app w1 w2 : targets (w1 ++ w2) = targets w1 ++ targets w2.
Proof. apply map_app. Qed.

Lemma chunk_count_le code : (chunk_count code <= len code)%nat.
Proof.
  unfold chunk_count. destruct (len code) as [|n]; [reflexivity|].
  assert (X : ((S n + 30) / 31 < S (S n))%nat) by (apply Nat.div_lt_upper_bound; lia). lia.
Qed.

Lemma code_readable checked code a w1 w2 : code <> [] -> Z.of_nat (len code) < 2 ^ 64 -> len a = 32%nat ->
  Forall account_item (targets w1) -> Forall account_item (targets w2) -> (forall c v, ~ In (a, Chunk c, v) w2) ->
  exists chunks, chunkify_code checked code = Ok chunks /\
    let w := w1 ++ code_writes a chunks ++ w2 in
    (collision_free h64 (targets w) -> exists h db l, insertions h64 w = Ok h /\ run_mem h = Ok db /\
       (forall i, (i < len l)%nat -> exists k, code_chunk_key h64 a (Z.of_nat i) = Ok k /\ trie_get db k = Ok (nth_error l i)) /\
       len l = chunk_count code /\ firstn (len code) (concat (map (@tl Z) l)) = code).
Proof.
  intros Hne Hlen La F1 F2 Hno. destruct (chunkify_ok checked code Hne) as (extra & E & Hx & _). exists (code_chunks code ++ extra).
  split; [exact E|]. set (chunks := code_chunks code ++ extra). cbv zeta. intro Hc.
  destruct (chunks_payload code) as (P1 & P2 & P3). pose proof (chunk_count_le code) as Hcc.
  assert (P64 : 2 ^ 64 + 65 < 2 ^ 248) by reflexivity.
  assert (Lc : (len chunks <= S (chunk_count code))%nat).
  { unfold chunks. rewrite app_length, P3. destruct Hx as [-> | ->]; cbn [len]; lia. }
  assert (Fc : Forall account_item (targets (code_writes a chunks))) by (apply code_targets; [exact La|lia]).
  assert (Fw : Forall account_item (targets (w1 ++ code_writes a chunks ++ w2))).
  { rewrite !targets_app. apply Forall_app. split; [exact F1|]. apply Forall_app. auto. }
  destruct (read_back h64 Htot _ Fw) as (h & db & Eh & Er & Hg).
  exists h, db, (code_chunks code). split; [exact Eh|]. split; [exact Er|]. split; [|split; [exact P3|]].
  - intros i Hi. assert (Ii : In (a, Chunk (Z.of_nat i)) (targets (w1 ++ code_writes a chunks ++ w2))).
    { rewrite !targets_app. apply in_or_app. right. apply in_or_app. left. unfold targets, code_writes. rewrite map_map.
      apply in_map_iff. exists (i, nth i chunks []). split; [reflexivity|].
      assert (Hi' : (i < len chunks)%nat) by (unfold chunks; rewrite app_length; lia).
      replace (i, nth i chunks []) with (nth i (combine (seq 0 (len chunks)) chunks) (0%nat, [])).
      - apply nth_In. rewrite combine_length, seq_length. lia.
      - rewrite combine_nth by apply seq_length. now rewrite seq_nth by exact Hi'. }
    assert (Hi2 : account_item (a, Chunk (Z.of_nat i))) by (rewrite Forall_forall in Fw; apply Fw, Ii).
    destruct (Hg a (Chunk (Z.of_nat i)) Hi2) as (k & Ek & Eg).
    { intros a1 i1 a2 i2 I1 I2. apply Hc.
      - destruct I1 as [I1|I1]; [rewrite <- I1; exact Ii|exact I1].
      - destruct I2 as [I2|I2]; [rewrite <- I2; exact Ii|exact I2]. }
    exists k. split; [exact Ek|]. rewrite Eg. f_equal.
    assert (N : written w2 a (Chunk (Z.of_nat i)) = None).
    { clear -Hno. induction w2 as [|[[b j] v] w2 IH]; cbn [written]; [reflexivity|].
      rewrite IH by (intros c v' X; apply (Hno c v'); now right).
      destruct (beqb b a) eqn:B; [|reflexivity]. destruct (item_eqb j (Chunk (Z.of_nat i))) eqn:B2; [|reflexivity].
      apply beqb_eq in B. apply item_eqb_eq in B2. subst. destruct (Hno (Z.of_nat i) v). now left. }
    rewrite !written_app, N, written_code. unfold chunks. rewrite nth_error_app1 by lia.
    destruct (nth_error (code_chunks code) i) as [c|] eqn:X; [reflexivity|]. apply nth_error_None in X. lia.
  - rewrite P1. unfold padded. rewrite firstn_app, Nat.sub_diag, firstn_all. cbn [firstn]. apply app_nil_r.
Qed.
End Code.

(** ** A case with the toy hash: two accounts, fields, code and slots, some written twice. *)
Definition toy64 (x : bytes) : res bytes := if forallb (fun b => (0 <=? b) && (b <? 256)) x then toy_hash x else toy_hash [].
Lemma toy_total : hash_total toy64.
Proof.
  assert (G : forall x, is_bytes x -> exists h, toy_hash x = Ok h /\ len h = 32%nat /\ is_bytes h).
  { intros x Bx. unfold toy_hash. eexists. split; [reflexivity|]. split.
    - rewrite app_length, !firstn_length, !app_length, !repeat_length. lia.
    - apply Forall_app. split; apply is_bytes_firstn, Forall_app; split; try exact Bx; try apply is_bytes_skipn, Bx;
        apply Forall_forall; intros y Hy; apply repeat_spec in Hy; subst; unfold is_byte; lia. }
  intros x _. unfold toy64. destruct (forallb _ x) eqn:E; [|apply G; constructor].
  apply G. apply Forall_forall. intros b Hb. rewrite forallb_forall in E. specialize (E b Hb). unfold is_byte. lia.
Qed.

Definition prefix_eqb (h64 : bytes -> res bytes) (x y : bytes) : bool :=
  match h64 x, h64 y with Ok a, Ok b => beqb (firstn 31 a) (firstn 31 b) | _, _ => false end.
Definition collision_freeb (h64 : bytes -> res bytes) (l : list (bytes * item)) : bool :=
  let ins := map (fun ai => fst ai ++ Z_le 32 (position (snd ai) / 256)) l in
  forallb (fun x => forallb (fun y => beqb x y || negb (prefix_eqb h64 x y)) ins) ins.
Lemma collision_freeb_ok h64 l : collision_freeb h64 l = true -> collision_free h64 l.
Proof.
  intros Hb a1 i1 a2 i2 I1 I2 (N & hx & hy & E1 & E2 & E3). unfold collision_freeb in Hb. rewrite forallb_forall in Hb.
  apply (in_map (fun ai => fst ai ++ Z_le 32 (position (snd ai) / 256))) in I1, I2. cbn [fst snd] in I1, I2.
  specialize (Hb _ I1). rewrite forallb_forall in Hb. specialize (Hb _ I2). apply orb_true_iff in Hb as [Hb|Hb].
  - apply beqb_eq in Hb. contradiction.
  - unfold prefix_eqb in Hb. rewrite E1, E2, E3, beqb_refl in Hb. discriminate.
Qed.

Definition adr (n : Z) : bytes := repeat n 32.
Definition state_writes : writes :=
  [(adr 7, Field 2, repeat 1 32); (adr 8, Field 2, repeat 2 32); (adr 7, Slot 5, repeat 3 32)] ++
  code_writes (adr 7) (code_chunks code40) ++
  [(adr 7, Field 2, repeat 4 32); (adr 7, Slot 1000, repeat 5 32)].
Lemma state_items : Forall account_item (targets state_writes).
Proof. repeat (constructor; [split; [reflexivity|split; (reflexivity || discriminate)]|]). constructor. Qed.
Lemma state_free : collision_free toy64 ((adr 7, Slot 6) :: targets state_writes).
Proof. apply collision_freeb_ok. vm_compute. reflexivity. Qed.
