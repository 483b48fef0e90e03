(** Two tries on disk with the same root and other contents; the default curve. *)
From Verif Require Import Base BaseFacts Alg AlgFacts AlgInst TreeSpec TreeFacts TrieModel TrieProofs TrieTheorems
  CodecModel VerkleDbModel DbSpec VerkleDbProofs VerkleDbSim TruthSpec CodecInst VerkleDbExamples CollisionSpec CollisionProofs
  RealSpec RealProofs CollisionCases RewriteSpec RewriteSim RewriteProofs RewriteFacts RewriteCases AgreeSpec AgreeProofs.
Local Open Scope list_scope.

(** The same two values under one key, in either order. *)
Definition swap_ops (k : bytes) (x y : bytes) : list Op := [OInsert k x; OFlush; OInsert k y].
Definition up_ops : list Op := swap_ops e1 (val 1) (val 3).
Definition down_ops : list Op := swap_ops e1 (val 3) (val 1).
(** Two periods and three periods with the same totals: low halves 2^127, 2^127 and 0, 0, 0. *)
Definition half_val (top high : Z) : bytes := repeat 0 15 ++ [top] ++ repeat 0 15 ++ [high].
Definition two_ops : list Op := swap_ops e1 (half_val 128 3) (half_val 128 4).
Definition three_ops : list Op := swap_ops e1 (half_val 0 1) (half_val 0 2) ++ [OFlush; OInsert e1 (half_val 0 4)].

Lemma swap_values k x y : is_value x -> is_value y -> forall k' v, In (OInsert k' v) (swap_ops k x y) -> is_value v.
Proof. intros Hx Hy k' v [X|[X|[X|[]]]]; try discriminate X; injection X as _ <-; assumption. Qed.
Lemma val_value n : 0 <= n < 256 -> is_value (val n).
Proof. intros Hn. split; [reflexivity|]. apply Forall_forall. intros z Hz. apply repeat_spec in Hz. subst z. exact Hn. Qed.
Lemma half_value a b : 0 <= a < 256 -> 0 <= b < 256 -> is_value (half_val a b).
Proof.
  intros Ha Hb. split; [reflexivity|]. unfold half_val. cbn [repeat app].
  repeat (apply Forall_cons; [unfold is_byte; lia|]). apply Forall_nil.
Qed.

Lemma other_key l k : (forall k' v, In (OInsert k' v) l -> k' = e1) -> e1 <> k -> counted l k = [].
Proof.
  intros Hl0 Hk. unfold counted, tally.
  assert (X : forall l (t : Tally), (forall k' v, In (OInsert k' v) l -> k' = e1) -> ta_now t k = [] -> ta_disk t k = [] ->
    ta_now (fold_left tally_step l t) k = []); [|exact (X l tally_start Hl0 eq_refl eq_refl)].
  clear l Hl0. induction l as [|o l IH]; intros t Hl Hn Hd; [exact Hn|]. cbn [fold_left]. apply IH.
  - intros k' v H. apply (Hl k' v). right; exact H.
  - destruct o as [k0 x| |]; cbn [tally_step ta_now]; [|exact Hn|exact Hd]. destruct (same_value x (ta_now t k0)); [exact Hn|]. cbn [ta_now].
    rewrite (Hl k0 x (or_introl eq_refl)). destruct (beqb_spec e1 k); [contradiction|exact Hn].
  - destruct o as [k0 x| |]; cbn [tally_step ta_disk]; [|exact Hn|exact Hd]. destruct (same_value x (ta_now t k0)); exact Hd.
Qed.
Lemma only_e1 l : forallb (fun o => match o with OInsert k _ => beqb k e1 | _ => true end) l = true ->
  forall k' v, In (OInsert k' v) l -> k' = e1.
Proof. intros H k' v Hin. rewrite forallb_forall in H. specialize (H _ Hin). cbn in H. now apply beqb_eq in H. Qed.
Lemma same_totals l1 l2 : forallb (fun o => match o with OInsert k _ => beqb k e1 | _ => true end) (l1 ++ l2) = true ->
  totals l1 e1 = totals l2 e1 -> forall k, totals l1 k = totals l2 k.
Proof.
  intros H E k. rewrite forallb_app in H. apply andb_prop in H as [H1 H2].
  destruct (beqb_spec e1 k) as [<-|Hk]; [exact E|]. unfold totals.
  rewrite (other_key l1 k (only_e1 l1 H1) Hk), (other_key l2 k (only_e1 l2 H2) Hk). reflexivity.
Qed.
Lemma swap_totals : forall k, totals up_ops k = totals down_ops k.
Proof. apply same_totals; vm_compute; reflexivity. Qed.
Lemma periods_totals : forall k, totals two_ops k = totals three_ops k.
Proof. apply same_totals; vm_compute; reflexivity. Qed.

(** The same root hash in every group and with every codec, and two answers for one key. *)
Lemma swapped_roots {A : Alg} {L : AlgLaws A} {P : Par A} {PL : ParLaws P} {C : Codec A} {CL : CodecLaws C} :
  wf_ops up_ops /\ settled_ops up_ops /\ wf_ops down_ops /\ settled_ops down_ops /\
  (forall k v, In (OInsert k v) (up_ops ++ down_ops) -> is_value v) /\
  exists v1 v2, run_disk up_ops = Ok v1 /\ run_disk down_ops = Ok v2 /\
    root_commitment v1 = root_commitment v2 /\ root_hash v1 = root_hash v2 /\
    trie_get v1 e1 = Ok (Some (val 3)) /\ trie_get v2 e1 = Ok (Some (val 1)).
Proof.
  assert (W1 : wf_ops up_ops) by (apply ops_okb_ok; vm_compute; reflexivity).
  assert (S1 : settled_ops up_ops) by (apply settledb_ok; vm_compute; reflexivity).
  assert (W2 : wf_ops down_ops) by (apply ops_okb_ok; vm_compute; reflexivity).
  assert (S2 : settled_ops down_ops) by (apply settledb_ok; vm_compute; reflexivity).
  split; [exact W1|]. split; [exact S1|]. split; [exact W2|]. split; [exact S2|]. split.
  { intros k v H. apply in_app_or in H as [H|H]; [apply (swap_values e1 (val 1) (val 3)) with k|apply (swap_values e1 (val 3) (val 1)) with k];
      try exact H; apply val_value; lia. }
  destruct (totals_root up_ops down_ops W1 S1 W2 S2 swap_totals) as (v1 & v2 & E1 & E2 & Rc & Rh).
  exists v1, v2. split; [exact E1|]. split; [exact E2|]. split; [exact Rc|]. split; [exact Rh|].
  destruct (rewrite_exact up_ops W1 S1) as (v1' & E1' & G1 & _). rewrite E1 in E1'. injection E1' as <-.
  destruct (rewrite_exact down_ops W2 S2) as (v2' & E2' & G2 & _). rewrite E2 in E2'. injection E2' as <-.
  rewrite (G1 e1), (G2 e1). split; vm_compute; reflexivity.
Qed.

(** Tries whose keys were changed a different number of times. *)
Lemma periods_case : wf_ops two_ops /\ settled_ops two_ops /\ wf_ops three_ops /\ settled_ops three_ops /\
  (forall k, totals two_ops k = totals three_ops k) /\ length (counted two_ops e1) = 2%nat /\ length (counted three_ops e1) = 3%nat.
Proof.
  split; [apply ops_okb_ok; vm_compute; reflexivity|]. split; [apply settledb_ok; vm_compute; reflexivity|].
  split; [apply ops_okb_ok; vm_compute; reflexivity|]. split; [apply settledb_ok; vm_compute; reflexivity|].
  split; [exact periods_totals|]. split; vm_compute; reflexivity.
Qed.

(** ** The curve, the generators and the codec of the library *)
Local Notation ops := (@memory_db_ops real_alg).
Local Notation dops := (@verkle_db_ops real_alg real_codec).
Local Opaque real_par.
Lemma default_root_totals l1 l2 v1 v2 : wf_ops l1 -> settled_ops l1 -> wf_ops l2 -> settled_ops l2 ->
  (forall k v, In (OInsert k v) (l1 ++ l2) -> is_value v) -> Z.of_nat (length (l1 ++ l2)) < 2 ^ 100 ->
  @run_disk real_alg real_par real_codec l1 = Ok v1 -> @run_disk real_alg real_par real_codec l2 = Ok v2 ->
  @root_hash real_alg _ dops v1 = @root_hash real_alg _ dops v2 ->
  (forall k, totals l1 k = totals l2 k) \/ @collision real_alg real_par (summed l1) (summed l2).
Proof.
  exact (@root_totals real_alg (proj1 real_laws) real_par (proj1 (proj2 real_laws)) real_codec
    (proj1 (proj2 (proj2 real_laws))) bander_large l1 l2 v1 v2).
Qed.
Lemma default_memory_binds l h v (db : @MemoryDb real_alg) : wf_ops l -> settled_ops l ->
  (forall k v, In (OInsert k v) l -> is_value v) -> Z.of_nat (length l) < 2 ^ 100 ->
  wf_history h -> Forall (fun kv => is_value (snd kv)) h ->
  @run_disk real_alg real_par real_codec l = Ok v -> @run_mem real_alg real_par h = Ok db ->
  @root_hash real_alg _ dops v = @root_hash real_alg _ ops db ->
  (forall k, @trie_get real_alg _ dops v k = @trie_get real_alg _ ops db k) /\ ~ rewrites l \/ @collision real_alg real_par h (tallied l).
Proof.
  exact (@memory_binds real_alg (proj1 real_laws) real_par (proj1 (proj2 real_laws)) real_codec
    (proj1 (proj2 (proj2 real_laws))) bander_large l h v db).
Qed.
Lemma default_swapped : exists v1 v2, @run_disk real_alg real_par real_codec up_ops = Ok v1 /\ @run_disk real_alg real_par real_codec down_ops = Ok v2 /\
    @root_hash real_alg _ dops v1 = @root_hash real_alg _ dops v2 /\
    @trie_get real_alg _ dops v1 e1 = Ok (Some (val 3)) /\ @trie_get real_alg _ dops v2 e1 = Ok (Some (val 1)).
Proof.
  destruct (@swapped_roots real_alg (proj1 real_laws) real_par (proj1 (proj2 real_laws)) real_codec
    (proj1 (proj2 (proj2 real_laws)))) as (_ & _ & _ & _ & _ & v1 & v2 & E1 & E2 & _ & R & G).
  exists v1, v2. split; [exact E1|]. split; [exact E2|]. split; [exact R|exact G].
Qed.
