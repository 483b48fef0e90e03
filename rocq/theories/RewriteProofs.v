(** The exact state of a trie on disk over histories that write flushed values again. *)
From Coq Require Import Permutation.
From Verif Require Import Base BaseFacts Alg AlgFacts TreeSpec TreeFacts TrieModel TrieProofs
  CodecModel VerkleDbModel DbSpec VerkleDbProofs VerkleDbSim RewriteSpec RewriteSim.

(** ** Entries with summed scalars *)
Section Entries.
Context {A : Alg} {L : AlgLaws A}.
Add Ring Fring_rw : (F_ring (A := A)).

Lemma le_Z_head n r : le_Z (firstn 16 (n :: repeat 0 15 ++ r)) = n.
Proof. cbn [repeat app firstn le_Z]. lia. Qed.
Lemma le_Z_second n h r : le_Z (firstn 16 (skipn 16 (n :: repeat 0 15 ++ h :: repeat 0 15 ++ r))) = h.
Proof. cbn [repeat app firstn skipn le_Z]. lia. Qed.

Lemma fsum_low c : fsum (map (fun v => leaf_low (Some v)) c) = of_Z (zsum (map low_int c) + 2 ^ 128 * Z.of_nat (length c)).
Proof.
  induction c as [|v c IH]; cbn [map fsum zsum length]; [symmetry; apply of_Z_0|].
  rewrite IH. replace (low_int v + zsum (map low_int c) + 2 ^ 128 * Z.of_nat (S (length c)))
    with ((low_int v + 2 ^ 128) + (zsum (map low_int c) + 2 ^ 128 * Z.of_nat (length c))) by lia.
  rewrite (of_Z_add (low_int v + 2 ^ 128)). rewrite (of_Z_add (low_int v)). reflexivity.
Qed.
Lemma fsum_high c : fsum (map (fun v => leaf_high (Some v)) c) = of_Z (zsum (map high_int c)).
Proof.
  induction c as [|v c IH]; cbn [map fsum zsum]; [symmetry; apply of_Z_0|]. rewrite IH, of_Z_add. reflexivity.
Qed.
Lemma sum_low c : leaf_low (sum_entry c) = fsum (map (fun v => leaf_low (Some v)) c).
Proof.
  destruct c as [|v [|w c]]; [reflexivity|cbn [sum_entry map fsum]; ring|]. rewrite fsum_low. cbn [sum_entry leaf_low].
  rewrite le_Z_head, <- of_Z_add. f_equal. cbn [length]. lia.
Qed.
Lemma sum_high c : leaf_high (sum_entry c) = fsum (map (fun v => leaf_high (Some v)) c).
Proof.
  destruct c as [|v [|w c]]; [reflexivity|cbn [sum_entry map fsum]; ring|]. rewrite fsum_high. cbn [sum_entry leaf_high].
  rewrite le_Z_second. reflexivity.
Qed.
End Entries.

Lemma sum_entry_none c : sum_entry c = None <-> c = [].
Proof. destruct c as [|v [|w c]]; cbn; split; congruence. Qed.

Lemma app_inj_len {X} (a b c d : list X) : length a = length c -> a ++ b = c ++ d -> a = c /\ b = d.
Proof.
  revert c. induction a as [|x a IH]; intros [|y c] HL E; try discriminate HL; [auto|].
  cbn in E. injection E as -> E. injection HL as HL. destruct (IH c HL E) as [-> ->]. auto.
Qed.

Lemma sum_entry_tail v w c : sum_entry (v :: w :: c) =
  Some ((zsum (map low_int (v :: w :: c)) + 2 ^ 128 * Z.of_nat (length (w :: c))) :: repeat 0 15
    ++ zsum (map high_int (v :: w :: c)) :: repeat 0 15 ++ v ++ w ++ concat c).
Proof. reflexivity. Qed.

Lemma sum_entry_len (c : list bytes) e : (forall y, In y c -> length y = 32%nat) -> sum_entry c = Some e ->
  length e = match c with [_] => 32%nat | _ => (32 + 32 * length c)%nat end.
Proof.
  intros H E. assert (X : forall c, (forall y : bytes, In y c -> length y = 32%nat) -> length (concat c) = (32 * length c)%nat).
  { clear. induction c as [|y c IH]; intros H; [reflexivity|]. cbn [concat length]. rewrite app_length, IH, (H y (or_introl eq_refl)).
    - lia.
    - intros z Hz. apply H. right; exact Hz. }
  destruct c as [|v [|w c]]; [discriminate|injection E as <-; apply H; left; reflexivity|].
  rewrite sum_entry_tail in E. pose proof (X _ H) as Y. cbn [concat] in Y. generalize dependent (v ++ w ++ concat c). intros q E Y.
  apply (f_equal (fun o => match o with Some e => length e | None => 0%nat end)) in E.
  rewrite <- E. cbn [length]. rewrite app_length. cbn [length]. rewrite app_length, !repeat_length, Y. cbn [length]. reflexivity.
Qed.

Lemma write_ne (x : bytes) waits (c : list bytes) : length x = 32%nat -> (forall y, In y c -> length y = 32%nat) -> same_value x c = false ->
  (waits = true -> c <> []) -> sum_entry (tally_write x waits c) <> sum_entry c.
Proof.
  intros Lx Lc Hs Hw E. destruct waits; cbn [tally_write] in E.
  - destruct c as [|y c]; [now apply Hw|]. cbn [tl same_value] in *. apply beqb_neq in Hs. apply Hs.
    destruct c as [|z c]; [cbn in E; congruence|]. rewrite !sum_entry_tail in E. injection E as _ _ E.
    apply app_inj_len in E as [E _]; [symmetry; exact E|]. rewrite Lx. symmetry. apply Lc. left; reflexivity.
  - destruct (sum_entry (x :: c)) as [e|] eqn:E1; [|apply sum_entry_none in E1; discriminate].
    pose proof (sum_entry_len (x :: c) e) as H1. pose proof (sum_entry_len c e Lc (eq_sym E)) as H2.
    rewrite H1 in H2; [|intros y [<-|Hy]; auto|exact E1]. destruct c as [|y [|z c]]; [discriminate E| |]; cbn [length] in H2; lia.
Qed.

(** ** Reads of one state *)
Section State.
Context {A : Alg} {L : AlgLaws A} {P : Par A} {PL : ParLaws P} {C : Codec A}.
Opaque vcommit gsum subtree_hash.

Record Trunk (v : VerkleDb) (db : MemoryDb) : Prop := {
  tr_stem : forall s, vd_get_stem_meta v s = Ok (stem_table db s);
  tr_meta : forall p, vd_get_branch_meta v p = mem_get_branch_meta db p;
  tr_child : forall p i, vd_get_branch_child v p i = Ok (branch_table db (p ++ [i]))
}.

(** [m]: the values read; [g]: the values committed to. *)
Record GState (cold : bytes -> Prop) (v : VerkleDb) (m g : bytes -> option bytes) (gdb : MemoryDb) (St : list bytes) : Prop := {
  gs_trunk : Trunk v gdb;
  gs_trunk_nc : Trunk (nocache v) gdb;
  gs_leaf : forall k, vd_get_leaf v k = Ok (m k);
  gs_leaf_nc : forall k, vd_get_leaf (nocache v) k = Ok (m k);
  gs_clear : forall r, coldR cold r -> uncached v r;
  gs_canon : Canon gdb g St;
  gs_dom : forall k, g k = None <-> m k = None
}.

Definition ghost_cache (v : VerkleDb) (g : bytes -> option bytes) : bmap bytes :=
  fun k => match leaf_table (vd_cache v) k with Some _ => g k | None => None end.
Definition ghost (v : VerkleDb) (g : bytes -> option bytes) : VerkleDb := glue v g (ghost_cache v g).

Lemma ghost_lock v g : Lock (leaf_table (vd_batch v)) (leaf_table (vd_cache v)) g (ghost_cache v g) v (ghost v g).
Proof. repeat split. Qed.

Lemma read_none v k : vd_get_leaf v k = Ok None ->
  leaf_table (vd_cache v) k = None /\ leaf_table (vd_batch v) k = None /\ disk_get_leaf (vd_storage v) k = Ok None.
Proof.
  unfold vd_get_leaf, mem_get_leaf. destruct (leaf_table (vd_cache v) k); [discriminate|].
  destruct (leaf_table (vd_batch v) k); [discriminate|]. auto.
Qed.

Lemma ghost_rel cold v m g gdb St : GState cold v m g gdb St -> Rel (coldR cold) (ghost v g) gdb g (vd_storage v).
Proof.
  intros [T1 T2 L1 L2 Cl Cn D]. destruct T1 as [A1 A2 A3], T2 as [B1 B2 B3]. constructor.
  - constructor; [|exact A1|exact A2|exact A3]. intros k. rewrite (can_leaf _ _ _ Cn). unfold vd_get_leaf, mem_get_leaf, ghost, glue, ghost_cache.
    cbn [vd_cache vd_batch vd_storage leaf_table]. destruct (g k) as [e|] eqn:Eg.
    + destruct (leaf_table (vd_cache v) k); reflexivity.
    + apply D in Eg. specialize (L1 k). rewrite Eg in L1. apply read_none in L1 as (X1 & X2 & X3). rewrite X1. exact X3.
  - constructor; [|exact B1|exact B2|exact B3]. intros k. rewrite (can_leaf _ _ _ Cn). unfold vd_get_leaf, mem_get_leaf, ghost, glue, nocache.
    cbn [vd_cache vd_batch vd_storage leaf_table memory_db_new]. unfold bempty. destruct (g k) as [e|] eqn:Eg; [reflexivity|].
    apply D in Eg. specialize (L1 k). rewrite Eg in L1. apply read_none in L1 as (X1 & X2 & X3). exact X3.
  - reflexivity.
  - reflexivity.
  - intros r Hr. specialize (Cl r Hr). destruct r as [k|s|p]; [|exact Cl|exact Cl].
    cbn in *. unfold ghost_cache. rewrite Cl. reflexivity.
Qed.

Lemma batch_read cold v m g gdb St k y : GState cold v m g gdb St -> leaf_table (vd_batch v) k = Some y -> m k = Some y.
Proof.
  intros H E. pose proof (gs_leaf_nc _ _ _ _ _ _ H k) as X. unfold vd_get_leaf, nocache, mem_get_leaf in X.
  cbn [vd_cache vd_batch leaf_table memory_db_new] in X. unfold bempty in X. rewrite E in X. congruence.
Qed.

Lemma g_insert cold v m g gdb St k x gx : GState cold v m g gdb St -> is_key k ->
  (forall q, cold q -> internal St q = true) -> (internal St (firstn 4 k) = true -> cold (firstn 4 k)) ->
  m k <> Some x -> g k <> Some gx ->
  fsub (value_low x) (old_low (leaf_table (vd_batch v) k)) = fsub (value_low gx) (old_low (g k)) ->
  fsub (value_high x) (old_high (leaf_table (vd_batch v) k)) = fsub (value_high gx) (old_high (g k)) ->
  exists v' gdb', insert_single v (k, x) = Ok v' /\
    GState cold v' (upd m k x) (upd g k gx) gdb' (add_stem St (firstn 31 k)) /\
    vd_storage v' = vd_storage v /\ leaf_table (vd_batch v') = upd (leaf_table (vd_batch v)) k x.
Proof.
  intros HG Hk Hcold Hset Hm Hg E1 E2. pose proof (ghost_rel _ _ _ _ _ _ HG) as HR.
  destruct (sim_insert cold (ghost v g) gdb g St g (vd_storage v) k gx HR (gs_canon _ _ _ _ _ _ HG) Hk Hcold)
    as (w' & gdb' & Ew & _ & Cn' & pb' & HR' & Hpb'); [right; exact Hset|right; right; reflexivity|auto|].
  destruct Hpb' as [[X _]|[_ ->]]; [contradiction|].
  assert (Nb : leaf_table (vd_batch v) k <> Some x) by (intro X; apply Hm; eapply batch_read; eauto).
  pose proof (ghost_lock v g) as HL.
  pose proof (lk_create_loop (leaf_table (vd_batch v)) (leaf_table (vd_cache v)) g (ghost_cache v g) k x gx v (ghost v g) k HL) as HC.
  specialize (HC ltac:(exists (m k), (g k); split; [apply (gs_leaf _ _ _ _ _ _ HG)|]; split; [exact Hm|]; split; [|exact Hg];
    rewrite (rd_leaf _ _ (rel_view _ _ _ _ _ HR)); rewrite (can_leaf _ _ _ (gs_canon _ _ _ _ _ _ HG)); reflexivity)).
  specialize (HC 0%nat [] [] eq_refl).
  unfold insert_single, create_insert_instructions in Ew |- *.
  destruct (create_insert_loop (ghost v g) k gx k 0 [] []) as [b|]; [|discriminate Ew].
  destruct (create_insert_loop v k x k 0 [] []) as [a|]; [|contradiction]. cbn [rbind] in Ew |- *.
  assert (HW : Wrote (leaf_table (vd_batch v)) (leaf_table (vd_cache v)) g (ghost_cache v g) k x gx
            (process_instructions v a) (process_instructions (ghost v g) b)).
  { destruct HC as [[-> HF]|[(fs & d & p & i & HF & -> & ->)|(fs & sd & cp & pn & ci & oi & ni & HF & -> & ->)]].
    - exfalso. assert (HF' : forallb is_fall (rev b) = true).
      { apply forallb_forall. intros j Hj. apply in_rev in Hj. rewrite forallb_forall in HF. auto. }
      pose proof (lk_falls _ _ _ _ (rev b) _ _ HF' HL) as X. unfold process_instructions in Ew. rewrite Ew in X.
      destruct (process_reversed v (rev b)) as [v1|]; [|contradiction]. destruct X as (-> & _ & _).
      pose proof (rel_pb _ _ _ _ _ HR' k) as Y. cbn [glue vd_batch leaf_table] in Y. rewrite upd_same in Y. contradiction.
    - apply lk_update_run; auto.
    - apply lk_chain_run; auto. }
  destruct HW as [deep HW]. rewrite Ew in HW. destruct (process_instructions v a) as [v'|]; [|contradiction].
  destruct HW as (-> & Hb & Hc). exists v', gdb'. split; [reflexivity|].
  assert (Hst : vd_storage v' = vd_storage v) by exact (rel_disk _ _ _ _ _ HR').
  destruct (rel_view _ _ _ _ _ HR') as [V1 V2 V3 V4]. destruct (rel_nc _ _ _ _ _ HR') as [N1 N2 N3 N4].
  assert (Hdeep : deep = true -> leaf_table (vd_cache v) k = None).
  { intros ->. destruct (leaf_table (vd_cache v) k) as [y|] eqn:Ey; [|reflexivity]. exfalso.
    specialize (V1 k). rewrite (can_leaf _ _ _ Cn'), upd_same in V1. unfold vd_get_leaf, mem_get_leaf, glue, ghost_cache in V1.
    cbn [vd_cache leaf_table] in V1. rewrite Ey in V1. destruct (g k) as [e|] eqn:Eg; [congruence|].
    apply (gs_dom _ _ _ _ _ _ HG) in Eg. pose proof (gs_leaf _ _ _ _ _ _ HG k) as X. rewrite Eg in X.
    apply read_none in X as [X _]. congruence. }
  split; [|split; [exact Hst|exact Hb]]. constructor.
  - constructor; [exact V2|exact V3|exact V4].
  - constructor; [exact N2|exact N3|exact N4].
  - intros k0. unfold vd_get_leaf, mem_get_leaf. rewrite Hb, Hc, Hst. pose proof (gs_leaf _ _ _ _ _ _ HG k0) as X.
    unfold vd_get_leaf, mem_get_leaf in X. unfold upd. destruct (beqb_spec k k0) as [<-|Hn].
    + destruct deep; [rewrite (Hdeep eq_refl)|rewrite beqb_refl]; reflexivity.
    + destruct deep; [|apply beqb_neq in Hn; rewrite Hn]; exact X.
  - intros k0. unfold vd_get_leaf, mem_get_leaf, nocache. cbn [vd_cache vd_batch vd_storage leaf_table memory_db_new]. unfold bempty.
    rewrite Hb, Hst. pose proof (gs_leaf_nc _ _ _ _ _ _ HG k0) as X.
    unfold vd_get_leaf, mem_get_leaf, nocache in X. cbn [vd_cache vd_batch vd_storage leaf_table memory_db_new] in X. unfold bempty in X.
    unfold upd. destruct (beqb k k0); [reflexivity|exact X].
  - intros r Hr. pose proof (rel_clear _ _ _ _ _ HR' r Hr) as X. pose proof (gs_clear _ _ _ _ _ _ HG r Hr) as Y.
    destruct r as [k0|s|p]; [|exact X|exact X]. cbn [uncached glue vd_cache leaf_table] in *. rewrite Hc.
    destruct deep; [exact Y|]. unfold upd in *. destruct (beqb k k0); [discriminate X|exact Y].
  - exact Cn'.
  - intros k0. unfold upd. destruct (beqb k k0); [split; discriminate|apply (gs_dom _ _ _ _ _ _ HG)].
Qed.

Lemma create_same bl0 cl0 bl cl v w k x x' rest : Lock bl0 cl0 bl cl v w ->
  vd_get_leaf v k = Ok (Some x) -> vd_get_leaf w k = Ok (Some x') ->
  forall d cur acc, create_insert_loop w k x' rest d cur acc = Ok [] -> create_insert_loop v k x rest d cur acc = Ok [].
Proof.
  intros HL G1 G2. induction rest as [|i rest IH]; intros d cur acc; [auto|].
  cbn [create_insert_loop get_branch_child get_leaf verkle_db_ops]. rewrite (lk_branch_child _ _ _ _ _ _ _ _ HL).
  assert (Ne : forall (i : Ins), Ok (acc ++ [i]) = Ok [] -> False)
    by (intros j X; injection X as X; destruct acc; discriminate X).
  destruct (vd_get_branch_child v cur i) as [[[st|bm]|]|]; cbn [rbind]; [| | |discriminate].
  - destruct (path_difference st (firstn 31 k)) as [[sh po] pn]. destruct (length sh =? 31)%nat.
    + rewrite G1, G2. cbn [rbind]. rewrite !beqb_refl. cbn [andb].
      destruct po; [intro X; destruct (Ne _ X)|]. destruct pn; cbn; [discriminate|auto].
    + destruct (slice_from d sh); cbn [rbind]; [|discriminate]. destruct (unwrap po); cbn [rbind]; [|discriminate].
      destruct (unwrap pn); cbn [rbind]; [|discriminate]. intro X; destruct (Ne _ X).
  - apply IH.
  - intro X; destruct (Ne _ X).
Qed.

Lemma g_noop cold v m g gdb St k x : GState cold v m g gdb St -> is_key k -> m k = Some x -> insert_single v (k, x) = Ok v.
Proof.
  intros HG Hk Hm. pose proof (ghost_rel _ _ _ _ _ _ HG) as HR. pose proof (gs_canon _ _ _ _ _ _ HG) as Cn.
  destruct (g k) as [e|] eqn:Eg; [|apply (gs_dom _ _ _ _ _ _ HG) in Eg; congruence].
  destruct (instr_shape gdb g St k e Cn Hk) as (ins & Ei & HS). cbv zeta in HS.
  assert (ins = []) as ->.
  { destruct HS as [[-> _]|[(? & _ & _ & _ & X & _)|(? & ? & ? & _ & _ & _ & _ & _ & _ & X & _)]]; [reflexivity|congruence|congruence]. }
  unfold insert_single. unfold create_insert_instructions in *.
  rewrite <- (sim_create_loop (ghost v g) gdb k e k (rel_view _ _ _ _ _ HR)) in Ei.
  rewrite (create_same _ _ _ _ v (ghost v g) k x e k (ghost_lock v g)) in *; [reflexivity| | |exact Ei].
  - rewrite (gs_leaf _ _ _ _ _ _ HG), Hm. reflexivity.
  - rewrite (rd_leaf _ _ (rel_view _ _ _ _ _ HR)), (can_leaf _ _ _ Cn), Eg. reflexivity.
Qed.

Lemma GState_ext cold v m g m2 g2 gdb St St2 : (forall k, m k = m2 k) -> (forall k, g k = g2 k) -> Permutation St St2 ->
  GState cold v m g gdb St -> GState cold v m2 g2 gdb St2.
Proof.
  intros Em Eg Hp [T1 T2 L1 L2 Cl Cn D]. constructor; auto.
  - intros k. rewrite <- Em. apply L1.
  - intros k. rewrite <- Em. apply L2.
  - exact (Canon_ext gdb g g2 St St2 Eg Hp Cn).
  - intros k. rewrite <- Em, <- Eg. apply D.
Qed.
End State.

(** ** Whole histories *)
Section Run.
Context {A : Alg} {L : AlgLaws A} {P : Par A} {PL : ParLaws P} {C : Codec A} {CL : CodecLaws C}.
Opaque vcommit gsum subtree_hash.
Add Ring Fring_rr : (F_ring (A := A)).

Record TInv (v : VerkleDb) (base fl pe : history) (t : Tally) : Prop := {
  ti_state : exists gdb, GState (crowded base) v (final_map (fl ++ pe)) (fun k => sum_entry (ta_now t k)) gdb (stems_of (fl ++ pe));
  ti_batch : forall k, leaf_table (vd_batch v) k = if ta_wait t k then final_map (fl ++ pe) k else None;
  ti_head : forall k, hd_error (ta_now t k) = final_map (fl ++ pe) k;
  ti_wait : forall k, ta_wait t k = true -> ta_now t k <> [];
  ti_len : forall k y, In y (ta_now t k) -> length y = 32%nat;
  ti_dur : (fl = [] /\ Reads (verkle_open (vd_storage v)) memory_db_new) \/
    (exists gdd, Trunk (verkle_open (vd_storage v)) gdd /\ (forall k, vd_get_leaf (verkle_open (vd_storage v)) k = Ok (final_map fl k)) /\
       Canon gdd (fun k => sum_entry (ta_disk t k)) (stems_of fl));
  ti_dhead : forall k, hd_error (ta_disk t k) = final_map fl k;
  ti_dlen : forall k y, In y (ta_disk t k) -> length y = 32%nat;
  ti_base : incl base fl
}.

Lemma hd_none {X} (l : list X) : hd_error l = None -> l = [].
Proof. destruct l; [reflexivity|discriminate]. Qed.

Lemma head_dom (c : bytes -> list bytes) m : (forall k, hd_error (c k) = m k) -> forall k, sum_entry (c k) = None <-> m k = None.
Proof.
  intros H k. rewrite sum_entry_none, <- H. split; [intros ->; reflexivity|apply hd_none].
Qed.

Lemma open_state d m g gdb St cold : Trunk (verkle_open d) gdb -> (forall k, vd_get_leaf (verkle_open d) k = Ok (m k)) ->
  Canon gdb g St -> (forall k, g k = None <-> m k = None) -> GState cold (verkle_open d) m g gdb St.
Proof.
  intros T Lf Cn D. constructor; auto. intros [k|s|p] _; reflexivity.
Qed.

Lemma tinv_open d fl (c : bytes -> list bytes) :
  (fl = [] /\ Reads (verkle_open d) memory_db_new) \/
    (exists gdd, Trunk (verkle_open d) gdd /\ (forall k, vd_get_leaf (verkle_open d) k = Ok (final_map fl k)) /\
       Canon gdd (fun k => sum_entry (c k)) (stems_of fl)) ->
  (forall k, hd_error (c k) = final_map fl k) -> (forall k y, In y (c k) -> length y = 32%nat) ->
  exists v, trie_new (verkle_open d) = Ok v /\ TInv v fl fl [] (mkTally c (fun _ => false) c).
Proof.
  intros H Hh Hl. unfold trie_new, root_is_missing. cbn [get_branch_meta insert_branch verkle_db_ops].
  destruct H as [[-> R]|(gdd & T & Lf & Cn)].
  - rewrite (rd_meta _ _ R). cbn [mem_get_branch_meta memory_db_new branch_table bempty rbind].
    assert (W : wok (coldR (crowded [])) (RBranch []) 0) by (left; split; [reflexivity|intros [X _]; cbn in X; lia]).
    pose proof (rel_branch _ _ _ _ _ [] branch_meta_zero 0 W (Rel_open _ d _ R)) as R1.
    eexists. split; [reflexivity|]. destruct hcanon_new as (db0 & E0 & C0). cbn in E0. injection E0 as <-.
    assert (Ec : forall k, c k = []) by (intros k; apply hd_none; apply Hh).
    destruct (rel_view _ _ _ _ _ R1) as [V1 V2 V3 V4]. destruct (rel_nc _ _ _ _ _ R1) as [N1 N2 N3 N4].
    constructor; cbn [ta_now ta_wait ta_disk]; auto.
    + eexists. constructor.
      * constructor; [exact V2|exact V3|exact V4].
      * constructor; [exact N2|exact N3|exact N4].
      * exact V1.
      * exact N1.
      * exact (rel_clear _ _ _ _ _ R1).
      * eapply Canon_ext; [|apply Permutation_refl|exact C0]. intros k. rewrite Ec. reflexivity.
      * intros k. rewrite Ec. split; reflexivity.
    + discriminate.
    + apply incl_refl.
  - rewrite (tr_meta _ _ T). unfold mem_get_branch_meta. rewrite (can_branch _ _ _ Cn). cbn [cbranch internal length Nat.eqb orb rbind].
    eexists. split; [reflexivity|].
    constructor; cbn [ta_now ta_wait ta_disk]; auto; rewrite ?app_nil_r; auto.
    + exists gdd. apply open_state; auto. apply head_dom. exact Hh.
    + discriminate.
    + right. exists gdd. auto.
    + apply incl_refl.
Qed.

Lemma write_low x (waits : bool) c : (waits = true -> c <> []) ->
  fsub (value_low x) (old_low (if waits then hd_error c else None)) =
  fsub (fsum (map (fun v => leaf_low (Some v)) (tally_write x waits c))) (fsum (map (fun v => leaf_low (Some v)) c)).
Proof.
  change (value_low x) with (leaf_low (Some x)). unfold tally_write. destruct waits.
  - intros H. destruct c as [|y c]; [now destruct H|]. cbn [hd_error tl map fsum]. change (old_low (Some y)) with (leaf_low (Some y)). ring.
  - intros _. cbn [old_low map fsum]. ring.
Qed.
Lemma write_high x (waits : bool) c : (waits = true -> c <> []) ->
  fsub (value_high x) (old_high (if waits then hd_error c else None)) =
  fsub (fsum (map (fun v => leaf_high (Some v)) (tally_write x waits c))) (fsum (map (fun v => leaf_high (Some v)) c)).
Proof.
  change (value_high x) with (leaf_high (Some x)). unfold tally_write. destruct waits.
  - intros H. destruct c as [|y c]; [now destruct H|]. cbn [hd_error tl map fsum]. change (old_high (Some y)) with (leaf_high (Some y)). ring.
  - intros _. cbn [old_high map fsum]. ring.
Qed.

Lemma tinv_insert v base fl pe t (k x : bytes) : TInv v base fl pe t -> is_key k -> length x = 32%nat ->
  (final_map (fl ++ pe) k = Some x \/ (crowded (fl ++ pe) (firstn 4 k) -> crowded base (firstn 4 k))) ->
  exists v', insert_single v (k, x) = Ok v' /\ TInv v' base fl (pe ++ [(k, x)]) (tally_step t (OInsert k x)).
Proof.
  intros [(gdb & HG) IB IH IW IL ID IDh IDl Ib] Hk Lx Hst.
  assert (L4 : length (firstn 4 k) = 4%nat) by (rewrite firstn_length; destruct Hk; lia).
  assert (Hf : forall k0, final_map (fl ++ pe ++ [(k, x)]) k0 = upd (final_map (fl ++ pe)) k x k0)
    by (intros k0; rewrite app_assoc; apply final_map_snoc).
  assert (Hsame : same_value x (ta_now t k) = true <-> final_map (fl ++ pe) k = Some x).
  { rewrite <- IH. destruct (ta_now t k) as [|y c]; cbn; [split; discriminate|]. rewrite beqb_eq. split; [intros ->; reflexivity|intros X; injection X as X; exact X]. }
  cbn [tally_step]. destruct (same_value x (ta_now t k)) eqn:Es.
  - assert (Hm : final_map (fl ++ pe) k = Some x) by (apply Hsame; reflexivity).
    exists v. split; [exact (g_noop _ _ _ _ _ _ k x HG Hk Hm)|].
    assert (Hf' : forall k0, final_map (fl ++ pe) k0 = final_map (fl ++ pe ++ [(k, x)]) k0).
    { intros k0. rewrite Hf. unfold upd. destruct (beqb_spec k k0) as [<-|]; [exact Hm|reflexivity]. }
    constructor; auto; try (intros k0; rewrite <- Hf'; auto).
    exists gdb. refine (GState_ext _ _ _ _ _ _ _ _ _ Hf' (fun _ => eq_refl) _ HG).
    apply stems_of_perm. exact Hf'.
  - assert (Hm : final_map (fl ++ pe) k <> Some x) by (intro X; apply Hsame in X; discriminate X).
    destruct Hst as [Hst|Hst]; [contradiction|].
    set (c := ta_now t k) in *. set (c' := tally_write x (ta_wait t k) c).
    assert (Hc : leaf_table (vd_batch v) k = if ta_wait t k then hd_error c else None).
    { rewrite IB. unfold c. rewrite IH. reflexivity. }
    destruct (sum_entry c') as [gx|] eqn:Eg; [|apply sum_entry_none in Eg; unfold c', tally_write in Eg; destruct (ta_wait t k); discriminate Eg].
    assert (Hne : sum_entry c <> Some gx).
    { rewrite <- Eg. intro X. symmetry in X. revert X. apply write_ne; [exact Lx|exact (IL k)|exact Es|exact (IW k)]. }
    assert (Elow : leaf_low (Some gx) = leaf_low (sum_entry c')) by (rewrite Eg; reflexivity).
    assert (Ehigh : leaf_high (Some gx) = leaf_high (sum_entry c')) by (rewrite Eg; reflexivity).
    rewrite sum_low in Elow. rewrite sum_high in Ehigh.
    destruct (g_insert (crowded base) v _ _ gdb _ k x gx HG Hk) as (v' & gdb' & E & HG' & Hd & Hb).
    + intros q Hq. apply crowded_internal. apply (crowded_incl base); [|exact Hq]. apply incl_appl. exact Ib.
    + intros Hi. apply Hst. apply internal_crowded; [exact L4|exact Hi].
    + exact Hm.
    + exact Hne.
    + rewrite Hc. change (value_low gx) with (leaf_low (Some gx)). change (old_low (sum_entry c)) with (leaf_low (sum_entry c)).
      rewrite Elow, sum_low. exact (write_low x (ta_wait t k) c (IW k)).
    + rewrite Hc. change (value_high gx) with (leaf_high (Some gx)). change (old_high (sum_entry c)) with (leaf_high (sum_entry c)).
      rewrite Ehigh, sum_high. exact (write_high x (ta_wait t k) c (IW k)).
    + exists v'. split; [exact E|]. constructor; cbn [ta_now ta_wait ta_disk]; auto.
      * exists gdb'. refine (GState_ext _ _ _ _ _ _ _ _ _ _ _ _ HG').
        -- intros k0. symmetry. apply Hf.
        -- intros k0. unfold upd. destruct (beqb_spec k k0) as [<-|]; [symmetry; exact Eg|reflexivity].
        -- rewrite app_assoc. apply stems_of_snoc.
      * intros k0. rewrite Hb, Hf. unfold upd. destruct (beqb k k0); [reflexivity|apply IB].
      * intros k0. rewrite Hf. unfold upd. destruct (beqb k k0); [unfold c', tally_write; destruct (ta_wait t k); reflexivity|apply IH].
      * intros k0. destruct (beqb k k0); [intros _; unfold c', tally_write; destruct (ta_wait t k); discriminate|apply IW].
      * intros k0 y. destruct (beqb k k0); [|apply IL]. unfold c', tally_write.
        destruct (ta_wait t k); intros [<-|Hy]; auto; apply (IL k); [|exact Hy].
        fold c. destruct c; [destruct Hy|right; exact Hy].
      * rewrite Hd. exact ID.
Qed.

Lemma tinv_encodable v base fl pe t : TInv v base fl pe t ->
  (forall k w, final_map (fl ++ pe) k = Some w -> length w = 32%nat) -> encodable (vd_batch v).
Proof.
  intros [(gdb & HG) _ _ _ _ _ _ _ _] Hv. pose proof (ghost_rel _ _ _ _ _ _ HG) as HR.
  pose proof (rel_nc _ _ _ _ _ HR) as R. apply encodable_of_laws.
  - intros k w E. apply (Hv k). eapply batch_read; eauto.
  - intros p s E. pose proof (gs_canon _ _ _ _ _ _ HG) as Cn. destruct (@exists_last _ p) as (q & i & ->).
    + intros ->. pose proof (tr_meta _ _ (gs_trunk_nc _ _ _ _ _ _ HG) []) as H. unfold vd_get_branch_meta, nocache in H. cbn [vd_cache vd_batch] in H.
      unfold mem_get_branch_meta in H. cbn [branch_table memory_db_new] in H. unfold bempty in H. cbn [rbind] in H.
      rewrite E in H. cbn [rbind] in H. rewrite (can_branch _ _ _ Cn) in H. discriminate H.
    + apply (batch_sub_child (ghost v _) gdb q i (CStem s) R) in E. eapply canon_child_len; eauto.
Qed.

Lemma Trunk_same v w db : same_reads v w -> Trunk v db -> Trunk w db.
Proof.
  intros (H1 & H2 & H3 & H4) [R2 R3 R4]. constructor; intros.
  - rewrite <- H2. apply R2.
  - rewrite <- H3. apply R3.
  - rewrite <- H4. apply R4.
Qed.

Lemma tinv_flush v base fl pe t : TInv v base fl pe t ->
  (forall k w, final_map (fl ++ pe) k = Some w -> length w = 32%nat) ->
  TInv (verkle_flush v) base (fl ++ pe) [] (tally_step t OFlush).
Proof.
  intros HI Hv. pose proof (tinv_encodable _ _ _ _ _ HI Hv) as En. destruct HI as [(gdb & HG) IB IH IW IL ID IDh IDl Ib].
  pose proof (same_reads_sym _ _ (flush_reads v En)) as S1.
  pose proof (same_reads_sym _ _ (flush_reads (nocache v) En)) as S2.
  assert (T2 : Trunk (verkle_open (vd_storage (verkle_flush v))) gdb) by (apply (Trunk_same (nocache v)); [exact S2|apply HG]).
  assert (Lf2 : forall k, vd_get_leaf (verkle_open (vd_storage (verkle_flush v))) k = Ok (final_map (fl ++ pe) k)).
  { intros k. rewrite <- (gs_leaf_nc _ _ _ _ _ _ HG k). symmetry. apply S2. }
  constructor; cbn [tally_step ta_now ta_wait ta_disk]; rewrite ?app_nil_r; auto.
  - exists gdb. constructor.
    + apply (Trunk_same v); [exact S1|apply HG].
    + exact T2.
    + intros k. rewrite <- (gs_leaf _ _ _ _ _ _ HG k). symmetry. apply S1.
    + exact Lf2.
    + intros r Hr. pose proof (gs_clear _ _ _ _ _ _ HG r Hr) as X. destruct r; exact X.
    + apply HG.
    + apply HG.
  - discriminate.
  - right. exists gdb. split; [exact T2|]. split; [exact Lf2|]. apply HG.
  - apply incl_appl. exact Ib.
Qed.

Lemma tinv_run l : forall v base fl pe t, TInv v base fl pe t ->
  (forall k v, In (OInsert k v) l -> is_key k /\ length v = 32%nat) ->
  (forall k w, In (k, w) (fl ++ pe) -> length w = 32%nat) ->
  (forall l1 k x l2, l = l1 ++ OInsert k x :: l2 ->
     let h := fst (phases fl pe l1) ++ snd (phases fl pe l1) in
     final_map h k = Some x \/ (crowded h (firstn 4 k) -> crowded (last_open_from fl pe base l1) (firstn 4 k))) ->
  exists v', op_run v l = Ok v' /\
    TInv v' (last_open_from fl pe base l) (fst (phases fl pe l)) (snd (phases fl pe l)) (fold_left tally_step l t).
Proof.
  induction l as [|o l IH]; intros v base fl pe t HI Hwf Hlen Hst.
  - exists v. split; [reflexivity|exact HI].
  - destruct o as [k x| |]; cbn [op_run op_step phases last_open_from fold_left].
    + destruct (Hwf k x (or_introl eq_refl)) as [Hk Hx].
      destruct (tinv_insert v base fl pe t k x HI Hk Hx (Hst [] k x l eq_refl)) as (v1 & E1 & I1).
      rewrite E1. cbn [rbind]. apply IH; auto.
      * intros k0 w0 H0. apply (Hwf k0 w0). right; exact H0.
      * intros k0 w0 H0. rewrite app_assoc in H0. apply in_app_or in H0 as [H0|[H0|[]]]; [eapply Hlen; eauto|]. congruence.
      * intros l1 k0 x0 l2 El. apply (Hst (OInsert k x :: l1) k0 x0 l2). rewrite El. reflexivity.
    + cbn [rbind]. apply IH.
      * apply tinv_flush; [exact HI|]. intros k w H. apply final_map_In in H. eapply Hlen; eauto.
      * intros k0 w0 H0. apply (Hwf k0 w0). right; exact H0.
      * rewrite app_nil_r. exact Hlen.
      * intros l1 k0 x0 l2 El. apply (Hst (OFlush :: l1) k0 x0 l2). rewrite El. reflexivity.
    + destruct (tinv_open (vd_storage v) fl (ta_disk t) (ti_dur _ _ _ _ _ HI) (ti_dhead _ _ _ _ _ HI) (ti_dlen _ _ _ _ _ HI)) as (v1 & E1 & I1).
      rewrite E1. cbn [rbind]. apply IH.
      * exact I1.
      * intros k0 w0 H0. apply (Hwf k0 w0). right; exact H0.
      * rewrite app_nil_r. intros k w H. eapply Hlen. apply in_or_app. left. exact H.
      * intros l1 k0 x0 l2 El. apply (Hst (OReopen :: l1) k0 x0 l2). rewrite El. reflexivity.
Qed.

Lemma rewrite_run l : wf_ops l -> settled_ops l ->
  exists v, run_disk l = Ok v /\ TInv v (last_open l) (fst (phases [] [] l)) (snd (phases [] [] l)) (tally l).
Proof.
  intros Hwf Hst. unfold run_disk.
  destruct (tinv_open bempty [] (fun _ => []) (or_introl (conj eq_refl Reads_open_empty)) (fun _ => eq_refl)) as (v0 & E0 & I0); [intros k y []|].
  rewrite E0. cbn [rbind]. apply (tinv_run l v0 [] [] [] tally_start I0 Hwf).
  - intros k w [].
  - intros l1 k x l2 El. cbv zeta. rewrite <- contents_eq. exact (Hst l1 k x l2 El).
Qed.

(** ** Consequences *)
Lemma tallied_map l : (forall k, hd_error (counted l k) = final_map (contents l) k) ->
  forall k, final_map (tallied l) k = sum_entry (counted l k).
Proof.
  intros H k. destruct (sum_entry (counted l k)) as [e|] eqn:E.
  - assert (X : In k (map fst (contents l))).
    { destruct (counted l k) as [|y c] eqn:Ec; [discriminate E|]. specialize (H k). rewrite Ec in H. cbn in H. symmetry in H.
      apply final_map_In in H. apply in_map_iff. exists (k, y). auto. }
    assert (Y : exists w, final_map (tallied l) k = Some w).
    { apply in_map_iff in X as ([k0 y] & <- & Hin). eapply final_map_some. unfold tallied. apply in_map_iff. exists (k0, y). split; [reflexivity|exact Hin]. }
    destruct Y as [w Hw]. rewrite Hw. apply final_map_In in Hw. unfold tallied in Hw. apply in_map_iff in Hw as ([k0 y] & Ek & _).
    cbn [fst] in Ek. injection Ek as -> <-. rewrite E. reflexivity.
  - destruct (final_map (tallied l) k) as [w|] eqn:Ew; [|reflexivity]. exfalso.
    apply final_map_In in Ew. unfold tallied in Ew. apply in_map_iff in Ew as ([k0 y] & Ek & Hin). cbn [fst] in Ek. injection Ek as -> _.
    apply sum_entry_none in E. specialize (H k). rewrite E in H. cbn in H. symmetry in H.
    destruct (final_map_some _ _ _ Hin) as [z Hz]. congruence.
Qed.
Lemma tallied_stems l : stems_of (tallied l) = stems_of (contents l).
Proof. unfold stems_of, tallied. rewrite map_map. reflexivity. Qed.

Lemma rewrite_exact l : wf_ops l -> settled_ops l ->
  exists v, run_disk l = Ok v /\ (forall k, trie_get v k = Ok (final_map (contents l) k)) /\
    root_commitment v = Ok (spec_root (final_map (tallied l)) (stems_of (contents l))) /\
    root_hash v = Ok (hash (spec_root (final_map (tallied l)) (stems_of (contents l)))) /\
    (forall k, hd_error (counted l k) = final_map (contents l) k) /\
    counts (final_map (tallied l)) (counted l).
Proof.
  intros Hwf Hst. destruct (rewrite_run l Hwf Hst) as (v & E & [(gdb & HG) _ IH _ _ _ _ _ _]).
  rewrite <- contents_eq in HG. assert (Hh : forall k, hd_error (counted l k) = final_map (contents l) k) by (intros k; rewrite contents_eq; apply IH).
  pose proof (tallied_map l Hh) as Ht.
  assert (Cn : Canon gdb (final_map (tallied l)) (stems_of (contents l))).
  { refine (Canon_ext _ _ _ _ _ _ (Permutation_refl _) (gs_canon _ _ _ _ _ _ HG)). intros k. symmetry. apply Ht. }
  destruct (canon_root _ _ _ Cn) as [A1 A2]. pose proof (gs_trunk _ _ _ _ _ _ HG) as T.
  exists v. split; [exact E|]. split; [exact (gs_leaf _ _ _ _ _ _ HG)|]. split; [|split; [|split; [exact Hh|]]].
  - rewrite <- A1. unfold root_commitment. cbn [get_branch_meta verkle_db_ops memory_db_ops]. rewrite (tr_meta _ _ T). reflexivity.
  - rewrite <- A2. unfold root_hash. cbn [get_branch_meta verkle_db_ops memory_db_ops]. rewrite (tr_meta _ _ T). reflexivity.
  - intros k. rewrite Ht. split; [apply sum_low|apply sum_high].
Qed.
End Run.
