(** What an insertion does outside the class of histories of C09: under a prefix of four bytes that two stems came to
    share since the last opening, it panics or leaves the root as it was. *)
From Coq Require Import Permutation.
From Verif Require Import Base BaseFacts Alg AlgFacts TreeSpec TreeFacts TrieModel TrieProofs
  CodecModel VerkleDbModel DbSpec VerkleDbProofs VerkleDbSim.

(** ** A property of the database kept by the writes an instruction makes *)
Section Frame.
Context {A : Alg} {P : Par A} {C : Codec A}.
Context (W : Rec -> Z -> Prop) (T : VerkleDb -> Prop).
Context (T_leaf : forall v k x d, W (RLeaf k) d -> T v -> T (fst (vd_insert_leaf v k x d))).
Context (T_stem : forall v s x d, W (RStem s) d -> T v -> T (fst (vd_insert_stem v s x d))).
Context (T_put : forall v p c d, W (RBranch p) d -> T v -> T (v_put v p c d)).

Definition ins_ok (i : Ins) : Prop :=
  match i with
  | InternalNodeFallThrough b _ _ _ d => W (RBranch b) d
  | UpdateLeaf k _ d b i => W (RLeaf k) d /\ W (RStem (firstn 31 k)) d /\ W (RBranch b) d /\ W (RBranch (b ++ [i])) d
  | ChainInsert sd cp pn ci oi nk nv ni =>
      let n := Z.of_nat (length (pn ++ cp)) in
      W (RBranch pn) sd /\
      (forall j, (j < length cp)%nat ->
        W (RBranch (pn ++ firstn (Datatypes.S j) cp)) (Z.of_nat (length (pn ++ firstn (Datatypes.S j) cp)))) /\
      W (RLeaf nk) n /\ W (RStem (firstn 31 nk)) n /\ W (RBranch ((pn ++ cp) ++ [ni])) n /\ W (RBranch ((pn ++ cp) ++ [oi])) n
  end.

Lemma frame_update_leaf v k x d : W (RLeaf k) d -> T v -> T (fst (update_leaf_table v k x d)).
Proof.
  intros Hw H. pose proof (T_leaf v k x d Hw H) as X. unfold update_leaf_table. cbn [insert_leaf verkle_db_ops].
  destruct (vd_insert_leaf v k x d) as [v1 [w|]]; [destruct (beqb w x)|]; exact X.
Qed.
Lemma frame_update_stem v lu d v' su : W (RStem (firstn 31 (snd lu))) d -> T v ->
  update_stem_table v lu d = Ok (v', su) -> T v'.
Proof.
  destruct lu as [[old new] key]. cbn [snd]. intros Hw H E. unfold update_stem_table in E.
  cbn [get_stem_meta insert_stem verkle_db_ops] in E.
  destruct (match old with Some val => (value_low val, value_high val) | None => (fzero, fzero) end) as [ol oh].
  destruct (vd_get_stem_meta v (firstn 31 key)) as [[cv|]|]; cbn [rbind] in E; try discriminate E;
    revert E; cbv zeta beta iota; set (nm := if nth 31 key 0 <? 128 then _ else _);
    pose proof (T_stem v (firstn 31 key) nm d Hw H) as X;
    destruct (vd_insert_stem v (firstn 31 key) nm d) as [v1 o1]; intro E; injection E as <- _; exact X.
Qed.
Lemma frame_update_branch v su b i d v' h : W (RBranch b) d -> W (RBranch (b ++ [i])) d -> T v ->
  update_branch_table v su b i d = Ok (v', h) -> T v'.
Proof.
  destruct su as [[old new] stem]. intros Hw Hw' H E. unfold update_branch_table in E.
  cbn [get_branch_meta insert_branch add_stem_as_branch_child verkle_db_ops] in E.
  destruct (vd_get_branch_meta v b) as [[bm|]|]; cbn [rbind unwrap] in E; try discriminate E.
  revert E. set (nm := mkBranchMeta _ _). pose proof (T_put v b (CBranch nm) d Hw H) as X.
  rewrite <- vd_insert_branch_put in X. destruct (vd_insert_branch v b nm d) as [v1 o1]. cbn [fst] in X.
  pose proof (T_put v1 (b ++ [i]) (CStem stem) d Hw' X) as Y. rewrite <- vd_add_stem_put in Y.
  destruct (vd_add_stem v1 (b ++ [i]) stem d) as [v2 o2]. intro E. injection E as <- _. exact Y.
Qed.
Lemma frame_chain_loop l : forall v below,
  Forall (fun e => W (RBranch (snd e)) (Z.of_nat (length (snd e)))) l -> T v -> T (fst (chain_loop v l below)).
Proof.
  induction l as [|[c p] l IH]; intros v below HF H; [exact H|].
  inversion HF as [|? ? H1 H2]; subst. cbn [snd] in H1. cbn [chain_loop insert_branch verkle_db_ops].
  set (nm := mkBranchMeta _ _). pose proof (T_put v p (CBranch nm) _ H1 H) as X. rewrite <- vd_insert_branch_put in X.
  destruct (vd_insert_branch v p nm (Z.of_nat (length p))) as [v1 o1]. apply IH; assumption.
Qed.
Lemma frame_fall v b i c old d v' : W (RBranch b) d -> T v -> process_fall_through v b i c old d = Ok v' -> T v'.
Proof.
  intros Hw H E. unfold process_fall_through in E. cbn [get_branch_meta insert_branch verkle_db_ops] in E.
  destruct (vd_get_branch_meta v c) as [[nm|]|]; cbn [rbind unwrap] in E; try discriminate E.
  destruct (match old with Some m => let! b0 := into_branch m in Ok (bm_hash b0) | None => Ok fzero end) as [oh|];
    cbn [rbind] in E; try discriminate E.
  destruct (vd_get_branch_meta v b) as [[pm|]|]; cbn [rbind unwrap] in E; try discriminate E.
  revert E. set (nm' := mkBranchMeta _ _). pose proof (T_put v b (CBranch nm') d Hw H) as X. rewrite <- vd_insert_branch_put in X.
  destruct (vd_insert_branch v b nm' d) as [v1 o1]. intro E. injection E as <-. exact X.
Qed.
Lemma frame_chain v sd cp pn ci oi nk nv ni v' : ins_ok (ChainInsert sd cp pn ci oi nk nv ni) -> T v ->
  process_chain_insert v sd cp pn ci oi nk nv ni = Ok v' -> T v'.
Proof.
  cbn [ins_ok]. cbv zeta. intros (Hsd & Hpaths & Hleaf & Hstem & Hni & Hoi) H E. unfold process_chain_insert in E.
  destruct (length cp) as [|len] eqn:El0; cbn [Nat.eqb negb assertb rbind] in E; [discriminate E|].
  unfold expand_path in E. rewrite El0 in E. cbn [Nat.eqb negb assertb rbind] in E.
  set (f := fun idx => pn ++ firstn (S idx) cp) in *.
  destruct (get_branch_child v pn ci) as [oc|]; cbn [rbind] in E; [|discriminate E].
  destruct (unwrap oc) as [oc'|]; cbn [rbind] in E; [|discriminate E].
  destruct (unwrap (child_stem oc')) as [os|]; cbn [rbind] in E; [|discriminate E].
  assert (Er : @rev bytes (@map nat (list Z) f (seq 0 (S len))) = (pn ++ cp) :: @rev bytes (@map nat (list Z) f (seq 0 len))).
  { rewrite seq_S, map_app, rev_app_distr. cbn [map rev app Nat.add]. unfold f at 1. rewrite <- El0, firstn_all. reflexivity. }
  rewrite Er in E. set (ips := @rev bytes (@map nat (list Z) f (seq 0 len))) in *. cbn [hd_error unwrap rbind] in E.
  assert (Hb : W (RBranch (pn ++ cp)) (Z.of_nat (length (pn ++ cp)))).
  { specialize (Hpaths len ltac:(lia)). rewrite <- El0, firstn_all in Hpaths. exact Hpaths. }
  set (bottom := pn ++ cp) in *. set (n := Z.of_nat (length bottom)) in *.
  cbn [insert_branch verkle_db_ops] in E.
  pose proof (T_put v bottom (CBranch branch_meta_zero) _ Hb H) as R1. rewrite <- vd_insert_branch_put in R1.
  destruct (vd_insert_branch v bottom branch_meta_zero n) as [v1 o1]. cbn [fst] in R1.
  pose proof (frame_update_leaf v1 nk nv _ Hleaf R1) as R2.
  pose proof (update_leaf_key v1 nk nv n) as Hlu.
  destruct (update_leaf_table v1 nk nv n) as [v2 lu2]. cbn [fst snd] in R2, Hlu.
  destruct lu2 as [lu2|]; cbn [unwrap rbind] in E; [|discriminate E].
  assert (Hstem' : W (RStem (firstn 31 (snd lu2))) n) by (rewrite (Hlu _ eq_refl); exact Hstem).
  destruct (update_stem_table v2 lu2 n) as [[v3 su3]|] eqn:E3; cbn [rbind] in E; [|discriminate E].
  pose proof (frame_update_stem _ _ _ _ _ Hstem' R2 E3) as R3.
  destruct (update_branch_table v3 su3 bottom ni n) as [[v4 h4]|] eqn:E4; cbn [rbind] in E; [|discriminate E].
  pose proof (frame_update_branch _ _ _ _ _ _ _ Hb Hni R3 E4) as R4.
  destruct (get_stem_meta v4 os) as [[sm|]|]; cbn [unwrap rbind] in E; try discriminate E.
  destruct (update_branch_table v4 (None, sm_hash_comm sm, os) bottom oi n) as [[v5 h5]|] eqn:E5; cbn [rbind] in E; [|discriminate E].
  pose proof (frame_update_branch _ _ _ _ _ _ _ Hb Hoi R4 E5) as R5. cbn [tl] in E.
  assert (HF : Forall (fun e : Z * bytes => W (RBranch (snd e)) (Z.of_nat (length (snd e)))) (combine (rev cp) ips)).
  { apply Forall_forall. intros [c p] Hin. apply in_combine_r in Hin. cbn [snd].
    apply in_rev in Hin. apply in_map_iff in Hin as (j & <- & Hj). apply in_seq in Hj. apply (Hpaths j). lia. }
  pose proof (frame_chain_loop _ v5 h5 HF R5) as R6.
  destruct (chain_loop v5 (combine (rev cp) ips) h5) as [v6 nv6]. cbn [fst] in R6.
  destruct (get_branch_meta v6 pn) as [[tp|]|]; cbn [rbind unwrap] in E; try discriminate E.
  revert E. set (nm := mkBranchMeta _ _). cbn [insert_branch verkle_db_ops].
  pose proof (T_put v6 pn (CBranch nm) sd Hsd R6) as R7. rewrite <- vd_insert_branch_put in R7.
  destruct (vd_insert_branch v6 pn nm sd) as [v7 o7]. intro E. injection E as <-. exact R7.
Qed.

Lemma frame_reversed l : forall v v', Forall ins_ok l -> T v -> process_reversed v l = Ok v' -> T v'.
Proof.
  induction l as [|i l IH]; intros v v' HF H E; [injection E as <-; exact H|].
  inversion HF as [|? ? Hi Hl]; subst. destruct i; cbn [process_reversed] in E.
  - cbn [ins_ok] in Hi. destruct Hi as (W1 & W2 & W3 & W4).
    pose proof (frame_update_leaf v key new_leaf_value depth W1 H) as R1.
    pose proof (update_leaf_key v key new_leaf_value depth) as Hlu.
    destruct (update_leaf_table v key new_leaf_value depth) as [v1 [lu|]]; cbn [fst snd] in R1, Hlu; [|injection E as <-; exact R1].
    assert (W2' : W (RStem (firstn 31 (snd lu))) depth) by (rewrite (Hlu _ eq_refl); exact W2).
    destruct (update_stem_table v1 lu depth) as [[v2 su]|] eqn:E2; cbn [rbind] in E; [|discriminate E].
    pose proof (frame_update_stem _ _ _ _ _ W2' R1 E2) as R2.
    destruct (update_branch_table v2 su branch_id branch_child_index depth) as [[v3 h3]|] eqn:E3; cbn [rbind] in E; [|discriminate E].
    apply (IH v3 v' Hl); [|exact E]. exact (frame_update_branch _ _ _ _ _ _ _ W3 W4 R2 E3).
  - destruct (process_chain_insert v _ _ _ _ _ _ _ _) as [v1|] eqn:E1; cbn [rbind] in E; [|discriminate E].
    apply (IH v1 v' Hl); [|exact E]. exact (frame_chain _ _ _ _ _ _ _ _ _ _ Hi H E1).
  - destruct (process_fall_through v _ _ _ _ _) as [v1|] eqn:E1; cbn [rbind] in E; [|discriminate E].
    apply (IH v1 v' Hl); [|exact E]. exact (frame_fall _ _ _ _ _ _ _ Hi H E1).
Qed.
End Frame.

Section Lost.
Context {A : Alg} {L : AlgLaws A} {P : Par A} {PL : ParLaws P} {C : Codec A} {CL : CodecLaws C}.
Add Ring Fring_lost : (F_ring (A := A)).
Opaque vcommit gsum subtree_hash.

(** The run stops early only at an unchanged leaf. *)
Lemma reversed_app l1 l2 : forall v v', process_reversed (S := VerkleDb) v (l1 ++ l2) = Ok v' ->
  exists v1, process_reversed v l1 = Ok v1 /\ (v' = v1 \/ process_reversed v1 l2 = Ok v').
Proof.
  induction l1 as [|i l1 IH]; intros v v' E; [exists v; auto|].
  destruct i; cbn [app process_reversed] in E |- *.
  - destruct (update_leaf_table v key new_leaf_value depth) as [v1 [lu|]]; [|injection E as <-; exists v1; auto].
    destruct (update_stem_table v1 lu depth) as [[v2 su]|]; cbn [rbind] in E |- *; [|discriminate E].
    destruct (update_branch_table v2 su branch_id branch_child_index depth) as [[v3 h3]|]; cbn [rbind] in E |- *; [|discriminate E].
    apply IH; exact E.
  - destruct (process_chain_insert v _ _ _ _ _ _ _ _) as [v1|]; cbn [rbind] in E |- *; [|discriminate E]. apply IH; exact E.
  - destruct (process_fall_through v _ _ _ _ _) as [v1|]; cbn [rbind] in E |- *; [|discriminate E]. apply IH; exact E.
Qed.

Definition cached (v : VerkleDb) (q : bytes) : Prop := branch_table (vd_cache v) q <> None.

Lemma cached_put v p c d q : cached v q -> cached (v_put v p c d) q.
Proof.
  unfold cached, v_put. cbn [vd_cache]. destruct (d <=? CACHE_DEPTH); [|auto]. cbn [branch_table]. unfold upd.
  destruct (beqb p q); [discriminate|auto].
Qed.
Lemma ins_ok_any i : ins_ok (fun _ _ => True) i.
Proof. destruct i; cbn; auto 10. Qed.
Lemma cached_insert v kx v' q : insert_single v kx = Ok v' -> cached v q -> cached v' q.
Proof.
  destruct kx as [k x]. unfold insert_single. intros E H.
  destruct (create_insert_instructions v k x) as [ins|]; cbn [rbind] in E; [|discriminate E].
  refine (frame_reversed (fun _ _ => True) (fun v => cached v q) _ _ _ (rev ins) v v' _ H E).
  - intros v0 k0 x0 d _ H0. unfold cached, vd_insert_leaf, mem_insert_leaf in *. cbn. destruct (d <=? CACHE_DEPTH); exact H0.
  - intros v0 k0 x0 d _ H0. unfold cached, vd_insert_stem, mem_insert_stem in *. cbn. destruct (d <=? CACHE_DEPTH); exact H0.
  - intros v0 p c d _ H0. apply cached_put. exact H0.
  - apply Forall_forall. intros i _. apply ins_ok_any.
Qed.

Lemma view_instr v db k x : Reads v db -> create_insert_instructions v k x = create_insert_instructions db k x.
Proof. intros R. unfold create_insert_instructions. apply (sim_create_loop v db). exact R. Qed.

Lemma chain_paths (s : bytes) e n : length s = 31%nat -> (e < n < 31)%nat ->
  length (firstn e s ++ skipn e (firstn n s)) = n /\ firstn e s ++ skipn e (firstn n s) = firstn n s /\
  length (skipn e (firstn n s)) = (n - e)%nat /\
  (forall j, (j < n - e)%nat -> firstn e s ++ firstn (Datatypes.S j) (skipn e (firstn n s)) = firstn (e + Datatypes.S j) s /\
      length (firstn (e + Datatypes.S j) s) = (e + Datatypes.S j)%nat).
Proof.
  intros Ls H. assert (Lc : length (skipn e (firstn n s)) = (n - e)%nat) by (rewrite skipn_length, firstn_length; lia).
  assert (Ej : firstn e s ++ skipn e (firstn n s) = firstn n s).
  { pose proof (path_join s e n (n - e) ltac:(lia)) as X. rewrite <- Lc, firstn_all, Lc in X. rewrite X. f_equal. lia. }
  split; [rewrite Ej, firstn_length; lia|]. split; [exact Ej|]. split; [exact Lc|].
  intros j Hj. split; [apply path_join; lia|rewrite firstn_length; lia].
Qed.

(** A branch that an insertion creates at depth four is in the cache. *)
Lemma fresh_cached v v' db db' m S k x bm : Reads v db -> Canon db m S -> is_key k -> internal S (firstn 4 k) = false ->
  insert_single v (k, x) = Ok v' -> Reads v' db' -> branch_table db' (firstn 4 k) = Some (CBranch bm) ->
  cached v' (firstn 4 k).
Proof.
  intros R Cn Hk I4 E R' B' Hc. pose proof Cn as [CW CK CLf CS CB].
  assert (Ls : length (firstn 31 k) = 31%nat) by (rewrite firstn_length; destruct Hk; lia).
  assert (E4 : firstn 4 k = firstn 4 (firstn 31 k)) by (rewrite firstn_firstn; reflexivity).
  assert (Hc0 : branch_table (vd_cache v) (firstn 4 k) = None).
  { destruct (branch_table (vd_cache v) (firstn 4 k)) eqn:X; [|reflexivity]. exfalso.
    apply (cached_insert v (k, x) v' (firstn 4 k) E); [unfold cached; congruence|exact Hc]. }
  assert (T : vd_storage v' = vd_storage v /\
    (branch_table (vd_cache v') (firstn 4 k) = None -> branch_table (vd_batch v') (firstn 4 k) = branch_table (vd_batch v) (firstn 4 k))).
  { destruct (instr_shape db m S k x Cn Hk) as (ins & Eins & Hshape). cbv zeta in Hshape.
    unfold insert_single in E. rewrite (view_instr v db k x R), Eins in E. cbn [rbind] in E.
    refine (frame_reversed (fun r d => r = RBranch (firstn 4 k) -> d <= 4)
      (fun v0 => vd_storage v0 = vd_storage v /\
       (branch_table (vd_cache v0) (firstn 4 k) = None -> branch_table (vd_batch v0) (firstn 4 k) = branch_table (vd_batch v) (firstn 4 k)))
      _ _ _ (rev ins) v v' _ (conj eq_refl (fun _ => eq_refl)) E).
    - intros v0 k0 x0 d _ H0. unfold vd_insert_leaf, mem_insert_leaf in *. cbn. destruct (d <=? CACHE_DEPTH); exact H0.
    - intros v0 k0 x0 d _ H0. unfold vd_insert_stem, mem_insert_stem in *. cbn. destruct (d <=? CACHE_DEPTH); exact H0.
    - intros v0 p c d Hw [H1 H2]. unfold v_put. cbn [vd_storage vd_batch vd_cache branch_table]. split; [exact H1|].
      destruct (Z.leb_spec d CACHE_DEPTH) as [Hd|Hd]; cbn [branch_table].
      + unfold upd. destruct (beqb p (firstn 4 k)); [discriminate|exact H2].
      + intros X. unfold upd. destruct (beqb_spec p (firstn 4 k)) as [->|_]; [|exact (H2 X)].
        specialize (Hw eq_refl). unfold CACHE_DEPTH in Hd. lia.
    - rewrite E4 in I4 |- *. set (s := firstn 31 k) in *.
      assert (Hsh : forall e, (e < 31)%nat -> internal S (firstn e s) = true -> (e <= 3)%nat).
      { intros e He Hi. destruct (Nat.le_gt_cases e 3) as [X|X]; [exact X|]. exfalso.
        assert (Y : internal S (firstn 4 s) = true); [|congruence]. apply (internal_down S s 4 e); [lia|lia|exact Hi]. }
      assert (L4 : length (firstn 4 s) = 4%nat) by (rewrite firstn_length; lia).
      assert (Hfall : forall e, (e <= 3)%nat -> Forall (ins_ok (fun r d => r = RBranch (firstn 4 s) -> d <= 4)) (map (fall m S k) (seq 0 e))).
      { intros e He. apply Forall_forall. intros i Hi. apply in_map_iff in Hi as (j & <- & Hj). apply in_seq in Hj.
        unfold fall. cbn [ins_ok]. intros _. lia. }
      apply Forall_rev. destruct Hshape as [[-> _]|[(e & He & Hi & Hi' & Hv & ->)|(e & n & t & Hen & Hi & Hi' & Tin & Tne & Hpre & Hv & ->)]].
      + constructor.
      + specialize (Hsh e He Hi). apply Forall_app. split; [apply Hfall; exact Hsh|]. constructor; [|constructor].
        cbn [ins_ok]. repeat split; intros _; lia.
      + specialize (Hsh e ltac:(lia) Hi). apply Forall_app. split; [apply Hfall; exact Hsh|]. constructor; [|constructor].
        destruct (chain_paths s e n Ls Hen) as (Ln & En & Lc & Hj). cbn [ins_ok]. cbv zeta. rewrite En, Lc.
        assert (Lf : length (firstn n s) = n) by (rewrite firstn_length; lia). rewrite Lf.
        split; [intros _; lia|]. split.
        { intros j Hj'. destruct (Hj j Hj') as [X Y]. rewrite X, Y. intros Z0.
          assert (Z1 : firstn (e + Datatypes.S j) s = firstn 4 s) by congruence.
          apply (f_equal (@length Z)) in Z1. rewrite Y, L4 in Z1. lia. }
        split; [intros X; discriminate X|]. split; [intros X; discriminate X|].
        assert (Hx : forall i, RBranch (firstn n s ++ [i]) = RBranch (firstn 4 s) -> Z.of_nat n <= 4).
        { intros i Z0. assert (Z1 : firstn n s ++ [i] = firstn 4 s) by congruence.
          apply (f_equal (@length Z)) in Z1. rewrite app_length, Lf, L4 in Z1. cbn in Z1. lia. }
        split; apply Hx. }
  destruct T as [T1 T2]. specialize (T2 Hc).
  assert (Eq : firstn 4 k = firstn 3 (firstn 31 k) ++ [nth 3 (firstn 31 k) 0]) by (rewrite snoc_nth by lia; exact E4).
  pose proof (rd_child _ _ R' (firstn 3 (firstn 31 k)) (nth 3 (firstn 31 k) 0)) as X'.
  pose proof (rd_child _ _ R (firstn 3 (firstn 31 k)) (nth 3 (firstn 31 k) 0)) as X.
  unfold vd_get_branch_child, mem_get_branch_child, disk_get_branch_child in X, X'. rewrite <- Eq in X, X'.
  rewrite Hc, T2, T1 in X'. rewrite Hc0 in X. rewrite X in X'. rewrite B', CB in X'. unfold cbranch in X'. rewrite I4 in X'.
  destruct (under S (firstn 4 k)) as [|u [|]]; try discriminate X'. destruct (internal S (removelast (firstn 4 k))); discriminate X'.
Qed.

(** Where two stems came to share four bytes since the last opening, the branch is cached. *)
Definition Hot (v : VerkleDb) (base h : history) : Prop :=
  forall q, length q = 4%nat -> crowded h q -> ~ crowded base q -> cached v q.

Lemma hot_insert v base fl pe k x v' : Inv v base fl pe -> Hot v base (fl ++ pe) -> is_key k ->
  insert_single v (k, x) = Ok v' -> Inv v' base fl (pe ++ [(k, x)]) -> Hot v' base (fl ++ pe ++ [(k, x)]).
Proof.
  intros HI HH Hk E HI' q Lq Hcr Hb.
  destruct (internal (stems_of (fl ++ pe)) q) eqn:Ei.
  - apply (cached_insert v (k, x) v' q E). apply HH; [exact Lq| |exact Hb]. apply internal_crowded; assumption.
  - assert (Eq : firstn 4 k = q).
    { rewrite app_assoc in Hcr. destruct Hcr as (k1 & v1 & k2 & v2 & H1 & H2 & Q1 & Q2 & N).
      apply in_app_or in H1 as [H1|[H1|[]]]; [|injection H1 as -> ->; exact Q1].
      apply in_app_or in H2 as [H2|[H2|[]]]; [|injection H2 as -> ->; exact Q2].
      exfalso. assert (X : internal (stems_of (fl ++ pe)) q = true); [|congruence].
      apply crowded_internal. exists k1, v1, k2, v2. auto. }
    destruct (inv_rel _ _ _ _ HI) as (db & pb & R & Cn & _). destruct (inv_rel _ _ _ _ HI') as (db' & pb' & R' & Cn' & _).
    rewrite <- Eq in Ei, Hcr |- *.
    eapply (fresh_cached v v' db db'); [apply R|exact Cn|exact Hk|exact Ei|exact E|apply R'|].
    rewrite (can_branch _ _ _ Cn'). unfold cbranch. rewrite (crowded_internal _ _ Hcr). reflexivity.
Qed.

Lemma hot_run l : forall v base fl pe, Inv v base fl pe -> Hot v base (fl ++ pe) ->
  (forall k v, In (OInsert k v) l -> is_key k /\ length v = 32%nat) ->
  (forall k w, In (k, w) (fl ++ pe) -> length w = 32%nat) ->
  (forall l1 k x l2, l = l1 ++ OInsert k x :: l2 ->
     let h := fst (phases fl pe l1) ++ snd (phases fl pe l1) in
     final_map h k = Some x \/ (crowded h (firstn 4 k) -> crowded (last_open_from fl pe base l1) (firstn 4 k))) ->
  (forall l1 k x l2, l = l1 ++ OInsert k x :: l2 ->
     final_map (fst (phases fl pe l1)) k = None \/ final_map (fst (phases fl pe l1)) k = Some x) ->
  exists v', op_run v l = Ok v' /\ Inv v' (last_open_from fl pe base l) (fst (phases fl pe l)) (snd (phases fl pe l)) /\
    Hot v' (last_open_from fl pe base l) (fst (phases fl pe l) ++ snd (phases fl pe l)).
Proof.
  induction l as [|o l IH]; intros v base fl pe HI HH Hwf Hlen Hst Hnr.
  - exists v. split; [reflexivity|]. split; [exact HI|exact HH].
  - destruct o as [k x| |]; cbn [op_run op_step phases last_open_from].
    + destruct (Hwf k x (or_introl eq_refl)) as [Hk Hx].
      destruct (inv_insert v base fl pe k x HI Hk) as (v1 & E1 & I1).
      * exact (Hst [] k x l eq_refl).
      * exact (Hnr [] k x l eq_refl).
      * rewrite E1. cbn [rbind]. apply IH; auto.
        -- exact (hot_insert v base fl pe k x v1 HI HH Hk E1 I1).
        -- intros k0 w0 H0. apply (Hwf k0 w0). right; exact H0.
        -- intros k0 w0 H0. rewrite app_assoc in H0. apply in_app_or in H0 as [H0|[H0|[]]]; [eapply Hlen; eauto|]. congruence.
        -- intros l1 k0 x0 l2 El. apply (Hst (OInsert k x :: l1) k0 x0 l2). rewrite El. reflexivity.
        -- intros l1 k0 x0 l2 El. apply (Hnr (OInsert k x :: l1) k0 x0 l2). rewrite El. reflexivity.
    + cbn [rbind]. apply IH.
      * apply inv_flush; [exact HI|]. intros k w H. apply final_map_In in H. eapply Hlen; eauto.
      * rewrite app_nil_r. exact HH.
      * intros k0 w0 H0. apply (Hwf k0 w0). right; exact H0.
      * rewrite app_nil_r. exact Hlen.
      * intros l1 k0 x0 l2 El. apply (Hst (OFlush :: l1) k0 x0 l2). rewrite El. reflexivity.
      * intros l1 k0 x0 l2 El. apply (Hnr (OFlush :: l1) k0 x0 l2). rewrite El. reflexivity.
    + destruct (inv_open (vd_storage v) fl (inv_dur _ _ _ _ HI)) as (v1 & E1 & I1).
      rewrite E1. cbn [rbind]. apply IH.
      * exact I1.
      * rewrite app_nil_r. intros q _ X Y. contradiction.
      * intros k0 w0 H0. apply (Hwf k0 w0). right; exact H0.
      * rewrite app_nil_r. intros k w H. eapply Hlen. apply in_or_app. left. exact H.
      * intros l1 k0 x0 l2 El. apply (Hst (OReopen :: l1) k0 x0 l2). rewrite El. reflexivity.
      * intros l1 k0 x0 l2 El. apply (Hnr (OReopen :: l1) k0 x0 l2). rewrite El. reflexivity.
Qed.

Lemma disk_run_hot l : wf_ops l -> settled_ops l -> no_rewrite l ->
  exists v, run_disk l = Ok v /\ Inv v (last_open l) (fst (phases [] [] l)) (snd (phases [] [] l)) /\ Hot v (last_open l) (contents l).
Proof.
  intros Hwf Hst Hnr. unfold run_disk.
  destruct (inv_open bempty [] (or_introl (conj eq_refl Reads_open_empty))) as (v0 & E0 & I0).
  rewrite E0. cbn [rbind]. rewrite contents_eq. apply hot_run; auto.
  - intros q _ X Y. contradiction.
  - intros k w [].
  - intros l1 k x l2 El. cbv zeta. rewrite <- contents_eq. exact (Hst l1 k x l2 El).
Qed.

(** *** The insertion that is lost *)
Lemma fsub_self (a : F) : fsub a a = fzero. Proof. ring. Qed.
Lemma put_meta v p q bm d : shallow_d d ->
  vd_get_branch_meta (v_put v p (CBranch bm) d) q = if beqb p q then Ok (Some bm) else vd_get_branch_meta v q.
Proof.
  intros Hd. unfold shallow_d in Hd. unfold vd_get_branch_meta, v_put, mem_get_branch_meta. cbn [vd_storage vd_batch vd_cache]. rewrite Hd.
  cbn [branch_table]. unfold upd. destruct (beqb p q); reflexivity.
Qed.

Lemma falls_stale m S k n : is_key k -> (n <= 4)%nat -> forall v v',
  (forall j, (j <= 4)%nat -> vd_get_branch_meta v (firstn j (firstn 31 k)) = Ok (Some (cmeta m S (firstn j (firstn 31 k))))) ->
  process_reversed v (rev (map (fall m S k) (seq 0 n))) = Ok v' ->
  (forall j, (j <= 4)%nat -> vd_get_branch_meta v' (firstn j (firstn 31 k)) = Ok (Some (cmeta m S (firstn j (firstn 31 k))))).
Proof.
  intros Hk. induction n as [|n IH]; intros Hn v v' H E; [injection E as <-; exact H|].
  rewrite seq_S, map_app, rev_app_distr in E. cbn [map rev app plus] in E. unfold fall at 1 in E. cbn [process_reversed] in E.
  revert E. unfold process_fall_through. cbn [get_branch_meta insert_branch verkle_db_ops].
  rewrite (H (Datatypes.S n)), (H n) by lia. cbn [rbind unwrap into_branch].
  unfold scalar_mul. rewrite fsub_self, smul_0_l, gadd_0_r.
  set (nm := mkBranchMeta _ _). pose proof (vd_insert_branch_put v (firstn n (firstn 31 k)) nm (Z.of_nat n + 1)) as Ep.
  destruct (vd_insert_branch v (firstn n (firstn 31 k)) nm (Z.of_nat n + 1)) as [v1 o1]. cbn [fst] in Ep. cbn [rbind].
  apply IH; [lia|]. subst v1. intros j Hj. rewrite put_meta by (unfold shallow_d, CACHE_DEPTH; apply Z.leb_le; lia).
  destruct (beqb_spec (firstn n (firstn 31 k)) (firstn j (firstn 31 k))) as [<-|_]; [reflexivity|apply H; exact Hj].
Qed.

Lemma lost_insert v db m S k x : Reads v db -> Canon db m S -> is_key k ->
  internal S (firstn 4 k) = true -> cached v (firstn 4 k) ->
  insert_single v (k, x) = Panic \/
  exists v', insert_single v (k, x) = Ok v' /\ root_commitment v' = root_commitment v /\ root_hash v' = root_hash v.
Proof.
  intros R Cn Hk I4 Hc. pose proof Cn as [CW CK CLf CS CB].
  destruct (insert_single v (k, x)) as [v'|] eqn:E; [right|left; reflexivity]. exists v'. split; [reflexivity|].
  assert (Ls : length (firstn 31 k) = 31%nat) by (rewrite firstn_length; destruct Hk; lia).
  assert (E4 : firstn 4 k = firstn 4 (firstn 31 k)) by (rewrite firstn_firstn; reflexivity).
  rewrite E4 in I4, Hc. set (s := firstn 31 k) in *.
  destruct (instr_shape db m S k x Cn Hk) as (ins & Eins & Hshape). cbv zeta in Hshape. fold s in Hshape.
  unfold insert_single in E. rewrite (view_instr v db k x R), Eins in E. cbn [rbind] in E. unfold process_instructions in E.
  assert (Hmeta : forall j, (j <= 4)%nat -> vd_get_branch_meta v (firstn j s) = Ok (Some (cmeta m S (firstn j s)))).
  { intros j Hj. rewrite (rd_meta _ _ R). unfold mem_get_branch_meta. rewrite CB. unfold cbranch.
    rewrite (internal_down S s j 4) by (auto; lia). reflexivity. }
  assert (Hroot : forall w, (forall j, (j <= 4)%nat -> vd_get_branch_meta w (firstn j s) = Ok (Some (cmeta m S (firstn j s)))) ->
     root_commitment w = root_commitment v /\ root_hash w = root_hash v).
  { intros w Hw. unfold root_commitment, root_hash. cbn [get_branch_meta verkle_db_ops].
    pose proof (Hw 0%nat ltac:(lia)) as X. pose proof (Hmeta 0%nat ltac:(lia)) as Y. cbn [firstn] in X, Y. rewrite X, Y. auto. }
  destruct Hshape as [[-> _]|Hshape].
  { cbn [rev process_reversed] in E. injection E as <-. auto. }
  assert (Hd : forall e, (e < 31)%nat -> internal S (firstn (Datatypes.S e) s) = false -> (4 <= e)%nat).
  { intros e He Hi'. destruct (Nat.le_gt_cases 4 e) as [X|X]; [exact X|]. exfalso.
    assert (Y : internal S (firstn (Datatypes.S e) s) = true); [|congruence].
    apply (internal_down S s _ 4); [lia|lia|]. exact I4. }
  set (W := fun (r : Rec) (d : Z) => 4 < d /\ match r with RBranch p => (4 <= length p)%nat | _ => True end).
  assert (Hlen : forall j, (j <= 31)%nat -> length (firstn j s) = j) by (intros j Hj; rewrite firstn_length; lia).
  assert (Hsplit : exists e i, (4 <= e)%nat /\ ins = map (fall m S k) (seq 0 e) ++ [i] /\ (e < 31)%nat /\ ins_ok W i).
  { destruct Hshape as [(e & He & Hi & Hi' & Hv & ->)|(e & n & t & Hen & Hi & Hi' & Tin & Tne & Hpre & Hv & ->)];
      exists e; eexists; (split; [apply Hd; [lia|exact Hi']|split; [reflexivity|split; [lia|]]]).
    - specialize (Hd e He Hi'). cbn [ins_ok]. unfold W. rewrite app_length, (Hlen e) by lia. cbn [length]. repeat split; lia.
    - specialize (Hd e ltac:(lia) Hi'). destruct (chain_paths s e n Ls Hen) as (Ln & En & Lc & Hj). cbn [ins_ok]. cbv zeta.
      rewrite En, Lc. unfold W. rewrite !app_length, (Hlen n), (Hlen e) by lia. cbn [length].
      split; [lia|]. split; [|repeat split; lia].
      intros j Hj'. destruct (Hj j Hj') as [X Y]. rewrite X, Y. lia. }
  destruct Hsplit as (e & i & He4 & -> & He & Hi).
  assert (Es : map (fall m S k) (seq 0 e) = map (fall m S k) (seq 0 4) ++ map (fall m S k) (seq 4 (e - 4))).
  { rewrite <- map_app, <- seq_app. do 2 f_equal. lia. }
  rewrite Es, <- app_assoc, rev_app_distr in E.
  destruct (reversed_app _ _ _ _ E) as (v1 & E1 & Hv1).
  assert (T : vd_cache v1 = vd_cache v /\ vd_storage v1 = vd_storage v /\
     forall p, (length p < 4)%nat -> branch_table (vd_batch v1) p = branch_table (vd_batch v) p).
  { refine (frame_reversed W (fun w => vd_cache w = vd_cache v /\ vd_storage w = vd_storage v /\
      forall p, (length p < 4)%nat -> branch_table (vd_batch w) p = branch_table (vd_batch v) p) _ _ _ _ v v1 _
      (conj eq_refl (conj eq_refl (fun _ _ => eq_refl))) E1).
    - intros v0 k0 x0 d [Hw _] (H1 & H2 & H3). unfold vd_insert_leaf, mem_insert_leaf. cbn.
      rewrite (proj2 (Z.leb_gt d CACHE_DEPTH)) by (unfold CACHE_DEPTH; lia). auto.
    - intros v0 k0 x0 d [Hw _] (H1 & H2 & H3). unfold vd_insert_stem, mem_insert_stem. cbn.
      rewrite (proj2 (Z.leb_gt d CACHE_DEPTH)) by (unfold CACHE_DEPTH; lia). auto.
    - intros v0 p c d [Hw Hp] (H1 & H2 & H3). unfold v_put. cbn [vd_cache vd_storage vd_batch branch_table].
      rewrite (proj2 (Z.leb_gt d CACHE_DEPTH)) by (unfold CACHE_DEPTH; lia). split; [exact H1|]. split; [exact H2|].
      intros q Hq. rewrite upd_other; [apply H3; exact Hq|]. intros ->. lia.
    - apply Forall_rev, Forall_app. split; [|constructor; [exact Hi|constructor]].
      apply Forall_forall. intros i0 Hi0. apply in_map_iff in Hi0 as (j & <- & Hj). apply in_seq in Hj.
      unfold fall. cbn [ins_ok]. unfold W. fold s. rewrite Hlen by lia. lia. }
  destruct T as (T1 & T2 & T3).
  assert (Hmeta1 : forall j, (j <= 4)%nat -> vd_get_branch_meta v1 (firstn j s) = Ok (Some (cmeta m S (firstn j s)))).
  { intros j Hj. rewrite <- (Hmeta j Hj). unfold vd_get_branch_meta, mem_get_branch_meta. rewrite T1, T2.
    destruct (Nat.eq_dec j 4) as [->|Hj4].
    - unfold cached in Hc. destruct (branch_table (vd_cache v) (firstn 4 s)) as [[|]|]; [reflexivity|reflexivity|contradiction].
    - rewrite T3 by (rewrite Hlen; lia). reflexivity. }
  destruct Hv1 as [->|E2]; [apply Hroot; exact Hmeta1|]. apply Hroot. exact (falls_stale m S k 4 Hk (le_n 4) v1 v' Hmeta1 E2).
Qed.

Lemma run_disk_snoc l o v : run_disk l = Ok v -> run_disk (l ++ [o]) = op_step v o.
Proof.
  unfold run_disk. destruct (trie_new (verkle_open bempty)) as [v0|]; [|discriminate]. cbn [rbind].
  revert v0. induction l as [|o' l IH]; intros v0 E.
  - cbn in E. injection E as ->. cbn [app op_run]. destruct (op_step v o); reflexivity.
  - cbn [app op_run] in E |- *. destruct (op_step v0 o') as [v1|]; [|discriminate E]. apply IH. exact E.
Qed.

Lemma lost_update l k x : wf_ops l -> settled_ops l -> no_rewrite l -> is_key k ->
  crowded (contents l) (firstn 4 k) -> ~ crowded (last_open l) (firstn 4 k) ->
  run_disk (l ++ [OInsert k x]) = Panic \/
  exists v db, run_disk (l ++ [OInsert k x]) = Ok v /\ run_mem (contents l) = Ok db /\
    root_commitment v = root_commitment db /\ root_hash v = root_hash db.
Proof.
  intros Hwf Hst Hnr Hk Hc Ho. destruct (disk_run_hot l Hwf Hst Hnr) as (v & E & HI & HH).
  destruct (disk_like_mem l Hwf Hst Hnr) as (v0 & db0 & Ev & Em & Rc & Rh & _).
  assert (v0 = v) by congruence. subst v0.
  rewrite (run_disk_snoc l _ v E). cbn [op_step].
  destruct (inv_rel _ _ _ _ HI) as (db & pb & R & Cn & _). rewrite <- contents_eq in Cn.
  destruct (lost_insert v db _ _ k x (rel_view _ _ _ _ _ R) Cn Hk) as [X|(v' & X & Y1 & Y2)].
  - apply crowded_internal. exact Hc.
  - apply HH; [rewrite firstn_length; destruct Hk; lia|exact Hc|exact Ho].
  - left. exact X.
  - right. exists v', db0. repeat split; [exact X|exact Em|congruence|congruence].
Qed.
End Lost.
