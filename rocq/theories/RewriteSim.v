(** Two disk tries with the same stems and branches and different leaves insert in lock step when the change
    of the committed scalars is the same. *)
From Verif Require Import Base BaseFacts Alg AlgFacts TreeSpec TreeFacts TrieModel TrieProofs
  CodecModel VerkleDbModel DbSpec VerkleDbProofs VerkleDbSim.

Section Glue.
Context {A : Alg} {P : Par A} {C : Codec A}.

Definition glue (v : VerkleDb) (bl cl : bmap bytes) : VerkleDb :=
  mkVerkleDb (vd_storage v) (mkMemoryDb bl (stem_table (vd_batch v)) (branch_table (vd_batch v)))
    (mkMemoryDb cl (stem_table (vd_cache v)) (branch_table (vd_cache v))).
Definition Lock (bl0 cl0 bl cl : bmap bytes) (v w : VerkleDb) : Prop :=
  w = glue v bl cl /\ leaf_table (vd_batch v) = bl0 /\ leaf_table (vd_cache v) = cl0.
Definition LockO bl0 cl0 bl cl {X} (a b : res (VerkleDb * X)) : Prop :=
  match a, b with
  | Ok (v, x), Ok (w, y) => x = y /\ Lock bl0 cl0 bl cl v w
  | Panic, Panic => True
  | _, _ => False
  end.
Definition Lock1 bl0 cl0 bl cl (a b : res VerkleDb) : Prop :=
  match a, b with Ok v, Ok w => Lock bl0 cl0 bl cl v w | Panic, Panic => True | _, _ => False end.

Section Fixed.
Context (bl0 cl0 bl cl : bmap bytes).
Notation Lock := (Lock bl0 cl0 bl cl).
Notation LockO := (LockO bl0 cl0 bl cl).
Notation Lock1 := (Lock1 bl0 cl0 bl cl).

Lemma lk_stem_meta v w s : Lock v w -> vd_get_stem_meta w s = vd_get_stem_meta v s.
Proof. intros (-> & _ & _). reflexivity. Qed.
Lemma lk_branch_meta v w s : Lock v w -> vd_get_branch_meta w s = vd_get_branch_meta v s.
Proof. intros (-> & _ & _). reflexivity. Qed.
Lemma lk_branch_child v w p i : Lock v w -> vd_get_branch_child w p i = vd_get_branch_child v p i.
Proof. intros (-> & _ & _). reflexivity. Qed.
Lemma lk_insert_stem v w s m d : Lock v w -> Lock (fst (vd_insert_stem v s m d)) (fst (vd_insert_stem w s m d)).
Proof.
  intros (-> & H1 & H2). unfold vd_insert_stem, mem_insert_stem, glue, Lock. cbn.
  destruct (d <=? CACHE_DEPTH); repeat split; assumption.
Qed.
Lemma lk_insert_branch v w p m d : Lock v w -> Lock (fst (vd_insert_branch v p m d)) (fst (vd_insert_branch w p m d)).
Proof.
  intros (-> & H1 & H2). unfold vd_insert_branch, mem_insert_branch, glue, Lock. cbn.
  destruct (d <=? CACHE_DEPTH); repeat split; assumption.
Qed.
Lemma lk_add_stem v w p s d : Lock v w -> Lock (fst (vd_add_stem v p s d)) (fst (vd_add_stem w p s d)).
Proof.
  intros (-> & H1 & H2). unfold vd_add_stem, mem_add_stem, glue, Lock. cbn.
  destruct (d <=? CACHE_DEPTH); repeat split; assumption.
Qed.

Definition old_low (o : option bytes) : F := match o with Some v => value_low v | None => fzero end.
Definition old_high (o : option bytes) : F := match o with Some v => value_high v | None => fzero end.

Lemma lk_update_stem v w o x o' x' k d : Lock v w ->
  fsub (value_low x) (old_low o) = fsub (value_low x') (old_low o') ->
  fsub (value_high x) (old_high o) = fsub (value_high x') (old_high o') ->
  LockO (update_stem_table v (o, x, k) d) (update_stem_table w (o', x', k) d).
Proof.
  intros HL E1 E2. unfold update_stem_table.
  assert (X : forall o, (match o with Some val => (value_low val, value_high val) | None => (fzero, fzero) end) = (old_low o, old_high o))
    by (intros [?|]; reflexivity).
  rewrite !X. rewrite E1, E2. cbn [get_stem_meta insert_stem verkle_db_ops]. rewrite (lk_stem_meta _ _ _ HL).
  destruct (vd_get_stem_meta v (firstn 31 k)) as [[cv|]|]; cbn [rbind]; [| |exact I];
    cbv zeta beta iota; set (nm := if nth 31 k 0 <? 128 then _ else _);
    pose proof (lk_insert_stem v w (firstn 31 k) nm d HL) as R;
    destruct (vd_insert_stem v (firstn 31 k) nm d), (vd_insert_stem w (firstn 31 k) nm d); cbn [fst] in R;
    (split; [reflexivity|exact R]).
Qed.

Lemma lk_update_branch v w su b i d : Lock v w ->
  LockO (update_branch_table v su b i d) (update_branch_table w su b i d).
Proof.
  intros HL. destruct su as [[old new] stem]. unfold update_branch_table.
  cbn [get_branch_meta insert_branch add_stem_as_branch_child verkle_db_ops]. rewrite (lk_branch_meta _ _ _ HL).
  destruct (vd_get_branch_meta v b) as [[bm|]|]; cbn [rbind unwrap]; [|exact I|exact I].
  set (nm := mkBranchMeta _ _). pose proof (lk_insert_branch v w b nm d HL) as R1.
  destruct (vd_insert_branch v b nm d) as [v1 ?], (vd_insert_branch w b nm d) as [w1 ?]. cbn [fst] in R1.
  pose proof (lk_add_stem v1 w1 (b ++ [i]) stem d R1) as R2.
  destruct (vd_add_stem v1 (b ++ [i]) stem d) as [v2 ?], (vd_add_stem w1 (b ++ [i]) stem d) as [w2 ?]. cbn [fst] in R2.
  split; [reflexivity|exact R2].
Qed.

Lemma lk_chain_loop l : forall v w below, Lock v w ->
  snd (chain_loop v l below) = snd (chain_loop w l below) /\ Lock (fst (chain_loop v l below)) (fst (chain_loop w l below)).
Proof.
  induction l as [|[c p] l IH]; intros v w below HL; [split; [reflexivity|exact HL]|].
  cbn [chain_loop insert_branch verkle_db_ops]. set (nm := mkBranchMeta _ _).
  pose proof (lk_insert_branch v w p nm (Z.of_nat (length p)) HL) as R1.
  destruct (vd_insert_branch v p nm _) as [v1 ?], (vd_insert_branch w p nm _) as [w1 ?]. apply IH. exact R1.
Qed.

Lemma lk_fall v w b i c old d : Lock v w ->
  Lock1 (process_fall_through v b i c old d) (process_fall_through w b i c old d).
Proof.
  intros HL. unfold process_fall_through. cbn [get_branch_meta insert_branch verkle_db_ops]. rewrite !(lk_branch_meta _ _ _ HL).
  destruct (vd_get_branch_meta v c) as [[nm|]|]; cbn [rbind unwrap]; try exact I.
  destruct (match old with Some m => let! b0 := into_branch m in Ok (bm_hash b0) | None => Ok fzero end) as [oh|];
    cbn [rbind]; [|exact I].
  destruct (vd_get_branch_meta v b) as [[pm|]|]; cbn [rbind unwrap]; try exact I.
  set (nm' := mkBranchMeta _ _). pose proof (lk_insert_branch v w b nm' d HL) as R.
  destruct (vd_insert_branch v b nm' d) as [v1 ?], (vd_insert_branch w b nm' d) as [w1 ?]. exact R.
Qed.

Definition is_fall (i : Ins) : bool := match i with InternalNodeFallThrough _ _ _ _ _ => true | _ => false end.
Lemma lk_falls l : forall v w, forallb is_fall l = true -> Lock v w -> Lock1 (process_reversed v l) (process_reversed w l).
Proof.
  induction l as [|ins l IH]; intros v w HF HL; [exact HL|].
  cbn [forallb] in HF. apply andb_true_iff in HF as [HF1 HF2]. destruct ins; try discriminate HF1. cbn [process_reversed].
  pose proof (lk_fall v w branch_id branch_child_index child old_child_value depth HL) as S.
  destruct (process_fall_through v branch_id branch_child_index child old_child_value depth) as [v1|],
           (process_fall_through w branch_id branch_child_index child old_child_value depth) as [w1|];
    cbn in S; try contradiction; cbn [rbind]; [|exact I].
  apply IH; assumption.
Qed.
End Fixed.

(** After an insertion of [x] under [k] on one side and of [x'] on the other. *)
Definition Wrote (bl0 cl0 bl cl : bmap bytes) (k x x' : bytes) (a b : res VerkleDb) : Prop :=
  exists deep : bool, Lock1 (upd bl0 k x) (if deep then cl0 else upd cl0 k x) (upd bl k x') (if deep then cl else upd cl k x') a b.

Lemma lk_insert_leaf bl0 cl0 bl cl v w k x x' d : Lock bl0 cl0 bl cl v w ->
  snd (vd_insert_leaf v k x d) = bl0 k /\ snd (vd_insert_leaf w k x' d) = bl k /\
  Lock (upd bl0 k x) (if negb (d <=? CACHE_DEPTH) then cl0 else upd cl0 k x)
       (upd bl k x') (if negb (d <=? CACHE_DEPTH) then cl else upd cl k x')
       (fst (vd_insert_leaf v k x d)) (fst (vd_insert_leaf w k x' d)).
Proof.
  intros (-> & <- & <-). unfold vd_insert_leaf, mem_insert_leaf, glue, Lock. cbn.
  destruct (d <=? CACHE_DEPTH); cbn; repeat split; reflexivity.
Qed.

Lemma lk_update_leaf bl0 cl0 bl cl v w k x x' d : Lock bl0 cl0 bl cl v w -> bl0 k <> Some x -> bl k <> Some x' ->
  snd (update_leaf_table v k x d) = Some (bl0 k, x, k) /\ snd (update_leaf_table w k x' d) = Some (bl k, x', k) /\
  Lock (upd bl0 k x) (if negb (d <=? CACHE_DEPTH) then cl0 else upd cl0 k x)
       (upd bl k x') (if negb (d <=? CACHE_DEPTH) then cl else upd cl k x')
       (fst (update_leaf_table v k x d)) (fst (update_leaf_table w k x' d)).
Proof.
  intros HL N1 N2. destruct (lk_insert_leaf bl0 cl0 bl cl v w k x x' d HL) as (E1 & E2 & R).
  unfold update_leaf_table. cbn [insert_leaf verkle_db_ops].
  destruct (vd_insert_leaf v k x d) as [v1 o1], (vd_insert_leaf w k x' d) as [w1 o2]. cbn [fst snd] in *. subst o1 o2.
  assert (Y : forall (u : VerkleDb) (o : option bytes) (y : bytes), o <> Some y ->
    (match o with Some vec => if beqb vec y then (u, None) else (u, Some (Some vec, y, k)) | None => (u, Some (None, y, k)) end) = (u, Some (o, y, k))).
  { intros u [z|] y N; [|reflexivity]. destruct (beqb_spec z y) as [->|]; [congruence|reflexivity]. }
  rewrite (Y v1 _ _ N1), (Y w1 _ _ N2). auto.
Qed.

Section Insert.
Context (bl0 cl0 bl cl : bmap bytes) (k x x' : bytes).
Hypothesis N1 : bl0 k <> Some x.
Hypothesis N2 : bl k <> Some x'.
Hypothesis E1 : fsub (value_low x) (old_low (bl0 k)) = fsub (value_low x') (old_low (bl k)).
Hypothesis E2 : fsub (value_high x) (old_high (bl0 k)) = fsub (value_high x') (old_high (bl k)).

Lemma lk_update_run v w fs d p i : Lock bl0 cl0 bl cl v w -> forallb is_fall fs = true ->
  Wrote bl0 cl0 bl cl k x x' (process_instructions v (fs ++ [UpdateLeaf k x d p i])) (process_instructions w (fs ++ [UpdateLeaf k x' d p i])).
Proof.
  intros HL HF. exists (negb (d <=? CACHE_DEPTH)).
  assert (HF' : forallb is_fall (rev fs) = true).
  { apply forallb_forall. intros j Hj. apply in_rev in Hj. rewrite forallb_forall in HF. auto. }
  unfold process_instructions. rewrite !rev_app_distr. cbn [rev app process_reversed].
  destruct (lk_update_leaf bl0 cl0 bl cl v w k x x' d HL N1 N2) as (U1 & U2 & R).
  destruct (update_leaf_table v k x d) as [v1 o1], (update_leaf_table w k x' d) as [w1 o2]. cbn [fst snd] in *. subst o1 o2.
  pose proof (lk_update_stem _ _ _ _ v1 w1 _ _ _ _ k d R E1 E2) as S2.
  destruct (update_stem_table v1 _ d) as [[v2 s2]|], (update_stem_table w1 _ d) as [[w2 s2']|]; cbn [LockO] in S2; try contradiction; [|exact I].
  destruct S2 as [<- R2]. cbn [rbind].
  pose proof (lk_update_branch _ _ _ _ v2 w2 s2 p i d R2) as S3.
  destruct (update_branch_table v2 s2 p i d) as [[v3 h3]|], (update_branch_table w2 s2 p i d) as [[w3 h3']|]; cbn [LockO] in S3; try contradiction; [|exact I].
  destruct S3 as [_ R3]. cbn [rbind]. apply lk_falls; assumption.
Qed.

Lemma lk_chain v w sd cp pn ci oi ni : Lock bl0 cl0 bl cl v w ->
  Wrote bl0 cl0 bl cl k x x' (process_chain_insert v sd cp pn ci oi k x ni) (process_chain_insert w sd cp pn ci oi k x' ni).
Proof.
  intros HL. unfold process_chain_insert.
  destruct (assertb (negb (length cp =? 0)%nat)); cbn [rbind]; [|exists true; exact I].
  destruct (expand_path pn cp) as [paths|]; cbn [rbind]; [|exists true; exact I].
  cbn [get_branch_child verkle_db_ops]. rewrite (lk_branch_child _ _ _ _ _ _ _ _ HL).
  destruct (vd_get_branch_child v pn ci) as [oc|]; cbn [rbind]; [|exists true; exact I].
  destruct (unwrap oc) as [oc'|]; cbn [rbind]; [|exists true; exact I].
  destruct (unwrap (child_stem oc')) as [os|]; cbn [rbind]; [|exists true; exact I].
  destruct (unwrap (hd_error (rev paths))) as [bottom|]; cbn [rbind]; [|exists true; exact I].
  set (n := Z.of_nat (length bottom)). exists (negb (n <=? CACHE_DEPTH)).
  cbn [insert_branch get_stem_meta get_branch_meta verkle_db_ops].
  pose proof (lk_insert_branch _ _ _ _ v w bottom branch_meta_zero n HL) as R0.
  destruct (vd_insert_branch v bottom branch_meta_zero n) as [v0 ?], (vd_insert_branch w bottom branch_meta_zero n) as [w0 ?]. cbn [fst] in R0.
  destruct (lk_update_leaf bl0 cl0 bl cl v0 w0 k x x' n R0 N1 N2) as (U1 & U2 & R).
  destruct (update_leaf_table v0 k x n) as [v1 o1], (update_leaf_table w0 k x' n) as [w1 o2]. cbn [fst snd] in *. subst o1 o2. cbn [unwrap rbind].
  pose proof (lk_update_stem _ _ _ _ v1 w1 _ _ _ _ k n R E1 E2) as S2.
  destruct (update_stem_table v1 _ n) as [[v2 s2]|], (update_stem_table w1 _ n) as [[w2 s2']|]; cbn [LockO] in S2; try contradiction; [|exact I].
  destruct S2 as [<- R2]. cbn [rbind].
  pose proof (lk_update_branch _ _ _ _ v2 w2 s2 bottom ni n R2) as S3.
  destruct (update_branch_table v2 s2 bottom ni n) as [[v3 h3]|], (update_branch_table w2 s2 bottom ni n) as [[w3 h3']|]; cbn [LockO] in S3; try contradiction; [|exact I].
  destruct S3 as [_ R3]. cbn [rbind]. rewrite (lk_stem_meta _ _ _ _ _ _ _ R3).
  destruct (vd_get_stem_meta v3 os) as [sm|]; cbn [rbind]; [|exact I].
  destruct (unwrap sm) as [sm'|]; cbn [rbind]; [|exact I].
  pose proof (lk_update_branch _ _ _ _ v3 w3 (None, sm_hash_comm sm', os) bottom oi n R3) as S4.
  destruct (update_branch_table v3 _ bottom oi n) as [[v4 h4]|], (update_branch_table w3 _ bottom oi n) as [[w4 h4']|]; cbn [LockO] in S4; try contradiction; [|exact I].
  destruct S4 as [<- R4]. cbn [rbind].
  destruct (lk_chain_loop _ _ _ _ (combine (rev cp) (tl (rev paths))) v4 w4 h4 R4) as [E5 R5].
  destruct (chain_loop v4 _ h4) as [v5 n5], (chain_loop w4 _ h4) as [w5 n5']. cbn [fst snd] in E5, R5. subst n5'.
  rewrite (lk_branch_meta _ _ _ _ _ _ _ R5).
  destruct (vd_get_branch_meta v5 pn) as [tp|]; cbn [rbind]; [|exact I].
  destruct (unwrap tp) as [tp'|]; cbn [rbind]; [|exact I].
  set (nm := mkBranchMeta _ _). pose proof (lk_insert_branch _ _ _ _ v5 w5 pn nm sd R5) as R6.
  destruct (vd_insert_branch v5 pn nm sd) as [v6 ?], (vd_insert_branch w5 pn nm sd) as [w6 ?]. exact R6.
Qed.

Lemma lk_chain_run v w fs sd cp pn ci oi ni : Lock bl0 cl0 bl cl v w -> forallb is_fall fs = true ->
  Wrote bl0 cl0 bl cl k x x' (process_instructions v (fs ++ [ChainInsert sd cp pn ci oi k x ni])) (process_instructions w (fs ++ [ChainInsert sd cp pn ci oi k x' ni])).
Proof.
  intros HL HF.
  assert (HF' : forallb is_fall (rev fs) = true).
  { apply forallb_forall. intros j Hj. apply in_rev in Hj. rewrite forallb_forall in HF. auto. }
  unfold process_instructions. rewrite !rev_app_distr. cbn [rev app process_reversed].
  destruct (lk_chain v w sd cp pn ci oi ni HL) as [deep S]. exists deep.
  destruct (process_chain_insert v sd cp pn ci oi k x ni) as [v1|], (process_chain_insert w sd cp pn ci oi k x' ni) as [w1|];
    cbn in S; try contradiction; cbn [rbind]; [|exact I].
  apply lk_falls; assumption.
Qed.

(** The instructions are the same but for the value. *)
Lemma lk_create_loop v w rest : Lock bl0 cl0 bl cl v w ->
  (exists o o', vd_get_leaf v k = Ok o /\ o <> Some x /\ vd_get_leaf w k = Ok o' /\ o' <> Some x') ->
  forall d cur acc, forallb is_fall acc = true ->
  match create_insert_loop v k x rest d cur acc, create_insert_loop w k x' rest d cur acc with
  | Ok a, Ok b => (a = b /\ forallb is_fall a = true) \/
      (exists fs d p i, forallb is_fall fs = true /\ a = fs ++ [UpdateLeaf k x d p i] /\ b = fs ++ [UpdateLeaf k x' d p i]) \/
      (exists fs sd cp pn ci oi ni, forallb is_fall fs = true /\ a = fs ++ [ChainInsert sd cp pn ci oi k x ni] /\ b = fs ++ [ChainInsert sd cp pn ci oi k x' ni])
  | Panic, Panic => True
  | _, _ => False
  end.
Proof.
  intros HL (o & o' & G1 & O1 & G2 & O2). induction rest as [|i rest IH]; intros d cur acc HF; [left; auto|].
  cbn [create_insert_loop get_branch_child get_leaf verkle_db_ops]. rewrite (lk_branch_child _ _ _ _ _ _ _ _ HL).
  destruct (vd_get_branch_child v cur i) as [[[st|bm]|]|]; cbn [rbind]; [| | |exact I].
  - destruct (path_difference st (firstn 31 k)) as [[sh po] pn]. destruct (length sh =? 31)%nat.
    + rewrite G1, G2. cbn [rbind].
      assert (B : forall (o : option bytes) (y : bytes), o <> Some y ->
        (let '(a, b) := match o with Some old => (old, true) | None => (repeat 0 32, false) end in beqb a y && b) = false).
      { intros [z|] y N; [|apply andb_false_r]. destruct (beqb_spec z y) as [->|]; [congruence|reflexivity]. }
      pose proof (B o x O1) as B1. pose proof (B o' x' O2) as B2.
      destruct (match o with Some old => (old, true) | None => (repeat 0 32, false) end) as [a1 b1].
      destruct (match o' with Some old => (old, true) | None => (repeat 0 32, false) end) as [a2 b2].
      destruct po as [po|].
      * right; left. do 4 eexists. split; [exact HF|]. split; reflexivity.
      * destruct (assertb (match pn with None => true | _ => false end)); cbn [rbind]; [|exact I]. rewrite B1, B2.
        right; left. do 4 eexists. split; [exact HF|]. split; reflexivity.
    + destruct (slice_from d sh) as [rs|]; cbn [rbind]; [|exact I].
      destruct (unwrap po) as [po'|]; cbn [rbind]; [|exact I].
      destruct (unwrap pn) as [pn'|]; cbn [rbind]; [|exact I].
      right; right. do 7 eexists. split; [exact HF|]. split; reflexivity.
  - apply IH. rewrite forallb_app, HF. reflexivity.
  - right; left. do 4 eexists. split; [exact HF|]. split; reflexivity.
Qed.
End Insert.
End Glue.
