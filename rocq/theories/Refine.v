(** Computing on a cover of the group: the trie run on values several of which stand for one element
    behaves as the trie run on the elements.  [cover] has the scalars of [A] and any type [H] of values
    with operations that [phi] takes to those of [A]. *)
From Verif Require Import Base BaseFacts Alg TrieModel.

Definition cover (A : Alg) (H : Type) (hz : H) (ha : H -> H -> H) (ho : H -> H) (hm : F -> H -> H) (he : H -> H -> bool) : Alg := {|
  F := F; fzero := fzero; fone := fone; fadd := fadd; fmul := fmul; fsub := fsub; fopp := fopp; fdiv := fdiv; finv := finv;
  feqb := feqb; of_Z := of_Z;
  G := H; gzero := hz; gadd := ha; gopp := ho; smul := hm; geqb := he |}.

(** The first result is related to the second, or it is a panic where [weak] allows one. *)
Definition rr (weak : Prop) {X Y} (R : X -> Y -> Prop) (a : res X) (b : res Y) : Prop :=
  match a, b with
  | Ok x, Ok y => R x y
  | Panic, Panic => True
  | Panic, Ok _ => weak
  | Ok _, Panic => False
  end.
Lemma rr_bind (weak : Prop) {X Y X' Y'} (R : X -> Y -> Prop) (R' : X' -> Y' -> Prop) a b f g :
  rr weak R a b -> (forall x y, R x y -> rr weak R' (f x) (g y)) -> rr weak R' (rbind a f) (rbind b g).
Proof. destruct a as [x|], b as [y|]; cbn [rr rbind]; intros H K; try contradiction; auto. destruct (g y); cbn; auto. Qed.
Lemma rr_unwrap (weak : Prop) {X Y} (f : X -> Y) (a : option X) (b : option Y) :
  b = option_map f a -> rr weak (fun x y => y = f x) (unwrap a) (unwrap b).
Proof. intros ->. destruct a; cbn; auto. Qed.
Lemma rr_same (weak : Prop) {X} (a : res X) : rr weak eq a a.
Proof. destruct a; cbn; auto. Qed.
Lemma rr_mono (w w' : Prop) {X Y} (R R' : X -> Y -> Prop) a b : (w -> w') -> (forall x y, R x y -> R' x y) -> rr w R a b -> rr w' R' a b.
Proof. destruct a, b; cbn; auto. Qed.

Section Cover.
Context {A : Alg} {P : Par A}.
Context {H : Type} {hz : H} {ha : H -> H -> H} {ho : H -> H} {hm : F -> H -> H} {he : H -> H -> bool}.
Local Notation A1 := (cover A H hz ha ho hm he).
Context {P1 : Par A1}.
Variable phi : H -> G.
Hypothesis phi_zero : phi hz = gzero.
Hypothesis phi_add : forall x y, phi (ha x y) = gadd (phi x) (phi y).
Hypothesis phi_mul : forall s x, phi (hm s x) = smul s (phi x).
Hypothesis phi_hash : forall x, @hash A1 P1 x = hash (phi x).
Hypothesis phi_crs : forall i, phi (@crs A1 P1 i) = crs i.

Definition sm_map (m : @StemMeta A1) : @StemMeta A :=
  @mkStemMeta A (phi (sm_c1 m)) (sm_hash_c1 m) (phi (sm_c2 m)) (sm_hash_c2 m) (phi (sm_comm m)) (sm_hash_comm m).
Definition bm_map (m : @BranchMeta A1) : @BranchMeta A := @mkBranchMeta A (phi (bm_comm m)) (bm_hash m).
Definition ch_map (c : @BranchChild A1) : @BranchChild A := match c with CStem s => CStem s | CBranch m => CBranch (bm_map m) end.
Definition me_map (c : @Meta A1) : @Meta A := match c with MStem s => MStem (sm_map s) | MBranch m => MBranch (bm_map m) end.
Definition ins_map (i : @Ins A1) : @Ins A :=
  match i with
  | UpdateLeaf k v d b x => UpdateLeaf k v d b x
  | ChainInsert a b c d e f g h => ChainInsert a b c d e f g h
  | InternalNodeFallThrough a b c o d => InternalNodeFallThrough a b c (option_map me_map o) d
  end.

Context {S1 S2 : Type} {D1 : @DbOps A1 S1} {D2 : @DbOps A S2}.
Variable R : S1 -> S2 -> Prop.
Variable weak : Prop.
Record DbSim : Prop := {
  sim_get_stem : forall v1 v2 s, R v1 v2 -> rr weak (fun a b => b = option_map sm_map a) (@get_stem_meta A1 S1 D1 v1 s) (get_stem_meta v2 s);
  sim_get_branch : forall v1 v2 s, R v1 v2 -> rr weak (fun a b => b = option_map bm_map a) (@get_branch_meta A1 S1 D1 v1 s) (get_branch_meta v2 s);
  sim_get_child : forall v1 v2 s i, R v1 v2 -> rr weak (fun a b => b = option_map ch_map a) (@get_branch_child A1 S1 D1 v1 s i) (get_branch_child v2 s i);
  sim_get_leaf : forall v1 v2 k, R v1 v2 -> rr weak eq (@get_leaf A1 S1 D1 v1 k) (get_leaf v2 k);
  sim_insert_leaf : forall v1 v2 k x d, R v1 v2 -> R (fst (@insert_leaf A1 S1 D1 v1 k x d)) (fst (insert_leaf v2 k x d)) /\
    snd (@insert_leaf A1 S1 D1 v1 k x d) = snd (insert_leaf v2 k x d);
  sim_insert_stem : forall v1 v2 k m d, R v1 v2 -> R (fst (@insert_stem A1 S1 D1 v1 k m d)) (fst (insert_stem v2 k (sm_map m) d));
  sim_insert_branch : forall v1 v2 k m d, R v1 v2 -> R (fst (@insert_branch A1 S1 D1 v1 k m d)) (fst (insert_branch v2 k (bm_map m) d)) /\
    snd (insert_branch v2 k (bm_map m) d) = option_map bm_map (snd (@insert_branch A1 S1 D1 v1 k m d));
  sim_add_stem : forall v1 v2 p s d, R v1 v2 -> R (fst (@add_stem_as_branch_child A1 S1 D1 v1 p s d)) (fst (add_stem_as_branch_child v2 p s d))
}.
Hypothesis DS : DbSim.

Lemma phi_scalar_mul s i : phi (@scalar_mul A1 P1 s i) = @scalar_mul A P s i.
Proof. unfold scalar_mul. cbn [smul cover]. rewrite phi_mul, phi_crs. reflexivity. Qed.

Lemma map_app_one {X Y} (f : X -> Y) l x : map f (l ++ [x]) = map f l ++ [f x].
Proof. apply map_app. Qed.

Lemma cover_create key value rest : forall d cur acc v1 v2, R v1 v2 ->
  rr weak (fun a b => b = map ins_map a) (@create_insert_loop A1 S1 D1 v1 key value rest d cur acc)
    (create_insert_loop v2 key value rest d cur (map ins_map acc)).
Proof.
  induction rest as [|i rest IH]; intros d cur acc v1 v2 HR; cbn [create_insert_loop]; [reflexivity|].
  apply (rr_bind _ _ _ _ _ _ _ (sim_get_child DS v1 v2 cur i HR)). intros c1 c2 ->.
  destruct c1 as [[s|m]|]; cbn [option_map ch_map].
  - destruct (path_difference s (firstn 31 key)) as [[sp o1] o2]. destruct (length sp =? 31)%nat.
    + apply (rr_bind _ _ _ _ _ _ _ (sim_get_leaf DS v1 v2 key HR)). intros l1 l2 <-.
      destruct l1 as [old|], o1 as [z|]; cbn [rr]; rewrite ?map_app_one; try reflexivity;
        (apply (rr_bind _ eq); [apply rr_same|]; intros _ _ _; destruct (_ && _); cbn [rr]; rewrite ?map_app_one; reflexivity).
    + apply (rr_bind _ eq); [apply rr_same|]. intros a _ <-. apply (rr_bind _ eq); [apply rr_same|]. intros b _ <-.
      apply (rr_bind _ eq); [apply rr_same|]. intros e _ <-. cbn [rr]. now rewrite map_app_one.
  - pose proof (IH (Datatypes.S d) (cur ++ [i]) (acc ++ [InternalNodeFallThrough cur i (cur ++ [i]) (Some (MBranch m)) (Z.of_nat d + 1)]) v1 v2 HR) as X.
    rewrite map_app_one in X. exact X.
  - cbn [rr]. now rewrite map_app_one.
Qed.
Lemma cover_update_leaf v1 v2 k x d : R v1 v2 ->
  R (fst (@update_leaf_table A1 S1 D1 v1 k x d)) (fst (update_leaf_table v2 k x d)) /\
  snd (@update_leaf_table A1 S1 D1 v1 k x d) = snd (update_leaf_table v2 k x d).
Proof.
  intro HR. destruct (sim_insert_leaf DS v1 v2 k x d HR) as [I1 I2]. unfold update_leaf_table.
  destruct (@insert_leaf A1 S1 D1 v1 k x d) as [w1 o1], (insert_leaf v2 k x d) as [w2 o2]. cbn [fst snd] in I1, I2. subst o2.
  destruct o1 as [b|]; [destruct (beqb b x)|]; cbn [fst snd]; auto.
Qed.

(** Metadata of a stem, computed from what was there before. *)
Lemma cover_update_stem v1 v2 lu d : R v1 v2 ->
  rr weak (fun a b => R (fst a) (fst b) /\ snd a = snd b) (@update_stem_table A1 P1 S1 D1 v1 lu d) (@update_stem_table A P S2 D2 v2 lu d).
Proof.
  intro HR. destruct lu as [[old new] key]. unfold update_stem_table.
  destruct old as [val|].
  all: apply (rr_bind _ _ _ _ _ _ _ (sim_get_stem DS v1 v2 (firstn 31 key) HR)); intros m1 m2 ->;
    destruct m1 as [[c1 h1 c2 h2 c h]|]; cbn [option_map sm_map sm_c1 sm_hash_c1 sm_c2 sm_hash_c2 sm_comm sm_hash_comm];
    destruct (nth 31 key 0 <? 128).
  all: match goal with |- context [@insert_stem A1 _ _ _ _ ?m _] => pose proof (sim_insert_stem DS v1 v2 (firstn 31 key) m d HR) as I end.
  all: match type of I with R _ (fst (insert_stem _ _ ?m _)) => match goal with |- context [@insert_stem A _ _ _ _ ?m' _] => assert (E : m = m') end end.
  all: try (unfold sm_map; cbn [sm_c1 sm_hash_c1 sm_c2 sm_hash_c2 sm_comm sm_hash_comm];
    repeat (rewrite ?phi_hash; cbn [gadd gzero cover]; rewrite ?phi_add, ?phi_zero, ?phi_scalar_mul, ?phi_crs); reflexivity).
  all: rewrite <- E; clear E.
  all: match goal with |- context [@insert_stem A1 _ _ ?v ?k ?m ?d] => destruct (@insert_stem A1 _ _ v k m d) as [w1 o1] end.
  all: match goal with |- context [@insert_stem A _ _ ?v ?k ?m ?d] => destruct (@insert_stem A _ _ v k m d) as [w2 o2] end.
  all: cbn [fst] in I; cbn [rr fst snd sm_map sm_hash_comm]; split; [exact I|reflexivity].
Qed.

Lemma cover_update_branch v1 v2 su b i d : R v1 v2 ->
  rr weak (fun a b => R (fst a) (fst b) /\ snd a = snd b) (@update_branch_table A1 P1 S1 D1 v1 su b i d) (@update_branch_table A P S2 D2 v2 su b i d).
Proof.
  intro HR. destruct su as [[old new] stem]. unfold update_branch_table.
  apply (rr_bind _ _ _ _ _ _ _ (sim_get_branch DS v1 v2 b HR)); intros m1 m2 E.
  apply (rr_bind _ _ _ _ _ _ _ (rr_unwrap weak bm_map _ _ E)). intros [c h] ? ->. cbn [bm_map bm_comm].
  set (new1 := ha c (@scalar_mul A1 P1 (fsub new (match old with Some x => x | None => fzero end)) i)).
  set (new2 := gadd (phi c) (@scalar_mul A P (fsub new (match old with Some x => x | None => fzero end)) i)).
  assert (En : phi new1 = new2) by (unfold new1, new2; now rewrite phi_add, phi_scalar_mul).
  destruct (sim_insert_branch DS v1 v2 b (@mkBranchMeta A1 new1 (@hash A1 P1 new1)) d HR) as [I _].
  replace (bm_map (@mkBranchMeta A1 new1 (@hash A1 P1 new1))) with (@mkBranchMeta A new2 (hash new2)) in I
    by (unfold bm_map; cbn [bm_comm bm_hash]; now rewrite phi_hash, En).
  change (@gadd A1 c) with (ha c). change (@fsub A1) with (@fsub A). change (@fzero A1) with (@fzero A). fold new1.
  destruct (@insert_branch A1 S1 D1 v1 b _ d) as [w1 o1], (insert_branch v2 b _ d) as [w2 o2]. cbn [fst] in I.
  pose proof (sim_add_stem DS w1 w2 (b ++ [i]) stem d I) as I2.
  destruct (@add_stem_as_branch_child A1 S1 D1 w1 (b ++ [i]) stem d) as [x1 ?], (add_stem_as_branch_child w2 (b ++ [i]) stem d) as [x2 ?]. cbn [fst] in I2.
  cbn [rr fst snd]. split; [exact I2|]. transitivity (hash new2); [rewrite <- En; exact (phi_hash new1)|reflexivity].
Qed.

Lemma cover_chain_loop l : forall v1 v2 below, R v1 v2 ->
  R (fst (@chain_loop A1 P1 S1 D1 v1 l below)) (fst (@chain_loop A P S2 D2 v2 l below)) /\
  snd (@chain_loop A1 P1 S1 D1 v1 l below) = snd (@chain_loop A P S2 D2 v2 l below).
Proof.
  induction l as [|[c p] l IH]; intros v1 v2 below HR; [split; [exact HR|reflexivity]|]. cbn [chain_loop].
  destruct (sim_insert_branch DS v1 v2 p (@mkBranchMeta A1 (@scalar_mul A1 P1 below c) (@hash A1 P1 (@scalar_mul A1 P1 below c))) (Z.of_nat (length p)) HR) as [I _].
  unfold bm_map in I. cbn [bm_comm bm_hash] in I. rewrite phi_hash, phi_scalar_mul in I. rewrite phi_hash, phi_scalar_mul.
  destruct (@insert_branch A1 S1 D1 v1 p _ _) as [w1 o1], (insert_branch v2 p _ _) as [w2 o2]. cbn [fst] in I.
  apply IH. exact I.
Qed.

Lemma branch_write v1 v2 b (c : H) (s : F) i d : R v1 v2 ->
  rr weak R (let '(db, _) := @insert_branch A1 S1 D1 v1 b
      (@mkBranchMeta A1 (@gadd A1 c (@scalar_mul A1 P1 s i)) (@hash A1 P1 (@gadd A1 c (@scalar_mul A1 P1 s i)))) d in Ok db)
    (let '(db, _) := @insert_branch A S2 D2 v2 b
      (@mkBranchMeta A (@gadd A (phi c) (@scalar_mul A P s i)) (@hash A P (@gadd A (phi c) (@scalar_mul A P s i)))) d in Ok db).
Proof.
  intro HR. destruct (sim_insert_branch DS v1 v2 b (@mkBranchMeta A1 (@gadd A1 c (@scalar_mul A1 P1 s i)) (@hash A1 P1 (@gadd A1 c (@scalar_mul A1 P1 s i)))) d HR) as [I _].
  assert (E : bm_map (@mkBranchMeta A1 (@gadd A1 c (@scalar_mul A1 P1 s i)) (@hash A1 P1 (@gadd A1 c (@scalar_mul A1 P1 s i)))) =
    @mkBranchMeta A (@gadd A (phi c) (@scalar_mul A P s i)) (@hash A P (@gadd A (phi c) (@scalar_mul A P s i)))).
  { unfold bm_map. cbn [bm_comm bm_hash]. rewrite phi_hash. change (@gadd A1) with ha. now rewrite phi_add, phi_scalar_mul. }
  rewrite E in I. destruct (@insert_branch A1 S1 D1 v1 b _ d), (@insert_branch A S2 D2 v2 b _ d). exact I.
Qed.

Lemma cover_fall v1 v2 b i c o d : R v1 v2 ->
  rr weak R (@process_fall_through A1 P1 S1 D1 v1 b i c o d) (@process_fall_through A P S2 D2 v2 b i c (option_map me_map o) d).
Proof.
  intro HR. unfold process_fall_through.
  apply (rr_bind _ _ _ _ _ _ _ (sim_get_branch DS v1 v2 c HR)); intros n1 n2 E.
  apply (rr_bind _ _ _ _ _ _ _ (rr_unwrap weak bm_map _ _ E)). clear E n1 n2. intros [cn hn] ? ->. cbn [bm_map bm_hash].
  apply (rr_bind _ eq).
  { destruct o as [[m|m]|]; cbn; auto. }
  intros old ? <-.
  apply (rr_bind _ _ _ _ _ _ _ (sim_get_branch DS v1 v2 b HR)); intros n1 n2 E.
  apply (rr_bind _ _ _ _ _ _ _ (rr_unwrap weak bm_map _ _ E)). clear E n1 n2. intros [cp hp] ? ->. cbn [bm_map bm_comm].
  exact (branch_write v1 v2 b cp (fsub hn old) i d HR).
Qed.

Lemma cover_chain v1 v2 sd cp pb ci oi nk nv ni : R v1 v2 ->
  rr weak R (@process_chain_insert A1 P1 S1 D1 v1 sd cp pb ci oi nk nv ni) (@process_chain_insert A P S2 D2 v2 sd cp pb ci oi nk nv ni).
Proof.
  intro HR. unfold process_chain_insert.
  apply (rr_bind _ eq); [apply rr_same|]. intros _ _ _. apply (rr_bind _ eq); [apply rr_same|]. intros ps _ <-.
  apply (rr_bind _ _ _ _ _ _ _ (sim_get_child DS v1 v2 pb ci HR)); intros c1 c2 E.
  apply (rr_bind _ _ _ _ _ _ _ (rr_unwrap weak ch_map _ _ E)). clear E c1 c2. intros c ? ->.
  apply (rr_bind _ eq). { destruct c; cbn; auto. } intros os _ <-. clear c.
  apply (rr_bind _ eq); [apply rr_same|]. intros bt _ <-.
  destruct (sim_insert_branch DS v1 v2 bt (@branch_meta_zero A1) (Z.of_nat (length bt)) HR) as [I _].
  unfold bm_map in I. cbn [bm_comm bm_hash branch_meta_zero] in I. change (@gzero A1) with hz in I. rewrite phi_zero in I.
  change (@mkBranchMeta A gzero (@fzero A1)) with (@branch_meta_zero A) in I.
  destruct (@insert_branch A1 S1 D1 v1 bt _ _) as [w1 o1], (insert_branch v2 bt _ _) as [w2 o2]. cbn [fst] in I. clear HR v1 v2.
  destruct (cover_update_leaf w1 w2 nk nv (Z.of_nat (length bt)) I) as [L1 L2].
  destruct (@update_leaf_table A1 S1 D1 w1 nk nv _) as [x1 u1], (update_leaf_table w2 nk nv _) as [x2 u2]. cbn [fst snd] in L1, L2. subst u2. clear I w1 w2 o1 o2.
  apply (rr_bind _ eq); [apply rr_same|]. intros lu _ <-.
  apply (rr_bind _ _ _ _ _ _ _ (cover_update_stem x1 x2 lu _ L1)). intros [y1 su] [y2 su2] [L2 E]. cbn [fst snd] in L2, E. subst su2.
  apply (rr_bind _ _ _ _ _ _ _ (cover_update_branch y1 y2 su bt ni _ L2)). intros [z1 h1] [z2 h2] [L3 E]. cbn [fst snd] in L3, E. subst h2.
  apply (rr_bind _ _ _ _ _ _ _ (sim_get_stem DS z1 z2 os L3)); intros n1 n2 E.
  apply (rr_bind _ _ _ _ _ _ _ (rr_unwrap weak sm_map _ _ E)). clear E n1 n2. intros sm ? ->.
  change (sm_hash_comm (sm_map sm)) with (sm_hash_comm sm).
  apply (rr_bind _ _ _ _ _ _ _ (cover_update_branch z1 z2 (None, sm_hash_comm sm, os) bt oi _ L3)). intros [q1 r1] [q2 r2] [L4 E]. cbn [fst snd] in L4, E. subst r2.
  destruct (cover_chain_loop (combine (rev cp) (tl (rev ps))) q1 q2 r1 L4) as [L5 E].
  destruct (@chain_loop A1 P1 S1 D1 q1 _ r1) as [t1 e1], (@chain_loop A P S2 D2 q2 _ r1) as [t2 e2]. cbn [fst snd] in L5, E. subst e2.
  apply (rr_bind _ _ _ _ _ _ _ (sim_get_branch DS t1 t2 pb L5)); intros n1 n2 E.
  apply (rr_bind _ _ _ _ _ _ _ (rr_unwrap weak bm_map _ _ E)). clear E n1 n2. intros [cm hm'] ? ->. cbn [bm_map bm_comm].
  exact (branch_write t1 t2 pb cm (fsub e1 (sm_hash_comm sm)) ci sd L5).
Qed.

Lemma cover_process l : forall v1 v2, R v1 v2 -> rr weak R (@process_reversed A1 P1 S1 D1 v1 l) (@process_reversed A P S2 D2 v2 (map ins_map l)).
Proof.
  induction l as [|i l IH]; intros v1 v2 HR; [exact HR|]. destruct i; cbn [map ins_map process_reversed].
  - destruct (cover_update_leaf v1 v2 key new_leaf_value depth HR) as [L1 L2].
    destruct (@update_leaf_table A1 S1 D1 v1 _ _ _) as [x1 u1], (update_leaf_table v2 _ _ _) as [x2 u2]. cbn [fst snd] in L1, L2. subst u2.
    destruct u1 as [lu|]; [|exact L1].
    apply (rr_bind _ _ _ _ _ _ _ (cover_update_stem x1 x2 lu depth L1)). intros [y1 su] [y2 su2] [L2 E]. cbn [fst snd] in L2, E. subst su2.
    apply (rr_bind _ _ _ _ _ _ _ (cover_update_branch y1 y2 su branch_id branch_child_index depth L2)). intros [z1 h1] [z2 h2] [L3 E]. cbn [fst snd] in L3.
    apply IH. exact L3.
  - eapply rr_bind; [apply cover_chain; exact HR|]. exact IH.
  - eapply rr_bind; [apply cover_fall; exact HR|]. exact IH.
Qed.

Lemma cover_insert_single v1 v2 kv : R v1 v2 -> rr weak R (@insert_single A1 P1 S1 D1 v1 kv) (@insert_single A P S2 D2 v2 kv).
Proof.
  intro HR. destruct kv as [k x]. unfold insert_single, create_insert_instructions.
  apply (rr_bind _ _ _ _ _ _ _ (cover_create k x k 0 [] [] v1 v2 HR)). intros l ? ->. unfold process_instructions. rewrite <- map_rev.
  now apply cover_process.
Qed.
Lemma cover_insert kvs : forall v1 v2, R v1 v2 -> rr weak R (@trie_insert A1 P1 S1 D1 v1 kvs) (@trie_insert A P S2 D2 v2 kvs).
Proof.
  induction kvs as [|kv kvs IH]; intros v1 v2 HR; [exact HR|]. cbn [trie_insert]. eapply rr_bind; [apply cover_insert_single; exact HR|]. exact IH.
Qed.
Lemma cover_new v1 v2 : R v1 v2 -> rr weak R (@trie_new A1 S1 D1 v1) (@trie_new A S2 D2 v2).
Proof.
  intro HR. unfold trie_new, root_is_missing. apply (rr_bind _ eq).
  { apply (rr_bind _ _ _ _ _ _ _ (sim_get_branch DS v1 v2 [] HR)). intros a ? ->. destruct a; reflexivity. }
  intros m _ <-. destruct m; [|exact HR].
  destruct (sim_insert_branch DS v1 v2 [] (@branch_meta_zero A1) 0 HR) as [I O].
  unfold bm_map in I, O. cbn [bm_comm bm_hash branch_meta_zero] in I, O. change (@gzero A1) with hz in I, O. rewrite phi_zero in I, O.
  change (@mkBranchMeta A gzero (@fzero A1)) with (@branch_meta_zero A) in I, O.
  destruct (@insert_branch A1 S1 D1 v1 [] _ _) as [w1 o1], (insert_branch v2 [] _ _) as [w2 o2]. cbn [fst snd] in I, O. subst o2.
  destruct o1; cbn; auto.
Qed.
Lemma cover_get v1 v2 k : R v1 v2 -> rr weak eq (@trie_get A1 S1 D1 v1 k) (@trie_get A S2 D2 v2 k).
Proof. apply (sim_get_leaf DS). Qed.
Lemma cover_root_hash v1 v2 : R v1 v2 -> rr weak eq (@root_hash A1 S1 D1 v1) (@root_hash A S2 D2 v2).
Proof.
  intro HR. unfold root_hash. apply (rr_bind _ _ _ _ _ _ _ (sim_get_branch DS v1 v2 [] HR)). intros n1 n2 E.
  apply (rr_bind _ _ _ _ _ _ _ (rr_unwrap weak bm_map _ _ E)). intros m ? ->. reflexivity.
Qed.
Lemma cover_root_commitment v1 v2 : R v1 v2 -> rr weak (fun g e => phi g = e) (@root_commitment A1 S1 D1 v1) (@root_commitment A S2 D2 v2).
Proof.
  intro HR. unfold root_commitment. apply (rr_bind _ _ _ _ _ _ _ (sim_get_branch DS v1 v2 [] HR)). intros n1 n2 E.
  apply (rr_bind _ _ _ _ _ _ _ (rr_unwrap weak bm_map _ _ E)). intros m ? ->. reflexivity.
Qed.
End Cover.
