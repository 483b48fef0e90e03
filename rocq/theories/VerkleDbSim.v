(** A trie on [VerkleDb] simulates a trie on [MemoryDb] as long as every write
    is shallow enough to reach the cache or to a record that is not in the cache,
    and no flushed leaf is rewritten. *)
From Coq Require Import Permutation.
From Verif Require Import Base BaseFacts Alg AlgFacts TreeSpec TreeFacts TrieModel TrieProofs
  CodecModel VerkleDbModel DbSpec VerkleDbProofs.

Section Sim.
Context {A : Alg} {P : Par A} {C : Codec A}.

(** Every point read of [v] answers as the in-memory database [db]. *)
Record Reads (v : VerkleDb) (db : MemoryDb) : Prop := {
  rd_leaf : forall k, vd_get_leaf v k = Ok (leaf_table db k);
  rd_stem : forall s, vd_get_stem_meta v s = Ok (stem_table db s);
  rd_meta : forall p, vd_get_branch_meta v p = mem_get_branch_meta db p;
  rd_child : forall p i, vd_get_branch_child v p i = Ok (branch_table db (p ++ [i]))
}.

Definition uncached (v : VerkleDb) (r : Rec) : Prop :=
  match r with
  | RLeaf k => leaf_table (vd_cache v) k = None
  | RStem s => stem_table (vd_cache v) s = None
  | RBranch p => branch_table (vd_cache v) p = None
  end.

(** [pb] is the batch's leaf table; the records of [R] are not in the cache. *)
Record Rel (R : Rec -> Prop) (v : VerkleDb) (db : MemoryDb) (pb : bmap bytes) (d : Disk) : Prop := {
  rel_view : Reads v db;
  rel_nc : Reads (nocache v) db;
  rel_pb : forall k, leaf_table (vd_batch v) k = pb k;
  rel_disk : vd_storage v = d;
  rel_clear : forall r, R r -> uncached v r
}.
Lemma Rel_clear R (R' : Rec -> Prop) v db pb d : Rel R v db pb d -> (forall r, R' r -> uncached v r) -> Rel R' v db pb d.
Proof. intros [H1 H2 H3 H4 _] H5. constructor; assumption. Qed.

(** *** Writes *)
Lemma w_leaf_reads v db k x d :
  (d <=? CACHE_DEPTH) = true \/ leaf_table (vd_cache v) k = None ->
  Reads v db -> Reads (fst (vd_insert_leaf v k x d)) (fst (mem_insert_leaf db k x d)).
Proof.
  intros Hd [R1 R2 R3 R4]. destruct v as [st ba ca]. cbn [vd_cache] in Hd.
  constructor; cbn [fst mem_insert_leaf vd_insert_leaf vd_storage vd_batch vd_cache leaf_table stem_table branch_table].
  - intros k0. specialize (R1 k0). unfold vd_get_leaf in *. cbn [vd_storage vd_batch vd_cache] in *. unfold mem_get_leaf in *.
    cbn [leaf_table]. unfold upd at 2. unfold upd at 2. destruct (beqb_spec k k0) as [<-|Hn].
    + destruct (Z.leb_spec d CACHE_DEPTH) as [Hl|Hl]; cbn [leaf_table].
      * rewrite upd_same. reflexivity.
      * destruct Hd as [Hd|Hd]; [discriminate|]. rewrite Hd. reflexivity.
    + destruct (d <=? CACHE_DEPTH); cbn [leaf_table]; [rewrite upd_other by exact Hn|]; exact R1.
  - intros s. specialize (R2 s). unfold vd_get_stem_meta in *. cbn [vd_storage vd_batch vd_cache] in *. unfold mem_get_stem_meta in *.
    destruct (d <=? CACHE_DEPTH); exact R2.
  - intros p. specialize (R3 p). unfold vd_get_branch_meta in *. cbn [vd_storage vd_batch vd_cache] in *. unfold mem_get_branch_meta in *.
    destruct (d <=? CACHE_DEPTH); exact R3.
  - intros p i. specialize (R4 p i). unfold vd_get_branch_child in *. cbn [vd_storage vd_batch vd_cache] in *. unfold mem_get_branch_child in *.
    destruct (d <=? CACHE_DEPTH); exact R4.
Qed.

Lemma w_stem_reads v db k x d :
  (d <=? CACHE_DEPTH) = true \/ stem_table (vd_cache v) k = None ->
  Reads v db -> Reads (fst (vd_insert_stem v k x d)) (fst (mem_insert_stem db k x d)).
Proof.
  intros Hd [R1 R2 R3 R4]. destruct v as [st ba ca]. cbn [vd_cache] in Hd.
  constructor; cbn [fst mem_insert_stem vd_insert_stem vd_storage vd_batch vd_cache leaf_table stem_table branch_table].
  - intros k0. specialize (R1 k0). unfold vd_get_leaf in *. cbn [vd_storage vd_batch vd_cache] in *. unfold mem_get_leaf in *.
    destruct (d <=? CACHE_DEPTH); exact R1.
  - intros k0. specialize (R2 k0). unfold vd_get_stem_meta in *. cbn [vd_storage vd_batch vd_cache] in *. unfold mem_get_stem_meta in *.
    cbn [stem_table]. unfold upd at 2. unfold upd at 2. destruct (beqb_spec k k0) as [<-|Hn].
    + destruct (Z.leb_spec d CACHE_DEPTH) as [Hl|Hl]; cbn [stem_table].
      * rewrite upd_same. reflexivity.
      * destruct Hd as [Hd|Hd]; [discriminate|]. rewrite Hd. reflexivity.
    + destruct (d <=? CACHE_DEPTH); cbn [stem_table]; [rewrite upd_other by exact Hn|]; exact R2.
  - intros p. specialize (R3 p). unfold vd_get_branch_meta in *. cbn [vd_storage vd_batch vd_cache] in *. unfold mem_get_branch_meta in *.
    destruct (d <=? CACHE_DEPTH); exact R3.
  - intros p i. specialize (R4 p i). unfold vd_get_branch_child in *. cbn [vd_storage vd_batch vd_cache] in *. unfold mem_get_branch_child in *.
    destruct (d <=? CACHE_DEPTH); exact R4.
Qed.

(** Both writers of the branch table. *)
Definition v_put (v : VerkleDb) (p : bytes) (c : BranchChild) (d : Z) : VerkleDb :=
  mkVerkleDb (vd_storage v)
    (mkMemoryDb (leaf_table (vd_batch v)) (stem_table (vd_batch v)) (upd (branch_table (vd_batch v)) p c))
    (if d <=? CACHE_DEPTH then
       mkMemoryDb (leaf_table (vd_cache v)) (stem_table (vd_cache v)) (upd (branch_table (vd_cache v)) p c)
     else vd_cache v).
Definition m_put (db : MemoryDb) (p : bytes) (c : BranchChild) : MemoryDb :=
  mkMemoryDb (leaf_table db) (stem_table db) (upd (branch_table db) p c).

Lemma w_put_reads v db p c d :
  (d <=? CACHE_DEPTH) = true \/ branch_table (vd_cache v) p = None ->
  Reads v db -> Reads (v_put v p c d) (m_put db p c).
Proof.
  intros Hd [R1 R2 R3 R4]. destruct v as [st ba ca]. cbn [vd_cache] in Hd. unfold v_put, m_put.
  constructor; cbn [vd_storage vd_batch vd_cache leaf_table stem_table branch_table].
  - intros k0. specialize (R1 k0). unfold vd_get_leaf in *. cbn [vd_storage vd_batch vd_cache] in *. unfold mem_get_leaf in *.
    destruct (d <=? CACHE_DEPTH); exact R1.
  - intros k0. specialize (R2 k0). unfold vd_get_stem_meta in *. cbn [vd_storage vd_batch vd_cache] in *. unfold mem_get_stem_meta in *.
    destruct (d <=? CACHE_DEPTH); exact R2.
  - intros q. specialize (R3 q). unfold vd_get_branch_meta in *. cbn [vd_storage vd_batch vd_cache] in *. unfold mem_get_branch_meta in *.
    cbn [branch_table]. unfold upd at 2. unfold upd at 2. destruct (beqb_spec p q) as [<-|Hn].
    + destruct (Z.leb_spec d CACHE_DEPTH) as [Hl|Hl]; cbn [branch_table].
      * rewrite upd_same. destruct c; reflexivity.
      * destruct Hd as [Hd|Hd]; [discriminate|]. rewrite Hd. destruct c; reflexivity.
    + destruct (d <=? CACHE_DEPTH); cbn [branch_table]; [rewrite upd_other by exact Hn|]; exact R3.
  - intros q i. specialize (R4 q i). unfold vd_get_branch_child in *. cbn [vd_storage vd_batch vd_cache] in *. unfold mem_get_branch_child in *.
    cbn [branch_table]. unfold upd at 2. unfold upd at 2. destruct (beqb_spec p (q ++ [i])) as [<-|Hn].
    + destruct (Z.leb_spec d CACHE_DEPTH) as [Hl|Hl]; cbn [branch_table].
      * rewrite upd_same. reflexivity.
      * destruct Hd as [Hd|Hd]; [discriminate|]. rewrite Hd. reflexivity.
    + destruct (d <=? CACHE_DEPTH); cbn [branch_table]; [rewrite upd_other by exact Hn|]; exact R4.
Qed.

Lemma vd_insert_branch_put v p m d : fst (vd_insert_branch v p m d) = v_put v p (CBranch m) d.
Proof. reflexivity. Qed.
Lemma vd_add_stem_put v p s d : fst (vd_add_stem v p s d) = v_put v p (CStem s) d.
Proof. reflexivity. Qed.

Definition shallow_d (d : Z) : Prop := (d <=? CACHE_DEPTH) = true.

Lemma nocache_any v v' : vd_storage v = vd_storage v' -> vd_batch v = vd_batch v' -> nocache v = nocache v'.
Proof. unfold nocache. intros -> ->. reflexivity. Qed.

Lemma Reads_same_cache v w db : vd_storage v = vd_storage w -> vd_batch v = vd_batch w ->
  (forall k, leaf_table (vd_cache v) k = leaf_table (vd_cache w) k) ->
  (forall k, stem_table (vd_cache v) k = stem_table (vd_cache w) k) ->
  (forall k, branch_table (vd_cache v) k = branch_table (vd_cache w) k) ->
  Reads v db -> Reads w db.
Proof.
  intros E1 E2 E3 E4 E5 [R1 R2 R3 R4]. destruct v as [sa ba ca], w as [sw bw cw]. cbn [vd_storage vd_batch vd_cache] in *. subst sw bw.
  constructor.
  - intros k. rewrite <- R1. unfold vd_get_leaf, mem_get_leaf. cbn [vd_storage vd_batch vd_cache]. rewrite E3. reflexivity.
  - intros k. rewrite <- R2. unfold vd_get_stem_meta, mem_get_stem_meta. cbn [vd_storage vd_batch vd_cache]. rewrite E4. reflexivity.
  - intros k. rewrite <- R3. unfold vd_get_branch_meta, mem_get_branch_meta. cbn [vd_storage vd_batch vd_cache]. rewrite E5. reflexivity.
  - intros p k. rewrite <- R4. unfold vd_get_branch_child, mem_get_branch_child. cbn [vd_storage vd_batch vd_cache]. rewrite E5. reflexivity.
Qed.

Section Writes.
Context (R : Rec -> Prop).
Notation Rel := (Rel R).

(** Writes to [R] are deep, all others shallow. *)
Definition wok (r : Rec) (d : Z) : Prop := (shallow_d d /\ ~ R r) \/ (~ shallow_d d /\ R r).

Lemma wok_reads v db pb dk r d : wok r d -> Rel v db pb dk -> (d <=? CACHE_DEPTH) = true \/ uncached v r.
Proof. intros [[H _]|[_ H]] HR; [left; exact H|right; exact (rel_clear _ _ _ _ _ HR r H)]. Qed.
Lemma deep_d d : ~ shallow_d d -> (d <=? CACHE_DEPTH) = false.
Proof. unfold shallow_d. destruct (d <=? CACHE_DEPTH); congruence. Qed.

Lemma rel_leaf v db pb dk k x d : wok (RLeaf k) d -> Rel v db pb dk ->
  Rel (fst (vd_insert_leaf v k x d)) (fst (mem_insert_leaf db k x d)) (upd pb k x) dk.
Proof.
  intros Hd HR. pose proof (wok_reads _ _ _ _ _ _ Hd HR) as Hc. destruct HR as [R1 R2 R3 R4 R5]. constructor.
  - apply w_leaf_reads; auto.
  - pose proof (w_leaf_reads (nocache v) db k x 5 (or_intror eq_refl) R2) as X. exact X.
  - intros k0. cbn. unfold upd. rewrite <- R3. reflexivity.
  - exact R4.
  - intros r Hr. specialize (R5 r Hr). unfold vd_insert_leaf, mem_insert_leaf. cbn [fst]. destruct Hd as [[Hs Hn]|[Hs _]].
    + unfold shallow_d in Hs. rewrite Hs. destruct r; cbn in *; auto.
      rewrite upd_other; [exact R5|]. intros ->. contradiction.
    + rewrite (deep_d _ Hs). exact R5.
Qed.
Lemma rel_stem v db pb dk k x d : wok (RStem k) d -> Rel v db pb dk ->
  Rel (fst (vd_insert_stem v k x d)) (fst (mem_insert_stem db k x d)) pb dk.
Proof.
  intros Hd HR. pose proof (wok_reads _ _ _ _ _ _ Hd HR) as Hc. destruct HR as [R1 R2 R3 R4 R5]. constructor.
  - apply w_stem_reads; auto.
  - pose proof (w_stem_reads (nocache v) db k x 5 (or_intror eq_refl) R2) as X. exact X.
  - exact R3.
  - exact R4.
  - intros r Hr. specialize (R5 r Hr). unfold vd_insert_stem, mem_insert_stem. cbn [fst]. destruct Hd as [[Hs Hn]|[Hs _]].
    + unfold shallow_d in Hs. rewrite Hs. destruct r; cbn in *; auto.
      rewrite upd_other; [exact R5|]. intros ->. contradiction.
    + rewrite (deep_d _ Hs). exact R5.
Qed.
Lemma rel_put v db pb dk p c d : wok (RBranch p) d -> Rel v db pb dk -> Rel (v_put v p c d) (m_put db p c) pb dk.
Proof.
  intros Hd HR. pose proof (wok_reads _ _ _ _ _ _ Hd HR) as Hc. destruct HR as [R1 R2 R3 R4 R5]. constructor.
  - apply w_put_reads; auto.
  - pose proof (w_put_reads (nocache v) db p c 5 (or_intror eq_refl) R2) as X. exact X.
  - exact R3.
  - exact R4.
  - intros r Hr. specialize (R5 r Hr). unfold v_put. destruct Hd as [[Hs Hn]|[Hs _]].
    + unfold shallow_d in Hs. rewrite Hs. destruct r; cbn in *; auto.
      rewrite upd_other; [exact R5|]. intros ->. contradiction.
    + rewrite (deep_d _ Hs). destruct r; exact R5.
Qed.
Lemma rel_branch v db pb dk k x d : wok (RBranch k) d -> Rel v db pb dk ->
  Rel (fst (vd_insert_branch v k x d)) (fst (mem_insert_branch db k x d)) pb dk.
Proof. intros. rewrite vd_insert_branch_put. apply (rel_put v db pb dk k (CBranch x) d); assumption. Qed.
Lemma rel_add v db pb dk k x d : wok (RBranch k) d -> Rel v db pb dk ->
  Rel (fst (vd_add_stem v k x d)) (fst (mem_add_stem db k x d)) pb dk.
Proof. intros. rewrite vd_add_stem_put. apply (rel_put v db pb dk k (CStem x) d); assumption. Qed.

(** *** The trie functions, in lock step *)
Lemma sim_create_loop v db k x rest : Reads v db -> forall d cur acc,
  create_insert_loop v k x rest d cur acc = create_insert_loop db k x rest d cur acc.
Proof.
  intros HRd. induction rest as [|i rest IH]; intros d cur acc; [reflexivity|].
  cbn [create_insert_loop get_branch_child get_leaf verkle_db_ops memory_db_ops].
  rewrite (rd_child _ _ HRd), (rd_leaf _ _ HRd). unfold mem_get_branch_child, mem_get_leaf. cbn [rbind].
  destruct (branch_table db (cur ++ [i])) as [[st|bm]|]; [reflexivity| |reflexivity].
  apply IH.
Qed.

Definition RelO (pb : bmap bytes) (dk : Disk) {X} (a : res (VerkleDb * X)) (b : res (MemoryDb * X)) : Prop :=
  match a, b with
  | Ok (v, x), Ok (db, y) => x = y /\ Rel v db pb dk
  | Panic, Panic => True
  | _, _ => False
  end.
Definition Rel1 (pb : bmap bytes) (dk : Disk) (a : res VerkleDb) (b : res MemoryDb) : Prop :=
  match a, b with
  | Ok v, Ok db => Rel v db pb dk
  | Panic, Panic => True
  | _, _ => False
  end.

Lemma sim_update_stem v db pb dk lu d : wok (RStem (firstn 31 (snd lu))) d -> Rel v db pb dk ->
  RelO pb dk (update_stem_table v lu d) (update_stem_table db lu d).
Proof.
  intros Hd HR. destruct lu as [[old new] key]. cbn [snd] in Hd. unfold update_stem_table.
  cbn [get_stem_meta insert_stem verkle_db_ops memory_db_ops].
  rewrite (rd_stem _ _ (rel_view _ _ _ _ _ HR)). unfold mem_get_stem_meta.
  destruct (match old with Some val => (value_low val, value_high val) | None => (fzero, fzero) end) as [ol oh].
  cbn [rbind].
  destruct (stem_table db (firstn 31 key)) as [cv|].
  - cbv zeta beta iota. set (nm := if nth 31 key 0 <? 128 then _ else _).
    pose proof (rel_stem v db pb dk (firstn 31 key) nm d Hd HR) as R'.
    unfold RelO. split; [reflexivity|exact R'].
  - cbv zeta beta iota. set (nm := if nth 31 key 0 <? 128 then _ else _).
    pose proof (rel_stem v db pb dk (firstn 31 key) nm d Hd HR) as R'.
    unfold RelO. split; [reflexivity|exact R'].
Qed.

Lemma sim_update_branch v db pb dk su b i d : wok (RBranch b) d -> wok (RBranch (b ++ [i])) d -> Rel v db pb dk ->
  RelO pb dk (update_branch_table v su b i d) (update_branch_table db su b i d).
Proof.
  intros Hd Hd' HR. destruct su as [[old new] stem]. unfold update_branch_table.
  cbn [get_branch_meta insert_branch add_stem_as_branch_child verkle_db_ops memory_db_ops].
  rewrite (rd_meta _ _ (rel_view _ _ _ _ _ HR)).
  destruct (mem_get_branch_meta db b) as [[bm|]|]; cbn [rbind unwrap RelO]; [|exact I|exact I].
  set (nm := mkBranchMeta _ _).
  pose proof (rel_branch v db pb dk b nm d Hd HR) as R1.
  pose proof (rel_add _ _ pb dk (b ++ [i]) stem d Hd' R1) as R2.
  split; [reflexivity|exact R2].
Qed.

Lemma sim_chain_loop l : forall v db pb dk below,
  Forall (fun e => wok (RBranch (snd e)) (Z.of_nat (length (snd e)))) l -> Rel v db pb dk ->
  snd (chain_loop v l below) = snd (chain_loop db l below) /\
  Rel (fst (chain_loop v l below)) (fst (chain_loop db l below)) pb dk.
Proof.
  induction l as [|[c p] l IH]; intros v db pb dk below HF HR; [split; [reflexivity|exact HR]|].
  inversion HF as [|? ? H1 H2]; subst. cbn [snd] in H1. cbn [chain_loop insert_branch verkle_db_ops memory_db_ops].
  set (nm := mkBranchMeta _ _).
  pose proof (rel_branch v db pb dk p nm _ H1 HR) as R1. apply (IH _ _ _ _ (hash (scalar_mul below c)) H2 R1).
Qed.

Lemma sim_fall v db pb dk b i c old d : wok (RBranch b) d -> Rel v db pb dk ->
  Rel1 pb dk (process_fall_through v b i c old d) (process_fall_through db b i c old d).
Proof.
  intros Hd HR. unfold process_fall_through. cbn [get_branch_meta insert_branch verkle_db_ops memory_db_ops].
  rewrite !(rd_meta _ _ (rel_view _ _ _ _ _ HR)).
  destruct (mem_get_branch_meta db c) as [[nm|]|]; cbn [rbind unwrap Rel1]; try exact I.
  destruct (match old with Some m => let! b0 := into_branch m in Ok (bm_hash b0) | None => Ok fzero end) as [oh|];
    cbn [rbind Rel1]; [|exact I].
  destruct (mem_get_branch_meta db b) as [[pm|]|]; cbn [rbind unwrap Rel1]; try exact I.
  set (nm' := mkBranchMeta _ _). exact (rel_branch v db pb dk b nm' d Hd HR).
Qed.

(** [update_leaf_table] agrees when the batch's idea of the old value is the
    real one. *)
Lemma sim_update_leaf v db pb dk k x d : wok (RLeaf k) d -> Rel v db pb dk -> pb k = leaf_table db k ->
  snd (update_leaf_table v k x d) = snd (update_leaf_table db k x d) /\
  Rel (fst (update_leaf_table v k x d)) (fst (update_leaf_table db k x d)) (upd pb k x) dk.
Proof.
  intros Hd HR Hk. pose proof (rel_leaf v db pb dk k x d Hd HR) as R1.
  unfold update_leaf_table. cbn [insert_leaf verkle_db_ops memory_db_ops vd_insert_leaf mem_insert_leaf].
  rewrite (rel_pb _ _ _ _ _ HR k), Hk.
  destruct (leaf_table db k) as [w|]; [destruct (beqb w x)|]; cbn [fst snd]; (split; [reflexivity|exact R1]).
Qed.

Lemma update_leaf_key v k x d lu : snd (update_leaf_table (S := VerkleDb) v k x d) = Some lu -> snd lu = k.
Proof.
  unfold update_leaf_table. cbn [insert_leaf verkle_db_ops]. destruct (vd_insert_leaf v k x d) as [v1 [w|]]; [destruct (beqb w x)|];
    cbn [snd]; intro X; try discriminate X; injection X as <-; reflexivity.
Qed.

Lemma sim_chain v db pb dk sd cp pn ci oi nk nv ni :
  let n := Z.of_nat (length (pn ++ cp)) in
  wok (RBranch pn) sd ->
  (forall j, (j < length cp)%nat ->
     wok (RBranch (pn ++ firstn (Datatypes.S j) cp)) (Z.of_nat (length (pn ++ firstn (Datatypes.S j) cp)))) ->
  wok (RLeaf nk) n -> wok (RStem (firstn 31 nk)) n -> wok (RBranch ((pn ++ cp) ++ [ni])) n -> wok (RBranch ((pn ++ cp) ++ [oi])) n ->
  Rel v db pb dk -> pb nk = leaf_table db nk ->
  Rel1 (upd pb nk nv) dk (process_chain_insert v sd cp pn ci oi nk nv ni) (process_chain_insert db sd cp pn ci oi nk nv ni).
Proof.
  intros n Hsd Hpaths Hleaf Hstem Hni Hoi HR Hk. unfold process_chain_insert.
  destruct (length cp) as [|len] eqn:El0; cbn [Nat.eqb negb assertb rbind Rel1]; [exact I|].
  unfold expand_path. rewrite El0. cbn [Nat.eqb negb assertb rbind].
  set (f := fun idx => pn ++ firstn (Datatypes.S idx) cp) in *.
  cbn [get_branch_child verkle_db_ops memory_db_ops]. rewrite (rd_child _ _ (rel_view _ _ _ _ _ HR)).
  unfold mem_get_branch_child. cbn [rbind].
  destruct (unwrap (branch_table db (pn ++ [ci]))) as [oc|]; cbn [rbind Rel1]; [|exact I].
  destruct (unwrap (child_stem oc)) as [os|]; cbn [rbind Rel1]; [|exact I].
  assert (Er : @rev bytes (@map nat (list Z) f (seq 0 (Datatypes.S len))) = (pn ++ cp) :: @rev bytes (@map nat (list Z) f (seq 0 len))).
  { rewrite seq_S, map_app, rev_app_distr. cbn [map rev app Nat.add]. unfold f at 1. rewrite <- El0, firstn_all. reflexivity. }
  rewrite Er. set (ips := @rev bytes (@map nat (list Z) f (seq 0 len))). cbn [hd_error unwrap rbind Rel1]. fold n.
  assert (Hb : wok (RBranch (pn ++ cp)) n).
  { specialize (Hpaths len ltac:(lia)). rewrite <- El0, firstn_all in Hpaths. exact Hpaths. }
  set (bottom := pn ++ cp) in *.
  cbn [insert_branch verkle_db_ops memory_db_ops].
  pose proof (rel_branch v db pb dk bottom branch_meta_zero _ Hb HR) as R1.
  destruct (vd_insert_branch v bottom branch_meta_zero n) as [v1 o1].
  assert (Hk1 : pb nk = leaf_table (fst (mem_insert_branch db bottom branch_meta_zero n)) nk) by exact Hk.
  destruct (mem_insert_branch db bottom branch_meta_zero n) as [db1 o1'].
  cbn [fst] in R1, Hk1.
  destruct (sim_update_leaf v1 db1 pb dk nk nv _ Hleaf R1 Hk1) as [El R2].
  pose proof (update_leaf_key v1 nk nv n) as Hlu.
  destruct (update_leaf_table v1 nk nv n) as [v2 lu2].
  destruct (update_leaf_table db1 nk nv n) as [db2 lu2'].
  cbn [fst snd] in El, R2, Hlu. subst lu2'.
  destruct lu2 as [lu2|]; cbn [unwrap rbind Rel1]; [|exact I].
  assert (Hstem' : wok (RStem (firstn 31 (snd lu2))) n) by (rewrite (Hlu _ eq_refl); exact Hstem).
  pose proof (sim_update_stem v2 db2 _ dk lu2 n Hstem' R2) as S3.
  destruct (update_stem_table v2 lu2 n) as [[v3 su3]|],
           (update_stem_table db2 lu2 n) as [[db3 su3']|];
    cbn [RelO] in S3; try contradiction; cbn [rbind Rel1]; [|exact I].
  destruct S3 as [<- R3].
  pose proof (sim_update_branch v3 db3 _ dk su3 bottom ni _ Hb Hni R3) as S4.
  destruct (update_branch_table v3 su3 bottom ni n) as [[v4 h4]|],
           (update_branch_table db3 su3 bottom ni n) as [[db4 h4']|];
    cbn [RelO] in S4; try contradiction; cbn [rbind Rel1]; [|exact I].
  destruct S4 as [_ R4].
  cbn [get_stem_meta verkle_db_ops memory_db_ops]. rewrite (rd_stem _ _ (rel_view _ _ _ _ _ R4)).
  unfold mem_get_stem_meta. cbn [rbind].
  destruct (stem_table db4 os) as [sm|]; cbn [unwrap rbind Rel1]; [|exact I].
  pose proof (sim_update_branch v4 db4 _ dk (None, sm_hash_comm sm, os) bottom oi _ Hb Hoi R4) as S5.
  destruct (update_branch_table v4 (None, sm_hash_comm sm, os) bottom oi n) as [[v5 h5]|],
           (update_branch_table db4 (None, sm_hash_comm sm, os) bottom oi n) as [[db5 h5']|];
    cbn [RelO] in S5; try contradiction; cbn [rbind Rel1]; [|exact I].
  destruct S5 as [<- R5]. cbn [tl].
  assert (HF : Forall (fun e : Z * bytes => wok (RBranch (snd e)) (Z.of_nat (length (snd e)))) (combine (rev cp) ips)).
  { apply Forall_forall. intros [c p] Hin. apply in_combine_r in Hin. cbn [snd].
    apply in_rev in Hin. apply in_map_iff in Hin as (j & <- & Hj). apply in_seq in Hj. apply (Hpaths j). lia. }
  destruct (sim_chain_loop _ v5 db5 _ dk h5 HF R5) as [E6 R6].
  destruct (chain_loop v5 (combine (rev cp) ips) h5) as [v6 nv6].
  destruct (chain_loop db5 (combine (rev cp) ips) h5) as [db6 nv6'].
  cbn [fst snd] in E6, R6. subst nv6'.
  cbn [get_branch_meta verkle_db_ops memory_db_ops]. rewrite (rd_meta _ _ (rel_view _ _ _ _ _ R6)).
  destruct (mem_get_branch_meta db6 pn) as [[tp|]|]; cbn [rbind unwrap Rel1]; try exact I.
  set (nm := mkBranchMeta _ _). exact (rel_branch v6 db6 _ dk pn nm sd Hsd R6).
Qed.

Lemma sim_falls l : forall v db pb dk,
  Forall (fun ins => match ins with InternalNodeFallThrough b _ _ _ d => wok (RBranch b) d | _ => False end) l ->
  Rel v db pb dk -> Rel1 pb dk (process_reversed v l) (process_reversed db l).
Proof.
  induction l as [|ins l IH]; intros v db pb dk HF HR; [exact HR|].
  inversion HF as [|? ? H1 H2]; subst. destruct ins; try contradiction. cbn [process_reversed].
  pose proof (sim_fall v db pb dk branch_id branch_child_index child old_child_value depth H1 HR) as S.
  destruct (process_fall_through v branch_id branch_child_index child old_child_value depth),
           (process_fall_through db branch_id branch_child_index child old_child_value depth);
    cbn [Rel1] in S; try contradiction; cbn [rbind Rel1]; [|exact I].
  apply IH; assumption.
Qed.

End Writes.
End Sim.

(** ** The instructions produced on a canonical database *)
Section Shape.
Context {A : Alg} {L : AlgLaws A} {P : Par A} {PL : ParLaws P}.
Opaque vcommit gsum subtree_hash.

Lemma instr_shape db m S k v : Canon db m S -> is_key k ->
  let s := firstn 31 k in
  exists ins, create_insert_instructions db k v = Ok ins /\
   ((ins = [] /\ m k = Some v) \/
    (exists e, (e < 31)%nat /\ internal S (firstn e s) = true /\ internal S (firstn (Datatypes.S e) s) = false /\ m k <> Some v /\
       ins = map (fall m S k) (seq 0 e) ++ [UpdateLeaf k v (Z.of_nat e + 1) (firstn e s) (nth e s 0)]) \/
    (exists e n t, (e < n < 31)%nat /\ internal S (firstn e s) = true /\ internal S (firstn (Datatypes.S e) s) = false /\ In t S /\ t <> s /\
       firstn n t = firstn n s /\ m k = None /\
       ins = map (fall m S k) (seq 0 e) ++
         [ChainInsert (Z.of_nat e + 1) (skipn e (firstn n s)) (firstn e s) (nth e s 0) (nth n t 0) k v (nth n s 0)])).
Proof.
  intros C Hk s. pose proof C as [CW CK CL CS CB].
  assert (Ls : length s = 31%nat) by (unfold s; rewrite firstn_length; destruct Hk; lia).
  destruct (internal_depth S s CW Ls) as (e & He & I0 & I1).
  unfold create_insert_instructions.
  pose proof (walk m S k v Hk db e) as HW. fold s in HW. specialize (HW C He I0 e 0%nat []).
  cbn [skipn firstn app] in HW. rewrite HW by lia. clear HW.
  assert (Lk : length k = 32%nat) by apply Hk.
  rewrite (skipn_nth_cons 0 e k) by lia. cbn [create_insert_loop].
  assert (En : nth e k 0 = nth e s 0) by (unfold s; rewrite nth_firstn by lia; reflexivity).
  cbn [get_branch_child memory_db_ops rbind]. unfold mem_get_branch_child.
  rewrite En, <- (firstn_S_nth 0 e s), CB by lia.
  unfold cbranch. rewrite I1, removelast_firstn_S, I0 by lia. fold s.
  destruct (internal_false_under S _ I1) as [U|[t U]]; rewrite U.
  - eexists. split; [reflexivity|]. right; left. exists e. split; [exact He|]. split; [exact I0|]. split; [exact I1|]. split; [|reflexivity].
    intros Hv. destruct (CK k v Hv) as [_ Hin]. fold s in Hin.
    assert (X : In s (under S (firstn (Datatypes.S e) s))) by (apply under_In; split; [exact Hin|apply has_prefix_firstn]).
    rewrite U in X. destruct X.
  - assert (X : In t S /\ has_prefix (firstn (Datatypes.S e) s) t = true)
      by (apply under_In; rewrite U; left; reflexivity).
    destruct X as [Tin Tp]. pose proof (wfS_len S t CW Tin) as Lt.
    destruct (path_difference_spec t s ltac:(lia)) as [[Ets E]|(n & Hn & Hpre & Hdiff & E)]; rewrite E.
    + subst t. rewrite Ls. cbn [Nat.eqb get_leaf memory_db_ops rbind]. unfold mem_get_leaf. rewrite CL.
      destruct (m k) as [w|] eqn:Em; cbn [assertb rbind].
      * destruct (beqb_spec w v) as [->|Hw]; cbn [andb rbind]; (eexists; split; [reflexivity|]).
        -- left. auto.
        -- right; left. exists e. repeat split; auto. congruence.
      * rewrite andb_false_r. eexists; split; [reflexivity|]. right; left. exists e. repeat split; auto. congruence.
    + assert (Hen : (e < n)%nat).
      { destruct (Nat.le_gt_cases n e) as [H|H]; [|exact H]. exfalso. apply Hdiff.
        apply has_prefix_eq in Tp. rewrite firstn_length, Ls, Nat.min_l in Tp by lia.
        rewrite <- (nth_firstn 0 n (Datatypes.S e) t), <- (nth_firstn 0 n (Datatypes.S e) s), Tp by lia. reflexivity. }
      assert (Lsh : length (firstn n s) = n) by (rewrite firstn_length; lia).
      rewrite Lsh. destruct (Nat.eqb_spec n 31); [lia|].
      unfold slice_from. rewrite Lsh, (proj2 (Nat.leb_le e n)) by lia. cbn [rbind unwrap].
      eexists; split; [reflexivity|]. right; right. exists e, n, t. repeat split; auto; try lia.
      * intros E0. apply Hdiff. rewrite E0. reflexivity.
      * destruct (m k) as [w|] eqn:Em; [|reflexivity]. exfalso. destruct (CK k w Em) as [_ Hin]. fold s in Hin.
        assert (X : In s (under S (firstn (Datatypes.S e) s))) by (apply under_In; split; [exact Hin|apply has_prefix_firstn]).
        rewrite U in X. destruct X as [X|[]]. apply Hdiff. rewrite X. reflexivity.
Qed.

Context {C : Codec A}.

(** The records under the prefixes of four bytes in [cold]. *)
Definition coldR (cold : bytes -> Prop) (r : Rec) : Prop :=
  match r with
  | RLeaf k => cold (firstn 4 k)
  | RStem s => cold (firstn 4 s)
  | RBranch p => (4 <= length p)%nat /\ cold (firstn 4 p)
  end.

Lemma snoc_nth (s : bytes) e : (e < length s)%nat -> firstn e s ++ [nth e s 0] = firstn (Datatypes.S e) s.
Proof. intros H. symmetry. apply firstn_S_nth. exact H. Qed.

Lemma path_join (s : bytes) e n j : (e + j <= n)%nat -> firstn e s ++ firstn j (skipn e (firstn n s)) = firstn (e + j) s.
Proof.
  intros H. rewrite <- (firstn_skipn e (firstn (e + j) s)). f_equal.
  - rewrite firstn_firstn. f_equal. lia.
  - rewrite !skipn_firstn_comm, firstn_firstn. f_equal. lia.
Qed.

Lemma sim_update_run R v db m S pb dk k x e db' : Rel R v db pb dk -> is_key k -> (e < 31)%nat ->
  pb k = leaf_table db k -> leaf_table db k <> Some x ->
  wok R (RLeaf k) (Z.of_nat e + 1) -> wok R (RStem (firstn 31 k)) (Z.of_nat e + 1) ->
  (forall j, (j <= e)%nat -> wok R (RBranch (firstn j (firstn 31 k))) (Z.of_nat j + 1)) ->
  wok R (RBranch (firstn (Datatypes.S e) (firstn 31 k))) (Z.of_nat e + 1) ->
  let ins := map (fall m S k) (seq 0 e) ++
    [UpdateLeaf k x (Z.of_nat e + 1) (firstn e (firstn 31 k)) (nth e (firstn 31 k) 0)] in
  process_instructions db ins = Ok db' ->
  exists v', process_instructions v ins = Ok v' /\ Rel R v' db' (upd pb k x) dk.
Proof.
  intros HR Hk He Hpk Hv Hl Hs Hf Hb ins Edb. subst ins.
  assert (Ls : length (firstn 31 k) = 31%nat) by (rewrite firstn_length; destruct Hk; lia).
  assert (Hfalls : Forall (fun i => match i with InternalNodeFallThrough b _ _ _ d => wok R (RBranch b) d | _ => False end)
      (rev (map (fall m S k) (seq 0 e)))).
  { apply Forall_rev, Forall_forall. intros i Hi. apply in_map_iff in Hi as (j & <- & Hj).
    apply in_seq in Hj. unfold fall. apply (Hf j). lia. }
  unfold process_instructions in Edb |- *. rewrite rev_app_distr in Edb |- *. cbn [rev app process_reversed] in Edb |- *.
  destruct (sim_update_leaf R v db pb dk k x _ Hl HR Hpk) as [El R1].
  pose proof (update_leaf_key v k x (Z.of_nat e + 1)) as Hlu.
  destruct (update_leaf_table v k x (Z.of_nat e + 1)) as [v1 lu1].
  destruct (update_leaf_table db k x (Z.of_nat e + 1)) as [db1 lu1'] eqn:Eu. cbn [fst snd] in El, R1, Hlu. subst lu1'.
  destruct lu1 as [lu|].
  - assert (Hs' : wok R (RStem (firstn 31 (snd lu))) (Z.of_nat e + 1)) by (rewrite (Hlu _ eq_refl); exact Hs).
    pose proof (sim_update_stem R v1 db1 _ dk lu _ Hs' R1) as S2.
    destruct (update_stem_table v1 lu (Z.of_nat e + 1)) as [[v2 su2]|],
             (update_stem_table db1 lu (Z.of_nat e + 1)) as [[db2 su2']|];
      cbn [RelO] in S2; try contradiction; cbn [rbind] in Edb |- *; [|discriminate Edb].
    destruct S2 as [<- R2].
    rewrite <- snoc_nth in Hb by lia.
    pose proof (sim_update_branch R v2 db2 _ dk su2 (firstn e (firstn 31 k)) (nth e (firstn 31 k) 0) _ (Hf e (le_n e)) Hb R2) as S3.
    destruct (update_branch_table v2 su2 (firstn e (firstn 31 k)) (nth e (firstn 31 k) 0) (Z.of_nat e + 1)) as [[v3 h3]|],
             (update_branch_table db2 su2 (firstn e (firstn 31 k)) (nth e (firstn 31 k) 0) (Z.of_nat e + 1)) as [[db3 h3']|];
      cbn [RelO] in S3; try contradiction; cbn [rbind] in Edb |- *; [|discriminate Edb].
    destruct S3 as [_ R3].
    pose proof (sim_falls R _ v3 db3 _ dk Hfalls R3) as S4. rewrite Edb in S4.
    destruct (process_reversed v3 (rev (map (fall m S k) (seq 0 e)))) as [v4|]; cbn [Rel1] in S4; [|contradiction].
    exists v4. auto.
  - exfalso. unfold update_leaf_table in Eu. cbn [insert_leaf memory_db_ops mem_insert_leaf] in Eu.
    destruct (leaf_table db k) as [w|]; [|discriminate]. destruct (beqb_spec w x); [congruence|discriminate].
Qed.

Lemma sim_chain_run R v db m S pb dk k x e n oi db' : Rel R v db pb dk -> is_key k -> (e < n < 31)%nat ->
  pb k = leaf_table db k ->
  wok R (RLeaf k) (Z.of_nat n) -> wok R (RStem (firstn 31 k)) (Z.of_nat n) ->
  (forall j, (j <= e)%nat -> wok R (RBranch (firstn j (firstn 31 k))) (Z.of_nat j + 1)) ->
  (forall j, (e < j <= n)%nat -> wok R (RBranch (firstn j (firstn 31 k))) (Z.of_nat j)) ->
  wok R (RBranch (firstn n (firstn 31 k) ++ [nth n (firstn 31 k) 0])) (Z.of_nat n) ->
  wok R (RBranch (firstn n (firstn 31 k) ++ [oi])) (Z.of_nat n) ->
  let s := firstn 31 k in
  let ins := map (fall m S k) (seq 0 e) ++
    [ChainInsert (Z.of_nat e + 1) (skipn e (firstn n s)) (firstn e s) (nth e s 0) oi k x (nth n s 0)] in
  process_instructions db ins = Ok db' ->
  exists v', process_instructions v ins = Ok v' /\ Rel R v' db' (upd pb k x) dk.
Proof.
  intros HR Hk Hen Hpk Hl Hs Hf Hp Hni Hoi s ins Edb. subst ins. fold s in Hs, Hf, Hp, Hni, Hoi.
  assert (Ls : length s = 31%nat) by (unfold s; rewrite firstn_length; destruct Hk; lia).
  assert (Hfalls : Forall (fun i => match i with InternalNodeFallThrough b _ _ _ d => wok R (RBranch b) d | _ => False end)
      (rev (map (fall m S k) (seq 0 e)))).
  { apply Forall_rev, Forall_forall. intros i Hi. apply in_map_iff in Hi as (j & <- & Hj).
    apply in_seq in Hj. unfold fall. apply (Hf j). lia. }
  unfold process_instructions in Edb |- *. rewrite rev_app_distr in Edb |- *. cbn [rev app process_reversed] in Edb |- *.
  assert (Lc : length (skipn e (firstn n s)) = (n - e)%nat) by (rewrite skipn_length, firstn_length; lia).
  assert (Ej : firstn e s ++ skipn e (firstn n s) = firstn n s).
  { pose proof (path_join s e n (n - e) ltac:(lia)) as X. rewrite <- Lc, firstn_all, Lc in X. rewrite X. f_equal. lia. }
  pose proof (sim_chain R v db pb dk (Z.of_nat e + 1) (skipn e (firstn n s)) (firstn e s) (nth e s 0) oi k x (nth n s 0)) as S1.
  cbv zeta in S1. rewrite Ej in S1.
  assert (Ln : length (firstn n s) = n) by (rewrite firstn_length; lia). rewrite Ln in S1.
  specialize (S1 (Hf e (le_n e))).
  assert (X : forall j, (j < length (skipn e (firstn n s)))%nat ->
     wok R (RBranch (firstn e s ++ firstn (Datatypes.S j) (skipn e (firstn n s))))
           (Z.of_nat (length (firstn e s ++ firstn (Datatypes.S j) (skipn e (firstn n s)))))).
  { intros j Hj. rewrite Lc in Hj. rewrite path_join by lia.
    assert (Y : length (firstn (e + Datatypes.S j) s) = (e + Datatypes.S j)%nat) by (rewrite firstn_length; lia).
    rewrite Y. apply Hp. lia. }
  specialize (S1 X Hl Hs Hni Hoi HR Hpk). clear X.
  destruct (process_chain_insert v _ _ _ _ _ k x _) as [v1|], (process_chain_insert db _ _ _ _ _ k x _) as [db1|];
    cbn [Rel1] in S1; try contradiction; cbn [rbind] in Edb |- *; [|discriminate Edb].
  pose proof (sim_falls R _ v1 db1 _ dk Hfalls S1) as S4. rewrite Edb in S4.
  destruct (process_reversed v1 (rev (map (fall m S k) (seq 0 e)))) as [v4|]; cbn [Rel1] in S4; [|contradiction].
  exists v4. auto.
Qed.

Lemma uncached_of_read v db r : Reads v db ->
  match r with
  | RLeaf k => leaf_table db k = None
  | RStem s => stem_table db s = None
  | RBranch p => p <> [] /\ branch_table db p = None
  end -> uncached v r.
Proof.
  intros [R1 R2 _ R4] H. destruct r as [k|s|p]; cbn [uncached].
  - specialize (R1 k). rewrite H in R1. unfold vd_get_leaf, mem_get_leaf in R1. destruct (leaf_table (vd_cache v) k); [discriminate R1|reflexivity].
  - specialize (R2 s). rewrite H in R2. unfold vd_get_stem_meta, mem_get_stem_meta in R2.
    destruct (stem_table (vd_cache v) s); [discriminate R2|reflexivity].
  - destruct H as [Hp H]. destruct (@exists_last _ p Hp) as (q & i & ->).
    specialize (R4 q i). rewrite H in R4. unfold vd_get_branch_child, mem_get_branch_child in R4.
    destruct (branch_table (vd_cache v) (q ++ [i])); [discriminate R4|reflexivity].
Qed.

Lemma sim_insert cold v db m S pb dk k x : Rel (coldR cold) v db pb dk -> Canon db m S -> is_key k ->
  (forall q, cold q -> internal S q = true) ->
  (m k = Some x \/ (internal S (firstn 4 k) = true -> cold (firstn 4 k))) ->
  (m k = None \/ m k = Some x \/ pb k = m k) ->
  (forall k0 w, pb k0 = Some w -> m k0 = Some w) ->
  exists v' db', insert_single v (k, x) = Ok v' /\ insert_single db (k, x) = Ok db' /\
    Canon db' (upd m k x) (add_stem S (firstn 31 k)) /\
    exists pb', Rel (coldR cold) v' db' pb' dk /\
      ((m k = Some x /\ pb' = pb) \/ (m k <> Some x /\ pb' = upd pb k x)).
Proof.
  intros HR Cn Hk Hcold Hset Hold Hpb.
  destruct (insert_ok db m S k x Cn Hk) as (db' & Edb & Cn').
  cut (exists v' pb', insert_single v (k, x) = Ok v' /\ Rel (coldR cold) v' db' pb' dk /\
      ((m k = Some x /\ pb' = pb) \/ (m k <> Some x /\ pb' = upd pb k x))).
  { intros (v' & pb' & E & R' & H). exists v', db'. eauto 10. }
  clear Cn'. pose proof Cn as [CW CK CL CS CB].
  assert (Ls : length (firstn 31 k) = 31%nat) by (rewrite firstn_length; destruct Hk; lia).
  assert (E4 : firstn 4 k = firstn 4 (firstn 31 k)) by (rewrite firstn_firstn; reflexivity).
  destruct (instr_shape db m S k x Cn Hk) as (ins & Eins & Hshape). cbv zeta in Hshape.
  assert (Einsv : create_insert_instructions v k x = Ok ins).
  { unfold create_insert_instructions. rewrite (sim_create_loop v db) by apply (rel_view _ _ _ _ _ HR). exact Eins. }
  unfold insert_single in Edb |- *. rewrite Eins in Edb. rewrite Einsv. cbn [rbind] in Edb |- *.
  set (s := firstn 31 k) in *.
  assert (Hsh : forall d, (d <= 4) -> shallow_d d) by (intros d Hd; unfold shallow_d, CACHE_DEPTH; now apply Z.leb_le).
  assert (Hdp : forall d, (4 < d) -> ~ shallow_d d) by (intros d Hd X; unfold shallow_d, CACHE_DEPTH in X; apply Z.leb_le in X; lia).
  assert (Hpre4 : forall j, (4 <= j)%nat -> firstn 4 (firstn j s) = firstn 4 s)
    by (intros j Hj; rewrite firstn_firstn; f_equal; lia).
  assert (Hlen : forall j, (j <= 31)%nat -> length (firstn j s) = j) by (intros j Hj; rewrite firstn_length; lia).
  destruct Hshape as [[-> Hv]|Hshape].
  { exists v, pb. unfold process_instructions in Edb |- *. cbn [rev process_reversed] in Edb |- *. injection Edb as <-. auto. }
  assert (Hkx : m k <> Some x).
  { destruct Hshape as [(e & He & Hi & Hi' & Hv & _)|(e & n & t & Hen & Hi & Hi' & Tin & Tne & Hpre & Hv & _)]; [exact Hv|congruence]. }
  assert (Hset' : internal S (firstn 4 k) = true -> cold (firstn 4 k)) by (destruct Hset as [X|X]; [contradiction|exact X]). clear Hset.
  assert (Hpk : pb k = leaf_table db k).
  { rewrite CL. destruct Hold as [H|[H|H]]; [|contradiction|exact H].
    destruct (pb k) as [w|] eqn:Ew; [|symmetry; exact H]. symmetry. apply Hpb. exact Ew. }
  (* below the deepest inner node on the way to the stem there is no inner node *)
  assert (Hbelow : forall e, (e < 31)%nat -> internal S (firstn (Datatypes.S e) s) = false ->
    forall p, (Datatypes.S e <= length p)%nat -> firstn (Datatypes.S e) p = firstn (Datatypes.S e) s -> internal S p = false).
  { intros e He Hi' p Lp Ep. destruct (internal S p) eqn:Ei; [|reflexivity]. rewrite <- Hi', <- Ep. symmetry.
    apply (internal_down S p (Datatypes.S e) (length p)); [lia|lia|]. rewrite firstn_all. exact Ei. }
  destruct (internal S (firstn 4 k)) eqn:I4.
  - (* under a cold prefix everything below depth four is deep *)
    specialize (Hset' eq_refl).
    assert (Hdeep : forall e, (e < 31)%nat -> internal S (firstn (Datatypes.S e) s) = false -> (4 <= e)%nat).
    { intros e He Hi'. destruct (Nat.le_gt_cases 4 e) as [X|X]; [exact X|]. exfalso.
      assert (Y : internal S (firstn (Datatypes.S e) s) = true); [|congruence].
      apply (internal_down S s _ 4); [lia|lia|]. rewrite <- E4. exact I4. }
    assert (Cb : forall p, (4 <= length p)%nat -> firstn 4 p = firstn 4 s -> coldR cold (RBranch p)).
    { intros p Lp Ep. split; [exact Lp|]. rewrite Ep, <- E4. exact Hset'. }
    assert (Hj1 : forall j, (j < 31)%nat -> wok (coldR cold) (RBranch (firstn j s)) (Z.of_nat j + 1)).
    { intros j Hj. destruct (Nat.le_gt_cases 4 j) as [X|X].
      - right. split; [apply Hdp; lia|]. apply Cb; [rewrite Hlen; lia|apply Hpre4; exact X].
      - left. split; [apply Hsh; lia|]. cbn [coldR]. rewrite Hlen by lia. lia. }
    destruct Hshape as [(e & He & Hi & Hi' & Hv & ->)|(e & n & t & Hen & Hi & Hi' & Tin & Tne & Hpre & Hv & ->)].
    + specialize (Hdeep e He Hi').
      destruct (sim_update_run (coldR cold) v db m S pb dk k x e db' HR Hk He Hpk) as (v' & E' & R'); try exact Edb.
      * rewrite CL. exact Hv.
      * right. split; [apply Hdp; lia|exact Hset'].
      * right. split; [apply Hdp; lia|]. cbn [coldR]. fold s. rewrite <- E4. exact Hset'.
      * intros j Hj. apply Hj1. lia.
      * right. split; [apply Hdp; lia|]. fold s. apply Cb; [rewrite Hlen; lia|apply Hpre4; lia].
      * exists v', (upd pb k x). auto.
    + specialize (Hdeep e ltac:(lia) Hi').
      destruct (sim_chain_run (coldR cold) v db m S pb dk k x e n (nth n t 0) db' HR Hk Hen Hpk) as (v' & E' & R'); try exact Edb.
      * right. split; [apply Hdp; lia|exact Hset'].
      * right. split; [apply Hdp; lia|]. cbn [coldR]. fold s. rewrite <- E4. exact Hset'.
      * intros j Hj. apply Hj1. lia.
      * intros j Hj. right. split; [apply Hdp; lia|]. fold s. apply Cb; [rewrite Hlen; lia|apply Hpre4; lia].
      * right. split; [apply Hdp; lia|]. fold s. apply Cb; [rewrite app_length, Hlen; lia|].
        rewrite firstn_app, Hlen by lia. replace (4 - n)%nat with 0%nat by lia. cbn [firstn]. rewrite app_nil_r. apply Hpre4; lia.
      * right. split; [apply Hdp; lia|]. fold s. apply Cb; [rewrite app_length, Hlen; lia|].
        rewrite firstn_app, Hlen by lia. replace (4 - n)%nat with 0%nat by lia. cbn [firstn]. rewrite app_nil_r. apply Hpre4; lia.
      * exists v', (upd pb k x). auto.
  - (* elsewhere writes are shallow or new *)
    clear Hset'. rewrite E4 in I4.
    assert (Hshal : forall e, (e < 31)%nat -> internal S (firstn e s) = true -> (e <= 3)%nat).
    { intros e He Hi. destruct (Nat.le_gt_cases e 3) as [X|X]; [exact X|]. exfalso.
      assert (Y : internal S (firstn 4 s) = true); [|congruence]. apply (internal_down S s 4 e); [lia|lia|exact Hi]. }
    assert (Hnc : ~ cold (firstn 4 s)) by (intro X; apply Hcold in X; congruence).
    assert (Hj1 : forall R, (forall p, (length p < 4)%nat -> ~ R (RBranch p)) ->
      forall j, (j < 4)%nat -> wok R (RBranch (firstn j s)) (Z.of_nat j + 1)).
    { intros R HRn j Hj. left. split; [apply Hsh; lia|]. apply HRn. rewrite Hlen; lia. }
    assert (Hc4 : forall p, (length p < 4)%nat -> ~ coldR cold (RBranch p)) by (intros p Lp [X _]; lia).
    destruct Hshape as [(e & He & Hi & Hi' & Hv & ->)|(e & n & t & Hen & Hi & Hi' & Tin & Tne & Hpre & Hv & ->)].
    + specialize (Hshal e He Hi).
      destruct (sim_update_run (coldR cold) v db m S pb dk k x e db' HR Hk He Hpk) as (v' & E' & R'); try exact Edb.
      * rewrite CL. exact Hv.
      * left. split; [apply Hsh; lia|]. cbn [coldR]. rewrite E4. exact Hnc.
      * left. split; [apply Hsh; lia|exact Hnc].
      * intros j Hj. apply Hj1; [exact Hc4|lia].
      * left. split; [apply Hsh; lia|]. fold s. intros [X Y]. rewrite Hlen in X by lia. rewrite Hpre4 in Y by lia. contradiction.
      * exists v', (upd pb k x). auto.
    + specialize (Hshal e ltac:(lia) Hi).
      assert (Hncp : forall p, (4 <= length p)%nat -> firstn (Datatypes.S e) p = firstn (Datatypes.S e) s -> ~ cold (firstn 4 p)).
      { intros p Lp Ep X. apply Hcold in X. rewrite (Hbelow e ltac:(lia) Hi' (firstn 4 p)) in X; [discriminate|rewrite firstn_length; lia|].
        rewrite firstn_firstn, Nat.min_l by lia. exact Ep. }
      assert (Hext : forall i, firstn (Datatypes.S e) (firstn n s ++ [i]) = firstn (Datatypes.S e) s).
      { intros i. rewrite firstn_app, Hlen by lia. replace (Datatypes.S e - n)%nat with 0%nat by lia. cbn [firstn].
        rewrite app_nil_r. change (firstn (Datatypes.S e) (firstn n s) = firstn (Datatypes.S e) s). rewrite firstn_firstn. f_equal. lia. }
      destruct (Nat.le_gt_cases n 4) as [Hn|Hn].
      * destruct (sim_chain_run (coldR cold) v db m S pb dk k x e n (nth n t 0) db' HR Hk Hen Hpk) as (v' & E' & R'); try exact Edb.
        -- left. split; [apply Hsh; lia|]. cbn [coldR]. rewrite E4. exact Hnc.
        -- left. split; [apply Hsh; lia|exact Hnc].
        -- intros j Hj. apply Hj1; [exact Hc4|lia].
        -- intros j Hj. left. split; [apply Hsh; lia|]. fold s. intros [X Y]. rewrite Hlen in X by lia. rewrite Hpre4 in Y by lia. contradiction.
        -- left. split; [apply Hsh; lia|]. fold s. intros [X Y]. revert Y. apply Hncp; [exact X|apply Hext].
        -- left. split; [apply Hsh; lia|]. fold s. intros [X Y]. revert Y. apply Hncp; [exact X|apply Hext].
        -- exists v', (upd pb k x). auto.
      * set (R := fun r => coldR cold r \/ match r with RLeaf k0 => k0 = k | RStem s0 => s0 = s
                    | RBranch p => (5 <= length p)%nat /\ firstn 5 p = firstn 5 s end).
        assert (Hs5 : forall p, (5 <= length p)%nat -> firstn 5 p = firstn 5 s ->
           firstn (Datatypes.S e) p = firstn (Datatypes.S e) s).
        { intros p Lp Ep. apply (f_equal (firstn (Datatypes.S e))) in Ep. rewrite !firstn_firstn, Nat.min_l in Ep by lia. exact Ep. }
        assert (HR' : Rel R v db pb dk).
        { apply (Rel_clear _ _ _ _ _ _ HR). intros r [X|X]; [exact (rel_clear _ _ _ _ _ HR r X)|].
          apply (uncached_of_read v db r (rel_view _ _ _ _ _ HR)). destruct r as [k0|s0|p].
          - subst k0. rewrite CL. exact Hv.
          - subst s0. rewrite CS. destruct (in_dec bytes_dec s S) as [Hin|Hin]; [|reflexivity]. exfalso.
            apply internal_false_under in Hi' as [U|[u U]].
            + assert (X : In s (under S (firstn (Datatypes.S e) s))) by (apply under_In; split; [exact Hin|apply has_prefix_firstn]).
              rewrite U in X. destruct X.
            + assert (X : In s (under S (firstn (Datatypes.S e) s))) by (apply under_In; split; [exact Hin|apply has_prefix_firstn]).
              assert (Y : In t (under S (firstn (Datatypes.S e) s))).
              { apply under_In. split; [exact Tin|].
                replace (firstn (Datatypes.S e) s) with (firstn (Datatypes.S e) t); [apply has_prefix_firstn|].
                apply (f_equal (firstn (Datatypes.S e))) in Hpre. rewrite !firstn_firstn, Nat.min_l in Hpre by lia. congruence. }
              rewrite U in X, Y. destruct X as [X|[]], Y as [Y|[]]. apply Tne. congruence.
          - destruct X as [Lp Ep]. split; [destruct p; [cbn in Lp; lia|discriminate]|]. rewrite CB.
            apply cbranch_below.
            + apply (Hbelow e ltac:(lia) Hi' p); [lia|]. apply Hs5; assumption.
            + rewrite removelast_firstn_len. apply (Hbelow e ltac:(lia) Hi'); [rewrite firstn_length; lia|].
              rewrite firstn_firstn, Nat.min_l by lia. apply Hs5; assumption. }
        assert (HR4 : forall p, (length p < 4)%nat -> ~ R (RBranch p)) by (intros p Lp [[X _]|[X _]]; lia).
        assert (Hrb : forall p, (5 <= length p)%nat -> firstn 5 p = firstn 5 s -> R (RBranch p)) by (intros p X Y; right; split; assumption).
        destruct (sim_chain_run R v db m S pb dk k x e n (nth n t 0) db' HR' Hk Hen Hpk) as (v' & E' & R'); try exact Edb.
        -- right. split; [apply Hdp; lia|]. right. reflexivity.
        -- right. split; [apply Hdp; lia|]. right. reflexivity.
        -- intros j Hj. apply Hj1; [exact HR4|lia].
        -- intros j Hj. fold s. destruct (Nat.le_gt_cases j 4) as [Hj4|Hj4].
           ++ left. split; [apply Hsh; lia|]. intros [[X Y]|[X Y]]; rewrite Hlen in X by lia; [|lia]. rewrite Hpre4 in Y by lia. contradiction.
           ++ right. split; [apply Hdp; lia|]. apply Hrb; [rewrite Hlen; lia|]. rewrite firstn_firstn. f_equal. lia.
        -- fold s. right. split; [apply Hdp; lia|]. apply Hrb; [rewrite app_length, Hlen; lia|].
           rewrite firstn_app, Hlen by lia. replace (5 - n)%nat with 0%nat by lia. cbn [firstn]. rewrite app_nil_r.
           change (firstn 5 (firstn n s) = firstn 5 s). rewrite firstn_firstn. f_equal. lia.
        -- fold s. right. split; [apply Hdp; lia|]. apply Hrb; [rewrite app_length, Hlen; lia|].
           rewrite firstn_app, Hlen by lia. replace (5 - n)%nat with 0%nat by lia. cbn [firstn]. rewrite app_nil_r.
           change (firstn 5 (firstn n s) = firstn 5 s). rewrite firstn_firstn. f_equal. lia.
        -- exists v', (upd pb k x). split; [exact E'|]. split; [|auto].
           apply (Rel_clear _ _ _ _ _ _ R'). intros r X. apply (rel_clear _ _ _ _ _ R'). left. exact X.
Qed.

End Shape.

(** ** Whole operation sequences *)

Section Run.
Context {A : Alg} {L : AlgLaws A} {P : Par A} {PL : ParLaws P} {C : Codec A} {CL : CodecLaws C}.
Opaque vcommit gsum subtree_hash.

Lemma Reads_same v w db : same_reads v w -> Reads v db -> Reads w db.
Proof.
  intros (H1 & H2 & H3 & H4) [R1 R2 R3 R4]. constructor; intros.
  - rewrite <- H1. apply R1.
  - rewrite <- H2. apply R2.
  - rewrite <- H3. apply R3.
  - rewrite <- H4. apply R4.
Qed.
Lemma same_reads_sym v w : same_reads v w -> same_reads w v.
Proof. intros (H1 & H2 & H3 & H4). repeat split; intros; symmetry; auto. Qed.

Lemma batch_sub_leaf v db k w : Reads (nocache v) db -> leaf_table (vd_batch v) k = Some w -> leaf_table db k = Some w.
Proof.
  intros R E. pose proof (rd_leaf _ _ R k) as H. unfold vd_get_leaf, nocache in H. cbn [vd_cache vd_batch] in H.
  unfold mem_get_leaf in H. cbn [leaf_table memory_db_new] in H. unfold bempty in H. rewrite E in H. congruence.
Qed.
Lemma batch_sub_child v db p i c : Reads (nocache v) db -> branch_table (vd_batch v) (p ++ [i]) = Some c ->
  branch_table db (p ++ [i]) = Some c.
Proof.
  intros R E. pose proof (rd_child _ _ R p i) as H. unfold vd_get_branch_child, nocache in H. cbn [vd_cache vd_batch] in H.
  unfold mem_get_branch_child in H. cbn [branch_table memory_db_new] in H. unfold bempty in H. rewrite E in H. congruence.
Qed.

Lemma canon_child_len db m S p s : Canon db m S -> branch_table db p = Some (CStem s) -> length s = 31%nat.
Proof.
  intros [CW _ _ _ CB] E. rewrite CB in E. unfold cbranch in E.
  destruct (internal S p); [discriminate|]. destruct (under S p) as [|t [|]] eqn:U; try discriminate.
  destruct (internal S (removelast p)); [|discriminate]. injection E as <-.
  assert (X : In t (under S p)) by (rewrite U; left; reflexivity). apply under_In in X as [X _].
  exact (wfS_len S t CW X).
Qed.

Lemma rel_encodable v db h : Reads (nocache v) db -> HCanon db h ->
  (forall k w, final_map h k = Some w -> length w = 32%nat) -> encodable (vd_batch v).
Proof.
  intros R Cn Hv. apply encodable_of_laws.
  - intros k w E. apply (Hv k). rewrite <- (can_leaf _ _ _ Cn). eapply batch_sub_leaf; eauto.
  - intros p s E. destruct (@exists_last _ p) as (q & i & ->).
    + intros ->. pose proof (rd_meta _ _ R []) as H. unfold vd_get_branch_meta, nocache in H. cbn [vd_cache vd_batch] in H.
      unfold mem_get_branch_meta in H. cbn [branch_table memory_db_new] in H. unfold bempty in H. cbn [rbind] in H.
      rewrite E in H. cbn [rbind] in H. rewrite (can_branch _ _ _ Cn) in H. discriminate H.
    + apply (batch_sub_child v db q i _ R) in E. eapply canon_child_len; eauto.
Qed.

Lemma crowded_incl h h' q : incl h h' -> crowded h q -> crowded h' q.
Proof. intros H (k1 & v1 & k2 & v2 & H1 & H2 & X). exists k1, v1, k2, v2. auto. Qed.

Lemma four_prefix (k : bytes) : firstn 4 (firstn 31 k) = firstn 4 k.
Proof. rewrite firstn_firstn. reflexivity. Qed.

Lemma crowded_internal h q : crowded h q -> internal (stems_of h) q = true.
Proof.
  intros (k1 & v1 & k2 & v2 & H1 & H2 & Q1 & Q2 & Ne). apply orb_true_iff. right. apply Nat.leb_le.
  assert (X : forall k v, In (k, v) h -> firstn 4 k = q -> In (firstn 31 k) (under (stems_of h) q)).
  { intros k v Hi Q. apply under_In. split; [apply stems_of_In; exists (k, v); auto|].
    rewrite <- Q, <- four_prefix. apply has_prefix_firstn. }
  pose proof (NoDup_incl_length (l := [firstn 31 k1; firstn 31 k2]) (l' := under (stems_of h) q)) as Y.
  apply Y.
  - constructor; [intros [Z|[]]; congruence|constructor; [intros []|constructor]].
  - intros s [<-|[<-|[]]]; eauto.
Qed.

Lemma internal_crowded h q : length q = 4%nat -> internal (stems_of h) q = true -> crowded h q.
Proof.
  intros Lq Hi. apply internal_many in Hi; [|intros ->; discriminate].
  assert (ND : NoDup (under (stems_of h) q)) by (apply NoDup_filter, stems_of_NoDup).
  destruct (under (stems_of h) q) as [|s [|t l]] eqn:U; [cbn in Hi; lia|cbn in Hi; lia|].
  assert (X : forall u, In u (s :: t :: l) -> exists k v, In (k, v) h /\ firstn 4 k = q /\ firstn 31 k = u).
  { intros u Hu. rewrite <- U in Hu. apply under_In in Hu as [Hu Hq]. apply stems_of_In in Hu as ([k v] & Hin & <-).
    exists k, v. split; [exact Hin|]. split; [|reflexivity]. apply has_prefix_eq in Hq. rewrite Lq, four_prefix in Hq. symmetry. exact Hq. }
  destruct (X s (or_introl eq_refl)) as (k1 & v1 & H1 & Q1 & E1).
  destruct (X t (or_intror (or_introl eq_refl))) as (k2 & v2 & H2 & Q2 & E2).
  exists k1, v1, k2, v2. split; [exact H1|]. split; [exact H2|]. split; [exact Q1|]. split; [exact Q2|].
  rewrite E1, E2. intros X'. apply NoDup_cons_iff in ND as [ND _]. apply ND. rewrite X'. left; reflexivity.
Qed.

(** [base]: the contents of the disk at the last opening; [fl]: now on disk; [pe]: only in memory. *)
Record Inv (v : VerkleDb) (base fl pe : history) : Prop := {
  inv_rel : exists db pb, Rel (coldR (crowded base)) v db pb (vd_storage v) /\ HCanon db (fl ++ pe) /\
    (forall k w, pb k = Some w -> final_map (fl ++ pe) k = Some w) /\
    (forall k, final_map fl k = None -> pb k = final_map (fl ++ pe) k);
  inv_dur : (fl = [] /\ Reads (verkle_open (vd_storage v)) memory_db_new) \/
    (exists dd, Reads (verkle_open (vd_storage v)) dd /\ HCanon dd fl);
  inv_keep : forall k w, final_map fl k = Some w -> final_map (fl ++ pe) k = Some w;
  inv_base : incl base fl
}.

Lemma Reads_open_empty : Reads (verkle_open bempty) memory_db_new.
Proof. constructor; reflexivity. Qed.

Lemma Rel_open R d db : Reads (verkle_open d) db -> Rel R (verkle_open d) db bempty d.
Proof. intros H. constructor; [exact H|exact H|reflexivity|reflexivity|]. intros [k|s|p] _; reflexivity. Qed.

Lemma inv_open d fl :
  (fl = [] /\ Reads (verkle_open d) memory_db_new) \/ (exists dd, Reads (verkle_open d) dd /\ HCanon dd fl) ->
  exists v, trie_new (verkle_open d) = Ok v /\ Inv v fl fl [].
Proof.
  intros H. unfold trie_new, root_is_missing. cbn [get_branch_meta insert_branch verkle_db_ops].
  destruct H as [[-> R]|(dd & R & Cn)].
  - rewrite (rd_meta _ _ R). cbn [mem_get_branch_meta memory_db_new branch_table bempty rbind].
    assert (W : wok (coldR (crowded [])) (RBranch []) 0) by (left; split; [reflexivity|intros [X _]; cbn in X; lia]).
    pose proof (rel_branch _ _ _ _ _ [] branch_meta_zero 0 W (Rel_open _ d _ R)) as R1.
    eexists. split; [reflexivity|]. destruct hcanon_new as (db0 & E0 & C0).
    constructor.
    + exists db0, bempty. split; [|split; [exact C0|split; [intros k w X; discriminate X|reflexivity]]].
      cbn in E0. injection E0 as <-. exact R1.
    + left. split; [reflexivity|exact R].
    + intros k w X. discriminate X.
    + apply incl_refl.
  - rewrite (rd_meta _ _ R). unfold mem_get_branch_meta. rewrite (can_branch _ _ _ Cn). cbn [cbranch internal length Nat.eqb orb rbind].
    eexists. split; [reflexivity|]. constructor.
    + exists dd, bempty. rewrite app_nil_r. split; [apply Rel_open; exact R|]. split; [exact Cn|].
      split; [intros k w X; discriminate X|]. intros k E. rewrite E. reflexivity.
    + right. eauto.
    + intros k w. rewrite app_nil_r. auto.
    + apply incl_refl.
Qed.

Lemma inv_insert v base fl pe k x : Inv v base fl pe -> is_key k ->
  (final_map (fl ++ pe) k = Some x \/ (crowded (fl ++ pe) (firstn 4 k) -> crowded base (firstn 4 k))) ->
  (final_map fl k = None \/ final_map fl k = Some x) ->
  exists v', insert_single v (k, x) = Ok v' /\ Inv v' base fl (pe ++ [(k, x)]).
Proof.
  intros [(db & pb & R & Cn & I3 & I1) ID I2 IB] Hk Hst Hnr.
  assert (L4 : length (firstn 4 k) = 4%nat) by (rewrite firstn_length; destruct Hk; lia).
  destruct (sim_insert (crowded base) v db _ _ pb _ k x R Cn Hk) as (v' & db' & E & _ & Cn' & pb' & R' & Hpb').
  { intros q Hq. apply crowded_internal. apply (crowded_incl base); [|exact Hq]. apply incl_appl. exact IB. }
  { destruct Hst as [H|H]; [left; exact H|right]. intros Hi. apply H. apply internal_crowded; [exact L4|exact Hi]. }
  { destruct Hnr as [H|H]; [right; right; apply I1; exact H|right; left; apply I2; exact H]. }
  { exact I3. }
  exists v'. split; [exact E|]. pose proof (rel_disk _ _ _ _ _ R') as Ed.
  assert (Hf : forall k0, final_map (fl ++ pe ++ [(k, x)]) k0 = upd (final_map (fl ++ pe)) k x k0)
    by (intros k0; rewrite app_assoc; apply final_map_snoc).
  constructor.
  - exists db', pb'. rewrite Ed. split; [exact R'|]. split.
    + rewrite app_assoc. eapply Canon_ext; [|apply stems_of_snoc|exact Cn']. intros k0. symmetry. apply final_map_snoc.
    + split.
      * intros k0 w H. rewrite Hf. destruct Hpb' as [[Hm ->]|[Hm ->]].
        -- unfold upd. destruct (beqb_spec k k0) as [<-|]; [rewrite <- Hm|]; apply I3; exact H.
        -- unfold upd in *. destruct (beqb k k0); [exact H|apply I3; exact H].
      * intros k0 H. rewrite Hf. destruct Hpb' as [[Hm ->]|[Hm ->]].
        -- unfold upd. destruct (beqb_spec k k0) as [<-|]; [rewrite <- Hm|]; apply I1; exact H.
        -- unfold upd. destruct (beqb k k0); [reflexivity|apply I1; exact H].
  - rewrite Ed. exact ID.
  - intros k0 w H. rewrite Hf. unfold upd. destruct (beqb_spec k k0) as [<-|]; [|apply I2; exact H].
    destruct Hnr; congruence.
  - exact IB.
Qed.

Lemma inv_flush v base fl pe : Inv v base fl pe ->
  (forall k w, final_map (fl ++ pe) k = Some w -> length w = 32%nat) -> Inv (verkle_flush v) base (fl ++ pe) [].
Proof.
  intros [(db & pb & R & Cn & I3 & I1) ID I2 IB] Hv.
  assert (En : encodable (vd_batch v)) by (eapply rel_encodable; [apply (rel_nc _ _ _ _ _ R)|exact Cn|exact Hv]).
  assert (R1 : Reads (verkle_flush v) db).
  { eapply Reads_same; [apply same_reads_sym, flush_reads, En|apply R]. }
  assert (R2 : Reads (verkle_open (vd_storage (verkle_flush v))) db).
  { apply (Reads_same (nocache v)); [|apply R]. apply same_reads_sym. apply (flush_reads (nocache v)). exact En. }
  constructor.
  - exists db, bempty. split; [|rewrite app_nil_r; split; [exact Cn|split; [intros k w X; discriminate X|]]].
    + constructor; [exact R1|exact R2|reflexivity|reflexivity|].
      intros r Hr. pose proof (rel_clear _ _ _ _ _ R r Hr) as X. destruct r; exact X.
    + intros k E. rewrite E. reflexivity.
  - right. exists db. split; [exact R2|exact Cn].
  - intros k w. rewrite app_nil_r. auto.
  - apply incl_appl. exact IB.
Qed.

Lemma inv_run l : forall v base fl pe, Inv v base fl pe ->
  (forall k v, In (OInsert k v) l -> is_key k /\ length v = 32%nat) ->
  (forall k w, In (k, w) (fl ++ pe) -> length w = 32%nat) ->
  (forall l1 k x l2, l = l1 ++ OInsert k x :: l2 ->
     let h := fst (phases fl pe l1) ++ snd (phases fl pe l1) in
     final_map h k = Some x \/ (crowded h (firstn 4 k) -> crowded (last_open_from fl pe base l1) (firstn 4 k))) ->
  (forall l1 k x l2, l = l1 ++ OInsert k x :: l2 ->
     final_map (fst (phases fl pe l1)) k = None \/ final_map (fst (phases fl pe l1)) k = Some x) ->
  exists v', op_run v l = Ok v' /\ Inv v' (last_open_from fl pe base l) (fst (phases fl pe l)) (snd (phases fl pe l)).
Proof.
  induction l as [|o l IH]; intros v base fl pe HI Hwf Hlen Hst Hnr.
  - exists v. split; [reflexivity|exact HI].
  - destruct o as [k x| |]; cbn [op_run op_step phases last_open_from].
    + destruct (Hwf k x (or_introl eq_refl)) as [Hk Hx].
      destruct (inv_insert v base fl pe k x HI Hk) as (v1 & E1 & I1).
      * exact (Hst [] k x l eq_refl).
      * exact (Hnr [] k x l eq_refl).
      * rewrite E1. cbn [rbind]. apply IH; auto.
        -- intros k0 w0 H0. apply (Hwf k0 w0). right; exact H0.
        -- intros k0 w0 H0. rewrite app_assoc in H0. apply in_app_or in H0 as [H0|[H0|[]]]; [eapply Hlen; eauto|]. congruence.
        -- intros l1 k0 x0 l2 El. apply (Hst (OInsert k x :: l1) k0 x0 l2). rewrite El. reflexivity.
        -- intros l1 k0 x0 l2 El. apply (Hnr (OInsert k x :: l1) k0 x0 l2). rewrite El. reflexivity.
    + cbn [rbind]. apply IH.
      * apply inv_flush; [exact HI|]. intros k w H. apply final_map_In in H. eapply Hlen; eauto.
      * intros k0 w0 H0. apply (Hwf k0 w0). right; exact H0.
      * rewrite app_nil_r. exact Hlen.
      * intros l1 k0 x0 l2 El. apply (Hst (OFlush :: l1) k0 x0 l2). rewrite El. reflexivity.
      * intros l1 k0 x0 l2 El. apply (Hnr (OFlush :: l1) k0 x0 l2). rewrite El. reflexivity.
    + destruct (inv_open (vd_storage v) fl (inv_dur _ _ _ _ HI)) as (v1 & E1 & I1).
      rewrite E1. cbn [rbind]. apply IH.
      * exact I1.
      * intros k0 w0 H0. apply (Hwf k0 w0). right; exact H0.
      * rewrite app_nil_r. intros k w H. eapply Hlen. apply in_or_app. left. exact H.
      * intros l1 k0 x0 l2 El. apply (Hst (OReopen :: l1) k0 x0 l2). rewrite El. reflexivity.
      * intros l1 k0 x0 l2 El. apply (Hnr (OReopen :: l1) k0 x0 l2). rewrite El. reflexivity.
Qed.

Lemma phases_keys l : forall fl pe k w, In (k, w) (fst (phases fl pe l) ++ snd (phases fl pe l)) ->
  In (k, w) (fl ++ pe) \/ In (OInsert k w) l.
Proof.
  induction l as [|o l IH]; intros fl pe k w H; [left; exact H|].
  destruct o as [k0 x0| |]; cbn [phases] in H; apply IH in H; destruct H as [H|H];
    try (right; right; exact H).
  - rewrite app_assoc in H. apply in_app_or in H as [H|[H|[]]]; [left; exact H|]. right; left. congruence.
  - rewrite app_nil_r in H. left; exact H.
  - rewrite app_nil_r in H. left; apply in_or_app; left; exact H.
Qed.

Lemma contents_eq l : contents l = fst (phases [] [] l) ++ snd (phases [] [] l).
Proof. unfold contents. destruct (phases [] [] l); reflexivity. Qed.

Lemma disk_run_inv l : wf_ops l -> settled_ops l -> no_rewrite l ->
  exists v, run_disk l = Ok v /\ Inv v (last_open l) (fst (phases [] [] l)) (snd (phases [] [] l)).
Proof.
  intros Hwf Hst Hnr. unfold run_disk.
  destruct (inv_open bempty [] (or_introl (conj eq_refl Reads_open_empty))) as (v0 & E0 & I0).
  rewrite E0. cbn [rbind]. apply inv_run; auto.
  - intros k w [].
  - intros l1 k x l2 El. cbv zeta. rewrite <- contents_eq. exact (Hst l1 k x l2 El).
Qed.

(** Keys whose stems differ within four bytes never crowd. *)
Lemma spread_settled l : spread_ops l -> settled_ops l.
Proof.
  intros Hsp l1 k x l2 El. right. intros (k1 & v1 & k2 & v2 & H1 & H2 & Q1 & Q2 & Ne). exfalso. apply Ne.
  rewrite contents_eq in H1, H2. apply phases_keys in H1 as [[]|H1]. apply phases_keys in H2 as [[]|H2].
  apply (Hsp k1 v1 k2 v2); [| |congruence]; rewrite El; apply in_or_app; left; assumption.
Qed.

(** The last opening. *)
Lemma last_open_from_reopen l1 : forall l2 fl pe base,
  last_open_from fl pe base (l1 ++ OReopen :: l2) = last_open_from (fst (phases fl pe l1)) [] (fst (phases fl pe l1)) l2.
Proof. induction l1 as [|[k v| |] l1 IH]; intros; cbn [app last_open_from phases fst]; [reflexivity|apply IH..]. Qed.
Lemma last_open_from_none l : forall fl pe base, ~ In OReopen l -> last_open_from fl pe base l = base.
Proof.
  induction l as [|[k v| |] l IH]; intros fl pe base H; cbn [last_open_from]; [reflexivity| | |].
  - apply IH. intro X. apply H. right; exact X.
  - apply IH. intro X. apply H. right; exact X.
  - exfalso. apply H. left; reflexivity.
Qed.
Lemma last_open_last l1 l2 : ~ In OReopen l2 -> last_open (l1 ++ OReopen :: l2) = durable l1.
Proof. intros H. unfold last_open, durable. rewrite last_open_from_reopen. apply last_open_from_none. exact H. Qed.
Lemma last_open_never l : ~ In OReopen l -> last_open l = [].
Proof. apply last_open_from_none. Qed.

Lemma contents_wf l : wf_ops l -> wf_history (contents l).
Proof.
  intros Hwf. rewrite contents_eq. apply Forall_forall. intros [k w] Hin. apply phases_keys in Hin as [[]|Hin].
  apply (Hwf k w Hin).
Qed.

Lemma disk_like_mem l : wf_ops l -> settled_ops l -> no_rewrite l ->
  exists v db, run_disk l = Ok v /\ run_mem (contents l) = Ok db /\
    root_commitment v = root_commitment db /\ root_hash v = root_hash db /\
    (forall k, trie_get v k = trie_get db k).
Proof.
  intros Hwf Hsp Hnr. destruct (disk_run_inv l Hwf Hsp Hnr) as (v & E & [(db & pb & R & Cn & _) _ _ _]).
  rewrite <- contents_eq in Cn. destruct (run_mem_canon (contents l) (contents_wf l Hwf)) as (db' & E' & Cn').
  exists v, db'. split; [exact E|]. split; [exact E'|].
  destruct (canon_root _ _ _ Cn) as [A1 A2]. destruct (canon_root _ _ _ Cn') as [B1 B2]. rewrite B1, B2.
  pose proof (rel_view _ _ _ _ _ R) as V.
  split; [|split].
  - rewrite <- A1. unfold root_commitment. cbn [get_branch_meta verkle_db_ops memory_db_ops]. rewrite (rd_meta _ _ V). reflexivity.
  - rewrite <- A2. unfold root_hash. cbn [get_branch_meta verkle_db_ops memory_db_ops]. rewrite (rd_meta _ _ V). reflexivity.
  - intros k. unfold trie_get. cbn [get_leaf verkle_db_ops memory_db_ops]. rewrite (rd_leaf _ _ V). unfold mem_get_leaf.
    rewrite (can_leaf _ _ _ Cn), (can_leaf _ _ _ Cn'). reflexivity.
Qed.

Lemma disk_coherent l v : wf_ops l -> settled_ops l -> no_rewrite l -> run_disk l = Ok v ->
  same_reads v (nocache v) /\ encodable (vd_batch v).
Proof.
  intros Hwf Hsp Hnr Ev. destruct (disk_run_inv l Hwf Hsp Hnr) as (v0 & E & [(db & pb & R & Cn & _) _ _ _]).
  assert (v0 = v) by congruence. subst v0. rewrite <- contents_eq in Cn. split.
  - destruct (rel_view _ _ _ _ _ R) as [A1 A2 A3 A4], (rel_nc _ _ _ _ _ R) as [B1 B2 B3 B4].
    repeat split; intros; [rewrite A1, B1|rewrite A2, B2|rewrite A3, B3|rewrite A4, B4]; reflexivity.
  - eapply rel_encodable; [apply (rel_nc _ _ _ _ _ R)|exact Cn|].
    intros k w H. apply final_map_In in H. rewrite contents_eq in H. apply phases_keys in H as [[]|H].
    apply (Hwf k w H).
Qed.
End Run.
