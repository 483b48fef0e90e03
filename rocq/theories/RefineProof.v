(** Proof creation and the verifier's queries on a cover of the group ([Refine]). *)
From Verif Require Import Base BaseFacts Alg TrieModel BTree WireModel ProofModel Refine.
Local Open Scope Z_scope.

(** Maps with their values changed. *)
Definition mv {K V W} (f : V -> W) (m : list (K * V)) : list (K * W) := map (fun kv => (fst kv, f (snd kv))) m.
Lemma mv_get {K} {CK : Cmp K} {V W} (f : V -> W) k (m : list (K * V)) : map_get k (mv f m) = option_map f (map_get k m).
Proof. induction m as [|[x w] m IH]; cbn [mv map map_get fst snd]; [reflexivity|]. destruct (cmp k x); [reflexivity|exact IH|exact IH]. Qed.
Lemma mv_insert {K} {CK : Cmp K} {V W} (f : V -> W) k v (m : list (K * V)) : map_insert k (f v) (mv f m) = mv f (map_insert k v m).
Proof.
  induction m as [|[x w] m IH]; cbn [mv map map_insert fst snd]; [reflexivity|]. destruct (cmp k x); [reflexivity|reflexivity|].
  cbn [map fst snd]. f_equal. exact IH.
Qed.
Lemma mv_of {K} {CK : Cmp K} {V W} (f : V -> W) (l : list (K * V)) : map_of (mv f l) = mv f (map_of l).
Proof.
  unfold map_of. change (@nil (K * W)) with (mv f (@nil (K * V))). generalize (@nil (K * V)) as m.
  induction l as [|[k v] l IH]; intro m; [reflexivity|]. etransitivity; [|exact (IH (map_insert k v m))]. rewrite <- mv_insert. reflexivity.
Qed.
Lemma mv_combine {K V W} (f : V -> W) (a : list K) b : combine a (map f b) = mv f (combine a b).
Proof. revert b. induction a as [|x a IH]; intros [|y b]; try reflexivity. cbn [map combine]. rewrite IH. reflexivity. Qed.

Lemma rr_ok (weak : Prop) {X Y} (R : X -> Y -> Prop) x y : R x y -> rr weak R (Ok x) (Ok y).
Proof. auto. Qed.
Lemma rr_map (weak : Prop) {X Y} (f : X -> Y) (a : res X) (b : res Y) :
  rr weak (fun x y => y = f x) a b -> match a with Ok x => b = Ok (f x) | Panic => weak \/ b = Panic end.
Proof. destruct a, b; cbn; intros; subst; auto. contradiction. Qed.

Section Cover.
Context {A : Alg} {P : Par A}.
Context {H : Type} {hz : H} {ha : H -> H -> H} {ho : H -> H} {hm : F -> H -> H} {he : H -> H -> bool}.
Local Notation A1 := (cover A H hz ha ho hm he).
Context {P1 : Par A1}.
Variable phi : H -> G.
Hypothesis phi_eqb : forall x y, he x y = geqb (phi x) (phi y).
Hypothesis phi_hash : forall x, @hash A1 P1 x = hash (phi x).

Local Notation sm_map := (@sm_map A H hz ha ho hm he phi).
Local Notation bm_map := (@bm_map A H hz ha ho hm he phi).
Local Notation me_map := (@me_map A H hz ha ho hm he phi).
Local Notation ch_map := (@ch_map A H hz ha ho hm he phi).

Definition nd_map (n : bytes * Z * @Meta A1) : bytes * Z * @Meta A := (fst n, me_map (snd n)).
Definition kp_map (k : @KeyPath A1) : @KeyPath A := @mkKeyPath A (map nd_map (kp_nodes k)) (kp_depth k) (kp_state k).
Definition eo_map (e : @ExtOpeningData A1) : @ExtOpeningData A := @mkExtO A (eo_stem e) (me_map (eo_meta e)).
Definition op_map (o : @Openings A1) : @Openings A :=
  match o with OSuffix e s => @OSuffix A (eo_map e) s | OBranch m c => @OBranch A (me_map m) c | OExtension e => @OExtension A (eo_map e) end.
Definition od_map (o : @OpeningData A1) : @OpeningData A := @mkOD A (mv op_map (od_openings o)) (od_ext o) (od_depths o).
Definition pq_map (q : @ProverQuery A1) : @ProverQuery A := @mkPQ A (phi (pq_comm q)) (pq_poly q) (pq_point q) (pq_result q).
Definition vq_map (q : @VerifierQuery A1) : @VerifierQuery A := @mkVQ A (phi (vq_comm q)) (vq_point q) (vq_result q).
Definition uh_map (u : @UpdateHint A1) : @UpdateHint A := @mkUH A (uh_depths u) (mv phi (uh_comms u)) (uh_others u).

Lemma meta_eqb_map a b : @meta_eqb A1 a b = meta_eqb (me_map a) (me_map b).
Proof.
  destruct a as [[]|[]], b as [[]|[]]; cbn [meta_eqb me_map]; try reflexivity.
  - unfold stem_meta_eqb. cbn. now rewrite !phi_eqb.
  - cbn. now rewrite !phi_eqb.
Qed.
Lemma ext_eqb_map a b : @ext_opening_eqb A1 a b = ext_opening_eqb (eo_map a) (eo_map b).
Proof. unfold ext_opening_eqb. now rewrite meta_eqb_map. Qed.

Section Db.
Context {S1 S2 : Type} {D1 : @DbOps A1 S1} {D2 : @DbOps A S2}.
Variable R : S1 -> S2 -> Prop.
Variable weak : Prop.
Hypothesis DS : @DbSim A H hz ha ho hm he phi S1 S2 D1 D2 R weak.
Variables (v1 : S1) (v2 : S2).
Hypothesis HR : R v1 v2.
Local Notation mapped f := (fun a b => b = f a).

Lemma cover_find_loop key rest : forall cur m nodes,
  rr weak (mapped kp_map) (@find_loop A1 S1 D1 v1 key rest cur m nodes) (find_loop v2 key rest cur (bm_map m) (map nd_map nodes)).
Proof.
  induction rest as [|i rest IH]; intros cur m nodes; cbn [find_loop]; [exact I|].
  change (map nd_map nodes ++ [(cur, i, MBranch (bm_map m))]) with (map nd_map nodes ++ map nd_map [(cur, i, @MBranch A1 m)]).
  rewrite <- map_app, map_length. set (nodes' := nodes ++ [(cur, i, MBranch m)]).
  apply (rr_bind _ _ _ _ _ _ _ (sim_get_child _ _ _ DS v1 v2 cur i HR)). intros c1 c2 ->.
  destruct c1 as [[s|b]|]; cbn [option_map Refine.ch_map].
  - apply (rr_bind _ _ _ _ _ _ _ (sim_get_stem _ _ _ DS v1 v2 s HR)). intros o1 o2 E.
    apply (rr_bind _ _ _ _ _ _ _ (rr_unwrap weak sm_map _ _ E)). intros sm ? ->.
    apply (rr_bind _ eq); [apply rr_same|]. intros last _ <-.
    change (map nd_map nodes' ++ [(cur ++ [i], last, MStem (sm_map sm))]) with (map nd_map nodes' ++ map nd_map [(cur ++ [i], last, @MStem A1 sm)]).
    rewrite <- map_app, map_length.
    apply (rr_bind _ _ _ _ _ _ _ (sim_get_leaf _ _ _ DS v1 v2 key HR)). intros l1 l2 <-.
    destruct l1 as [x|].
    + apply (rr_bind _ eq); [apply rr_same|]. intros _ _ _. apply rr_ok. reflexivity.
    + destruct (beqb s (firstn 31 key)); apply rr_ok; reflexivity.
  - apply IH.
  - apply rr_ok. reflexivity.
Qed.
Lemma cover_find key : rr weak (mapped kp_map) (@find_key_path A1 S1 D1 v1 key) (find_key_path v2 key).
Proof.
  unfold find_key_path. apply (rr_bind _ _ _ _ _ _ _ (sim_get_branch _ _ _ DS v1 v2 [] HR)). intros o1 o2 E.
  apply (rr_bind _ _ _ _ _ _ _ (rr_unwrap weak bm_map _ _ E)). intros m ? ->. exact (cover_find_loop key key [] m []).
Qed.

Lemma cover_insert_branch_opening o p z m : rr weak (mapped (mv op_map)) (@insert_branch_opening A1 o p z m) (insert_branch_opening (mv op_map o) p z (me_map m)).
Proof.
  unfold insert_branch_opening. rewrite mv_get. destruct (map_get p o) as [[e s|m' c|e]|]; cbn [option_map op_map]; try exact I.
  - apply rr_ok. exact (mv_insert op_map p (@OBranch A1 m' (set_insert z c)) o).
  - apply rr_ok. exact (mv_insert op_map p (@OBranch A1 m (set_insert z [])) o).
Qed.
Lemma cover_insert_ext_opening o p s m : insert_ext_opening (mv op_map o) p s (me_map m) = mv op_map (@insert_ext_opening A1 o p s m).
Proof.
  unfold insert_ext_opening. rewrite mv_get. destruct (map_get p o) as [x|]; cbn [option_map]; [reflexivity|].
  exact (mv_insert op_map p (@OExtension A1 (@mkExtO A1 s m)) o).
Qed.
Lemma cover_insert_suffix_opening o p e sv : rr weak (mapped (mv op_map)) (@insert_suffix_opening A1 o p e sv) (insert_suffix_opening (mv op_map o) p (eo_map e) sv).
Proof.
  unfold insert_suffix_opening. rewrite mv_get. destruct (map_get p o) as [[e' s|m' c|e']|]; cbn [option_map op_map]; try exact I.
  - rewrite <- ext_eqb_map. apply (rr_bind _ eq); [apply rr_same|]. intros _ _ _. apply rr_ok. exact (mv_insert op_map p (@OSuffix A1 e' (set_insert sv s)) o).
  - rewrite <- ext_eqb_map. apply (rr_bind _ eq); [apply rr_same|]. intros _ _ _. apply rr_ok. exact (mv_insert op_map p (@OSuffix A1 e (set_insert sv [])) o).
  - apply rr_ok. exact (mv_insert op_map p (@OSuffix A1 e (set_insert sv [])) o).
Qed.
Lemma cover_insert_branches nodes : forall o, rr weak (mapped (mv op_map)) (@insert_branches A1 o nodes) (insert_branches (mv op_map o) (map nd_map nodes)).
Proof.
  induction nodes as [|[[p z] m] nodes IH]; intro o; cbn [insert_branches map nd_map fst snd]; [apply rr_ok; reflexivity|].
  destruct m as [s|b]; cbn [Refine.me_map]; [apply IH|].
  apply (rr_bind _ _ _ _ _ _ _ (cover_insert_branch_opening o p z (@MBranch A1 b))). intros o1 ? ->. apply IH.
Qed.
Lemma cover_collect_one od key : rr weak (mapped od_map) (@collect_one A1 S1 D1 v1 od key) (collect_one v2 (od_map od) key).
Proof.
  unfold collect_one. apply (rr_bind _ _ _ _ _ _ _ (cover_find key)). intros kp ? ->. cbn [kp_map kp_nodes kp_depth kp_state].
  apply (rr_bind _ eq); [apply rr_same|]. intros sfx _ <-.
  apply (rr_bind _ (mapped nd_map)).
  { apply rr_unwrap. rewrite <- map_rev. destruct (rev (kp_nodes kp)); reflexivity. }
  intros [pz m] ? ->. cbn [nd_map fst snd od_map od_openings od_ext od_depths].
  apply (rr_bind _ _ _ _ _ _ _ (cover_insert_branches (kp_nodes kp) (od_openings od))). intros o ? ->.
  change (requires_extension_proof (kp_map kp)) with (@requires_extension_proof A1 kp).
  destruct (negb (@requires_extension_proof A1 kp)); [apply rr_ok; reflexivity|].
  apply (rr_bind _ eq); [destruct m; apply rr_same|]. intros _ _ _.
  destruct (different_stem (kp_state kp)) as [other|].
  - apply rr_ok. unfold od_map. cbn [od_openings od_ext od_depths]. rewrite <- cover_insert_ext_opening. reflexivity.
  - apply (rr_bind _ _ _ _ _ _ _ (cover_insert_suffix_opening o (fst pz) (@mkExtO A1 (firstn 31 key) m) (sfx, state_value (kp_state kp)))).
    intros o' ? ->. apply rr_ok. reflexivity.
Qed.
Lemma cover_collect keys : forall od, rr weak (mapped od_map) (@collect_loop A1 S1 D1 v1 od keys) (collect_loop v2 (od_map od) keys).
Proof.
  induction keys as [|k keys IH]; intro od; cbn [collect_loop]; [apply rr_ok; reflexivity|].
  apply (rr_bind _ _ _ _ _ _ _ (cover_collect_one od k)). intros o ? ->. apply IH.
Qed.

Lemma cover_into_stem m : rr weak (mapped sm_map) (@into_stem A1 m) (into_stem (me_map m)).
Proof. destruct m; cbn; auto. Qed.
Lemma cover_into_branch m : rr weak (mapped bm_map) (@into_branch A1 m) (into_branch (me_map m)).
Proof. destruct m; cbn; auto. Qed.
Lemma cover_ext_open e b1 b2 : rr weak (mapped (map pq_map)) (@ext_open_query A1 e b1 b2) (ext_open_query (eo_map e) b1 b2).
Proof.
  unfold ext_open_query. cbn [eo_map eo_stem eo_meta]. apply (rr_bind _ _ _ _ _ _ _ (cover_into_stem (eo_meta e))). intros m ? ->.
  destruct b1, b2; apply rr_ok; reflexivity.
Qed.
Lemma cover_half_hashes stem l : rr weak eq (@half_hashes A1 S1 D1 v1 stem l) (@half_hashes A S2 D2 v2 stem l).
Proof.
  induction l as [|i l IH]; cbn [half_hashes]; [apply rr_ok; reflexivity|].
  apply (rr_bind _ _ _ _ _ _ _ (sim_get_leaf _ _ _ DS v1 v2 (stem ++ [i]) HR)). intros l1 l2 <-.
  destruct l1; (apply (rr_bind _ _ _ _ _ _ _ IH); intros r ? <-; apply rr_ok; reflexivity).
Qed.
Lemma cover_get_half stem start : rr weak eq (@get_half_hashes A1 S1 D1 v1 stem start) (@get_half_hashes A S2 D2 v2 stem start).
Proof.
  unfold get_half_hashes. apply (rr_bind _ eq); [apply rr_same|]. intros _ _ _.
  apply (rr_bind _ _ _ _ _ _ _ (cover_half_hashes stem _)). intros r ? <-. apply (rr_bind _ eq); [apply rr_same|]. intros _ _ _. apply rr_ok. reflexivity.
Qed.
Lemma cover_suffix_query stem m sv : rr weak (mapped (map pq_map)) (@suffix_query A1 S1 D1 v1 stem m sv) (suffix_query v2 stem (sm_map m) sv).
Proof.
  destruct sv as [sfx value]. unfold suffix_query. destruct value as [x|];
    (apply (rr_bind _ _ _ _ _ _ _ (cover_get_half stem _)); intros f ? <-; destruct (sfx <? 128); apply rr_ok; reflexivity).
Qed.
Lemma cover_suffix_queries stem m l : rr weak (mapped (map pq_map)) (@suffix_queries A1 S1 D1 v1 stem m l) (suffix_queries v2 stem (sm_map m) l).
Proof.
  induction l as [|sv l IH]; cbn [suffix_queries]; [apply rr_ok; reflexivity|].
  apply (rr_bind _ _ _ _ _ _ _ (cover_suffix_query stem m sv)). intros q ? ->. apply (rr_bind _ _ _ _ _ _ _ IH). intros r ? ->. apply rr_ok. symmetry. apply map_app.
Qed.
Lemma cover_suffix_open e l : rr weak (mapped (map pq_map)) (@suffix_open_query A1 S1 D1 v1 e l) (suffix_open_query v2 (eo_map e) l).
Proof.
  unfold suffix_open_query. apply (rr_bind _ _ _ _ _ _ _ (cover_ext_open e _ _)). intros q ? ->.
  apply (rr_bind _ _ _ _ _ _ _ (cover_into_stem (eo_meta e))). intros m ? ->.
  apply (rr_bind _ _ _ _ _ _ _ (cover_suffix_queries (eo_stem e) m l)). intros r ? ->. apply rr_ok. symmetry. apply map_app.
Qed.
Lemma cover_children path l : rr weak eq (@children_hashes A1 S1 D1 v1 path l) (@children_hashes A S2 D2 v2 path l).
Proof.
  induction l as [|i l IH]; cbn [children_hashes]; [apply rr_ok; reflexivity|].
  apply (rr_bind _ _ _ _ _ _ _ (sim_get_child _ _ _ DS v1 v2 path i HR)). intros c1 c2 ->.
  apply (rr_bind _ eq).
  - destruct c1 as [[s|b]|]; cbn [option_map Refine.ch_map]; try (apply rr_ok; reflexivity).
    apply (rr_bind _ _ _ _ _ _ _ (sim_get_stem _ _ _ DS v1 v2 s HR)). intros o1 o2 E.
    apply (rr_bind _ _ _ _ _ _ _ (rr_unwrap weak sm_map _ _ E)). intros sm ? ->. apply rr_ok. reflexivity.
  - intros h ? <-. apply (rr_bind _ _ _ _ _ _ _ IH). intros r ? <-. apply rr_ok. reflexivity.
Qed.
Lemma cover_branch_queries c f l : rr weak (mapped (map pq_map)) (@branch_queries A1 c f l) (branch_queries (phi c) f l).
Proof.
  induction l as [|i l IH]; cbn [branch_queries]; [apply rr_ok; reflexivity|].
  apply (rr_bind _ eq); [apply rr_same|]. intros y _ <-. apply (rr_bind _ _ _ _ _ _ _ IH). intros r ? ->. apply rr_ok. reflexivity.
Qed.
Lemma cover_branch_open path m l : rr weak (mapped (map pq_map)) (@branch_open_query A1 S1 D1 v1 path m l) (branch_open_query v2 path (me_map m) l).
Proof.
  unfold branch_open_query. apply (rr_bind _ _ _ _ _ _ _ (cover_into_branch m)). intros b ? ->.
  apply (rr_bind _ _ _ _ _ _ _ (cover_children path _)). intros f ? <-. apply cover_branch_queries.
Qed.
Lemma cover_open_all o : forall diff, rr weak (mapped (fun r => (map pq_map (fst r), snd r))) (@open_all A1 S1 D1 v1 o diff) (open_all v2 (mv op_map o) diff).
Proof.
  induction o as [|[p op] o IH]; intro diff; cbn [open_all mv map fst snd]; [apply rr_ok; reflexivity|].
  apply (rr_bind _ (mapped (fun r => (map pq_map (fst r), snd r)))).
  - destruct op as [e s|m c|e]; cbn [op_map].
    + apply (rr_bind _ _ _ _ _ _ _ (cover_suffix_open e s)). intros q ? ->. apply rr_ok. reflexivity.
    + apply (rr_bind _ _ _ _ _ _ _ (cover_branch_open p m c)). intros q ? ->. apply rr_ok. reflexivity.
    + apply (rr_bind _ _ _ _ _ _ _ (cover_ext_open e false false)). intros q ? ->. apply rr_ok. reflexivity.
  - intros [q d] ? ->. cbn [fst snd]. apply (rr_bind _ _ _ _ _ _ _ (IH d)). intros [r d'] ? ->. apply rr_ok. cbn [fst snd]. now rewrite map_app.
Qed.
Lemma cover_prover_queries keys : rr weak (mapped (fun r => (map pq_map (fst r), snd r))) (@create_prover_queries A1 S1 D1 v1 keys) (create_prover_queries v2 keys).
Proof.
  unfold create_prover_queries. apply (rr_bind _ eq); [apply rr_same|]. intros _ _ _.
  apply (rr_bind _ (mapped od_map)). { exact (cover_collect keys (@mkOD A1 [] [] [])). } intros od ? ->.
  apply (rr_bind _ _ _ _ _ _ _ (cover_open_all (od_openings od) [])). intros [q d] ? ->. apply rr_ok. reflexivity.
Qed.
Lemma dedup_map l : dedup (map phi l) = map phi (@dedup A1 l).
Proof.
  induction l as [|x l IH]; [reflexivity|]. cbn [dedup map]. destruct l as [|y l]; [reflexivity|]. cbn [map].
  change (@geqb A1 x y) with (he x y). rewrite <- phi_eqb. destruct (he x y); [exact IH|]. cbn [map]. f_equal. exact IH.
Qed.
Lemma cover_comms qs r : comms_of_queries (map pq_map qs) (phi r) = map phi (@comms_of_queries A1 qs r).
Proof.
  unfold comms_of_queries. rewrite <- dedup_map. f_equal.
  induction qs as [|q qs IH]; [reflexivity|]. cbn [map filter pq_map pq_comm]. change (@geqb A1 (pq_comm q) r) with (he (pq_comm q) r). rewrite <- phi_eqb.
  destruct (he (pq_comm q) r); cbn [negb map pq_comm]; [exact IH|f_equal; exact IH].
Qed.
Definition parts_map (o : option (list (@ProverQuery A1) * VerificationHint * list H)) : option (list (@ProverQuery A) * VerificationHint * list G) :=
  option_map (fun r => (map pq_map (fst (fst r)), snd (fst r), map phi (snd r))) o.
Lemma cover_parts keys : rr weak (mapped parts_map) (@create_proof_parts A1 S1 D1 v1 keys) (create_proof_parts v2 keys).
Proof.
  unfold create_proof_parts. destruct keys as [|k keys]; [apply rr_ok; reflexivity|].
  apply (rr_bind _ _ _ _ _ _ _ (cover_prover_queries (k :: keys))). intros [qs h] ? ->. cbn [fst snd].
  destruct qs as [|q qs]; cbn [map]; apply rr_ok; [reflexivity|]. unfold parts_map. cbn [option_map fst snd map]. rewrite <- cover_comms. reflexivity.
Qed.
End Db.

(** ** The verifier *)
Definition ok_map {X Y} (f : X -> Y) (r : res X) : res Y := match r with Ok x => Ok (f x) | Panic => Panic end.
Lemma ok_rr {X Y} (f : X -> Y) a b : b = ok_map f a <-> rr False (fun x y => y = f x) a b.
Proof. destruct a, b; cbn; split; intros; subst; try discriminate; try contradiction; try congruence; auto. Qed.

Lemma cover_verifier_queries leaf comms pzs : verifier_queries leaf (mv phi comms) pzs = ok_map (map vq_map) (@verifier_queries A1 P1 leaf comms pzs).
Proof.
  apply ok_rr. induction pzs as [|pz pzs IH]; cbn [verifier_queries]; [reflexivity|].
  apply (rr_bind _ (fun x y => y = phi x)). { apply rr_unwrap. apply mv_get. } intros c ? ->.
  apply (rr_bind _ _ _ _ _ _ _ IH). intros r ? ->. apply rr_ok. cbn [map vq_map vq_comm vq_point vq_result]. f_equal. unfold vq_map. cbn [vq_comm vq_point vq_result].
  f_equal. unfold expected_y. change (@F A1) with (@F A). change (@G A1) with H. destruct (map_get pz leaf); [reflexivity|]. rewrite mv_get.
  destruct (map_get (fst pz ++ [snd pz]) comms) as [c'|]; cbn [option_map]; [symmetry; apply phi_hash|reflexivity].
Qed.
Definition vs_map (s : @VState A1) : @VState A := @mkVS A (vs_used s) (vs_paths s) (vs_pzs s) (vs_leaf s) (vs_others s).
Lemma cover_add_branches stem l : forall s, rr False (fun a b => b = vs_map a) (@add_branches A1 stem l s) (add_branches stem l (vs_map s)).
Proof.
  induction l as [|i l IH]; intro s; cbn [add_branches]; [apply rr_ok; reflexivity|].
  apply (rr_bind _ eq); [apply rr_same|]. intros p _ <-. apply (rr_bind _ eq); [apply rr_same|]. intros z _ <-. apply IH.
Qed.
Lemma cover_add_none stem d value s : rr False (fun a b => b = option_map vs_map a) (@add_none A1 stem d value s) (add_none stem d value (vs_map s)).
Proof.
  unfold add_none. destruct value; [apply rr_ok; reflexivity|]. destruct (d =? 1)%nat.
  - apply (rr_bind _ eq); [apply rr_same|]. intros z _ <-. apply rr_ok. reflexivity.
  - apply (rr_bind _ eq); [apply rr_same|]. intros p _ <-. apply (rr_bind _ eq); [apply rr_same|]. intros _ _ _.
    apply (rr_bind _ eq); [apply rr_same|]. intros z _ <-. apply rr_ok. reflexivity.
Qed.
Lemma cover_add_different stem d value we diff s :
  rr False (fun a b => b = option_map vs_map a) (@add_different A1 stem d value we diff s) (add_different stem d value we diff (vs_map s)).
Proof.
  unfold add_different. destruct value; [apply rr_ok; reflexivity|]. apply (rr_bind _ eq); [apply rr_same|]. intros _ _ _.
  destruct (filter (fun x => beqb (firstn d x) (firstn d stem)) we) as [|o [|o' l]]; [|apply rr_ok; reflexivity|exact I].
  apply (rr_bind _ eq); [apply rr_same|]. intros z _ <-. apply rr_ok. reflexivity.
Qed.
Lemma cover_add_present stem p sfx value s : add_present stem p sfx value (vs_map s) = vs_map (@add_present A1 stem p sfx value s).
Proof. unfold add_present. destruct value; reflexivity. Qed.
Lemma cover_verify_key st we diff s kv : rr False (fun a b => b = option_map vs_map a) (@verify_key A1 st we diff s kv) (verify_key st we diff (vs_map s) kv).
Proof.
  destruct kv as [key value]. unfold verify_key. apply (rr_bind _ eq); [apply rr_same|]. intros [ext depth] _ <-.
  apply (rr_bind _ _ _ _ _ _ _ (cover_add_branches (firstn 31 key) (seq 0 (Z.to_nat depth)) s)). intros s1 ? ->.
  destruct ext; [apply cover_add_none| |].
  - apply (rr_bind _ eq); [apply rr_same|]. intros p _ <-.
    exact (cover_add_different (firstn 31 key) (Z.to_nat depth) value we diff (add_leaf p 0 fone (add_pz p 1 (add_pz p 0 (add_path p s1))))).
  - apply (rr_bind _ eq); [apply rr_same|]. intros p _ <-. apply (rr_bind _ eq); [apply rr_same|]. intros sfx _ <-. apply rr_ok.
    cbn [option_map]. f_equal. exact (cover_add_present (firstn 31 key) p sfx value (add_leaf p 0 fone (add_pz p 1 (add_pz p 0 (add_path p s1))))).
Qed.
Lemma cover_verify_keys st we diff kvs : forall s, rr False (fun a b => b = option_map vs_map a) (@verify_keys A1 st we diff s kvs) (verify_keys st we diff (vs_map s) kvs).
Proof.
  induction kvs as [|kv kvs IH]; intro s; cbn [verify_keys]; [apply rr_ok; reflexivity|].
  apply (rr_bind _ _ _ _ _ _ _ (cover_verify_key st we diff s kv)). intros [s1|] ? ->; cbn [option_map]; [apply IH|apply rr_ok; reflexivity].
Qed.
Lemma cover_verifier hint comms keys values root :
  create_verifier_queries hint (map phi comms) keys values (phi root) =
  ok_map (option_map (fun r => (map vq_map (fst r), uh_map (snd r)))) (@create_verifier_queries A1 P1 hint comms keys values root).
Proof.
  apply ok_rr. unfold create_verifier_queries. destruct (stem_statuses (set_of (map (firstn 31) keys)) hint) as [statuses with_ext].
  apply (rr_bind _ _ _ _ _ _ _ (cover_verify_keys statuses with_ext (vh_diff hint) (combine keys values) vs_empty)). intros [s|] ? ->; cbn [option_map]; [|apply rr_ok; reflexivity].
  change (phi root :: map phi comms) with (map phi (root :: comms)). rewrite map_length, mv_combine, mv_of.
  apply (rr_bind _ eq); [apply rr_same|]. intros _ _ _. apply (rr_bind _ eq); [apply rr_same|]. intros _ _ _.
  apply (rr_bind _ (fun x y => y = map vq_map x)). { apply ok_rr. apply cover_verifier_queries. } intros q ? ->. apply rr_ok. reflexivity.
Qed.
End Cover.
