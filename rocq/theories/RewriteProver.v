(** A prover whose leaves are those of one history and whose commitments are
    those of another: what it opens, query by query. *)
From Coq Require Import Permutation Sorted.
From Verif Require Import Base BaseFacts Alg AlgFacts TreeSpec TreeFacts TrieModel TrieProofs BTree WireModel ProofModel ProofSpec PathProofs OpeningProofs VerifierProofs DiskProof RewriteProofSpec.

Definition rmap {X Y} (f : X -> Y) (r : res X) : res Y := let! x := r in Ok (f x).

Section Mixed.
Context {A : Alg} {L : AlgLaws A} {P : Par A} {PL : ParLaws P}.
Opaque vcommit gsum subtree_hash.
Context {X : Type} {D : DbOps X} (a : X) (b c : MemoryDb) (g m : bytes -> option bytes) (St : list bytes).
Context (Cb : Canon b g St) (Cc : Canon c m St).
Context (Hleaf : forall k, get_leaf a k = get_leaf c k)
        (Hstem : forall s, get_stem_meta a s = get_stem_meta b s)
        (Hmeta : forall p, get_branch_meta a p = get_branch_meta b p)
        (Hchild : forall p i, get_branch_child a p i = get_branch_child b p i)
        (Hdom : forall k, m k = None <-> g k = None).

Definition restate (k : bytes) (kp : KeyPath) : KeyPath :=
  mkKeyPath (kp_nodes kp) (kp_depth kp)
    (match kp_state kp with
     | KFound v => KFound (match m k with Some w => w | None => v end)
     | s => s
     end).

Lemma find_loop_mixed key rest : forall cur mt nodes,
  find_loop a key rest cur mt nodes = rmap (restate key) (find_loop b key rest cur mt nodes).
Proof.
  induction rest as [|i rest IH]; intros cur mt nodes; cbn [find_loop]; [reflexivity|]. rewrite Hchild.
  destruct (get_branch_child b cur i) as [[[s|bm]|]|]; cbn [rmap rbind]; try reflexivity; [|apply IH].
  rewrite Hstem. destruct (get_stem_meta b s) as [[sm|]|]; cbn [rmap rbind unwrap]; try reflexivity.
  destruct (Base.index key 31); cbn [rmap rbind]; [|reflexivity]. rewrite Hleaf.
  cbn [rmap get_leaf memory_db_ops]. unfold mem_get_leaf. cbn [rbind].
  rewrite (can_leaf _ _ _ Cb), (can_leaf _ _ _ Cc).
  destruct (m key) as [w|] eqn:Em.
  - destruct (g key) as [v|] eqn:Eg; [|apply Hdom in Eg; congruence].
    destruct (beqb s (firstn 31 key)); cbn [rmap assertb rbind]; [|reflexivity].
    unfold restate. cbn [kp_nodes kp_depth kp_state]. now rewrite Em.
  - rewrite (proj1 (Hdom key) Em). destruct (beqb s (firstn 31 key)); reflexivity.
Qed.

Lemma find_mixed k : is_key k -> find_key_path a k = Ok (restate k (key_path_of g St k)).
Proof.
  intro Hk. pose proof (find_key_path_ok b g St Cb k Hk) as E. unfold find_key_path in *. rewrite Hmeta.
  destruct (get_branch_meta b []) as [[bm|]|]; cbn [rmap rbind unwrap] in *; try discriminate.
  rewrite find_loop_mixed, E. reflexivity.
Qed.

(** Openings with the values of [m]. *)
Definition reop (op : Openings) : Openings :=
  match op with
  | OSuffix e svs => OSuffix e (map (fun sv => (fst sv, m (eo_stem e ++ [fst sv]))) svs)
  | _ => op
  end.
Definition retag (o : list (bytes * Openings)) : list (bytes * Openings) :=
  map (fun x => (fst x, reop (snd x))) o.

Lemma get_retag p o : map_get p (retag o) = option_map reop (map_get p o).
Proof. induction o as [|[q op] o IH]; cbn; auto. destruct (cmp p q); auto. Qed.
Lemma insert_retag p op o : map_insert p (reop op) (retag o) = retag (map_insert p op o).
Proof. induction o as [|[q op'] o IH]; cbn; auto. destruct (cmp p q); cbn; auto. f_equal. exact IH. Qed.

Lemma branch_retag o p z mt :
  insert_branch_opening (retag o) p z mt = rmap retag (insert_branch_opening o p z mt).
Proof.
  unfold insert_branch_opening. rewrite get_retag.
  destruct (map_get p o) as [[e s|mt' cs|e]|]; cbn [option_map reop rmap rbind]; auto; now rewrite <- insert_retag.
Qed.
Lemma branches_retag nodes : forall o, insert_branches (retag o) nodes = rmap retag (insert_branches o nodes).
Proof.
  induction nodes as [|[[p z] mt] nodes IH]; intro o; cbn [insert_branches]; [reflexivity|].
  destruct mt; [apply IH|]. rewrite branch_retag.
  destruct (insert_branch_opening o p z (MBranch _)); cbn [rmap rbind]; auto.
Qed.
Lemma ext_retag o p t mt : insert_ext_opening (retag o) p t mt = retag (insert_ext_opening o p t mt).
Proof.
  unfold insert_ext_opening. rewrite get_retag.
  destruct (map_get p o); cbn [option_map]; auto. now rewrite <- insert_retag.
Qed.

Lemma set_retag (f h : Z -> option bytes) s svs :
  Forall (fun sv => snd sv = h (fst sv)) svs ->
  set_insert (s, f s) (map (fun sv => (fst sv, f (fst sv))) svs) =
  map (fun sv => (fst sv, f (fst sv))) (set_insert (s, h s) svs).
Proof.
  induction svs as [|[z v] svs IH]; intro Hf; cbn [set_insert map fst]; [reflexivity|].
  apply Forall_cons_iff in Hf as [Hv Hf]. cbn [fst snd] in Hv. rewrite !cmp_pair.
  destruct (cmp s z) eqn:E.
  - apply cmp_eq in E. subst z. rewrite Hv, !cmp_refl. reflexivity.
  - reflexivity.
  - cbn [map fst]. now rewrite IH.
Qed.

Lemma suffix_retag o q t s : good g St o ->
  insert_suffix_opening (retag o) q (mkExtO t (MStem (cstem g t))) (s, m (t ++ [s])) =
  rmap retag (insert_suffix_opening o q (mkExtO t (MStem (cstem g t))) (s, g (t ++ [s]))).
Proof.
  intro Hg. unfold insert_suffix_opening. rewrite get_retag.
  assert (E0 : forall e, map_insert q (OSuffix e (set_insert (s, m (eo_stem e ++ [s])) [])) (retag o) =
     retag (map_insert q (OSuffix e (set_insert (s, g (eo_stem e ++ [s])) [])) o)).
  { intro e. rewrite <- insert_retag. reflexivity. }
  destruct (map_get q o) as [[e svs|mt cs|e]|] eqn:E; cbn [option_map reop rmap rbind]; auto.
  - unfold ext_opening_eqb. cbn [eo_stem eo_meta].
    destruct (beqb_spec (eo_stem e) t) as [Et|]; cbn [rmap andb assertb rbind]; [|reflexivity].
    destruct (meta_eqb _ _); cbn [rmap assertb rbind]; [|reflexivity].
    rewrite <- insert_retag. cbn [reop]. rewrite Et. do 4 f_equal.
    apply (set_retag (fun z => m (t ++ [z])) (fun z => g (t ++ [z]))).
    destruct (proj2 Hg _ _ E) as (t' & _ & He & _ & _ & Hsv). subst e. cbn [eo_stem] in Et. subst t'.
    eapply Forall_impl; [|exact Hsv]. now intros x [_ Hx].
  - destruct (ext_opening_eqb _ _); cbn [rmap assertb rbind]; [|reflexivity].
    now rewrite (E0 (mkExtO t (MStem (cstem g t)))).
  - now rewrite (E0 (mkExtO t (MStem (cstem g t)))).
Qed.

Definition reod (od : OpeningData) : OpeningData := mkOD (retag (od_openings od)) (od_ext od) (od_depths od).

Lemma collect_one_mixed k od : is_key k -> good g St (od_openings od) ->
  collect_one a (reod od) k = rmap reod (collect_one b od k).
Proof.
  intros Hk Hg.
  unfold collect_one in *. rewrite (find_mixed k Hk). rewrite (find_key_path_ok b g St Cb k Hk) in *.
  cbn [rmap rbind] in *. set (s := firstn 31 k) in *.
  assert (Hkl : length k = 32%nat) by apply Hk.
  unfold Base.index in *. rewrite (nth_error_nth' k 0) in * by (unfold bytes in *; lia). cbn [rmap unwrap rbind] in *.
  assert (R1 : kp_nodes (restate k (key_path_of g St k)) = kp_nodes (key_path_of g St k)) by reflexivity.
  assert (R2 : kp_depth (restate k (key_path_of g St k)) = kp_depth (key_path_of g St k)) by reflexivity.
  rewrite R1, R2.
  assert (R3 : ext_pres (kp_state (restate k (key_path_of g St k))) = ext_pres (kp_state (key_path_of g St k))).
  { unfold restate. cbn [kp_state]. destruct (kp_state (key_path_of g St k)); reflexivity. }
  assert (R4 : requires_extension_proof (restate k (key_path_of g St k)) = requires_extension_proof (key_path_of g St k)).
  { unfold requires_extension_proof, restate. cbn [kp_state]. destruct (kp_state (key_path_of g St k)); reflexivity. }
  assert (R5 : different_stem (kp_state (restate k (key_path_of g St k))) = different_stem (kp_state (key_path_of g St k))).
  { unfold restate. cbn [kp_state]. destruct (kp_state (key_path_of g St k)); reflexivity. }
  rewrite R3, R4, R5. cbn [reod od_openings od_ext od_depths].
  destruct (hd_error (rev (kp_nodes (key_path_of g St k)))) as [[pz mt]|] eqn:Eh; cbn [rmap unwrap rbind] in *; [|reflexivity].
  rewrite branches_retag.
  destruct (insert_branches (od_openings od) (kp_nodes (key_path_of g St k))) as [o1|] eqn:Eb; cbn [rmap rbind] in *; [|reflexivity].
  assert (G1 : good g St o1).
  { assert (Hs : is_stem s) by apply (key_stem k Hk).
    destruct (sd_spec St s (can_wf _ _ _ Cb) (proj1 Hs)) as (Hi & Hn & Hb).
    assert (Hlist : Forall (fun i => (i < 31)%nat /\ internal St (firstn i s) = true) (seq 0 (sd St s))).
    { apply Forall_forall. intros i H. apply in_seq in H. split; [lia|]. apply Hi. lia. }
    destruct (insert_branches_ok g St s (seq 0 (sd St s)) (od_openings od) Hs Hg Hlist) as (o1' & E1 & G1 & _).
    unfold key_path_of in Eb. fold s in Eb. destruct (end_stem St s) as [t|]; cbn [kp_nodes] in Eb.
    - rewrite insert_branches_app, E1 in Eb. cbn [rmap rbind insert_branches] in Eb. now injection Eb as <-.
    - rewrite E1 in Eb. now injection Eb as <-. }
  destruct (requires_extension_proof (key_path_of g St k)) eqn:Er; cbn [negb]; [|reflexivity].
  unfold key_path_of, key_state_of, requires_extension_proof in *. fold s in Eh, Er |- *.
  destruct (end_stem St s) as [t|] eqn:Et; [|cbn in Er; discriminate].
  cbn [kp_nodes kp_state kp_depth restate] in *.
  rewrite rev_app_distr in Eh. cbn [rmap rev app hd_error] in Eh. injection Eh as <- <-. cbn [assertb rbind fst].
  destruct (g k) as [v|] eqn:Eg.
  - destruct (m k) as [w|] eqn:Em; [|apply Hdom in Em; congruence].
    cbn [different_stem state_value].
    destruct (can_keys _ _ _ Cb k v Eg) as [_ Hin]. fold s in Hin.
    assert (t = s) by (pose proof (end_stem_self b g St Cb s Hin); congruence). subst t.
    assert (Ek : s ++ [nth 31 k 0] = k) by (unfold s; symmetry; apply key_split; exact Hk).
    rewrite <- Em, <- Eg. rewrite <- Ek at 2 4. rewrite (suffix_retag o1 _ s _ G1).
    destruct (insert_suffix_opening o1 _ _ _); reflexivity.
  - destruct (beqb_spec t s) as [->|Hne].
    + cbn [different_stem state_value].
      assert (Ek : s ++ [nth 31 k 0] = k) by (unfold s; symmetry; apply key_split; exact Hk).
      pose proof (suffix_retag o1 (firstn (sd St s) s) s (nth 31 k 0) G1) as X1.
      rewrite Ek, Eg, (proj2 (Hdom k) Eg) in X1. rewrite X1.
      destruct (insert_suffix_opening o1 _ _ _); reflexivity.
    + cbn [different_stem]. rewrite ext_retag. reflexivity.
Qed.

Lemma collect_mixed keys : Forall is_key keys -> forall od, good g St (od_openings od) ->
  collect_loop a (reod od) keys = rmap reod (collect_loop b od keys).
Proof.
  induction keys as [|k keys IH]; intros Hk od Hg; cbn [collect_loop]; [reflexivity|].
  apply Forall_cons_iff in Hk as [Hk Hks]. rewrite (collect_one_mixed k od Hk Hg).
  destruct (collect_one_ok b g St Cb k od Hk Hg) as (o1 & E1 & G1 & _). cbn zeta in E1. rewrite E1. cbn [rmap rbind].
  apply IH; auto.
Qed.

Lemma with_app es1 es2 qs1 qs2 : length es1 = length qs1 ->
  all_with_values m St (es1 ++ es2) (qs1 ++ qs2) = all_with_values m St es1 qs1 ++ all_with_values m St es2 qs2.
Proof.
  unfold all_with_values. revert qs1; induction es1 as [|e es1 IH]; intros [|q qs1] Hl; try discriminate; cbn; auto.
  f_equal. apply IH. now injection Hl.
Qed.
Lemma with_same es qs : length es = length qs -> Forall (fun e => holds_values St (fst e) = false) es ->
  all_with_values m St es qs = qs.
Proof.
  unfold all_with_values. revert qs; induction es as [|e es IH]; intros [|q qs] Hl Hf; try discriminate; cbn; auto.
  apply Forall_cons_iff in Hf as [He Hf]. f_equal; [|apply IH; auto]. unfold with_values. now rewrite He.
Qed.
Lemma existsb_map' {U V} (f : U -> V) h l : existsb h (map f l) = existsb (fun x => h (f x)) l.
Proof. induction l as [|x l IH]; cbn; auto. now rewrite IH. Qed.
Lemma Forall2_len {U V} (R : U -> V -> Prop) l l' : Forall2 R l l' -> length l = length l'.
Proof. induction 1; cbn; auto. Qed.

Lemma suffix_query_mixed q t s : stem_at St q = Some t -> is_byte s ->
  forall qs, suffix_query b t (cstem g t) (s, g (t ++ [s])) = Ok qs ->
  suffix_query a t (cstem g t) (s, m (t ++ [s])) = Ok (all_with_values m St (sv_tags q s) qs) /\
  Forall2 (fun e q => pq_poly q = map (fun i => node_vec g St (fst e) (Z.of_nat i)) (seq 0 256)) (sv_tags q s) qs.
Proof.
  intros Hq Hs qs E.
  assert (Hv : holds_values St (q ++ [hsel s]) = true).
  { unfold holds_values. rewrite (stem_at_below St q t _ Hq), (stem_at_child St q t _ Hq). reflexivity. }
  pose proof (node_vec_suffix g St q t (hsel s) Hq) as Ng.
  pose proof (node_vec_suffix m St q t (hsel s) Hq) as Nm.
  unfold suffix_query, is_byte in *.
  set (h := s / 128).
  assert (Eb : (if s <? 128 then 0 else 128) = 128 * h /\ (h = 0 \/ h = 1) /\ hsel s - 2 = h).
  { unfold h, hsel. destruct (Z.ltb_spec s 128).
    - rewrite Z.div_small by lia. auto.
    - replace (s / 128) with 1 by (apply Z.div_unique with (s - 128); lia). auto. }
  destruct Eb as (Eb1 & Eb2 & Eb3). rewrite Eb3 in Ng, Nm.
  rewrite Eb1, (get_half_hashes_ok b g St Cb t h Eb2) in E. rewrite Eb1.
  replace (get_half_hashes a t (128 * h)) with (get_half_hashes c t (128 * h))
    by (unfold get_half_hashes; now rewrite (half_same a c Hleaf)).
  rewrite (get_half_hashes_ok c m St Cc t h Eb2).
  destruct (suffix_vec_low m t s Hs) as [El Eh]. fold h in El, Eh.
  assert (Ev : match m (t ++ [s]) with Some v => (value_low v, value_high v) | None => (fzero, fzero) end =
    (suffix_vec m t h (2 * (s mod 128)), suffix_vec m t h (2 * (s mod 128) + 1))).
  { rewrite El, Eh. now destruct (m (t ++ [s])). }
  rewrite Ev.
  destruct (match g (t ++ [s]) with Some v => (value_low v, value_high v) | None => (fzero, fzero) end) as [lo hi].
  cbn [rbind] in *. assert (Ok_eq : forall u v : list ProverQuery, Ok u = Ok v -> u = v) by (intros u v H; congruence).
  apply Ok_eq in E. subst qs. split.
  - unfold all_with_values, sv_tags. cbn [combine map fst snd]. unfold with_values. cbn [fst snd]. rewrite Hv, Nm.
    cbn [pq_comm pq_point]. unfold all_z. rewrite map_map. reflexivity.
  - unfold sv_tags. constructor; [|constructor; [|constructor]]; cbn [fst pq_poly]; rewrite Ng; unfold all_z; now rewrite map_map.
Qed.

Definition poly_of (e : bytes * Z) (q : ProverQuery) : Prop :=
  holds_values St (fst e) = true -> pq_poly q = map (fun i => node_vec g St (fst e) (Z.of_nat i)) (seq 0 256).

Lemma suffix_queries_mixed q t svs : stem_at St q = Some t ->
  Forall (fun sv => is_byte (fst sv) /\ snd sv = g (t ++ [fst sv])) svs ->
  forall qs, suffix_queries b t (cstem g t) svs = Ok qs ->
  suffix_queries a t (cstem g t) (map (fun sv => (fst sv, m (t ++ [fst sv]))) svs) =
    Ok (all_with_values m St (flat_map (fun sv => sv_tags q (fst sv)) svs) qs) /\
  Forall2 poly_of (flat_map (fun sv => sv_tags q (fst sv)) svs) qs.
Proof.
  intro Hq. induction svs as [|[s v] svs IH]; intros Hf qs E; cbn [suffix_queries flat_map map] in *.
  - injection E as <-. split; [reflexivity|constructor].
  - apply Forall_cons_iff in Hf as [[Hs Hv] Hf]. cbn [fst snd] in *. subst v.
    destruct (suffix_query b t (cstem g t) (s, g (t ++ [s]))) as [q1|] eqn:E1; cbn [rbind] in E; [|discriminate].
    destruct (suffix_queries b t (cstem g t) svs) as [q2|] eqn:E2; cbn [rbind] in E; [|discriminate]. injection E as <-.
    destruct (suffix_query_mixed q t s Hq Hs q1 E1) as [-> F1]. destruct (IH Hf q2 eq_refl) as [-> F2]. cbn [rbind].
    rewrite with_app by exact (Forall2_len _ _ _ F1). split; [reflexivity|].
    apply Forall2_app; auto. clear - F1. induction F1; constructor; auto. intros _. assumption.
Qed.

Lemma no_values p tags qs : (internal St p = true \/ exists t, stem_at St p = Some t) ->
  Forall (fun e : bytes * Z => fst e = p) tags -> length tags = length qs ->
  all_with_values m St tags qs = qs /\ Forall2 poly_of tags qs.
Proof.
  intros Hp Hf Hl.
  assert (Hh : holds_values St p = false).
  { unfold holds_values. destruct Hp as [->|[t ->]]; cbn; auto. apply andb_false_r. }
  split.
  - apply with_same; auto. eapply Forall_impl; [|exact Hf]. intros e He. cbn beta in He. now rewrite He.
  - revert qs Hl; induction Hf as [|e tags He Hf IH]; intros [|q qs] Hl; try discriminate; constructor; auto.
    unfold poly_of. rewrite He, Hh. discriminate.
Qed.

Lemma open_all_mixed o : forall diff, good g St o -> forall qs d, open_all b o diff = Ok (qs, d) ->
  open_all a (retag o) diff = Ok (all_with_values m St (flat_map tags_of o) qs, d) /\
  Forall2 poly_of (flat_map tags_of o) qs.
Proof.
  induction o as [|[p op] o IH]; intros diff Hg qs d E; cbn [open_all flat_map retag map fst snd] in *.
  - injection E as <- <-. split; [reflexivity|constructor].
  - apply good_cons in Hg as (Hs & Hg & _). cbn [fst snd] in *.
    destruct op as [e svs|mt cs|e]; cbn [shape reop] in *.
    + destruct Hs as (t & Hq & -> & _ & _ & Hf). unfold suffix_open_query in *. cbn [eo_stem eo_meta into_stem] in *.
      rewrite !existsb_map'. cbn [fst].
      set (c1 := existsb (fun sv => fst sv <? 128) svs) in *.
      set (c2 := existsb (fun sv => negb (fst sv <? 128)) svs) in *.
      edestruct (ext_open_ok g St p t c1 c2 Hq) as (q1 & E1 & H1). rewrite E1 in *. cbn [rbind] in *.
      destruct (suffix_queries b t (cstem g t) svs) as [q2|] eqn:E2; cbn [rbind] in E; [|discriminate].
      destruct (suffix_queries_mixed p t svs Hq Hf q2 E2) as [-> F2]. cbn [rbind] in *.
      destruct (open_all b o diff) as [[q3 d3]|] eqn:E3; cbn [rbind] in E; [|discriminate]. injection E as <- <-.
      destruct (IH diff Hg q3 d3 E3) as [X3 F3]. unfold retag in X3. rewrite X3. cbn [rbind].
      destruct (no_values p ([(p, 0); (p, 1)] ++ (if c1 then [(p, 2)] else []) ++ (if c2 then [(p, 3)] else [])) q1) as [X1 F1].
      { right. eauto. }
      { destruct c1, c2; cbn [app]; repeat constructor. }
      { exact (Forall2_len _ _ _ H1). }
      split.
      * cbn [tags_of]. fold c1 c2. rewrite with_app.
        2:{ rewrite !app_length. pose proof (Forall2_len _ _ _ H1). pose proof (Forall2_len _ _ _ F2). rewrite !app_length in *. lia. }
        f_equal. f_equal. f_equal. rewrite !app_assoc. rewrite with_app.
        2:{ rewrite <- app_assoc. exact (Forall2_len _ _ _ H1). }
        rewrite <- app_assoc, X1. reflexivity.
      * apply Forall2_app; auto. cbn [tags_of]. fold c1 c2. rewrite !app_assoc. apply Forall2_app; auto.
    + destruct Hs as (Hp & -> & _ & Hb). unfold branch_open_query, get_branch_children_hashes in *.
      cbn [into_branch rbind] in *. rewrite (children_same a b Hstem Hchild).
      rewrite (children_hashes_ok b g St Cb p byte_range Hp) in *. cbn [rbind cmeta bm_comm] in *.
      destruct (branch_queries_ok g St p cs Hp Hb) as (q1 & E1 & H1).
      change byte_range with all_z in *. rewrite E1 in *. cbn [rbind] in *.
      destruct (open_all b o diff) as [[q3 d3]|] eqn:E3; cbn [rbind] in E; [|discriminate]. injection E as <- <-.
      destruct (IH diff Hg q3 d3 E3) as [X3 F3]. unfold retag in X3. rewrite X3. cbn [rbind].
      destruct (no_values p (map (fun z => (p, z)) cs) q1) as [X1 F1]; auto.
      { apply Forall_forall. intros x Hx. apply in_map_iff in Hx as (z & <- & _). reflexivity. }
      { exact (Forall2_len _ _ _ H1). }
      split; [|apply Forall2_app; auto]. cbn [tags_of]. rewrite with_app by exact (Forall2_len _ _ _ H1). now rewrite X1.
    + destruct Hs as (t & Hq & ->). cbn [eo_stem] in *.
      edestruct (ext_open_ok g St p t false false Hq) as (q1 & E1 & H1). rewrite E1 in *. cbn [rbind] in *.
      destruct (open_all b o (set_insert t diff)) as [[q3 d3]|] eqn:E3; cbn [rbind] in E; [|discriminate]. injection E as <- <-.
      destruct (IH _ Hg q3 d3 E3) as [X3 F3]. unfold retag in X3. rewrite X3. cbn [rbind].
      destruct (no_values p [(p, 0); (p, 1)] q1) as [X1 F1]; eauto.
      { exact (Forall2_len _ _ _ H1). }
      split; [|apply Forall2_app; auto]. cbn [tags_of]. rewrite with_app by exact (Forall2_len _ _ _ H1). now rewrite X1.
Qed.

Lemma comms_with es qs : length es = length qs ->
  map pq_comm (all_with_values m St es qs) = map pq_comm qs.
Proof.
  unfold all_with_values. revert qs; induction es as [|e es IH]; intros [|q qs] Hl; try discriminate; cbn; auto.
  f_equal; [|apply IH; auto]. unfold with_values. now destruct (holds_values St (fst e)).
Qed.
Lemma filter_comms r (qs qs' : list ProverQuery) : map pq_comm qs = map pq_comm qs' ->
  map pq_comm (filter (fun q => negb (geqb (pq_comm q) r)) qs) = map pq_comm (filter (fun q => negb (geqb (pq_comm q) r)) qs').
Proof.
  revert qs'; induction qs as [|q qs IH]; intros [|q' qs'] H; try discriminate; cbn; auto.
  cbn in H. injection H as H1 H2. rewrite H1. destruct (negb _); cbn; [f_equal|]; auto.
Qed.

(** The proof parts of the mixed prover. *)
Lemma parts_mixed keys : Forall is_key keys -> keys <> [] ->
  exists qs hint comms, create_proof_parts b keys = Ok (Some (qs, hint, comms)) /\
    create_proof_parts a keys = Ok (Some (all_with_values m St (all_entries St keys) qs, hint, comms)) /\
    Forall2 (opens g St) (all_entries St keys) qs /\ Forall2 poly_of (all_entries St keys) qs.
Proof.
  intros Hk Hne. destruct (proof_parts_ok b g St Cb keys Hk Hne) as (qs & Ep & Hq).
  do 3 eexists. split; [exact Ep|].
  destruct (collect_ok b g St Cb keys Hk) as (o & Ec & Hg & Ho).
  unfold create_proof_parts in *. destruct keys as [|k0 keys0] eqn:Ek; [contradiction|]. rewrite <- Ek in *.
  unfold create_prover_queries in *. destruct (assertb (negb (length keys =? 0)%nat)); cbn [rbind] in *; [|discriminate].
  pose proof (collect_mixed keys Hk (mkOD [] [] []) (good_nil g St)) as Cm.
  unfold collect_opening_data in *. change (reod (mkOD [] [] [])) with (mkOD [] [] []) in Cm.
  rewrite Cm, Ec. rewrite Ec in Ep. cbn [rmap rbind reod od_openings od_ext od_depths] in *.
  destruct (open_all b o []) as [[q d]|] eqn:Eo; cbn [rbind] in *; [|discriminate].
  destruct (open_all_mixed o [] Hg q d Eo) as [Xo Fo]. rewrite Xo. cbn [rbind].
  rewrite (tags_all g St keys o Hg Ho) in *.
  assert (El : length (all_entries St keys) = length q) by exact (Forall2_len _ _ _ Fo).
  destruct q as [|q0 q]; [discriminate|]. cbn [rbind] in *. set (qs' := q0 :: q) in *.
  assert (Ok3 : forall (u u' : list ProverQuery) (v v' : VerificationHint) (w w' : list G),
    Ok (Some (u, v, w)) = Ok (Some (u', v', w')) -> u = u' /\ v = v' /\ w = w')
    by (intros u u' v v' w w' H; injection H; auto).
  apply Ok3 in Ep as (Eq & Eh & Em). subst qs.
  split; [|auto]. rewrite <- Eh, <- Em. pose proof (comms_with _ _ El) as Ecm.
  remember (all_with_values m St (all_entries St keys) qs') as ws eqn:Ew.
  destruct ws as [|w ws]; [unfold qs' in Ecm; discriminate|].
  assert (Ehd : pq_comm w = pq_comm q0) by (unfold qs' in Ecm; cbn [map] in Ecm; now injection Ecm).
  do 3 f_equal. unfold comms_of_queries. f_equal. rewrite Ehd. apply filter_comms, Ecm.
Qed.
End Mixed.
