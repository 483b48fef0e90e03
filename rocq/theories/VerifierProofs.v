(** The verifier's queries, rebuilt from the prover's hint, are the prover's. *)
From Coq Require Import Permutation Sorted.
From Verif Require Import Base BaseFacts Alg AlgFacts TreeSpec TreeFacts TrieModel TrieProofs BTree WireModel ProofModel ProofSpec PathProofs OpeningProofs.

Lemma fold_map_insert_graph {K V} {C : Cmp K} {CL : CmpLaws K} (f : K -> V) l acc :
  fold_left (fun m p => map_insert (fst p) (snd p) m) (map (fun x => (x, f x)) l) (map (fun x => (x, f x)) acc) =
  map (fun x => (x, f x)) (fold_left (fun s k => set_insert k s) l acc).
Proof.
  revert acc; induction l as [|k l IH]; intro acc; cbn [map fold_left fst snd]; auto.
  now rewrite map_insert_graph, IH.
Qed.

Lemma map_of_graph {K V} {C : Cmp K} {CL : CmpLaws K} (f : K -> V) l : sorted l ->
  map_of (map (fun x => (x, f x)) l) = map (fun x => (x, f x)) l.
Proof.
  intro H. unfold map_of. pose proof (fold_map_insert_graph f l []) as E. cbn [map] in E.
  rewrite E. fold (set_of l). now rewrite set_of_sorted.
Qed.

Lemma map_get_graph {K V} {C : Cmp K} {CL : CmpLaws K} (f : K -> V) l k :
  map_get k (map (fun x => (x, f x)) l) = if set_mem k l then Some (f k) else None.
Proof.
  induction l as [|x l IH]; cbn; auto. destruct (cmp k x) eqn:E; cbn; auto.
  apply cmp_eq in E. now subst.
Qed.

Lemma map_get_graph_In {K V} {C : Cmp K} {CL : CmpLaws K} (f : K -> V) l k : In k l ->
  map_get k (map (fun x => (x, f x)) l) = Some (f k).
Proof. intro H. rewrite map_get_graph. apply set_mem_In in H. now rewrite H. Qed.

Lemma map_get_graph_notIn {K V} {C : Cmp K} {CL : CmpLaws K} (f : K -> V) l k : ~ In k l ->
  map_get k (map (fun x => (x, f x)) l) = None.
Proof.
  intro H. rewrite map_get_graph. destruct (set_mem k l) eqn:E; auto. apply set_mem_In in E. contradiction.
Qed.

Lemma combine_graph {X Y Z0} (f : X -> Y) (g : X -> Z0) l :
  combine (combine l (map f l)) (map g l) = map (fun x => (x, f x, g x)) l.
Proof. induction l as [|x l IH]; cbn; auto. now rewrite IH. Qed.
Lemma combine_map1 {X Y} (f : X -> Y) l : combine l (map f l) = map (fun x => (x, f x)) l.
Proof. induction l as [|x l IH]; cbn; auto. now rewrite IH. Qed.

Lemma stems_eqb_refl l : stems_eqb l l = true.
Proof. induction l as [|x l IH]; cbn; auto. now rewrite beqb_refl. Qed.

Lemma set_insert_same {K} {C : Cmp K} {CL : CmpLaws K} (k : K) s : sorted s -> In k s -> set_insert k s = s.
Proof.
  intros Hs Hi. apply sorted_ext; auto; [now apply sorted_set_insert|].
  intro x. rewrite In_set_insert. split; [intros [->|]|]; auto.
Qed.

Section Verifier.
Context {A : Alg} {L : AlgLaws A} {P : Par A} {PL : ParLaws P}.
Opaque vcommit gsum subtree_hash.
Context (db : MemoryDb) (m : bytes -> option bytes) (St : list bytes) (C : Canon db m St).
Let W := can_wf _ _ _ C.
Notation stem k := (firstn 31 k).

Context (keys : list bytes) (Hkeys : Forall is_key keys).

Definition stat_graph : list (bytes * (ExtPresent * Z)) :=
  map (fun s => (s, (status St s, Z.of_nat (sd St s)))) (set_of (map (firstn 31) keys)).
Definition present_stems : list bytes :=
  filter (fun s => is_present (status St s)) (set_of (map (firstn 31) keys)).

Lemma statuses_ok :
  stem_statuses (set_of (map (firstn 31) keys)) (proof_hint St keys) = (stat_graph, present_stems).
Proof.
  unfold stem_statuses, proof_hint. cbn [vh_depths vh_ext]. rewrite combine_graph. f_equal.
  - rewrite map_map. apply (map_of_graph (fun s => (status St s, Z.of_nat (sd St s)))). apply sorted_set_of.
  - assert (E : forall l : list bytes, map (fun '(s, _, _) => s)
        (filter (fun '(_, _, e) => is_present e) (map (fun x => (x, Z.of_nat (sd St x), status St x)) l))
        = filter (fun s => is_present (status St s)) l).
    { induction l as [|x l IH]; cbn; auto. destruct (is_present (status St x)); cbn; [f_equal|]; exact IH. }
    rewrite E. apply set_of_sorted, sorted_filter, sorted_set_of.
Qed.

Lemma key_in k : In k keys -> is_key k.
Proof. rewrite Forall_forall in Hkeys. auto. Qed.
Lemma stem_in_keys k : In k keys -> In (stem k) (set_of (map (firstn 31) keys)).
Proof. intro H. apply In_set_of. now apply (in_map (firstn 31)). Qed.

Lemma status_pres s : is_stem s -> status St s = ExtPres <-> In s St.
Proof.
  intro Hs. unfold status. split.
  - destruct (stem_at St (firstn (sd St s) s)) as [t|] eqn:E; [|discriminate].
    destruct (beqb_spec t s) as [->|]; [|discriminate]. intros _. now apply stem_at_In in E.
  - intro H. pose proof (end_stem_self db m St C s H) as E. unfold end_stem in E. now rewrite E, beqb_refl.
Qed.

Lemma In_present t : In t present_stems <-> In t (map (firstn 31) keys) /\ In t St.
Proof.
  unfold present_stems. rewrite filter_In, In_set_of.
  split; intros [H1 H2]; split; auto.
  - apply in_map_iff in H1 as (k & <- & Hk). apply status_pres; [apply key_stem, key_in; auto|].
    destruct (status St (stem k)); auto; discriminate.
  - apply in_map_iff in H1 as (k & <- & Hk).
    apply status_pres in H2; [|apply key_stem, key_in; auto]. now rewrite H2.
Qed.

(** At most one stem of the tree lies below the end of a walk. *)
Lemma filter_single l q t : stem_at St q = Some t -> NoDup l -> (forall x, In x l -> In x St) ->
  filter (fun x => beqb (firstn (length q) x) q) l = if in_dec bytes_dec t l then [t] else [].
Proof.
  intros Hq Hn Hl. apply stem_at_spec in Hq as (_ & _ & Hq).
  assert (X : forall x, In x l -> beqb (firstn (length q) x) q = true <-> x = t).
  { intros x Hx. fold (has_prefix q x). split.
    - intro H. assert (I : In x (under St q)) by (apply under_In; auto). rewrite Hq in I.
      destruct I as [->|[]]; auto.
    - intros ->. assert (I : In t (under St q)) by (rewrite Hq; now left). now apply under_In in I. }
  clear Hl. induction l as [|x l IH]; cbn [filter]; auto. inversion Hn; subst.
  assert (IH' : filter (fun x => beqb (firstn (length q) x) q) l = if in_dec bytes_dec t l then [t] else []).
  { apply IH; auto. intros y Hy. apply X. now right. }
  destruct (bytes_dec x t) as [->|Hne].
  - rewrite (proj2 (X t (or_introl eq_refl)) eq_refl), IH'.
    destruct (in_dec bytes_dec t (t :: l)) as [_|Hn']; [|exfalso; apply Hn'; now left].
    destruct (in_dec bytes_dec t l); [contradiction|reflexivity].
  - assert (beqb (firstn (length q) x) q = false) as ->.
    { apply not_true_iff_false. intro E. apply (X x (or_introl eq_refl)) in E. contradiction. }
    rewrite IH'. destruct (in_dec bytes_dec t l) as [a|a], (in_dec bytes_dec t (x :: l)) as [b|b]; auto.
    + exfalso. apply b. now right.
    + destruct b; contradiction.
Qed.

(** ** The state after some keys *)
Record VInv (K : list bytes) (s : VState) : Prop := {
  vi_pzs_sorted : sorted (vs_pzs s);
  vi_pzs : forall x, In x (vs_pzs s) <-> In x (flat_map (entries St) K);
  vi_paths_sorted : sorted (vs_paths s);
  vi_paths : forall p, In p (vs_paths s) <-> In p (map fst (flat_map (entries St) K));
  vi_true : forall p z y, map_get (p, z) (vs_leaf s) = Some y -> is_node St p -> y = node_vec m St p z;
  vi_has : forall k t, In k K -> stem_at St (qpos St k) = Some t ->
    map_get (qpos St k, 0) (vs_leaf s) <> None /\
    (t = stem k ->
       map_get (qpos St k, 1) (vs_leaf s) <> None /\
       map_get (qpos St k ++ [hsel (nth 31 k 0)], 2 * (nth 31 k 0 mod 128)) (vs_leaf s) <> None /\
       map_get (qpos St k ++ [hsel (nth 31 k 0)], 2 * (nth 31 k 0 mod 128) + 1) (vs_leaf s) <> None) /\
    (t <> stem k -> ~ In t present_stems -> map_get (qpos St k, 1) (vs_leaf s) <> None);
  vi_used_sorted : sorted (vs_used s);
  vi_used : forall t, In t (vs_used s) <->
    exists k, In k K /\ stem_at St (qpos St k) = Some t /\ t <> stem k /\ ~ In t present_stems;
  vi_others_sorted : msorted (vs_others s);
  vi_others : forall p t, map_get p (vs_others s) = Some t <->
    stem_at St p = Some t /\ exists k, In k K /\ p = qpos St k /\ t <> stem k
}.

Lemma vinv_empty : VInv [] vs_empty.
Proof.
  constructor; cbn [vs_empty vs_used vs_paths vs_pzs vs_leaf vs_others flat_map map In map_get].
  - constructor.
  - intro x. reflexivity.
  - constructor.
  - intro x. reflexivity.
  - discriminate.
  - intros k t [].
  - constructor.
  - intro t. split; [intros []|]. intros (k & [] & _).
  - constructor.
  - intros p t. split; [discriminate|]. intros (_ & k & [] & _).
Qed.

Lemma add_branches_eq s l st : Forall (fun i => (i < 31)%nat) l -> length s = 31%nat ->
  add_branches s l st =
  Ok (mkVS (vs_used st) (fold_left (fun a k => set_insert k a) (map (fun i => firstn i s) l) (vs_paths st))
        (fold_left (fun a k => set_insert k a) (map (fun i => (firstn i s, nth i s 0)) l) (vs_pzs st))
        (vs_leaf st) (vs_others st)).
Proof.
  revert st; induction l as [|i l IH]; intros st Hl Hs; cbn [add_branches map fold_left].
  - now destruct st.
  - apply Forall_cons_iff in Hl as [Hi Hl]. unfold slice.
    assert (((0 <=? i)%nat && (i <=? length s)%nat)%bool = true) as ->
      by (apply andb_true_iff; split; apply Nat.leb_le; lia).
    cbn [rbind skipn]. rewrite Nat.sub_0_r. unfold Base.index.
    rewrite (nth_error_nth' s 0) by lia. cbn [unwrap rbind]. rewrite IH by auto. reflexivity.
Qed.

(** Leaf insertions keep the table true when the inserted entry is. *)
Lemma get_insert_some {K V} {CK : Cmp K} {CL : CmpLaws K} (a b : K) (v : V) mm :
  map_get a mm <> None -> map_get a (map_insert b v mm) <> None.
Proof. intro H. rewrite map_get_insert. destruct (cmp a b); auto. discriminate. Qed.
Lemma get_insert_self {K V} {CK : Cmp K} {CL : CmpLaws K} (a : K) (v : V) mm :
  map_get a (map_insert a v mm) <> None.
Proof. rewrite map_get_insert_eq. discriminate. Qed.

Definition leaf_true (lf : list ((bytes * Z) * F)) : Prop :=
  forall p z y, map_get (p, z) lf = Some y -> is_node St p -> y = node_vec m St p z.
Lemma leaf_true_insert lf p z y : leaf_true lf -> (is_node St p -> y = node_vec m St p z) ->
  leaf_true (map_insert (p, z) y lf).
Proof.
  intros H Hy p' z' y' E Hp. rewrite map_get_insert in E.
  destruct (cmp (p', z') (p, z)) eqn:Ec; [|exact (H _ _ _ E Hp)|exact (H _ _ _ E Hp)].
  apply cmp_eq in Ec. injection Ec as -> ->. injection E as <-. auto.
Qed.

(** An empty slot is not a node. *)
Lemma empty_not_node s : is_stem s -> stem_at St (firstn (sd St s) s) = None -> ~ is_node St (firstn (sd St s) s).
Proof.
  intros Hs Hq. assert (Hl : length s = 31%nat) by apply Hs.
  destruct (sd_spec St s W Hl) as (Hi & Hn & Hb).
  intros [H|[(t & H)|(q & t & Ht & H)]]; try congruence.
  assert (E : removelast (firstn (sd St s) s) = q) by (destruct H as [->| ->]; apply removelast_last).
  destruct (sd St s) as [|e]; [lia|]. rewrite removelast_firstn_S in E by lia.
  apply stem_at_spec in Ht as (Ht & _). rewrite <- E, (Hi e) in Ht by lia. discriminate.
Qed.

Lemma verify_key_ok K s k : In k keys -> VInv K s ->
  exists s', verify_key stat_graph present_stems (proof_diff St keys) s (k, m k) = Ok (Some s') /\
    VInv (K ++ [k]) s'.
Proof.
  intros Hin I. pose proof (key_in k Hin) as Hk.
  set (st := stem k). assert (Hs : is_stem st) by apply (key_stem k Hk).
  assert (Hl : length st = 31%nat) by apply Hs.
  assert (Hkl : length k = 32%nat) by apply Hk.
  destruct (sd_spec St st W Hl) as (Hi & Hn & Hb).
  unfold verify_key. fold st. unfold stat_graph at 1.
  rewrite (map_get_graph_In (fun s => (status St s, Z.of_nat (sd St s)))) by (apply stem_in_keys; auto).
  cbn [unwrap rbind]. rewrite Nat2Z.id.
  rewrite add_branches_eq; [|apply Forall_forall; intros i Hi'; apply in_seq in Hi'; lia|auto].
  cbn [rbind].
  set (bt := map (fun i => (firstn i st, nth i st 0)) (seq 0 (sd St st))).
  set (bp := map (fun i => firstn i st) (seq 0 (sd St st))).
  assert (Ebp : bp = map fst bt) by (unfold bp, bt; rewrite map_map; reflexivity).
  destruct (fold_set_spec bt (vs_pzs s) (vi_pzs_sorted _ _ I)) as [Sz Iz].
  destruct (fold_set_spec bp (vs_paths s) (vi_paths_sorted _ _ I)) as [Sp Ip].
  set (Z1 := fold_left (fun a k => set_insert k a) bt (vs_pzs s)) in *.
  set (P1 := fold_left (fun a k => set_insert k a) bp (vs_paths s)) in *.
  assert (Eent : entries St k = bt ++ match stem_at St (qpos St k) with
      | None => []
      | Some t => [(qpos St k, 0); (qpos St k, 1)] ++
          (if beqb t st then [(qpos St k, hsel (nth 31 k 0)); (qpos St k ++ [hsel (nth 31 k 0)], 2 * (nth 31 k 0 mod 128));
             (qpos St k ++ [hsel (nth 31 k 0)], 2 * (nth 31 k 0 mod 128) + 1)] else []) end) by reflexivity.
  assert (Efm : forall x, In x (flat_map (entries St) (K ++ [k])) <-> In x (flat_map (entries St) K) \/ In x (entries St k)).
  { intro x. rewrite flat_map_app, in_app_iff. cbn [flat_map]. rewrite app_nil_r. reflexivity. }
  assert (Efp : forall p, In p (map fst (flat_map (entries St) (K ++ [k]))) <->
     In p (map fst (flat_map (entries St) K)) \/ In p (map fst (entries St k))).
  { intro p. rewrite flat_map_app, map_app, in_app_iff. cbn [flat_map]. rewrite app_nil_r. reflexivity. }
  assert (Hslice : slice 0 (sd St st) st = Ok (firstn (sd St st) st)).
  { unfold slice. assert (((0 <=? sd St st)%nat && (sd St st <=? length st)%nat)%bool = true) as ->
      by (apply andb_true_iff; split; apply Nat.leb_le; lia). cbn [skipn]. now rewrite Nat.sub_0_r. }
  assert (Hq : firstn (sd St st) st = qpos St k) by reflexivity.
  unfold status. rewrite Hq. destruct (stem_at St (qpos St k)) as [t|] eqn:Et.
  - (* the walk ends in a stem *)
    assert (Nq : is_node St (qpos St k)) by (right; left; eauto).
    rewrite Hslice, Hq.
    destruct (beqb_spec t st) as [Ets|Hne].
    + (* present *)
      cbn [rbind]. unfold Base.index. rewrite (nth_error_nth' k 0) by (unfold bytes in *; lia).
      cbn [unwrap rbind]. subst t.
      set (sfx := nth 31 k 0) in *.
      assert (Hb' : is_byte sfx) by (apply key_byte; auto; lia).
      assert (Nsp : is_node St (qpos St k ++ [hsel sfx])).
      { right; right. exists (qpos St k), st. split; auto. unfold hsel. destruct (sfx <? 128); auto. }
      assert (Ehs : hsel sfx - 2 = sfx / 128).
      { unfold hsel, is_byte in *. destruct (Z.ltb_spec sfx 128); [rewrite Z.div_small by lia; reflexivity|].
        apply Z.div_unique with (sfx - 128); lia. }
      destruct (suffix_vec_low m st sfx Hb') as [Elo Ehi].
      assert (Ek : st ++ [sfx] = k) by (symmetry; apply key_split; auto). rewrite Ek in Elo, Ehi.
      rewrite <- Ehs in Elo, Ehi. rewrite <- (node_vec_suffix m St (qpos St k) st (hsel sfx) Et) in Elo, Ehi.
      assert (Hents : forall x, In x (entries St k) <-> In x bt \/ x = (qpos St k, 0) \/ x = (qpos St k, 1) \/
        x = (qpos St k, hsel sfx) \/ x = (qpos St k ++ [hsel sfx], 2 * (sfx mod 128)) \/
        x = (qpos St k ++ [hsel sfx], 2 * (sfx mod 128) + 1)).
      { intro x. rewrite Eent, !in_app_iff. cbn [In]. split.
        - intros [H|[[H|[H|[]]]|[H|[H|[H|[]]]]]]; auto 7.
        - intros [H|[H|[H|[H|[H|H]]]]]; auto 7. }
      assert (Hentp : forall p, In p (map fst (entries St k)) <-> In p bp \/ p = qpos St k \/ p = qpos St k ++ [hsel sfx]).
      { intro p. rewrite Ebp, !in_map_iff. split.
        - intros (x & <- & Hx). apply Hents in Hx as [Hx|[->|[->|[->|[->| ->]]]]]; auto. left. eauto.
        - intros [(x & <- & Hx)|[->| ->]]; [exists x|exists (qpos St k, 0)
            |exists (qpos St k ++ [hsel sfx], 2 * (sfx mod 128))]; (split; [reflexivity|]); apply Hents; auto 7. }
      eexists. split.
      { unfold add_present. fold (hsel sfx).
        replace (match m k with Some v => (value_low v, value_high v) | None => (fzero, fzero) end)
          with (leaf_low (m k), leaf_high (m k)) by (destruct (m k); reflexivity).
        reflexivity. }
      constructor; cbn [vs_used vs_paths vs_pzs vs_leaf vs_others add_leaf add_pz add_path add_other add_used].
      * repeat apply sorted_set_insert. exact Sz.
      * intro x. rewrite !In_set_insert, Iz, (vi_pzs _ _ I), Efm, Hents. tauto.
      * repeat apply sorted_set_insert. exact Sp.
      * intro p. rewrite !In_set_insert, Ip, (vi_paths _ _ I), Efp, Hentp. tauto.
      * apply leaf_true_insert; [|rewrite Ehi; auto]. apply leaf_true_insert; [|rewrite Elo; auto].
        apply leaf_true_insert; [|intros _; rewrite (node_vec_ext m St _ _ Et); reflexivity].
        apply leaf_true_insert; [|intros _; rewrite (node_vec_ext m St _ _ Et); reflexivity].
        exact (vi_true _ _ I).
      * intros k' t' Hk' Ht'. apply in_app_iff in Hk' as [Hk'|[<-|[]]].
        -- destruct (vi_has _ _ I k' t' Hk' Ht') as (H1 & H2 & H3).
           split; [repeat apply get_insert_some; exact H1|]. split.
           ++ intro E. destruct (H2 E) as (H4 & H5 & H6). repeat split; repeat apply get_insert_some; auto.
           ++ intros E1 E2. repeat apply get_insert_some. auto.
        -- split; [|split].
           ++ do 3 apply get_insert_some. apply get_insert_self.
           ++ intros _. split; [|split].
              ** do 2 apply get_insert_some. apply get_insert_self.
              ** apply get_insert_some. apply get_insert_self.
              ** apply get_insert_self.
           ++ intros _ _. do 2 apply get_insert_some. apply get_insert_self.
      * exact (vi_used_sorted _ _ I).
      * intro t'. rewrite (vi_used _ _ I). split.
        -- intros (k' & H1 & H2). exists k'. split; auto. apply in_app_iff; auto.
        -- intros (k' & H1 & H2 & H3 & H4). apply in_app_iff in H1 as [H1|[<-|[]]]; [eauto 6|].
           rewrite Et in H2. injection H2 as <-. contradiction.
      * exact (vi_others_sorted _ _ I).
      * intros p t'. rewrite (vi_others _ _ I). split.
        -- intros (H1 & k' & H2 & H3). split; auto. exists k'. split; auto. apply in_app_iff; auto.
        -- intros (H1 & k' & H2 & H3 & H4). split; auto. apply in_app_iff in H2 as [H2|[<-|[]]]; [eauto|].
           subst p. rewrite Et in H1. injection H1 as <-. contradiction.
    + (* another stem *)
      cbn [rbind]. unfold add_different.
      destruct (stem_at_In St _ _ Et) as [HtS Hpre].
      assert (Emk : m k = None).
      { destruct (m k) as [v|] eqn:Ev; auto. destruct (can_keys _ _ _ C k v Ev) as [_ HS]. fold st in HS.
        pose proof (end_stem_self db m St C st HS) as E. unfold end_stem in E. rewrite Hq, Et in E.
        injection E as ->. contradiction. }
      rewrite Emk. rewrite Hl.
      assert (Hlq : length (qpos St k) = sd St st) by (unfold qpos; fold st; rewrite firstn_length; lia).
      assert (Hd31 : (sd St st =? 31)%nat = false).
      { apply Nat.eqb_neq. intro E. apply Hne. symmetry.
        assert (qpos St k = st) by (unfold qpos; fold st; rewrite E, <- Hl; apply firstn_all).
        rewrite H in Hpre. apply has_prefix_same_len; auto. rewrite Hl. symmetry. now apply (wfS_len St). }
      rewrite Hd31. cbn [negb assertb rbind].
      assert (Nst : forall l, NoDup l -> (forall x, In x l -> In x St) ->
         filter (fun x => beqb (firstn (sd St st) x) (firstn (sd St st) st)) l = if in_dec bytes_dec t l then [t] else []).
      { intros l Hnd Hsub. rewrite Hq, <- Hlq. now apply filter_single. }
      rewrite (Nst present_stems).
      2:{ apply NoDup_filter. apply sorted_NoDup, sorted_set_of. }
      2:{ intros x Hx. now apply In_present in Hx. }
      assert (Hents : forall x, In x (entries St k) <-> In x bt \/ x = (qpos St k, 0) \/ x = (qpos St k, 1)).
      { intro x. rewrite Eent, in_app_iff. cbn [app In]. intuition auto. }
      assert (Hentp : forall p, In p (map fst (entries St k)) <-> In p bp \/ p = qpos St k).
      { intro p. rewrite Ebp, !in_map_iff. split.
        - intros (x & <- & Hx). apply Hents in Hx as [Hx|[->| ->]]; auto. left. eauto.
        - intros [(x & <- & Hx)| ->]; [exists x|exists (qpos St k, 0)]; (split; [reflexivity|]); apply Hents; auto. }
      destruct (in_dec bytes_dec t present_stems) as [Hp|Hp].
      * eexists. split; [reflexivity|].
        constructor; cbn [vs_used vs_paths vs_pzs vs_leaf vs_others add_leaf add_pz add_path add_other add_used].
        -- repeat apply sorted_set_insert. exact Sz.
        -- intro x. rewrite !In_set_insert, Iz, (vi_pzs _ _ I), Efm, Hents. tauto.
        -- repeat apply sorted_set_insert. exact Sp.
        -- intro p. rewrite !In_set_insert, Ip, (vi_paths _ _ I), Efp, Hentp. tauto.
        -- apply leaf_true_insert; [|intros _; rewrite (node_vec_ext m St _ _ Et); reflexivity].
           exact (vi_true _ _ I).
        -- intros k' t' Hk' Ht'. apply in_app_iff in Hk' as [Hk'|[<-|[]]].
           ++ destruct (vi_has _ _ I k' t' Hk' Ht') as (H1 & H2 & H3).
              split; [repeat apply get_insert_some; exact H1|]. split.
              ** intro E. destruct (H2 E) as (H4 & H5 & H6). repeat split; repeat apply get_insert_some; auto.
              ** intros E1 E2. repeat apply get_insert_some. auto.
           ++ rewrite Et in Ht'. injection Ht' as <-. split; [apply get_insert_self|]. split.
              ** intro E. contradiction.
              ** intros _ E. contradiction.
        -- exact (vi_used_sorted _ _ I).
        -- intro t'. rewrite (vi_used _ _ I). split.
           ++ intros (k' & H1 & H2). exists k'. split; auto. apply in_app_iff; auto.
           ++ intros (k' & H1 & H2 & H3 & H4). apply in_app_iff in H1 as [H1|[<-|[]]]; [eauto 6|].
              rewrite Et in H2. injection H2 as <-. contradiction.
        -- apply msorted_insert, (vi_others_sorted _ _ I).
        -- intros p t'. rewrite Hq. destruct (bytes_dec p (qpos St k)) as [->|Hpn].
           ++ rewrite map_get_insert_eq. split.
              ** intros [= <-]. split; auto. exists k. split; [apply in_app_iff; right; now left|auto].
              ** intros (H1 & _). congruence.
           ++ rewrite map_get_insert_ne by auto. rewrite (vi_others _ _ I). split.
              ** intros (H1 & k' & H2 & H3). split; auto. exists k'. split; auto. apply in_app_iff; auto.
              ** intros (H1 & k' & H2 & H3 & H4). split; auto. apply in_app_iff in H2 as [H2|[<-|[]]]; [eauto|].
                 contradiction.
      * rewrite (Nst (proof_diff St keys)).
        2:{ apply NoDup_filter. apply sorted_NoDup, sorted_set_of. }
        2:{ intros x Hx. apply In_proof_diff in Hx as [(k' & Hk' & Hx) _]. now apply stem_at_In in Hx. }
        assert (Hdiff : In t (proof_diff St keys)).
        { apply In_proof_diff. split; [eauto|]. intro H. apply Hp, In_present. auto. }
        destruct (in_dec bytes_dec t (proof_diff St keys)) as [_|]; [|contradiction].
        cbn [rev app hd_error unwrap rbind].
        eexists. split; [reflexivity|].
        constructor; cbn [vs_used vs_paths vs_pzs vs_leaf vs_others add_leaf add_pz add_path add_other add_used].
        -- repeat apply sorted_set_insert. exact Sz.
        -- intro x. rewrite !In_set_insert, Iz, (vi_pzs _ _ I), Efm, Hents. tauto.
        -- repeat apply sorted_set_insert. exact Sp.
        -- intro p. rewrite !In_set_insert, Ip, (vi_paths _ _ I), Efp, Hentp. tauto.
        -- rewrite Hq.
           apply leaf_true_insert; [|intros _; rewrite (node_vec_ext m St _ _ Et); reflexivity].
           apply leaf_true_insert; [|intros _; rewrite (node_vec_ext m St _ _ Et); reflexivity].
           exact (vi_true _ _ I).
        -- rewrite Hq. intros k' t' Hk' Ht'. apply in_app_iff in Hk' as [Hk'|[<-|[]]].
           ++ destruct (vi_has _ _ I k' t' Hk' Ht') as (H1 & H2 & H3).
              split; [repeat apply get_insert_some; exact H1|]. split.
              ** intro E. destruct (H2 E) as (H4 & H5 & H6). repeat split; repeat apply get_insert_some; auto.
              ** intros E1 E2. repeat apply get_insert_some. auto.
           ++ rewrite Et in Ht'. injection Ht' as <-. split; [apply get_insert_some, get_insert_self|]. split.
              ** intro E. contradiction.
              ** intros _ E. apply get_insert_self.
        -- apply sorted_set_insert. exact (vi_used_sorted _ _ I).
        -- intro t'. rewrite In_set_insert, (vi_used _ _ I). split.
           ++ intros [->|(k' & H1 & H2)].
              ** exists k. split; [apply in_app_iff; right; now left|]. auto.
              ** exists k'. split; auto. apply in_app_iff; auto.
           ++ intros (k' & H1 & H2 & H3 & H4). apply in_app_iff in H1 as [H1|[<-|[]]]; [eauto 7|].
              rewrite Et in H2. injection H2 as <-. auto.
        -- apply msorted_insert, (vi_others_sorted _ _ I).
        -- intros p t'. rewrite Hq. destruct (bytes_dec p (qpos St k)) as [->|Hpn].
           ++ rewrite map_get_insert_eq. split.
              ** intros [= <-]. split; auto. exists k. split; [apply in_app_iff; right; now left|auto].
              ** intros (H1 & _). congruence.
           ++ rewrite map_get_insert_ne by auto. rewrite (vi_others _ _ I). split.
              ** intros (H1 & k' & H2 & H3). split; auto. exists k'. split; auto. apply in_app_iff; auto.
              ** intros (H1 & k' & H2 & H3 & H4). split; auto. apply in_app_iff in H2 as [H2|[<-|[]]]; [eauto|].
                 contradiction.
  - (* an empty slot *)
    assert (Emk : m k = None).
    { destruct (m k) as [v|] eqn:Ev; auto. destruct (can_keys _ _ _ C k v Ev) as [_ HS]. fold st in HS.
      pose proof (end_stem_self db m St C st HS) as E. unfold end_stem in E. rewrite Hq, Et in E. discriminate. }
    rewrite Emk. unfold add_none.
    assert (Hents : forall x, In x (entries St k) <-> In x bt).
    { intro x. rewrite Eent, app_nil_r. reflexivity. }
    assert (Hentp : forall p, In p (map fst (entries St k)) <-> In p bp).
    { intro p. rewrite Ebp, Eent, app_nil_r. reflexivity. }
    assert (Hres : exists p z, (is_node St p -> fzero = node_vec m St p z) /\
      (if (sd St st =? 1)%nat
       then let! z := Base.index st 0 in
            Ok (Some (add_leaf [] z fzero (mkVS (vs_used s) P1 Z1 (vs_leaf s) (vs_others s))))
       else let! p := slice 0 (sd St st) st in
            let! _ := assertb (negb (sd St st =? 0)%nat) in
            let! z := Base.index st (sd St st - 1) in
            Ok (Some (add_leaf p z fzero (mkVS (vs_used s) P1 Z1 (vs_leaf s) (vs_others s))))) =
      Ok (Some (add_leaf p z fzero (mkVS (vs_used s) P1 Z1 (vs_leaf s) (vs_others s))))).
    { unfold Base.index. destruct (Nat.eqb_spec (sd St st) 1) as [E1|E1].
      - exists [], (nth 0 st 0). rewrite (nth_error_nth' st 0) by lia. split; [|reflexivity].
        intros _. rewrite node_vec_inner by reflexivity.
        change (inner_vec m St [] (nth 0 st 0)) with (cval m St ([] ++ [nth 0 st 0])).
        assert (E : [] ++ [nth 0 st 0] = qpos St k).
        { unfold qpos. fold st. rewrite E1. rewrite (firstn_S_nth 0 0 st) by lia. reflexivity. }
        unfold bytes in *. rewrite E. symmetry. apply cval_none.
        pose proof (end_stem_spec db m St C st Hl) as X. unfold end_stem in X. rewrite Hq, Et in X. exact X.
      - exists (qpos St k), (nth (sd St st - 1) st 0). rewrite Hslice. cbn [rbind].
        rewrite (nth_error_nth' st 0) by lia.
        assert ((sd St st =? 0)%nat = false) as -> by (apply Nat.eqb_neq; lia).
        split; [|reflexivity]. intro N. exfalso. revert N. apply empty_not_node; auto. }
    destruct Hres as (p0 & z0 & Htrue & ->). eexists. split; [reflexivity|].
    constructor; cbn [vs_used vs_paths vs_pzs vs_leaf vs_others add_leaf add_pz add_path add_other add_used].
    + exact Sz.
    + intro x. rewrite Iz, (vi_pzs _ _ I), Efm, Hents. tauto.
    + exact Sp.
    + intro p. rewrite Ip, (vi_paths _ _ I), Efp, Hentp. tauto.
    + apply leaf_true_insert; auto. exact (vi_true _ _ I).
    + intros k' t' Hk' Ht'. apply in_app_iff in Hk' as [Hk'|[<-|[]]]; [|congruence].
      destruct (vi_has _ _ I k' t' Hk' Ht') as (H1 & H2 & H3).
      split; [repeat apply get_insert_some; exact H1|]. split.
      * intro E. destruct (H2 E) as (H4 & H5 & H6). repeat split; repeat apply get_insert_some; auto.
      * intros E1 E2. repeat apply get_insert_some. auto.
    + exact (vi_used_sorted _ _ I).
    + intro t'. rewrite (vi_used _ _ I). split.
      * intros (k' & H1 & H2). exists k'. split; auto. apply in_app_iff; auto.
      * intros (k' & H1 & H2 & H3 & H4). apply in_app_iff in H1 as [H1|[<-|[]]]; [eauto 6|congruence].
    + exact (vi_others_sorted _ _ I).
    + intros p t'. rewrite (vi_others _ _ I). split.
      * intros (H1 & k' & H2 & H3). split; auto. exists k'. split; auto. apply in_app_iff; auto.
      * intros (H1 & k' & H2 & H3 & H4). split; auto. apply in_app_iff in H2 as [H2|[<-|[]]]; [eauto|].
        subst p. congruence.
Qed.

Lemma verify_keys_ok K1 K2 s : (forall k, In k K2 -> In k keys) -> VInv K1 s ->
  exists s', verify_keys stat_graph present_stems (proof_diff St keys) s (combine K2 (map m K2)) = Ok (Some s') /\
    VInv (K1 ++ K2) s'.
Proof.
  revert K1 s; induction K2 as [|k K2 IH]; intros K1 s Hin I; cbn [map combine verify_keys].
  - exists s. rewrite app_nil_r. auto.
  - destruct (verify_key_ok K1 s k (Hin k (or_introl eq_refl)) I) as (s1 & -> & I1). cbn [rbind].
    destruct (IH (K1 ++ [k]) s1) as (s2 & E2 & I2); auto.
    { intros x Hx. apply Hin. now right. }
    exists s2. rewrite <- app_assoc in I2. auto.
Qed.

(** ** Commitments by path *)
Lemma opened_node p : In p (map fst (flat_map (entries St) keys)) -> is_node St p.
Proof.
  intro H. apply in_map_iff in H as ([p' z] & <- & H). cbn [fst].
  apply in_flat_map in H as (k & Hk & H). pose proof (key_in k Hk) as Hk'.
  apply (entries_cases St k p' z Hk') in H.
  destruct (sd_spec St (stem k) W) as (Hi & _); [apply (key_stem k Hk')|].
  destruct H as [(i & Hlt & -> & _)|[(-> & t & Ht & _)|(-> & Ht & _)]].
  - left. auto.
  - right; left. eauto.
  - right; right. exists (qpos St k), (stem k). split; auto. unfold hsel. destruct (nth 31 k 0 <? 128); auto.
Qed.

Definition comm_graph : list (bytes * G) := map (fun p => (p, node_comm m St p)) (opened St keys).

Lemma In_opened p : In p (opened St keys) <-> In p (map fst (flat_map (entries St) keys)).
Proof.
  unfold opened. rewrite In_set_of, !in_map_iff. unfold all_entries.
  split; intros (x & E & H); exists x; (split; [exact E|]).
  - exact (proj1 (In_set_of _ _) H).
  - exact (proj2 (In_set_of _ _) H).
Qed.

Lemma expected_ok s p z : VInv keys s -> In (p, z) (all_entries St keys) ->
  expected_y (vs_leaf s) comm_graph (p, z) = node_vec m St p z.
Proof.
  intros I Hin. unfold all_entries in Hin. apply (proj1 (In_set_of _ _)) in Hin.
  assert (Np : is_node St p) by (apply opened_node; exact (in_map fst _ (p, z) Hin)).
  unfold expected_y. destruct (map_get (p, z) (vs_leaf s)) as [y|] eqn:E.
  { exact (vi_true _ _ I p z y E Np). }
  cbn [fst snd]. apply in_flat_map in Hin as (k & Hk & Hin). pose proof (key_in k Hk) as Hkey.
  assert (Hl : length (stem k) = 31%nat) by apply (key_stem k Hkey).
  destruct (sd_spec St (stem k) W Hl) as (Hi & Hn & Hb).
  assert (Hop : forall x, In x (entries St k) -> In (fst x) (opened St keys)).
  { intros x Hx. apply In_opened. apply in_map_iff. exists x. split; auto. apply in_flat_map. eauto. }
  pose proof Hin as Hin'. apply (entries_cases St k p z Hkey) in Hin.
  destruct Hin as [(i & Hlt & -> & ->)|[(-> & t & Ht & Hz)|(-> & Ht & Hz)]].
  - (* inner node *)
    assert (Ep : firstn i (stem k) ++ [nth i (stem k) 0] = firstn (S i) (stem k))
      by (rewrite <- (firstn_S_nth 0 i (stem k)) by lia; reflexivity).
    rewrite node_vec_inner by auto.
    change (inner_vec m St (firstn i (stem k)) (nth i (stem k) 0))
      with (cval m St (firstn i (stem k) ++ [nth i (stem k) 0])).
    unfold bytes in *. rewrite Ep.
    destruct (Nat.eq_dec (S i) (sd St (stem k))) as [Ed|Ed].
    + rewrite Ed. fold (qpos St k).
      destruct (stem_at St (qpos St k)) as [t|] eqn:Et.
      * unfold comm_graph. rewrite (map_get_graph_In (node_comm m St)).
        -- unfold node_comm. rewrite (node_vec_ext m St _ t Et). fold (ext_comm m t).
           symmetry. apply cval_one. now apply stem_at_spec in Et.
        -- apply (Hop (qpos St k, 0)). apply (entries_cases St k (qpos St k) 0 Hkey). right; left. split; eauto.
      * unfold comm_graph. rewrite (map_get_graph_notIn (node_comm m St)).
        -- symmetry. apply cval_none.
           pose proof (end_stem_spec db m St C (stem k) Hl) as X. unfold end_stem in X. fold (qpos St k) in X.
           rewrite Et in X. exact X.
        -- intro H. apply In_opened, opened_node in H. revert H. apply empty_not_node; auto. apply key_stem; auto.
    + unfold comm_graph. rewrite (map_get_graph_In (node_comm m St)).
      * unfold node_comm. rewrite node_vec_inner by (apply Hi; lia). fold (inner_comm m St (firstn (S i) (stem k))).
        symmetry. apply cval_many; auto. apply internal_many; [apply Hi; lia|].
        intro X. apply (f_equal (@length Z)) in X. rewrite firstn_length in X. cbn [length] in X. lia.
      * apply (Hop (firstn (S i) (stem k), nth (S i) (stem k) 0)).
        apply (entries_cases St k _ _ Hkey). left. exists (S i). repeat split. lia.
  - (* extension node *)
    destruct (vi_has _ _ I k t Hk Ht) as (H0 & H1 & H2).
    destruct Hz as [->|[->|[-> ->]]]; [congruence| |].
    + exfalso. destruct (bytes_dec t (stem k)) as [Hts|Hts].
      * destruct (H1 Hts) as (X & _). congruence.
      * destruct (in_dec bytes_dec t present_stems) as [Hp|Hp].
        -- apply In_present in Hp as [Hp _]. apply in_map_iff in Hp as (k' & E' & Hk').
           assert (Eq : qpos St k' = qpos St k).
           { unfold qpos at 1. rewrite E'. symmetry. apply (stem_pos db m St C); auto. }
           destruct (vi_has _ _ I k' t Hk') as (_ & X & _); [now rewrite Eq|].
           destruct (X (eq_sym E')) as (X' & _). rewrite Eq in X'. congruence.
        -- now apply H2.
    + unfold comm_graph. rewrite (map_get_graph_In (node_comm m St)).
      * rewrite (node_vec_ext m St _ _ Ht). unfold node_comm. rewrite (node_vec_suffix m St _ _ _ Ht).
        unfold hsel. destruct (nth 31 k 0 <? 128); reflexivity.
      * apply (Hop (qpos St k ++ [hsel (nth 31 k 0)], 2 * (nth 31 k 0 mod 128))).
        apply (entries_cases St k _ _ Hkey). right; right. auto.
  - (* values *)
    destruct (vi_has _ _ I k _ Hk Ht) as (_ & H1 & _). destruct (H1 eq_refl) as (_ & Hlo & Hhi).
    destruct Hz as [->| ->]; exfalso; [exact (Hlo E)|exact (Hhi E)].
Qed.

Definition vquery (pz : bytes * Z) : VerifierQuery :=
  mkVQ (node_comm m St (fst pz)) (of_Z (snd pz)) (node_vec m St (fst pz) (snd pz)).

Lemma verifier_queries_ok s l : VInv keys s -> (forall x, In x l -> In x (all_entries St keys)) ->
  verifier_queries (vs_leaf s) comm_graph l = Ok (map vquery l).
Proof.
  intro I. induction l as [|[p z] l IH]; intro Hl; cbn [verifier_queries map]; auto.
  pose proof (Hl (p, z) (or_introl eq_refl)) as Hpz. cbn [fst].
  unfold comm_graph at 1. rewrite (map_get_graph_In (node_comm m St)).
  - cbn [unwrap rbind]. rewrite IH by (intros x Hx; apply Hl; now right). cbn [rbind].
    rewrite (expected_ok s p z I Hpz). reflexivity.
  - unfold opened. apply In_set_of. apply in_map_iff. exists (p, z). auto.
Qed.

(** The commitments the prover lists are those of the opened nodes, once. *)
Fixpoint runs (l : list bytes) : list bytes :=
  match l with
  | [] => []
  | x :: l' => match l' with [] => [x] | y :: _ => if beqb x y then runs l' else x :: runs l' end
  end.

Lemma runs_hd x l : exists r, runs (x :: l) = x :: r.
Proof.
  revert x; induction l as [|y l IH]; intro x; [exists []; reflexivity|].
  cbn [runs]. destruct (beqb_spec x y) as [->|_]; [apply IH|]. destruct (IH y) as [r E].
  cbn [runs] in E. rewrite E. eauto.
Qed.

Lemma runs_In l x : In x (runs l) <-> In x l.
Proof.
  induction l as [|a l IH]; [reflexivity|]. destruct l as [|b l]; [reflexivity|].
  change (runs (a :: b :: l)) with (if beqb a b then runs (b :: l) else a :: runs (b :: l)).
  destruct (beqb_spec a b) as [->|Hn].
  - rewrite IH. cbn [In]. tauto.
  - cbn [In] in *. rewrite IH. tauto.
Qed.

Definition wsorted (l : list bytes) : Prop := StronglySorted (fun a b => klt a b \/ a = b) l.

Lemma runs_sorted l : wsorted l -> sorted (runs l).
Proof.
  induction l as [|a l IH]; intro H; [constructor|]. destruct l as [|b l]; [repeat constructor|].
  apply StronglySorted_inv in H as [H Ha]. specialize (IH H).
  change (runs (a :: b :: l)) with (if beqb a b then runs (b :: l) else a :: runs (b :: l)).
  destruct (beqb_spec a b) as [->|Hn]; auto. constructor; auto.
  apply Forall_forall. intros x Hx. apply (proj1 (runs_In _ _)) in Hx.
  apply StronglySorted_inv in H as [_ Hb].
  assert (Hab : klt a b).
  { rewrite Forall_forall in Ha. destruct (Ha b (or_introl eq_refl)); auto. contradiction. }
  destruct Hx as [<-|Hx]; auto. rewrite Forall_forall in Hb.
  destruct (Hb x Hx) as [Hbx| ->]; auto. eapply klt_trans; eauto.
Qed.

Lemma runs_set_of l : wsorted l -> runs l = set_of l.
Proof.
  intro H. apply sorted_ext; [now apply runs_sorted|apply sorted_set_of|].
  intro x. rewrite In_set_of. apply runs_In.
Qed.

Lemma wsorted_fst (l : list (bytes * Z)) : sorted l -> wsorted (map fst l).
Proof.
  induction 1 as [|a l Hl IH Ha]; cbn [map]; constructor; auto.
  apply Forall_forall. intros p Hp. apply in_map_iff in Hp as (b & <- & Hb).
  rewrite Forall_forall in Ha. specialize (Ha b Hb). destruct a, b. unfold klt in Ha. rewrite cmp_pair in Ha.
  cbn [fst]. destruct (cmp b0 b) eqn:E; try discriminate; [right; now apply cmp_eq|now left].
Qed.

Lemma dedup_runs (f : bytes -> G) l : adjacent_distinct (map f (runs l)) ->
  dedup (map f l) = map f (runs l).
Proof.
  induction l as [|a l IH]; intro H; [reflexivity|]. destruct l as [|b l]; [reflexivity|].
  change (dedup (map f (a :: b :: l)))
    with (if geqb (f a) (f b) then dedup (map f (b :: l)) else f a :: dedup (map f (b :: l))).
  change (runs (a :: b :: l)) with (if beqb a b then runs (b :: l) else a :: runs (b :: l)) in *.
  destruct (beqb_spec a b) as [->|Hn].
  - rewrite geqb_refl. auto.
  - destruct (runs_hd b l) as [r E]. rewrite E in H. cbn [map adjacent_distinct] in H.
    destruct H as [Hd H]. destruct (geqb (f a) (f b)) eqn:Eg; [apply geqb_true in Eg; contradiction|].
    cbn [map]. f_equal. apply IH. rewrite E. exact H.
Qed.

Lemma filter_map {X Y} (f : X -> Y) (g : Y -> bool) l : filter g (map f l) = map f (filter (fun x => g (f x)) l).
Proof. induction l as [|x l IH]; cbn; auto. destruct (g (f x)); cbn; now rewrite IH. Qed.

Lemma forallb_filter_id {X} (f : X -> bool) l : forallb f l = true -> filter f l = l.
Proof.
  induction l as [|x l IH]; cbn; auto. intro H. apply andb_true_iff in H as [-> H]. now rewrite IH.
Qed.

Lemma runs_filter_nil (l : list bytes) : wsorted (([] : bytes) :: l) ->
  runs (([] : bytes) :: l) = ([] : bytes) :: runs (filter (fun p => negb (beqb p [])) l).
Proof.
  induction l as [|b l IH]; intro H; [reflexivity|].
  change (runs ([] :: b :: l)) with (if beqb [] b then runs (b :: l) else [] :: runs (b :: l)).
  assert (H' : wsorted (([] : bytes) :: l)).
  { apply StronglySorted_inv in H as [H1 H2]. apply StronglySorted_inv in H1 as [H1 _].
    apply Forall_cons_iff in H2 as [_ H2]. constructor; auto. }
  destruct (beqb_spec [] b) as [<-|Hn].
  - cbn [filter]. rewrite beqb_refl. cbn [negb]. now apply IH.
  - f_equal. cbn [filter].
    assert (E : filter (fun p => negb (beqb p [])) l = l).
    { apply forallb_filter_id. apply forallb_forall. intros x Hx. apply negb_true_iff, beqb_neq.
      apply StronglySorted_inv in H as [H _]. apply StronglySorted_inv in H as [_ H].
      rewrite Forall_forall in H. destruct (H x Hx) as [Hlt| <-]; auto. intros ->.
      unfold klt, cmp, Cmp_bytes in Hlt. destruct b; discriminate. }
    rewrite E. assert (beqb b [] = false) as -> by (apply beqb_neq; auto). reflexivity.
Qed.

Context (Hne : keys <> []).

Lemma first_entry : exists (z : Z) (l : list (bytes * Z)), all_entries St keys = ([] : bytes, z) :: l.
Proof.
  pose proof Hkeys as HK. destruct keys as [|k0 ks] eqn:Ek; [contradiction|]. rewrite <- Ek in *.
  assert (Hk0 : In k0 keys) by (rewrite Ek; now left). pose proof (key_in k0 Hk0) as Hkey.
  assert (X : In ([], nth 0 (stem k0) 0) (all_entries St keys)).
  { apply In_set_of. apply in_flat_map. exists k0. split; auto.
    apply (entries_cases St k0 _ _ Hkey). left. exists 0%nat. repeat split.
    apply (sd_spec St (stem k0) W). apply (key_stem k0 Hkey). }
  assert (Hs : sorted (all_entries St keys)) by apply sorted_set_of.
  destruct (all_entries St keys) as [|[p z] l]; [destruct X|]. exists z, l. f_equal. f_equal.
  destruct X as [X|X]; [now injection X|].
  apply StronglySorted_inv in Hs as [_ Hs]. rewrite Forall_forall in Hs. specialize (Hs _ X).
  unfold klt in Hs. rewrite cmp_pair in Hs. unfold cmp at 1, Cmp_bytes in Hs. destruct p; auto. discriminate.
Qed.

Lemma opened_runs : opened St keys = runs (map fst (all_entries St keys)).
Proof. unfold opened. symmetry. apply runs_set_of, wsorted_fst, sorted_set_of. Qed.

Lemma opens_comms l qs : Forall2 (opens m St) l qs -> map pq_comm qs = map (fun x => node_comm m St (fst x)) l.
Proof. induction 1 as [|x q l qs (H & _) _ IH]; cbn; auto. now rewrite H, IH. Qed.

Lemma comms_ok qs : Forall2 (opens m St) (all_entries St keys) qs -> distinguishable m St keys ->
  node_comm m St [] :: comms_of_queries qs (node_comm m St []) = map (node_comm m St) (opened St keys).
Proof.
  intros Hq [Had Hroot]. rewrite opened_runs in *. unfold comms_of_queries.
  rewrite <- (filter_map pq_comm (fun c => negb (geqb c (node_comm m St [])))).
  rewrite (opens_comms _ _ Hq).
  rewrite <- (map_map fst (node_comm m St)), filter_map.
  assert (Ef : filter (fun x => negb (geqb (node_comm m St x) (node_comm m St []))) (map fst (all_entries St keys))
             = filter (fun p => negb (beqb p [])) (map fst (all_entries St keys))).
  { apply filter_ext_in. intros p Hp. f_equal. destruct (beqb_spec p []) as [->|Hn]; [apply geqb_refl|].
    apply not_true_iff_false. rewrite geqb_true. apply Hroot; auto. now apply runs_In. }
  rewrite Ef. destruct first_entry as (z & l & El).
  assert (Hw : wsorted (map fst (all_entries St keys))) by apply wsorted_fst, sorted_set_of.
  rewrite El in *. cbn [map fst] in *. cbn [filter]. rewrite beqb_refl. cbn [negb].
  rewrite (runs_filter_nil _ Hw) in Had |- *. cbn [map] in *. f_equal.
  apply dedup_runs. cbn [adjacent_distinct] in Had. apply Had.
Qed.

(** Without [distinguishable] commitments are missing. *)
Lemma dedup_short (f : bytes -> G) l :
  (length (dedup (map f l)) <= length (runs l))%nat /\
  (length (dedup (map f l)) = length (runs l) -> adjacent_distinct (map f (runs l))).
Proof.
  induction l as [|a l [IH1 IH2]]; [cbn; split; auto|]. destruct l as [|b l]; [cbn; auto|].
  change (dedup (map f (a :: b :: l)))
    with (if geqb (f a) (f b) then dedup (map f (b :: l)) else f a :: dedup (map f (b :: l))).
  change (runs (a :: b :: l)) with (if beqb a b then runs (b :: l) else a :: runs (b :: l)).
  destruct (beqb_spec a b) as [->|Hn].
  - rewrite geqb_refl. auto.
  - destruct (runs_hd b l) as [r E]. rewrite E in *. destruct (geqb (f a) (f b)) eqn:Eg.
    + cbn [length] in *. split; [lia|]. intro H. exfalso. lia.
    + cbn [length] in *. split; [lia|]. intro H. cbn [map adjacent_distinct]. split.
      * intro X. apply geqb_true in X. congruence.
      * apply IH2. lia.
Qed.

Lemma wsorted_filter (g : bytes -> bool) l : wsorted l -> wsorted (filter g l).
Proof.
  induction 1 as [|a l Hl IH Ha]; cbn [filter]; [constructor|]. destruct (g a); auto. constructor; auto.
  rewrite Forall_forall in *. intros x Hx. apply filter_In in Hx as [Hx _]. auto.
Qed.

Lemma comms_short qs : Forall2 (opens m St) (all_entries St keys) qs ->
  Datatypes.S (length (comms_of_queries qs (node_comm m St []))) = length (opened St keys) ->
  distinguishable m St keys.
Proof.
  intros Hq Hlen. unfold distinguishable. rewrite opened_runs in *. unfold comms_of_queries in Hlen.
  rewrite <- (filter_map pq_comm (fun c => negb (geqb c (node_comm m St [])))) in Hlen.
  rewrite (opens_comms _ _ Hq) in Hlen.
  rewrite <- (map_map fst (node_comm m St)), filter_map in Hlen.
  assert (Hw : wsorted (map fst (all_entries St keys))) by apply wsorted_fst, sorted_set_of.
  destruct first_entry as (z & l & El). rewrite El in *. cbn [map fst] in *. cbn [filter] in Hlen.
  rewrite geqb_refl in Hlen. cbn [negb] in Hlen. rewrite (runs_filter_nil _ Hw) in *. cbn [length] in Hlen.
  assert (Hwl : wsorted (map fst l)) by now apply StronglySorted_inv in Hw.
  set (g := fun x => negb (geqb (node_comm m St x) (node_comm m St []))) in *.
  set (F := filter g (map fst l)) in *.
  set (Y := filter (fun p : bytes => negb (beqb p [])) (map fst l)) in *.
  assert (HFY : forall x, In x F -> In x Y).
  { intros x Hx. apply filter_In in Hx as [Hx Hg]. apply filter_In. split; auto.
    apply negb_true_iff, beqb_neq. intros ->. unfold g in Hg. rewrite geqb_refl in Hg. discriminate. }
  assert (HsF : sorted (runs F)) by apply runs_sorted, wsorted_filter, Hwl.
  assert (HsY : sorted (runs Y)) by apply runs_sorted, wsorted_filter, Hwl.
  destruct (dedup_short (node_comm m St) F) as [H1 H2].
  assert (HYF : incl (runs Y) (runs F)).
  { apply NoDup_length_incl; [apply sorted_NoDup; exact HsF| |].
    - unfold bytes in *. lia.
    - intros x Hx. apply runs_In, HFY. now apply (proj1 (runs_In _ _)) in Hx. }
  assert (Hg : forall p, In p Y -> g p = true).
  { intros p Hp. apply runs_In in Hp. apply HYF in Hp. apply (proj1 (runs_In _ _)) in Hp. now apply filter_In in Hp. }
  assert (EFY : runs F = runs Y).
  { apply sorted_ext; auto. intro x. split; intro Hx; auto. apply runs_In, HFY. now apply (proj1 (runs_In _ _)) in Hx. }
  assert (Hroot : forall p, In p (([] : bytes) :: runs Y) -> p <> [] -> node_comm m St p <> node_comm m St []).
  { intros p [<-|Hp] Hpn; [contradiction|]. apply (proj1 (runs_In _ _)) in Hp. apply Hg in Hp. unfold g in Hp.
    intro X. apply geqb_true in X. rewrite X in Hp. discriminate. }
  split; auto. cbn [map adjacent_distinct]. split.
  - destruct (runs Y) as [|y r] eqn:Er; cbn [map]; auto. intro X. symmetry in X. revert X. apply Hroot.
    + right. now left.
    + assert (Hy : In y Y) by (apply runs_In; rewrite Er; now left).
      apply filter_In in Hy as [_ Hy]. apply negb_true_iff, beqb_neq in Hy. exact Hy.
  - rewrite <- EFY. apply H2. rewrite EFY. unfold bytes in *. lia.
Qed.

Lemma verifier_short qs : Forall2 (opens m St) (all_entries St keys) qs -> ~ distinguishable m St keys ->
  create_verifier_queries (proof_hint St keys) (comms_of_queries qs (node_comm m St []))
    keys (map m keys) (node_comm m St []) = Panic.
Proof.
  intros Hq Hd. unfold create_verifier_queries. rewrite statuses_ok. cbn [vh_diff proof_hint].
  destruct (verify_keys_ok [] keys vs_empty (fun k H => H) vinv_empty) as (s & -> & I).
  cbn [app] in I. cbn [rbind]. destruct (stems_eqb _ _); [|reflexivity]. cbn [assertb rbind].
  assert (Epaths : vs_paths s = opened St keys).
  { apply sorted_ext; [apply (vi_paths_sorted _ _ I)|apply sorted_set_of|].
    intro p. rewrite (vi_paths _ _ I). symmetry. apply In_opened. }
  rewrite Epaths. cbn [length]. destruct (Nat.eqb_spec (Datatypes.S (length (comms_of_queries qs (node_comm m St [])))) (length (opened St keys))) as [E|E].
  - exfalso. apply Hd. apply (comms_short qs Hq E).
  - reflexivity.
Qed.

Lemma verifier_ok qs : Forall2 (opens m St) (all_entries St keys) qs -> distinguishable m St keys ->
  exists others, create_verifier_queries (proof_hint St keys) (comms_of_queries qs (node_comm m St []))
    keys (map m keys) (node_comm m St []) =
  Ok (Some (map vquery (all_entries St keys), mkUH stat_graph comm_graph others)) /\
  msorted others /\
  forall p t, map_get p others = Some t <->
    stem_at St p = Some t /\ exists k, In k keys /\ p = qpos St k /\ t <> stem k.
Proof.
  intros Hq Hd. unfold create_verifier_queries. rewrite statuses_ok. cbn [vh_diff proof_hint].
  destruct (verify_keys_ok [] keys vs_empty (fun k H => H) vinv_empty) as (s & -> & I).
  cbn [app] in I. cbn [rbind].
  assert (Eused : vs_used s = proof_diff St keys).
  { apply sorted_ext; [apply (vi_used_sorted _ _ I)|apply sorted_filter, sorted_set_of|].
    intro t. rewrite (vi_used _ _ I), In_proof_diff. split.
    - intros (k & Hk & Ht & Hn & Hp). split; [eauto|]. intro H. apply Hp, In_present. split; auto.
      now apply stem_at_In in Ht.
    - intros [(k & Hk & Ht) Hn]. exists k. repeat split; auto.
      + intros ->. apply Hn. now apply (in_map (firstn 31)).
      + intro H. apply In_present in H as [H _]. contradiction. }
  assert (Epaths : vs_paths s = opened St keys).
  { apply sorted_ext; [apply (vi_paths_sorted _ _ I)|apply sorted_set_of|].
    intro p. rewrite (vi_paths _ _ I). symmetry. apply In_opened. }
  assert (Epzs : vs_pzs s = all_entries St keys).
  { apply sorted_ext; [apply (vi_pzs_sorted _ _ I)|apply sorted_set_of|].
    intro x. rewrite (vi_pzs _ _ I). unfold all_entries. now rewrite In_set_of. }
  rewrite Eused, stems_eqb_refl. cbn [assertb rbind].
  rewrite (comms_ok qs Hq Hd), Epaths, map_length, Nat.eqb_refl. cbn [assertb rbind].
  rewrite combine_map1, (map_of_graph (node_comm m St)) by apply sorted_set_of. fold comm_graph.
  rewrite Epzs, (verifier_queries_ok s _ I (fun x H => H)). cbn [rbind].
  exists (vs_others s). split; [reflexivity|]. split; [apply (vi_others_sorted _ _ I)|apply (vi_others _ _ I)].
Qed.

Lemma proof_parts_ok : exists qs, 
  create_proof_parts db keys = Ok (Some (qs, proof_hint St keys, comms_of_queries qs (node_comm m St []))) /\
  Forall2 (opens m St) (all_entries St keys) qs.
Proof.
  destruct (prover_queries_ok db m St C keys Hne Hkeys) as (qs & E & Hq). exists qs. split; auto.
  unfold create_proof_parts. destruct keys as [|k0 ks] eqn:Ek; [contradiction|]. rewrite <- Ek in *.
  rewrite E. cbn [rbind]. destruct first_entry as (z & l & El). rewrite El in Hq.
  inversion Hq as [|? q ? qs' (Hc & _) _]; subst. cbn [fst] in Hc. now rewrite Hc.
Qed.
End Verifier.
