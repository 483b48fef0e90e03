(** What the verifier asks for, for arbitrary claims. *)
From Coq Require Import Sorted.
From Verif Require Import Base BaseFacts Alg AlgFacts TreeSpec TreeFacts TrieModel TrieProofs BTree
  WireModel ProofModel ProofSpec PathProofs OpeningProofs VerifierProofs ProofTheorems ProofReject TruthSpec.

Section Verifier.
Context {A : Alg} {P : Par A}.
Notation stem k := (firstn 31 k).
Notation set_ins := (fun a x => set_insert x a).
Notation map_ins := (fun m p => map_insert (fst p) (snd p) m).

(** ** What one key adds *)
Definition asked (k : bytes) (d : nat) (e : ExtPresent) : list (bytes * Z) :=
  map (fun i => (firstn i (stem k), nth i (stem k) 0)) (seq 0 d) ++
  match e with
  | ExtNone => []
  | ExtDifferentStem => [(firstn d (stem k), 0); (firstn d (stem k), 1)]
  | ExtPres =>
      let q := firstn d (stem k) in
      let qs := q ++ [hsel (nth 31 k 0)] in
      [(q, 0); (q, 1); (q, hsel (nth 31 k 0)); (qs, 2 * (nth 31 k 0 mod 128)); (qs, 2 * (nth 31 k 0 mod 128) + 1)]
  end.
Definition at_paths (k : bytes) (d : nat) (e : ExtPresent) : list bytes :=
  map (fun i => firstn i (stem k)) (seq 0 d) ++
  match e with
  | ExtNone => []
  | ExtDifferentStem => [firstn d (stem k)]
  | ExtPres => [firstn d (stem k); firstn d (stem k) ++ [hsel (nth 31 k 0)]]
  end.
Definition same_slot (d : nat) (k x : bytes) : bool := beqb (firstn d x) (firstn d (stem k)).
(** The stem taken for the one in the slot of a key whose stem is not there. *)
Definition slot_other (we diff : list bytes) (d : nat) (k : bytes) : option bytes :=
  match filter (same_slot d k) we with
  | [] => hd_error (rev (filter (same_slot d k) diff))
  | o :: _ => Some o
  end.
Definition other_stem (we diff : list bytes) (k : bytes) (d : nat) (e : ExtPresent) (others : list (bytes * bytes)) : list (bytes * bytes) :=
  match e, slot_other we diff d k with
  | ExtDifferentStem, Some o => map_insert (firstn d (stem k)) o others
  | _, _ => others
  end.
Definition forced (we diff : list bytes) (k : bytes) (v : option bytes) (d : nat) (e : ExtPresent) : list ((bytes * Z) * F) :=
  let q := firstn d (stem k) in
  let qs := q ++ [hsel (nth 31 k 0)] in
  match e with
  | ExtNone => [((if (d =? 1)%nat then [] else q, nth (d - 1) (stem k) 0), fzero)]
  | ExtDifferentStem =>
      ((q, 0), fone) ::
      match filter (same_slot d k) we with
      | [] => match hd_error (rev (filter (same_slot d k) diff)) with
              | Some o => [((q, 1), of_Z (le_Z o))]
              | None => []
              end
      | _ => []
      end
  | ExtPres =>
      [((q, 0), fone); ((q, 1), of_Z (le_Z (stem k))); ((qs, 2 * (nth 31 k 0 mod 128)), leaf_low v);
       ((qs, 2 * (nth 31 k 0 mod 128) + 1), leaf_high v)]
  end.

(** Conditions that hold when a key is not refused. *)
Definition passed (we diff : list bytes) (k : bytes) (v : option bytes) (d : nat) (e : ExtPresent) : Prop :=
  (d <= 31)%nat /\ (e <> ExtPres -> v = None) /\ (e = ExtNone -> (1 <= d)%nat) /\
  (e = ExtDifferentStem ->
     (exists o, filter (same_slot d k) we = [o]) \/
     (filter (same_slot d k) we = [] /\ exists o, hd_error (rev (filter (same_slot d k) diff)) = Some o)).

Definition added (we diff : list bytes) (k : bytes) (v : option bytes) (d : nat) (e : ExtPresent) (s s' : VState) : Prop :=
  vs_pzs s' = fold_left set_ins (asked k d e) (vs_pzs s) /\
  vs_paths s' = fold_left set_ins (at_paths k d e) (vs_paths s) /\
  vs_leaf s' = fold_left map_ins (forced we diff k v d e) (vs_leaf s) /\
  vs_others s' = other_stem we diff k d e (vs_others s).

Lemma add_branches_inv st l : length st = 31%nat -> forall s s', add_branches st l s = Ok s' ->
  Forall (fun i => (i < 31)%nat) l.
Proof.
  intro Hl. induction l as [|i l IH]; cbn [add_branches]; intros s s' E; constructor.
  - destruct (slice 0 i st) as [p|]; cbn [rbind] in E; [|discriminate E].
    unfold Base.index in E. destruct (nth_error st i) as [z|] eqn:N; cbn in E; [|discriminate E].
    assert (i < length st)%nat by (apply nth_error_Some; congruence). lia.
  - destruct (slice 0 i st) as [p|]; cbn [rbind] in E; [|discriminate E].
    destruct (Base.index st i) as [z|]; cbn [rbind] in E; [|discriminate E]. eapply IH. exact E.
Qed.

Lemma slice_ok (s : bytes) n : (n <= length s)%nat -> slice 0 n s = Ok (firstn n s).
Proof.
  intro H. unfold slice. rewrite (proj2 (Nat.leb_le 0 n)) by lia.
  rewrite (proj2 (Nat.leb_le n (length s))) by lia. cbn [andb skipn]. now rewrite Nat.sub_0_r.
Qed.
Lemma index_ok (s : bytes) n : (n < length s)%nat -> Base.index s n = Ok (nth n s 0).
Proof.
  intro H. unfold Base.index. destruct (nth_error s n) eqn:E; [|apply nth_error_None in E; lia].
  now rewrite (nth_error_nth _ _ 0 E).
Qed.

Lemma verify_key_inv st we diff s k v s' : is_key k ->
  verify_key st we diff s (k, v) = Ok (Some s') ->
  exists d e, map_get (stem k) st = Some (e, d) /\ passed we diff k v (Z.to_nat d) e /\
              added we diff k v (Z.to_nat d) e s s'.
Proof.
  intros Hk E. unfold verify_key in E. cbv zeta in E. destruct (key_stem k Hk) as [Hl _].
  destruct (map_get (stem k) st) as [[e depth]|]; cbn [unwrap rbind] in E; [|discriminate E].
  exists depth, e. split; [reflexivity|]. set (d := Z.to_nat depth) in *.
  destruct (add_branches (stem k) (seq 0 d) s) as [s1|] eqn:E1; cbn [rbind] in E; [|discriminate E].
  pose proof (add_branches_inv _ _ Hl _ _ E1) as Fd.
  assert (Hd : (d <= 31)%nat).
  { destruct d as [|d']; [lia|]. rewrite Forall_forall in Fd. specialize (Fd d' ltac:(apply in_seq; lia)). lia. }
  rewrite (add_branches_eq _ _ s Fd Hl) in E1.
  assert (Es : forall x y : VState, Ok x = Ok y -> x = y) by congruence. apply Es in E1. clear Es.
  assert (Es : forall x, Ok (Some x) = Ok (Some s') -> x = s') by congruence.
  destruct e.
  - (* nothing there *)
    unfold add_none in E. destruct v as [v|]; [discriminate E|].
    assert (Hd1 : (1 <= d)%nat /\ s' = add_leaf (if (d =? 1)%nat then [] else firstn d (stem k)) (nth (d - 1) (stem k) 0) fzero s1).
    { destruct (Nat.eqb_spec d 1) as [->|N1].
      - rewrite (index_ok (stem k) 0) in E by lia. cbn [rbind] in E. apply Es in E. split; [lia|]. now rewrite <- E.
      - rewrite (slice_ok (stem k) d) in E by lia. cbn [rbind] in E.
        destruct d as [|d']; cbn [Nat.eqb negb assertb rbind] in E; [discriminate E|].
        rewrite (index_ok (stem k) (S d' - 1)) in E by lia. cbn [rbind] in E. apply Es in E. split; [lia|]. now rewrite <- E. }
    destruct Hd1 as [Hd1 ->]. split.
    + split; [exact Hd|]. split; [reflexivity|]. split; [intros _; exact Hd1|discriminate].
    + unfold added, asked, at_paths, forced, other_stem. rewrite !app_nil_r, <- E1. repeat split.
  - (* another stem *)
    rewrite (slice_ok (stem k) d) in E by lia. cbn [rbind] in E. unfold add_different in E.
    destruct v as [v|]; [discriminate E|].
    destruct (assertb (negb (d =? length (stem k))%nat)); cbn [rbind] in E; [|discriminate E].
    change (fun x => beqb (firstn d x) (firstn d (stem k))) with (same_slot d k) in E.
    change (@filter (list Z)) with (@filter bytes) in E. change (@rev (list Z)) with (@rev bytes) in E.
    change (@hd_error (list Z)) with (@hd_error bytes) in E. unfold passed, added, asked, at_paths, forced, other_stem, slot_other.
    rewrite !fold_left_app.
    destruct (filter (same_slot d k) we) as [|o1 [|o2 r]]; [| |discriminate E].
    + destruct (hd_error (rev (filter (same_slot d k) diff))) as [o|]; cbn [unwrap rbind] in E; [|discriminate E].
      apply Es in E. subst s'. rewrite <- E1. split.
      * split; [exact Hd|]. split; [reflexivity|]. split; [discriminate|]. intros _. right. split; [reflexivity|eauto].
      * repeat split.
    + apply Es in E. subst s'. rewrite <- E1. split.
      * split; [exact Hd|]. split; [reflexivity|]. split; [discriminate|]. intros _. left. eauto.
      * repeat split.
  - (* this stem *)
    rewrite (slice_ok (stem k) d) in E by lia. cbn [rbind] in E.
    assert (Hkl : length k = 32%nat) by apply Hk. rewrite (index_ok k 31) in E by (unfold bytes in *; lia). cbn [rbind] in E.
    apply Es in E. subst s'. split.
    + split; [exact Hd|]. split; [intro X; destruct (X eq_refl)|]. split; discriminate.
    + unfold added, asked, at_paths, forced, other_stem. rewrite !fold_left_app, <- E1.
      unfold add_present. fold (hsel (nth 31 k 0)). destruct v as [v|]; repeat split.
Qed.

(** ** All keys *)
Lemma map_ins_get {K V} {CK : Cmp K} {CL : CmpLaws K} (l : list (K * V)) : forall m x,
  (forall y, map_get x (fold_left map_ins l m) = Some y -> In (x, y) l \/ map_get x m = Some y) /\
  (map_get x m <> None \/ In x (map fst l) -> map_get x (fold_left map_ins l m) <> None).
Proof.
  induction l as [|[a b] l IH]; intros m x; cbn [fold_left fst snd map In].
  - split; [auto|]. intros [H|[]]; exact H.
  - destruct (IH (map_insert a b m) x) as [I1 I2]. split.
    + intros y Hy. destruct (I1 y Hy) as [H|H]; [auto|]. destruct (cmp_dec x a) as [->|N].
      * rewrite map_get_insert_eq in H. left. left. congruence.
      * rewrite map_get_insert_ne in H by exact N. auto.
    + intro H. apply I2. destruct (cmp_dec x a) as [->|N].
      * left. rewrite map_get_insert_eq. discriminate.
      * rewrite map_get_insert_ne by exact N. destruct H as [H|[H|H]]; [auto|congruence|auto].
Qed.

Record Final (st : list (bytes * (ExtPresent * Z))) (we diff : list bytes) (kvs : list (bytes * option bytes)) (s : VState) : Prop := {
  fi_key : forall k v, In (k, v) kvs -> exists d e, map_get (stem k) st = Some (e, d) /\ passed we diff k v (Z.to_nat d) e;
  fi_pzs : forall x, In x (vs_pzs s) <->
    exists k v d e, In (k, v) kvs /\ map_get (stem k) st = Some (e, d) /\ In x (asked k (Z.to_nat d) e);
  fi_paths_sorted : sorted (vs_paths s);
  fi_paths : forall x, In x (vs_paths s) <->
    exists k v d e, In (k, v) kvs /\ map_get (stem k) st = Some (e, d) /\ In x (at_paths k (Z.to_nat d) e);
  fi_leaf : forall x y, map_get x (vs_leaf s) = Some y ->
    exists k v d e, In (k, v) kvs /\ map_get (stem k) st = Some (e, d) /\ In (x, y) (forced we diff k v (Z.to_nat d) e);
  fi_forced : forall x k v d e, In (k, v) kvs -> map_get (stem k) st = Some (e, d) ->
    In x (map fst (forced we diff k v (Z.to_nat d) e)) -> map_get x (vs_leaf s) <> None;
  fi_pzs_sorted : sorted (vs_pzs s);
  fi_others : forall p t, map_get p (vs_others s) = Some t ->
    exists k v d, In (k, v) kvs /\ map_get (stem k) st = Some (ExtDifferentStem, d) /\
      p = firstn (Z.to_nat d) (stem k) /\ slot_other we diff (Z.to_nat d) k = Some t;
  fi_other : forall k v d, In (k, v) kvs -> map_get (stem k) st = Some (ExtDifferentStem, d) ->
    map_get (firstn (Z.to_nat d) (stem k)) (vs_others s) <> None
}.

Lemma final_nil st we diff : Final st we diff [] vs_empty.
Proof.
  constructor; cbn [vs_empty vs_pzs vs_paths vs_leaf vs_others map_get In]; try (intros; contradiction); try constructor;
    try discriminate; try contradiction; intros (? & ? & ? & ? & H & _); destruct H.
Qed.

Lemma final_snoc st we diff kvs s k v s' : is_key k -> Final st we diff kvs s ->
  verify_key st we diff s (k, v) = Ok (Some s') -> Final st we diff (kvs ++ [(k, v)]) s'.
Proof.
  intros Hk F E. destruct (verify_key_inv _ _ _ _ _ _ _ Hk E) as (d & e & Hg & Hp & Ez & Ep & El & Eo).
  constructor.
  - intros k1 v1 H. apply in_app_or in H as [H|[H|[]]]; [now apply (fi_key _ _ _ _ _ F)|].
    assert (k1 = k) as -> by congruence. assert (v1 = v) as -> by congruence. eauto.
  - intro x. rewrite Ez. rewrite (proj2 (fold_set_spec _ _ (fi_pzs_sorted _ _ _ _ _ F))), (fi_pzs _ _ _ _ _ F). split.
    + intros [H|(k1 & v1 & d1 & e1 & H1 & H2 & H3)].
      * exists k, v, d, e. split; [apply in_or_app; right; now left|auto].
      * exists k1, v1, d1, e1. split; [apply in_or_app; now left|auto].
    + intros (k1 & v1 & d1 & e1 & H1 & H2 & H3). apply in_app_or in H1 as [H1|[H1|[]]]; [right; eauto 8|left].
      assert (k1 = k) as -> by congruence. assert (d1 = d) as -> by congruence. assert (e1 = e) as -> by congruence. exact H3.
  - rewrite Ep. apply fold_set_spec. apply (fi_paths_sorted _ _ _ _ _ F).
  - intro x. rewrite Ep. rewrite (proj2 (fold_set_spec _ _ (fi_paths_sorted _ _ _ _ _ F))), (fi_paths _ _ _ _ _ F). split.
    + intros [H|(k1 & v1 & d1 & e1 & H1 & H2 & H3)].
      * exists k, v, d, e. split; [apply in_or_app; right; now left|auto].
      * exists k1, v1, d1, e1. split; [apply in_or_app; now left|auto].
    + intros (k1 & v1 & d1 & e1 & H1 & H2 & H3). apply in_app_or in H1 as [H1|[H1|[]]]; [right; eauto 8|left].
      assert (k1 = k) as -> by congruence. assert (d1 = d) as -> by congruence. assert (e1 = e) as -> by congruence. exact H3.
  - intros x y H. rewrite El in H. apply (proj1 (map_ins_get _ _ _)) in H as [H|H].
    + exists k, v, d, e. split; [apply in_or_app; right; now left|auto].
    + destruct (fi_leaf _ _ _ _ _ F _ _ H) as (k1 & v1 & d1 & e1 & H1 & H2 & H3).
      exists k1, v1, d1, e1. split; [apply in_or_app; now left|auto].
  - intros x k1 v1 d1 e1 H1 H2 H3. rewrite El. apply (proj2 (map_ins_get _ _ _)).
    apply in_app_or in H1 as [H1|[H1|[]]]; [left; eapply (fi_forced _ _ _ _ _ F); eauto|right].
    assert (k1 = k) as -> by congruence. assert (v1 = v) as -> by congruence.
    assert (d1 = d) as -> by congruence. assert (e1 = e) as -> by congruence. exact H3.
  - rewrite Ez. apply fold_set_spec. apply (fi_pzs_sorted _ _ _ _ _ F).
  - intros p t H. rewrite Eo in H. unfold other_stem in H.
    assert (Old : map_get p (vs_others s) = Some t -> exists k0 v0 d0, In (k0, v0) (kvs ++ [(k, v)]) /\
      map_get (stem k0) st = Some (ExtDifferentStem, d0) /\ p = firstn (Z.to_nat d0) (stem k0) /\ slot_other we diff (Z.to_nat d0) k0 = Some t).
    { intro Ho. destruct (fi_others _ _ _ _ _ F _ _ Ho) as (k1 & v1 & d1 & H1 & H2). exists k1, v1, d1.
      split; [apply in_or_app; now left|exact H2]. }
    destruct e; auto. destruct (slot_other we diff (Z.to_nat d) k) as [o|] eqn:Es; auto.
    destruct (cmp_dec p (firstn (Z.to_nat d) (stem k))) as [->|N].
    + rewrite map_get_insert_eq in H. exists k, v, d. split; [apply in_or_app; right; now left|]. repeat split; auto. congruence.
    + rewrite map_get_insert_ne in H by exact N. auto.
  - intros k1 v1 d1 H1 H2. rewrite Eo. unfold other_stem.
    assert (Old : In (k1, v1) kvs -> forall q o, map_get (firstn (Z.to_nat d1) (stem k1)) (map_insert q o (vs_others s)) <> None).
    { intros Hi q o. pose proof (fi_other _ _ _ _ _ F _ _ _ Hi H2) as X. destruct (cmp_dec (firstn (Z.to_nat d1) (stem k1)) q) as [->|N].
      - rewrite map_get_insert_eq. discriminate.
      - rewrite map_get_insert_ne by exact N. exact X. }
    apply in_app_or in H1 as [H1|[H1|[]]].
    + pose proof (fi_other _ _ _ _ _ F _ _ _ H1 H2) as X. destruct e; auto. destruct (slot_other we diff (Z.to_nat d) k); auto.
    + assert (k1 = k) as -> by congruence. assert (d1 = d) as -> by congruence. assert (e = ExtDifferentStem) as -> by congruence.
      destruct Hp as (_ & _ & _ & Hd). unfold slot_other.
      destruct (Hd eq_refl) as [(o & ->)|(-> & o & ->)]; rewrite map_get_insert_eq; discriminate.
Qed.

Lemma verify_keys_final st we diff kvs2 : forall kvs1 s s', (forall kv, In kv kvs2 -> is_key (fst kv)) ->
  Final st we diff kvs1 s -> verify_keys st we diff s kvs2 = Ok (Some s') -> Final st we diff (kvs1 ++ kvs2) s'.
Proof.
  induction kvs2 as [|[k v] kvs2 IH]; intros kvs1 s s' Hk F E; cbn [verify_keys] in E.
  - rewrite app_nil_r. now assert (s = s') as <- by congruence.
  - destruct (verify_key st we diff s (k, v)) as [[s1|]|] eqn:E1; cbn [rbind] in E; try discriminate E.
    change (kvs1 ++ (k, v) :: kvs2) with (kvs1 ++ ([(k, v)] ++ kvs2)). rewrite app_assoc.
    apply (IH _ s1); [intros kv H; apply Hk; now right| |exact E].
    apply (final_snoc st we diff kvs1 s); [apply (Hk (k, v)); now left|exact F|exact E1].
Qed.

(** ** Commitments by path *)
Lemma map_get_combine_sorted (ps : list bytes) : forall (cs : list G) p, sorted ps -> length cs = length ps ->
  (In p ps -> exists c, map_get p (map_of (combine ps cs)) = Some c) /\
  (~ In p ps -> map_get p (map_of (combine ps cs)) = None).
Proof.
  intros cs p Hs Hlen. split; intro H.
  - destruct (map_get p (map_of (combine ps cs))) as [c|] eqn:E; [eauto|]. exfalso. revert E. apply map_get_combine; auto. lia.
  - destruct (map_get p (map_of (combine ps cs))) as [c|] eqn:E; [|reflexivity]. exfalso. apply H.
    unfold map_of in E. apply (proj1 (map_ins_get _ _ _)) in E as [E|E]; [|discriminate E].
    now apply in_combine_l in E.
Qed.

Lemma map_get_root (ps : list bytes) (cs : list G) root : sorted ps -> In [] ps ->
  map_get [] (map_of (combine ps (root :: cs))) = Some root.
Proof.
  intros Hs Hin. destruct ps as [|p ps]; [destruct Hin|].
  assert (Hn : ~ In ([] : bytes) ps).
  { intro H. apply StronglySorted_inv in Hs as [_ Hf]. rewrite Forall_forall in Hf. specialize (Hf _ H).
    destruct p; discriminate Hf. }
  assert (p = []) as -> by (destruct Hin as [|H]; [auto|contradiction]).
  cbn [combine]. unfold map_of. cbn [fold_left fst snd map_insert].
  destruct (map_get [] (fold_left map_ins (combine ps cs) [([] : bytes, root)])) as [c|] eqn:E.
  - apply (proj1 (map_ins_get _ _ _)) in E as [E|E]; [|cbn in E; symmetry; exact E]. apply in_combine_l in E. contradiction.
  - exfalso. revert E. apply (proj2 (map_ins_get _ _ _)). left. discriminate.
Qed.

Lemma verifier_queries_In leaf cm pzs : forall qs, verifier_queries leaf cm pzs = Ok qs ->
  forall p z, In (p, z) pzs -> exists c, map_get p cm = Some c /\ In (mkVQ c (of_Z z) (expected_y leaf cm (p, z))) qs.
Proof.
  induction pzs as [|pz pzs IH]; intros qs E p z H; [destruct H|]. cbn [verifier_queries] in E.
  destruct (map_get (fst pz) cm) as [c|] eqn:Ec; cbn [unwrap rbind] in E; [|discriminate E].
  destruct (verifier_queries leaf cm pzs) as [r|]; cbn [rbind] in E; [|discriminate E].
  assert (Es : forall x, Ok x = Ok qs -> x = qs) by congruence. apply Es in E. subst qs.
  destruct H as [->|H].
  - exists c. split; [exact Ec|now left].
  - destruct (IH r eq_refl p z H) as (c1 & H1 & H2). exists c1. split; [exact H1|now right].
Qed.

Lemma queries_final hint comms keys values root qs uh : Forall is_key keys ->
  create_verifier_queries hint comms keys values root = Ok (Some (qs, uh)) ->
  let st := fst (stem_statuses (set_of (map (firstn 31) keys)) hint) in
  let we := snd (stem_statuses (set_of (map (firstn 31) keys)) hint) in
  exists s cm, Final st we (vh_diff hint) (combine keys values) s /\
    (forall p, In p (vs_paths s) -> exists c, map_get p cm = Some c) /\
    (forall p, ~ In p (vs_paths s) -> map_get p cm = None) /\
    (In [] (vs_paths s) -> map_get [] cm = Some root) /\
    (forall p z, In (p, z) (vs_pzs s) -> exists c, map_get p cm = Some c /\
       In (mkVQ c (of_Z z) (expected_y (vs_leaf s) cm (p, z))) qs) /\
    uh = mkUH st cm (vs_others s).
Proof.
  intros Hk E st we. unfold create_verifier_queries in E. cbv zeta in E.
  destruct (stem_statuses (set_of (map (firstn 31) keys)) hint) as [st0 we0]. cbn [fst snd] in st, we. subst st we.
  destruct (verify_keys st0 we0 (vh_diff hint) vs_empty (combine keys values)) as [[s|]|] eqn:Es; cbn [rbind] in E; try discriminate E.
  destruct (stems_eqb (vh_diff hint) (vs_used s)); cbn [assertb rbind] in E; [|discriminate E].
  destruct (Nat.eqb_spec (length (root :: comms)) (length (vs_paths s))) as [El|]; cbn [assertb rbind] in E; [|discriminate E].
  destruct (verifier_queries (vs_leaf s) (map_of (combine (vs_paths s) (root :: comms))) (vs_pzs s)) as [q|] eqn:Eq;
    cbn [rbind] in E; [|discriminate E].
  assert (q = qs) as -> by congruence.
  assert (Eu : uh = mkUH st0 (map_of (combine (vs_paths s) (root :: comms))) (vs_others s)) by congruence. clear E.
  exists s, (map_of (combine (vs_paths s) (root :: comms))).
  assert (F : Final st0 we0 (vh_diff hint) ([] ++ combine keys values) s).
  { apply (verify_keys_final st0 we0 (vh_diff hint) (combine keys values) [] vs_empty); [|apply final_nil|exact Es].
    intros [k v] H. apply in_combine_l in H. rewrite Forall_forall in Hk. cbn [fst]. now apply Hk. }
  cbn [app] in F. split; [exact F|]. pose proof (fi_paths_sorted _ _ _ _ _ F) as Sp.
  split; [|split; [|split; [|split; [|exact Eu]]]].
  - intros p. apply map_get_combine_sorted; auto.
  - intros p. apply map_get_combine_sorted; auto.
  - apply map_get_root; auto.
  - intros p z H. eapply verifier_queries_In; eauto.
Qed.
End Verifier.
