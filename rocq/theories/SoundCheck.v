(** Special soundness of whole proofs. *)
From Coq Require Import String.
From Verif Require Import Base BaseFacts Alg AlgFacts TreeSpec TrieModel BTree WireModel ProofModel ProofSpec IpaModel LagrangeSpec
  LagrangeProofs IpaSpec TranscriptSpec CheckProofs SoundSpec SoundIpa SoundSum SoundMulti.
Local Open Scope list_scope.

Section SoundCheck.
Context {A : Alg} {AL : AlgLaws A} {P : Par A} {PL : ParLaws P}.
Notation len := List.length.

(** ** What a key adds to the points queried: at most 40, all in the domain *)
Definition adds (n : nat) (s s' : VState) : Prop :=
  exists l, (len l <= n)%nat /\ Forall (fun pz : bytes * Z => is_byte (snd pz)) l /\
            vs_pzs s' = fold_left (fun a x => set_insert x a) l (vs_pzs s).

Lemma adds_same s s' : vs_pzs s' = vs_pzs s -> adds 0 s s'.
Proof. intros E. exists []. repeat split; [cbn; lia|constructor|exact E]. Qed.
Lemma adds_pz p z s : is_byte z -> adds 1 s (add_pz p z s).
Proof. intros B. exists [(p, z)]. split; [cbn; lia|]. split; [now constructor|reflexivity]. Qed.
Lemma adds_trans n m s1 s2 s3 : adds n s1 s2 -> adds m s2 s3 -> adds (n + m) s1 s3.
Proof.
  intros (l1 & L1 & F1 & E1) (l2 & L2 & F2 & E2). exists (l1 ++ l2). rewrite app_length, fold_left_app, <- E1.
  split; [lia|]. split; [now apply Forall_app|exact E2].
Qed.
Lemma adds_le n m s s' : (n <= m)%nat -> adds n s s' -> adds m s s'.
Proof. intros L (l & Ll & F & E). exists l. split; [lia|easy]. Qed.
Lemma index_byte (l : bytes) i z : is_bytes l -> Base.index l i = Ok z -> (i < len l)%nat /\ is_byte z.
Proof.
  unfold Base.index, is_bytes. intros B E. destruct (nth_error l i) as [z0|] eqn:N; [|discriminate E].
  cbn in E. assert (z0 = z) as <- by congruence. split; [apply nth_error_Some; congruence|].
  apply nth_error_In in N. rewrite Forall_forall in B. now apply B.
Qed.
Lemma adds_branches stem l : is_bytes stem -> forall s s', add_branches stem l s = Ok s' ->
  Forall (fun i => (i < len stem)%nat) l /\ adds (len l) s s'.
Proof.
  intros B. induction l as [|i l IH]; cbn [add_branches]; intros s s' E.
  - split; [constructor|]. assert (s = s') as -> by congruence. now apply adds_same.
  - destruct (slice 0 i stem) as [p|]; cbn [rbind] in E; [|discriminate E].
    destruct (Base.index stem i) as [z|] eqn:I; cbn [rbind] in E; [|discriminate E].
    destruct (index_byte _ _ _ B I) as [Li Bz]. destruct (IH _ _ E) as [F K].
    split; [now constructor|]. change (len (i :: l)) with (0 + (1 + len l))%nat.
    apply (adds_trans _ _ s (add_path p s)); [now apply adds_same|].
    apply (adds_trans _ _ _ (add_pz p z (add_path p s))); [now apply adds_pz|exact K].
Qed.
Lemma adds_key st we diff s key value s' : is_key key -> verify_key st we diff s (key, value) = Ok (Some s') -> adds 40 s s'.
Proof.
  intros [Lk Bk] E. unfold verify_key in E.
  assert (Bs : is_bytes (firstn 31 key)) by (apply is_bytes_firstn; exact Bk).
  destruct (map_get (firstn 31 key) st) as [[ext depth]|]; cbn [unwrap rbind] in E; [|discriminate E].
  assert (Ls : len (firstn 31 key) = 31%nat) by (rewrite firstn_length; lia).
  set (d := Z.to_nat depth) in *. set (stem := firstn 31 key) in *.
  destruct (add_branches stem (seq 0 d) s) as [s1|] eqn:E1; cbn [rbind] in E; [|discriminate E].
  destruct (adds_branches _ _ Bs _ _ E1) as [Fd Z1]. rewrite seq_length in Z1.
  assert (Ld : (d <= 31)%nat).
  { destruct d as [|d']; [lia|]. rewrite Forall_forall in Fd. specialize (Fd d' ltac:(apply in_seq; lia)). lia. }
  assert (Hext : forall (p : bytes) s2, s2 = add_leaf p 0 fone (add_pz p 1 (add_pz p 0 (add_path p s1))) -> adds 33 s s2).
  { intros p s2 ->. apply (adds_le (d + (1 + (1 + 0)))); [lia|]. apply (adds_trans _ _ _ _ _ Z1).
    apply (adds_trans _ _ _ (add_pz p 0 (add_path p s1))); [exact (adds_pz p 0 (add_path p s1) ltac:(unfold is_byte; lia))|].
    apply (adds_trans _ _ _ (add_pz p 1 (add_pz p 0 (add_path p s1)))); [apply adds_pz; unfold is_byte; lia|now apply adds_same]. }
  destruct ext.
  - apply (adds_le d); [lia|]. unfold add_none in E. destruct value; [discriminate E|]. destruct (d =? 1)%nat.
    + destruct (Base.index stem 0) as [z|]; cbn [rbind] in E; [|discriminate E].
      assert (add_leaf [] z fzero s1 = s') as <- by congruence. exact Z1.
    + destruct (slice 0 d stem) as [p|]; cbn [rbind] in E; [|discriminate E].
      destruct (assertb (negb (d =? 0)%nat)); cbn [rbind] in E; [|discriminate E].
      destruct (Base.index stem (d - 1)) as [z|]; cbn [rbind] in E; [|discriminate E].
      assert (add_leaf p z fzero s1 = s') as <- by congruence. exact Z1.
  - destruct (slice 0 d stem) as [p|]; cbn [rbind] in E; [|discriminate E].
    specialize (Hext p _ eq_refl). revert E Hext.
    generalize (add_leaf p 0 fone (add_pz p 1 (add_pz p 0 (add_path p s1)))). intros s2 E Z2.
    apply (adds_le 33); [lia|].
    unfold add_different in E. destruct value; [discriminate E|].
    destruct (assertb (negb (d =? len stem)%nat)); cbn [rbind] in E; [|discriminate E].
    destruct (filter (fun x => beqb (firstn d x) (firstn d stem)) we) as [|o [|o' l']].
    + destruct (unwrap (hd_error _)) as [o|]; cbn [rbind] in E; [|discriminate E].
      assert (Es : forall x, Ok (Some x) = Ok (Some s') -> x = s') by congruence. apply Es in E. subst s'. exact Z2.
    + assert (Es : forall x, Ok (Some x) = Ok (Some s') -> x = s') by congruence. apply Es in E. subst s'. exact Z2.
    + discriminate E.
  - destruct (slice 0 d stem) as [p|]; cbn [rbind] in E; [|discriminate E].
    specialize (Hext p _ eq_refl). revert E Hext.
    generalize (add_leaf p 0 fone (add_pz p 1 (add_pz p 0 (add_path p s1)))). intros s2 E Z2.
    destruct (Base.index key 31) as [sfx|] eqn:Esx; cbn [rbind] in E; [|discriminate E].
    assert (Es : forall x, Ok (Some x) = Ok (Some s') -> x = s') by congruence. apply Es in E. subst s'.
    destruct (index_byte _ _ _ Bk Esx) as [_ Bx]. unfold is_byte in Bx.
    assert (Bm := Z.mod_pos_bound sfx 128 ltac:(lia)).
    unfold add_present. set (oi := if sfx <? 128 then 2 else 3).
    assert (Bo : is_byte oi) by (unfold oi, is_byte; destruct (sfx <? 128); lia).
    set (s3 := add_path (p ++ [oi]) (add_leaf p 1 (of_Z (le_Z stem)) (add_pz p oi s2))).
    assert (Z3 : adds 34 s s3) by (apply (adds_trans 33 1 _ s2 _ Z2); exact (adds_pz p oi s2 Bo)).
    assert (Z5 : adds 36 s (add_pz (p ++ [oi]) (2 * (sfx mod 128) + 1) (add_pz (p ++ [oi]) (2 * (sfx mod 128)) s3))).
    { apply (adds_trans 35 1 _ (add_pz (p ++ [oi]) (2 * (sfx mod 128)) s3)).
      - apply (adds_trans 34 1 _ s3 _ Z3). apply adds_pz. unfold is_byte. lia.
      - apply adds_pz. unfold is_byte. lia. }
    apply (adds_le 36); [lia|]. destruct value; exact Z5.
Qed.
Lemma adds_keys st we diff kvs : Forall (fun kv => is_key (fst kv)) kvs -> forall s s',
  verify_keys st we diff s kvs = Ok (Some s') -> adds (40 * len kvs) s s'.
Proof.
  induction 1 as [|[k v] kvs K _ IH]; cbn [verify_keys]; intros s s' E.
  - assert (s = s') as -> by congruence. now apply adds_same.
  - destruct (verify_key st we diff s (k, v)) as [[s1|]|] eqn:E1; cbn [rbind] in E; try discriminate E.
    apply (adds_le (40 + 40 * len kvs)); [cbn [List.length]; lia|].
    apply (adds_trans _ _ _ s1); [exact (adds_key _ _ _ _ _ _ _ K E1)|now apply IH].
Qed.
Lemma set_insert_len (x : bytes * Z) s : (len (set_insert x s) <= S (len s))%nat.
Proof. induction s as [|y s IH]; cbn [set_insert]; [cbn; lia|]. destruct (cmp _ _); cbn [List.length] in *; lia. Qed.
Lemma adds_facts n s s' : adds n s s' -> (len (vs_pzs s') <= len (vs_pzs s) + n)%nat /\
  (Forall (fun pz => is_byte (snd pz)) (vs_pzs s) -> Forall (fun pz => is_byte (snd pz)) (vs_pzs s')).
Proof.
  intros (l & L & F & ->). revert n L. generalize (vs_pzs s). induction F as [|x l B F IH]; intros a n L; cbn [fold_left].
  - split; [lia|easy].
  - cbn [List.length] in L. destruct (IH (set_insert x a) (n - 1)%nat ltac:(lia)) as [K1 K2].
    assert (S1 := set_insert_len x a). split; [lia|]. intros Fa. apply K2. rewrite Forall_forall in *. intros y Iy.
    apply In_set_insert in Iy as [->|Iy]; [exact B|now apply Fa].
Qed.
Lemma queries_points leaf comms pzs : Forall (fun pz => is_byte (snd pz)) pzs -> forall qs,
  verifier_queries leaf comms pzs = Ok qs -> points_ok 256 (map (fun pz => Z.to_nat (snd pz)) pzs) qs.
Proof.
  induction 1 as [|pz pzs B _ IH]; cbn [verifier_queries map]; intros qs E.
  - assert (qs = []) as -> by congruence. constructor.
  - destruct (map_get (fst pz) comms) as [c|]; cbn [unwrap rbind] in E; [|discriminate E].
    destruct (verifier_queries leaf comms pzs) as [r|]; cbn [rbind] in E; [|discriminate E].
    assert (qs = mkVQ c (of_Z (snd pz)) (expected_y leaf comms pz) :: r) as -> by congruence.
    constructor; [|now apply IH]. unfold is_byte in B. cbn [vq_point]. split; [lia|]. unfold pt. now rewrite Z2Nat.id by lia.
Qed.
Lemma queries_len leaf comms pzs : forall qs, verifier_queries leaf comms pzs = Ok qs -> len qs = len pzs.
Proof.
  induction pzs as [|pz pzs IH]; cbn [verifier_queries]; intros qs E; [assert (qs = []) as -> by congruence; easy|].
  destruct (map_get (fst pz) comms) as [c|]; cbn [unwrap rbind] in E; [|discriminate E].
  destruct (verifier_queries leaf comms pzs) as [r|]; cbn [rbind] in E; [|discriminate E].
  assert (qs = mkVQ c (of_Z (snd pz)) (expected_y leaf comms pz) :: r) as -> by congruence.
  cbn [List.length]. f_equal. now apply IH.
Qed.
Lemma verifier_points hint comms keys values root qs uh : Forall is_key keys ->
  create_verifier_queries hint comms keys values root = Ok (Some (qs, uh)) ->
  (exists zs, points_ok 256 zs qs) /\ (len qs <= 40 * len keys)%nat.
Proof.
  intros K E. unfold create_verifier_queries in E. destruct (stem_statuses _ hint) as [st we].
  destruct (verify_keys st we (vh_diff hint) vs_empty (combine keys values)) as [[s|]|] eqn:Es; cbn [rbind] in E; try discriminate E.
  destruct (assertb (stems_eqb _ _)); cbn [rbind] in E; [|discriminate E].
  destruct (assertb (_ =? _)%nat); cbn [rbind] in E; [|discriminate E].
  destruct (verifier_queries _ _ (vs_pzs s)) as [q|] eqn:Eq; cbn [rbind] in E; [|discriminate E].
  assert (q = qs) as -> by congruence.
  assert (Kc : Forall (fun kv : bytes * option bytes => is_key (fst kv)) (combine keys values)).
  { rewrite Forall_forall in *. intros [k v] I. apply in_combine_l in I. now apply K. }
  destruct (adds_facts _ _ _ (adds_keys _ _ _ _ Kc _ _ Es)) as [B F].
  split; [eexists; exact (queries_points _ _ _ (F (Forall_nil _)) _ Eq)|].
  rewrite (queries_len _ _ _ _ Eq). rewrite combine_length in B. cbn [vs_empty vs_pzs List.length] in B. lia.
Qed.

Lemma check_extraction {C : ECodec A} hint comms keys values root qs uh ch p :
  domain_fits 256 -> Forall is_key keys ->
  create_verifier_queries hint comms keys values root = Ok (Some (qs, uh)) ->
  enough_challenges 8 (len qs) ch -> all_checked p hint comms keys values root qs ch ->
  exists zs, points_ok 256 zs qs /\
  match extract_multi 256 zs qs ch (pr_a p) with
  | Opening vs => len vs = len qs /\ forall i q, nth_error qs i = Some q ->
      exists v, nth_error vs i = Some v /\ len v = 256%nat /\ vq_comm q = commit 256 v (crs_G trie_crs) /\
                nth (nth i zs 0%nat) v fzero = vq_result q
  | Relation v => relation (crs_G trie_crs ++ [crs_Q trie_crs]) v
  end.
Proof.
  intros Fit K Ev Ec Ac. destruct (verifier_points _ _ _ _ _ _ _ K Ev) as [(zs & Hz) _]. exists zs. split; [exact Hz|].
  refine (multi_extraction 8 zs qs ch p (tr_new (lbl "vt")) trie_crs (weights 256) Fit _ trie_crs_len (weights256 Fit) Hz Ec _); [reflexivity|].
  intros r t w xs Ir It Iw Ix. destruct (Ac r t w xs Ir It Iw Ix) as (H & u & Hr & Hc). exists H. split; [exact Hr|].
  unfold proof_check in Hc. cbn [vp_hint vp_comms vp_proof] in Hc. rewrite Ev in Hc. cbn [rbind] in Hc.
  rewrite (weights256 Fit) in Hc. cbn [rbind] in Hc. revert Hc.
  match goal with |- context [rbind ?X _] => destruct X as [b|]; cbn [rbind]; [|discriminate] end.
  intros E. congruence.
Qed.
End SoundCheck.
