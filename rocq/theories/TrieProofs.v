(** The in-memory trie keeps its tables equal to the canonical tables of the
    inserted map. *)
From Coq Require Import Permutation.
From Verif Require Import Base BaseFacts Alg AlgFacts TreeSpec TreeFacts TrieModel.

Section Proofs.
Context {A : Alg} {L : AlgLaws A} {P : Par A} {PL : ParLaws P}.
Add Ring Fring : F_ring.
Add Ring dnring : dn_ring.
Opaque vcommit gsum subtree_hash.

(** ** Canonical tables *)
Definition cstem (m : bytes -> option bytes) (s : bytes) : StemMeta :=
  mkStemMeta (suffix_comm m s 0) (hash (suffix_comm m s 0))
             (suffix_comm m s 1) (hash (suffix_comm m s 1))
             (ext_comm m s) (hash (ext_comm m s)).

Definition cmeta m S p : BranchMeta := mkBranchMeta (inner_comm m S p) (hash (inner_comm m S p)).

Definition internal (S : list bytes) (p : bytes) : bool :=
  (length p =? 0)%nat || (2 <=? length (under S p))%nat.

Definition cbranch m S (p : bytes) : option BranchChild :=
  if internal S p then Some (CBranch (cmeta m S p))
  else match under S p with
       | [s] => if internal S (removelast p) then Some (CStem s) else None
       | _ => None
       end.

Record Canon (db : MemoryDb) (m : bytes -> option bytes) (S : list bytes) : Prop := {
  can_wf : wfS S;
  can_keys : forall k v, m k = Some v -> is_key k /\ In (firstn 31 k) S;
  can_leaf : forall k, leaf_table db k = m k;
  can_stem : forall s, stem_table db s = if in_dec bytes_dec s S then Some (cstem m s) else None;
  can_branch : forall p, branch_table db p = cbranch m S p
}.

(** ** Keys *)
Lemma key_split k : is_key k -> k = firstn 31 k ++ [nth 31 k 0].
Proof.
  intros [Lk _]. rewrite <- (firstn_S_nth 0 31 k) by lia. symmetry. apply firstn_all2. lia.
Qed.

Lemma key_stem k : is_key k -> is_stem (firstn 31 k).
Proof. intros [Lk Bk]. split; [rewrite firstn_length; lia|apply is_bytes_firstn; exact Bk]. Qed.

Lemma key_byte k i : is_key k -> (i < 32)%nat -> is_byte (nth i k 0).
Proof.
  intros [Lk Bk] Hi. unfold is_bytes in Bk. rewrite Forall_forall in Bk. apply Bk, nth_In. lia.
Qed.

Lemma stem_byte s i : is_stem s -> (i < 31)%nat -> is_byte (nth i s 0).
Proof.
  intros [Lk Bk] Hi. unfold is_bytes in Bk. rewrite Forall_forall in Bk. apply Bk, nth_In. lia.
Qed.

Lemma nth_firstn {X} (d : X) i n l : (i < n)%nat -> nth i (firstn n l) d = nth i l d.
Proof.
  revert n l; induction i as [|i IH]; intros [|n] [|x l] H; simpl; try lia; try reflexivity.
  apply IH; lia.
Qed.

Lemma sing_inj {X} (a b : X) : [a] = [b] -> a = b.
Proof. congruence. Qed.

(** ** Stem metadata after one write *)
Lemma leaf_low_some v : leaf_low (Some v) = value_low v. Proof. reflexivity. Qed.
Lemma leaf_high_some v : leaf_high (Some v) = value_high v. Proof. reflexivity. Qed.

Lemma suffix_comm_upd m s x v :
  0 <= x < 256 ->
  let m' := upd m (s ++ [x]) v in
  suffix_comm m' s (x / 128) =
  gadd (gadd (suffix_comm m s (x / 128))
          (smul (fsub (value_low v) (leaf_low (m (s ++ [x])))) (crs (2 * (x mod 128)))))
       (smul (fsub (value_high v) (leaf_high (m (s ++ [x])))) (crs (2 * (x mod 128) + 1))).
Proof.
  intros Hx m'. unfold suffix_comm. set (b := x / 128). set (j := x mod 128).
  assert (Hj : 0 <= j < 128) by (apply Z.mod_pos_bound; lia).
  assert (Ex : x = 128 * b + j) by (apply Z.div_mod; lia).
  set (w := fun i => if Z.eqb i (2 * j) then value_low v else suffix_vec m s b i).
  assert (E0 : Z.even (2 * j) = true) by (rewrite Z.even_mul; reflexivity).
  assert (E1 : Z.even (2 * j + 1) = false) by (rewrite Z.even_add, E0; reflexivity).
  assert (D0 : 2 * j / 2 = j) by (symmetry; apply (Z.div_unique _ 2 j 0); lia).
  assert (D1 : (2 * j + 1) / 2 = j) by (symmetry; apply (Z.div_unique _ 2 j 1); lia).
  assert (Hlo : suffix_vec m s b (2 * j) = leaf_low (m (s ++ [x]))).
  { unfold suffix_vec. rewrite E0.
    rewrite D0, <- Ex. reflexivity. }
  assert (Hhi : suffix_vec m s b (2 * j + 1) = leaf_high (m (s ++ [x]))).
  { unfold suffix_vec. rewrite E1.
    rewrite D1, <- Ex. reflexivity. }
  assert (Hlo' : suffix_vec m' s b (2 * j) = value_low v).
  { unfold suffix_vec. rewrite E0.
    rewrite D0, <- Ex. unfold m'. rewrite upd_same. reflexivity. }
  assert (Hhi' : suffix_vec m' s b (2 * j + 1) = value_high v).
  { unfold suffix_vec. rewrite E1.
    rewrite D1, <- Ex. unfold m'. rewrite upd_same. reflexivity. }
  rewrite (vcommit_upd w (suffix_vec m' s b) (2 * j + 1)); [|lia|].
  - rewrite (vcommit_upd (suffix_vec m s b) w (2 * j)); [|lia|].
    + unfold w at 1 2. rewrite Z.eqb_refl, Hhi', Hlo.
      destruct (Z.eqb_spec (2 * j + 1) (2 * j)); [lia|]. rewrite Hhi. reflexivity.
    + intros i _ Hi. unfold w. destruct (Z.eqb_spec i (2 * j)); [contradiction|reflexivity].
  - intros i Hi Hn. unfold w. destruct (Z.eqb_spec i (2 * j)) as [->|Hn2]; [exact Hlo'|].
    unfold suffix_vec, m'. rewrite upd_other; [reflexivity|].
    intros E. apply app_inv_head in E. apply sing_inj in E.
    assert (i / 2 = j) as Hd by lia. pose proof (Z.div_mod i 2 ltac:(lia)) as Hdm.
    pose proof (Z.mod_pos_bound i 2 ltac:(lia)). lia.
Qed.

Lemma suffix_comm_upd_other m s x v b :
  0 <= x < 256 -> 0 <= b <= 1 -> b <> x / 128 ->
  suffix_comm (upd m (s ++ [x]) v) s b = suffix_comm m s b.
Proof.
  intros Hx Hb Hn. unfold suffix_comm. apply vcommit_ext. intros i Hi.
  unfold suffix_vec. rewrite upd_other; [reflexivity|].
  intros E. apply app_inv_head in E. apply sing_inj in E. apply Hn.
  assert (0 <= i / 2 < 128) by (split; [apply Z.div_pos; lia|apply Z.div_lt_upper_bound; lia]).
  rewrite E. rewrite Z.mul_comm, Z.div_add_l by lia. rewrite Z.div_small by lia. lia.
Qed.

Lemma suffix_comm_empty m s b : 0 <= b <= 1 -> same_leaves m bempty s -> suffix_comm m s b = gzero.
Proof.
  intros Hb H. apply vcommit_zero. intros i Hi. unfold suffix_vec.
  rewrite (H (128 * b + i / 2)); [destruct (Z.even i); reflexivity|].
  assert (0 <= i / 2 < 128) by (split; [apply Z.div_pos; lia|apply Z.div_lt_upper_bound; lia]). lia.
Qed.

Lemma ext_comm_empty m s :
  same_leaves m bempty s -> ext_comm m s = gadd (crs 0) (smul (of_Z (le_Z s)) (crs 1)).
Proof.
  intros H. rewrite ext_comm_eq, !suffix_comm_empty, hash_zero by (auto; lia). module.
Qed.

Lemma update_stem_table_ok (db : MemoryDb) m (S : list bytes) k v depth :
  is_key k ->
  (forall s, stem_table db s = if in_dec bytes_dec s S then Some (cstem m s) else None) ->
  (~ In (firstn 31 k) S -> same_leaves m bempty (firstn 31 k)) ->
  update_stem_table db (m k, v, k) depth =
  Ok (mkMemoryDb (leaf_table db)
        (upd (stem_table db) (firstn 31 k) (cstem (upd m k v) (firstn 31 k)))
        (branch_table db),
      (if in_dec bytes_dec (firstn 31 k) S then Some (hash (ext_comm m (firstn 31 k))) else None,
       hash (ext_comm (upd m k v) (firstn 31 k)), firstn 31 k)).
Proof.
  intros Hk Hst Hfresh.
  pose proof (key_split k Hk) as Ek. pose proof (key_byte k 31 Hk ltac:(lia)) as Hx.
  unfold is_byte in Hx. set (s := firstn 31 k) in *. set (x := nth 31 k 0) in *.
  unfold update_stem_table. fold s. fold x.
  assert (Eold : (match m k with Some val => (value_low val, value_high val) | None => (fzero, fzero) end)
                 = (leaf_low (m k), leaf_high (m k))) by (destruct (m k); reflexivity).
  rewrite Eold. clear Eold.
  cbn [get_stem_meta memory_db_ops]. unfold mem_get_stem_meta. cbn [rbind]. rewrite Hst.
  assert (Eread :
   (match (if in_dec bytes_dec s S then Some (cstem m s) else None) with
    | Some cv => (sm_c1 cv, sm_hash_c1 cv, sm_c2 cv, sm_hash_c2 cv, sm_comm cv, Some (sm_hash_comm cv))
    | None => (gzero, hash gzero, gzero, hash gzero, gadd (crs 0) (scalar_mul (of_Z (le_Z s)) 1), None)
    end) =
   (suffix_comm m s 0, hash (suffix_comm m s 0), suffix_comm m s 1, hash (suffix_comm m s 1),
    ext_comm m s, if in_dec bytes_dec s S then Some (hash (ext_comm m s)) else None)).
  { destruct (in_dec bytes_dec s S) as [Hin|Hn]; [reflexivity|].
    rewrite !suffix_comm_empty, ext_comm_empty by (auto; lia). reflexivity. }
  rewrite Eread. clear Eread.
  unfold scalar_mul.
  pose proof (suffix_comm_upd m s x v ltac:(lia)) as Hupd. cbv zeta in Hupd. rewrite <- Ek in Hupd.
  assert (Hdelta0 : forall a b : F, a = b -> True) by auto. clear Hdelta0.
  destruct (Z.ltb_spec x 128) as [Hlt|Hge].
  - assert (Hd : x / 128 = 0) by (apply Z.div_small; lia). rewrite Hd in Hupd.
    rewrite <- Hupd.
    assert (H2 : suffix_comm (upd m k v) s 1 = suffix_comm m s 1)
      by (rewrite Ek; apply suffix_comm_upd_other; lia).
    assert (Ee : gadd (ext_comm m s)
       (smul (fsub (hash (suffix_comm (upd m k v) s 0)) (hash (suffix_comm m s 0))) (crs 2))
       = ext_comm (upd m k v) s).
    { rewrite !ext_comm_eq, H2. module. }
    rewrite Ee. cbn [insert_stem memory_db_ops mem_insert_stem sm_hash_comm].
    unfold cstem. rewrite H2. reflexivity.
  - assert (Hd : x / 128 = 1) by (symmetry; apply (Z.div_unique x 128 1 (x - 128)); lia).
    rewrite Hd in Hupd. rewrite <- Hupd.
    assert (H2 : suffix_comm (upd m k v) s 0 = suffix_comm m s 0)
      by (rewrite Ek; apply suffix_comm_upd_other; lia).
    assert (Ee : gadd (ext_comm m s)
       (smul (fsub (hash (suffix_comm (upd m k v) s 1)) (hash (suffix_comm m s 1))) (crs 3))
       = ext_comm (upd m k v) s).
    { rewrite !ext_comm_eq, H2. module. }
    rewrite Ee. cbn [insert_stem memory_db_ops mem_insert_stem sm_hash_comm].
    unfold cstem. rewrite H2. reflexivity.
Qed.

Lemma cstem_other m k v s :
  length k = 32%nat -> length s = 31%nat -> s <> firstn 31 k -> cstem (upd m k v) s = cstem m s.
Proof.
  intros Lk Ls Hn. pose proof (same_leaves_upd m k v s Lk Ls Hn) as H.
  unfold cstem. rewrite <- (ext_comm_congr m (upd m k v) s H).
  rewrite <- !(suffix_comm_congr m (upd m k v) s) by (auto; lia). reflexivity.
Qed.

(** ** Prefix bookkeeping *)
Lemma internal_nil S : internal S [] = true. Proof. reflexivity. Qed.

Lemma under_length_app S p q : (length (under S (p ++ q)) <= length (under S p))%nat.
Proof.
  rewrite <- under_app. unfold under at 1. generalize (under S p) as l.
  induction l as [|x l IH]; simpl; [lia|]. destruct (has_prefix (p ++ q) x); simpl; lia.
Qed.

Lemma firstn_le_app {X} i j (l : list X) : (i <= j)%nat -> exists q, firstn j l = firstn i l ++ q.
Proof.
  intros H. exists (skipn i (firstn j l)).
  replace (firstn i l) with (firstn i (firstn j l)) by (rewrite firstn_firstn; f_equal; lia).
  symmetry; apply firstn_skipn.
Qed.

Lemma internal_down S s i j : (i <= j)%nat -> (j <= length s)%nat ->
  internal S (firstn j s) = true -> internal S (firstn i s) = true.
Proof.
  intros H Hj Hi. unfold internal in *. destruct i as [|i]; [reflexivity|].
  destruct (firstn_le_app (Datatypes.S i) j s H) as [q E].
  pose proof (under_length_app S (firstn (Datatypes.S i) s) q) as Hl. rewrite <- E in Hl.
  apply orb_true_iff in Hi as [Hi|Hi].
  - apply Nat.eqb_eq in Hi. rewrite firstn_length in Hi. lia.
  - apply Nat.leb_le in Hi. apply orb_true_iff; right. apply Nat.leb_le. lia.
Qed.

Lemma internal_long S p : wfS S -> (31 <= length p)%nat -> internal S p = false.
Proof.
  intros W Hp. unfold internal. pose proof (under_long S p W Hp).
  apply orb_false_iff; split; [apply Nat.eqb_neq; lia|apply Nat.leb_gt; lia].
Qed.

Lemma internal_false_under S p : internal S p = false -> under S p = [] \/ exists t, under S p = [t].
Proof.
  unfold internal. rewrite orb_false_iff. intros [_ H]. apply Nat.leb_gt in H.
  destruct (under S p) as [|a [|b l]]; simpl in H; [auto|eauto|lia].
Qed.

Lemma internal_many S p : internal S p = true -> p <> [] -> (2 <= length (under S p))%nat.
Proof.
  unfold internal. rewrite orb_true_iff. intros [H|H] Hp.
  - apply Nat.eqb_eq in H. destruct p; [contradiction|discriminate].
  - apply Nat.leb_le in H. exact H.
Qed.

Lemma internal_depth S s : wfS S -> length s = 31%nat ->
  exists e, (e < 31)%nat /\ internal S (firstn e s) = true /\ internal S (firstn (Datatypes.S e) s) = false.
Proof.
  intros W Ls.
  assert (H : forall n, (n <= 31)%nat -> internal S (firstn n s) = true \/
     exists e, (e < n)%nat /\ internal S (firstn e s) = true /\ internal S (firstn (Datatypes.S e) s) = false).
  { induction n as [|n IH]; intros Hn; [left; reflexivity|].
    destruct IH as [IH|(e & He & H1 & H2)]; [lia| |right; exists e; split; [lia|auto]].
    destruct (internal S (firstn (Datatypes.S n) s)) eqn:E; [left; reflexivity|].
    right. exists n. auto with arith. }
  destruct (H 31%nat ltac:(lia)) as [H1|H1]; [|exact H1].
  rewrite internal_long in H1; [discriminate|exact W|rewrite firstn_length; lia].
Qed.

Lemma firstn_inj_len {X} i j (l : list X) :
  (i <= length l)%nat -> (j <= length l)%nat -> firstn i l = firstn j l -> i = j.
Proof. intros Hi Hj E. apply (f_equal (@length X)) in E. rewrite !firstn_length in E. lia. Qed.

Lemma removelast_firstn_S {X} j (l : list X) : (j < length l)%nat ->
  removelast (firstn (Datatypes.S j) l) = firstn j l.
Proof. intros H. apply removelast_firstn. exact H. Qed.

Lemma skipn_nth_cons {X} (d : X) n l : (n < length l)%nat -> skipn n l = nth n l d :: skipn (Datatypes.S n) l.
Proof.
  revert l; induction n as [|n IH]; intros [|x l] H; simpl in *; try lia; [reflexivity|].
  rewrite (IH l) by lia. reflexivity.
Qed.

Lemma path_difference_spec a b : length a = length b ->
  (a = b /\ path_difference a b = (b, None, None)) \/
  exists n, (n < length a)%nat /\ firstn n a = firstn n b /\ nth n a 0 <> nth n b 0 /\
    path_difference a b = (firstn n b, Some (nth n a 0), Some (nth n b 0)).
Proof.
  revert b; induction a as [|x a IH]; intros [|y b] Hl; simpl in Hl; try discriminate.
  - left; auto.
  - injection Hl as Hl. cbn [path_difference]. destruct (Z.eqb_spec x y) as [->|Hn].
    + destruct (IH b Hl) as [[-> E]|(n & H1 & H2 & H3 & E)]; rewrite E.
      * left; auto.
      * right. exists (Datatypes.S n). simpl. repeat split; auto; [lia|congruence].
    + right. exists 0%nat. simpl. repeat split; auto. lia.
Qed.

Lemma seg_firstn {X} (l : list X) e n a : (e + Datatypes.S a <= n)%nat ->
  firstn e l ++ firstn (Datatypes.S a) (skipn e (firstn n l)) = firstn (Datatypes.S (e + a)) l.
Proof.
  intros H. rewrite firstn_skipn_comm, firstn_firstn, Nat.min_l by lia.
  replace (Datatypes.S (e + a)) with (e + Datatypes.S a)%nat by lia.
  replace (firstn e l) with (firstn e (firstn (e + Datatypes.S a) l)) by (rewrite firstn_firstn; f_equal; lia).
  apply firstn_skipn.
Qed.

Lemma seg_map {X} (d : X) (l : list X) e c : (e + c <= length l)%nat ->
  skipn e (firstn (e + c) l) = map (fun i => nth i l d) (seq e c).
Proof.
  induction c as [|c IH]; intros H.
  - rewrite Nat.add_0_r. cbn [seq map]. apply skipn_all2. rewrite firstn_length. lia.
  - rewrite Nat.add_succ_r, (firstn_S_nth d) by lia. rewrite skipn_app, IH by lia.
    rewrite firstn_length, Nat.min_l by lia. replace (e - (e + c))%nat with 0%nat by lia.
    rewrite seq_S, map_app. reflexivity.
Qed.

Lemma combine_extra {X Y Z} (f : X -> Y) (g : X -> Z) l y :
  combine (map f l ++ [y]) (map g l) = map (fun i => (f i, g i)) l.
Proof. induction l as [|x l IH]; cbn [map app combine]; [reflexivity|rewrite IH; reflexivity]. Qed.

(** ** One insertion *)
Section Step.
Variables (m : bytes -> option bytes) (St : list bytes) (k v : bytes).
Hypothesis (W : wfS St) (Hk : is_key k).
Hypothesis (Hkeys : forall k v, m k = Some v -> is_key k /\ In (firstn 31 k) St).
Let s := firstn 31 k.
Let m' := upd m k v.
Let St' := add_stem St s.

Lemma step_s_len : length s = 31%nat.
Proof. destruct Hk as [Lk _]. unfold s. rewrite firstn_length. lia. Qed.
Lemma step_s_stem : is_stem s. Proof. apply key_stem; exact Hk. Qed.
Lemma step_W' : wfS St'. Proof. apply add_stem_wf; [exact W|exact step_s_stem]. Qed.
Lemma step_k_len : length k = 32%nat. Proof. apply Hk. Qed.

Lemma fresh_leaves t : length t = 31%nat -> ~ In t St -> same_leaves m bempty t.
Proof.
  intros Lt Hn i Hi. destruct (m (t ++ [i])) as [w|] eqn:E; [|reflexivity].
  exfalso. apply Hkeys in E as [_ E]. rewrite firstn_app_exact in E by exact Lt. contradiction.
Qed.

Lemma fresh_value : ~ In s St -> m k = None.
Proof.
  intros Hn. destruct (m k) as [w|] eqn:E; [|reflexivity]. apply Hkeys in E as [_ E]. contradiction.
Qed.

Lemma internal_mono p : internal St p = true -> internal St' p = true.
Proof.
  unfold internal. rewrite !orb_true_iff, !Nat.leb_le. pose proof (under_add_length St s p) as H.
  intros [E|E]; [left; exact E|right; unfold St'; lia].
Qed.

Lemma internal_not_prefix p : has_prefix p s = false -> internal St' p = internal St p.
Proof. intros H. unfold internal, St'. rewrite under_add_other by exact H. reflexivity. Qed.

Lemma cbranch_same p : has_prefix p s = false ->
  internal St' (removelast p) = internal St (removelast p) -> cbranch m' St' p = cbranch m St p.
Proof.
  intros Hp Hr. unfold cbranch. rewrite internal_not_prefix, Hr by exact Hp.
  unfold cmeta, m', St'. rewrite under_add_other by exact Hp.
  destruct (internal St p) eqn:E; [|reflexivity].
  unfold s in *. rewrite !inner_other by (auto using step_k_len). reflexivity.
Qed.

Lemma new_keys k0 v0 : m' k0 = Some v0 -> is_key k0 /\ In (firstn 31 k0) St'.
Proof.
  unfold m', upd. destruct (beqb_spec k k0) as [<-|Hn].
  - intros _. split; [exact Hk|]. apply add_stem_In. left; reflexivity.
  - intros H. apply Hkeys in H as [H1 H2]. split; [exact H1|]. apply add_stem_In. right; exact H2.
Qed.

(** The state while the instructions are processed: the ancestors of the
    written stem above depth [j] still carry their old metadata. *)
Record MidCanon (j : nat) (db : MemoryDb) : Prop := {
  mid_leaf : forall k0, leaf_table db k0 = m' k0;
  mid_stem : forall t, stem_table db t = if in_dec bytes_dec t St' then Some (cstem m' t) else None;
  mid_branch : forall p, branch_table db p =
    if has_prefix p s && (length p <? j)%nat then cbranch m St p else cbranch m' St' p
}.

Lemma mid_done db : MidCanon 0 db -> Canon db m' St'.
Proof.
  intros [H1 H2 H3]. constructor; auto.
  - exact step_W'.
  - exact new_keys.
  - intros p. rewrite H3. rewrite (proj2 (Nat.ltb_ge (length p) 0)) by lia.
    rewrite andb_false_r. reflexivity.
Qed.

Lemma step_delta j : (j < 31)%nat ->
  inner_comm m' St' (firstn j s) =
  gadd (inner_comm m St (firstn j s))
    (smul (fsub (cval m' St' (firstn (Datatypes.S j) s)) (cval m St (firstn (Datatypes.S j) s)))
       (crs (nth j s 0))).
Proof.
  intros Hj. pose proof (inner_delta m St k v j W Hk Hj) as D. cbv zeta in D. fold s in D.
  rewrite <- (firstn_S_nth 0 j s) in D by (rewrite step_s_len; lia). exact D.
Qed.

Definition fall (j : nat) : Ins :=
  InternalNodeFallThrough (firstn j s) (nth j s 0) (firstn (Datatypes.S j) s)
    (Some (MBranch (cmeta m St (firstn (Datatypes.S j) s)))) (Z.of_nat j + 1).

Lemma walk db e : Canon db m St -> (e < 31)%nat -> internal St (firstn e s) = true ->
  forall n d acc, (d + n = e)%nat ->
  create_insert_loop db k v (skipn d k) d (firstn d s) acc =
  create_insert_loop db k v (skipn e k) e (firstn e s) (acc ++ map fall (seq d n)).
Proof.
  intros C He Hi. induction n as [|n IH]; intros d acc Hd.
  - assert (d = e) by lia. subst d. simpl. rewrite app_nil_r. reflexivity.
  - rewrite (skipn_nth_cons 0 d k) by (rewrite step_k_len; lia).
    cbn [create_insert_loop].
    assert (En : nth d k 0 = nth d s 0) by (unfold s; rewrite nth_firstn by lia; reflexivity).
    assert (Ep : firstn d s ++ [nth d k 0] = firstn (Datatypes.S d) s)
      by (rewrite En, <- (firstn_S_nth 0 d s) by (rewrite step_s_len; lia); reflexivity).
    cbn [get_branch_child memory_db_ops rbind]. unfold mem_get_branch_child.
    rewrite Ep, (can_branch _ _ _ C). unfold cbranch.
    rewrite (internal_down St s (Datatypes.S d) e) by (try rewrite step_s_len; auto; lia).
    rewrite IH by lia. cbn [seq map]. rewrite <- app_assoc. f_equal.
    unfold fall. rewrite En. reflexivity.
Qed.

Lemma fall_step j e db : (j < e)%nat -> (e < 31)%nat -> internal St (firstn e s) = true ->
  MidCanon (Datatypes.S j) db ->
  exists db', process_fall_through db (firstn j s) (nth j s 0) (firstn (Datatypes.S j) s)
      (Some (MBranch (cmeta m St (firstn (Datatypes.S j) s)))) (Z.of_nat j + 1) = Ok db' /\
    MidCanon j db'.
Proof.
  intros Hj He Hi [ML MS MB]. pose proof step_s_len as Ls.
  assert (I1 : internal St (firstn (Datatypes.S j) s) = true) by (apply (internal_down St s _ e); auto; lia).
  assert (I0 : internal St (firstn j s) = true) by (apply (internal_down St s _ e); auto; lia).
  assert (L0 : length (firstn j s) = j) by (rewrite firstn_length; lia).
  assert (L1 : length (firstn (Datatypes.S j) s) = Datatypes.S j) by (rewrite firstn_length; lia).
  assert (N1 : firstn (Datatypes.S j) s <> []) by (intros E; rewrite E in L1; discriminate).
  unfold process_fall_through. cbn [get_branch_meta memory_db_ops]. unfold mem_get_branch_meta.
  rewrite !MB, L0, L1, !has_prefix_firstn.
  rewrite (proj2 (Nat.ltb_ge (Datatypes.S j) (Datatypes.S j))), (proj2 (Nat.ltb_lt j (Datatypes.S j))) by lia.
  cbn [andb]. unfold cbranch. rewrite I0, (internal_mono _ I1).
  cbn [rbind unwrap into_branch]. unfold cmeta. cbn [bm_comm bm_hash].
  unfold scalar_mul.
  assert (D : gadd (inner_comm m St (firstn j s))
      (smul (fsub (hash (inner_comm m' St' (firstn (Datatypes.S j) s)))
                  (hash (inner_comm m St (firstn (Datatypes.S j) s)))) (crs (nth j s 0)))
      = inner_comm m' St' (firstn j s)).
  { rewrite (step_delta j) by lia.
    rewrite (cval_many m St), (cval_many m' St'); auto using step_W'.
    - apply internal_many; auto using internal_mono.
    - apply internal_many; auto. }
  rewrite D. cbn [insert_branch memory_db_ops mem_insert_branch].
  eexists; split; [reflexivity|]. constructor; cbn [leaf_table stem_table branch_table]; auto.
  intros p. unfold upd. destruct (beqb_spec (firstn j s) p) as [<-|Hn].
  - rewrite L0, (proj2 (Nat.ltb_ge j j)), andb_false_r by lia. unfold cbranch.
    rewrite (internal_mono _ I0). reflexivity.
  - rewrite MB. destruct (has_prefix p s) eqn:Hp; [|reflexivity]. cbn [andb].
    destruct (Nat.ltb_spec (length p) (Datatypes.S j)), (Nat.ltb_spec (length p) j); try lia; try reflexivity.
    exfalso. apply Hn. rewrite (has_prefix_eq _ _ Hp). f_equal. lia.
Qed.

Lemma falls_done e db : (e < 31)%nat -> internal St (firstn e s) = true ->
  forall n, (n <= e)%nat -> MidCanon n db ->
  exists db', process_reversed db (rev (map fall (seq 0 n))) = Ok db' /\ Canon db' m' St'.
Proof.
  intros He Hi n. revert db. induction n as [|n IH]; intros db Hn M.
  - simpl. exists db. split; [reflexivity|apply mid_done; exact M].
  - rewrite seq_S, map_app, rev_app_distr. cbn [map rev app plus].
    unfold fall at 1. cbn [process_reversed].
    destruct (fall_step n e db ltac:(lia) He Hi M) as (db1 & E & M1). rewrite E. cbn [rbind].
    apply IH; [lia|exact M1].
Qed.

Lemma cbranch_below m0 S p : internal S p = false -> internal S (removelast p) = false ->
  cbranch m0 S p = None.
Proof.
  intros H1 H2. unfold cbranch. rewrite H1, H2. destruct (under S p) as [|a [|b l]]; reflexivity.
Qed.

Lemma prefix_nth_snoc p : has_prefix p s = true -> p <> [] ->
  exists j, length p = Datatypes.S j /\ p = firstn (Datatypes.S j) s /\ removelast p = firstn j s /\ (j < 31)%nat.
Proof.
  intros Hp Hn. pose proof (has_prefix_eq _ _ Hp) as E. pose proof (has_prefix_length _ _ Hp) as Hl.
  rewrite step_s_len in Hl. destruct (length p) as [|j] eqn:Lp; [destruct p; [contradiction|discriminate]|].
  exists j. repeat split; auto; try lia. rewrite E at 1. apply removelast_firstn_S. rewrite step_s_len. lia.
Qed.

Lemma removelast_prefix p : p <> [] -> has_prefix p s = false -> has_prefix (removelast p) s = true ->
  exists j b, p = firstn j s ++ [b] /\ removelast p = firstn j s /\ (j <= 31)%nat.
Proof.
  intros Hn _ Hr. exists (length (removelast p)), (last p 0).
  pose proof (has_prefix_length _ _ Hr) as Hl. rewrite step_s_len in Hl.
  rewrite <- (has_prefix_eq _ _ Hr). repeat split; auto. apply app_removelast_last; exact Hn.
Qed.

Lemma cstem_new t : length t = 31%nat -> t <> s -> cstem m' t = cstem m t.
Proof. intros Lt Hn. apply cstem_other; auto using step_k_len. Qed.

Lemma stems_updated (T : bmap StemMeta) :
  (forall t, T t = if in_dec bytes_dec t St then Some (cstem m t) else None) ->
  forall t, upd T s (cstem m' s) t = if in_dec bytes_dec t St' then Some (cstem m' t) else None.
Proof.
  intros HT t. unfold upd. destruct (beqb_spec s t) as [<-|Hn].
  - destruct (in_dec bytes_dec s St') as [H|H]; [reflexivity|]. exfalso; apply H, add_stem_In; auto.
  - rewrite HT. destruct (in_dec bytes_dec t St) as [H|H], (in_dec bytes_dec t St') as [H'|H'].
    + rewrite cstem_new; auto. eapply wfS_len; eauto.
    + exfalso; apply H', add_stem_In; auto.
    + exfalso. apply add_stem_In in H' as [->|H']; auto.
    + reflexivity.
Qed.

Lemma update_last db e l : Canon db m St -> (e < 31)%nat ->
  internal St (firstn e s) = true -> internal St (firstn (Datatypes.S e) s) = false ->
  (under St (firstn (Datatypes.S e) s) = [] \/ under St (firstn (Datatypes.S e) s) = [s]) ->
  m k <> Some v ->
  exists db', process_reversed db (UpdateLeaf k v (Z.of_nat e + 1) (firstn e s) (nth e s 0) :: l) =
     process_reversed db' l /\ MidCanon e db'.
Proof.
  intros C He I0 I1 HU Hv. pose proof step_s_len as Ls. destruct C as [CW CK CL CS CB].
  assert (L0 : length (firstn e s) = e) by (rewrite firstn_length; lia).
  assert (L1 : length (firstn (Datatypes.S e) s) = Datatypes.S e) by (rewrite firstn_length; lia).
  assert (HIn : In s St <-> under St (firstn (Datatypes.S e) s) = [s]).
  { split.
    - intros Hin. destruct HU as [HU|HU]; [|exact HU]. exfalso.
      assert (In s (under St (firstn (Datatypes.S e) s))) as X
        by (apply under_In; split; [exact Hin|apply has_prefix_firstn]).
      rewrite HU in X. destruct X.
    - intros E. assert (In s (under St (firstn (Datatypes.S e) s))) as X by (rewrite E; left; reflexivity).
      apply under_In in X. tauto. }
  assert (U' : under St' (firstn (Datatypes.S e) s) = [s]).
  { unfold St'. destruct (in_dec bytes_dec s St) as [Hin|Hn].
    - rewrite under_add_old by exact Hin. apply HIn; exact Hin.
    - rewrite under_add_new by (auto; apply has_prefix_firstn).
      destruct HU as [->|HU]; [reflexivity|]. exfalso; apply Hn, HIn; exact HU. }
  assert (I1' : internal St' (firstn (Datatypes.S e) s) = false).
  { unfold internal. rewrite U', L1. reflexivity. }
  cbn [process_reversed]. unfold update_leaf_table. cbn [insert_leaf memory_db_ops mem_insert_leaf].
  rewrite CL.
  set (db1 := mkMemoryDb (upd (leaf_table db) k v) (stem_table db) (branch_table db)).
  assert (Elu : (match m k with
     | Some vec => if beqb vec v then (db1, None) else (db1, Some (Some vec, v, k))
     | None => (db1, Some (None, v, k)) end) = (db1, Some (m k, v, k))).
  { destruct (m k) as [w|]; [|reflexivity]. destruct (beqb_spec w v); [congruence|reflexivity]. }
  rewrite Elu. clear Elu. cbv iota beta.
  rewrite (update_stem_table_ok db1 m St k v _ Hk CS) by (apply fresh_leaves; exact Ls).
  fold s. fold m'. cbn [rbind]. unfold db1. cbn [leaf_table stem_table branch_table].
  set (db2 := mkMemoryDb _ _ _).
  unfold update_branch_table. cbn [get_branch_meta memory_db_ops]. unfold mem_get_branch_meta.
  unfold db2 at 1. cbn [branch_table]. rewrite CB. unfold cbranch at 1. rewrite I0. cbn [rbind unwrap].
  unfold scalar_mul.
  assert (Eold : (match (if in_dec bytes_dec s St then Some (hash (ext_comm m s)) else None) with
     Some x => x | None => fzero end) = cval m St (firstn (Datatypes.S e) s)).
  { destruct (in_dec bytes_dec s St) as [Hin|Hn].
    - symmetry. apply cval_one, HIn; exact Hin.
    - symmetry. apply cval_none. destruct HU as [HU|HU]; [exact HU|]. exfalso; apply Hn, HIn; exact HU. }
  rewrite Eold. clear Eold. rewrite <- (cval_one m' St' _ s U').
  cbn [bm_comm cmeta]. rewrite <- (step_delta e He).
  cbn [insert_branch add_stem_as_branch_child memory_db_ops mem_insert_branch mem_add_stem].
  rewrite <- (firstn_S_nth 0 e s) by lia. cbn [rbind].
  unfold db2. cbn [leaf_table stem_table branch_table].
  eexists; split; [reflexivity|]. constructor; cbn [leaf_table stem_table branch_table].
  - intros k0. unfold m', upd. rewrite CL. reflexivity.
  - apply stems_updated; exact CS.
  - intros p. unfold upd. destruct (beqb_spec (firstn (Datatypes.S e) s) p) as [<-|N1].
    + rewrite L1, (proj2 (Nat.ltb_ge (Datatypes.S e) e)), andb_false_r by lia.
      unfold cbranch. rewrite I1', U', removelast_firstn_S, (internal_mono _ I0) by lia. reflexivity.
    + destruct (beqb_spec (firstn e s) p) as [<-|N0].
      * rewrite L0, (proj2 (Nat.ltb_ge e e)), andb_false_r by lia.
        unfold cbranch. rewrite (internal_mono _ I0). reflexivity.
      * rewrite CB. destruct (has_prefix p s) eqn:Hp; cbn [andb].
        -- destruct (Nat.ltb_spec (length p) e) as [Hl|Hl]; [reflexivity|].
           destruct (prefix_nth_snoc p Hp) as (j & Lp & Ep & Er & Hj).
           { intros ->. apply N0. simpl in Hl. assert (e = 0%nat) as -> by lia. reflexivity. }
           assert (e < j)%nat.
           { assert (j <> e) by (intros ->; congruence).
             assert (Datatypes.S j <> e) by (intros E; apply N0; rewrite Ep, E; reflexivity). lia. }
           assert (Q : forall S, internal S (firstn (Datatypes.S e) s) = false ->
              internal S (firstn (Datatypes.S j) s) = false /\ internal S (firstn j s) = false).
           { intros S HS. split; match goal with |- ?x = _ => destruct x eqn:E; [|reflexivity] end;
               apply (internal_down S s (Datatypes.S e)) in E; try lia; congruence. }
           rewrite !cbranch_below; auto; try (rewrite Er; apply Q; auto); rewrite Ep; apply Q; auto.
        -- symmetry. apply cbranch_same; [exact Hp|].
           assert (Hn : p <> []) by (intros ->; discriminate Hp).
           destruct (has_prefix (removelast p) s) eqn:Hr; [|apply internal_not_prefix; exact Hr].
           destruct (removelast_prefix p Hn Hp Hr) as (j & b & _ & Er & Hj). rewrite Er.
           destruct (Nat.le_gt_cases j e) as [Hje|Hje].
           ++ assert (E : internal St (firstn j s) = true) by (apply (internal_down St s j e); auto; lia).
              rewrite E. apply internal_mono; exact E.
           ++ assert (Q : forall S, internal S (firstn (Datatypes.S e) s) = false -> internal S (firstn j s) = false).
              { intros S HS. destruct (internal S (firstn j s)) eqn:E; [|reflexivity].
                apply (internal_down S s (Datatypes.S e)) in E; try lia. congruence. }
              rewrite !Q by auto. reflexivity.
Qed.

(** *** Splitting a stem off an occupied slot *)
Section Chain.
Variables (t : bytes) (e n : nat).
Hypothesis (He : (e < n)%nat) (Hn : (n < 31)%nat).
Hypothesis (I0 : internal St (firstn e s) = true) (I1 : internal St (firstn (Datatypes.S e) s) = false).
Hypothesis (Ht : under St (firstn (Datatypes.S e) s) = [t]).
Hypothesis (Hpre : firstn n t = firstn n s) (Hdiff : nth n t 0 <> nth n s 0).

Lemma chain_t_In : In t St /\ length t = 31%nat.
Proof.
  assert (H : In t (under St (firstn (Datatypes.S e) s))) by (rewrite Ht; left; reflexivity).
  apply under_In in H as [H _]. split; [exact H|eapply wfS_len; eauto].
Qed.

Lemma chain_ts : t <> s. Proof. intros E; apply Hdiff; rewrite E; reflexivity. Qed.

Lemma chain_fresh : ~ In s St.
Proof.
  intros H. assert (X : In s (under St (firstn (Datatypes.S e) s)))
    by (apply under_In; split; [exact H|apply has_prefix_firstn]).
  rewrite Ht in X. destruct X as [X|[]]. exact (chain_ts X).
Qed.

Lemma chain_prefix_t i : (i <= n)%nat -> has_prefix (firstn i s) t = true.
Proof.
  intros Hi. apply has_prefix_spec. exists (skipn i t).
  replace (firstn i s) with (firstn i t); [symmetry; apply firstn_skipn|].
  replace (firstn i t) with (firstn i (firstn n t)) by (rewrite firstn_firstn; f_equal; lia).
  rewrite Hpre, firstn_firstn. f_equal; lia.
Qed.

Lemma under_sub_t p q : under St p = [t] -> under St (p ++ q) = if has_prefix (p ++ q) t then [t] else [].
Proof.
  intros H. rewrite <- under_app, H. unfold under. simpl. destruct (has_prefix (p ++ q) t); reflexivity.
Qed.

Lemma chain_under i : (e < i)%nat -> (i <= n)%nat -> under St (firstn i s) = [t].
Proof.
  intros H1 H2. destruct (firstn_le_app (Datatypes.S e) i s ltac:(lia)) as [q E].
  rewrite E, (under_sub_t _ _ Ht), <- E, chain_prefix_t by lia. reflexivity.
Qed.

Lemma chain_internal i : (i <= n)%nat -> internal St' (firstn i s) = true.
Proof.
  intros H. destruct (Nat.le_gt_cases i e) as [Hi|Hi].
  - apply internal_mono. apply (internal_down St s i e); auto. rewrite step_s_len; lia.
  - unfold internal, St'. rewrite under_add_new by (auto using chain_fresh; apply has_prefix_firstn).
    rewrite chain_under by lia. simpl. apply orb_true_r.
Qed.

Lemma chain_under_child i b : (e < i)%nat -> (i <= n)%nat ->
  under St (firstn i s ++ [b]) = if Z.eqb (nth i t 0) b then [t] else [].
Proof.
  intros H1 H2. rewrite (under_sub_t _ _ (chain_under i H1 H2)).
  destruct chain_t_In as [_ Lt]. pose proof step_s_len as Ls.
  assert (Li : length (firstn i s) = i) by (rewrite firstn_length; lia).
  destruct (Z.eqb_spec (nth i t 0) b) as [E|E].
  - rewrite (proj2 (has_prefix_snoc (firstn i s) b t)); [reflexivity|].
    rewrite Li, Lt. repeat split; [apply chain_prefix_t; lia|lia|exact E].
  - destruct (has_prefix (firstn i s ++ [b]) t) eqn:X; [|reflexivity].
    apply has_prefix_snoc in X as (_ & _ & X). rewrite Li in X. contradiction.
Qed.

Lemma chain_nth i : (i < n)%nat -> nth i t 0 = nth i s 0.
Proof.
  intros H. rewrite <- (nth_firstn 0 i n t), <- (nth_firstn 0 i n s), Hpre by lia. reflexivity.
Qed.

Lemma chain_under_child' i b : (e < i)%nat -> (i <= n)%nat ->
  under St' (firstn i s ++ [b]) =
  (if Z.eqb (nth i s 0) b then [s] else []) ++ (if Z.eqb (nth i t 0) b then [t] else []).
Proof.
  intros H1 H2. rewrite <- chain_under_child by lia. pose proof step_s_len as Ls.
  assert (Li : length (firstn i s) = i) by (rewrite firstn_length; lia).
  destruct (Z.eqb_spec (nth i s 0) b) as [E|E].
  - unfold St'. rewrite under_add_new; [reflexivity|apply chain_fresh|].
    apply has_prefix_snoc. rewrite Li, Ls. repeat split; [apply has_prefix_firstn|lia|exact E].
  - unfold St'. rewrite under_add_other; [reflexivity|].
    destruct (has_prefix (firstn i s ++ [b]) s) eqn:X; [|reflexivity].
    apply has_prefix_snoc in X as (_ & _ & X). rewrite Li in X. contradiction.
Qed.

Lemma chain_bytes i : (i < 31)%nat -> 0 <= nth i s 0 < 256 /\ 0 <= nth i t 0 < 256.
Proof.
  intros Hi. split; apply stem_byte; auto using step_s_stem. eapply wfS_stem; [exact W|apply chain_t_In].
Qed.

(** The bottom of the chain holds the two stems. *)
Lemma chain_bottom : inner_comm m' St' (firstn n s) =
  gadd (smul (hash (ext_comm m' s)) (crs (nth n s 0))) (smul (hash (ext_comm m t)) (crs (nth n t 0))).
Proof.
  destruct (chain_bytes n Hn) as [B1 B2]. unfold inner_comm.
  rewrite (vcommit_two _ (nth n s 0) (nth n t 0)); [|exact B1|exact B2|congruence|].
  - unfold inner_vec.
    assert (E1 : under St' (firstn n s ++ [nth n s 0]) = [s]).
    { rewrite chain_under_child', Z.eqb_refl by lia. destruct (Z.eqb_spec (nth n t 0) (nth n s 0)); [congruence|reflexivity]. }
    assert (E2 : under St' (firstn n s ++ [nth n t 0]) = [t]).
    { rewrite chain_under_child', Z.eqb_refl by lia. destruct (Z.eqb_spec (nth n s 0) (nth n t 0)); [congruence|reflexivity]. }
    pose proof (cval_one m' St' _ s E1) as V1. pose proof (cval_one m' St' _ t E2) as V2.
    unfold cval in V1, V2. rewrite V1, V2.
    rewrite <- (ext_comm_congr m m' t); [reflexivity|].
    apply same_leaves_upd; [apply step_k_len|apply chain_t_In|exact chain_ts].
  - intros j Hj N1 N2. unfold inner_vec. apply (cval_none m' St').
    rewrite chain_under_child' by lia.
    destruct (Z.eqb_spec (nth n s 0) j); [congruence|]. destruct (Z.eqb_spec (nth n t 0) j); [congruence|reflexivity].
Qed.

(** Above it, each node has the next one as its only child. *)
Lemma chain_middle i : (e < i)%nat -> (i < n)%nat ->
  inner_comm m' St' (firstn i s) = smul (hash (inner_comm m' St' (firstn (Datatypes.S i) s))) (crs (nth i s 0)).
Proof.
  intros H1 H2. destruct (chain_bytes i ltac:(lia)) as [B1 _]. pose proof step_s_len as Ls.
  unfold inner_comm at 1. rewrite (vcommit_single _ (nth i s 0)); [|exact B1|].
  - unfold inner_vec. rewrite <- (firstn_S_nth 0 i s) by lia.
    rewrite <- (cval_many m' St'); [reflexivity|apply step_W'|].
    apply internal_many; [apply chain_internal; lia|].
    intros E. apply (f_equal (@length Z)) in E. rewrite firstn_length in E. cbn [length] in E. lia.
  - intros j Hj Nj. unfold inner_vec. apply (cval_none m' St').
    rewrite chain_under_child', chain_nth by lia. destruct (Z.eqb_spec (nth i s 0) j); [congruence|reflexivity].
Qed.

Lemma chain_loop_ok c : forall db, (Datatypes.S e + c <= n)%nat ->
  exists db', chain_loop db (map (fun i => (nth i s 0, firstn i s)) (rev (seq (Datatypes.S e) c)))
       (hash (inner_comm m' St' (firstn (Datatypes.S e + c) s))) =
     (db', hash (inner_comm m' St' (firstn (Datatypes.S e) s))) /\
   leaf_table db' = leaf_table db /\ stem_table db' = stem_table db /\
   forall p, branch_table db' p =
     if has_prefix p s && (Datatypes.S e <=? length p)%nat && (length p <? Datatypes.S e + c)%nat
     then Some (CBranch (cmeta m' St' p)) else branch_table db p.
Proof.
  pose proof step_s_len as Ls.
  induction c as [|c IH]; intros db Hc.
  - exists db. cbn [seq rev map chain_loop]. rewrite Nat.add_0_r. split; [reflexivity|].
    split; [reflexivity|]. split; [reflexivity|]. intros p.
    destruct (Nat.leb_spec (Datatypes.S e) (length p)), (Nat.ltb_spec (length p) (Datatypes.S e));
      rewrite ?andb_false_r; try reflexivity; lia.
  - rewrite seq_S, rev_app_distr. cbn [rev app map chain_loop insert_branch memory_db_ops mem_insert_branch].
    unfold scalar_mul. rewrite Nat.add_succ_r.
    rewrite <- (chain_middle (Datatypes.S e + c)) by lia.
    match goal with |- context [chain_loop ?d _ _] => destruct (IH d ltac:(lia)) as (db' & E & E1 & E2 & E3) end.
    exists db'. rewrite E. split; [reflexivity|]. cbn [leaf_table stem_table branch_table] in *.
    split; [exact E1|]. split; [exact E2|]. intros p. rewrite E3.
    assert (Lc : length (firstn (Datatypes.S e + c) s) = (Datatypes.S e + c)%nat) by (rewrite firstn_length; lia).
    unfold upd. destruct (beqb_spec (firstn (Datatypes.S e + c) s) p) as [<-|Np].
    + rewrite Lc, has_prefix_firstn.
      destruct (Nat.leb_spec (Datatypes.S e) (Datatypes.S e + c)), (Nat.ltb_spec (Datatypes.S e + c) (Datatypes.S e + c)),
        (Nat.ltb_spec (Datatypes.S e + c) (Datatypes.S (Datatypes.S e + c))); try lia. reflexivity.
    + destruct (has_prefix p s) eqn:Hp; [|reflexivity].
      destruct (Nat.leb_spec (Datatypes.S e) (length p)); [|reflexivity]. cbn [andb].
      destruct (Nat.ltb_spec (length p) (Datatypes.S e + c)), (Nat.ltb_spec (length p) (Datatypes.S (Datatypes.S e + c)));
        try reflexivity; try lia.
      exfalso. apply Np. rewrite (has_prefix_eq _ _ Hp). f_equal. lia.
Qed.

Lemma chain_paths : expand_path (firstn e s) (skipn e (firstn n s)) =
  Ok (map (B:=bytes) (fun i => firstn i s) (seq (Datatypes.S e) (n - e))).
Proof.
  pose proof step_s_len as Ls. unfold expand_path.
  assert (Lc : length (skipn e (firstn n s)) = (n - e)%nat) by (rewrite skipn_length, firstn_length; lia).
  rewrite Lc. destruct (Nat.eqb_spec (n - e) 0); [lia|]. cbn [negb assertb rbind].
  apply (f_equal Ok).
  assert (H : forall c a, (e + a + c <= n)%nat ->
    map (B:=bytes) (fun idx => firstn e s ++ firstn (Datatypes.S idx) (skipn e (firstn n s))) (seq a c) =
    map (B:=bytes) (fun i => firstn i s) (seq (Datatypes.S (e + a)) c)).
  { induction c as [|c IH]; intros a Ha; cbn [seq map]; [reflexivity|].
    rewrite IH by lia. rewrite seg_firstn by lia. rewrite Nat.add_succ_r. reflexivity. }
  rewrite H by lia. rewrite Nat.add_0_r. reflexivity.
Qed.

Lemma chain_last db l : Canon db m St ->
  exists db', process_reversed db
     (ChainInsert (Z.of_nat e + 1) (skipn e (firstn n s)) (firstn e s) (nth e s 0) (nth n t 0) k v (nth n s 0) :: l) =
     process_reversed db' l /\ MidCanon e db'.
Proof.
  intros [CW CK CL CS CB]. pose proof step_s_len as Ls. destruct chain_t_In as [Tin Lt].
  destruct (Nat.le_exists_sub (Datatypes.S e) n ltac:(lia)) as (c & En & _).
  assert (Enc : (n = Datatypes.S e + c)%nat) by lia.
  cbn [process_reversed]. unfold process_chain_insert.
  assert (Lc : length (skipn e (firstn n s)) = (n - e)%nat) by (rewrite skipn_length, firstn_length; lia).
  rewrite Lc. destruct (Nat.eqb_spec (n - e) 0); [lia|]. cbn [negb assertb rbind].
  rewrite chain_paths. cbn [rbind].
  assert (Es : rev (map (B:=bytes) (fun i => firstn i s) (seq (Datatypes.S e) (n - e))) =
     firstn n s :: map (B:=bytes) (fun i => firstn i s) (rev (seq (Datatypes.S e) c))).
  { replace (n - e)%nat with (Datatypes.S c) by lia. rewrite seq_S, map_app, rev_app_distr.
    cbn [map rev app]. rewrite <- map_rev, <- Enc. reflexivity. }
  cbv zeta. rewrite Es. cbn [hd_error tl unwrap].
  assert (Ec : combine (rev (skipn e (firstn n s))) (map (B:=bytes) (fun i => firstn i s) (rev (seq (Datatypes.S e) c))) =
     map (fun i => (nth i s 0, firstn i s)) (rev (seq (Datatypes.S e) c))).
  { replace (firstn n s) with (firstn (e + Datatypes.S c) s) by (f_equal; lia).
    rewrite (seg_map 0) by lia. cbn [seq map rev]. rewrite <- map_rev. apply combine_extra. }
  rewrite Ec. clear Es Ec.
  cbn [get_branch_child memory_db_ops]. unfold mem_get_branch_child.
  rewrite <- (firstn_S_nth 0 e s) by lia. rewrite CB. unfold cbranch at 1.
  rewrite I1, Ht, removelast_firstn_S, I0 by lia. cbn [rbind unwrap child_stem].
  cbn [insert_branch memory_db_ops mem_insert_branch].
  set (db1 := mkMemoryDb (leaf_table db) (stem_table db) (upd (branch_table db) (firstn n s) (CBranch branch_meta_zero))).
  unfold update_leaf_table. cbn [insert_leaf memory_db_ops mem_insert_leaf].
  replace (leaf_table db1 k) with (@None bytes)
    by (unfold db1; cbn [leaf_table]; rewrite CL; symmetry; apply fresh_value, chain_fresh).
  cbn [rbind unwrap].
  set (db2 := mkMemoryDb (upd (leaf_table db1) k v) (stem_table db1) (branch_table db1)).
  rewrite <- (fresh_value chain_fresh).
  rewrite (update_stem_table_ok db2 m St k v _ Hk CS) by (apply fresh_leaves; exact Ls).
  fold s. fold m'. cbn [rbind].
  destruct (in_dec bytes_dec s St) as [X|_]; [exfalso; exact (chain_fresh X)|].
  set (db3 := mkMemoryDb _ _ _).
  unfold update_branch_table at 1. cbn [get_branch_meta memory_db_ops]. unfold mem_get_branch_meta.
  assert (B3 : branch_table db3 (firstn n s) = Some (CBranch branch_meta_zero)) by apply upd_same.
  rewrite B3. cbn [rbind unwrap].
  cbn [insert_branch add_stem_as_branch_child memory_db_ops mem_insert_branch mem_add_stem].
  cbv zeta. cbn [branch_meta_zero bm_comm]. unfold scalar_mul. rewrite !gadd_0_l.
  replace (fsub (hash (ext_comm m' s)) fzero) with (hash (ext_comm m' s)) by ring.
  set (c1 := smul (hash (ext_comm m' s)) (crs (nth n s 0))). cbn [rbind].
  cbn [leaf_table stem_table branch_table].
  set (db4 := mkMemoryDb _ _ _).
  cbn [get_stem_meta memory_db_ops]. unfold mem_get_stem_meta. cbn [rbind].
  assert (ST4 : forall u, stem_table db4 u = if in_dec bytes_dec u St' then Some (cstem m' u) else None).
  { unfold db4, db3, db2, db1. cbn [stem_table]. apply stems_updated; exact CS. }
  rewrite ST4. destruct (in_dec bytes_dec t St') as [_|X]; [|exfalso; apply X, add_stem_In; auto].
  cbn [unwrap rbind]. rewrite (cstem_new t Lt chain_ts).
  change (sm_hash_comm (cstem m t)) with (hash (ext_comm m t)).
  unfold update_branch_table. cbn [get_branch_meta memory_db_ops]. unfold mem_get_branch_meta.
  assert (B4 : branch_table db4 (firstn n s) = Some (CBranch (mkBranchMeta c1 (hash c1)))).
  { unfold db4. cbn [branch_table]. rewrite upd_other, upd_same; [reflexivity|].
    intros E. apply (f_equal (@length Z)) in E. rewrite app_length in E. cbn [length] in E. lia. }
  rewrite B4. cbn [rbind unwrap bm_comm].
  cbn [insert_branch add_stem_as_branch_child memory_db_ops mem_insert_branch mem_add_stem].
  cbn [leaf_table stem_table branch_table].
  unfold scalar_mul.
  replace (fsub (hash (ext_comm m t)) fzero) with (hash (ext_comm m t)) by ring.
  assert (Ebot : gadd c1 (smul (hash (ext_comm m t)) (crs (nth n t 0))) = inner_comm m' St' (firstn n s))
    by (symmetry; apply chain_bottom).
  rewrite Ebot.
  cbn [rbind].
  match goal with |- context [chain_loop ?d _ _] => set (db5 := d) end.
  destruct (chain_loop_ok c db5 ltac:(lia)) as (db6 & E6 & F1 & F2 & F3).
  rewrite <- Enc in E6. rewrite E6. clear E6. cbn [rbind].
  assert (L0 : length (firstn e s) = e) by (rewrite firstn_length; lia).
  assert (LN : length (firstn n s) = n) by (rewrite firstn_length; lia).
  assert (B6 : branch_table db6 (firstn e s) = Some (CBranch (cmeta m St (firstn e s)))).
  { rewrite F3, L0, has_prefix_firstn. destruct (Nat.leb_spec (Datatypes.S e) e); [lia|]. cbn [andb].
    unfold db5, db4, db3, db2, db1. cbn [branch_table].
    rewrite !upd_other; [rewrite CB; unfold cbranch; rewrite I0; reflexivity|..];
      intros E; apply (f_equal (@length Z)) in E; rewrite ?app_length, ?L0, ?LN in E; cbn [length] in E; lia. }
  unfold mem_get_branch_meta. rewrite B6. cbn [rbind unwrap bm_comm cmeta].
  rewrite <- (cval_many m' St' (firstn (Datatypes.S e) s)).
  2: apply step_W'.
  2: { apply internal_many; [apply chain_internal; lia|].
       intros E. apply (f_equal (@length Z)) in E. rewrite firstn_length in E. cbn [length] in E. lia. }
  rewrite <- (cval_one m St _ t Ht). rewrite <- (step_delta e) by lia.
  eexists; split; [reflexivity|]. constructor; cbn [leaf_table stem_table branch_table].
  - rewrite F1. unfold db5, db4, db3, db2, db1. cbn [leaf_table]. intros k0. unfold m', upd. rewrite CL. reflexivity.
  - rewrite F2. exact ST4.
  - intros p. unfold upd at 1. destruct (beqb_spec (firstn e s) p) as [<-|N0].
    + rewrite L0, (proj2 (Nat.ltb_ge e e)), andb_false_r by lia.
      unfold cbranch. rewrite (internal_mono _ I0). reflexivity.
    + rewrite F3, <- Enc.
      (* nodes of the chain strictly above the bottom *)
      destruct (has_prefix p s && (Datatypes.S e <=? length p)%nat && (length p <? n)%nat) eqn:Hmid.
      { apply andb_true_iff in Hmid as [Hmid H3]. apply andb_true_iff in Hmid as [H1 H2].
        apply Nat.leb_le in H2. apply Nat.ltb_lt in H3.
        rewrite H1, (proj2 (Nat.ltb_ge (length p) e)) by lia. cbn [andb].
        unfold cbranch. rewrite (has_prefix_eq _ _ H1), chain_internal by lia. reflexivity. }
      unfold db5, db4, db3, db2, db1. cbn [branch_table].
      unfold upd at 1. destruct (beqb_spec (firstn n s ++ [nth n t 0]) p) as [<-|N1].
      { assert (Hp : has_prefix (firstn n s ++ [nth n t 0]) s = false).
        { destruct (has_prefix (firstn n s ++ [nth n t 0]) s) eqn:X; [|reflexivity].
          apply has_prefix_snoc in X as (_ & _ & X). rewrite LN in X. congruence. }
        rewrite Hp. cbn [andb]. unfold cbranch. rewrite removelast_last, (chain_internal n) by lia.
        unfold internal. rewrite chain_under_child', Z.eqb_refl by lia.
        destruct (Z.eqb_spec (nth n s 0) (nth n t 0)); [congruence|].
        rewrite app_length. cbn [app length]. rewrite LN.
        destruct (Nat.eqb_spec (n + 1) 0); [lia|]. reflexivity. }
      unfold upd at 1. destruct (beqb_spec (firstn n s) p) as [<-|N2].
      { rewrite LN, (proj2 (Nat.ltb_ge n e)), andb_false_r by lia. unfold cbranch.
        rewrite chain_internal by lia. reflexivity. }
      unfold upd at 1. destruct (beqb_spec (firstn n s ++ [nth n s 0]) p) as [<-|N3].
      { rewrite (proj2 (has_prefix_snoc (firstn n s) (nth n s 0) s))
          by (rewrite LN; repeat split; [apply has_prefix_firstn|lia]).
        rewrite app_length, LN. cbn [length andb]. rewrite (proj2 (Nat.ltb_ge (n + 1) e)) by lia.
        unfold cbranch. rewrite removelast_last, (chain_internal n) by lia.
        unfold internal. rewrite chain_under_child', Z.eqb_refl by lia.
        destruct (Z.eqb_spec (nth n t 0) (nth n s 0)); [congruence|].
        rewrite app_length, LN. cbn [app length].
        destruct (Nat.eqb_spec (n + 1) 0); [lia|]. reflexivity. }
      rewrite !upd_other by exact N2. rewrite CB.
      destruct (has_prefix p s) eqn:Hp; cbn [andb].
      * destruct (Nat.ltb_spec (length p) e) as [Hl|Hl]; [reflexivity|].
        destruct (prefix_nth_snoc p Hp) as (j & Lp & Ep & Er & Hj).
        { intros ->. apply N0. simpl in Hl. assert (e = 0%nat) as -> by lia. reflexivity. }
        assert (Hj2 : (n < j)%nat).
        { assert (Datatypes.S j <> e) by (intros E; apply N0; rewrite Ep, E; reflexivity).
          assert (Datatypes.S j <> n) by (intros E; apply N2; rewrite Ep, E; reflexivity).
          assert (j <> n) by (intros E; apply N3; rewrite <- (firstn_S_nth 0 n s), Ep, E by lia; reflexivity).
          apply andb_false_iff in Hmid as [Hmid|Hmid]; [apply Nat.leb_gt in Hmid|apply Nat.ltb_ge in Hmid]; lia. }
        assert (Q' : internal St' (firstn (Datatypes.S n) s) = false).
        { rewrite (firstn_S_nth 0 n s) by lia. unfold internal. rewrite chain_under_child', Z.eqb_refl by lia.
          destruct (Z.eqb_spec (nth n t 0) (nth n s 0)); [congruence|].
          rewrite app_length, LN. cbn [app length]. destruct (Nat.eqb_spec (n + 1) 0); [lia|]. reflexivity. }
        assert (Q : forall S i, internal S (firstn i s) = false -> (i <= j)%nat ->
              internal S (firstn (Datatypes.S j) s) = false /\ internal S (firstn j s) = false).
        { intros S i HS Hi. split; match goal with |- ?x = _ => destruct x eqn:E; [|reflexivity] end;
            apply (internal_down S s i) in E; try lia; congruence. }
        destruct (Q St _ I1 ltac:(lia)) as [Q1 Q2]. destruct (Q St' _ Q' ltac:(lia)) as [Q3 Q4].
        rewrite !cbranch_below; auto; try (rewrite Er; auto); rewrite Ep; auto.
      * assert (Hnil : p <> []) by (intros ->; discriminate Hp).
        destruct (has_prefix (removelast p) s) eqn:Hr.
        2:{ symmetry. apply cbranch_same; [exact Hp|apply internal_not_prefix; exact Hr]. }
        destruct (removelast_prefix p Hnil Hp Hr) as (j & b & Epb & Er & Hj).
        destruct (Nat.le_gt_cases j e) as [Hje|Hje].
        { symmetry. apply cbranch_same; [exact Hp|]. rewrite Er.
          assert (E : internal St (firstn j s) = true) by (apply (internal_down St s j e); auto; lia).
          rewrite E. apply internal_mono; exact E. }
        destruct (Nat.le_gt_cases j n) as [Hjn|Hjn].
        { (* a child slot of a chain node that is not on the chain: empty before and after *)
          assert (U : under St p = []).
          { rewrite Epb, chain_under_child by lia. destruct (Z.eqb_spec (nth j t 0) b) as [E|E]; [|reflexivity].
            exfalso. subst b. destruct (Nat.eq_dec j n) as [->|Hjn'].
            - apply N1. congruence.
            - assert (has_prefix p s = true); [|congruence]. rewrite Epb, chain_nth, <- (firstn_S_nth 0 j s) by lia.
              apply has_prefix_firstn. }
          unfold cbranch, internal. unfold St'. rewrite !under_add_other by exact Hp. rewrite U.
          destruct p; [contradiction|]. reflexivity. }
        symmetry. apply cbranch_same; [exact Hp|]. rewrite Er.
        assert (Q' : internal St' (firstn (Datatypes.S n) s) = false).
        { rewrite (firstn_S_nth 0 n s) by lia. unfold internal. rewrite chain_under_child', Z.eqb_refl by lia.
          destruct (Z.eqb_spec (nth n t 0) (nth n s 0)); [congruence|].
          rewrite app_length, LN. cbn [app length]. destruct (Nat.eqb_spec (n + 1) 0); [lia|]. reflexivity. }
        assert (Q : forall S i, internal S (firstn i s) = false -> (i <= j)%nat -> internal S (firstn j s) = false).
        { intros S i HS Hi. destruct (internal S (firstn j s)) eqn:E; [|reflexivity].
          apply (internal_down S s i) in E; try lia. congruence. }
        rewrite (Q St _ I1 ltac:(lia)), (Q St' _ Q' ltac:(lia)). reflexivity.
Qed.
End Chain.
End Step.


Lemma internal_perm S S2 p : Permutation S S2 -> internal S p = internal S2 p.
Proof.
  intros H. unfold internal. rewrite (Permutation_length (under_perm S S2 p H)). reflexivity.
Qed.

Lemma cstem_ext m m2 s : (forall k, m k = m2 k) -> cstem m s = cstem m2 s.
Proof.
  intros H. assert (HL : same_leaves m m2 s) by (intros i _; apply H).
  unfold cstem. rewrite (ext_comm_congr m m2 s HL), !(suffix_comm_congr m m2 s) by (auto; lia). reflexivity.
Qed.

Lemma cbranch_ext m m2 S S2 p : (forall k, m k = m2 k) -> Permutation S S2 ->
  cbranch m S p = cbranch m2 S2 p.
Proof.
  intros Hm HS. unfold cbranch, cmeta.
  rewrite (internal_perm S S2 p HS), (internal_perm S S2 (removelast p) HS).
  rewrite (inner_comm_congr m m2 S S2 p (under_perm S S2 p HS)) by (intros s _ i _; apply Hm).
  destruct (internal S2 p); [reflexivity|].
  pose proof (under_perm S S2 p HS) as HP.
  destruct (under S p) as [|a [|b l]].
  - apply Permutation_nil in HP. rewrite HP. reflexivity.
  - apply Permutation_length_1_inv in HP. rewrite HP. reflexivity.
  - apply Permutation_length in HP. destruct (under S2 p) as [|a' [|b' l']]; try discriminate HP. reflexivity.
Qed.

Lemma Canon_ext db m m2 S S2 : (forall k, m k = m2 k) -> Permutation S S2 -> Canon db m S -> Canon db m2 S2.
Proof.
  intros Hm HS [CW CK CL CS CB]. constructor.
  - destruct CW as [W1 W2]. split; [eapply Permutation_NoDup; eauto|eapply Permutation_Forall; eauto].
  - intros k v E. rewrite <- Hm in E. apply CK in E as [E1 E2]. split; [exact E1|].
    eapply Permutation_in; eauto.
  - intros k. rewrite CL. apply Hm.
  - intros s. rewrite CS. rewrite (cstem_ext m m2 s Hm).
    destruct (in_dec bytes_dec s S) as [H|H], (in_dec bytes_dec s S2) as [H2|H2]; try reflexivity; exfalso.
    + apply H2. eapply Permutation_in; eauto.
    + apply H. eapply Permutation_in; [apply Permutation_sym; exact HS|exact H2].
  - intros p. rewrite CB. apply cbranch_ext; auto.
Qed.

(** ** Whole insertions *)
Lemma upd_id {V} (m : bmap V) k v : m k = Some v -> forall k0, m k0 = upd m k v k0.
Proof. intros H k0. unfold upd. destruct (beqb_spec k k0) as [<-|]; auto. Qed.

Lemma add_stem_id S s : In s S -> add_stem S s = S.
Proof. intros H. unfold add_stem. destruct (in_dec bytes_dec s S); [reflexivity|contradiction]. Qed.

Lemma insert_noop db m S k v : Canon db m S -> is_key k -> m k = Some v ->
  insert_single db (k, v) = Ok db.
Proof.
  intros C Hk Hv. pose proof C as [CW CK CL CS CB]. set (s := firstn 31 k).
  assert (Ls : length s = 31%nat) by (unfold s; rewrite firstn_length; destruct Hk; lia).
  destruct (internal_depth S s CW Ls) as (e & He & I0 & I1).
  unfold insert_single, create_insert_instructions.
  pose proof (walk m S k v Hk db e) as HW. fold s in HW. specialize (HW C He I0 e 0%nat []).
  cbn [skipn firstn app] in HW. rewrite HW by lia. clear HW.
  assert (Lk : length k = 32%nat) by apply Hk.
  rewrite (skipn_nth_cons 0 e k) by lia. cbn [create_insert_loop].
  assert (En : nth e k 0 = nth e s 0) by (unfold s; rewrite nth_firstn by lia; reflexivity).
  cbn [get_branch_child memory_db_ops rbind]. unfold mem_get_branch_child.
  rewrite En, <- (firstn_S_nth 0 e s), CB by lia.
  destruct (CK k v Hv) as [_ Hin]. fold s in Hin.
  assert (U : under S (firstn (Datatypes.S e) s) = [s]).
  { assert (X : In s (under S (firstn (Datatypes.S e) s)))
      by (apply under_In; split; [exact Hin|apply has_prefix_firstn]).
    destruct (internal_false_under S _ I1) as [U|[t U]]; rewrite U in X; [destruct X|].
    destruct X as [X|[]]. rewrite U, X. reflexivity. }
  unfold cbranch. rewrite I1, U, removelast_firstn_S, I0 by lia. fold s.
  destruct (path_difference_spec s s eq_refl) as [[_ E]|(n & _ & _ & X & _)]; [|exfalso; apply X; reflexivity].
  rewrite E, Ls. cbn [Nat.eqb get_leaf memory_db_ops rbind]. unfold mem_get_leaf. rewrite CL, Hv.
  cbn [assertb rbind]. rewrite beqb_refl. cbn [andb rbind]. reflexivity.
Qed.

Lemma insert_ok db m S k v : Canon db m S -> is_key k ->
  exists db', insert_single db (k, v) = Ok db' /\ Canon db' (upd m k v) (add_stem S (firstn 31 k)).
Proof.
  intros C Hk. pose proof C as [CW CK CL CS CB]. set (s := firstn 31 k).
  assert (Dv : m k = Some v \/ m k <> Some v).
  { destruct (m k) as [w|]; [|right; discriminate]. destruct (bytes_dec w v); [left|right]; congruence. }
  destruct Dv as [Hv|Hv].
  { exists db. split; [apply (insert_noop db m S); auto|].
    rewrite add_stem_id by (apply (CK k v Hv)).
    apply (Canon_ext db m _ S S); [apply upd_id; exact Hv|apply Permutation_refl|exact C]. }
  assert (Ls : length s = 31%nat) by (unfold s; rewrite firstn_length; destruct Hk; lia).
  destruct (internal_depth S s CW Ls) as (e & He & I0 & I1).
  unfold insert_single, create_insert_instructions.
  pose proof (walk m S k v Hk db e) as HW. fold s in HW. specialize (HW C He I0 e 0%nat []).
  cbn [skipn firstn app] in HW. rewrite HW by lia. clear HW.
  assert (Lk : length k = 32%nat) by apply Hk.
  rewrite (skipn_nth_cons 0 e k) by lia. cbn [create_insert_loop].
  assert (En : nth e k 0 = nth e s 0) by (unfold s; rewrite nth_firstn by lia; reflexivity).
  cbn [get_branch_child memory_db_ops rbind]. unfold mem_get_branch_child.
  rewrite En, <- (firstn_S_nth 0 e s), CB by lia.
  pose proof (falls_done m S k v CW Hk CK e) as FD. fold s in FD.
  unfold cbranch. rewrite I1, removelast_firstn_S, I0 by lia. fold s.
  destruct (internal_false_under S _ I1) as [U|[t U]]; rewrite U.
  - cbn [rbind]. unfold process_instructions. rewrite rev_app_distr. cbn [rev app].
    destruct (update_last m S k v CW Hk CK db e (rev (map (fall m S k) (seq 0 e))) C He I0 I1 (or_introl U) Hv)
      as (db1 & E1 & M1).
    fold s in E1. rewrite E1. apply (FD db1 He I0 e (le_n e) M1).
  - assert (X : In t S /\ has_prefix (firstn (Datatypes.S e) s) t = true)
      by (apply under_In; rewrite U; left; reflexivity).
    destruct X as [Tin Tp]. pose proof (wfS_len S t CW Tin) as Lt.
    destruct (path_difference_spec t s ltac:(lia)) as [[Ets E]|(n & Hn & Hpre & Hdiff & E)]; rewrite E.
    + subst t. rewrite Ls. cbn [Nat.eqb get_leaf memory_db_ops rbind]. unfold mem_get_leaf. rewrite CL.
      destruct (m k) as [w|] eqn:Em; cbn [assertb rbind].
      * destruct (beqb_spec w v) as [->|Hw]; [congruence|]. cbn [andb rbind].
        unfold process_instructions. rewrite rev_app_distr. cbn [rev app].
        rewrite <- Em in Hv.
        destruct (update_last m S k v CW Hk CK db e (rev (map (fall m S k) (seq 0 e))) C He I0 I1 (or_intror U) Hv)
          as (db1 & E1 & M1).
        fold s in E1. rewrite E1. apply (FD db1 He I0 e (le_n e) M1).
      * rewrite andb_false_r. cbn [rbind].
        unfold process_instructions. rewrite rev_app_distr. cbn [rev app].
        rewrite <- Em in Hv.
        destruct (update_last m S k v CW Hk CK db e (rev (map (fall m S k) (seq 0 e))) C He I0 I1 (or_intror U) Hv)
          as (db1 & E1 & M1).
        fold s in E1. rewrite E1. apply (FD db1 He I0 e (le_n e) M1).
    + assert (Hen : (e < n)%nat).
      { destruct (Nat.le_gt_cases n e) as [H|H]; [|exact H]. exfalso. apply Hdiff.
        apply has_prefix_eq in Tp. rewrite firstn_length, Ls, Nat.min_l in Tp by lia.
        rewrite <- (nth_firstn 0 n (Datatypes.S e) t), <- (nth_firstn 0 n (Datatypes.S e) s), Tp by lia. reflexivity. }
      assert (Lsh : length (firstn n s) = n) by (rewrite firstn_length; lia).
      rewrite Lsh. destruct (Nat.eqb_spec n 31); [lia|].
      unfold slice_from. rewrite Lsh, (proj2 (Nat.leb_le e n)) by lia. cbn [rbind unwrap].
      unfold process_instructions. rewrite rev_app_distr. cbn [rev app].
      destruct (chain_last m S k v CW Hk CK t e n Hen ltac:(lia) I0 I1 U Hpre Hdiff db
                 (rev (map (fall m S k) (seq 0 e))) C) as (db1 & E1 & M1).
      fold s in E1. rewrite E1. apply (FD db1 He I0 e (le_n e) M1).
Qed.

(** ** Histories *)
Lemma final_map_snoc h k v k0 : final_map (h ++ [(k, v)]) k0 = upd (final_map h) k v k0.
Proof.
  induction h as [|[k1 v1] h IH]; cbn [app final_map].
  - unfold upd. destruct (beqb k k0); reflexivity.
  - rewrite IH. unfold upd. destruct (beqb k k0); reflexivity.
Qed.

Lemma stems_of_In h s : In s (stems_of h) <-> exists kv, In kv h /\ firstn 31 (fst kv) = s.
Proof.
  unfold stems_of. rewrite nodup_In, in_map_iff. split; intros (kv & H1 & H2); exists kv; auto.
Qed.

Lemma stems_of_NoDup h : NoDup (stems_of h).
Proof. apply NoDup_nodup. Qed.

Lemma stems_of_snoc h k v : Permutation (add_stem (stems_of h) (firstn 31 k)) (stems_of (h ++ [(k, v)])).
Proof.
  apply NoDup_Permutation.
  - unfold add_stem. destruct (in_dec bytes_dec (firstn 31 k) (stems_of h)) as [H|H];
      [|constructor; [exact H|]]; apply stems_of_NoDup.
  - apply stems_of_NoDup.
  - intros s. rewrite add_stem_In, !stems_of_In. split.
    + intros [->|(kv & H1 & H2)].
      * exists (k, v). split; [apply in_or_app; right; left; reflexivity|reflexivity].
      * exists kv. split; [apply in_or_app; left; exact H1|exact H2].
    + intros (kv & H1 & H2). apply in_app_or in H1 as [H1|[<-|[]]]; [right; eauto|left; auto].
Qed.

Definition HCanon db h := Canon db (final_map h) (stems_of h).

Lemma hcanon_insert db h k v : HCanon db h -> is_key k ->
  exists db', insert_single db (k, v) = Ok db' /\ HCanon db' (h ++ [(k, v)]).
Proof.
  intros C Hk. destruct (insert_ok db _ _ k v C Hk) as (db' & E & C').
  exists db'. split; [exact E|].
  eapply Canon_ext; [|apply stems_of_snoc|exact C']. intros k0. symmetry. apply final_map_snoc.
Qed.

Lemma hcanon_insert_all kvs : forall db h, HCanon db h -> wf_history kvs ->
  exists db', trie_insert db kvs = Ok db' /\ HCanon db' (h ++ kvs).
Proof.
  induction kvs as [|[k v] kvs IH]; intros db h C Hw.
  - exists db. rewrite app_nil_r. split; [reflexivity|exact C].
  - inversion Hw as [|? ? Hk Hw']; subst. cbn [fst] in Hk.
    destruct (hcanon_insert db h k v C Hk) as (db1 & E1 & C1).
    destruct (IH db1 _ C1 Hw') as (db2 & E2 & C2). exists db2.
    cbn [trie_insert]. rewrite E1. cbn [rbind]. rewrite <- app_assoc in C2. split; [exact E2|exact C2].
Qed.

Lemma hcanon_new : exists db, trie_new memory_db_new = Ok db /\ HCanon db [].
Proof.
  eexists. split; [reflexivity|]. constructor; cbn [leaf_table stem_table branch_table].
  - split; constructor.
  - intros k v H; discriminate H.
  - reflexivity.
  - reflexivity.
  - intros p. unfold upd. destruct (beqb_spec [] p) as [<-|Hn].
    + unfold cbranch, cmeta. cbn [internal length Nat.eqb orb].
      assert (E : inner_comm (final_map []) (stems_of []) [] = gzero).
      { unfold inner_comm. apply vcommit_zero. intros i _. apply (cval_none (final_map []) []). reflexivity. }
      rewrite E, hash_zero. reflexivity.
    + unfold cbranch, internal. destruct p; [contradiction|]. reflexivity.
Qed.

Lemma run_mem_canon h : wf_history h -> exists db, run_mem h = Ok db /\ HCanon db h.
Proof.
  intros Hw. destruct hcanon_new as (db0 & E0 & C0).
  destruct (hcanon_insert_all h db0 [] C0 Hw) as (db & E & C). exists db.
  unfold run_mem, run. rewrite E0. cbn [rbind]. auto.
Qed.

Lemma canon_root db m S : Canon db m S ->
  root_commitment db = Ok (spec_root m S) /\ root_hash db = Ok (hash (spec_root m S)).
Proof.
  intros [_ _ _ _ CB]. unfold root_commitment, root_hash. cbn [get_branch_meta memory_db_ops].
  unfold mem_get_branch_meta. rewrite !CB. split; reflexivity.
Qed.

Lemma final_map_In h k v : final_map h k = Some v -> In (k, v) h.
Proof.
  induction h as [|[k1 v1] h IH]; cbn [final_map]; [discriminate|].
  destruct (final_map h k) as [w|].
  - intros E. right. apply IH, E.
  - destruct (beqb_spec k1 k) as [->|]; [|discriminate]. intros [= ->]. left; reflexivity.
Qed.

Lemma final_map_some h k v : In (k, v) h -> exists w, final_map h k = Some w.
Proof.
  induction h as [|[k1 v1] h IH]; [intros []|]. cbn [final_map]. intros H.
  destruct (final_map h k) as [w|] eqn:E; [eauto|].
  destruct H as [[= -> ->]|H]; [rewrite beqb_refl; eauto|]. destruct (IH H) as [w Hw]. congruence.
Qed.

Lemma stems_of_final h s : In s (stems_of h) <-> exists k v, final_map h k = Some v /\ firstn 31 k = s.
Proof.
  rewrite stems_of_In. split.
  - intros ([k v] & H1 & H2). destruct (final_map_some h k v H1) as [w Hw]. exists k, w. auto.
  - intros (k & v & H1 & H2). exists (k, v). split; [apply final_map_In; exact H1|exact H2].
Qed.

Lemma stems_of_perm h1 h2 : (forall k, final_map h1 k = final_map h2 k) -> Permutation (stems_of h1) (stems_of h2).
Proof.
  intros H. apply NoDup_Permutation; try apply stems_of_NoDup. intros s. rewrite !stems_of_final.
  split; intros (k & v & H1 & H2); exists k, v; split; auto; [rewrite <- H|rewrite H]; exact H1.
Qed.

Lemma spec_root_congr m m2 S S2 : (forall k, m k = m2 k) -> Permutation S S2 -> spec_root m S = spec_root m2 S2.
Proof.
  intros Hm HS. unfold spec_root. apply inner_comm_congr; [apply under_perm; exact HS|].
  intros s _ i _. apply Hm.
Qed.
End Proofs.
