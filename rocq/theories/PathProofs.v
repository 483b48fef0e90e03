(** Path lookup on a canonical database. *)
From Coq Require Import Permutation.
From Verif Require Import Base BaseFacts Alg AlgFacts TreeSpec TreeFacts TrieModel TrieProofs BTree WireModel ProofModel ProofSpec.

Section Paths.
Context {A : Alg} {L : AlgLaws A} {P : Par A} {PL : ParLaws P}.
Opaque vcommit gsum subtree_hash.

Lemma descend_spec St s : wfS St -> length s = 31%nat -> forall fuel i,
  (i <= 31)%nat -> (32 <= fuel + i)%nat -> (forall j, (j < i)%nat -> internal St (firstn j s) = true) ->
  (forall j, (j < descend fuel St s i)%nat -> internal St (firstn j s) = true)
  /\ internal St (firstn (descend fuel St s i) s) = false
  /\ (descend fuel St s i <= 31)%nat.
Proof.
  intros W Hl. induction fuel as [|fuel IH]; intros i Hi Hf Hj; cbn [descend]; [lia|].
  destruct (internal St (firstn i s)) eqn:E; [|auto].
  assert (i <> 31)%nat.
  { intros ->. rewrite internal_long in E; auto; [discriminate|]. rewrite firstn_length. lia. }
  apply IH; try lia. intros j Hji. destruct (Nat.eq_dec j i) as [->|]; auto. apply Hj. lia.
Qed.

Lemma sd_spec St s : wfS St -> length s = 31%nat ->
  (forall j, (j < sd St s)%nat -> internal St (firstn j s) = true)
  /\ internal St (firstn (sd St s) s) = false
  /\ (1 <= sd St s <= 31)%nat.
Proof.
  intros W Hl. destruct (descend_spec St s W Hl 32 0) as (H1 & H2 & H3); try lia.
  fold (sd St s) in *. split; [|split]; auto. split; auto.
  destruct (sd St s); [discriminate|lia].
Qed.

Section OnCanon.
Context (db : MemoryDb) (m : bytes -> option bytes) (St : list bytes) (C : Canon db m St).

Let W := can_wf _ _ _ C.

(** The stem pointer found at the end of the walk. *)
Definition end_stem (s : bytes) : option bytes := stem_at St (firstn (sd St s) s).

Lemma end_stem_spec s : length s = 31%nat ->
  match end_stem s with
  | Some t => under St (firstn (sd St s) s) = [t]
  | None => under St (firstn (sd St s) s) = []
  end.
Proof.
  intro Hl. destruct (sd_spec St s W Hl) as (Hi & H & Hb). unfold end_stem, stem_at. rewrite H.
  destruct (sd St s) as [|e]; [lia|]. rewrite removelast_firstn_S, Hi by lia.
  destruct (internal_false_under St _ H) as [E|[t E]]; rewrite E; auto.
Qed.

Lemma end_stem_In s t : length s = 31%nat -> end_stem s = Some t ->
  In t St /\ has_prefix (firstn (sd St s) s) t = true.
Proof.
  intros Hl E. pose proof (end_stem_spec s Hl) as H. rewrite E in H.
  apply under_In. rewrite H. now left.
Qed.

Lemma end_stem_self s : In s St -> end_stem s = Some s.
Proof.
  intro H. pose proof (wfS_len St s W H) as Hl. pose proof (end_stem_spec s Hl) as E.
  assert (X : In s (under St (firstn (sd St s) s))) by (apply under_In; split; auto; apply has_prefix_firstn).
  destruct (end_stem s) as [t|]; rewrite E in X; [|destruct X].
  destruct X as [->|[]]. reflexivity.
Qed.

Definition key_state_of (k : bytes) : KeyState :=
  let s := firstn 31 k in
  match end_stem s with
  | None => KNotFound NFEmpty
  | Some t =>
      match m k with
      | Some v => KFound v
      | None => if beqb t s then KNotFound NFStemFound else KNotFound (NFDifferentStem t)
      end
  end.

Definition branch_node (s : bytes) (i : nat) : bytes * Z * Meta :=
  (firstn i s, nth i s 0, MBranch (cmeta m St (firstn i s))).

Definition key_path_of (k : bytes) : KeyPath :=
  let s := firstn 31 k in
  let n := sd St s in
  let branches := map (branch_node s) (seq 0 n) in
  match end_stem s with
  | None => mkKeyPath branches (Z.of_nat n) (key_state_of k)
  | Some t =>
      mkKeyPath (branches ++ [(firstn n s, nth 31 k 0, MStem (cstem m t))])
        (Z.of_nat n + 1) (key_state_of k)
  end.

Lemma find_walk k : is_key k -> forall n d nodes, (d + n < sd St (firstn 31 k))%nat ->
  find_loop db k (skipn d k) (firstn d (firstn 31 k)) (cmeta m St (firstn d (firstn 31 k))) nodes =
  find_loop db k (skipn (d + n) k) (firstn (d + n) (firstn 31 k)) (cmeta m St (firstn (d + n) (firstn 31 k)))
    (nodes ++ map (branch_node (firstn 31 k)) (seq d n)).
Proof.
  intro Hk. set (s := firstn 31 k).
  assert (Hl : length s = 31%nat) by apply (key_stem k Hk).
  assert (Hkl : length k = 32%nat) by apply Hk.
  destruct (sd_spec St s W Hl) as (Hi & Hn & Hb).
  induction n as [|n IH]; intros d nodes Hd.
  - rewrite Nat.add_0_r. cbn [seq map]. now rewrite app_nil_r.
  - rewrite (skipn_nth_cons 0 d k) by (unfold bytes in *; lia). cbn [find_loop].
    assert (En : nth d k 0 = nth d s 0) by (unfold s; rewrite nth_firstn; [reflexivity|lia]).
    assert (Ep : firstn d s ++ [nth d k 0] = firstn (S d) s)
      by (rewrite En, <- (firstn_S_nth 0 d s) by lia; reflexivity).
    cbn [get_branch_child memory_db_ops rbind]. unfold mem_get_branch_child.
    rewrite Ep, (can_branch _ _ _ C). unfold cbranch. rewrite Hi by lia.
    rewrite IH by lia. replace (d + S n)%nat with (S d + n)%nat by lia. f_equal.
    cbn [seq map]. rewrite <- app_assoc. unfold branch_node at 2. rewrite En. reflexivity.
Qed.

Lemma find_key_path_ok k : is_key k -> find_key_path db k = Ok (key_path_of k).
Proof.
  intro Hk. unfold find_key_path. cbn [get_branch_meta memory_db_ops]. unfold mem_get_branch_meta.
  rewrite (can_branch _ _ _ C). unfold cbranch. rewrite internal_nil. cbn [rbind unwrap].
  set (s := firstn 31 k).
  assert (Hs : is_stem s) by apply (key_stem k Hk).
  assert (Hl : length s = 31%nat) by apply Hs.
  assert (Hkl : length k = 32%nat) by apply Hk.
  destruct (sd_spec St s W Hl) as (Hi & Hn & Hb).
  destruct (sd St s) as [|e] eqn:Esd; [lia|].
  pose proof (find_walk k Hk e 0 [] ltac:(fold s; rewrite Esd; lia)) as Ew.
  fold s in Ew. cbn [skipn Nat.add firstn app] in Ew. rewrite Ew. clear Ew.
  rewrite (skipn_nth_cons 0 e k) by (unfold bytes in *; lia). cbn [find_loop].
  assert (En : nth e k 0 = nth e s 0) by (unfold s; rewrite nth_firstn; [reflexivity|lia]).
  assert (Ep : firstn e s ++ [nth e k 0] = firstn (S e) s)
    by (rewrite En, <- (firstn_S_nth 0 e s) by lia; reflexivity).
  assert (Enodes : map (branch_node s) (seq 0 e) ++ [(firstn e s, nth e k 0, MBranch (cmeta m St (firstn e s)))]
                   = map (branch_node s) (seq 0 (S e))).
  { rewrite seq_S, map_app. cbn [map Nat.add]. unfold branch_node at 3. now rewrite En. }
  match goal with |- context [?a ++ [(firstn e s, nth e k 0, ?c)]] =>
    change (a ++ [(firstn e s, nth e k 0, c)]) with
      (map (branch_node s) (seq 0 e) ++ [(firstn e s, nth e k 0, MBranch (cmeta m St (firstn e s)))]) end.
  rewrite Enodes.
  assert (Elen : length (map (branch_node s) (seq 0 (S e))) = S e) by (rewrite map_length, seq_length; reflexivity).
  cbn [get_branch_child memory_db_ops rbind]. unfold mem_get_branch_child.
  rewrite Ep, (can_branch _ _ _ C). unfold cbranch. rewrite Hn.
  rewrite removelast_firstn_S by lia. rewrite (Hi e) by lia.
  pose proof (end_stem_spec s Hl) as Eend. rewrite Esd in Eend.
  unfold key_path_of, key_state_of. fold s. rewrite Esd.
  destruct (end_stem s) as [t|] eqn:Et; rewrite Eend.
  - cbn [get_stem_meta memory_db_ops rbind]. unfold mem_get_stem_meta. rewrite (can_stem _ _ _ C).
    destruct (end_stem_In s t Hl Et) as [Ht1 Ht2].
    destruct (in_dec bytes_dec t St) as [_|]; [|contradiction]. cbn [unwrap rbind].
    unfold Base.index. rewrite (nth_error_nth' k 0) by (unfold bytes in *; lia). cbn [unwrap rbind].
    cbn [get_leaf memory_db_ops rbind]. unfold mem_get_leaf. rewrite (can_leaf _ _ _ C).
    assert (Ed : Z.of_nat (length (map (branch_node s) (seq 0 (S e)) ++
        [(firstn (S e) s, nth 31 k 0, MStem (cstem m t))])) mod 256 = Z.of_nat (S e) + 1).
    { rewrite app_length, Elen. cbn [length]. rewrite Z.mod_small; lia. }
    rewrite Ed. destruct (m k) as [v|] eqn:Ev.
    + destruct (can_keys _ _ _ C k v Ev) as [_ Hin]. fold s in Hin.
      rewrite (end_stem_self s Hin) in Et. injection Et as <-.
      rewrite beqb_refl. reflexivity.
    + now destruct (beqb t s).
  - rewrite Elen, Z.mod_small by lia. reflexivity.
Qed.
End OnCanon.
End Paths.
