(** Two tries with the same root hold the same values, or a collision is found. *)
From Verif Require Import Base BaseFacts Alg AlgFacts TreeSpec TreeFacts TrieModel TrieProofs TrieTheorems ProofSpec
  OpeningProofs StatelessUpdate WireModel ProofModel IpaModel CheckProofs IpaSpec SoundSpec TruthSpec LagrangeProofs TruthTheorems CollisionSpec.
Local Open Scope list_scope.

Section Collision.
Context {A : Alg} {L : AlgLaws A} {P : Par A} {PL : ParLaws P}.
Opaque vcommit gsum.
Notation len := List.length.
Add Ring Fring : (F_ring (A := A)).

Lemma indices_dec (f g : Z -> F) n : (forall z, 0 <= z < Z.of_nat n -> f z = g z) \/ exists z, 0 <= z < Z.of_nat n /\ f z <> g z.
Proof.
  induction n as [|n [IH|(z & Hz & Hne)]]; [left; lia| |right; exists z; split; [lia|exact Hne]].
  destruct (feqb (f (Z.of_nat n)) (g (Z.of_nat n))) eqn:E.
  - left. intros z Hz. destruct (Z.eq_dec z (Z.of_nat n)) as [->|]; [now apply feqb_true|apply IH; lia].
  - right. exists (Z.of_nat n). split; [lia|]. intro X. apply feqb_true in X. congruence.
Qed.

Variables h1 h2 : history.
Notation m1 := (final_map h1). Notation m2 := (final_map h2).
Notation S1 := (stems_of h1). Notation S2 := (stems_of h2).
Hypothesis K1 : forall k v, m1 k = Some v -> is_key k /\ In (firstn 31 k) S1.
Hypothesis K2 : forall k v, m2 k = Some v -> is_key k /\ In (firstn 31 k) S2.
Hypothesis W1 : wfS S1.
Hypothesis W2 : wfS S2.
Hypothesis Hsc : scalars_apart m1 S1 S2 (map (fun kv => Some (snd kv)) h2).
Hypothesis V2 : forall k v, m2 k = Some v -> In (Some v) (map (fun kv => Some (snd kv)) h2).
Notation broken := (collision h1 h2).
Notation node := (in_either h1 h2).

Lemma vectors_equal f g : node f -> node g -> vcommit f = vcommit g -> (forall z, 0 <= z < 256 -> f z = g z) \/ broken.
Proof.
  intros Nf Ng E. destruct (indices_dec f g 256) as [H|(z & Hz & Hne)]; [left; exact H|right].
  exact (same_commitment h1 h2 f g z Nf Ng Hz Hne E).
Qed.
Lemma hashes_equal f g : node f -> node g -> hash (vcommit f) = hash (vcommit g) -> (forall z, 0 <= z < 256 -> f z = g z) \/ broken.
Proof.
  intros Nf Ng E. destruct (geqb (vcommit f) (vcommit g)) eqn:X.
  - apply geqb_true in X. now apply vectors_equal.
  - right. apply (same_hash h1 h2 f g Nf Ng); [|exact E]. intro Y. apply geqb_true in Y. congruence.
Qed.
Lemma zero_commits : vcommit (fun _ => fzero) = gzero.
Proof. now apply vcommit_zero. Qed.
Lemma hash_zero_vector f : node f -> hash (vcommit f) = fzero -> (forall z, 0 <= z < 256 -> f z = fzero) \/ broken.
Proof.
  intros Nf E. apply (hashes_equal f (fun _ => fzero)); [exact Nf|left; apply com_empty|]. now rewrite zero_commits, hash_zero.
Qed.

(** Below a path both maps are the same. *)
Definition agree (p : bytes) : Prop := forall k, is_key k -> has_prefix p (firstn 31 k) = true -> m1 k = m2 k.

Lemma absent (m : bytes -> option bytes) S k : (forall k v, m k = Some v -> is_key k /\ In (firstn 31 k) S) -> ~ In (firstn 31 k) S -> m k = None.
Proof. intros K H. destruct (m k) as [v|] eqn:E; [|reflexivity]. exfalso. apply H. apply (K k v E). Qed.

Lemma cval_committed h p : wfS (stems_of h) -> under (stems_of h) p <> [] ->
  exists f, committed h f /\ cval (final_map h) (stems_of h) p = hash (vcommit f).
Proof.
  intros W N. destruct (under (stems_of h) p) as [|s [|b l]] eqn:E; [congruence| |].
  - exists (ext_vec (final_map h) s). split; [|now apply cval_one].
    apply com_ext. assert (X : In s (under (stems_of h) p)) by (rewrite E; now left). now apply under_In in X.
  - exists (inner_vec (final_map h) (stems_of h) p). split; [apply com_inner; right; rewrite E; cbn; lia|].
    apply cval_many; [exact W|rewrite E; cbn; lia].
Qed.

(** The vector of a slot which no single stem is in. *)
Definition slot_vec (m : bytes -> option bytes) (S : list bytes) (p : bytes) : Z -> F :=
  match under S p with [] => fun _ => fzero | _ => inner_vec m S p end.
Lemma slot_vec_inner m S p z : slot_vec m S p z = inner_vec m S p z.
Proof.
  unfold slot_vec. destruct (under S p) eqn:E; [|reflexivity]. symmetry. change (cval m S (p ++ [z]) = fzero). apply cval_none.
  rewrite <- (under_app S p [z]), E. reflexivity.
Qed.
Lemma slot_committed h p : p = [] \/ len (under (stems_of h) p) <> 1%nat -> committed h (slot_vec (final_map h) (stems_of h) p).
Proof.
  intro N. unfold slot_vec. destruct (under (stems_of h) p) as [|s [|b l]] eqn:E.
  - apply com_empty.
  - apply com_inner. destruct N as [N|N]; [now left|]. now destruct N.
  - apply com_inner. right. rewrite E. cbn. lia.
Qed.
Lemma slot_hash h p : wfS (stems_of h) -> len (under (stems_of h) p) <> 1%nat ->
  cval (final_map h) (stems_of h) p = hash (vcommit (slot_vec (final_map h) (stems_of h) p)).
Proof.
  intros W N. unfold slot_vec. destruct (under (stems_of h) p) as [|s [|b l]] eqn:E.
  - rewrite zero_commits, hash_zero. now apply cval_none.
  - now destruct N.
  - apply cval_many; [exact W|rewrite E; cbn; lia].
Qed.

(** A stem against anything that is not a single stem. *)
Lemma stem_vs_slot (h h' : history) p s : (h = h1 /\ h' = h2) \/ (h = h2 /\ h' = h1) ->
  wfS (stems_of h') -> In s (stems_of h) -> len (under (stems_of h') p) <> 1%nat ->
  hash (ext_comm (final_map h) s) = cval (final_map h') (stems_of h') p -> broken.
Proof.
  intros Hh W Hs Hn E.
  assert (Ne : forall f, committed h f -> node f) by (unfold in_either; destruct Hh as [[-> ->]|[-> ->]]; auto).
  assert (Ne' : forall f, committed h' f -> node f) by (unfold in_either; destruct Hh as [[-> ->]|[-> ->]]; auto).
  rewrite (slot_hash h' p W Hn) in E.
  destruct (hashes_equal _ _ (Ne _ (com_ext h s Hs)) (Ne' _ (slot_committed h' p (or_intror Hn))) E) as [X|X]; [|exact X].
  specialize (X 0 ltac:(lia)). rewrite slot_vec_inner in X. change (fone = cval (final_map h') (stems_of h') (p ++ [0])) in X.
  destruct (under (stems_of h') (p ++ [0])) as [|t l] eqn:U.
  - rewrite cval_none in X by exact U. exfalso. now apply fone_neq_0.
  - destruct (cval_committed h' (p ++ [0]) W) as (f & Nf & Ef); [rewrite U; discriminate|].
    apply (hash_is_marker h1 h2 f (Ne' _ Nf)). now rewrite <- Ef.
Qed.

Lemma leaf_same k : leaf_low (m1 k) = leaf_low (m2 k) -> leaf_high (m1 k) = leaf_high (m2 k) -> m1 k = m2 k.
Proof.
  intros El Eh. destruct (m1 k) as [v|] eqn:E1, (m2 k) as [w|] eqn:E2; [| | |reflexivity].
  - f_equal. exact (sa_value _ _ _ _ Hsc k v w E1 (V2 k w E2) El Eh).
  - exfalso. destruct (sa_marked _ _ _ _ Hsc v) as [X _]; [left; eauto|]. now apply X.
  - exfalso. destruct (sa_marked _ _ _ _ Hsc w) as [X _]; [right; now apply (V2 k)|]. apply X. now symmetry.
Qed.

Lemma double_div y : 2 * y / 2 = y.
Proof. rewrite Z.mul_comm. apply Z.div_mul. lia. Qed.
Lemma double_div1 y : (1 + 2 * y) / 2 = y.
Proof. rewrite (Z.mul_comm 2), Z.div_add by lia. reflexivity. Qed.
Lemma half_same s j : In s S1 -> In s S2 -> j = 0 \/ j = 1 -> hash (suffix_comm m1 s j) = hash (suffix_comm m2 s j) ->
  (forall x, 128 * j <= x < 128 * j + 128 -> m1 (s ++ [x]) = m2 (s ++ [x])) \/ broken.
Proof.
  intros I1 I2 Hj E. destruct (hashes_equal _ _ (or_introl (com_half h1 s j I1 Hj)) (or_intror (com_half h2 s j I2 Hj)) E) as [X|X]; [left|now right].
  intros x Hx. apply leaf_same.
  - specialize (X (2 * (x - 128 * j)) ltac:(lia)). unfold suffix_vec in X.
    rewrite double_div in X.
    rewrite Z.even_mul in X. cbn [Z.even orb] in X. replace (128 * j + (x - 128 * j)) with x in X by lia. exact X.
  - specialize (X (1 + 2 * (x - 128 * j)) ltac:(lia)). unfold suffix_vec in X.
    rewrite double_div1 in X.
    rewrite Z.even_add_mul_2 in X. cbn [Z.even] in X. replace (128 * j + (x - 128 * j)) with x in X by lia. exact X.
Qed.

Lemma key_split k : is_key k -> exists x, 0 <= x < 256 /\ k = firstn 31 k ++ [x].
Proof.
  intros [Lk Bk]. exists (nth 31 k 0). split.
  - unfold is_bytes in Bk. rewrite Forall_forall in Bk. apply (Bk (nth 31 k 0)). apply nth_In. lia.
  - rewrite <- (firstn_skipn 31 k) at 1. f_equal. 
    assert (X : len (skipn 31 k) = 1%nat) by (rewrite skipn_length; lia).
    destruct (skipn 31 k) as [|a [|b l]] eqn:E; cbn in X; try lia. f_equal.
    rewrite <- (firstn_skipn 31 k), E, app_nth2; rewrite firstn_length; [|lia]. now replace (31 - Nat.min 31 (len k))%nat with 0%nat by lia.
Qed.

Lemma single_in S p s : under S p = [s] -> In s S.
Proof. intro U. apply (proj1 (under_In S p s)). rewrite U. left. reflexivity. Qed.
Lemma stem_vs_stem p s1 s2 : under S1 p = [s1] -> under S2 p = [s2] -> hash (ext_comm m1 s1) = hash (ext_comm m2 s2) -> agree p \/ broken.
Proof.
  intros U1 U2 E.
  pose proof (single_in S1 p s1 U1) as I1.
  pose proof (single_in S2 p s2 U2) as I2.
  destruct (hashes_equal _ _ (or_introl (com_ext h1 s1 I1)) (or_intror (com_ext h2 s2 I2)) E) as [X|X]; [|now right].
  assert (s1 = s2) as <- by exact (sa_stem _ _ _ _ Hsc s1 s2 I1 I2 (X 1 ltac:(lia))).
  destruct (half_same s1 0 I1 I2 (or_introl eq_refl) (X 2 ltac:(lia))) as [H0|H0]; [|now right].
  destruct (half_same s1 1 I1 I2 (or_intror eq_refl) (X 3 ltac:(lia))) as [H1|H1]; [|now right].
  left. intros k Hk Hpk. destruct (bytes_dec (firstn 31 k) s1) as [Es|Hne].
  - destruct (key_split k Hk) as (x & Hx & Ek). rewrite Ek, Es. destruct (Z.lt_ge_cases x 128); [apply H0|apply H1]; lia.
  - rewrite (absent m1 S1 k K1), (absent m2 S2 k K2); [reflexivity| |]; intro Hi; apply Hne.
    + assert (Y : In (firstn 31 k) (under S2 p)) by (apply under_In; auto). rewrite U2 in Y. destruct Y as [Y|[]]. now symmetry.
    + assert (Y : In (firstn 31 k) (under S1 p)) by (apply under_In; auto). rewrite U1 in Y. destruct Y as [Y|[]]. now symmetry.
Qed.

Lemma children p n : (forall i, 0 <= i < Z.of_nat n -> agree (p ++ [i]) \/ broken) -> (forall i, 0 <= i < Z.of_nat n -> agree (p ++ [i])) \/ broken.
Proof.
  induction n as [|n IH]; intro H; [left; lia|]. destruct IH as [IH|IH]; [intros; apply H; lia| |now right].
  destruct (H (Z.of_nat n) ltac:(lia)) as [X|X]; [left|now right]. intros i Hi. destruct (Z.eq_dec i (Z.of_nat n)) as [->|]; [exact X|apply IH; lia].
Qed.
Lemma agree_children p : (len p < 31)%nat -> (forall i, 0 <= i < 256 -> agree (p ++ [i])) -> agree p.
Proof.
  intros Hp H k Hk Hpk. assert (Ls : len (firstn 31 k) = 31%nat) by (rewrite firstn_length; destruct Hk; lia).
  apply (H (nth (len p) (firstn 31 k) 0)); [|exact Hk|].
  - destruct Hk as [_ Bk]. unfold is_bytes in Bk. rewrite Forall_forall in Bk. apply Bk. apply (firstn_In_l 31). apply nth_In. lia.
  - apply has_prefix_eq in Hpk. rewrite Hpk at 1. rewrite <- firstn_S_nth by lia. apply has_prefix_firstn.
Qed.

Lemma inner_step p : (len p < 31)%nat -> 
  (forall i, 0 <= i < 256 -> cval m1 S1 (p ++ [i]) = cval m2 S2 (p ++ [i]) -> agree (p ++ [i]) \/ broken) ->
  (forall z, 0 <= z < 256 -> inner_vec m1 S1 p z = inner_vec m2 S2 p z) -> agree p \/ broken.
Proof.
  intros Hp H E. destruct (children p 256) as [X|X]; [|left; now apply agree_children|now right].
  intros i Hi. apply H; [exact Hi|]. exact (E i Hi).
Qed.

Lemma below n : forall p, (31 <= n + len p)%nat -> cval m1 S1 p = cval m2 S2 p -> agree p \/ broken.
Proof.
  induction n as [|n IH]; intros p Hn E.
  all: destruct (Nat.eq_dec (len (under S1 p)) 1) as [L1|L1]; destruct (Nat.eq_dec (len (under S2 p)) 1) as [L2|L2].
  all: try (destruct (under S1 p) as [|s1 [|]] eqn:U1; try discriminate L1; destruct (under S2 p) as [|s2 [|]] eqn:U2; try discriminate L2;
    rewrite (cval_one m1 S1 p s1 U1), (cval_one m2 S2 p s2 U2) in E; now apply (stem_vs_stem p s1 s2)).
  all: try (right; destruct (under S1 p) as [|s1 [|]] eqn:U1; try discriminate L1;
    pose proof (single_in S1 p s1 U1) as I1;
    rewrite (cval_one m1 S1 p s1 U1) in E; exact (stem_vs_slot h1 h2 p s1 (or_introl (conj eq_refl eq_refl)) W2 I1 L2 E)).
  all: try (right; destruct (under S2 p) as [|s2 [|]] eqn:U2; try discriminate L2;
    pose proof (single_in S2 p s2 U2) as I2;
    rewrite (cval_one m2 S2 p s2 U2) in E; exact (stem_vs_slot h2 h1 p s2 (or_intror (conj eq_refl eq_refl)) W1 I2 L1 (eq_sym E))).
  - left. intros k Hk Hpk. pose proof (under_long S1 p W1 ltac:(lia)). pose proof (under_long S2 p W2 ltac:(lia)).
    rewrite (absent m1 S1 k K1), (absent m2 S2 k K2); [reflexivity| |]; intro Hi.
    + assert (Y : In (firstn 31 k) (under S2 p)) by (apply under_In; auto). destruct (under S2 p) as [|? [|]]; cbn in *; [destruct Y|lia|lia].
    + assert (Y : In (firstn 31 k) (under S1 p)) by (apply under_In; auto). destruct (under S1 p) as [|? [|]]; cbn in *; [destruct Y|lia|lia].
  - rewrite (slot_hash h1 p W1 L1), (slot_hash h2 p W2 L2) in E.
    destruct (hashes_equal _ _ (or_introl (slot_committed h1 p (or_intror L1))) (or_intror (slot_committed h2 p (or_intror L2))) E) as [X|X]; [|now right].
    destruct (Nat.lt_ge_cases (len p) 31) as [Hp|Hp]; [|apply (IH p ltac:(lia)); rewrite (slot_hash h1 p W1 L1), (slot_hash h2 p W2 L2); exact E].
    apply inner_step; [exact Hp| |].
    + intros i Hi. apply IH. rewrite app_length. cbn. lia.
    + intros z Hz. rewrite <- !slot_vec_inner. now apply X.
Qed.

Lemma same_root : spec_root m1 S1 = spec_root m2 S2 -> (forall k, m1 k = m2 k) \/ broken.
Proof.
  intro E. destruct (vectors_equal _ _ (or_introl (com_inner h1 [] (or_introl eq_refl))) (or_intror (com_inner h2 [] (or_introl eq_refl))) E) as [X|X]; [|now right].
  destruct (inner_step [] ltac:(cbn; lia)) as [Y|Y]; [|exact X| |now right].
  - intros i Hi. apply (below 31). cbn. lia.
  - left. intros k. destruct (m1 k) as [v|] eqn:E1.
    + rewrite <- E1. apply Y; [apply (K1 k v E1)|apply has_prefix_nil].
    + destruct (m2 k) as [v|] eqn:E2; [|reflexivity]. rewrite <- E1, <- E2. apply Y; [apply (K2 k v E2)|apply has_prefix_nil].
Qed.
Lemma same_root_hash : hash (spec_root m1 S1) = hash (spec_root m2 S2) -> (forall k, m1 k = m2 k) \/ broken.
Proof.
  intro E. destruct (geqb (spec_root m1 S1) (spec_root m2 S2)) eqn:X; [apply geqb_true in X; now apply same_root|].
  right. apply (same_hash h1 h2 (inner_vec m1 S1 []) (inner_vec m2 S2 [])).
  - left. apply com_inner. now left.
  - right. apply com_inner. now left.
  - intro Y. apply geqb_true in Y. unfold spec_root, inner_comm in X. congruence.
  - exact E.
Qed.
End Collision.

Section Theorems.
Context {A : Alg} {L : AlgLaws A} {P : Par A} {PL : ParLaws P}.
Notation len := List.length.
Add Ring dnring : dn_ring.

Lemma map_value_In h k v : final_map h k = Some v -> In (k, v) h.
Proof.
  induction h as [|[k' v'] h IH]; cbn [final_map]; [discriminate|]. destruct (final_map h k) as [w|].
  - intros E. right. now apply IH.
  - destruct (beqb k' k) eqn:E; [apply beqb_eq in E; subst k'; intros X; left; congruence|discriminate].
Qed.

Lemma root_binds_apart h1 h2 (db1 db2 : MemoryDb) : wf_history h1 -> wf_history h2 ->
  scalars_apart (final_map h1) (stems_of h1) (stems_of h2) (map (fun kv => Some (snd kv)) h2) ->
  run_mem h1 = Ok db1 -> run_mem h2 = Ok db2 -> root_hash db1 = root_hash db2 ->
  (forall k, trie_get db1 k = trie_get db2 k) \/ collision h1 h2.
Proof.
  intros Hw1 Hw2 Hsc E1 E2 Er.
  pose proof (run_canon h1 db1 Hw1 E1) as C1. pose proof (run_canon h2 db2 Hw2 E2) as C2.
  destruct (root_spec h1 Hw1) as (d1 & X1 & _ & R1). destruct (root_spec h2 Hw2) as (d2 & X2 & _ & R2).
  assert (d1 = db1) as -> by congruence. assert (d2 = db2) as -> by congruence.
  destruct (same_root_hash h1 h2 (can_keys _ _ _ C1) (can_keys _ _ _ C2) (can_wf _ _ _ C1) (can_wf _ _ _ C2) Hsc) as [H|H]; [|congruence| |now right].
  - intros k v Hk. apply in_map_iff. exists (k, v). split; [reflexivity|]. now apply map_value_In.
  - left. intros k. unfold trie_get. cbn [get_leaf memory_db_ops]. unfold mem_get_leaf.
    rewrite (can_leaf _ _ _ C1), (can_leaf _ _ _ C2). f_equal. apply H.
Qed.

Lemma history_apart h1 h2 : (forall a, 0 < a < 2 ^ 248 -> of_Z a <> fzero) -> wf_history h1 -> wf_history h2 ->
  Forall (fun kv => is_value (snd kv)) h1 -> Forall (fun kv => is_value (snd kv)) h2 ->
  scalars_apart (final_map h1) (stems_of h1) (stems_of h2) (map (fun kv => Some (snd kv)) h2).
Proof.
  intros Fit Hw1 Hw2 V1 V2. rewrite Forall_forall in V1, V2. apply scalars_apart_large.
  - exact Fit.
  - destruct (run_mem_canon h1 Hw1) as (db & E & C). apply (can_wf _ _ _ C).
  - destruct (run_mem_canon h2 Hw2) as (db & E & C). apply (can_wf _ _ _ C).
  - intros k v Hk. apply (V1 (k, v)). now apply map_value_In.
  - intros v Hv. apply in_map_iff in Hv as ([k w] & Ew & Hi). cbn in Ew. injection Ew as ->. exact (V2 _ Hi).
Qed.

Lemma root_hash_binds : (forall a, 0 < a < 2 ^ 248 -> of_Z a <> fzero) -> forall h1 h2 (db1 db2 : MemoryDb),
  wf_history h1 -> wf_history h2 -> Forall (fun kv => is_value (snd kv)) h1 -> Forall (fun kv => is_value (snd kv)) h2 ->
  run_mem h1 = Ok db1 -> run_mem h2 = Ok db2 -> root_hash db1 = root_hash db2 ->
  (forall k, trie_get db1 k = trie_get db2 k) \/ collision h1 h2.
Proof. intros Fit h1 h2 db1 db2 Hw1 Hw2 V1 V2. apply root_binds_apart; auto. now apply history_apart. Qed.

Lemma collision_relation f g z : 0 <= z < 256 -> f z <> g z -> vcommit f = vcommit g ->
  relation (crs_G trie_crs) (map (fun i => fsub (f (Z.of_nat i)) (g (Z.of_nat i))) (seq 0 256)).
Proof.
  intros Bz Hne E. split; [|split].
  - rewrite map_length, seq_length. symmetry. apply trie_crs_len.
  - apply Exists_exists. exists (fsub (f z) (g z)). split.
    + apply in_map_iff. exists (Z.to_nat z). rewrite Z2Nat.id by lia. split; [reflexivity|]. apply in_seq. lia.
    + intro X. apply Hne. exact (fsub_eq _ _ X).
  - rewrite trie_crs_len. rewrite (commit_vcommit (fun i => fsub (f i) (g i))).
    + rewrite vcommit_diff, E. module.
    + intros i Hi. rewrite (nth_indep _ _ (fsub (f (Z.of_nat 0)) (g (Z.of_nat 0)))) by (rewrite map_length, seq_length; exact Hi).
      rewrite (map_nth (fun i => fsub (f (Z.of_nat i)) (g (Z.of_nat i)))), seq_nth by exact Hi. reflexivity.
Qed.
End Theorems.
