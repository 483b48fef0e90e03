(** Proofs about the foreign-function interface. *)
From Coq Require Import String Permutation.
From Verif Require Import Base BaseFacts Alg AlgFacts WireModel WireSpec WireProofs ProofModel IpaModel IpaSpec LagrangeSpec IpaProofs LagrangeProofs IpaTheorems MsmModel MsmSpec MsmProofs FfiModel FfiSpec.
Local Open Scope list_scope.

Lemma nth_error_firstn_lt' {X} (l : list X) n i : (i < n)%nat -> nth_error (firstn n l) i = nth_error l i.
Proof. revert l i. induction n as [|n IH]; intros l i Hi; [lia|]. destruct l, i; cbn; try reflexivity. apply IH. lia. Qed.
Lemma nth_error_skipn' {X} n : forall (l : list X) i, nth_error (skipn n l) i = nth_error l (n + i).
Proof. induction n as [|n IH]; intros l i; [reflexivity|]. destruct l; cbn; [now destruct i|apply IH]. Qed.

(** ** Chunks *)
Lemma skipn_add {X} n m (l : list X) : skipn n (skipn m l) = skipn (m + n) l.
Proof. revert l. induction m as [|m IH]; intro l; [reflexivity|]. destruct l; cbn [skipn Nat.add]; [now rewrite skipn_nil|apply IH]. Qed.

Lemma chunks_cons k b r : (0 < k)%nat -> len b = k -> chunks_exact k (b ++ r) = b :: chunks_exact k r.
Proof.
  intros Hk Hb. unfold chunks_exact. rewrite app_length, Hb.
  replace ((k + len r) / k)%nat with (S (len r / k)).
  2:{ rewrite <- (Nat.mul_1_l k) at 2. rewrite Nat.add_comm, Nat.div_add by lia. lia. }
  cbn [seq map]. f_equal.
  - rewrite Nat.mul_0_l. cbn [skipn]. now apply firstn_app_exact.
  - rewrite <- seq_shift, map_map. apply map_ext. intro i.
    replace (S i * k)%nat with (k + i * k)%nat by lia. rewrite <- skipn_add. now rewrite skipn_app_exact.
Qed.
Lemma chunks_nil k b : (len b < k)%nat -> chunks_exact k b = [].
Proof. intro H. unfold chunks_exact. rewrite Nat.div_small by lia. reflexivity. Qed.
Lemma chunks_concat k l : (0 < k)%nat -> Forall (fun b => len b = k) l -> chunks_exact k (concat l) = l.
Proof.
  intros Hk. induction 1 as [|b l Hb _ IH]; cbn [concat].
  - apply chunks_nil. cbn. lia.
  - rewrite chunks_cons by assumption. now rewrite IH.
Qed.
Lemma chunks_inv k : (0 < k)%nat -> forall n b, len b = (n * k)%nat ->
  concat (chunks_exact k b) = b /\ Forall (fun c => len c = k) (chunks_exact k b) /\ len (chunks_exact k b) = n.
Proof.
  intro Hk. induction n as [|n IH]; intros b Hb.
  - destruct b; [|cbn in Hb; lia]. rewrite chunks_nil by (cbn; lia). repeat split. constructor.
  - pose proof (firstn_skipn k b) as E. rewrite <- E.
    assert (L1 : len (firstn k b) = k) by (rewrite firstn_length; lia).
    assert (L2 : len (skipn k b) = (n * k)%nat) by (rewrite skipn_length; lia).
    rewrite chunks_cons by assumption. destruct (IH _ L2) as (I1 & I2 & I3). cbn [concat]. rewrite I1.
    split; [reflexivity|]. split; [now constructor|]. cbn [List.length]. lia.
Qed.
Lemma mod_multiple m (n : nat) : (0 < m)%nat -> (Z.of_nat n mod Z.of_nat m =? 0) = true <-> exists q, n = (q * m)%nat.
Proof.
  intro Hm. rewrite Z.eqb_eq. split.
  - intro E. apply Z.mod_divide in E as (q & E); [|lia]. exists (Z.to_nat q). nia.
  - intros (q & ->). rewrite Nat2Z.inj_mul. apply Z.mod_mul. lia.
Qed.
Lemma concat_len {X} k (l : list (list X)) : Forall (fun b => len b = k) l -> len (concat l) = (len l * k)%nat.
Proof. induction 1 as [|b l Hb _ IH]; cbn [concat]; [reflexivity|]. rewrite app_length, IH, Hb. cbn [List.length]. lia. Qed.
Lemma concat_is_bytes l : Forall is_bytes l -> is_bytes (concat l).
Proof. induction 1; cbn; [constructor|]. apply is_bytes_app. now split. Qed.
Lemma is_bytes_chunks k b : is_bytes b -> Forall is_bytes (chunks_exact k b).
Proof.
  intro H. unfold chunks_exact. apply Forall_forall. intros c Hc. apply in_map_iff in Hc as (i & <- & _).
  now apply is_bytes_firstn, is_bytes_skipn.
Qed.

Section Ffi.
Context {A : Alg} {L : AlgLaws A} {C : ECodec A} {CL : ECodecLaws C} {P : Par A}
        {I : FrInt A} {IL : FrIntLaws I} {W : Wnaf A} {WL : WnafLaws W} {H : Hasher}.
Add Ring Fringf : F_ring.
Add Ring dnringf : dn_ring.

Notation Gs := (crs_G trie_crs).
Lemma Gs_len : len Gs = 256%nat.
Proof. unfold trie_crs. cbn [crs_G]. now rewrite map_length, seq_length. Qed.

(** ** The context *)
Lemma context_exists : domain_fits 256 -> exists cx, context_new = Ok cx.
Proof.
  intro D. unfold context_new.
  destruct (proj1 (committer_new_ok Gs)) as (c & ->). { rewrite Gs_len. lia. }
  destruct (lagrange_weights 256 D ltac:(lia)) as (pw & -> & _). cbn [rbind]. eauto.
Qed.
Lemma context_inv cx : context_new = Ok cx ->
  cx_crs cx = trie_crs /\ committer_new Gs = Ok (cx_committer cx) /\ precomputed_weights 256 = Ok (cx_pw cx).
Proof.
  unfold context_new. intro E. apply rbind_ok in E as (c & E1 & E). apply rbind_ok in E as (pw & E2 & E).
  inversion E; subst. cbn [cx_crs cx_committer cx_pw]. split; [reflexivity|]. split; [exact E1|exact E2].
Qed.

(** ** Scalars *)
Lemma all_scalars_rt v : all_scalars (map sc_ser v) = FOk v.
Proof. induction v as [|x v IH]; [reflexivity|]. cbn [map all_scalars]. unfold fr_from_le_bytes. now rewrite sc_rt, IH. Qed.
Lemma all_scalars_inv l : Forall is_bytes l -> Forall (fun b => len b = 32%nat) l ->
  (exists v, all_scalars l = FOk v /\ l = map sc_ser v) \/
  (exists b, all_scalars l = FErr_ (FailedToDeserializeScalar b) /\ In b l /\ sc_de b = None).
Proof.
  intros HB HL. induction l as [|b l IH]; [left; now exists []|]. inversion HB; inversion HL; subst.
  cbn [all_scalars]. unfold fr_from_le_bytes. destruct (sc_de b) as [x|] eqn:E.
  - destruct IH as [(v & -> & ->)|(b' & -> & Hin & Hn)]; try assumption.
    + left. exists (x :: v). split; [reflexivity|]. cbn [map]. f_equal. symmetry. apply sc_canon; assumption.
    + right. exists b'. repeat split; [now right|assumption].
  - right. exists b. repeat split; [now left|assumption].
Qed.
Lemma scalars_len v : len (scalars_bytes v) = (len v * 32)%nat.
Proof.
  unfold scalars_bytes. rewrite (concat_len 32), map_length; [reflexivity|]. apply Forall_forall. intros b Hb.
  apply in_map_iff in Hb as (x & <- & _). apply sc_len.
Qed.
Lemma scalars_chunks v : chunks_exact 32 (scalars_bytes v) = map sc_ser v.
Proof.
  apply chunks_concat; [lia|]. apply Forall_forall. intros b Hb. apply in_map_iff in Hb as (x & <- & _). apply sc_len.
Qed.

Lemma commit_ok split cx v : context_new = Ok cx -> (len v <= 256)%nat ->
  commit_to_scalars split cx (scalars_bytes v) = Ok (FOk (eu_ser (combination v Gs))).
Proof.
  intros Hc Hv. apply context_inv in Hc as (E1 & E2 & E3). unfold commit_to_scalars, commit_to_scalars_. rewrite scalars_len.
  replace (Z.of_nat (len v * 32) mod 32 =? 0) with true.
  2:{ symmetry. apply (mod_multiple 32); [lia|]. eauto. }
  cbn [negb]. rewrite Nat2Z.inj_mul, Z.div_mul by lia.
  destruct (Z.ltb_spec 256 (Z.of_nat (len v))); [lia|]. rewrite scalars_chunks, all_scalars_rt. cbn [fbind].
  now rewrite (commit_lagrange_ok Gs _ E2).
Qed.

(** Every input: an encoding of at most 256 scalars is committed to, anything else is an error. *)
Lemma commit_total split cx b : context_new = Ok cx -> is_bytes b ->
  (exists v, (len v <= 256)%nat /\ b = scalars_bytes v /\ commit_to_scalars split cx b = Ok (FOk (eu_ser (combination v Gs)))) \/
  ((forall v, (len v <= 256)%nat -> b <> scalars_bytes v) /\ exists e, commit_to_scalars split cx b = Ok (FErr_ e) /\
     (len b mod 32 <> 0 -> e = LengthOfScalarsNotMultipleOf32 (Z.of_nat (len b)))%nat /\
     (len b mod 32 = 0 -> 256 * 32 < len b -> e = TooManyScalars 256 (Z.of_nat (len b) / 32))%nat /\
     (len b mod 32 = 0 -> len b <= 256 * 32 -> exists c, e = FailedToDeserializeScalar c /\ In c (chunks_exact 32 b) /\ sc_de c = None)%nat).
Proof.
  intros Hc Hb. pose proof Hc as Hc0. apply context_inv in Hc as (E1 & E2 & E3).
  unfold commit_to_scalars, commit_to_scalars_.
  destruct (Z.of_nat (len b) mod 32 =? 0) eqn:EM; cbn [negb].
  - apply (mod_multiple 32) in EM as (n & En); [|lia].
    rewrite !En, Nat2Z.inj_mul, Z.div_mul by lia.
    destruct (Z.ltb_spec 256 (Z.of_nat n)) as [Hn|Hn].
    + right. split.
      * intros v Hv ->. rewrite scalars_len in En. lia.
      * eexists. split; [reflexivity|]. rewrite E1. cbn [crs_n trie_crs]. split; [|split].
        -- rewrite Nat.mod_mul by lia. easy.
        -- intros _ _. f_equal.
        -- lia.
    + destruct (chunks_inv 32 ltac:(lia) n b En) as (K1 & K2 & K3).
      destruct (all_scalars_inv (chunks_exact 32 b) (is_bytes_chunks 32 b Hb) K2) as [(v & EA & EV)|(c & EA & Hin & Hn')].
      * left. exists v. assert (Lv : len v = n) by (rewrite EV, map_length in K3; exact K3).
        split; [lia|]. rewrite EV in K1. split; [symmetry; exact K1|].
        rewrite EA. cbn [fbind]. now rewrite (commit_lagrange_ok Gs _ E2).
      * right. split.
        -- intros v Hv ->. rewrite scalars_chunks, all_scalars_rt in EA. discriminate.
        -- rewrite EA. eexists. split; [reflexivity|]. split; [|split].
           ++ rewrite Nat.mod_mul by lia. easy.
           ++ lia.
           ++ intros _ _. exists c. auto.
  - right. assert (N : (len b mod 32 <> 0)%nat).
    { intro X. rewrite <- not_true_iff_false in EM. apply EM. apply (mod_multiple 32); [lia|].
      exists (len b / 32)%nat. pose proof (Nat.div_mod (len b) 32 ltac:(lia)). lia. }
    split.
    + intros v Hv ->. apply N. rewrite scalars_len. apply Nat.mod_mul. lia.
    + eexists. split; [reflexivity|]. split; [auto|]. split; intro X; contradiction.
Qed.

(** ** Updates *)
Lemma replace_bump v i x w : nth_error v i = Some x -> replace v i w = bump v i (fsub w x).
Proof.
  intro E. unfold replace, bump. rewrite E. cbn [app]. do 2 f_equal. ring.
Qed.
Lemma replace_len v i w : (i < len v)%nat -> len (replace v i w) = len v.
Proof. intro Hi. unfold replace. rewrite !app_length, firstn_length, skipn_length. cbn [List.length]. lia. Qed.
Lemma replace_nth v i w j : (i < len v)%nat -> nth_error (replace v i w) j = if (j =? i)%nat then Some w else nth_error v j.
Proof.
  intro Hi. unfold replace. destruct (Nat.eqb_spec j i) as [->|N].
  - rewrite nth_error_app2 by (rewrite firstn_length; lia). rewrite firstn_length. replace (i - Nat.min i (len v))%nat with 0%nat by lia. reflexivity.
  - destruct (Nat.lt_ge_cases j i).
    + rewrite nth_error_app1 by (rewrite firstn_length; lia). now rewrite nth_error_firstn_lt'.
    + rewrite nth_error_app2 by (rewrite firstn_length; lia). rewrite firstn_length.
      replace (j - Nat.min i (len v))%nat with (S (j - S i)) by lia. cbn [app nth_error].
      rewrite nth_error_skipn'. f_equal. lia.
Qed.

Lemma update_ok cx v old i x w : context_new = Ok cx -> (len v <= 256)%nat ->
  eu_de old = Some (combination v Gs) -> 0 <= i -> nth_error v (Z.to_nat i) = Some x ->
  update_commitment cx old i (sc_ser x) (sc_ser w) = Ok (FOk (eu_ser (combination (replace v (Z.to_nat i) w) Gs))).
Proof.
  intros Hc Hv Ho Hi Hx. apply context_inv in Hc as (E1 & E2 & E3). unfold update_commitment. rewrite Ho. cbn [unwrap rbind].
  unfold fr_from_le_bytes. rewrite !sc_rt. cbn [fbind].
  assert (Hl : (Z.to_nat i < len v)%nat) by (apply nth_error_Some; congruence).
  rewrite (scalar_mul_ok Gs _ E2). pose proof Gs_len as GL.
  destruct (nth_error Gs (Z.to_nat i)) as [p|] eqn:EP; [|apply nth_error_None in EP; lia].
  cbn [rbind]. rewrite (replace_bump v _ x) by exact Hx. rewrite combination_bump by lia.
  erewrite nth_error_nth by exact EP. do 3 f_equal. module.
Qed.

Definition ch_indices (l : list change) : list nat := map ch_index l.
Definition ch_olds (l : list change) : list bytes := map (fun c => sc_ser (ch_old c)) l.
Definition ch_news (l : list change) : list bytes := map (fun c => sc_ser (ch_new c)) l.
Definition ch_deltas (l : list change) : list (F * nat) := map (fun c => (fsub (ch_new c) (ch_old c), ch_index c)) l.

Lemma sparse_deltas_ok l : forall pre, sparse_deltas (len pre) (ch_indices l) (ch_olds (pre ++ l)) (ch_news (pre ++ l)) = Ok (ch_deltas l).
Proof.
  induction l as [|c l IH]; intro pre; [reflexivity|]. cbn [ch_indices map sparse_deltas]. fold (ch_indices l).
  assert (E : forall f : change -> bytes, nth_error (map f (pre ++ c :: l)) (len pre) = Some (f c)).
  { intro f. rewrite map_app, nth_error_app2 by (rewrite map_length; lia). rewrite map_length, Nat.sub_diag. reflexivity. }
  unfold index, ch_olds at 1, ch_news at 1. rewrite !E. cbn [unwrap rbind]. rewrite !sc_rt. cbn [unwrap rbind].
  specialize (IH (pre ++ [c])). rewrite app_length in IH. cbn [List.length] in IH. rewrite <- app_assoc in IH. cbn [app] in IH.
  replace (S (len pre)) with (len pre + 1)%nat by lia. rewrite IH. reflexivity.
Qed.

Lemma changes_len v l : Forall (fun c => nth_error v (ch_index c) = Some (ch_old c)) l ->
  forall d i, In (d, i) (ch_deltas l) -> (i < len v)%nat.
Proof.
  intros Hf d i Hin. unfold ch_deltas in Hin. apply in_map_iff in Hin as (c & E & Hin). injection E as <- <-.
  rewrite Forall_forall in Hf. apply nth_error_Some. now rewrite Hf.
Qed.
Lemma replace_all_bump l : forall v, changes_of v l ->
  fold_left (fun u e => bump u (snd e) (fst e)) (ch_deltas l) v = replace_all v l.
Proof.
  induction l as [|c l IH]; intros v [ND Hf]; [reflexivity|]. cbn [ch_deltas map fold_left replace_all]. fold (ch_deltas l).
  inversion Hf as [|? ? Hx Hf']; subst. inversion ND as [|? ? Hn ND']; subst. cbn [fst snd].
  rewrite <- (replace_bump v _ (ch_old c)) by exact Hx. unfold replace_all in IH. apply IH. split; [exact ND'|].
  rewrite Forall_forall in Hf' |- *. intros d Hd. rewrite replace_nth by (apply nth_error_Some; congruence).
  destruct (Nat.eqb_spec (ch_index d) (ch_index c)) as [E|_]; [|now apply Hf'].
  exfalso. apply Hn. rewrite <- E. now apply in_map.
Qed.
Lemma replace_all_len l : forall v, changes_of v l -> len (replace_all v l) = len v.
Proof.
  induction l as [|c l IH]; intros v [ND Hf]; [reflexivity|]. cbn [replace_all fold_left].
  inversion Hf as [|? ? Hx Hf']; subst. inversion ND as [|? ? Hn ND']; subst.
  assert (Hl : (ch_index c < len v)%nat) by (apply nth_error_Some; congruence).
  unfold replace_all in IH. rewrite IH; [now apply replace_len|]. split; [exact ND'|].
  rewrite Forall_forall in Hf' |- *. intros d Hd. rewrite replace_nth by exact Hl.
  destruct (Nat.eqb_spec (ch_index d) (ch_index c)) as [E|_]; [|now apply Hf'].
  exfalso. apply Hn. rewrite <- E. now apply in_map.
Qed.

Lemma sparse_ok cx v old l : context_new = Ok cx -> (len v <= 256)%nat -> eu_de old = Some (combination v Gs) -> changes_of v l ->
  update_commitment_sparse cx old (ch_indices l) (ch_olds l) (ch_news l) = Ok (FOk (eu_ser (combination (replace_all v l) Gs))).
Proof.
  intros Hc Hv Ho Hl. apply context_inv in Hc as (E1 & E2 & E3). unfold update_commitment_sparse. rewrite Ho. cbn [unwrap rbind].
  pose proof (sparse_deltas_ok l []) as SD. cbn [app List.length] in SD. rewrite SD. cbn [rbind].
  destruct (sparse_delta Gs _ E2 (ch_deltas l) v) as (d & Ed & Es).
  { rewrite Gs_len. lia. } { apply changes_len. apply Hl. }
  rewrite Ed. cbn [rbind]. rewrite (replace_all_bump l v Hl) in Es. rewrite <- Es. do 3 f_equal. module.
Qed.

(** A permuted list of changes has the same effect. *)
Lemma replace_all_nth l : forall v j, changes_of v l -> nth_error (replace_all v l) j =
  match find (fun c => (j =? ch_index c)%nat) l with Some c => Some (ch_new c) | None => nth_error v j end.
Proof.
  induction l as [|c l IH]; intros v j [ND Hf]; [reflexivity|]. cbn [replace_all fold_left find].
  inversion Hf as [|? ? Hx Hf']; subst. inversion ND as [|? ? Hn ND']; subst.
  assert (Hl : (ch_index c < len v)%nat) by (apply nth_error_Some; congruence).
  unfold replace_all in IH. rewrite IH.
  - destruct (find _ l) as [d|] eqn:EF.
    + apply find_some in EF as [Hd Ej]. apply Nat.eqb_eq in Ej. destruct (Nat.eqb_spec j (ch_index c)) as [E|_]; [|reflexivity].
      exfalso. apply Hn. rewrite <- E, Ej. now apply in_map.
    + rewrite replace_nth by exact Hl. destruct (j =? ch_index c)%nat; reflexivity.
  - split; [exact ND'|]. rewrite Forall_forall in Hf' |- *. intros d Hd. rewrite replace_nth by exact Hl.
    destruct (Nat.eqb_spec (ch_index d) (ch_index c)) as [E|_]; [|now apply Hf'].
    exfalso. apply Hn. rewrite <- E. now apply in_map.
Qed.
Lemma nth_error_ext {X} (a b : list X) : (forall i, nth_error a i = nth_error b i) -> a = b.
Proof.
  revert b. induction a as [|x a IH]; intros [|y b] E; [reflexivity|specialize (E 0%nat); discriminate|specialize (E 0%nat); discriminate|].
  pose proof (E 0%nat) as E0. injection E0 as <-. f_equal. apply IH. intro i. exact (E (S i)).
Qed.
Lemma changes_perm v l l' : Permutation l l' -> changes_of v l -> changes_of v l'.
Proof.
  intros HP [ND Hf]. split.
  - eapply Permutation_NoDup; [|exact ND]. now apply Permutation_map.
  - rewrite Forall_forall in *. intros c Hc. apply Hf. apply (Permutation_in _ (Permutation_sym HP) Hc).
Qed.
Lemma find_unique (l : list change) j c : NoDup (map ch_index l) -> In c l -> j = ch_index c ->
  find (fun c => (j =? ch_index c)%nat) l = Some c.
Proof.
  intros ND Hin ->. induction l as [|d l IH]; [destruct Hin|]. inversion ND as [|? ? Hn ND']; subst. cbn [find].
  destruct (Nat.eqb_spec (ch_index c) (ch_index d)) as [E|N].
  - destruct Hin as [->|Hin]; [reflexivity|]. exfalso. apply Hn. rewrite <- E. now apply in_map.
  - destruct Hin as [->|Hin]; [contradiction|]. now apply IH.
Qed.
Lemma replace_all_perm v l l' : Permutation l l' -> changes_of v l -> replace_all v l = replace_all v l'.
Proof.
  intros HP Hl. pose proof (changes_perm v l l' HP Hl) as Hl'. apply nth_error_ext. intro j.
  rewrite !replace_all_nth by assumption.
  destruct (find _ l) as [c|] eqn:E.
  - apply find_some in E as [Hin Ej]. apply Nat.eqb_eq in Ej. rewrite (find_unique l' j c); [reflexivity| | |exact Ej].
    + apply Hl'. + now apply (Permutation_in _ HP).
  - destruct (find _ l') as [c|] eqn:E'; [|reflexivity]. apply find_some in E' as [Hin Ej].
    pose proof (find_none _ _ E c (Permutation_in _ (Permutation_sym HP) Hin)) as X. cbn in X. congruence.
Qed.

(** The byte format of sparse updates. *)
Lemma change_len c : len (change_record c) = 65%nat.
Proof. unfold change_record. rewrite !app_length, !sc_len. reflexivity. Qed.
Lemma slice_exact (a x r : bytes) i j : len a = i -> len x = (j - i)%nat -> (i <= j)%nat -> slice i j (a ++ x ++ r) = Ok x.
Proof.
  intros Ha Hx Hij. unfold slice. rewrite !app_length.
  replace ((i <=? j) && (j <=? len a + (len x + len r)))%nat with true.
  2:{ symmetry. apply andb_true_iff. split; apply Nat.leb_le; lia. }
  rewrite skipn_app_exact by exact Ha. now rewrite firstn_app_exact.
Qed.
Lemma sparse_items_rt l : sparse_items (map change_record l) = Ok (ch_indices l, ch_olds l, ch_news l).
Proof.
  induction l as [|c l IH]; [reflexivity|]. cbn [map sparse_items]. unfold change_record at 1 2 3.
  rewrite slice_app by apply sc_len. cbn [rbind].
  rewrite slice_exact by (rewrite ?sc_len; lia). cbn [rbind].
  unfold index. rewrite nth_error_app2 by (rewrite sc_len; lia). rewrite nth_error_app2 by (rewrite !sc_len; lia).
  rewrite !sc_len. cbn [Nat.sub nth_error unwrap rbind]. rewrite IH. cbn [rbind]. rewrite Nat2Z.id. reflexivity.
Qed.
Lemma deser_sparse_rt c l : len c = 64%nat ->
  deserialize_update_commitment_sparse (c ++ concat (map change_record l)) = Ok (FOk (c, ch_indices l, ch_olds l, ch_news l)).
Proof.
  intro Hc. unfold deserialize_update_commitment_sparse. rewrite slice_app by exact Hc. cbn [rbind].
  rewrite slice_from_app by exact Hc. cbn [rbind].
  assert (HF : Forall (fun b => len b = 65%nat) (map change_record l)).
  { apply Forall_forall. intros b Hb. apply in_map_iff in Hb as (x & <- & _). apply change_len. }
  rewrite (concat_len 65) by exact HF.
  replace (Z.of_nat (len (map change_record l) * 65) mod 65 =? 0) with true.
  2:{ symmetry. apply (mod_multiple 65); [lia|]. eauto. }
  cbn [negb]. rewrite chunks_concat by (try exact HF; lia). rewrite sparse_items_rt. reflexivity.
Qed.

(** Any input of at least 64 bytes: the pieces put together are the input. *)
Lemma sparse_items_raw l : Forall is_bytes l -> Forall (fun b => len b = 65%nat) l -> exists t : list (nat * bytes * bytes),
  sparse_items l = Ok (map (fun e => fst (fst e)) t, map (fun e => snd (fst e)) t, map snd t) /\
  l = map (fun e => raw_record (fst (fst e)) (snd (fst e)) (snd e)) t /\
  Forall (fun e => (fst (fst e) < 256)%nat /\ len (snd (fst e)) = 32%nat /\ len (snd e) = 32%nat) t.
Proof.
  intros HB HL. induction l as [|b l IH]; [exists []; repeat split; constructor|]. inversion HB; inversion HL; subst.
  destruct IH as (t & E1 & E2 & E3); try assumption. cbn [sparse_items]. rewrite E1.
  assert (HS : firstn 32 b ++ firstn 32 (skipn 32 b) ++ skipn 64 b = b).
  { replace (skipn 64 b) with (skipn 32 (skipn 32 b)) by (rewrite skipn_add; reflexivity). now rewrite !firstn_skipn. }
  assert (L64 : len (skipn 64 b) = 1%nat) by (rewrite skipn_length; lia).
  destruct (skipn 64 b) as [|x [|? ?]] eqn:E64; try (cbn in L64; lia).
  assert (Lo : len (firstn 32 b) = 32%nat) by (rewrite firstn_length; lia).
  assert (Ln : len (firstn 32 (skipn 32 b)) = 32%nat) by (rewrite firstn_length, skipn_length; lia).
  assert (Hx : is_byte x).
  { assert (X : is_bytes [x]) by (rewrite <- E64; now apply is_bytes_skipn). now inversion X. }
  set (o := firstn 32 b) in *. set (n := firstn 32 (skipn 32 b)) in *.
  assert (Eo : slice 0 32 b = Ok o) by (rewrite <- HS; now apply slice_app).
  assert (En : slice 32 64 b = Ok n) by (rewrite <- HS; apply slice_exact; lia).
  assert (Ei : index b 64 = Ok x).
  { unfold index. rewrite <- HS. rewrite nth_error_app2 by lia. rewrite nth_error_app2 by lia. rewrite Lo, Ln. reflexivity. }
  rewrite Eo, En, Ei. cbn [rbind]. exists ((Z.to_nat x, o, n) :: t). cbn [map fst snd].
  split; [reflexivity|]. split.
  - f_equal; [|exact E2]. unfold raw_record. unfold is_byte in Hx. rewrite Z2Nat.id by lia. symmetry. exact HS.
  - constructor; [|exact E3]. cbn [fst snd]. unfold is_byte in Hx. split; [lia|]. now split.
Qed.
Lemma deser_sparse_total b : is_bytes b ->
  ((len b < 64)%nat /\ deserialize_update_commitment_sparse b = Panic) \/
  ((64 <= len b)%nat /\ ((len b - 64) mod 65 <> 0)%nat /\
     deserialize_update_commitment_sparse b =
       Ok (FErr_ (LengthIsNotAnExpectedMultiple "input for update commitment" 65 (Z.of_nat (len b) - 64)))) \/
  (exists c (t : list (nat * bytes * bytes)), len c = 64%nat /\
     b = c ++ concat (map (fun e => raw_record (fst (fst e)) (snd (fst e)) (snd e)) t) /\
     Forall (fun e => (fst (fst e) < 256)%nat /\ len (snd (fst e)) = 32%nat /\ len (snd e) = 32%nat) t /\
     deserialize_update_commitment_sparse b = Ok (FOk (c, map (fun e => fst (fst e)) t, map (fun e => snd (fst e)) t, map snd t))).
Proof.
  intro Hb. unfold deserialize_update_commitment_sparse. destruct (Nat.lt_ge_cases (len b) 64) as [Hs|Hs].
  - left. split; [exact Hs|]. unfold slice. replace (64 <=? len b)%nat with false by (symmetry; apply Nat.leb_gt; lia). reflexivity.
  - right. unfold slice, slice_from. replace (64 <=? len b)%nat with true by (symmetry; apply Nat.leb_le; lia). cbn [Nat.leb andb rbind].
    change (64 - 0)%nat with 64%nat. change (skipn 0 b) with b.
    rewrite skipn_length.
    destruct (Z.of_nat (len b - 64) mod 65 =? 0) eqn:EM; cbn [negb].
    + right. apply (mod_multiple 65) in EM as (n & En); [|lia].
      destruct (chunks_inv 65 ltac:(lia) n (skipn 64 b)) as (K1 & K2 & K3). { rewrite skipn_length. exact En. }
      destruct (sparse_items_raw (chunks_exact 65 (skipn 64 b))) as (t & T1 & T2 & T3); [|exact K2|].
      { apply is_bytes_chunks. now apply is_bytes_skipn. }
      exists (firstn 64 b), t. rewrite firstn_length. split; [lia|]. split.
      { rewrite <- T2, K1. symmetry. apply firstn_skipn. }
      split; [exact T3|]. rewrite T1. reflexivity.
    + left. split; [exact Hs|]. split.
      * intro X. rewrite <- not_true_iff_false in EM. apply EM. apply (mod_multiple 65); [lia|].
        exists ((len b - 64) / 65)%nat. pose proof (Nat.div_mod (len b - 64) 65 ltac:(lia)). lia.
      * do 3 f_equal. lia.
Qed.

(** Panics of the sparse update. *)
Lemma sparse_bad_scalar cx old g i is_ o os n ns : eu_de old = Some g -> sc_de o = None \/ sc_de n = None ->
  update_commitment_sparse cx old (i :: is_) (o :: os) (n :: ns) = Panic.
Proof.
  intros Ho Hb. unfold update_commitment_sparse. rewrite Ho. cbn [unwrap rbind sparse_deltas index nth_error].
  destruct Hb as [-> | ->]; [reflexivity|]. destruct (sc_de o); reflexivity.
Qed.
Lemma sparse_short cx old is_ olds news g : eu_de old = Some g -> (len olds < len is_)%nat \/ (len news < len is_)%nat ->
  update_commitment_sparse cx old is_ olds news = Panic.
Proof.
  intros Ho Hs. unfold update_commitment_sparse. rewrite Ho. cbn [unwrap rbind].
  enough (E : sparse_deltas 0 is_ olds news = Panic) by now rewrite E.
  assert (G1 : forall l k, (len olds < k + len l)%nat \/ (len news < k + len l)%nat -> (len l > 0)%nat -> sparse_deltas k l olds news = Panic).
  { induction l as [|i l IH]; intros k Hk Hpos; [cbn in Hpos; lia|]. cbn [sparse_deltas List.length] in *. unfold index.
    destruct (nth_error olds k) as [o|] eqn:Eo; [|reflexivity]. cbn [unwrap rbind].
    destruct (sc_de o); [|reflexivity]. cbn [unwrap rbind].
    destruct (nth_error news k) as [n|] eqn:En; [|reflexivity]. cbn [unwrap rbind].
    destruct (sc_de n); [|reflexivity]. cbn [unwrap rbind].
    assert (k < len olds)%nat by (apply nth_error_Some; congruence).
    assert (k < len news)%nat by (apply nth_error_Some; congruence).
    rewrite IH; [reflexivity|lia|lia]. }
  apply G1; [cbn; lia|lia].
Qed.
Lemma sparse_bad_index cx old is_ olds news i : context_new = Ok cx -> In i is_ -> (256 <= i)%nat ->
  update_commitment_sparse cx old is_ olds news = Panic.
Proof.
  intros Hc Hin Hi. apply context_inv in Hc as (_ & E2 & _). unfold update_commitment_sparse.
  destruct (eu_de old); [|reflexivity]. cbn [unwrap rbind].
  destruct (sparse_deltas 0 is_ olds news) as [ds|] eqn:ED; [|reflexivity]. cbn [rbind].
  assert (G1 : forall l k ds, sparse_deltas k l olds news = Ok ds -> map snd ds = l).
  { induction l as [|j l IH]; intros k ds' E; [injection E as <-; reflexivity|]. cbn [sparse_deltas] in E.
    apply rbind_ok in E as (? & _ & E). apply rbind_ok in E as (? & _ & E). apply rbind_ok in E as (? & _ & E). apply rbind_ok in E as (? & _ & E).
    apply rbind_ok in E as (r & Er & E). injection E as <-. cbn [map snd]. f_equal. now apply IH in Er. }
  apply G1 in ED. rewrite <- ED in Hin. apply in_map_iff in Hin as ((d & j) & Ej & Hin). cbn in Ej. subst j.
  rewrite (commit_sparse_panic Gs _ ds d i E2 Hin); [reflexivity|]. rewrite Gs_len. exact Hi.
Qed.

(** ** Queries *)
Lemma take_el_ok g r : take_group_element (el_ser g ++ r) = Ok (g, r).
Proof. unfold take_group_element. rewrite slice_app by apply el_len. cbn [rbind]. rewrite el_rt. cbn [unwrap rbind]. now rewrite slice_from_app by apply el_len. Qed.
Lemma take_eu_ok g r : take_uncompressed_group_element (eu_ser g ++ r) = Ok (g, r).
Proof. unfold take_uncompressed_group_element. rewrite slice_app by apply eu_len. cbn [rbind]. rewrite eu_rt. cbn [unwrap rbind]. now rewrite slice_from_app by apply eu_len. Qed.
Lemma take_sc_ok x r : take_scalar (sc_ser x ++ r) = Ok (x, r).
Proof. unfold take_scalar. rewrite slice_app by apply sc_len. cbn [rbind]. rewrite sc_rt. cbn [unwrap rbind]. now rewrite slice_from_app by apply sc_len. Qed.
Lemma take_byte_ok z r : take_byte (z :: r) = Ok (z, r).
Proof. reflexivity. Qed.
Lemma take_scalars_ok v r : take_scalars (len v) (scalars_bytes v ++ r) = Ok (v, r).
Proof.
  induction v as [|x v IH]; [reflexivity|]. cbn [List.length take_scalars]. unfold scalars_bytes. cbn [map concat].
  rewrite <- app_assoc, take_sc_ok. cbn [rbind]. fold (scalars_bytes v). rewrite IH. reflexivity.
Qed.
Lemma pq_with_ok take ser q : (forall r, take (ser ++ r) = Ok (pq_comm q, r)) -> len (pq_poly q) = 256%nat ->
  proof_query_with take (ser ++ scalars_bytes (pq_poly q) ++ [pq_point q] ++ sc_ser (pq_result q)) = Ok q.
Proof.
  intros Ht Hl. unfold proof_query_with. rewrite Ht. cbn [rbind]. rewrite <- Hl, take_scalars_ok. cbn [rbind app].
  rewrite take_byte_ok. cbn [rbind]. rewrite <- (app_nil_r (sc_ser _)), take_sc_ok. cbn [rbind]. destruct q; reflexivity.
Qed.
Lemma pq_ok q : len (pq_poly q) = 256%nat -> deserialize_proof_query (prover_record q) = Ok q.
Proof. apply pq_with_ok. intro. apply take_el_ok. Qed.
Lemma pqu_ok q : len (pq_poly q) = 256%nat -> deserialize_proof_query_uncompressed (prover_record_uncompressed q) = Ok q.
Proof. apply pq_with_ok. intro. apply take_eu_ok. Qed.
Lemma vq_with_ok take ser c z y : (forall r, take (ser ++ r) = Ok (c, r)) ->
  verifier_query_with take (ser ++ [z] ++ sc_ser y) = Ok (mkVQ c (of_Z z) y).
Proof.
  intros Ht. unfold verifier_query_with. rewrite Ht. cbn [rbind app]. rewrite take_byte_ok. cbn [rbind].
  rewrite <- (app_nil_r (sc_ser _)), take_sc_ok. reflexivity.
Qed.
Lemma vq_ok c z y : deserialize_verifier_query (verifier_record c z y) = Ok (mkVQ c (of_Z z) y).
Proof. apply vq_with_ok. intro. apply take_el_ok. Qed.
Lemma vqu_ok c z y : deserialize_verifier_query_uncompressed (verifier_record_uncompressed c z y) = Ok (mkVQ c (of_Z z) y).
Proof. apply vq_with_ok. intro. apply take_eu_ok. Qed.

Lemma slice_take (b : bytes) n x : slice 0 n b = Ok x -> slice_from n b = Ok (skipn n b).
Proof.
  unfold slice, slice_from. destruct (n <=? len b)%nat; [reflexivity|]. rewrite andb_false_r. discriminate.
Qed.
Lemma take_el_inv b g r : is_bytes b -> take_group_element b = Ok (g, r) -> b = el_ser g ++ r /\ is_bytes r.
Proof.
  intros Hb E. unfold take_group_element in E. apply rbind_ok in E as (c & Ec & E). rewrite (slice_take _ _ _ Ec) in E.
  destruct (slice_inv _ _ _ Ec) as [Eb Lc].
  destruct (el_de c) as [g'|] eqn:Eg; [|discriminate]. cbn in E. injection E as <- <-.
  assert (is_bytes (skipn 32 b)) by now apply is_bytes_skipn.
  split; [|assumption]. rewrite Eb at 1. f_equal. symmetry. apply el_canon; try assumption. rewrite Eb in Hb. now apply is_bytes_app in Hb.
Qed.
Lemma take_sc_inv b x r : is_bytes b -> take_scalar b = Ok (x, r) -> b = sc_ser x ++ r /\ is_bytes r.
Proof.
  intros Hb E. unfold take_scalar in E. apply rbind_ok in E as (c & Ec & E). rewrite (slice_take _ _ _ Ec) in E.
  destruct (slice_inv _ _ _ Ec) as [Eb Lc].
  destruct (sc_de c) as [g'|] eqn:Eg; [|discriminate]. cbn in E. injection E as <- <-.
  assert (is_bytes (skipn 32 b)) by now apply is_bytes_skipn.
  split; [|assumption]. rewrite Eb at 1. f_equal. symmetry. apply sc_canon; try assumption. rewrite Eb in Hb. now apply is_bytes_app in Hb.
Qed.
Lemma take_byte_inv b x r : is_bytes b -> take_byte b = Ok (x, r) -> b = x :: r /\ is_byte x /\ is_bytes r.
Proof.
  intros Hb E. destruct b as [|y b]; [discriminate|]. cbn in E. injection E as <- <-. inversion Hb; subst. repeat split; try assumption; apply H2.
Qed.
Lemma take_scs_inv n : forall b v r, is_bytes b -> take_scalars n b = Ok (v, r) -> b = scalars_bytes v ++ r /\ len v = n /\ is_bytes r.
Proof.
  induction n as [|n IH]; intros b v r Hb E; cbn [take_scalars] in E.
  - injection E as <- <-. now repeat split.
  - apply rbind_ok in E as ((x & b1) & E1 & E). apply rbind_ok in E as ((xs & b2) & E2 & E). injection E as <- <-.
    apply take_sc_inv in E1 as [-> Hb1]; [|exact Hb]. apply IH in E2 as (-> & Hl & Hb2); [|exact Hb1].
    unfold scalars_bytes. cbn [map concat List.length]. rewrite <- app_assoc. repeat split; [lia|exact Hb2].
Qed.
Lemma pq_inv b q : is_bytes b -> deserialize_proof_query b = Ok q -> b = prover_record q /\ record_fits q.
Proof.
  intros Hb E. unfold deserialize_proof_query, proof_query_with in E.
  apply rbind_ok in E as ((c & b1) & E1 & E). apply take_el_inv in E1 as [-> Hb1]; [|exact Hb].
  apply rbind_ok in E as ((v & b2) & E2 & E). apply take_scs_inv in E2 as (-> & Hv & Hb2); [|exact Hb1].
  apply rbind_ok in E as ((z & b3) & E3 & E). apply take_byte_inv in E3 as (-> & Hz & Hb3); [|exact Hb2].
  apply rbind_ok in E as ((y & b4) & E4 & E). apply take_sc_inv in E4 as [-> Hb4]; [|exact Hb3].
  destruct b4; [|discriminate]. injection E as <-. split.
  - unfold prover_record. cbn [pq_comm pq_poly pq_point pq_result]. now rewrite app_nil_r.
  - split; cbn; [exact Hv|]. unfold is_byte in Hz. lia.
Qed.
Lemma vq_inv b q : is_bytes b -> deserialize_verifier_query b = Ok q ->
  exists c z y, b = verifier_record c z y /\ 0 <= z < 256 /\ q = mkVQ c (of_Z z) y.
Proof.
  intros Hb E. unfold deserialize_verifier_query, verifier_query_with in E.
  apply rbind_ok in E as ((c & b1) & E1 & E). apply take_el_inv in E1 as [-> Hb1]; [|exact Hb].
  apply rbind_ok in E as ((z & b3) & E3 & E). apply take_byte_inv in E3 as (-> & Hz & Hb3); [|exact Hb1].
  apply rbind_ok in E as ((y & b4) & E4 & E). apply take_sc_inv in E4 as [-> Hb4]; [|exact Hb3].
  destruct b4; [|discriminate]. injection E as <-. exists c, z, y. rewrite app_nil_r. repeat split; unfold is_byte in Hz; lia.
Qed.

Lemma rmap_ok {X Y Z0} (f : Y -> res Z0) (g : X -> Y) (h : X -> Z0) l : (forall x, In x l -> f (g x) = Ok (h x)) -> rmap f (map g l) = Ok (map h l).
Proof.
  intro E. induction l as [|x l IH]; [reflexivity|]. cbn [map rmap]. rewrite E by now left. cbn [rbind].
  rewrite IH by (intros; apply E; now right). reflexivity.
Qed.
Lemma prover_len q : record_fits q -> len (prover_record q) = PROOF_CHUNK.
Proof.
  intros [Hl _]. unfold prover_record. rewrite !app_length, el_len, scalars_len, sc_len, Hl. cbn [List.length].
  apply Nat2Z.inj. unfold PROOF_CHUNK. rewrite Z2Nat.id by lia. lia.
Qed.
Lemma verifier_len c z y : len (verifier_record c z y) = 65%nat.
Proof. unfold verifier_record. rewrite !app_length, el_len, sc_len. reflexivity. Qed.

Lemma create_parse order cx qs : Forall record_fits qs ->
  ffi_create_proof order cx (concat (map prover_record qs)) =
  (let! (p, _) := mp_open order (cx_crs cx) (cx_pw cx) (tr_new (lbl "verkle")) qs in Ok (FOk (mp_to_bytes p))).
Proof.
  intro HF. unfold ffi_create_proof.
  assert (HL : Forall (fun b => len b = PROOF_CHUNK) (map prover_record qs)).
  { rewrite Forall_forall in *. intros b Hb. apply in_map_iff in Hb as (q & <- & Hq). apply prover_len. now apply HF. }
  assert (PC : (0 < PROOF_CHUNK)%nat) by (unfold PROOF_CHUNK; lia).
  replace (Z.of_nat (len (concat (map prover_record qs))) mod 8257 =? 0) with true.
  2:{ symmetry. replace 8257 with (Z.of_nat PROOF_CHUNK) by (unfold PROOF_CHUNK; lia).
      apply mod_multiple; [exact PC|]. rewrite (concat_len PROOF_CHUNK) by exact HL. eauto. }
  cbn [negb]. rewrite chunks_concat by assumption.
  rewrite (rmap_ok deserialize_proof_query prover_record (fun q => q)).
  - rewrite map_id. reflexivity.
  - intros q Hq. apply pq_ok. rewrite Forall_forall in HF. now apply HF.
Qed.

Lemma verify_parse cx p cs : rounds (mp_ipa p) 8 ->
  ffi_verify_proof cx (mp_to_bytes p ++ concat (map claim_record cs)) =
  (let! ok := mp_check p (cx_crs cx) (cx_pw cx) (map claim_query cs) (tr_new (lbl "verkle")) in
   Ok (if ok then FOk tt else FErr_ ProofVerificationFailed)).
Proof.
  intro HR. unfold ffi_verify_proof.
  assert (Lp : len (mp_to_bytes p) = 576%nat) by (rewrite (mp_bytes_len p 8 HR); reflexivity).
  rewrite slice_app by exact Lp. cbn [rbind].
  replace 256%nat with (2 ^ 8)%nat by reflexivity.
  rewrite mp_rt; [|rewrite log2_up_pow; exact HR|rewrite log2_up_pow; unfold rounds_fit; lia].
  cbn [rbind unwrap]. rewrite slice_from_app by exact Lp. cbn [rbind].
  assert (HF : Forall (fun b => len b = 65%nat) (map claim_record cs)).
  { apply Forall_forall. intros b Hb. apply in_map_iff in Hb as (x & <- & _). apply verifier_len. }
  replace (Z.of_nat (len (concat (map claim_record cs))) mod 65 =? 0) with true.
  2:{ symmetry. apply (mod_multiple 65); [lia|]. rewrite (concat_len 65) by exact HF. eauto. }
  cbn [negb]. rewrite chunks_concat by (try exact HF; lia).
  rewrite (rmap_ok deserialize_verifier_query claim_record claim_query); [reflexivity|]. intros. apply vq_ok.
Qed.

(** Created proofs have one round per halving. *)
Lemma create_rounds_len k : forall tr a b GG Q Ls Rs a0 tr', create_rounds k tr a b GG Q = Ok (Ls, Rs, a0, tr') -> len Ls = k /\ len Rs = k.
Proof.
  induction k as [|k IH]; intros tr a b GG Q Ls Rs a0 tr' E; cbn [create_rounds] in E.
  - apply rbind_ok in E as (x & _ & E). injection E as <- <- _ _. now split.
  - destruct (halve a) as [a1 a2], (halve b) as [b1 b2], (halve GG) as [G1 G2].
    apply rbind_ok in E as (Lk & _ & E). apply rbind_ok in E as (Rk & _ & E).
    destruct (challenge_scalar _ _) as [x tr1]. apply rbind_ok in E as (? & _ & E). apply rbind_ok in E as (? & _ & E).
    apply rbind_ok in E as (? & _ & E). apply rbind_ok in E as (? & _ & E). apply rbind_ok in E as ((((Ls1 & Rs1) & a1') & tr2) & ER & E).
    injection E as <- <- _ _. apply IH in ER as [E1 E2]. cbn [List.length]. lia.
Qed.
Lemma open_rounds order crs0 pw tr qs p s : mp_open order crs0 pw tr qs = Ok (p, s) -> rounds (mp_ipa p) (log2_up (len (crs_G crs0))).
Proof.
  intro E. unfold mp_open in E. cbn zeta in E.
  destruct (challenge_scalar (fold_left _ qs _) _) as [r tr1].
  apply rbind_ok in E as (? & _ & E). apply rbind_ok in E as (? & _ & E).
  destruct (challenge_scalar (append_point tr1 _ _) _) as [t tr2].
  apply rbind_ok in E as (? & _ & E). apply rbind_ok in E as ((ipa & tr3) & E1 & E). injection E as <- _. cbn [mp_ipa].
  unfold open_point_outside_of_domain in E1. apply rbind_ok in E1 as (? & _ & E1). unfold ipa_create in E1. cbn zeta in E1.
  apply rbind_ok in E1 as (? & _ & E1). apply rbind_ok in E1 as (? & _ & E1). apply rbind_ok in E1 as (? & _ & E1).
  destruct (challenge_scalar _ (lbl "w")) as [w tr4]. apply rbind_ok in E1 as ((((Ls & Rs) & a0) & tr5) & E2 & E1). injection E1 as <- _.
  unfold rounds. cbn [ipa_L ipa_R]. eapply create_rounds_len. exact E2.
Qed.

(** Parsing and proving put together. *)
Lemma end_to_end cx order qs : context_new = Ok cx -> domain_fits 256 -> (forall l, Permutation (order l) l) ->
  qs <> [] -> Forall record_fits qs -> Forall (good_query 256 Gs) qs ->
  outside_domain 256 (mp_honest_t 256 verkle_tr trie_crs qs) ->
  (Forall (fun x => x <> fzero) (mp_honest_challenges 8 verkle_tr trie_crs qs) -> exists out,
     ffi_create_proof order cx (concat (map prover_record qs)) = Ok (FOk out) /\
     len out = 576%nat /\
     ffi_verify_proof cx (out ++ concat (map claim_record (map claim_of qs))) = Ok (FOk tt)) /\
  (~ Forall (fun x => x <> fzero) (mp_honest_challenges 8 verkle_tr trie_crs qs) ->
     ffi_create_proof order cx (concat (map prover_record qs)) = Panic).
Proof.
  intros Hc D Ho Hne Hf Hg Ht. rewrite create_parse by exact Hf. apply context_inv in Hc as (E1 & E2 & E3). rewrite E1.
  destruct (multi_theorem 256 8 (cx_pw cx) trie_crs D eq_refl eq_refl Gs_len E3 order verkle_tr qs Ho Hne Hg Ht) as [M1 M2].
  change (tr_new (lbl "verkle")) with verkle_tr. split.
  - intro Hx. destruct (M1 Hx) as (p & s & Eo & Ck). rewrite Eo. cbn [rbind]. exists (mp_to_bytes p). split; [reflexivity|].
    pose proof (open_rounds _ _ _ _ _ _ _ Eo) as HR. rewrite Gs_len in HR.
    assert (HR8 : rounds (mp_ipa p) 8) by (replace 8%nat with (log2_up 256) by reflexivity; exact HR).
    split; [rewrite (mp_bytes_len p 8 HR8); reflexivity|].
    rewrite verify_parse by exact HR8. rewrite map_map, E1.
    rewrite (map_ext (fun q => claim_query (claim_of q)) public_query) by reflexivity.
    change (tr_new (lbl "verkle")) with verkle_tr. rewrite Ck. reflexivity.
  - intro Hx. now rewrite (M2 Hx).
Qed.

(** ** Malformed proof requests *)
Lemma create_wrong_length order cx b : (Z.of_nat (len b) mod 8257 <> 0) ->
  ffi_create_proof order cx b = Ok (FErr_ (LengthIsNotAnExpectedMultiple "Input length for proof" 8257 (Z.of_nat (len b)))).
Proof. intro E. unfold ffi_create_proof. apply Z.eqb_neq in E. now rewrite E. Qed.
Lemma create_bad_element order cx b r : len b = PROOF_CHUNK -> (Z.of_nat (len r) mod 8257 = 0) -> el_de (firstn 32 b) = None ->
  ffi_create_proof order cx (b ++ r) = Panic.
Proof.
  intros Hb Hr He. unfold ffi_create_proof. assert (PC : (0 < PROOF_CHUNK)%nat) by (unfold PROOF_CHUNK; lia).
  rewrite app_length, Hb, Nat2Z.inj_add. replace (Z.of_nat PROOF_CHUNK) with (1 * 8257) by (unfold PROOF_CHUNK; lia).
  rewrite Z.add_comm, Z.mod_add by lia. rewrite Hr. cbn [Z.eqb negb]. rewrite chunks_cons by assumption.
  cbn [rmap]. unfold deserialize_proof_query, proof_query_with, take_group_element, slice.
  replace (32 <=? len b)%nat with true by (symmetry; apply Nat.leb_le; rewrite Hb; unfold PROOF_CHUNK; lia).
  cbn [Nat.leb andb rbind]. change (32 - 0)%nat with 32%nat. change (skipn 0 b) with b. now rewrite He.
Qed.
Lemma create_empty order cx : context_new = Ok cx -> order [] = [] -> ffi_create_proof order cx [] = Panic.
Proof.
  intros Hc Ho. apply context_inv in Hc as (E1 & _ & _). unfold ffi_create_proof.
  change (negb (Z.of_nat (len (@nil Z)) mod 8257 =? 0)) with false. cbv iota.
  rewrite chunks_nil by (cbn; unfold PROOF_CHUNK; lia). cbn [rmap rbind]. unfold mp_open. cbn zeta.
  destruct (challenge_scalar _ _) as [r tr]. unfold group_prover_queries. cbn [combine fold_left]. rewrite Ho.
  cbn [map rmap rbind fold_left]. unfold commit_lagrange_poly, msm. rewrite E1, Gs_len. reflexivity.
Qed.
Lemma verify_short cx b : (len b < 576)%nat -> ffi_verify_proof cx b = Panic.
Proof.
  intro Hs. unfold ffi_verify_proof, slice. replace (576 <=? len b)%nat with false by (symmetry; apply Nat.leb_gt; lia).
  now rewrite andb_false_r.
Qed.
Lemma verify_undecodable cx b : (forall p, rounds (mp_ipa p) 8 -> firstn 576 b <> mp_to_bytes p) -> is_bytes b -> ffi_verify_proof cx b = Panic.
Proof.
  intros N Hb. unfold ffi_verify_proof, slice. destruct (Nat.leb_spec 576 (len b)) as [Hl|Hl]; [|reflexivity]. cbn [Nat.leb andb rbind].
  change (576 - 0)%nat with 576%nat. change (skipn 0 b) with b.
  destruct (mp_from_bytes (firstn 576 b) 256) as [[p|]|] eqn:E; [|reflexivity|reflexivity]. exfalso.
  apply mp_accept in E as [E HR]; [|now apply is_bytes_firstn|].
  - apply (N p); [exact HR|]. symmetry. exact E.
  - rewrite firstn_length. lia.
Qed.
Lemma verify_wrong_length cx p r : rounds (mp_ipa p) 8 -> Z.of_nat (len r) mod 65 <> 0 ->
  ffi_verify_proof cx (mp_to_bytes p ++ r) = Ok (FErr_ (LengthIsNotAnExpectedMultiple "Verifier queries" 65 (Z.of_nat (len r)))).
Proof.
  intros HR Hr. unfold ffi_verify_proof.
  assert (Lp : len (mp_to_bytes p) = 576%nat) by (rewrite (mp_bytes_len p 8 HR); reflexivity).
  rewrite slice_app by exact Lp. cbn [rbind]. replace 256%nat with (2 ^ 8)%nat by reflexivity.
  rewrite mp_rt; [|rewrite log2_up_pow; exact HR|rewrite log2_up_pow; unfold rounds_fit; lia].
  cbn [rbind unwrap]. rewrite slice_from_app by exact Lp. cbn [rbind]. apply Z.eqb_neq in Hr. now rewrite Hr.
Qed.

(** ** Statements *)
Lemma commit_few split cx v c : context_new = Ok cx -> commit_to_scalars split cx (scalars_bytes v) = Ok (FOk c) ->
  (len v <= 256)%nat /\ eu_de c = Some (combination v Gs).
Proof.
  intros Hc E. destruct (Nat.le_gt_cases (len v) 256) as [Hv|Hv].
  - rewrite (commit_ok split cx v Hc Hv) in E. inversion E; subst. split; [exact Hv|apply eu_rt].
  - exfalso. unfold commit_to_scalars, commit_to_scalars_ in E. rewrite scalars_len in E.
    replace (Z.of_nat (len v * 32) mod 32 =? 0) with true in E.
    2:{ symmetry. apply (mod_multiple 32); [lia|]. eauto. }
    cbn [negb] in E. rewrite Nat2Z.inj_mul, Z.div_mul in E by lia.
    destruct (Z.ltb_spec 256 (Z.of_nat (len v))); [discriminate|lia].
Qed.
Lemma update_theorem cx split v c old i x w : context_new = Ok cx ->
  commit_to_scalars split cx (scalars_bytes v) = Ok (FOk c) -> eu_de old = eu_de c ->
  0 <= i < 256 -> nth_error v (Z.to_nat i) = Some x ->
  exists out, update_commitment cx old i (sc_ser x) (sc_ser w) = Ok (FOk out) /\
    forall split', commit_to_scalars split' cx (scalars_bytes (replace v (Z.to_nat i) w)) = Ok (FOk out).
Proof.
  intros Hc Hv Ho Hi Hx. destruct (commit_few _ _ _ _ Hc Hv) as [Hl Hd]. rewrite Hd in Ho.
  eexists. split; [apply (update_ok cx v); try assumption; lia|]. intro split'. apply commit_ok; [exact Hc|].
  rewrite replace_len; [exact Hl|]. apply nth_error_Some. congruence.
Qed.
Lemma sparse_theorem cx split v c old l : context_new = Ok cx ->
  commit_to_scalars split cx (scalars_bytes v) = Ok (FOk c) -> eu_de old = eu_de c -> changes_of v l ->
  exists out, (forall split', commit_to_scalars split' cx (scalars_bytes (replace_all v l)) = Ok (FOk out)) /\
    forall l', Permutation l l' ->
      update_commitment_sparse cx old (map ch_index l') (map (fun c => sc_ser (ch_old c)) l') (map (fun c => sc_ser (ch_new c)) l')
      = Ok (FOk out).
Proof.
  intros Hc Hv Ho Hl. destruct (commit_few _ _ _ _ Hc Hv) as [Hn Hd]. rewrite Hd in Ho.
  exists (eu_ser (combination (replace_all v l) Gs)). split.
  - intro split'. apply commit_ok; [exact Hc|]. now rewrite replace_all_len.
  - intros l' HP. rewrite (replace_all_perm v l l' HP Hl). apply sparse_ok; try assumption. now apply (changes_perm v l).
Qed.
Lemma sparse_request cx split v c old l : context_new = Ok cx ->
  commit_to_scalars split cx (scalars_bytes v) = Ok (FOk c) -> len old = 64%nat -> eu_de old = eu_de c -> changes_of v l ->
  exists a is_ os ns out,
    deserialize_update_commitment_sparse (old ++ concat (map change_record l)) = Ok (FOk (a, is_, os, ns)) /\
    update_commitment_sparse cx a is_ os ns = Ok (FOk out) /\
    commit_to_scalars split cx (scalars_bytes (replace_all v l)) = Ok (FOk out).
Proof.
  intros Hc Hv Hlen Ho Hl. destruct (sparse_theorem cx split v c old l Hc Hv Ho Hl) as (out & E1 & E2).
  exists old, (ch_indices l), (ch_olds l), (ch_news l), out. split; [now apply deser_sparse_rt|]. split; [|apply E1].
  apply E2. apply Permutation_refl.
Qed.
Lemma add_theorem cx split a b ca cb : context_new = Ok cx -> len a = len b ->
  commit_to_scalars split cx (scalars_bytes a) = Ok (FOk ca) -> commit_to_scalars split cx (scalars_bytes b) = Ok (FOk cb) ->
  exists out, add_commitment ca cb = Ok out /\
    commit_to_scalars split cx (scalars_bytes (map (fun '(x, y) => fadd x y) (combine a b))) = Ok (FOk out).
Proof.
  intros Hc Hl Ha Hb. destruct (commit_few _ _ _ _ Hc Ha) as [La Da]. destruct (commit_few _ _ _ _ Hc Hb) as [Lb Db].
  unfold add_commitment. rewrite Da, Db. cbn [unwrap rbind]. eexists. split; [reflexivity|].
  rewrite commit_ok; [|exact Hc|rewrite map_length, combine_length; lia]. now rewrite combination_add.
Qed.
Lemma root_round_trip c g : eu_de c = Some g -> exists b, serialize_commitment c = Ok b /\ len b = 32%nat /\
  exists c', deserialize_commitment b = FOk c' /\ eu_de c' = Some g.
Proof.
  intro E. unfold serialize_commitment. rewrite E. cbn [unwrap rbind]. exists (el_ser g). split; [reflexivity|]. split; [apply el_len|].
  exists (eu_ser g). unfold deserialize_commitment. rewrite el_rt. split; [reflexivity|apply eu_rt].
Qed.

(** The same up to the choice of coordinates. *)
Lemma same_ser g : same_commitment (eu_ser g) (eu_ser g).
Proof. exists g. split; apply eu_rt. Qed.
Lemma commit_same split cx v : context_new = Ok cx -> (len v <= 256)%nat ->
  exists out, commit_to_scalars split cx (scalars_bytes v) = Ok (FOk out) /\ eu_de out = Some (combination v Gs).
Proof. intros Hc Hv. eexists. split; [now apply commit_ok|apply eu_rt]. Qed.
Lemma commit_some split cx v out : context_new = Ok cx -> commit_to_scalars split cx (scalars_bytes v) = Ok (FOk out) -> same_commitment out out.
Proof. intros Hc E. destruct (commit_few _ _ _ _ Hc E) as [_ D]. eexists. split; exact D. Qed.
Lemma commit_total_same split cx b : context_new = Ok cx -> is_bytes b ->
  (exists v out, (len v <= 256)%nat /\ b = scalars_bytes v /\ commit_to_scalars split cx b = Ok (FOk out) /\ eu_de out = Some (combination v Gs)) \/
  ((forall v, (len v <= 256)%nat -> b <> scalars_bytes v) /\ exists e, commit_to_scalars split cx b = Ok (FErr_ e) /\
     (len b mod 32 <> 0 -> e = LengthOfScalarsNotMultipleOf32 (Z.of_nat (len b)))%nat /\
     (len b mod 32 = 0 -> 256 * 32 < len b -> e = TooManyScalars 256 (Z.of_nat (len b) / 32))%nat /\
     (len b mod 32 = 0 -> len b <= 256 * 32 -> exists c, e = FailedToDeserializeScalar c /\ In c (chunks_exact 32 b) /\ sc_de c = None)%nat).
Proof.
  intros Hc Hb. destruct (commit_total split cx b Hc Hb) as [(v & Hv & E & K)|K]; [left|right; exact K].
  exists v, (eu_ser (combination v Gs)). repeat split; try assumption. apply eu_rt.
Qed.
Lemma update_same cx split v c old i x w : context_new = Ok cx ->
  commit_to_scalars split cx (scalars_bytes v) = Ok (FOk c) -> same_commitment old c ->
  0 <= i < 256 -> nth_error v (Z.to_nat i) = Some x ->
  exists out, update_commitment cx old i (sc_ser x) (sc_ser w) = Ok (FOk out) /\
    forall split', exists c', commit_to_scalars split' cx (scalars_bytes (replace v (Z.to_nat i) w)) = Ok (FOk c') /\ same_commitment out c'.
Proof.
  intros Hc Hv (g & O1 & O2) Hi Hx. destruct (update_theorem cx split v c old i x w Hc Hv ltac:(congruence) Hi Hx) as (out & E & K).
  exists out. split; [exact E|]. intro sp. exists out. split; [apply K|]. eapply commit_some; [exact Hc|apply (K sp)].
Qed.
Lemma sparse_same cx split v c old l : context_new = Ok cx ->
  commit_to_scalars split cx (scalars_bytes v) = Ok (FOk c) -> same_commitment old c -> changes_of v l ->
  forall l', Permutation l l' -> exists out,
    update_commitment_sparse cx old (map ch_index l') (map (fun c => sc_ser (ch_old c)) l') (map (fun c => sc_ser (ch_new c)) l')
    = Ok (FOk out) /\
    forall split', exists c', commit_to_scalars split' cx (scalars_bytes (replace_all v l)) = Ok (FOk c') /\ same_commitment out c'.
Proof.
  intros Hc Hv (g & O1 & O2) Hl l' Hp. destruct (sparse_theorem cx split v c old l Hc Hv ltac:(congruence) Hl) as (out & K1 & K2).
  exists out. split; [now apply K2|]. intro sp. exists out. split; [apply K1|]. eapply commit_some; [exact Hc|apply (K1 sp)].
Qed.
Lemma sparse_request_same cx split v c old l : context_new = Ok cx ->
  commit_to_scalars split cx (scalars_bytes v) = Ok (FOk c) -> len old = 64%nat -> same_commitment old c -> changes_of v l ->
  exists a is_ os ns out c',
    deserialize_update_commitment_sparse (old ++ concat (map change_record l)) = Ok (FOk (a, is_, os, ns)) /\
    update_commitment_sparse cx a is_ os ns = Ok (FOk out) /\
    commit_to_scalars split cx (scalars_bytes (replace_all v l)) = Ok (FOk c') /\ same_commitment out c'.
Proof.
  intros Hc Hv Hlen (g & O1 & O2) Hl. destruct (sparse_request cx split v c old l Hc Hv Hlen ltac:(congruence) Hl) as (a & is_ & os & ns & out & K1 & K2 & K3).
  exists a, is_, os, ns, out, out. repeat split; try assumption. eapply commit_some; eassumption.
Qed.
Lemma add_same cx split a b ca cb ca' cb' : context_new = Ok cx -> len a = len b ->
  commit_to_scalars split cx (scalars_bytes a) = Ok (FOk ca) -> commit_to_scalars split cx (scalars_bytes b) = Ok (FOk cb) ->
  same_commitment ca' ca -> same_commitment cb' cb ->
  exists out c', add_commitment ca' cb' = Ok out /\
    commit_to_scalars split cx (scalars_bytes (map (fun '(x, y) => fadd x y) (combine a b))) = Ok (FOk c') /\ same_commitment out c'.
Proof.
  intros Hc Hl Ha Hb (g & A1 & A2) (h & B1 & B2). destruct (add_theorem cx split a b ca cb Hc Hl Ha Hb) as (out & K1 & K2).
  exists out, out. split; [|split; [exact K2|eapply commit_some; eassumption]].
  unfold add_commitment in *. now rewrite A1, B1, <- K1, A2, B2.
Qed.

Lemma create_accepted_inv order cx b out : is_bytes b -> ffi_create_proof order cx b = Ok (FOk out) ->
  exists qs, Forall record_fits qs /\ b = concat (map prover_record qs).
Proof.
  intros Hb E. unfold ffi_create_proof in E. assert (PC : (0 < PROOF_CHUNK)%nat) by (unfold PROOF_CHUNK; lia).
  destruct (Z.of_nat (len b) mod 8257 =? 0) eqn:EM; [|discriminate]. cbn [negb] in E.
  replace 8257 with (Z.of_nat PROOF_CHUNK) in EM by (unfold PROOF_CHUNK; lia).
  apply mod_multiple in EM as (n & En); [|exact PC]. destruct (chunks_inv PROOF_CHUNK PC n b En) as (K1 & K2 & _).
  apply rbind_ok in E as (qs & Eq & _). exists qs.
  assert (G1 : forall l qs, Forall is_bytes l -> rmap deserialize_proof_query l = Ok qs -> Forall record_fits qs /\ l = map prover_record qs).
  { induction l as [|c l IH]; intros qs' HB E; cbn [rmap] in E; [injection E as <-; split; [constructor|reflexivity]|].
    inversion HB; subst. apply rbind_ok in E as (q & E1 & E). apply rbind_ok in E as (r & E2 & E). injection E as <-.
    apply pq_inv in E1 as [-> Hf]; [|assumption]. apply IH in E2 as [Hr ->]; [|assumption]. split; [now constructor|reflexivity]. }
  apply G1 in Eq as [Hf Hm]; [|now apply is_bytes_chunks]. split; [exact Hf|]. rewrite <- Hm. symmetry. exact K1.
Qed.
Lemma verify_accepted_inv cx b : is_bytes b -> ffi_verify_proof cx b = Ok (FOk tt) ->
  exists p cs, rounds (mp_ipa p) 8 /\ b = mp_to_bytes p ++ concat (map claim_record cs) /\
    Forall (fun c => 0 <= snd (fst c) < 256) cs /\
    mp_check p (cx_crs cx) (cx_pw cx) (map claim_query cs) verkle_tr = Ok true.
Proof.
  intros Hb E. unfold ffi_verify_proof in E. apply rbind_ok in E as (pb & Es & E). apply rbind_ok in E as (o & Ep & E).
  destruct o as [p|]; [|discriminate]. cbn [unwrap rbind] in E. rewrite (slice_take _ _ _ Es) in E. cbn [rbind] in E.
  destruct (slice_inv _ _ _ Es) as [Eb Lp].
  assert (Bp : is_bytes pb /\ is_bytes (skipn 576 b)) by (apply is_bytes_app; rewrite <- Eb; exact Hb). destruct Bp as [Bp Br].
  apply mp_accept in Ep as [Ep HR]; [|exact Bp|rewrite Lp; reflexivity].
  destruct (Z.of_nat (len (skipn 576 b)) mod 65 =? 0) eqn:EM; [|discriminate]. cbn [negb] in E.
  apply (mod_multiple 65) in EM as (n & En); [|lia]. destruct (chunks_inv 65 ltac:(lia) n _ En) as (K1 & K2 & _).
  apply rbind_ok in E as (qs & Eq & E). apply rbind_ok in E as (ok & Ck & E). destruct ok; [|discriminate].
  assert (G1 : forall l qs, Forall is_bytes l -> rmap deserialize_verifier_query l = Ok qs ->
     exists cs, Forall (fun c : claim => 0 <= snd (fst c) < 256) cs /\ l = map claim_record cs /\ qs = map claim_query cs).
  { induction l as [|c l IH]; intros qs' HB Er; cbn [rmap] in Er.
    - injection Er as <-. exists []. repeat split. constructor.
    - inversion HB; subst. apply rbind_ok in Er as (q & E1 & Er). apply rbind_ok in Er as (r & E2 & Er). injection Er as <-.
      apply vq_inv in E1 as (g & z & y & -> & Hz & ->); [|assumption]. apply IH in E2 as (cs & Hf & -> & ->); [|assumption].
      exists ((g, z, y) :: cs). split; [constructor; [exact Hz|exact Hf]|]. split; reflexivity. }
  apply G1 in Eq as (cs & Hf & Hm & Hq); [|now apply is_bytes_chunks].
  exists p, cs. split; [exact HR|]. split; [|split; [exact Hf|]].
  - rewrite <- Hm, K1, Ep. exact Eb.
  - rewrite <- Hq. exact Ck.
Qed.
End Ffi.
