(** What a write to the database returns. *)
From Verif Require Import Base BaseFacts Alg TrieModel CodecModel VerkleDbModel WriteSpec.

Section WriteProofs.
Context {A : Alg} {P : Par A} {C : Codec A}.

Lemma mem_returns (db : MemoryDb) :
  (forall k v d, get_leaf db k = Ok (snd (insert_leaf db k v d))) /\
  (forall s m d, get_stem_meta db s = Ok (snd (insert_stem db s m d))) /\
  (forall p i s d, get_branch_child db p i = Ok (snd (add_stem_as_branch_child db (p ++ [i]) s d))) /\
  (forall p m d o, get_branch_meta db p = Ok o -> snd (insert_branch db p m d) = o) /\
  (forall p m d, get_branch_meta db p = Panic -> snd (insert_branch db p m d) = None).
Proof.
  repeat split; intros; cbn in *; unfold mem_get_branch_meta in *;
    destruct (branch_table db p) as [[s|b]|]; congruence.
Qed.

Lemma upd_dec {V} (m : bmap V) j v k : upd m j v k = if bytes_dec j k then Some v else m k.
Proof. destruct (bytes_dec j k) as [->|N]; [apply upd_same|now apply upd_other]. Qed.

Lemma batch_since l : forall v : VerkleDb,
  (forall k, leaf_table (vd_batch (wop_run v l)) k = leaf_since (leaf_table (vd_batch v) k) l k) /\
  (forall s, stem_table (vd_batch (wop_run v l)) s = stem_since (stem_table (vd_batch v) s) l s) /\
  (forall p, branch_table (vd_batch (wop_run v l)) p = child_since (branch_table (vd_batch v) p) l p).
Proof.
  induction l as [|o l IH]; intros v; [now repeat split|].
  change (wop_run v (o :: l)) with (wop_run (wop_step v o) l). destruct (IH (wop_step v o)) as (I1 & I2 & I3).
  destruct o; cbn [leaf_since stem_since child_since]; (split; [|split]); intros x; rewrite ?I1, ?I2, ?I3; cbn;
    rewrite ?upd_dec; reflexivity.
Qed.

Lemma disk_returns d l :
  let v := wop_run (verkle_open d) l in
  (forall k x n, snd (insert_leaf v k x n) = leaf_since None l k) /\
  (forall s m n, snd (insert_stem v s m n) = stem_since None l s) /\
  (forall p s n, snd (add_stem_as_branch_child v p s n) = child_since None l p) /\
  (forall p m n, snd (insert_branch v p m n) = branch_of (child_since None l p)).
Proof.
  intros v. destruct (batch_since l (verkle_open d)) as (I1 & I2 & I3). fold v in I1, I2, I3.
  split; [|split; [|split]].
  - intros k x n. exact (I1 k).
  - intros s m n. exact (I2 s).
  - intros p s n. exact (I3 p).
  - intros p m n. change (child_since None l p) with (child_since (branch_table (vd_batch (verkle_open d)) p) l p). rewrite <- I3. cbn.
    destruct (branch_table (vd_batch v) p) as [[s|b]|]; reflexivity.
Qed.

Lemma flushed_forgotten (d : Disk) k x y n : exists v,
  v = wop_run (verkle_open d) [WLeaf k x 0; WFlush] /\
  get_leaf v k = Ok (Some x) /\ snd (insert_leaf v k y n) = None.
Proof.
  eexists. split; [reflexivity|]. split; [|reflexivity].
  cbn. unfold vd_get_leaf. cbn. unfold mem_get_leaf. cbn. now rewrite upd_same.
Qed.
End WriteProofs.
