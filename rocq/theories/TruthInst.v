(** A tree whose commitments, hashes, stems and values can be told apart, and the proof made for five keys of it. *)
From Coq Require Import String Permutation.
From Verif Require Import Base BaseFacts Alg AlgFacts AlgInst TreeSpec TreeFacts TrieModel TrieProofs TrieTheorems BTree
  WireModel ProofModel ProofSpec PathProofs OpeningProofs VerifierProofs ProofTheorems ProofReject ProofRefute IpaModel LagrangeSpec LagrangeProofs
  IpaSpec MultiProofs TranscriptSpec IpaInst WireInst CheckProofs SoundSpec SoundIpa SoundMulti SoundCheck SoundHonest SoundInst TruthSpec TruthVerifier TruthFacts TruthProofs TruthTheorems ExData ProofExamples.
Local Open Scope list_scope.

Section Table.
Context {A : Alg} {L : AlgLaws A} {P : Par A} {PL : ParLaws P}.
Notation len := List.length.

(** Every node is found among the prefixes of the stems. *)
Definition nodeb (St : list bytes) (p : bytes) : bool :=
  internal St p || (match stem_at St p with Some _ => true | None => false end) ||
  (match stem_at St (removelast p) with Some _ => true | None => false end && ((last p 0 =? 2) || (last p 0 =? 3))).
Definition candidates (St : list bytes) : list bytes :=
  [] :: flat_map (fun s => flat_map (fun i => let q := firstn i s in if nodeb St q then q :: filter (nodeb St) [q ++ [2]; q ++ [3]] else []) (seq 0 32)) St.

Lemma prefix_candidate St p t : wfS St -> In t (under St p) -> exists i, (i < 32)%nat /\ In t St /\ p = firstn i t.
Proof.
  intros W H. apply under_In in H as [H1 H2]. exists (len p). pose proof (has_prefix_length _ _ H2) as X. rewrite (wfS_len St t W H1) in X.
  split; [lia|]. split; [exact H1|]. now apply has_prefix_eq.
Qed.
Lemma is_node_nodeb St p : is_node St p -> nodeb St p = true.
Proof.
  unfold nodeb. intros [H|[(t & H)|(q & t & H & Hp)]].
  - now rewrite H.
  - rewrite H. now rewrite orb_true_r.
  - assert (X : removelast p = q /\ (last p 0 = 2 \/ last p 0 = 3)).
    { destruct Hp as [->| ->]; rewrite removelast_last, last_last; auto. }
    destruct X as [-> X]. rewrite H. destruct X as [-> | ->]; now rewrite orb_true_r.
Qed.
Lemma is_node_candidate St p : wfS St -> is_node St p -> In p (candidates St).
Proof.
  intros W H. unfold candidates. destruct (list_eq_dec Z.eq_dec p []) as [->|Hne]; [now left|]. right.
  assert (X : forall i t, (i < 32)%nat -> In t St -> nodeb St (firstn i t) = true ->
     (p = firstn i t \/ ((p = firstn i t ++ [2] \/ p = firstn i t ++ [3]) /\ nodeb St p = true)) ->
     In p (flat_map (fun s => flat_map (fun i => let q := firstn i s in if nodeb St q then q :: filter (nodeb St) [q ++ [2]; q ++ [3]] else []) (seq 0 32)) St)).
  { intros i t Hi Ht Hb Hp. apply in_flat_map. exists t. split; [exact Ht|]. apply in_flat_map. exists i. split; [apply in_seq; lia|].
    cbv zeta. rewrite Hb. destruct Hp as [->|[Hp Hb']]; [now left|]. right. apply filter_In. split; [|exact Hb'].
    destruct Hp as [->| ->]; cbn [In]; auto. }
  pose proof (is_node_nodeb St p H) as Hb.
  destruct H as [H|[(t & H)|(q & t & H & Hp)]].
  - assert (U : exists t, In t (under St p)).
    { unfold internal in H. destruct p as [|b p]; [contradiction|]. destruct (under St (b :: p)) as [|t l]; [discriminate|]. exists t. now left. }
    destruct U as (t & U). destruct (prefix_candidate St p t W U) as (i & Hi & Ht & Ep).
    apply (X i t Hi Ht); [now rewrite <- Ep|now left].
  - apply stem_at_spec in H. destruct H as (_ & _ & U).
    destruct (prefix_candidate St p t W) as (i & Hi & Ht & Ep); [rewrite U; now left|].
    apply (X i t Hi Ht); [now rewrite <- Ep|now left].
  - pose proof H as H'. apply stem_at_spec in H. destruct H as (_ & _ & U).
    destruct (prefix_candidate St q t W) as (i & Hi & Ht & Ep); [rewrite U; now left|].
    apply (X i t Hi Ht).
    + rewrite <- Ep. apply is_node_nodeb. right. left. eauto.
    + right. split; [|exact Hb]. now rewrite <- Ep.
Qed.

(** The check. *)
Definition row := (G * F * (Z -> F))%type.
Definition rows (m : bytes -> option bytes) (St : list bytes) : list row :=
  (gzero, hash gzero, fun _ => fzero) ::
  map (fun p => let f := node_vec m St p in let c := vcommit f in (c, hash c, f)) (set_of (candidates St)).
Definition same_row (x y : row) : bool :=
  let '(c, h, f) := x in let '(c', h', g) := y in
  if feqb h h' then geqb c c' && forallb (fun i => feqb (f (Z.of_nat i)) (g (Z.of_nat i))) (seq 0 256) else true.
Definition row_apart (stems values : list bytes) (x : row) : bool :=
  let '(c, h, f) := x in
  negb (feqb h fone) &&
  (geqb c gzero || (forallb (fun t => negb (feqb h (of_Z (le_Z t)))) stems &&
    forallb (fun v => negb (feqb h (leaf_low (Some v))) && negb (feqb h (leaf_high (Some v)))) values)).
Fixpoint pairs {X} (r : X -> X -> bool) (l : list X) : bool :=
  match l with [] => true | x :: l' => forallb (r x) l' && pairs r l' end.
Definition idealb m St values : bool :=
  let rs := rows m St in pairs same_row rs && forallb (row_apart St values) rs.

Lemma same_row_spec c h f c' h' g : same_row (c, h, f) (c', h', g) = true -> h = h' -> c = c' /\ forall z, 0 <= z < 256 -> f z = g z.
Proof.
  intros E ->. cbn [same_row] in E. assert (X : feqb h' h' = true) by now apply feqb_true. rewrite X in E.
  apply andb_true_iff in E as [E1 E2]. split; [now apply geqb_true|]. intros z Hz. rewrite forallb_forall in E2.
  specialize (E2 (Z.to_nat z)). rewrite Z2Nat.id in E2 by lia. apply feqb_true, E2, in_seq. lia.
Qed.
Lemma pairs_spec {X} (r : X -> X -> bool) l : pairs r l = true -> forall x y, In x l -> In y l -> x = y \/ r x y = true \/ r y x = true.
Proof.
  induction l as [|a l IH]; intros E x y Hx Hy; [destruct Hx|]. cbn [pairs] in E. apply andb_true_iff in E as [E1 E2]. rewrite forallb_forall in E1.
  destruct Hx as [<-|Hx], Hy as [<-|Hy]; auto.
Qed.

(** The queries of a proof made for the tree open nodes of the tree. *)
Lemma honest_openings (db : MemoryDb) m St keys qs : Canon db m St -> Forall is_key keys ->
  Forall2 (opens m St) (all_entries St keys) qs -> Forall (fun x => is_node St (fst x)) (all_entries St keys) ->
  let vs := map (fun x => map (fun i => node_vec m St (fst x) (Z.of_nat i)) (seq 0 256)) (all_entries St keys) in
  let vqs := map (fun q => mkVQ (pq_comm q) (of_Z (pq_point q)) (pq_result q)) qs in
  Forall2 opening vqs vs /\
  forall c f, known m St vqs vs c f -> (c = gzero /\ (forall z, 0 <= z < 256 -> f z = fzero)) \/
    exists p, is_node St p /\ c = node_comm m St p /\ forall z, 0 <= z < 256 -> f z = node_vec m St p z.
Proof.
  intros C Hk Ho Hn.
  assert (En : forall p z, 0 <= z < 256 -> entry (map (fun i => node_vec m St p (Z.of_nat i)) (seq 0 256)) z = node_vec m St p z).
  { intros p z Hz. unfold entry. rewrite (nth_indep _ _ (node_vec m St p (Z.of_nat 0))) by (rewrite map_length, seq_length; lia).
    rewrite (map_nth (fun i => node_vec m St p (Z.of_nat i))), seq_nth by lia. f_equal. lia. }
  cbv zeta. split.
  - induction Ho as [|x q es qs (H1 & H2 & H3 & _ & Ht) Ho IH]; cbn [map]; constructor.
    + unfold opening. cbn [vq_comm vq_point vq_result]. split; [now rewrite map_length, seq_length|]. split.
      * rewrite H1. apply vcommit_ext. intros i Hi. symmetry. now apply En.
      * exists (pq_point q). destruct Ht as (_ & Hp & _). split; [exact Hp|]. split; [reflexivity|]. rewrite H3, <- H2. symmetry. now apply En.
    + apply IH. now inversion Hn.
  - intros c f K. destruct K as [q v Hin|p Hp|]; [right|right; exists p; auto|left; auto].
    revert Hn Hin. clear - Ho En. induction Ho as [|x q' es qs (H1 & _) Ho IH]; cbn [map combine In]; [intros _ []|].
    intros Hn [E|Hin]; [|apply IH; [now inversion Hn|exact Hin]]. apply Forall_inv in Hn.
    exists (fst x). split; [exact Hn|]. apply pair_equal_spec in E. destruct E as [<- <-]. cbn [vq_comm]. split; [exact H1|]. intros z Hz. now apply En.
Qed.

Lemma idealb_ok m St values qs vs : wfS St -> idealb m St values = true -> (forall k v, m k = Some v -> In v values) ->
  (forall c f, known m St qs vs c f -> (c = gzero /\ (forall z, 0 <= z < 256 -> f z = fzero)) \/
    exists p, is_node St p /\ c = node_comm m St p /\ forall z, 0 <= z < 256 -> f z = node_vec m St p z) ->
  ideal m St qs vs.
Proof.
  intros W E Hv Hk. unfold idealb in E. cbv zeta in E. apply andb_true_iff in E as [E1 E2].
  pose proof (pairs_spec _ _ E1) as Q1. rewrite forallb_forall in E2. clear E1.
  assert (R : forall c f, known m St qs vs c f -> exists g, In (c, hash c, g) (rows m St) /\ forall z, 0 <= z < 256 -> f z = g z).
  { intros c f K. destruct (Hk c f K) as [[-> Hz]|(p & Hp & -> & Hz)].
    - exists (fun _ => fzero). split; [now left|exact Hz].
    - exists (node_vec m St p). split; [|exact Hz]. right. apply in_map_iff. exists p. split; [reflexivity|]. apply In_set_of. now apply is_node_candidate. }
  assert (Q : forall c f c' f', known m St qs vs c f -> known m St qs vs c' f' -> hash c = hash c' -> c = c' /\ forall z, 0 <= z < 256 -> f z = f' z).
  { intros c f c' f' K K' Eh. destruct (R c f K) as (g & Hg & Ef). destruct (R c' f' K') as (g' & Hg' & Ef').
    destruct (Q1 _ _ Hg Hg') as [X|[X|X]].
    - assert (c = c') by congruence. assert (g = g') by congruence. subst g'. split; [assumption|]. intros z Hz. now rewrite Ef, Ef'.
    - apply same_row_spec in X; [|exact Eh]. destruct X as [X1 X2]. split; [exact X1|]. intros z Hz. rewrite Ef, Ef' by exact Hz. auto.
    - apply same_row_spec in X; [|now symmetry]. destruct X as [X1 X2]. split; [now symmetry|]. intros z Hz. rewrite Ef, Ef' by exact Hz. symmetry. auto. }
  constructor.
  - intros c f g z K K' Hz. now apply (Q c f c g K K').
  - intros c f c' f' K K' Eh. now apply (Q c f c' f' K K').
  - intros c f K X. destruct (R c f K) as (g & Hg & _). apply E2 in Hg. cbn [row_apart] in Hg. apply andb_true_iff in Hg as [Hg _].
    apply negb_true_iff in Hg. apply feqb_true in X. congruence.
  - intros c f t K Hc Ht X. destruct (R c f K) as (g & Hg & _). apply E2 in Hg. cbn [row_apart] in Hg. apply andb_true_iff in Hg as [_ Hg].
    apply orb_true_iff in Hg as [Hg|Hg]; [now apply geqb_true in Hg|]. apply andb_true_iff in Hg as [Hg _]. rewrite forallb_forall in Hg. apply Hg in Ht.
    apply negb_true_iff in Ht. apply feqb_true in X. congruence.
  - intros c f k v K Hc Hm. destruct (R c f K) as (g & Hg & _). apply E2 in Hg. cbn [row_apart] in Hg. apply andb_true_iff in Hg as [_ Hg].
    apply orb_true_iff in Hg as [Hg|Hg]; [now apply geqb_true in Hg|]. apply andb_true_iff in Hg as [_ Hg]. rewrite forallb_forall in Hg. apply Hv, Hg in Hm.
    apply andb_true_iff in Hm as [H1 H2]. apply negb_true_iff in H1. apply negb_true_iff in H2.
    split; intros X; apply feqb_true in X; congruence.
Qed.

(** Scalars. *)
Definition apartb St others values vals : bool :=
  forallb (fun t => forallb (fun s => if feqb (of_Z (le_Z t)) (of_Z (le_Z s)) then beqb t s else true) others) St &&
  forallb (fun v => negb (feqb (leaf_low (Some v)) fzero) && negb (feqb (leaf_low (Some v)) fone)) (values ++ vals) &&
  forallb (fun v => forallb (fun w => if feqb (leaf_low (Some v)) (leaf_low (Some w)) && feqb (leaf_high (Some v)) (leaf_high (Some w)) then beqb v w else true) vals) values.
Lemma apartb_ok m St others values (claimed : list (option bytes)) vals : apartb St others values vals = true ->
  (forall k v, m k = Some v -> In v values) -> (forall v, In (Some v) claimed -> In v vals) -> scalars_apart m St others claimed.
Proof.
  intros E Hm Hc. unfold apartb in E. apply andb_true_iff in E as [E E3]. apply andb_true_iff in E as [E1 E2].
  rewrite forallb_forall in E1, E2, E3. constructor.
  - intros t s Ht Hs X. apply E1 in Ht. rewrite forallb_forall in Ht. apply Ht in Hs. apply feqb_true in X. rewrite X in Hs. now apply beqb_eq.
  - intros v Hin. assert (In v (values ++ vals)) as Hi by (apply in_or_app; destruct Hin as [[k Hk]|Hin]; eauto).
    apply E2 in Hi. apply andb_true_iff in Hi as [H1 H2]. apply negb_true_iff in H1. apply negb_true_iff in H2.
    split; intros X; apply feqb_true in X; congruence.
  - intros k v w Hk Hw X1 X2. apply Hm, E3 in Hk. rewrite forallb_forall in Hk. apply Hc, Hk in Hw.
    apply feqb_true in X1. apply feqb_true in X2. rewrite X1, X2 in Hw. now apply beqb_eq.
Qed.

Lemma final_map_In h k v : final_map h k = Some v -> In v (map snd h).
Proof.
  induction h as [|[k' v'] h IH]; cbn [final_map map snd]; [discriminate|]. destruct (final_map h k) as [w|].
  - intros E. right. apply IH. exact E.
  - destruct (beqb k' k); [|discriminate]. intros E. left. congruence.
Qed.
End Table.

(** Present, absent next to others of its stem, in the slot of another stem, in an empty slot. *)
Definition five_keys : list bytes := [ex_key 5 0 130; ex_key 5 0 131; ex_key 6 7 1; 99 :: repeat 3 31; ex_key 5 0 7].

Lemma five_keys_ok : Forall is_key five_keys.
Proof. unfold five_keys. repeat (apply Forall_cons; [apply key_okb; vm_compute; reflexivity|]). apply Forall_nil. Qed.
Lemma five_keys_nodup : NoDup five_keys.
Proof.
  assert (X : forallb (fun k => (List.length (filter (beqb k) five_keys) =? 1)%nat) five_keys = true) by (vm_compute; reflexivity).
  rewrite forallb_forall in X. revert X. generalize five_keys as l.
  assert (K : forall l l' : list bytes, (forall k, In k l -> (List.length (filter (beqb k) (l' ++ l)) = 1)%nat) -> NoDup l).
  { induction l as [|a l IH]; intros l' H; constructor.
    - intros Hin. specialize (H a (or_introl eq_refl)). rewrite filter_app, app_length in H. cbn [filter] in H. rewrite beqb_refl in H. cbn [List.length] in H.
      assert (Y : In a (filter (beqb a) l)) by (apply filter_In; split; [exact Hin|apply beqb_refl]).
      destruct (filter (beqb a) l); [destruct Y|cbn [List.length] in H; lia].
    - apply (IH (l' ++ [a])). intros k Hk. rewrite <- app_assoc. apply H. now right. }
  intros l H. apply (K l []). intros k Hk. now apply Nat.eqb_eq, H.
Qed.

Lemma truth_case_hint : exists (db : MemoryDb) root comms qs uh vs p, let hint := proof_hint (stems_of ex_h) five_keys in
  (exists pqs, create_proof_parts db five_keys = Ok (Some (pqs, hint, comms))) /\
  run_mem ex_h = Ok db /\ root_commitment db = Ok root /\
  create_verifier_queries hint comms five_keys (map (final_map ex_h) five_keys) root = Ok (Some (qs, uh)) /\
  Forall2 opening qs vs /\ coherent hint five_keys /\ ideal (final_map ex_h) (stems_of ex_h) qs vs /\
  scalars_apart (final_map ex_h) (stems_of ex_h) (map (firstn 31) five_keys ++ vh_diff hint) (map (final_map ex_h) five_keys) /\
  enough_challenges 8 (List.length qs) (ex_challenges 8 (List.length qs)) /\
  all_checked p hint comms five_keys (map (final_map ex_h) five_keys) root qs (ex_challenges 8 (List.length qs)).
Proof.
  assert (Hw : wf_history ex_h) by (apply keys_okb_ok; vm_compute; reflexivity).
  destruct (root_spec ex_h Hw) as (db & E & _ & _).
  assert (Nk : five_keys <> []) by discriminate.
  assert (D : distinguishable (final_map ex_h) (stems_of ex_h) five_keys).
  { assert (X : opened (stems_of ex_h) five_keys = opened (stems_of ex_h) ex_keys) by (vm_compute; reflexivity).
    unfold distinguishable. rewrite X. exact ex_distinguishable. }
  pose proof (run_canon ex_h db Hw E) as Cn.
  destruct (proof_parts_ok db _ _ Cn five_keys five_keys_ok Nk) as (qs & Ep & Hq).
  destruct (honest_queries ex_h db five_keys Hw E Nk five_keys_ok D) as (qs' & hint' & comms' & root & uh & Ep' & Er & Ev).
  rewrite Ep in Ep'.
  assert (X : (qs, proof_hint (stems_of ex_h) five_keys, comms_of_queries qs (node_comm (final_map ex_h) (stems_of ex_h) [])) = (qs', hint', comms')) by congruence.
  apply pair_equal_spec in X as [X <-]. apply pair_equal_spec in X as [<- <-]. clear Ep'.
  assert (Hn : Forall (fun x => is_node (stems_of ex_h) (fst x)) (all_entries (stems_of ex_h) five_keys)).
  { apply Forall_forall. intros x Hx. apply (opened_node db (final_map ex_h) (stems_of ex_h) Cn five_keys five_keys_ok).
    apply in_map. exact (proj1 (In_set_of _ _) Hx). }
  destruct (honest_openings db _ _ five_keys qs Cn five_keys_ok Hq Hn) as [Hop Hkn].
  exists db, root. eexists. exists (map (fun q => mkVQ (pq_comm q) (of_Z (pq_point q)) (pq_result q)) qs), uh. eexists. exists (hon_prover 256 trie_crs qs).
  cbv zeta. split; [exists qs; exact Ep|]. split; [exact E|]. split; [exact Er|]. split; [exact Ev|]. split; [exact Hop|].
  split; [exact (honest_coherent db _ _ five_keys Cn five_keys_ok)|].
  assert (Hv : forall k v, final_map ex_h k = Some v -> In v (map snd ex_h)) by (intros k v; apply final_map_In).
  split. { apply (idealb_ok _ _ (map snd ex_h)); [exact (can_wf _ _ _ Cn)|vm_compute; reflexivity|exact Hv|exact Hkn]. }
  split. { apply (apartb_ok _ _ _ (map snd ex_h) _ (map snd ex_h)); [vm_compute; reflexivity|exact Hv|].
    intros v Hin. apply in_map_iff in Hin as (k & Hk & _). exact (Hv k v Hk). }
  change (map (fun q => mkVQ (pq_comm q) (of_Z (pq_point q)) (pq_result q)) qs) with (map public_query qs) in *.
  assert (Lq := proj2 (verifier_points _ _ _ _ _ _ _ five_keys_ok Ev)). change (List.length five_keys) with 5%nat in Lq.
  split; [apply ex_enough; [cbn; lia|lia|lia]|].
  intros r t w xs Ir It Iw Ix.
  assert (W := weights256 (ex_fits 256 ltac:(lia))).
  assert (Ht : Forall true_opening qs) by (clear - Hq; induction Hq as [|x q l qs (_ & _ & _ & _ & H) _ IH]; constructor; auto).
  assert (Good : Forall (good_query 256 (crs_G trie_crs)) qs) by (eapply Forall_impl; [|exact Ht]; apply opening_good).
  destruct (ex_all_accepted 8 trie_crs (weights 256) qs 118 [116] (List.length (map public_query qs)) ltac:(cbn; lia) ltac:(lia) eq_refl trie_crs_len W
    Good ltac:(cbn [In]; lia) r t w xs Ir It Iw Ix) as (H & R & Ck).
  exists H, (Some uh). split; [exact R|].
  unfold proof_check. cbn [vp_hint vp_comms vp_proof]. rewrite Ev. cbn [rbind]. rewrite W. cbn [rbind].
  change (tr_new (lbl "vt")) with [118; 116]. change (2 ^ 8)%nat with 256%nat in Ck. rewrite Ck. reflexivity.
Qed.

Lemma truth_case : exists (db : MemoryDb) root hint comms qs uh vs p,
  run_mem ex_h = Ok db /\ root_commitment db = Ok root /\
  create_verifier_queries hint comms five_keys (map (final_map ex_h) five_keys) root = Ok (Some (qs, uh)) /\
  Forall2 opening qs vs /\ coherent hint five_keys /\ ideal (final_map ex_h) (stems_of ex_h) qs vs /\
  scalars_apart (final_map ex_h) (stems_of ex_h) (map (firstn 31) five_keys ++ vh_diff hint) (map (final_map ex_h) five_keys) /\
  enough_challenges 8 (List.length qs) (ex_challenges 8 (List.length qs)) /\
  all_checked p hint comms five_keys (map (final_map ex_h) five_keys) root qs (ex_challenges 8 (List.length qs)).
Proof. destruct truth_case_hint as (db & root & comms & qs & uh & vs & p & _ & X). do 8 eexists. exact X. Qed.
