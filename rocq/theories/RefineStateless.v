(** The stateless update on a cover of the group. *)
From Verif Require Import Base BaseFacts Alg TrieModel BTree WireModel ProofModel IpaModel StatelessModel Refine RefineProof RefineIpa.
Local Open Scope Z_scope.

Section Cover.
Context {A : Alg} {P : Par A} {C : ECodec A} {HS : Hasher}.
Context {H : Type} {hz : H} {ha : H -> H -> H} {ho : H -> H} {hm : F -> H -> H} {he : H -> H -> bool}.
Local Notation A1 := (cover A H hz ha ho hm he).
Context {P1 : Par A1} {C1 : ECodec A1}.
Variable phi : H -> G.
Hypothesis phi_zero : phi hz = gzero.
Hypothesis phi_add : forall x y, phi (ha x y) = gadd (phi x) (phi y).
Hypothesis phi_opp : forall x, phi (ho x) = gopp (phi x).
Hypothesis phi_mul : forall s x, phi (hm s x) = smul s (phi x).
Hypothesis phi_eqb : forall x y, he x y = geqb (phi x) (phi y).
Hypothesis phi_hash : forall x, @hash A1 P1 x = hash (phi x).
Hypothesis phi_crs : forall i, phi (@crs A1 P1 i) = crs i.
Hypothesis phi_crsQ : phi (@crsQ A1 P1) = crsQ.
Hypothesis phi_ser : forall x, @el_ser A1 C1 x = el_ser (phi x).
Hypothesis sc_same : forall x, @sc_ser A1 C1 x = @sc_ser A C x.
Local Notation mapped f := (fun a b => b = f a).
Local Notation uh_map := (@uh_map A H hz ha ho hm he phi).
Variable hash_order : list bytes -> list bytes.

Definition vres_map (r : @vresult A1) : @vresult A := match r with VOk g => @VOk A (phi g) | VErr e => VErr e end.
(** Maps of nodes and of commitments, value by value. *)
Definition brel {X Y} (f : X -> Y) (m1 : bmap X) (m2 : bmap Y) : Prop := forall k, m2 k = option_map f (m1 k).
Lemma brel_upd {X Y} (f : X -> Y) m1 m2 k x : brel f m1 m2 -> brel f (upd m1 k x) (upd m2 k (f x)).
Proof. intros E j. unfold upd. destruct (beqb k j); [reflexivity|apply E]. Qed.

Local Lemma sm1 s i : phi (@scalar_mul A1 P1 s i) = @scalar_mul A P s i.
Proof. unfold scalar_mul. cbn [smul cover]. rewrite phi_mul, phi_crs. reflexivity. Qed.
Definition pair_map (x : H * H) : G * G := (phi (fst x), phi (snd x)).

Lemma cover_suffix_delta cs su : suffix_delta (pair_map cs) su = pair_map (@suffix_delta A1 P1 cs su).
Proof.
  destruct su as [sfx [old new]], cs as [x y]. unfold suffix_delta, pair_map. cbn [fst snd].
  destruct old as [v|], (sfx <? 128); cbn [fst snd gadd cover]; rewrite !phi_add, !sm1; reflexivity.
Qed.
Lemma cover_suffix_deltas l : forall cs, fold_left suffix_delta l (pair_map cs) = pair_map (fold_left (@suffix_delta A1 P1) l cs).
Proof. induction l as [|su l IH]; intro cs; [reflexivity|]. cbn [fold_left]. rewrite cover_suffix_delta. apply IH. Qed.
Lemma cover_half_hash comms p d : rr False (@eq (@F A)) (@half_hash_delta A1 P1 comms p d) (@half_hash_delta A P (mv phi comms) p (phi d)).
Proof.
  unfold half_hash_delta. change (@geqb A1 d gzero) with (he d hz). rewrite phi_eqb, phi_zero. destruct (geqb (phi d) gzero); [apply rr_ok; reflexivity|].
  apply (rr_bind _ (mapped phi)). { apply rr_unwrap, mv_get. } intros old ? ->. apply rr_ok. rewrite !phi_hash. cbn [gadd cover]. rewrite phi_add. reflexivity.
Qed.
Lemma cover_present comms p su : rr False (mapped phi) (@update_present A1 P1 comms p su) (@update_present A P (mv phi comms) p su).
Proof.
  unfold update_present. pose proof (cover_suffix_deltas su (hz, hz)) as X. unfold pair_map at 1 in X. cbn [fst snd] in X. rewrite phi_zero in X. rewrite X. clear X.
  match goal with |- rr _ _ (let '(_, _) := ?f in _) _ => match goal with |- context [pair_map ?g] => change g with f end; destruct f as [d1 d2] end. cbn [pair_map fst snd].
  apply (rr_bind _ (@eq (@F A))); [exact (cover_half_hash comms (p ++ [2]) d1)|]. intros h1 _ <-.
  apply (rr_bind _ (@eq (@F A))); [exact (cover_half_hash comms (p ++ [3]) d2)|]. intros h2 _ <-.
  apply (rr_bind _ (mapped phi)). { apply rr_unwrap, mv_get. } intros old ? ->. apply rr_ok. cbn [gadd gzero cover]. rewrite !phi_add, !sm1, phi_zero. reflexivity.
Qed.
Lemma cover_new_suffixes su : forall c1 c2, new_suffixes su (phi c1) (phi c2) = option_map pair_map (@new_suffixes A1 P1 su c1 c2).
Proof.
  induction su as [|[sfx [old new]] su IH]; intros c1 c2; [reflexivity|]. cbn [new_suffixes]. destruct old; [reflexivity|].
  destruct (sfx <? 128); rewrite <- IH; f_equal; cbn [gadd cover]; rewrite !phi_add, !sm1; reflexivity.
Qed.
Lemma cover_new_stem stem c1 c2 : new_stem_comm stem (phi c1) (phi c2) = phi (@new_stem_comm A1 P1 stem c1 c2).
Proof. unfold new_stem_comm, commit_sparse. cbn [fold_left fst snd gadd gzero cover]. rewrite !phi_add, !sm1, !phi_hash, phi_zero. reflexivity. Qed.

Definition gf_map (x : H * @F A) : G * F := (phi (fst x), snd x).
Definition urel (u1 : @Updates A1) (u2 : @Updates A) : Prop := u_prefix u2 = u_prefix u1 /\ brel gf_map (u_stem u1) (u_stem u2).
Definition orel {X Y} (R : X -> Y -> Prop) (a : option X) (b : option Y) : Prop := match a, b with Some x, Some y => R x y | None, None => True | _, _ => False end.
Lemma cover_process_stem hint u1 u2 e : urel u1 u2 -> rr False (orel urel) (@process_stem A1 P1 hint u1 e) (@process_stem A P (uh_map hint) u2 e).
Proof.
  intros [U1 U2]. destruct e as [stem su]. unfold process_stem. cbn [RefineProof.uh_map uh_depths uh_comms uh_others]. rewrite U1.
  apply (rr_bind _ eq); [apply (rr_same False)|]. intros [ext depth] _ <-. apply (rr_bind _ eq); [apply (rr_same False)|]. intros prefix _ <-.
  assert (X : forall c : H, brel gf_map (upd (u_stem u1) stem (c, @hash A1 P1 c)) (upd (u_stem u2) stem (phi c, hash (phi c)))).
  { intro c. rewrite phi_hash. exact (brel_upd gf_map _ _ stem (c, hash (phi c)) U2). }
  destruct ext.
  - apply rr_ok. split; [reflexivity|exact U2].
  - apply (rr_bind _ eq); [apply (rr_same False)|]. intros other _ <-. rewrite <- phi_zero, cover_new_suffixes.
    change (@gzero A1) with hz. destruct (@new_suffixes A1 P1 su hz hz) as [[c1 c2]|]; cbn [option_map pair_map fst snd]; [|apply rr_ok; exact I].
    rewrite cover_new_stem. apply rr_ok. split; [reflexivity|apply X].
  - apply (rr_bind _ _ _ _ _ _ _ (cover_present (uh_comms hint) prefix su)). intros c ? ->. apply rr_ok. split; [reflexivity|apply X].
Qed.
Lemma cover_process_stems hint l : forall u1 u2, urel u1 u2 -> rr False (orel urel) (@process_stems A1 P1 hint u1 l) (@process_stems A P (uh_map hint) u2 l).
Proof.
  induction l as [|e l IH]; intros u1 u2 U; cbn [process_stems]; [apply rr_ok; exact U|].
  apply (rr_bind _ _ _ _ _ _ _ (cover_process_stem hint u1 u2 e U)). intros [x|] [y|] O; cbn [orel] in O; try contradiction; [apply IH, O|apply rr_ok; exact I].
Qed.

(** ** Subtrees *)
Definition sn_map (n : @SNode A1) : @SNode A := match n with SInner c => @SInner A (phi c) | SStem i c => @SStem A i (phi c) end.
Local Notation trel := (brel sn_map).
Lemma cover_walk rest : forall t1 t2 path cur, trel t1 t2 ->
  rr False (mapped (fun r => (fst (fst r), sn_map (snd (fst r)), snd r))) (@sub_walk A1 t1 path cur rest) (sub_walk t2 path (sn_map cur) rest).
Proof.
  induction rest as [|i rest IH]; intros t1 t2 path cur T; destruct cur as [c|id c]; cbn [sub_walk sn_map]; try (apply rr_ok; reflexivity); [exact I|].
  rewrite (T (path ++ [i])). destruct (t1 (path ++ [i])) as [n|]; cbn [option_map]; [apply IH, T|apply rr_ok; reflexivity].
Qed.
Definition t4rel (a : @STree A1 * bytes * Z * Z) (b : @STree A * bytes * Z * Z) : Prop :=
  let '(t1, p1, x1, y1) := a in let '(t2, p2, x2, y2) := b in trel t1 t2 /\ p1 = p2 /\ x1 = x2 /\ y1 = y2.
Lemma cover_extend o : forall t1 t2 path s, trel t1 t2 -> rr False t4rel (@sub_extend A1 t1 path o s) (@sub_extend A t2 path o s).
Proof.
  induction o as [|x o IH]; intros t1 t2 path [|y s] T; cbn [sub_extend]; try exact I. destruct (x =? y); [|apply rr_ok; cbn; auto].
  apply IH. rewrite <- phi_zero. exact (brel_upd sn_map t1 t2 (path ++ [y]) (@SInner A1 hz) T).
Qed.
Definition addrel (a : @STree A1 * H * H) (b : @STree A * G * G) : Prop :=
  let '(t1, x1, y1) := a in let '(t2, x2, y2) := b in trel t1 t2 /\ x2 = phi x1 /\ y2 = phi y1.
Lemma cover_add_inner t1 t2 path d d' : trel t1 t2 -> d' = phi d -> rr False addrel (@add_inner A1 t1 path d) (@add_inner A t2 path d').
Proof.
  intros T ->. unfold add_inner. rewrite (T path). destruct (t1 path) as [[c|id c]|]; cbn [option_map sn_map]; try exact I.
  apply rr_ok. cbn [addrel gadd cover]. rewrite phi_add. split; [|auto]. rewrite <- phi_add. exact (brel_upd sn_map t1 t2 path (@SInner A1 (ha c d)) T).
Qed.
Definition hrel (a : @STree A1 * F * F) (b : @STree A * F * F) : Prop :=
  let '(t1, x1, y1) := a in let '(t2, x2, y2) := b in trel t1 t2 /\ x2 = x1 /\ y2 = y1.
Lemma cover_step i rp t1 t2 o n : trel t1 t2 -> rr False hrel (@sub_step A1 P1 i rp t1 o n) (@sub_step A P i rp t2 o n).
Proof.
  intro T. unfold sub_step. apply (rr_bind _ addrel). { apply cover_add_inner; [exact T|]. symmetry. apply sm1. }
  intros [[s1 x1] y1] [[s2 x2] y2] (T2 & -> & ->). apply rr_ok. cbn [hrel]. rewrite !phi_hash. auto.
Qed.
Definition crel (a : @STree A1 * bytes * F) (b : @STree A * bytes * F) : Prop :=
  let '(t1, x1, y1) := a in let '(t2, x2, y2) := b in trel t1 t2 /\ x2 = x1 /\ y2 = y1.
Lemma cover_climb_to base rp : forall t1 t2 o n, trel t1 t2 -> rr False crel (@climb_to A1 P1 base rp t1 o n) (@climb_to A P base rp t2 o n).
Proof.
  induction rp as [|i rp IH]; intros t1 t2 o n T; cbn [climb_to]; destruct (beqb _ base); try (apply rr_ok; cbn; auto; fail); [exact I|].
  apply (rr_bind _ _ _ _ _ _ _ (cover_step i rp t1 t2 o n T)). intros [[s1 x1] y1] [[s2 x2] y2] (T2 & -> & ->). apply IH, T2.
Qed.
Lemma cover_climb rp : forall t1 t2 o n, trel t1 t2 -> rr False trel (@climb A1 P1 rp t1 o n) (@climb A P rp t2 o n).
Proof.
  induction rp as [|i rp IH]; intros t1 t2 o n T; cbn [climb]; [apply rr_ok; exact T|].
  apply (rr_bind _ _ _ _ _ _ _ (cover_step i rp t1 t2 o n T)). intros [[s1 x1] y1] [[s2 x2] y2] (T2 & -> & ->). apply IH, T2.
Qed.
Lemma cover_sub_insert prefix t1 t2 stem c : trel t1 t2 -> rr False trel (@sub_insert A1 P1 prefix t1 (stem, c)) (@sub_insert A P prefix t2 (stem, phi c)).
Proof.
  intro T. unfold sub_insert. apply (rr_bind _ eq); [apply (rr_same False)|]. intros rest _ <-.
  apply (rr_bind _ (mapped sn_map)). { apply rr_unwrap, T. } intros root ? ->.
  apply (rr_bind _ _ _ _ _ _ _ (cover_walk rest t1 t2 [] root T)). intros [[path cur] rest'] ? ->. cbn [fst snd].
  destruct cur as [ci|oid oc]; cbn [sn_map].
  - rewrite <- phi_hash. apply cover_climb. exact (brel_upd sn_map t1 t2 path (@SStem A1 stem c) T).
  - apply (rr_bind _ eq); [apply (rr_same False)|]. intros o _ <-.
    apply (rr_bind _ t4rel). { apply cover_extend. rewrite <- phi_zero. exact (brel_upd sn_map t1 t2 path (@SInner A1 hz) T). }
    intros [[[s1 p1] ox] sx] [[[s2 p2] ox2] sx2] (T2 & <- & <- & <-).
    apply (rr_bind _ addrel).
    { apply cover_add_inner.
      - exact (brel_upd sn_map _ _ (p1 ++ [sx]) (@SStem A1 stem c) (brel_upd sn_map _ _ (p1 ++ [ox]) (@SStem A1 oid oc) T2)).
      - rewrite <- !phi_hash. cbn [gadd cover]. rewrite phi_add, !sm1. reflexivity. }
    intros [[q1 x1] y1] [[q2 x2] y2] (T3 & -> & ->). rewrite <- !phi_hash.
    apply (rr_bind _ _ _ _ _ _ _ (cover_climb_to path (rev p1) q1 q2 (@fzero A) (@hash A1 P1 y1) T3)). intros [[r1 rp] n1] [[r2 rp2] n2] (T4 & -> & ->).
    destruct rp as [|i rp]; [exact I|]. apply (rr_bind _ _ _ _ _ _ _ (cover_step i rp r1 r2 (@hash A1 P1 oc) n1 T4)).
    intros [[w1 a1] b1] [[w2 a2] b2] (T5 & -> & ->). apply cover_climb, T5.
Qed.
Local Notation els := (mv (K:=bytes) phi).
Lemma cover_sub_inserts prefix l : forall t1 t2, trel t1 t2 -> rr False trel (@sub_inserts A1 P1 prefix t1 l) (@sub_inserts A P prefix t2 (els l)).
Proof.
  induction l as [|[s c] l IH]; intros t1 t2 T; cbn [sub_inserts mv map fst snd]; [apply rr_ok; exact T|].
  apply (rr_bind _ _ _ _ _ _ _ (cover_sub_insert prefix t1 t2 s c T)). intros x y X. apply IH, X.
Qed.
Lemma cover_subtree prefix l : rr False (mapped phi) (@build_subtree A1 P1 prefix l) (@build_subtree A P prefix (els l)).
Proof.
  unfold build_subtree. apply (rr_bind _ trel).
  { apply cover_sub_inserts. rewrite <- phi_zero. apply (brel_upd sn_map bempty bempty [] (@SInner A1 hz)). intro k. reflexivity. }
  intros x y T. rewrite (T []). destruct (x []) as [[c|id c]|]; cbn [option_map sn_map]; [apply rr_ok; reflexivity|exact I|exact I].
Qed.

(** ** Prefixes *)
Definition cprel (a : bmap H * option H) (b : bmap G * option G) : Prop := brel phi (fst a) (fst b) /\ snd b = option_map phi (snd a).
Lemma cover_climb_prefix comms rp : forall u1 u2 d cur, brel phi u1 u2 ->
  rr False cprel (@climb_prefix A1 P1 comms rp u1 d cur) (@climb_prefix A P (mv phi comms) rp u2 d (option_map phi cur)).
Proof.
  induction rp as [|i rp IH]; intros u1 u2 d cur U; cbn [climb_prefix]; [apply rr_ok; split; auto|].
  apply (rr_bind _ (mapped phi)).
  { rewrite (U (rev rp)). destruct (u1 (rev rp)); cbn [option_map]; [apply rr_ok; reflexivity|]. apply rr_unwrap, mv_get. }
  intros old ? ->. rewrite !phi_hash. cbn [gadd cover].
  assert (E : phi (ha old (@scalar_mul A1 P1 d i)) = gadd (phi old) (@scalar_mul A P d i)) by (rewrite phi_add, sm1; reflexivity).
  rewrite <- E. apply IH. apply brel_upd, U.
Qed.
Definition sprel (a : @Sparse A1) (b : @Sparse A) : Prop := sp_root b = phi (sp_root a) /\ brel phi (sp_updated a) (sp_updated b).
Lemma cover_update_prefix comms t1 t2 prefix o n : sprel t1 t2 ->
  rr False (orel sprel) (@update_prefix A1 P1 comms t1 prefix o n) (@update_prefix A P (mv phi comms) t2 prefix o n).
Proof.
  intros [_ U]. unfold update_prefix. destruct prefix as [|z prefix]; [apply rr_ok; exact I|].
  apply (rr_bind _ _ _ _ _ _ _ (cover_climb_prefix comms (rev (z :: prefix)) _ _ (fsub n o) None U)). intros [m1 c1] [m2 c2] [M E]. cbn [fst snd] in *.
  apply (rr_bind _ _ _ _ _ _ _ (rr_unwrap False phi _ _ E)). intros r ? ->. apply rr_ok. split; [reflexivity|exact M].
Qed.
Lemma cover_elements comms b1 b2 prefix l : brel gf_map b1 b2 ->
  rr False (mapped els) (@subtree_elements A1 comms b1 prefix l) (@subtree_elements A (mv phi comms) b2 prefix l).
Proof.
  intro B. induction l as [|s l IH]; cbn [subtree_elements]; [apply rr_ok; reflexivity|].
  apply (rr_bind _ (mapped phi)).
  { rewrite (B s). destruct (b1 s) as [[c f]|]; cbn [option_map gf_map fst snd]; [apply rr_ok; reflexivity|]. apply rr_unwrap, mv_get. }
  intros c ? ->. apply (rr_bind _ _ _ _ _ _ _ IH). intros r ? ->. apply rr_ok. reflexivity.
Qed.
Lemma cover_process_prefix comms b1 b2 t1 t2 e : brel gf_map b1 b2 -> sprel t1 t2 ->
  rr False sprel (@process_prefix A1 P1 hash_order comms b1 t1 e) (@process_prefix A P hash_order (mv phi comms) b2 t2 e).
Proof.
  intros B T. destruct e as [prefix stems]. unfold process_prefix. rewrite mv_get.
  apply (rr_bind _ (@eq (@F A))).
  - assert (X : forall l, rr False (@eq (@F A)) (let! elements := @subtree_elements A1 comms b1 prefix l in let! c := @build_subtree A1 P1 prefix elements in Ok (@hash A1 P1 c))
      (let! elements := @subtree_elements A (mv phi comms) b2 prefix l in let! c := @build_subtree A P prefix elements in Ok (hash c))).
    { intro l. apply (rr_bind _ _ _ _ _ _ _ (cover_elements comms b1 b2 prefix l B)). intros x ? ->.
      apply (rr_bind _ _ _ _ _ _ _ (cover_subtree prefix x)). intros c ? ->. apply rr_ok. apply phi_hash. }
    destruct (hash_order stems) as [|s [|s' l]]; [apply X| |apply X].
    apply (rr_bind _ (mapped gf_map)). { apply rr_unwrap, B. } intros c ? ->. apply rr_ok. reflexivity.
  - intros n _ <-. apply (rr_bind _ (orel sprel)).
    + match goal with |- rr _ _ _ (@update_prefix A P _ _ _ ?o _) => match goal with |- rr _ _ (@update_prefix A1 P1 _ _ _ ?o' _) _ => assert (E : o = o') end end.
      { change (@G A1) with H. match goal with |- context [option_map phi ?x] => destruct x end; cbn [option_map]; [symmetry; apply phi_hash|reflexivity]. }
      rewrite E. exact (cover_update_prefix comms t1 t2 prefix _ n T).
    + intros [x|] [y|] O; cbn [orel] in O; try contradiction; [apply rr_ok; exact O|exact I].
Qed.
Lemma cover_process_prefixes comms b1 b2 l : brel gf_map b1 b2 -> forall t1 t2, sprel t1 t2 ->
  rr False sprel (@process_prefixes A1 P1 hash_order comms b1 t1 l) (@process_prefixes A P hash_order (mv phi comms) b2 t2 l).
Proof.
  intro B. induction l as [|e l IH]; intros t1 t2 T; cbn [process_prefixes]; [apply rr_ok; exact T|].
  apply (rr_bind _ _ _ _ _ _ _ (cover_process_prefix comms b1 b2 t1 t2 e B T)). intros x y X. apply IH, X.
Qed.
Lemma cover_update_root hint keys values updated root :
  update_root hash_order (uh_map hint) keys values updated (phi root) = ok_map vres_map (@update_root A1 P1 hash_order hint keys values updated root).
Proof.
  apply ok_rr. unfold update_root. destruct (_ =? _); [apply rr_ok; reflexivity|]. destruct (_ =? _); [apply rr_ok; reflexivity|].
  destruct (negb _); [apply rr_ok; reflexivity|].
  apply (rr_bind _ (orel urel)). { apply cover_process_stems. split; [reflexivity|]. intro k. reflexivity. }
  intros [x|] [y|] O; cbn [orel] in O; try contradiction; [|apply rr_ok; reflexivity]. destruct O as [O1 O2]. rewrite O1.
  apply (rr_bind _ sprel). { apply cover_process_prefixes; [exact O2|]. split; [reflexivity|]. intro k. reflexivity. }
  intros t1 t2 [E _]. apply rr_ok. cbn [vres_map]. now rewrite E.
Qed.
Lemma cover_verify_and_update p root keys values updated :
  verify_and_update hash_order (@vp_map A H hz ha ho hm he phi p) (phi root) keys values updated
  = ok_map vres_map (@verify_and_update A1 P1 hash_order HS C1 p root keys values updated).
Proof.
  unfold verify_and_update.
  rewrite (@cover_proof_check A P C HS H hz ha ho hm he P1 C1 phi phi_zero phi_add phi_opp phi_mul phi_eqb phi_hash phi_crs phi_crsQ phi_ser sc_same).
  destruct (@proof_check A1 C1 HS P1 p keys values root) as [[ok hint]|]; cbn [ok_map rbind fst snd]; [|reflexivity].
  destruct (negb ok); [reflexivity|]. destruct hint as [u|]; cbn [option_map unwrap rbind]; [|reflexivity]. apply cover_update_root.
Qed.
End Cover.
