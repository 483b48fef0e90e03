(** Challenges bind everything absorbed before them. *)
From Coq Require Import String.
From Verif Require Import Base BaseFacts Alg AlgFacts WireModel ProofModel IpaModel IpaSpec TranscriptSpec.
Local Open Scope list_scope.

Section TranscriptProofs.
Context {A : Alg} {C : ECodec A} {CL : ECodecLaws C} {H : Hasher}.
Notation len := List.length.

Lemma run_challenges ops : forall tr, fst (run_ops tr ops) = map (fun i => to_scalar (sha256 i)) (hash_inputs tr ops).
Proof.
  induction ops as [|[l p|l x|l|l] ops IH]; intros tr; cbn [run_ops hash_inputs map]; [easy|..].
  - rewrite IH. unfold append_point, append_message. now rewrite app_assoc.
  - rewrite IH. unfold append_scalar, append_message. now rewrite app_assoc.
  - rewrite IH. reflexivity.
  - cbn [challenge_scalar]. unfold domain_sep.
    match goal with |- fst (let '(_, _) := run_ops ?t ops in _) = _ => specialize (IH t); destruct (run_ops t ops) as [xs s] end.
    cbn [fst] in *. rewrite IH. reflexivity.
Qed.

Lemma app_inj_len {X} (a b c d : list X) : len a = len c -> a ++ b = c ++ d -> a = c /\ b = d.
Proof.
  revert c; induction a as [|x a IH]; intros [|y c] L E; cbn in *; try discriminate; [easy|].
  injection E as -> E. destruct (IH c ltac:(lia) E) as [-> ->]. easy.
Qed.

Lemma el_ser_inj g1 g2 : el_ser g1 = el_ser g2 -> g1 = g2.
Proof. intros E. pose proof (el_rt g1) as R. rewrite E, el_rt in R. congruence. Qed.
Lemma sc_ser_inj x1 x2 : sc_ser x1 = sc_ser x2 -> x1 = x2.
Proof. intros E. pose proof (sc_rt x1) as R. rewrite E, sc_rt in R. congruence. Qed.

(** Two runs with the same shape whose hash inputs are the same absorbed the same. *)
Lemma same_inputs ops1 : forall ops2 tr1 tr2,
  map kind ops1 = map kind ops2 -> len tr1 = len tr2 -> 
  hash_inputs tr1 ops1 = hash_inputs tr2 ops2 ->
  (exists l, last ops1 (TSep []) = TChallenge l) ->
  tr1 = tr2 /\ ops1 = ops2.
Proof.
  induction ops1 as [|o1 ops1 IH]; intros [|o2 ops2] tr1 tr2 K L E [lb Last]; try discriminate.
  cbn [map] in K. injection K as K1 K.
  assert (Last' : ops1 <> [] -> exists l, last ops1 (TSep []) = TChallenge l).
  { intros N. exists lb. destruct ops1; [easy|exact Last]. }
  destruct o1 as [l1 p1|l1 x1|l1|l1], o2 as [l2 p2|l2 x2|l2|l2]; cbn [kind] in K1; try discriminate;
    injection K1 as <-; cbn [hash_inputs] in E.
  - destruct ops1 as [|o ops1]; [discriminate|].
    apply IH in E; [|exact K|rewrite !app_length, !el_len; lia|apply Last'; discriminate].
    destruct E as [E ->]. apply app_inj_len in E; [|exact L]. destruct E as [-> E].
    apply app_inv_head in E. apply el_ser_inj in E. subst. easy.
  - destruct ops1 as [|o ops1]; [discriminate|].
    apply IH in E; [|exact K|rewrite !app_length, !sc_len; lia|apply Last'; discriminate].
    destruct E as [E ->]. apply app_inj_len in E; [|exact L]. destruct E as [-> E].
    apply app_inv_head in E. apply sc_ser_inj in E. subst. easy.
  - destruct ops1 as [|o ops1]; [discriminate|].
    apply IH in E; [|exact K|rewrite !app_length; lia|apply Last'; discriminate].
    destruct E as [E ->]. apply app_inj_len in E; [|exact L]. destruct E as [-> E]. easy.
  - injection E as E1 E. apply app_inj_len in E1; [|exact L]. destruct E1 as [-> _]. split; [easy|].
    destruct ops1 as [|o ops1].
    + destruct ops2; [easy|discriminate].
    + apply IH in E; [destruct E as [_ ->]; easy|exact K|reflexivity|apply Last'; discriminate].
Qed.

(** If in addition no two different inputs that occur give the same challenge, the
    last challenge alone determines everything. *)

Lemma hash_inputs_kind ops1 : forall ops2 tr1 tr2, map kind ops1 = map kind ops2 ->
  len (hash_inputs tr1 ops1) = len (hash_inputs tr2 ops2).
Proof.
  induction ops1 as [|o1 ops1 IH]; intros [|o2 ops2] tr1 tr2 K; try discriminate; [easy|].
  cbn [map] in K. injection K as K1 K.
  destruct o1, o2; try discriminate; cbn [hash_inputs List.length]; auto.
Qed.

Lemma last_input_binds ops1 : forall ops2 tr1 tr2,
  map kind ops1 = map kind ops2 -> len tr1 = len tr2 ->
  (exists l, last ops1 (TSep []) = TChallenge l) ->
  no_collision (hash_inputs tr1 ops1) (hash_inputs tr2 ops2) ->
  last (fst (run_ops tr1 ops1)) fzero = last (fst (run_ops tr2 ops2)) fzero ->
  tr1 = tr2 /\ ops1 = ops2.
Proof.
  intros ops2 tr1 tr2 K L Last NC E. rewrite !run_challenges in E.
  assert (Ne : hash_inputs tr1 ops1 <> []).
  { clear -Last. revert tr1. induction ops1 as [|o ops1 IH]; intros tr1; [destruct Last; discriminate|].
    destruct ops1 as [|o' ops1]; [destruct Last as [l Last]; cbn in Last; subst o; discriminate|].
    destruct o; cbn [hash_inputs]; try discriminate; apply IH; exact Last. }
  assert (Ne2 : hash_inputs tr2 ops2 <> []).
  { intros Z. pose proof (hash_inputs_kind ops1 ops2 tr1 tr2 K) as Q. rewrite Z in Q. destruct (hash_inputs tr1 ops1); [congruence|discriminate]. }
  assert (LM : forall l : list bytes, l <> [] -> last (map (fun i => to_scalar (sha256 i)) l) fzero = to_scalar (sha256 (last l []))).
  { induction l as [|x [|y l] IHl]; intros N; [easy|easy|]. apply IHl. discriminate. }
  rewrite !LM in E by assumption.
  assert (LI : forall l : list bytes, l <> [] -> In (last l []) l).
  { induction l as [|x [|y l] IHl]; intros N; [easy|now left|]. right. apply IHl. discriminate. }
  apply NC in E; [|now apply LI|now apply LI].
  (* walk forward: equal last inputs force all of them *)
  assert (W : forall ops1 ops2 tr1 tr2, map kind ops1 = map kind ops2 -> len tr1 = len tr2 ->
    no_collision (hash_inputs tr1 ops1) (hash_inputs tr2 ops2) -> hash_inputs tr1 ops1 <> [] ->
    last (hash_inputs tr1 ops1) [] = last (hash_inputs tr2 ops2) [] ->
    (exists l, last ops1 (TSep []) = TChallenge l) -> hash_inputs tr1 ops1 = hash_inputs tr2 ops2 /\ tr1 = tr2).
  2:{ destruct (W ops1 ops2 tr1 tr2 K L NC Ne E Last) as [EI _]. exact (same_inputs ops1 ops2 tr1 tr2 K L EI Last). }
  clear -CL.
  induction ops1 as [|o1 ops1 IH]; intros [|o2 ops2] tr1 tr2 K L NC Ne E [lb Last]; try discriminate.
  cbn [map] in K. injection K as K1 K.
  assert (Last' : ops1 <> [] -> exists l, last ops1 (TSep []) = TChallenge l).
  { intros N. exists lb. destruct ops1; [easy|exact Last]. }
  destruct o1 as [l1 p1|l1 x1|l1|l1], o2 as [l2 p2|l2 x2|l2|l2]; cbn [kind] in K1; try discriminate;
    injection K1 as <-; cbn [hash_inputs] in *.
  - destruct ops1 as [|o ops1]; [discriminate|].
    apply IH in E; try assumption; [|rewrite !app_length, !el_len; lia|apply Last'; discriminate].
    destruct E as [E1 E]. split; [exact E1|]. apply app_inj_len in E; [|exact L]. easy.
  - destruct ops1 as [|o ops1]; [discriminate|].
    apply IH in E; try assumption; [|rewrite !app_length, !sc_len; lia|apply Last'; discriminate].
    destruct E as [E1 E]. split; [exact E1|]. apply app_inj_len in E; [|exact L]. easy.
  - destruct ops1 as [|o ops1]; [discriminate|].
    apply IH in E; try assumption; [|rewrite !app_length; lia|apply Last'; discriminate].
    destruct E as [E1 E]. split; [exact E1|]. apply app_inj_len in E; [|exact L]. easy.
  - destruct ops1 as [|o ops1].
    + destruct ops2; [|discriminate]. cbn [hash_inputs last] in *. rewrite E. split; [easy|].
      apply app_inj_len in E; [|exact L]. easy.
    + destruct (hash_inputs (l1 ++ sc_ser (to_scalar (sha256 (tr1 ++ l1)))) (o :: ops1)) as [|h1 t1] eqn:E1.
      { exfalso. specialize (Last' ltac:(discriminate)). revert Last' E1.
        generalize (l1 ++ sc_ser (to_scalar (sha256 (tr1 ++ l1)))). clear.
        generalize (o :: ops1) as os. induction os as [|oo os IH]; intros t [l Last] E; [discriminate|].
        destruct os as [|o' os]; [cbn in Last; subst oo; discriminate|].
        destruct oo; cbn [hash_inputs] in E; try discriminate; (eapply IH; [exists l; exact Last|exact E]). }
      destruct (hash_inputs (l1 ++ sc_ser (to_scalar (sha256 (tr2 ++ l1)))) ops2) as [|h2 t2] eqn:E2.
      { exfalso. pose proof (hash_inputs_kind (o :: ops1) ops2 (l1 ++ sc_ser (to_scalar (sha256 (tr1 ++ l1))))
          (l1 ++ sc_ser (to_scalar (sha256 (tr2 ++ l1)))) K) as Q. rewrite E1, E2 in Q. discriminate. }
      assert (R : h1 :: t1 = h2 :: t2 /\ l1 ++ sc_ser (to_scalar (sha256 (tr1 ++ l1))) = l1 ++ sc_ser (to_scalar (sha256 (tr2 ++ l1)))).
      { rewrite <- E1, <- E2. apply IH; rewrite ?E1, ?E2.
        - exact K.
        - rewrite !app_length, !sc_len. lia.
        - intros a b Ia Ib. apply NC; now right.
        - discriminate.
        - exact E.
        - apply Last'. discriminate. }
      destruct R as [R1 R2]. apply app_inv_head in R2. apply sc_ser_inj in R2.
      apply NC in R2; [|now left|now left]. rewrite R1, R2. split; [easy|].
      apply app_inj_len in R2; [|exact L]. easy.
Qed.

(** The multipoint verifier's use. *)
Lemma run_ops_app ops1 : forall tr ops2,
  run_ops tr (ops1 ++ ops2) = let '(xs, tr') := run_ops tr ops1 in let '(ys, tr'') := run_ops tr' ops2 in (xs ++ ys, tr'').
Proof.
  induction ops1 as [|[l p|l x|l|l] ops IH]; intros tr ops2; cbn [run_ops app].
  - destruct (run_ops tr ops2). reflexivity.
  - apply IH.
  - apply IH.
  - apply IH.
  - destruct (challenge_scalar tr l) as [x t]. rewrite IH. destruct (run_ops t ops) as [xs s]. destruct (run_ops s ops2). reflexivity.
Qed.

Lemma mp_ops_run tr qs D : run_ops tr (mp_ops qs D) = ([fst (mp_r tr qs); fst (mp_t tr qs D)], snd (mp_t tr qs D)).
Proof.
  unfold mp_ops. cbn [run_ops]. rewrite run_ops_app.
  assert (S : forall qs tr, run_ops tr (flat_map (fun q => [TPoint (lbl "C") (vq_comm q); TScalar (lbl "z") (vq_point q); TScalar (lbl "y") (vq_result q)]) qs)
    = ([], fold_left (fun tr q => absorb_query tr (vq_comm q) (vq_point q) (vq_result q)) qs tr)).
  { induction qs0 as [|q l IH]; intros s; cbn [flat_map app run_ops fold_left]; [easy|]. apply IH. }
  rewrite S. reflexivity.
Qed.
Lemma mp_ops_kind qs1 qs2 D1 D2 : len qs1 = len qs2 -> map kind (mp_ops qs1 D1) = map kind (mp_ops qs2 D2).
Proof.
  intros E. unfold mp_ops. cbn [map]. rewrite !map_app. cbn [map kind]. do 2 f_equal.
  revert qs2 E; induction qs1 as [|q l IH]; intros [|q2 l2] E; cbn in *; try discriminate; [easy|].
  do 3 f_equal. apply IH. lia.
Qed.
Lemma mp_ops_last qs D : exists l, last (mp_ops qs D) (TSep []) = TChallenge l.
Proof.
  exists (lbl "t"). unfold mp_ops.
  match goal with |- last (?a :: ?l ++ [?x; ?y; ?z]) _ = _ => replace (a :: l ++ [x; y; z]) with ((a :: l ++ [x; y]) ++ [z]) by (cbn; now rewrite <- app_assoc) end.
  apply last_last.
Qed.
Lemma mp_ops_inj qs1 : forall qs2 D1 D2, mp_ops qs1 D1 = mp_ops qs2 D2 -> len qs1 = len qs2 -> qs1 = qs2 /\ D1 = D2.
Proof.
  intros qs2 D1 D2 E. unfold mp_ops in E. injection E as E. revert qs2 E.
  induction qs1 as [|[c z y] l IH]; intros [|[c2 z2 y2] l2] E L; cbn [flat_map app List.length] in *; try discriminate.
  - injection E as <-. easy.
  - injection E as <- <- <- E. destruct (IH l2 E ltac:(lia)) as [-> ->]. easy.
Qed.
(** The inner-product verifier's use. *)
Lemma ipa_ops_run tr c z y Ls : forall Rs,
  run_ops tr (ipa_ops c z y Ls Rs) =
  let '(w, t) := ipa_absorb (domain_sep tr (lbl "ipa")) c z y in
  let '(xs, t) := generate_challenges t Ls Rs in (w :: xs, t).
Proof.
  intros Rs. unfold ipa_ops. cbn [run_ops app]. unfold ipa_absorb.
  destruct (challenge_scalar _ (lbl "w")) as [w t].
  assert (S : forall Ls Rs t, run_ops t (flat_map (fun '(l, r) => [TPoint (lbl "L") l; TPoint (lbl "R") r; TChallenge (lbl "x")]) (combine Ls Rs))
     = generate_challenges t Ls Rs).
  { clear. induction Ls as [|l Ls IH]; intros [|r Rs] t; cbn [combine flat_map app run_ops generate_challenges]; try easy.
    destruct (challenge_scalar _ (lbl "x")) as [x s]. now rewrite IH. }
  rewrite S. reflexivity.
Qed.
End TranscriptProofs.
