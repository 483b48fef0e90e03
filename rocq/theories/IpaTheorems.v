(** The theorems about the inner-product and multipoint arguments, in the words of
    their specifications. *)
From Coq Require Import String Permutation.
From Verif Require Import Base BaseFacts Alg AlgFacts WireModel ProofModel IpaModel LagrangeSpec IpaSpec IpaProofs LagrangeProofs
  MultiProofs TranscriptSpec TranscriptProofs.
Local Open Scope list_scope.

Section IpaTheorems.
Context {A : Alg} {AL : AlgLaws A} {C : ECodec A} {H : Hasher}.
Notation len := List.length.

Lemma ipa_accepted tr crs k a b z :
  crs_n crs = (2 ^ k)%nat -> len (crs_G crs) = (2 ^ k)%nat -> len a = (2 ^ k)%nat -> len b = (2 ^ k)%nat ->
  let c := commit (2 ^ k) a (crs_G crs) in
  (forall p tr', ipa_create tr crs a c b z = Ok (p, tr') ->
     len (ipa_L p) = k /\ len (ipa_R p) = k /\ ipa_verify p tr crs b c z (dot (2 ^ k) a b) = Ok true) /\
  (ipa_create tr crs a c b z <> Panic <-> Forall (fun x => x <> fzero) (ipa_challenges k tr crs a c b z)).
Proof.
  intros En EG Ea Eb c. split; [|now apply ipa_create_iff].
  intros p tr'. unfold c. rewrite dot_ip by lia. rewrite commit_gdot by lia. now apply ipa_complete.
Qed.

Lemma ipa_verifiers_agree p tr crs k b c z y :
  len (ipa_L p) = k -> len (ipa_R p) = k -> crs_n crs = (2 ^ k)%nat -> len (crs_G crs) = (2 ^ k)%nat ->
  len b = (2 ^ k)%nat ->
  exists v, ipa_verify p tr crs b c z y = Ok v /\ ipa_verify_multiexp p tr crs b c z y = Ok v /\
    ipa_verify_semi p tr crs b c z y = Ok v.
Proof.
  intros. exists (ipa_equation p tr crs b c z y).
  split; [|split]; [eapply verify_eq|eapply verify_multiexp_eq|eapply verify_semi_eq]; eassumption.
Qed.

(** ** Lagrange basis *)
Lemma lagrange_weights n : domain_fits n -> (0 < n)%nat -> exists pw, precomputed_weights n = Ok pw /\
  (forall i, (i < n)%nat -> prod_except n i (pt i) <> fzero /\
     get_barycentric_weight pw i = Ok (prod_except n i (pt i)) /\
     get_inverse_barycentric_weight pw i = Ok (finv (prod_except n i (pt i)))) /\
  (forall k, (0 < k < n)%nat ->
     get_inverted_element pw k false = Ok (finv (pt k)) /\ get_inverted_element pw k true = Ok (fopp (finv (pt k)))).
Proof.
  intros Hfit Hn. exists (weights n). split; [now apply weights_ok|]. split.
  - intros i Hi. rewrite prod_except_mfun. split; [now apply mfun_self|]. split; [now apply weight_get|now apply inverse_weight_get].
  - intros k Hk. split; [now apply (inverted_get n Hn k false)|now apply (inverted_get n Hn k true)].
Qed.

Lemma lagrange_evaluation n pw f t : domain_fits n -> (0 < n)%nat -> precomputed_weights n = Ok pw ->
  (len f <= n)%nat -> outside_domain n t ->
  exists b, evaluate_lagrange_coefficients pw n t = Ok b /\ len b = n /\ inner_product (values_of f n) b = peval f t.
Proof.
  intros Hfit Hn Ep Lf O. rewrite weights_ok in Ep by assumption. injection Ep as <-.
  eexists. split; [now apply coefficients_ok|]. split; [now rewrite map_length, seq_length|now apply eval_ok].
Qed.

Lemma lagrange_division n pw f i : domain_fits n -> (0 < n)%nat -> precomputed_weights n = Ok pw ->
  (len f <= n)%nat -> (i < n)%nat ->
  exists g, len g = (len f - 1)%nat /\ (forall x, fmul (fsub x (pt i)) (peval g x) = fsub (peval f x) (peval f (pt i))) /\
    divide_by_linear_vanishing (lb_new (values_of f n)) pw i = Ok (lb_new (values_of g n)).
Proof.
  intros Hfit Hn Ep Lf Hi. rewrite weights_ok in Ep by assumption. injection Ep as <-.
  exists (sdiv (pt i) f). split; [apply len_sdiv|]. split; [intro x; symmetry; apply peval_sdiv|now apply divide_ok].
Qed.

Lemma in_domain n f i : (i < n)%nat -> evaluate_in_domain (lb_new (values_of f n)) i = Ok (peval f (pt i)).
Proof.
  intros Hi. unfold evaluate_in_domain, index. cbn [lb_new lb_values]. unfold values_of.
  rewrite nth_error_map. assert (E : nth_error (seq 0 n) i = Some i).
  { rewrite (nth_error_nth' _ O) by now rewrite seq_length. now rewrite seq_nth. }
  rewrite E. reflexivity.
Qed.

(** ** Multipoint argument *)
Section Multi.
Variables (n k : nat) (pw : PrecomputedWeights) (crs : CRS).
Hypothesis Hfit : domain_fits n.
Hypothesis Hk : n = (2 ^ k)%nat.
Hypothesis Hcn : crs_n crs = n.
Hypothesis HG : len (crs_G crs) = n.
Hypothesis Hpw : precomputed_weights n = Ok pw.

Lemma pos_n : (0 < n)%nat. Proof. rewrite Hk. clear. induction k; cbn; lia. Qed.

Lemma multi_theorem order tr qs : (forall l, Permutation (order l) l) -> qs <> [] -> Forall (good_query n (crs_G crs)) qs ->
  outside_domain n (mp_honest_t n tr crs qs) ->
  (Forall (fun x => x <> fzero) (mp_honest_challenges k tr crs qs) -> exists p s,
     mp_open order crs pw tr qs = Ok (p, s) /\ mp_check p crs pw (map public_query qs) tr = Ok true) /\
  (~ Forall (fun x => x <> fzero) (mp_honest_challenges k tr crs qs) -> mp_open order crs pw tr qs = Panic).
Proof.
  intros Ho Hq Hg O. pose proof pos_n as Hn. rewrite weights_ok in Hpw by assumption. injection Hpw as <-. split; intros F.
  - eapply multi_complete; eassumption.
  - eapply multi_panic; try eassumption. eapply good_fits. exact Hg.
Qed.

(** For any queries, true or not: the prover panics exactly when one of its challenges is zero. *)
Lemma multi_total order tr qs : (forall l, Permutation (order l) l) -> qs <> [] -> Forall (fitting_query n) qs ->
  outside_domain n (mp_honest_t n tr crs qs) ->
  (mp_open order crs pw tr qs = Panic <-> ~ Forall (fun x => x <> fzero) (mp_honest_challenges k tr crs qs)).
Proof.
  intros Ho Hq Hf O. pose proof pos_n as Hn. rewrite weights_ok in Hpw by assumption. injection Hpw as <-. split.
  - intros Op X. destruct (multi_returns n Hfit Hn order crs k tr qs Ho Hk Hcn HG Hq Hf O X) as (p & s & E). congruence.
  - intro X. eapply multi_panic; eassumption.
Qed.

(** Whatever the prover returns is accepted. *)
Lemma multi_created order tr qs p s : (forall l, Permutation (order l) l) -> qs <> [] -> Forall (good_query n (crs_G crs)) qs ->
  mp_open order crs pw tr qs = Ok (p, s) ->
  outside_domain n (fst (mp_t tr (map public_query qs) (mp_g p))) ->
  mp_check p crs pw (map public_query qs) tr = Ok true.
Proof.
  intros Ho Hq Hg Op. pose proof pos_n as Hn. rewrite weights_ok in Hpw by assumption. injection Hpw as <-.
  eapply multi_accept; eassumption.
Qed.

Lemma multi_order_irrelevant order1 order2 tr qs : (forall l, Permutation (order1 l) l) -> (forall l, Permutation (order2 l) l) ->
  qs <> [] -> Forall (fitting_query n) qs -> outside_domain n (mp_honest_t n tr crs qs) ->
  mp_open order1 crs pw tr qs = mp_open order2 crs pw tr qs.
Proof.
  intros Ho1 Ho2 Hq Hg O. pose proof pos_n as Hn. rewrite weights_ok in Hpw by assumption. injection Hpw as <-.
  assert (O' : outside_domain n (tt n crs tr qs)).
  { erewrite <- (honest_t_eq n Hfit Hn crs k tr qs); eassumption. }
  rewrite (open_eq n Hfit Hn order1 crs k tr qs) by assumption.
  rewrite (open_eq n Hfit Hn order2 crs k tr qs) by assumption. reflexivity.
Qed.
End Multi.

(** ** Transcript *)
Lemma mp_binds {CL : ECodecLaws C} tr1 tr2 qs1 qs2 D1 D2 : len tr1 = len tr2 -> len qs1 = len qs2 ->
  no_collision (hash_inputs tr1 (mp_ops qs1 D1)) (hash_inputs tr2 (mp_ops qs2 D2)) ->
  fst (mp_t tr1 qs1 D1) = fst (mp_t tr2 qs2 D2) -> tr1 = tr2 /\ qs1 = qs2 /\ D1 = D2.
Proof.
  intros L Lq NC E.
  destruct (last_input_binds (mp_ops qs1 D1) (mp_ops qs2 D2) tr1 tr2) as [Et Eo]; try assumption.
  - now apply mp_ops_kind.
  - apply mp_ops_last.
  - rewrite !mp_ops_run. exact E.
  - split; [exact Et|]. now apply mp_ops_inj.
Qed.

Lemma mp_t_inputs tr qs D : exists i1 i2, hash_inputs tr (mp_ops qs D) = [i1; i2] /\
  fst (mp_r tr qs) = to_scalar (sha256 i1) /\ fst (mp_t tr qs D) = to_scalar (sha256 i2) /\
  i1 = tr ++ lbl "multiproof" ++ flat_map (fun q => lbl "C" ++ el_ser (vq_comm q) ++ lbl "z" ++ sc_ser (vq_point q) ++ lbl "y" ++ sc_ser (vq_result q)) qs ++ lbl "r" /\
  i2 = lbl "r" ++ sc_ser (fst (mp_r tr qs)) ++ lbl "D" ++ el_ser D ++ lbl "t".
Proof.
  pose proof (run_challenges (mp_ops qs D) tr) as R. rewrite mp_ops_run in R. cbn [fst] in R.
  assert (I : hash_inputs tr (mp_ops qs D) =
    [tr ++ lbl "multiproof" ++ flat_map (fun q => lbl "C" ++ el_ser (vq_comm q) ++ lbl "z" ++ sc_ser (vq_point q) ++ lbl "y" ++ sc_ser (vq_result q)) qs ++ lbl "r";
     lbl "r" ++ sc_ser (to_scalar (sha256 (tr ++ lbl "multiproof" ++ flat_map (fun q => lbl "C" ++ el_ser (vq_comm q) ++ lbl "z" ++ sc_ser (vq_point q) ++ lbl "y" ++ sc_ser (vq_result q)) qs ++ lbl "r")))
       ++ lbl "D" ++ el_ser D ++ lbl "t"]).
  { unfold mp_ops. cbn [hash_inputs]. rewrite app_assoc. generalize (tr ++ lbl "multiproof"). clear.
    induction qs as [|q l IH]; intros s; cbn [flat_map app hash_inputs].
    - rewrite <- !app_assoc. reflexivity.
    - rewrite IH, <- !app_assoc. reflexivity. }
  rewrite I in *. clear I.
  match goal with |- exists i1 i2, [?a; ?b] = _ /\ _ => set (i1 := a) in * end.
  pose proof (f_equal (fun l => nth 0 l fzero) R) as R1. pose proof (f_equal (fun l => nth 1 l fzero) R) as R2. cbn [map nth] in R1, R2.
  exists i1. eexists. split; [reflexivity|]. split; [exact R1|]. split; [exact R2|]. split; [reflexivity|]. rewrite R1. reflexivity.
Qed.

Lemma mp_r_binds {CL : ECodecLaws C} (tr : bytes) qs1 qs2 D1 D2 : 
  nth_error (hash_inputs tr (mp_ops qs1 D1)) 0 = nth_error (hash_inputs tr (mp_ops qs2 D2)) 0 -> qs1 = qs2.
Proof.
  destruct (mp_t_inputs tr qs1 D1) as (i1 & i2 & -> & _ & _ & E1 & _).
  destruct (mp_t_inputs tr qs2 D2) as (j1 & j2 & -> & _ & _ & E2 & _). cbn [nth_error]. intros [= E]. subst.
  apply app_inv_head, app_inv_head, app_inv_tail in E. revert qs2 E.
  induction qs1 as [|[c z y] l IH]; intros [|[c2 z2 y2] l2] E; cbn [flat_map] in E; try easy.
  cbn [vq_comm vq_point vq_result] in E. rewrite <- !app_assoc in E.
  apply app_inv_head in E. apply app_inj_len in E as [E1 E]; [|now rewrite !el_len].
  apply app_inv_head in E. apply app_inj_len in E as [E2 E]; [|now rewrite !sc_len].
  apply app_inv_head in E. apply app_inj_len in E as [E3 E]; [|now rewrite !sc_len].
  f_equal; [|now apply IH]. f_equal; [|now apply sc_ser_inj|now apply sc_ser_inj].
  apply (f_equal el_de) in E1. rewrite !el_rt in E1. congruence.
Qed.
End IpaTheorems.
