(** Proofs for sets of keys ([KeySetProofs]) on coordinates. *)
From Coq Require Import Permutation String.
From Verif Require Import Base BaseFacts Alg TreeSpec TrieModel CodecModel VerkleDbModel DbSpec MsmModel WireModel WireSpec ProofModel ProofSpec
  IpaModel LagrangeSpec IpaSpec CheckProofs KeySetProofs ElementModel ElementSpec CurveModel CurveSpec CurveAlg CurveRep CoordSpec RootTotal RepRefine RepProof Refine RefineProof.
Local Open Scope list_scope.

Section Rep.
Context {B : BaseField} {BL : BaseFieldLaws B} {CL : CurveLaws B} {A : Alg} {AL : AlgLaws A} {I : FrInt A} {SL : ScalarLaws B A I}.
Local Notation RA := (@rep_alg B BL A I).
Local Notation CA := (@curve_alg B BL A I).
Local Notation RE := (@rep_ecodec B BL A I).
Local Notation CE := (@curve_ecodec B BL A I).
Context {RP : Par RA} {CP : Par CA} {HS : Hasher}.
Lemma coord_set_proof : @stands_for B BL A I RP CP -> @domain_fits A 256 -> forall h1 h2 db1 db2 keys1 keys2 o1 o2 p1, wf_history h1 -> wf_history h2 -> (forall k, final_map h1 k = final_map h2 k) ->
  @run_mem RA RP h1 = Ok db1 -> @run_mem RA RP h2 = Ok db2 -> Forall is_key keys1 -> (forall k, In k keys1 <-> In k keys2) ->
  (forall l, Permutation (o1 l) l) -> (forall l, Permutation (o2 l) l) ->
  @create_verkle_proof RA RE HS RP MemoryDb _ o1 db1 keys1 = Ok (Some p1) ->
  exists qs, @create_proof_parts RA MemoryDb _ db1 keys1 = Ok (Some (qs, vp_hint p1, vp_comms p1)) /\
  (@outside_domain RA 256 (fst (@mp_t RA RE HS (tr_new (lbl "vt"%string)) (map public_query qs) (mp_g (vp_proof p1)))) ->
   exists p2, @create_verkle_proof RA RE HS RP MemoryDb _ o2 db2 keys2 = Ok (Some p2) /\ same_proof p1 p2 /\ @proof_write RA RE p1 = @proof_write RA RE p2).
Proof.
  intros sf fits h1 h2 db1 db2 keys1 keys2 o1 o2 p1 W1 W2 Em E1 E2 Hk Hs O1 O2 C1. destruct sf as [s1 s2 s3 s4].
  destruct (mem_pair s1 s2 s3 h1 db1 E1) as (d1 & F1 & R1). destruct (mem_pair s1 s2 s3 h2 db2 E2) as (d2 & F2 & R2).
  destruct (create_pair s3 s4 o1 db1 d1 keys1 p1 O1 R1 C1) as (q1 & P1 & K1). destruct (create_pair_back s3 s4 o2 db2 d2 keys2 O2 R2) as (q2 & P2 & K2).
  destruct (@same_set_proof CA curve_laws CP (coord_par_laws s2) CE HS fits h1 h2 d1 d2 keys1 keys2 q1 q2 _ W1 W2 Em F1 F2 Hk Hs P1 P2 K1) as (qs2 & Ep & X).
  destruct (parts_pair o1 db1 d1 keys1 p1 R1 C1 _ _ _ Ep) as (qs & Eq & Et). exists qs. split; [exact Eq|]. intro O. rewrite Et in O.
  destruct (K2 p1 (X O)) as (p2 & C2 & Sp). exists p2. split; [exact C2|]. split; [exact Sp|now apply write_same_any].
Qed.
Lemma coord_any_listing : @stands_for B BL A I RP CP -> @domain_fits A 256 -> forall h db keys1 keys2 order p,
  wf_history h -> @run_mem RA RP h = Ok db -> keys1 <> [] -> Forall is_key keys1 -> (forall k, In k keys1 <-> In k keys2) ->
  @distinguishable CA CP (final_map h) (stems_of h) keys1 -> (forall l, Permutation (order l) l) ->
  @create_verkle_proof RA RE HS RP MemoryDb _ order db keys1 = Ok (Some p) ->
  exists root qs uh, @root_commitment RA _ _ db = Ok root /\
    @create_verifier_queries RA RP (vp_hint p) (vp_comms p) keys2 (map (final_map h) keys2) root = Ok (Some (qs, uh)) /\
    (@outside_domain RA 256 (fst (@mp_t RA RE HS (tr_new (lbl "vt"%string)) qs (mp_g (vp_proof p)))) ->
     @proof_check RA RE HS RP p keys2 (map (final_map h) keys2) root = Ok (true, Some uh)).
Proof.
  intros sf fits h db keys1 keys2 order p W E Nk Hk Hs Hd Ho Cr. destruct sf as [s1 s2 s3 s4]. destruct (mem_pair s1 s2 s3 h db E) as (db2 & E2 & HR).
  destruct (create_pair s3 s4 order db db2 keys1 p Ho HR Cr) as (o2 & P2 & Cr2).
  destruct (@any_listing CA curve_laws CP (coord_par_laws s2) CE HS fits h db2 keys1 keys2 o2 (el_vp p) W E2 Nk Hk Hs Hd P2 Cr2) as (root2 & qs2 & uh2 & R2 & Q2 & K).
  destruct (root_pair db db2 root2 HR R2) as (root & R1 & Er). subst root2.
  change (@vp_comms CA (el_vp p)) with (map (@elem B BL A I) (vp_comms p)) in Q2. change (@vp_hint CA (el_vp p)) with (@vp_hint RA p) in Q2.
  rewrite (coord_queries s1 s2) in Q2. destruct (@create_verifier_queries RA RP _ _ _ _ _) as [[[qs uh]|]|] eqn:Eq; cbn [ok_map option_map fst snd] in Q2; try discriminate.
  exists root, qs, uh. split; [exact R1|]. split; [exact Eq|]. intro O.
  assert (Eqs : map el_vq qs = qs2) by congruence. subst qs2. rewrite coord_t in O. specialize (K O). rewrite (coord_check s1 s2 s3 s4) in K.
  destruct (@proof_check RA RE HS RP p keys2 (map (final_map h) keys2) root) as [[b o]|] eqn:Ck; cbn [ok_map fst snd] in K; [|discriminate].
  rewrite (check_hint p keys2 _ root qs uh b o Eq Ck). assert (b = true) by congruence. now subst b.
Qed.
End Rep.
