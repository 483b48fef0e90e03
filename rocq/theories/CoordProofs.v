(** The theorems of [RepRefine] and [RepProof] for generators that [stands_for] each other. *)
From Coq Require Import Permutation String.
From Verif Require Import Base BaseFacts Alg TreeSpec TrieModel CodecModel VerkleDbModel DbSpec MsmModel WireModel WireSpec ProofModel ProofSpec
  IpaModel LagrangeSpec IpaSpec CheckProofs StatelessModel StatelessSpec ElementModel ElementSpec CurveModel CurveSpec CurveAlg CurveRep CoordSpec RootTotal RepRefine RepProof CreatedFits
  Bander RealSpec RealRefine.
Local Open Scope list_scope.

Section Any.
Context {B : BaseField} {BL : BaseFieldLaws B} {CL : CurveLaws B} {A : Alg} {AL : AlgLaws A} {I : FrInt A} {SL : ScalarLaws B A I}.
Local Notation RA := (@rep_alg B BL A I).
Local Notation CA := (@curve_alg B BL A I).
Context {RP : Par RA} {CP : Par CA} {HS : Hasher}.
Hypothesis sf : @stands_for B BL A I RP CP.
Let h1 := sf_rhash _ _ sf.
Let h2 := sf_hash _ _ sf.
Let h3 := sf_crs _ _ sf.
Let h4 := sf_crsQ _ _ sf.
Definition sf_trie := coord_trie h1 h2 h3.
Definition sf_same_root := coord_same_root h1 h2 h3.
Definition sf_tables := coord_mem_seen h1 h2 h3.
Local Notation RC := (@rep_codec B BL A I).
Local Notation CC := (@curve_codec B BL A I).
Local Notation RD := (@verkle_db_ops RA RC).
Local Notation CD := (@verkle_db_ops CA CC).
Lemma sf_disk l : match @run_disk RA RP RC l, @run_disk CA CP CC l with
  | Ok v1, Ok v2 => (forall k, @trie_get RA _ RD v1 k = @trie_get CA _ CD v2 k) /\
      (exists c x, @root_commitment RA _ RD v1 = Ok c /\ @root_commitment CA _ CD v2 = Ok (elem c) /\
         @root_hash RA _ RD v1 = Ok x /\ @root_hash CA _ CD v2 = Ok x)
  | Panic, Panic => True
  | Panic, Ok _ => exists l1 l2 v, l = l1 ++ l2 /\ @run_disk RA RP RC l1 = Ok v /\ @record_refused RA RC (vd_storage v)
  | Ok _, Panic => False
  end.
Proof. exact (coord_disk_seen h1 h2 h3 l). Qed.
Lemma sf_history l : wf_ops l -> settled_ops l -> no_rewrite l ->
  (exists v db c x, @run_disk RA RP RC l = Ok v /\ @run_mem RA RP (contents l) = Ok db /\
     (forall k, @trie_get RA _ RD v k = @trie_get RA _ _ db k) /\
     @root_commitment RA _ RD v = Ok c /\ @root_hash RA _ RD v = Ok x /\
     (exists c', @root_commitment RA _ _ db = Ok c' /\ same_coord c c') /\
     @root_hash RA _ _ db = Ok x) \/
  (@run_disk RA RP RC l = Panic /\ exists l1 l2 v, l = l1 ++ l2 /\ @run_disk RA RP RC l1 = Ok v /\ @record_refused RA RC (vd_storage v)).
Proof. exact (coord_history h1 h2 h3 l). Qed.
Definition sf_created := coord_created_accepted h1 h2 h3 h4.
Definition sf_honest := coord_honest h1 h2 h3 h4.
Definition sf_check := check_same h1 h2 h3 h4.
Definition sf_update := update_same h1 h2 h3 h4.
Definition sf_same_proof := coord_same_proof h1 h2 h3 h4.
Definition sf_disk_proof := coord_disk_proof h1 h2 h3 h4.
Definition sf_stateless := coord_stateless h1 h2 h3 h4.
Definition sf_stateless_panics := coord_stateless_panics h1 h2 h3 h4.

Local Notation RE := (@rep_ecodec B BL A I).
Local Notation CE := (@curve_ecodec B BL A I).
Lemma sf_created_fits h db keys order p : wf_history h -> @run_mem RA RP h = Ok db -> Forall is_key keys -> (forall l, Permutation (order l) l) ->
  36 * Z.of_nat (List.length keys) < 2 ^ 32 -> @create_verkle_proof RA RE HS RP MemoryDb _ order db keys = Ok (Some p) -> proof_fits p.
Proof.
  intros Hw E Hk Ho Hn Cr. destruct (mem_pair h1 h2 h3 h db E) as (db2 & E2 & R).
  destruct (create_pair h3 h4 order db db2 keys p Ho R Cr) as (o2 & _ & Cr2). apply el_fits.
  pose proof (coord_par_laws h2) as PL.
  exact (@created_fits CA curve_laws CP PL CE HS h db2 keys o2 (el_vp p) Hw E2 Hk Hn Cr2).
Qed.
Lemma sf_sent h db keys order p : wf_history h -> @run_mem RA RP h = Ok db -> Forall is_key keys -> (forall l, Permutation (order l) l) ->
  36 * Z.of_nat (List.length keys) < 2 ^ 32 -> @create_verkle_proof RA RE HS RP MemoryDb _ order db keys = Ok (Some p) ->
  exists q, @proof_read RA RE (@proof_write RA RE p) = Ok (Some q) /\ same_proof p q.
Proof. intros Hw E Hk Ho Hn Cr. apply sent. exact (sf_created_fits h db keys order p Hw E Hk Ho Hn Cr). Qed.
Lemma root_sent (root : @G RA) : exists root', @el_de RA RE (@el_ser RA RE root) = Some root' /\ same_coord root root'.
Proof.
  pose proof (@curve_ecodec_laws B BL CL A AL I SL) as L.
  pose proof (@el_rt CA CE L (elem root)) as X. rewrite <- elem_ser, elem_de in X.
  destruct (@el_de RA RE (@el_ser RA RE root)) as [r|]; [|discriminate X]. exists r. split; [reflexivity|].
  apply (@same_iff B BL CL A I). cbn [option_map] in X. congruence.
Qed.
Lemma same_update_refl_l (x y : @vresult RA) : same_update x y -> match x with VOk g => exists h, y = VOk h /\ same_coord g h | VErr e => y = VErr e end.
Proof. destruct x, y; cbn; intro H; try contradiction; [eauto|congruence]. Qed.
Hypothesis fits : @domain_fits A 256.
Lemma sf_end_to_end h db keys order p :
  wf_history h -> @run_mem RA RP h = Ok db -> keys <> [] -> Forall is_key keys ->
  @distinguishable CA CP (final_map h) (stems_of h) keys -> (forall l, Permutation (order l) l) ->
  36 * Z.of_nat (List.length keys) < 2 ^ 32 -> @create_verkle_proof RA RE HS RP MemoryDb _ order db keys = Ok (Some p) ->
  exists root q root' qs uh, @root_commitment RA _ _ db = Ok root /\
    @proof_read RA RE (@proof_write RA RE p) = Ok (Some q) /\ @el_de RA RE (@el_ser RA RE root) = Some root' /\
    @create_verifier_queries RA RP (vp_hint p) (vp_comms p) keys (map (final_map h) keys) root = Ok (Some (qs, uh)) /\
    (@outside_domain RA 256 (fst (@mp_t RA RE HS (tr_new (lbl "vt"%string)) qs (mp_g (vp_proof p)))) ->
     exists uh', @proof_check RA RE HS RP q keys (map (final_map h) keys) root' = Ok (true, Some uh')).
Proof.
  intros Hw E Nk Hk Hd Ho Hn Cr.
  destruct (sf_created fits h db keys order p Hw E Nk Hk Hd Ho Cr) as (root & qs & uh & Er & Eq & Ck).
  destruct (sf_sent h db keys order p Hw E Hk Ho Hn Cr) as (q & Rd & Sp). destruct (root_sent root) as (root' & Rr & Sr).
  exists root, q, root', qs, uh. split; [exact Er|]. split; [exact Rd|]. split; [exact Rr|]. split; [exact Eq|].
  intro O. specialize (Ck O). pose proof (sf_check p q root root' keys (map (final_map h) keys) Sp Sr) as S.
  rewrite Ck in S. destruct (@proof_check RA RE HS RP q keys (map (final_map h) keys) root') as [[b o]|]; [|destruct S].
  destruct S as [S1 S2]. cbn [fst snd] in *. subst b. destruct o as [uh'|]; [exists uh'; reflexivity|].
  destruct S2 as [_ S2]. discriminate (S2 eq_refl).
Qed.
End Any.

(** Every choice of coordinates for the generators. *)
Section Gens.
Context {B : BaseField} {BL : BaseFieldLaws B} {A : Alg} {I : FrInt A}.
Lemma stands_any (gens : Z -> Coord) (Q : Coord) : @stands_for B BL A I (rep_par gens Q) (curve_par (fun i => elem (gens i)) (elem Q)).
Proof. constructor; reflexivity. Qed.
End Gens.

Section Default.
#[local] Existing Instance bander_laws.
#[local] Existing Instance bander_curve.
#[local] Existing Instance bander_scalars.
#[local] Existing Instance BanderF_laws.
Lemma default_stands : @stands_for Bander bander_laws BanderF BanderI default_par real_par.
Proof. constructor; [exact default_rhash|exact default_chash|exact default_crs|exact default_crsQ]. Qed.
End Default.

