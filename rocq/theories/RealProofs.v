(** The theorems on coordinates with the default generators. *)
From Coq Require Import Znumtheory.
From Verif Require Import Base BaseFacts Alg AlgInst TreeSpec TrieModel CodecModel VerkleDbModel DbSpec MsmModel MsmSpec MsmProofs MsmInst MsmInt WireModel IpaModel IpaSpec LagrangeSpec IpaInst IpaTheorems
  FfiModel FfiSpec ElementModel ElementSpec ElementProofs CurveModel CurveSpec CurveProofs CurveAlg CurveRep CurveCount CurveOrder RepSpec RepFfi DiskWeak RepDisk
  Bander CrsModel DefaultCrs RealSpec CrsCheck CrsCert CrsProofs.
Local Open Scope Z_scope.
#[local] Existing Instance bander_laws.
#[local] Existing Instance bander_curve.
#[local] Existing Instance bander_scalars.
#[local] Existing Instance BanderF_laws.
Local Notation RA := (@rep_alg Bander bander_laws BanderF BanderI).
Local Notation RI := (@rep_int Bander bander_laws BanderF BanderI).
Local Notation RC := (@rep_codec Bander bander_laws BanderF BanderI).
Local Notation int := (@fr_int RA RI).
Local Notation P := default_par.


Section Rep.
Context {B : BaseField} {BL : BaseFieldLaws B} {CL : CurveLaws B} {A : Alg} {AL : AlgLaws A} {I : FrInt A} {SL : ScalarLaws B A I}.
Lemma co_hash_zero : @co_hash B A co_zero = @fzero A.
Proof.
  unfold co_hash. rewrite (scalar_zero (of_affine (coords co_zero))); [exact of_Z_0| |].
  - exists (coords co_zero). split; [apply holds_of_affine|apply co_valid].
  - unfold element_is_zero. rewrite (eqb_theorem _ _ (coords co_zero) (mkAff 0 1)%fq (holds_of_affine _) zero_holds (proj1 (co_valid co_zero)) zero_on_curve).
    apply same_refl.
Qed.
Lemma rep_weights n : @domain_fits A n -> (0 < n)%nat -> exists pw, @precomputed_weights (@rep_alg B BL A I) n = Ok pw.
Proof.
  intros D Hn. destruct (lagrange_weights n D Hn) as (pw & E & _). unfold precomputed_weights in *.
  apply rbind_ok in E as (wis & E1 & E). apply rbind_ok in E as (u & E2 & E). apply rbind_ok in E as (ks & E3 & E).
  eexists. etransitivity; [apply (f_equal (fun r => rbind r _)); exact E1|]. cbn [rbind].
  etransitivity; [apply (f_equal (fun r => rbind r _)); exact E2|]. cbn [rbind].
  etransitivity; [apply (f_equal (fun r => rbind r _)); exact E3|]. cbn [rbind]. reflexivity.
Qed.
End Rep.

Lemma default_hash_zero : @hash RA P gzero = @fzero RA.
Proof.
  unfold default_par. destruct (crs_from_bytes default_crs_bytes) as [[gens Q]|]; cbn [par_of]; exact (@co_hash_zero Bander bander_laws BanderF BanderF_laws).
Qed.

Lemma bander_fits : @domain_fits BanderF 256.
Proof.
  intros k Hk E. apply (f_equal (@fr_int BanderF BanderI)) in E. rewrite <- (@of_Z_0 BanderF _) in E.
  pose proof bander_big. change (Z.of_nat 256) with 256 in Hk.
  assert (256 < 2 ^ 240) by reflexivity.
  rewrite !(@scalar_int_of Bander BanderF _ BanderI _) in E by lia. lia.
Qed.

Section Ctx.
Context {W : Wnaf RA}.
Lemma committer_made (points : list (@G RA)) : (5 <= length points)%nat -> exists c, committer_new points = Ok c.
Proof.
  intros Hp. unfold committer_new. destruct (Nat.leb_spec 5 (length points)); [|lia]. cbn [assertb rbind].
  unfold msm_new. change (assertb ((0 <? 16)%nat && (16 <? 32)%nat)) with (Ok tt). cbn [rbind]. eauto.
Qed.
Lemma default_context : exists cx, @context_new RA P W = Ok cx.
Proof.
  unfold context_new. destruct (committer_made (crs_G (@trie_crs RA P))) as (c & E).
  { unfold trie_crs. cbn [crs_G]. rewrite map_length, seq_length. lia. }
  rewrite E. cbn [rbind]. clear E.
  destruct (@rep_weights Bander _ BanderF _ BanderI 256 bander_fits ltac:(lia)) as (pw & ->). cbn [rbind]. eauto.
Qed.
End Ctx.

Local Opaque default_par.
Lemma default_check i : 0 <= i < 256 -> negb (point_check (coords (@crs RA P i))) = unreadable i.
Proof. intros Hi. rewrite <- (default_twisted i Hi). reflexivity. Qed.
Lemma default_prime i : 0 <= i < 256 -> (prime_order (coords (@crs RA P i)) <-> unreadable i = false).
Proof.
  intros Hi. rewrite <- (default_check i Hi), negb_false_iff, point_check_iff. split; [|now intros [_ E]].
  intros E. split; [apply co_valid|exact E].
Qed.

Lemma and_right (a b c : bool) : b = c -> a && b = a && c.
Proof. now intros ->. Qed.

(** ** The disk *)
Lemma bander_big' : 2 ^ 129 < Z.of_nat (@q_order Bander).
Proof. eapply Z.lt_trans; [|exact bander_big]. reflexivity. Qed.
Lemma odd_cases (X Y : Prop) (h : bool) : (X \/ xorb (xorb true false) h = true \/ Y) <-> (X \/ h = false \/ Y).
Proof. destruct h; cbn [xorb]; intuition congruence. Qed.
Theorem default_reopen k x k2 x2 : is_key k -> is_key k2 -> length x = 32%nat -> is_bytes x ->
  firstn 31 k2 = firstn 31 k -> (k2, x2) <> (k, x) ->
  (@run_disk RA P RC [OInsert k x; OFlush; OReopen; OInsert k2 x2] = Panic <->
   xorb (Z.odd (nth 0 x 0) && unreadable (2 * (nth 31 k 0 mod 128))) (Z.odd (nth 16 x 0) && unreadable (2 * (nth 31 k 0 mod 128) + 1)) = true \/
   Z.odd (int (@hash RA P (@key_half RA P k x))) = false \/
   Z.odd (int (@hash RA P (@key_stem RA P k x))) = true /\ unreadable (nth 0 k 0) = true).
Proof.
  intros Hk Hk2 Lx Bx Es Hd. rewrite (@rep_reopen Bander _ _ BanderF _ BanderI _ P k x k2 x2 Hk Hk2 Lx Es Hd).
  assert (Hm : 0 <= nth 31 k 0 mod 128 < 128) by (apply Z.mod_pos_bound; lia).
  rewrite (@half_twisted Bander _ _ BanderF _ BanderI _ P k x bander_big' Lx Bx), !default_twisted by lia.
  rewrite (@stem_twisted Bander _ _ BanderF _ BanderI _ P k x), (@root_twisted Bander _ _ BanderF _ BanderI _ P k x), default_hash_zero.
  rewrite (@sub_zero Bander _ BanderF _ BanderI).
  rewrite (default_twisted 0), (default_twisted 1), (default_twisted (if nth 31 k 0 <? 128 then 2 else 3)) by (destruct (nth 31 k 0 <? 128); lia).
  rewrite (default_twisted (nth 0 k 0)).
  2: { destruct Hk as [Lk Bk]. apply (proj1 (Forall_forall _ _) Bk). apply nth_In. lia. }
  change (unreadable 0) with true. change (unreadable 1) with false.
  replace (unreadable (if nth 31 k 0 <? 128 then 2 else 3)) with true by (destruct (nth 31 k 0 <? 128); reflexivity).
  rewrite !andb_false_r, andb_true_r, andb_true_iff. apply odd_cases.
Qed.

(** ** The foreign-function interface *)
Local Notation RE := (@rep_ecodec Bander bander_laws BanderF BanderI).
Local Notation same_point := (@same_point Bander bander_laws BanderF BanderI).
#[local] Existing Instance rep_int.
#[local] Existing Instance rep_ecodec.
#[local] Existing Instance default_par.
Section Ffi.
Context {W : Wnaf RA} {WL : WnafLaws W}.
Theorem default_update (cx : @Context_ RA) split (v : list (@F RA)) c i x w : context_new = Ok cx -> (length v <= 256)%nat ->
  commit_to_scalars split cx (scalars_bytes v) = Ok (FOk c) -> 0 <= i -> nth_error v (Z.to_nat i) = Some x ->
  exists out c', update_commitment cx c i (sc_ser x) (sc_ser w) = Ok (FOk out) /\
    commit_to_scalars split cx (scalars_bytes (replace v (Z.to_nat i) w)) = Ok (FOk c') /\
    same_point out c' /\ (out = c' <-> unreadable i = false \/ int x <= int w).
Proof.
  intros Hc Hv Ec Hi Hx.
  destruct (@update_bytes Bander _ _ BanderF _ BanderI _ P W WL bander_big cx split v c i x w Hc Hv Ec Hi Hx) as (out & c' & E1 & E2 & E3 & E4).
  exists out, c'. split; [exact E1|]. split; [exact E2|]. split; [exact E3|]. rewrite E4, default_prime; [reflexivity|].
  assert (Z.to_nat i < length v)%nat by (apply nth_error_Some; congruence). lia.
Qed.
Theorem default_sparse (cx : @Context_ RA) split (v : list (@F RA)) c l : context_new = Ok cx -> (length v <= 256)%nat ->
  commit_to_scalars split cx (scalars_bytes v) = Ok (FOk c) -> changes_of v l ->
  exists out c', update_commitment_sparse cx c (map ch_index l) (map (fun c => sc_ser (ch_old c)) l) (map (fun c => sc_ser (ch_new c)) l) = Ok (FOk out) /\
    commit_to_scalars split cx (scalars_bytes (replace_all v l)) = Ok (FOk c') /\
    same_point out c' /\
    (out = c' <-> Nat.even (length (filter (fun c => (int (ch_new c) <? int (ch_old c)) && unreadable (Z.of_nat (ch_index c))) l)) = true).
Proof.
  intros Hc Hv Ec Hl.
  destruct (@sparse_bytes Bander _ _ BanderF _ BanderI _ P W WL bander_big cx split v c l Hc Hv Ec Hl) as (out & c' & E1 & E2 & E3 & E4).
  exists out, c'. split; [exact E1|]. split; [exact E2|]. split; [exact E3|]. rewrite E4.
  erewrite (filter_ext_in _ (fun c => (int (ch_new c) <? int (ch_old c)) && unreadable (Z.of_nat (ch_index c)))); [reflexivity|].
  intros e He. cbv beta. apply and_right. apply default_check. destruct Hl as [_ Hl]. rewrite Forall_forall in Hl. specialize (Hl e He).
  assert (ch_index e < length v)%nat by (apply nth_error_Some; congruence). lia.
Qed.
(** Counting over positions. *)
Lemma filter_positions {X Y} (f : X * Y -> bool) (g : nat -> Y) d (l : list X) : forall k n, (length l <= n)%nat ->
  length (filter f (combine l (map g (seq k n)))) = length (filter (fun i => f (nth (i - k) l d, g i)) (seq k (length l))).
Proof.
  induction l as [|x l IH]; intros k [|n] Hn; cbn [length] in *; try lia; [reflexivity|reflexivity|].
  cbn [seq map combine filter]. rewrite Nat.sub_diag. cbn [nth].
  assert (E : length (filter f (combine l (map g (seq (S k) n)))) =
    length (filter (fun i => f (nth (i - k) (x :: l) d, g i)) (seq (S k) (length l)))).
  { rewrite IH by lia. f_equal. apply filter_ext_in. intros i Hi. apply in_seq in Hi.
    replace (i - k)%nat with (S (i - S k)) by lia. reflexivity. }
  cbn [nth] in E. destruct (f (x, g k)); cbn [length]; now rewrite E.
Qed.
Theorem default_commit_readable (cx : @Context_ RA) split (v : list (@F RA)) c : context_new = Ok cx -> (length v <= 256)%nat ->
  commit_to_scalars split cx (scalars_bytes v) = Ok (FOk c) ->
  ((exists e r, @deserialize_uncompressed Bander c = Some (e, r)) <->
   Nat.even (length (filter (fun i => Z.odd (int (nth i v fzero)) && unreadable (Z.of_nat i)) (seq 0 (length v)))) = true).
Proof.
  intros Hc Hv Ec. rewrite (@commit_readable Bander _ _ BanderF _ BanderI _ P W WL bander_big cx split v c Hc Hv Ec).
  unfold trie_crs. cbn [crs_G].
  rewrite (filter_positions _ _ (fzero : @F RA) v 0 256 Hv).
  erewrite (filter_ext_in _ (fun i => Z.odd (int (nth i v fzero)) && unreadable (Z.of_nat i))); [reflexivity|].
  intros i Hi. apply in_seq in Hi. cbn [fst snd]. rewrite Nat.sub_0_r. apply and_right. apply default_check. lia.
Qed.
Theorem default_add (cx : @Context_ RA) split (a b : list (@F RA)) ca cb : context_new = Ok cx -> length a = length b -> (length a <= 256)%nat ->
  commit_to_scalars split cx (scalars_bytes a) = Ok (FOk ca) -> commit_to_scalars split cx (scalars_bytes b) = Ok (FOk cb) ->
  exists out c', @add_commitment RA RE ca cb = Ok out /\
    commit_to_scalars split cx (scalars_bytes (map (fun '(x, y) => fadd x y) (combine a b))) = Ok (FOk c') /\
    same_point out c' /\
    (out = c' <-> Nat.even (length (filter (fun i => (bander_r <=? int (nth i a fzero) + int (nth i b fzero)) && unreadable (Z.of_nat i)) (seq 0 (length a)))) = true).
Proof.
  intros Hc Hl Hv Ea Eb.
  destruct (@add_bytes Bander _ _ BanderF _ BanderI _ P W WL bander_big cx split a b ca cb Hc Hl Hv Ea Eb) as (out & c' & E1 & E2 & E3 & E4).
  exists out, c'. split; [exact E1|]. split; [exact E2|]. split; [exact E3|]. rewrite E4.
  unfold trie_crs. cbn [crs_G].
  assert (L : length (combine a b) = length a) by (rewrite combine_length; lia).
  rewrite (filter_positions _ _ (fzero : @F RA, fzero : @F RA) (combine a b) 0 256) by lia. rewrite L.
  erewrite (filter_ext_in _ (fun i => (bander_r <=? int (nth i a fzero) + int (nth i b fzero)) && unreadable (Z.of_nat i))); [reflexivity|].
  intros i Hi. apply in_seq in Hi. cbn [fst snd]. rewrite Nat.sub_0_r, List.combine_nth by exact Hl. cbn [fst snd]. rewrite (default_check (Z.of_nat i)) by lia.
  change (@q_order Bander) with bander_order. now rewrite bander_order_is.
Qed.
End Ffi.

(** ** The laws, on the real curve *)
Lemma real_laws : AlgLaws real_alg /\ ParLaws real_par /\ CodecLaws real_codec /\ ECodecLaws real_ecodec /\ FrIntLaws real_int /\ @domain_fits real_alg 256.
Proof.
  split; [exact (@curve_laws Bander bander_laws bander_curve BanderF BanderF_laws BanderI bander_scalars)|].
  split. { unfold real_par. destruct (crs_from_bytes default_crs_bytes) as [[gens Q]|]; cbn [real_par_of];
    apply (@curve_par_laws Bander bander_laws bander_curve BanderF BanderF_laws BanderI). }
  split; [exact (@curve_codec_laws Bander bander_laws BanderF BanderI bander_scalars)|].
  split; [exact (@curve_ecodec_laws Bander bander_laws bander_curve BanderF BanderF_laws BanderI bander_scalars)|].
  split; [|exact bander_fits]. constructor.
  - intros x. exact (@scalar_of_int Bander BanderF BanderI _ x).
  - intros x. change (0 <= @fr_int BanderF BanderI x < 2 ^ 253). pose proof (@scalar_range Bander BanderF BanderI _ x). pose proof (@scalar_bits Bander BanderF BanderI _). lia.
Qed.

(** ** Multiples of one generator *)
Lemma default_nonzero_x : forallb (fun t => negb (cx t =? 0)) certs = true.
Proof. vm_compute. reflexivity. Qed.
Lemma default_nonzero gens Q e : @crs_from_bytes Bander default_crs_bytes = Ok (gens, Q) -> In e (gens ++ [Q]) -> element_is_zero e = false.
Proof.
  intros E Hin. destruct default_read as (G & Q' & E' & _ & EG). rewrite E in E'.
  assert (X : (gens, Q) = (G, Q')) by congruence. assert (gens = G) by congruence. assert (Q = Q') by congruence. subst G Q'. clear X E'.
  rewrite EG in Hin. apply in_map_iff in Hin as (t & <- & Ht). pose proof (proj1 (forallb_forall _ _) default_nonzero_x t Ht) as N.
  apply negb_true_iff, Z.eqb_neq in N. destruct (cert_sound t (default_valid t Ht)) as (V & _ & R & _).
  apply Bool.not_true_is_false. intros Z0. unfold element_is_zero in Z0.
  apply (eqb_theorem _ _ (cert_pt t) (mkAff 0 1)%fq (holds_of_affine _) zero_holds (proj1 V) zero_on_curve) in Z0.
  assert (EX : ax (cert_pt t) = @qzero Bander).
  { destruct Z0 as [Z0|Z0]; apply (f_equal ax) in Z0; rewrite Z0; cbn [ax negated]; [reflexivity|]. apply (zp_eq bander_q). vm_compute. reflexivity. }
  apply (f_equal (zval bander_q)) in EX. change (cx t mod bander_q = 0) in EX. rewrite Z.mod_small in EX by exact R. contradiction.
Qed.
Lemma multiples_differ g s t : @group_element Bander g -> element_is_zero g = false ->
  element_eqb (@element_mul Bander BanderF BanderI g s) (@element_mul Bander BanderF BanderI g t) = true -> s = t.
Proof.
  intros Hg Ng E.
  destruct (cyclic g (@element_mul Bander BanderF BanderI g t) Hg) as (u & E1 & E2); [|exact Ng|].
  - apply mul_group. exact Hg.
  - transitivity u; [apply E2|symmetry; apply E2].
    + apply eqb_sym; [| |exact E]; apply mul_group; exact Hg.
    + apply eqb_refl. apply mul_group. exact Hg.
Qed.

Lemma real_constants :
  @q_modulus Bander = 0x73eda753299d7d483339d80809a1d80553bda402fffe5bfeffffffff00000001 /\
  @q_int Bander coeff_a = (-5) mod @q_modulus Bander /\
  @q_int Bander coeff_d = 0x6389c12633c267cbc66e3bf86be3b6d8cb66677177e54f92b369f2f5188d58e7 /\
  Z.of_nat (@q_order Bander) = 0x1cfb69d4ca675f520cce760202687600ff8f87007419047174fd06b52876e7e1 /\
  prime (@q_modulus Bander) /\ prime (Z.of_nat (@q_order Bander)).
Proof.
  split; [reflexivity|]. split; [reflexivity|]. split; [vm_compute; reflexivity|].
  split; [change (@q_order Bander) with bander_order; rewrite bander_order_is; reflexivity|]. split; [exact q_prime|exact order_prime].
Qed.
