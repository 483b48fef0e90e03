(** What reading a proof does on every byte string. *)
From Verif Require Import Base BaseFacts Alg CodecModel BTree WireModel WireSpec WireProofs ReadSpec.

Section Read.
Context {A : Alg} {C : ECodec A} {CL : ECodecLaws C}.

Lemma read_comms_cases n : forall b, is_bytes b ->
  (read_comms n b = None /\ ~ exists comms r, b = concat (map el_ser comms) ++ r /\ length comms = n) \/
  exists comms r, read_comms n b = Some (comms, r) /\ b = concat (map el_ser comms) ++ r /\ length comms = n /\ is_bytes r.
Proof.
  induction n as [|n IH]; intros b Hb; cbn [read_comms].
  - right. exists [], b. auto.
  - destruct (read_exact 32 b) as [[c r]|] eqn:E.
    + apply read_exact_inv in E as [-> Hc]. apply is_bytes_app in Hb as [Hcb Hr].
      assert (X : forall comms r', c ++ r = concat (map el_ser comms) ++ r' -> length comms = S n ->
        exists g l, comms = g :: l /\ c = el_ser g /\ r = concat (map el_ser l) ++ r').
      { intros [|g l] r' E L; [discriminate|]. cbn [map concat] in E. rewrite <- app_assoc in E.
        exists g, l. split; [reflexivity|].
        apply (f_equal (firstn 32)) in E as E1. apply (f_equal (skipn 32)) in E as E2.
        rewrite !firstn_app_exact in E1 by (auto using el_len). rewrite !skipn_app_exact in E2 by (auto using el_len). auto. }
      destruct (el_de c) as [p|] eqn:Ep.
      * pose proof (el_canon _ _ Hcb Hc Ep) as Ec.
        destruct (IH r Hr) as [[E N]|(ps & r' & E & E1 & E2 & E3)]; rewrite E.
        -- left. split; [reflexivity|]. intros (comms & r' & E' & L). destruct (X _ _ E' L) as (g & l & -> & _ & E2).
           apply N. exists l, r'. split; [exact E2|]. cbn in L. lia.
        -- right. exists (p :: ps), r'. split; [reflexivity|]. cbn [map concat length]. rewrite Ec, <- app_assoc, <- E1. auto.
      * left. split; [reflexivity|]. intros (comms & r' & E' & L). destruct (X _ _ E' L) as (g & l & _ & -> & _).
        rewrite el_rt in Ep. discriminate.
    + left. split; [reflexivity|]. intros ([|g l] & r' & -> & L); [discriminate|]. cbn [map concat] in E.
      rewrite <- app_assoc in E. rewrite read_exact_app in E by apply el_len. discriminate.
Qed.

Lemma slice_ok (b : bytes) n : (n <= length b)%nat -> slice 0 n b = Ok (firstn n b).
Proof.
  intro L. unfold slice. replace ((0 <=? n) && (n <=? length b))%nat with true.
  - cbn [skipn]. now rewrite Nat.sub_0_r.
  - symmetry. apply andb_true_iff. split; apply Nat.leb_le; lia.
Qed.

Lemma read_points_total n : forall b, (32 * n <= length b)%nat -> 
  read_points n b = Ok None \/ exists l r, read_points n b = Ok (Some (l, r)) /\ r = skipn (32 * n) b.
Proof.
  induction n as [|n IH]; intros b L; cbn [read_points]; [right; exists [], b; auto|].
  rewrite slice_ok by lia. cbn [rbind]. destruct (el_de _) as [p|]; cbn [qbind]; [|auto].
  destruct (IH (skipn 32 b)) as [E|(l & r & E & Er)]; [rewrite skipn_length; lia| |]; rewrite E; cbn [rbind qbind]; [auto|].
  right. exists (p :: l), r. split; [reflexivity|]. rewrite Er. replace (32 * S n)%nat with (32 + 32 * n)%nat by lia.
  clear. revert b. generalize (32 * n)%nat. generalize 32%nat. induction n0 as [|m IH]; intros k b; [reflexivity|].
  destruct b; cbn [skipn Nat.add]; [now rewrite !skipn_nil|apply IH].
Qed.

Lemma ipa_total b k : Z.of_nat (length b) < 2 ^ 32 -> length b = ((2 * log2_up k + 1) * 32)%nat -> ipa_from_bytes b k <> Panic.
Proof.
  intros Hb L. unfold ipa_from_bytes. rewrite Z.mod_small by lia.
  replace ((Z.of_nat (log2_up k) * 2 + 1) * 32 =? Z.of_nat (length b)) with true by (symmetry; apply Z.eqb_eq; lia).
  cbn [assertb rbind]. rewrite L, Nat.mod_mul by lia. cbn [Nat.eqb assertb rbind].
  set (n := log2_up k) in *.
  destruct (read_points_total n b) as [E|(l & r & E & Er)]; [lia| |]; rewrite E; cbn [rbind qbind]; [discriminate|].
  assert (Lr : length r = (32 * n + 32)%nat) by (rewrite Er, skipn_length; lia).
  destruct (read_points_total n r) as [E2|(l2 & r2 & E2 & Er2)]; [lia| |]; rewrite E2; cbn [rbind qbind]; [discriminate|].
  rewrite slice_ok by (rewrite Er2, skipn_length; lia). cbn [rbind]. destruct (sc_de _); cbn [qbind]; discriminate.
Qed.

Lemma bad_tail_mp b : Z.of_nat (length b) < 2 ^ 32 -> bad_tail b -> mp_from_bytes b 256 = Panic.
Proof.
  intros Hb T. unfold mp_from_bytes. destruct (le_lt_dec 32 (length b)) as [L|L].
  - rewrite slice_ok by exact L. cbn [rbind]. unfold slice_from. rewrite (proj2 (Nat.leb_le _ _)) by exact L. cbn [rbind].
    destruct T as [T|[(g & Eg) T]]; [lia|]. rewrite Eg, el_rt. cbn [qbind].
    rewrite ipa_wrong_length_panics; [reflexivity|rewrite skipn_length; lia|rewrite skipn_length; change (Nat.log2_up 256) with 8%nat; lia].
  - unfold slice. replace ((0 <=? 32) && (32 <=? length b))%nat with false; [reflexivity|].
    symmetry. apply andb_false_iff. right. apply Nat.leb_gt. exact L.
Qed.

Lemma mp_panics b : is_bytes b -> Z.of_nat (length b) < 2 ^ 32 -> (mp_from_bytes b 256 = Panic <-> bad_tail b).
Proof.
  intros HB Hb. unfold mp_from_bytes, bad_tail. destruct (le_lt_dec 32 (length b)) as [L|L].
  - rewrite slice_ok by exact L. cbn [rbind]. unfold slice_from. rewrite (proj2 (Nat.leb_le _ _)) by exact L. cbn [rbind].
    assert (L1 : length (firstn 32 b) = 32%nat) by (apply firstn_length_le; lia).
    destruct (el_de (firstn 32 b)) as [g|] eqn:Eg; cbn [qbind].
    + assert (Eg' : firstn 32 b = el_ser g).
      { symmetry. apply el_canon; auto. rewrite <- (firstn_skipn 32 b) in HB. now apply is_bytes_app in HB. }
      destruct (Nat.eq_dec (length b) 576) as [E|E].
      * pose proof (ipa_total (skipn 32 b) 256) as T. rewrite skipn_length in T. change (log2_up 256) with 8%nat in T.
        specialize (T ltac:(lia) ltac:(lia)). split; [|lia].
        destruct (ipa_from_bytes (skipn 32 b) 256) as [[o|]|]; cbn [rbind qbind]; try discriminate. congruence.
      * rewrite ipa_wrong_length_panics; [|rewrite skipn_length; lia|rewrite skipn_length; change (Nat.log2_up 256) with 8%nat; lia].
        cbn [rbind]. split; [intros _; right; eauto|auto].
    + split; [discriminate|]. intros [X|[(g & X) _]]; [lia|]. rewrite X, el_rt in Eg. discriminate.
  - unfold slice. replace ((0 <=? 32) && (32 <=? length b))%nat with false.
    + cbn [rbind]. split; auto.
    + symmetry. apply andb_false_iff. right. apply Nat.leb_gt. exact L.
Qed.

Lemma layout_len b stems buf rest : hint_layout b stems buf rest -> (length rest <= length b)%nat.
Proof. intros (-> & _). rewrite !app_length. lia. Qed.
Lemma layout_bytes b stems buf rest : hint_layout b stems buf rest -> is_bytes b -> is_bytes rest /\ is_bytes buf.
Proof.
  intros (-> & _) Hb. apply is_bytes_app in Hb as [_ Hb]. apply is_bytes_app in Hb as [_ Hb]. apply is_bytes_app in Hb as [_ Hb].
  apply is_bytes_app in Hb as [H1 H2]. auto.
Qed.

Lemma map_ser_len l : Forall (fun c => length c = 32%nat) (map el_ser l).
Proof. apply Forall_map, Forall_forall. intros x _. apply el_len. Qed.

Lemma statuses_unique buf : forall es es', Forall2 status_means buf es -> Forall2 status_means buf es' -> es = es'.
Proof.
  induction buf as [|x buf IH]; intros es es' H1 H2; inversion H1; inversion H2; subst; [reflexivity|].
  f_equal; [|now apply IH]. destruct y, y0; cbn in *; congruence.
Qed.
Lemma statuses_not_bad buf es : Forall2 status_means buf es -> ~ Exists bad_status buf.
Proof.
  induction 1 as [|x e buf es Hx _ IH]; intro X; [inversion X|].
  apply Exists_cons in X as [X|X]; auto. unfold bad_status in X. destruct e; cbn in Hx; lia.
Qed.

(** Reading after the hint. *)
Definition read_rest (hint : VerificationHint) (r : bytes) : res (option VerkleProof) :=
  qbind (read_u32 r) (fun '(num_comms, b) =>
  qbind (read_comms (Z.to_nat num_comms) b) (fun '(comms, b) =>
  let! p := mp_from_bytes b 256 in
  qbind p (fun p => Ok (Some (mkVP hint comms p))))).

Lemma rest_cases hint r : is_bytes r ->
  (read_rest hint r = Ok None /\ ~ exists comms tail, r = Z_le 4 (Z.of_nat (length comms)) ++ concat (map el_ser comms) ++ tail /\ Z.of_nat (length comms) < 2 ^ 32) \/
  exists comms tail, r = Z_le 4 (Z.of_nat (length comms)) ++ concat (map el_ser comms) ++ tail /\ Z.of_nat (length comms) < 2 ^ 32 /\ is_bytes tail /\
    read_rest hint r = (let! p := mp_from_bytes tail 256 in qbind p (fun p => Ok (Some (mkVP hint comms p)))).
Proof.
  intro Hr. unfold read_rest. destruct (read_u32 r) as [[n r1]|] eqn:E; cbn [qbind].
  - destruct (read_u32_inv _ _ _ Hr E) as (E1 & Hn & Hr1).
    assert (X : forall comms tail, r = Z_le 4 (Z.of_nat (length comms)) ++ concat (map el_ser comms) ++ tail ->
        Z.of_nat (length comms) < 2 ^ 32 -> n = Z.of_nat (length comms) /\ r1 = concat (map el_ser comms) ++ tail).
    { intros comms tail E2 L. rewrite E2, read_u32_app in E by exact L. injection E as <- <-. auto. }
    destruct (read_comms_cases (Z.to_nat n) r1 Hr1) as [[Ec N]|(comms & tail & Ec & E2 & L & Ht)]; rewrite Ec; cbn [qbind].
    + left. split; [reflexivity|]. intros (comms & tail & E2 & L). destruct (X _ _ E2 L) as [-> ->]. apply N.
      exists comms, tail. split; [reflexivity|]. now rewrite Nat2Z.id.
    + right. exists comms, tail. assert (En : Z.of_nat (length comms) = n) by lia.
      split; [rewrite E1, E2, En; reflexivity|]. split; [lia|]. split; [exact Ht|reflexivity].
  - left. split; [reflexivity|]. intros (comms & tail & E2 & L). rewrite E2, read_u32_app in E by exact L. discriminate.
Qed.

Lemma proof_read_split b : is_bytes b ->
  (proof_read b = Ok None /\ ~ exists stems buf rest, hint_layout b stems buf rest) \/
  exists stems buf rest, hint_layout b stems buf rest /\ is_bytes rest /\
     ((Exists bad_status buf /\ proof_read b = Panic)
      \/ exists es, Forall2 status_means buf es /\
         proof_read b = read_rest (mkHint (map (fun x => x / 8) buf) es (set_of stems)) rest).
Proof.
  intro Hb. unfold proof_read. destruct (hint_read_cases b Hb) as [[E N]|(stems & buf & rest & L & [[X E]|(es & F & E)])]; rewrite E; cbn [rbind qbind].
  - left. auto.
  - right. exists stems, buf, rest. split; [exact L|]. split; [now apply (layout_bytes _ _ _ _ L)|]. auto.
  - right. exists stems, buf, rest. split; [exact L|]. split; [now apply (layout_bytes _ _ _ _ L)|]. right. exists es. auto.
Qed.

Lemma read_of_layout b stems buf rest es : hint_layout b stems buf rest -> Forall2 status_means buf es ->
  proof_read b = read_rest (mkHint (map (fun x => x / 8) buf) es (set_of stems)) rest.
Proof.
  intros L F. unfold proof_read. rewrite (hint_read_layout _ _ _ _ L).
  destruct (read_statuses_spec buf) as [[X _]|(es' & F' & E')]; [destruct (statuses_not_bad _ _ F X)|].
  rewrite E'. cbn [rbind qbind]. now rewrite (statuses_unique _ _ _ F F').
Qed.

Lemma rest_of_layout hint comms tail : Z.of_nat (length comms) < 2 ^ 32 ->
  read_rest hint (Z_le 4 (Z.of_nat (length comms)) ++ concat (map el_ser comms) ++ tail) =
  (let! p := mp_from_bytes tail 256 in qbind p (fun p => Ok (Some (mkVP hint comms p)))).
Proof.
  intro L. unfold read_rest. rewrite read_u32_app by exact L. cbn [qbind]. rewrite Nat2Z.id, read_comms_rt. reflexivity.
Qed.

Lemma read_accepts b p : is_bytes b -> Z.of_nat (length b) < 2 ^ 32 ->
  (proof_read b = Ok (Some p) <->
   exists stems buf, proof_layout b stems buf (map el_ser (vp_comms p)) (mp_to_bytes (vp_proof p)) /\
     Forall2 status_means buf (vh_ext (vp_hint p)) /\ vh_depths (vp_hint p) = map (fun x => x / 8) buf /\
     vh_diff (vp_hint p) = set_of stems /\ rounds (mp_ipa (vp_proof p)) 8).
Proof.
  intros Hb Lb. split.
  - intro E. destruct (proof_read_split b Hb) as [[X _]|(stems & buf & rest & L & Hr & [[_ X]|(es & F & X)])]; rewrite X in E; try discriminate.
    destruct (rest_cases (mkHint (map (fun x => x / 8) buf) es (set_of stems)) rest Hr) as [[Y _]|(comms & tail & Er & Lc & Ht & Y)];
      rewrite Y in E; [discriminate|].
    destruct (mp_from_bytes tail 256) as [[mp|]|] eqn:Em; cbn [rbind qbind] in E; try discriminate. injection E as <-.
    pose proof (layout_len _ _ _ _ L) as Lr. rewrite Er, !app_length in Lr.
    apply mp_accept in Em as [E1 R]; [|exact Ht|lia].
    exists stems, buf. cbn [vp_comms vp_proof vp_hint vh_ext vh_depths vh_diff]. split; [|auto].
    unfold proof_layout. rewrite map_length, E1, <- Er. split; [exact L|]. split; [apply map_ser_len|exact Lc].
  - intros (stems & buf & (L & Lc & Ln) & F & Ed & Ef & R). rewrite map_length in *.
    rewrite (read_of_layout _ _ _ _ _ L F), rest_of_layout by exact Ln.
    rewrite mp_rt; [|exact R|unfold rounds_fit; change (log2_up 256) with 8%nat; lia].
    cbn [rbind qbind]. rewrite <- Ed, <- Ef. destruct p as [[d e f] c m]. reflexivity.
Qed.

Lemma read_encoding b p stems buf : proof_layout b stems buf (map el_ser (vp_comms p)) (mp_to_bytes (vp_proof p)) ->
  Forall2 status_means buf (vh_ext (vp_hint p)) -> vh_depths (vp_hint p) = map (fun x => x / 8) buf ->
  vh_diff (vp_hint p) = set_of stems -> rounds (mp_ipa (vp_proof p)) 8 -> proof_read b = Ok (Some p).
Proof.
  intros (L & Lc & Ln) F Ed Ef R. rewrite map_length in *.
  rewrite (read_of_layout _ _ _ _ _ L F), rest_of_layout by exact Ln.
  rewrite mp_rt; [|exact R|unfold rounds_fit; change (log2_up 256) with 8%nat; lia].
  cbn [rbind qbind]. rewrite <- Ed, <- Ef. destruct p as [[d e f] c m]. reflexivity.
Qed.

Lemma read_panics b : is_bytes b -> Z.of_nat (length b) < 2 ^ 32 ->
  (proof_read b = Panic <->
   (exists stems buf rest, hint_layout b stems buf rest /\ Exists bad_status buf) \/
   (exists stems buf es comms tail, proof_layout b stems buf (map el_ser comms) tail /\ Forall2 status_means buf es /\ bad_tail tail)).
Proof.
  intros Hb Lb. split.
  - intro E. destruct (proof_read_split b Hb) as [[X _]|(stems & buf & rest & L & Hr & [[B X]|(es & F & X)])]; rewrite X in E; try discriminate.
    + left. eauto.
    + right. destruct (rest_cases (mkHint (map (fun x => x / 8) buf) es (set_of stems)) rest Hr) as [[Y _]|(comms & tail & Er & Lc & Ht & Y)];
        rewrite Y in E; [discriminate|].
      pose proof (layout_len _ _ _ _ L) as Lr. rewrite Er, !app_length in Lr.
      exists stems, buf, es, comms, tail. split; [|split; [exact F|]].
      * unfold proof_layout. rewrite map_length, <- Er. split; [exact L|]. split; [apply map_ser_len|exact Lc].
      * apply mp_panics; [exact Ht|lia|]. destruct (mp_from_bytes tail 256) as [[mp|]|]; cbn [rbind qbind] in E; [discriminate|discriminate|reflexivity].
  - intros [(stems & buf & rest & L & B)|(stems & buf & es & comms & tail & (L & Lc & Ln) & F & T)].
    + unfold proof_read. rewrite (hint_read_layout _ _ _ _ L).
      destruct (read_statuses_spec buf) as [[_ E]|(es & F & _)]; [rewrite E; reflexivity|destruct (statuses_not_bad _ _ F B)].
    + rewrite map_length in *. rewrite (read_of_layout _ _ _ _ _ L F), rest_of_layout by exact Ln.
      destruct (layout_bytes _ _ _ _ L Hb) as [Ht _]. apply is_bytes_app in Ht as [_ Ht]. apply is_bytes_app in Ht as [_ Ht].
      pose proof (layout_len _ _ _ _ L) as Lr. rewrite !app_length in Lr.
      apply mp_panics in T; [|exact Ht|lia]. rewrite T. reflexivity.
Qed.

(** A valid encoding with bytes missing at the end, or with bytes added, panics. *)
Lemma layout_of_write p tail : proof_fits p ->
  proof_layout (hint_write (vp_hint p) ++ u32_bytes (length (vp_comms p)) ++ concat (map el_ser (vp_comms p)) ++ tail)
    (vh_diff (vp_hint p)) (map (fun '(d, e) => status_byte d e) (combine (vh_depths (vp_hint p)) (vh_ext (vp_hint p))))
    (map el_ser (vp_comms p)) tail.
Proof.
  intros [H1 H2 H3]. unfold proof_layout. rewrite map_length. split; [|split; [apply map_ser_len|exact H3]].
  rewrite u32_bytes_eq by exact H3. now apply hint_write_layout.
Qed.

Lemma statuses_of_write h : hint_fits h ->
  Forall2 status_means (map (fun '(d, e) => status_byte d e) (combine (vh_depths h) (vh_ext h))) (vh_ext h).
Proof.
  intros [H1 H2 _ _ _ _]. revert H1 H2. generalize (vh_depths h) (vh_ext h). induction l as [|d l IH]; intros [|e es] L Fd; try discriminate.
  - constructor.
  - apply Forall_cons_iff in Fd as [Hd Fd]. cbn [combine map]. constructor; [|apply IH; auto].
    rewrite status_byte_val by exact Hd. pose proof (ext_code_mod d e) as X. destruct e; exact X.
Qed.

Lemma write_split p : proof_write p = hint_write (vp_hint p) ++ u32_bytes (length (vp_comms p)) ++ concat (map el_ser (vp_comms p)) ++ mp_to_bytes (vp_proof p).
Proof. reflexivity. Qed.

Lemma bad_tail_panics p tail : proof_fits p -> Z.of_nat (length tail) < 2 ^ 32 -> bad_tail tail ->
  proof_read (hint_write (vp_hint p) ++ u32_bytes (length (vp_comms p)) ++ concat (map el_ser (vp_comms p)) ++ tail) = Panic.
Proof.
  intros Fp Lb T. destruct (layout_of_write p tail Fp) as (L & _ & _). rewrite map_length in L.
  rewrite (read_of_layout _ _ _ _ _ L (statuses_of_write _ (pf_hint _ Fp))), rest_of_layout by apply (pf_comms _ Fp).
  rewrite (bad_tail_mp _ Lb T). reflexivity.
Qed.

Lemma mp_write_len p : rounds (mp_ipa p) 8 -> length (mp_to_bytes p) = 576%nat.
Proof. intro R. now rewrite (mp_bytes_len _ _ R). Qed.

Lemma truncated_panics p n : proof_fits p -> (0 < n <= 576)%nat ->
  proof_read (firstn (length (proof_write p) - n) (proof_write p)) = Panic.
Proof.
  intros Fp Hn. pose proof (mp_write_len _ (pf_rounds _ Fp)) as L. rewrite write_split.
  set (x := hint_write (vp_hint p)). set (y := u32_bytes (length (vp_comms p))). set (z := concat (map el_ser (vp_comms p))).
  assert (E : firstn (length (x ++ y ++ z ++ mp_to_bytes (vp_proof p)) - n) (x ++ y ++ z ++ mp_to_bytes (vp_proof p)) =
              x ++ y ++ z ++ firstn (576 - n) (mp_to_bytes (vp_proof p))).
  { rewrite !app_assoc. rewrite firstn_app. rewrite !app_length, L. rewrite firstn_all2 by (rewrite !app_length; lia).
    f_equal. f_equal. lia. }
  rewrite E. assert (Lt : length (firstn (576 - n) (mp_to_bytes (vp_proof p))) = (576 - n)%nat) by (apply firstn_length_le; lia).
  apply bad_tail_panics; [exact Fp|lia|]. unfold bad_tail. rewrite Lt.
  destruct (le_lt_dec 32 (576 - n)) as [X|X]; [right|left; exact X]. split; [|lia].
  exists (mp_g (vp_proof p)). unfold mp_to_bytes. rewrite firstn_firstn, Nat.min_l by lia. rewrite firstn_app_exact by apply el_len. reflexivity.
Qed.

Lemma trailing_panics p extra : proof_fits p -> extra <> [] -> Z.of_nat (length extra) < 2 ^ 32 - 576 ->
  proof_read (proof_write p ++ extra) = Panic.
Proof.
  intros Fp Hn Le. pose proof (mp_write_len _ (pf_rounds _ Fp)) as L. rewrite write_split, <- !app_assoc.
  assert (Lx : (0 < length extra)%nat) by (destruct extra; [congruence|cbn; lia]).
  apply bad_tail_panics; [exact Fp|rewrite app_length; lia|]. right. rewrite app_length. split; [|lia].
  exists (mp_g (vp_proof p)). unfold mp_to_bytes. rewrite <- app_assoc. now rewrite firstn_app_exact by apply el_len.
Qed.

(** A status byte has a bit without meaning. *)
Lemma spare_bit p d ds e es : proof_fits p -> vh_depths (vp_hint p) = d :: ds -> vh_ext (vp_hint p) = e :: es ->
  exists b, b <> proof_write p /\ proof_read b = Ok (Some p).
Proof.
  intros Fp Ed Ee. pose proof (pf_hint _ Fp) as Hf.
  assert (Hd : 0 <= d <= 31) by (pose proof (hf_depth _ Hf) as X; rewrite Ed in X; now apply Forall_cons_iff in X).
  set (tl := map (fun '(d, e) => status_byte d e) (combine ds es)).
  set (rest := Z_le 4 (Z.of_nat (length (vp_comms p))) ++ concat (map el_ser (vp_comms p)) ++ mp_to_bytes (vp_proof p)).
  set (bytes_of := fun buf : bytes => Z_le 4 (Z.of_nat (length (vh_diff (vp_hint p)))) ++ concat (vh_diff (vp_hint p)) ++
    Z_le 4 (Z.of_nat (length buf)) ++ buf ++ rest).
  destruct (layout_of_write p (mp_to_bytes (vp_proof p)) Fp) as ((Ew & _ & _ & L2) & _ & _).
  rewrite <- write_split in Ew. rewrite Ed, Ee in Ew, L2. cbn [combine map] in Ew, L2. fold tl in Ew, L2. rewrite map_length in Ew.
  exists (bytes_of (8 * d + ext_code e + 4 :: tl)). split.
  - rewrite Ew. unfold bytes_of, rest. cbn [length]. intro X.
    apply app_inv_head in X. apply app_inv_head in X. apply app_inv_head in X. cbn [app] in X.
    assert (Y : 8 * d + ext_code e + 4 = status_byte d e) by congruence. rewrite status_byte_val in Y by exact Hd. lia.
  - apply read_encoding with (stems := vh_diff (vp_hint p)) (buf := 8 * d + ext_code e + 4 :: tl).
    + unfold proof_layout. rewrite map_length. split; [|split; [apply map_ser_len|apply (pf_comms _ Fp)]].
      split; [reflexivity|]. split; [apply (hf_stem _ Hf)|]. split; [apply (hf_n1 _ Hf)|]. cbn [length] in *. exact L2.
    + pose proof (statuses_of_write _ Hf) as X. rewrite Ed, Ee in X. rewrite Ee. cbn [combine map] in X. fold tl in X.
      assert (X2 : Forall2 status_means tl es) by (now inversion X). constructor; [|exact X2].
      pose proof (ext_code_mod d e) as Y.
      assert (Y4 : (8 * d + ext_code e + 4) mod 4 = ext_code e).
      { replace (8 * d + ext_code e + 4) with (8 * d + ext_code e + 1 * 4) by lia. now rewrite Z.mod_add by lia. }
      destruct e; exact Y4.
    + rewrite Ed. cbn [map]. f_equal.
      * apply Z.div_unique with (r := ext_code e + 4); [left; destruct e; cbn; lia|lia].
      * unfold tl. pose proof (hf_len _ Hf) as Hl. pose proof (hf_depth _ Hf) as Hd2. rewrite Ed, Ee in *. cbn [length] in Hl.
        apply Forall_cons_iff in Hd2 as [_ Hd2]. clear - Hl Hd2. revert es Hl. induction ds as [|a ds IH]; intros [|x es] Hl; try discriminate; [reflexivity|].
        apply Forall_cons_iff in Hd2 as [Ha Hd2]. cbn [combine map]. f_equal; [|apply IH; auto].
        rewrite status_byte_val by exact Ha. symmetry. apply ext_code_div.
    + symmetry. apply set_of_sorted, (hf_sorted _ Hf).
    + apply (pf_rounds _ Fp).
Qed.

(** Whatever was read has the shape the types promise. *)
Lemma read_fits b p : is_bytes b -> Z.of_nat (length b) < 2 ^ 32 -> proof_read b = Ok (Some p) -> proof_fits p.
Proof.
  intros Hb Lb E. apply (read_accepts b p Hb Lb) in E as (stems & buf & (L & Lc & Ln) & F & Ed & Ef & R).
  destruct (layout_bytes _ _ _ _ L Hb) as [_ Hbuf]. destruct L as (Eb & Ls & Ln1 & Ln2).
  constructor; [|exact R|now rewrite map_length in Ln].
  constructor.
  - rewrite Ed, map_length. clear - F. induction F; cbn; lia.
  - rewrite Ed. apply Forall_map. eapply Forall_impl; [|exact Hbuf]. intros x [X1 X2]. cbn beta.
    split; [apply Z.div_pos; lia|]. apply Z.lt_succ_r. apply Z.div_lt_upper_bound; lia.
  - rewrite Ef. apply Forall_forall. intros s Hs. apply (proj1 (In_set_of _ _)) in Hs. rewrite Forall_forall in Ls. auto.
  - rewrite Ef. apply sorted_set_of.
  - rewrite Ef. assert (X : (length (set_of stems) <= length stems)%nat).
    { apply NoDup_incl_length; [apply sorted_NoDup, sorted_set_of|]. intros s Hs. now apply (proj1 (In_set_of _ _)) in Hs. }
    lia.
  - rewrite Ed, map_length. exact Ln2.
Qed.
End Read.
