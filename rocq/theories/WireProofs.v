(** Proofs about the wire formats. *)
From Verif Require Import Base BaseFacts Alg CodecModel BTree WireModel WireSpec.

Lemma read_exact_app n x r : length x = n -> read_exact n (x ++ r) = Some (x, r).
Proof.
  intro H. unfold read_exact. rewrite app_length.
  destruct (Nat.leb_spec n (length x + length r)); [|lia].
  now rewrite firstn_app_exact, skipn_app_exact.
Qed.

Lemma read_exact_inv n b x r : read_exact n b = Some (x, r) -> b = x ++ r /\ length x = n.
Proof.
  unfold read_exact. destruct (Nat.leb_spec n (length b)); [|discriminate].
  intro E. injection E as <- <-. rewrite firstn_skipn. split; auto. now apply firstn_length_le.
Qed.

Lemma u32_bytes_eq n : Z.of_nat n < 2 ^ 32 -> u32_bytes n = Z_le 4 (Z.of_nat n).
Proof. intro H. unfold u32_bytes. rewrite Z.mod_small; auto. lia. Qed.

Lemma read_u32_app n r : Z.of_nat n < 2 ^ 32 -> read_u32 (Z_le 4 (Z.of_nat n) ++ r) = Some (Z.of_nat n, r).
Proof.
  intro H. unfold read_u32. rewrite read_exact_app by apply Z_le_length.
  rewrite le_Z_Z_le; auto. change (256 ^ Z.of_nat 4) with (2 ^ 32). lia.
Qed.

Lemma read_u32_inv b n r : is_bytes b -> read_u32 b = Some (n, r) ->
  b = Z_le 4 n ++ r /\ 0 <= n < 2 ^ 32 /\ is_bytes r.
Proof.
  unfold read_u32. intros Hb. destruct (read_exact 4 b) as [[x r']|] eqn:E; [|discriminate].
  apply read_exact_inv in E as [-> Hx]. intro E. injection E as <- <-.
  apply is_bytes_app in Hb as [Hb1 Hb2].
  pose proof (le_Z_bound x Hb1) as B. rewrite Hx in B. change (256 ^ Z.of_nat 4) with (2 ^ 32) in B.
  split; [|split]; auto. f_equal. rewrite <- Hx at 1. now rewrite Z_le_le_Z.
Qed.

Lemma read_stems_app l : forall acc r, Forall (fun s => length s = 31%nat) l ->
  read_stems (length l) acc (concat l ++ r) = Some (fold_left (fun s k => set_insert k s) l acc, r).
Proof.
  induction l as [|s l IH]; intros acc r H; cbn [length read_stems concat app fold_left]; auto.
  inversion_clear H. rewrite <- app_assoc, read_exact_app by auto. now apply IH.
Qed.

Lemma read_stems_inv n : forall acc b res r, read_stems n acc b = Some (res, r) ->
  exists l : list bytes, length l = n /\ Forall (fun s => length s = 31%nat) l /\ b = concat l ++ r
            /\ res = fold_left (fun s k => set_insert k s) l acc.
Proof.
  induction n as [|n IH]; intros acc b res r; cbn [read_stems].
  - intro E. injection E as <- <-. exists []. repeat split; auto.
  - destruct (read_exact 31 b) as [[s b']|] eqn:E; [|discriminate].
    apply read_exact_inv in E as [-> Hs]. intro E.
    apply IH in E as (l & H1 & H2 & -> & ->).
    exists (s :: l). cbn. rewrite H1, app_assoc. repeat split; auto.
Qed.

(* ------------------------------------------------------------------ *)
(** ** Packed bytes *)

Lemma land3 z : Z.land 3 z = z mod 4.
Proof.
  rewrite Z.land_comm. change 3 with (Z.ones 2). now rewrite Z.land_ones by lia.
Qed.

Lemma small_byte (d : Z) : 0 <= d <= 31 -> In d (map Z.of_nat (seq 0 32)).
Proof.
  intro H. apply in_map_iff. exists (Z.to_nat d). split; [lia|]. apply in_seq. lia.
Qed.

Lemma status_byte_val d e : 0 <= d <= 31 -> status_byte d e = 8 * d + ext_code e.
Proof.
  intro H. apply small_byte in H. unfold status_byte.
  assert (E : forallb (fun d => forallb (fun e => Z.lor (ext_code e) (Z.shiftl d 3 mod 256) =? 8 * d + ext_code e)
    [ExtNone; ExtDifferentStem; ExtPres]) (map Z.of_nat (seq 0 32)) = true) by (vm_compute; reflexivity).
  rewrite forallb_forall in E. specialize (E d H). rewrite forallb_forall in E.
  apply Z.eqb_eq, E. destruct e; cbn; auto.
Qed.

Lemma ext_code_mod d e : (8 * d + ext_code e) mod 4 = ext_code e.
Proof.
  replace (8 * d + ext_code e) with (ext_code e + (2 * d) * 4) by ring.
  rewrite Z.mod_add by lia. now destruct e.
Qed.

Lemma ext_code_div d e : (8 * d + ext_code e) / 8 = d.
Proof.
  replace (8 * d + ext_code e) with (ext_code e + d * 8) by ring.
  rewrite Z.div_add by lia. now destruct e.
Qed.

Lemma ext_of_status d e : 0 <= d <= 31 -> ext_of_byte (status_byte d e) = Ok e.
Proof.
  intro H. rewrite status_byte_val by auto. unfold ext_of_byte.
  rewrite land3, ext_code_mod. now destruct e.
Qed.

Lemma depth_of_status d e : 0 <= d <= 31 -> Z.shiftr (status_byte d e) 3 = d.
Proof.
  intro H. rewrite status_byte_val by auto. rewrite Z.shiftr_div_pow2 by lia.
  change (2 ^ 3) with 8. apply ext_code_div.
Qed.

Lemma status_byte_is_byte d e : 0 <= d <= 31 -> is_byte (status_byte d e).
Proof. intro H. rewrite status_byte_val by auto. unfold is_byte, ext_code. destruct e; lia. Qed.

Lemma read_statuses_rt ds : forall es, length es = length ds -> Forall (fun d => 0 <= d <= 31) ds ->
  read_statuses (map (fun '(d, e) => status_byte d e) (combine ds es)) = Ok (ds, es).
Proof.
  induction ds as [|d ds IH]; intros [|e es] Hl H; try discriminate; auto.
  cbn [combine map read_statuses]. inversion_clear H. rewrite ext_of_status by auto.
  cbn [rbind]. rewrite IH by (auto; now injection Hl). cbn [rbind].
  now rewrite depth_of_status.
Qed.

Lemma ext_of_byte_spec byte :
  (bad_status byte /\ ext_of_byte byte = Panic)
  \/ exists e, status_means byte e /\ ext_of_byte byte = Ok e.
Proof.
  unfold ext_of_byte, bad_status. rewrite land3.
  pose proof (Z.mod_pos_bound byte 4 ltac:(lia)).
  destruct (Z.eqb_spec (byte mod 4) 0); [right; now exists ExtNone|].
  destruct (Z.eqb_spec (byte mod 4) 1); [right; now exists ExtDifferentStem|].
  destruct (Z.eqb_spec (byte mod 4) 2); [right; now exists ExtPres|].
  left. split; auto. lia.
Qed.

Lemma read_statuses_spec buf :
  (Exists bad_status buf /\ read_statuses buf = Panic)
  \/ exists es, Forall2 status_means buf es
                /\ read_statuses buf = Ok (map (fun b => b / 8) buf, es).
Proof.
  induction buf as [|b buf IH]; cbn [read_statuses].
  - right. exists []. split; auto.
  - destruct (ext_of_byte_spec b) as [[H E]|(e & H & E)]; rewrite E; cbn [rbind].
    + left. split; auto.
    + destruct IH as [[H' E']|(es & H' & E')]; rewrite E'; cbn [rbind].
      * left. split; auto.
      * right. exists (e :: es). split; auto. cbn [map]. do 3 f_equal.
        now rewrite Z.shiftr_div_pow2 by lia.
Qed.

(* ------------------------------------------------------------------ *)
(** ** Hints *)

Lemma hint_read_layout b stems buf rest : hint_layout b stems buf rest ->
  hint_read b = let! (ds, es) := read_statuses buf in Ok (Some (mkHint ds es (set_of stems), rest)).
Proof.
  intros (-> & Hs & H1 & H2). unfold hint_read.
  rewrite read_u32_app by auto. cbn [qbind]. rewrite Nat2Z.id.
  rewrite read_stems_app by auto. cbn [qbind].
  rewrite read_u32_app by auto. cbn [qbind]. rewrite Nat2Z.id.
  rewrite read_exact_app by auto. reflexivity.
Qed.

Lemma hint_read_layout_inv b : is_bytes b ->
  hint_read b = Ok None \/ exists stems buf rest, hint_layout b stems buf rest.
Proof.
  intro Hb. unfold hint_read.
  destruct (read_u32 b) as [[n b1]|] eqn:E1; [|left; reflexivity]. cbn [qbind].
  destruct (read_stems (Z.to_nat n) [] b1) as [[st b2]|] eqn:E2; [|left; reflexivity]. cbn [qbind].
  destruct (read_u32 b2) as [[m b3]|] eqn:E3; [|left; reflexivity]. cbn [qbind].
  destruct (read_exact (Z.to_nat m) b3) as [[buf rest]|] eqn:E4; [|left; reflexivity].
  right. apply read_u32_inv in E1 as (-> & Hn & Hb1); auto.
  apply read_stems_inv in E2 as (l & Hl & H31 & -> & ->).
  apply is_bytes_app in Hb1 as [_ Hb2].
  apply read_u32_inv in E3 as (-> & Hm & Hb3); auto.
  apply read_exact_inv in E4 as [-> Hbuf].
  exists l, buf, rest. unfold hint_layout, bytes in *. rewrite Hl, Hbuf, !Z2Nat.id by lia.
  repeat split; auto; lia.
Qed.

Lemma hint_write_layout h : hint_fits h -> forall rest,
  hint_layout (hint_write h ++ rest) (vh_diff h)
    (map (fun '(d, e) => status_byte d e) (combine (vh_depths h) (vh_ext h))) rest.
Proof.
  intros [H1 H2 H3 H4 H5 H6] rest. unfold hint_layout, hint_write.
  assert (E : length (map (fun '(d, e) => status_byte d e) (combine (vh_depths h) (vh_ext h)))
              = length (vh_depths h)) by (rewrite map_length, combine_length; lia).
  rewrite E, !u32_bytes_eq by auto. rewrite <- !app_assoc. auto.
Qed.

Lemma hint_rt h rest : hint_fits h -> hint_read (hint_write h ++ rest) = Ok (Some (h, rest)).
Proof.
  intro H. rewrite (hint_read_layout _ _ _ _ (hint_write_layout h H rest)).
  destruct H. rewrite read_statuses_rt by auto. cbn [rbind].
  rewrite set_of_sorted by auto. destruct h. reflexivity.
Qed.

Lemma hint_prefix_inj h h' r r' : hint_fits h -> hint_fits h' ->
  hint_write h ++ r = hint_write h' ++ r' -> h = h' /\ r = r'.
Proof.
  intros H H' E. apply (f_equal hint_read) in E. rewrite !hint_rt in E by auto.
  injection E as -> ->. auto.
Qed.

Lemma hint_read_cases b : is_bytes b ->
  (hint_read b = Ok None /\ ~ exists stems buf rest, hint_layout b stems buf rest)
  \/ exists stems buf rest, hint_layout b stems buf rest /\
     ((Exists bad_status buf /\ hint_read b = Panic)
      \/ exists es, Forall2 status_means buf es /\
         hint_read b = Ok (Some (mkHint (map (fun x => x / 8) buf) es (set_of stems), rest))).
Proof.
  intro Hb. destruct (hint_read_layout_inv b Hb) as [E|(st & buf & rest & H)].
  - left. split; auto. intros (st & buf & rest & H). rewrite (hint_read_layout _ _ _ _ H) in E.
    destruct (read_statuses_spec buf) as [[_ E']|(es & _ & E')]; rewrite E' in E; discriminate.
  - right. exists st, buf, rest. split; auto. rewrite (hint_read_layout _ _ _ _ H).
    destruct (read_statuses_spec buf) as [[H1 E']|(es & H1 & E')]; rewrite E'; cbn [rbind].
    + left. auto.
    + right. exists es. auto.
Qed.

(* ------------------------------------------------------------------ *)
(** ** IPA and multipoint proofs *)
Section Ipa.
Context {A : Alg} {C : ECodec A} {CL : ECodecLaws C}.

Lemma slice_app (x r : bytes) n : length x = n -> slice 0 n (x ++ r) = Ok x.
Proof.
  intro H. unfold slice.
  assert (E : ((0 <=? n) && (n <=? length (x ++ r)))%nat%bool = true).
  { rewrite app_length. apply andb_true_intro. split; apply Nat.leb_le; lia. }
  rewrite E. cbn [skipn]. rewrite Nat.sub_0_r, firstn_app_exact; auto.
Qed.

Lemma slice_inv (b : bytes) n x : slice 0 n b = Ok x -> b = x ++ skipn n b /\ length x = n.
Proof.
  unfold slice. destruct ((0 <=? n) && (n <=? length b))%nat%bool eqn:E; [|discriminate].
  apply andb_prop in E as [_ E]. apply Nat.leb_le in E. cbn [skipn]. rewrite Nat.sub_0_r.
  intro H. injection H as <-. rewrite firstn_skipn. split; auto. now apply firstn_length_le.
Qed.

Lemma concat_ser_len l : length (concat (map el_ser l)) = (32 * length l)%nat.
Proof.
  induction l as [|p l IH]; cbn [map concat length]; auto.
  rewrite app_length, IH, el_len. lia.
Qed.
Lemma concat_user_len l : length (concat (map eu_ser l)) = (64 * length l)%nat.
Proof.
  induction l as [|p l IH]; cbn [map concat length]; auto.
  rewrite app_length, IH, eu_len. lia.
Qed.

Lemma read_points_rt l : forall r,
  read_points (length l) (concat (map el_ser l) ++ r) = Ok (Some (l, r)).
Proof.
  induction l as [|p l IH]; intro r; cbn [length read_points map concat app]; auto.
  rewrite <- app_assoc, slice_app by apply el_len. cbn [rbind]. rewrite el_rt. cbn [qbind].
  rewrite skipn_app_exact by apply el_len. rewrite IH. reflexivity.
Qed.

Lemma read_points_inv n : forall b l r, is_bytes b -> read_points n b = Ok (Some (l, r)) ->
  b = concat (map el_ser l) ++ r /\ length l = n.
Proof.
  induction n as [|n IH]; intros b l r Hb; cbn [read_points].
  - intro E. injection E as <- <-. auto.
  - destruct (slice 0 32 b) as [c|] eqn:E; [|discriminate]. cbn [rbind].
    apply slice_inv in E as [Eb Hc]. destruct (el_de c) as [p|] eqn:Ep; [|discriminate].
    cbn [qbind]. destruct (read_points n (skipn 32 b)) as [[[ps b']|]|] eqn:Er; try discriminate.
    cbn [rbind qbind]. intro E. injection E as <- <-.
    assert (Hb' := Hb). rewrite Eb in Hb'. apply is_bytes_app in Hb' as [Hcb Hb'].
    apply IH in Er as [E1 E2]; auto.
    cbn [map concat length]. rewrite (el_canon _ _ Hcb Hc Ep), <- app_assoc, <- E1.
    split; auto.
Qed.

Lemma read_upoints_rt l : forall r,
  read_upoints (length l) (concat (map eu_ser l) ++ r) = Ok (l, r).
Proof.
  induction l as [|p l IH]; intro r; cbn [length read_upoints map concat app]; auto.
  rewrite <- app_assoc, slice_app by apply eu_len. cbn [rbind]. rewrite eu_rt. cbn [unwrap rbind].
  rewrite skipn_app_exact by apply eu_len. rewrite IH. reflexivity.
Qed.

Lemma log2_up_pow k : log2_up (2 ^ k) = k.
Proof. apply Nat.log2_up_pow2. lia. Qed.

Lemma ipa_bytes_len p r : rounds p r -> length (ipa_to_bytes p) = ((2 * r + 1) * 32)%nat.
Proof.
  intros [H1 H2]. unfold ipa_to_bytes. rewrite !app_length, !concat_ser_len, sc_len. lia.
Qed.
Lemma ipa_ubytes_len p r : rounds p r -> length (ipa_to_bytes_uncompressed p) = (2 * r * 64 + 32)%nat.
Proof.
  intros [H1 H2]. unfold ipa_to_bytes_uncompressed.
  rewrite !app_length, !concat_user_len, sc_len. lia.
Qed.

(** [r < 2^25] keeps the byte length below 2^32. *)
Definition rounds_fit (r : nat) : Prop := Z.of_nat r < 2 ^ 25 - 1.

Lemma ipa_rt_tail p n pad : rounds p (log2_up n) -> rounds_fit (log2_up n) ->
  Z.of_nat (length pad) mod 2 ^ 32 = 0 ->
  ipa_from_bytes (ipa_to_bytes p ++ pad) n = Ok (Some p).
Proof.
  intros H Hf Hpad. unfold rounds_fit in Hf. unfold ipa_from_bytes.
  rewrite app_length. rewrite (ipa_bytes_len _ _ H).
  set (r := log2_up n) in *.
  assert (E1 : (Z.of_nat r * 2 + 1) * 32 =? Z.of_nat ((2 * r + 1) * 32 + length pad) mod 2 ^ 32 = true).
  { apply Z.eqb_eq. rewrite Nat2Z.inj_add. rewrite <- Zplus_mod_idemp_r, Hpad, Z.add_0_r.
    rewrite Z.mod_small; lia. }
  assert (E2 : (((2 * r + 1) * 32 + length pad) mod 32 =? 0)%nat = true).
  { apply Nat.eqb_eq. rewrite Nat.add_comm, Nat.mod_add by lia.
    apply Z.mod_divide in Hpad as [k Hk]; [|lia].
    apply Nat2Z.inj. rewrite Nat2Z.inj_mod. rewrite Hk.
    change (2 ^ 32) with (134217728 * 32). rewrite Z.mul_assoc. now rewrite Z.mod_mul. }
  rewrite E1, E2. cbn [assertb rbind]. destruct H as [H1 H2].
  unfold ipa_to_bytes. rewrite <- !app_assoc.
  rewrite <- H1 at 1. rewrite read_points_rt. cbn [rbind qbind].
  rewrite <- H2. rewrite read_points_rt. cbn [rbind qbind].
  rewrite slice_app by apply sc_len. cbn [rbind]. rewrite sc_rt. cbn [qbind].
  now destruct p.
Qed.

Lemma ipa_rt p n : rounds p (log2_up n) -> rounds_fit (log2_up n) ->
  ipa_from_bytes (ipa_to_bytes p) n = Ok (Some p).
Proof.
  intros H Hf. rewrite <- (app_nil_r (ipa_to_bytes p)). apply ipa_rt_tail; auto.
Qed.

Lemma ipa_accept b n p : is_bytes b -> Z.of_nat (length b) < 2 ^ 32 ->
  ipa_from_bytes b n = Ok (Some p) -> ipa_to_bytes p = b /\ rounds p (log2_up n).
Proof.
  intros HB Hb. unfold ipa_from_bytes.
  destruct ((Z.of_nat (log2_up n) * 2 + 1) * 32 =? Z.of_nat (length b) mod 2 ^ 32) eqn:E1; [|discriminate].
  cbn [assertb rbind]. destruct (length b mod 32 =? 0)%nat; [|discriminate]. cbn [assertb rbind].
  apply Z.eqb_eq in E1. rewrite Z.mod_small in E1 by lia.
  destruct (read_points (log2_up n) b) as [[[L b1]|]|] eqn:EL; try discriminate. cbn [rbind qbind].
  destruct (read_points (log2_up n) b1) as [[[R b2]|]|] eqn:ER; try discriminate. cbn [rbind qbind].
  destruct (slice 0 32 b2) as [last|] eqn:Es; [|discriminate]. cbn [rbind].
  destruct (sc_de last) as [a|] eqn:Ea; [|discriminate]. cbn [qbind]. intro E. injection E as <-.
  apply read_points_inv in EL as [-> HL]; auto.
  apply is_bytes_app in HB as [_ HB]. apply read_points_inv in ER as [-> HR]; auto.
  apply is_bytes_app in HB as [_ HB].
  apply slice_inv in Es as [Eb Hl].
  unfold rounds, ipa_to_bytes. cbn [ipa_L ipa_R ipa_a]. split; auto.
  assert (HBl := HB). rewrite Eb in HBl. apply is_bytes_app in HBl as [HBl _].
  do 2 f_equal. rewrite (sc_canon _ _ HBl Hl Ea).
  rewrite !app_length, !concat_ser_len, HL, HR in E1.
  apply (f_equal (@length Z)) in Eb as Eb'. rewrite app_length in Eb'.
  assert (length (skipn 32 b2) = 0%nat) as H0 by (rewrite skipn_length in *; lia).
  apply length_zero_iff_nil in H0. rewrite H0, app_nil_r in Eb. now symmetry.
Qed.

Lemma ipa_urt p n : rounds p (log2_up n) -> Z.of_nat (log2_up n) < 2 ^ 24 ->
  ipa_from_bytes_uncompressed (ipa_to_bytes_uncompressed p) n = Ok (Some p).
Proof.
  intros H Hf. unfold ipa_from_bytes_uncompressed. rewrite (ipa_ubytes_len _ _ H).
  set (r := log2_up n) in *.
  assert (E1 : Z.of_nat r * 2 * 64 + 32 =? Z.of_nat (2 * r * 64 + 32) mod 2 ^ 32 = true).
  { apply Z.eqb_eq. rewrite Z.mod_small; lia. }
  rewrite E1. cbn [assertb rbind]. destruct H as [H1 H2].
  replace (2 * r * 64 + 32 - 32)%nat with (2 * r * 64)%nat by lia.
  unfold ipa_to_bytes_uncompressed. rewrite app_assoc.
  assert (Hl : length (concat (map eu_ser (ipa_L p)) ++ concat (map eu_ser (ipa_R p))) = (2 * r * 64)%nat).
  { rewrite app_length, !concat_user_len. lia. }
  rewrite firstn_app_exact, skipn_app_exact by auto.
  rewrite sc_len, Nat.eqb_refl. cbn [assertb rbind].
  rewrite <- H1 at 1. rewrite read_upoints_rt. cbn [rbind].
  rewrite <- (app_nil_r (concat (map eu_ser (ipa_R p)))). rewrite <- H2, read_upoints_rt. cbn [rbind].
  rewrite sc_rt. cbn [qbind]. now destruct p.
Qed.

Lemma slice_from_app (x r : bytes) n : length x = n -> slice_from n (x ++ r) = Ok r.
Proof.
  intro H. unfold slice_from. rewrite app_length.
  destruct (Nat.leb_spec n (length x + length r)); [|lia]. now rewrite skipn_app_exact.
Qed.

Lemma mp_rt p n : rounds (mp_ipa p) (log2_up n) -> rounds_fit (log2_up n) ->
  mp_from_bytes (mp_to_bytes p) n = Ok (Some p).
Proof.
  intros H Hf. unfold mp_from_bytes, mp_to_bytes.
  rewrite slice_app, slice_from_app by apply el_len. cbn [rbind]. rewrite el_rt. cbn [qbind].
  rewrite ipa_rt by auto. cbn [rbind qbind]. now destruct p.
Qed.

Lemma mp_urt p n : rounds (mp_ipa p) (log2_up n) -> Z.of_nat (log2_up n) < 2 ^ 24 ->
  mp_from_bytes_uncompressed (mp_to_bytes_uncompressed p) n = Ok (Some p).
Proof.
  intros H Hf. unfold mp_from_bytes_uncompressed, mp_to_bytes_uncompressed.
  rewrite slice_app, slice_from_app by apply eu_len. cbn [rbind]. rewrite eu_rt. cbn [unwrap rbind].
  rewrite ipa_urt by auto. cbn [rbind qbind]. now destruct p.
Qed.

Lemma mp_accept b n p : is_bytes b -> Z.of_nat (length b) < 2 ^ 32 ->
  mp_from_bytes b n = Ok (Some p) -> mp_to_bytes p = b /\ rounds (mp_ipa p) (log2_up n).
Proof.
  intros HB Hb. unfold mp_from_bytes.
  destruct (slice 0 32 b) as [gb|] eqn:Eg; [|discriminate]. cbn [rbind].
  apply slice_inv in Eg as [Eb Hg].
  unfold slice_from. destruct (32 <=? length b)%nat; [|discriminate]. cbn [rbind].
  destruct (el_de gb) as [g|] eqn:Ede; [|discriminate]. cbn [qbind].
  destruct (ipa_from_bytes (skipn 32 b) n) as [[o|]|] eqn:Eo; try discriminate.
  cbn [rbind qbind]. intro E. injection E as <-.
  apply ipa_accept in Eo as [E1 E2]; [|now apply is_bytes_skipn|rewrite skipn_length; lia].
  unfold mp_to_bytes. cbn [mp_g mp_ipa]. rewrite E1, (el_canon gb g); auto.
  rewrite Eb in HB. now apply is_bytes_app in HB.
Qed.

Lemma mp_bytes_len p r : rounds (mp_ipa p) r -> length (mp_to_bytes p) = (32 + (2 * r + 1) * 32)%nat.
Proof. intro H. unfold mp_to_bytes. now rewrite app_length, el_len, (ipa_bytes_len _ _ H). Qed.
Lemma mp_ubytes_len p r : rounds (mp_ipa p) r ->
  length (mp_to_bytes_uncompressed p) = (64 + (2 * r * 64 + 32))%nat.
Proof. intro H. unfold mp_to_bytes_uncompressed. now rewrite app_length, eu_len, (ipa_ubytes_len _ _ H). Qed.

(** A string of any other length (up to 2^32) makes the decoder panic. *)
Lemma ipa_wrong_length b n :
  Z.of_nat (length b) mod 2 ^ 32 <> (Z.of_nat (log2_up n) * 2 + 1) * 32 ->
  ipa_from_bytes b n = Panic.
Proof.
  intro H. unfold ipa_from_bytes.
  destruct ((Z.of_nat (log2_up n) * 2 + 1) * 32 =? Z.of_nat (length b) mod 2 ^ 32) eqn:E; auto.
  apply Z.eqb_eq in E. congruence.
Qed.

Lemma ipa_wrong_length_panics b n :
  Z.of_nat (length b) < 2 ^ 32 -> length b <> ((2 * Nat.log2_up n + 1) * 32)%nat ->
  ipa_from_bytes b n = Panic.
Proof.
  intros Hb H. apply ipa_wrong_length. rewrite Z.mod_small by lia. unfold log2_up. lia.
Qed.

(* ------------------------------------------------------------------ *)
(** ** Verkle proofs *)

Lemma read_comms_rt l : forall r,
  read_comms (length l) (concat (map el_ser l) ++ r) = Some (l, r).
Proof.
  induction l as [|p l IH]; intro r; cbn [length read_comms map concat app]; auto.
  rewrite <- app_assoc, read_exact_app by apply el_len. rewrite el_rt, IH. reflexivity.
Qed.

Lemma proof_rt p : proof_fits p -> proof_read (proof_write p) = Ok (Some p).
Proof.
  intros [H1 H2 H3]. unfold proof_read, proof_write.
  rewrite hint_rt by auto. cbn [rbind qbind].
  rewrite u32_bytes_eq, read_u32_app by auto. cbn [qbind]. rewrite Nat2Z.id.
  rewrite read_comms_rt. cbn [qbind].
  rewrite mp_rt; [|auto| unfold rounds_fit; change (log2_up 256) with 8%nat; lia].
  cbn [rbind qbind]. now destruct p.
Qed.

Lemma proof_write_inj p q : proof_fits p -> proof_fits q -> proof_write p = proof_write q -> p = q.
Proof.
  intros Hp Hq E. apply (f_equal proof_read) in E. rewrite !proof_rt in E by auto. congruence.
Qed.

(* ------------------------------------------------------------------ *)
(** ** The CRS *)

Lemma decode_all_rt l : decode_all (map eu_ser l) = Ok l.
Proof.
  induction l as [|p l IH]; cbn [map decode_all]; auto. rewrite eu_rt. cbn [unwrap rbind].
  now rewrite IH.
Qed.

Lemma crs_rt (c : CRS) : crs_from_bytes (crs_to_bytes c) = Ok (mkCRS (length (crs_G c)) (crs_G c) (crs_Q c)).
Proof.
  unfold crs_from_bytes, crs_to_bytes. rewrite rev_app_distr. cbn [rev app].
  rewrite eu_rt. cbn [unwrap rbind]. rewrite rev_involutive, decode_all_rt. reflexivity.
Qed.
End Ipa.
