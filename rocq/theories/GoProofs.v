From Verif Require Import Base BaseFacts Alg BTree CodecModel WireModel WireSpec WireProofs ProofModel IpaModel GoModel GoSpec.

(** ** Hexadecimal *)
Lemma hex_digit_ok c v : hex_digit c = Some v <-> digit c v.
Proof.
  unfold hex_digit, digit. split.
  - intro E. destruct ((48 <=? c) && (c <=? 57)) eqn:B1.
    { apply andb_true_iff in B1 as [X Y]. apply Z.leb_le in X, Y. inversion E. left. lia. }
    destruct ((97 <=? c) && (c <=? 102)) eqn:B2.
    { apply andb_true_iff in B2 as [X Y]. apply Z.leb_le in X, Y. inversion E. right. lia. }
    destruct ((65 <=? c) && (c <=? 70)) eqn:B3; [|discriminate].
    apply andb_true_iff in B3 as [X Y]. apply Z.leb_le in X, Y. inversion E. right. lia.
  - intros [[R ->]|[R [->| ->]]].
    + replace (48 <=? 48 + v) with true by (symmetry; apply Z.leb_le; lia).
      replace (48 + v <=? 57) with true by (symmetry; apply Z.leb_le; lia). cbn [andb]. f_equal. lia.
    + replace (48 <=? 87 + v) with true by (symmetry; apply Z.leb_le; lia).
      replace (87 + v <=? 57) with false by (symmetry; apply Z.leb_gt; lia).
      replace (97 <=? 87 + v) with true by (symmetry; apply Z.leb_le; lia).
      replace (87 + v <=? 102) with true by (symmetry; apply Z.leb_le; lia). cbn [andb]. f_equal. lia.
    + replace (48 <=? 55 + v) with true by (symmetry; apply Z.leb_le; lia).
      replace (55 + v <=? 57) with false by (symmetry; apply Z.leb_gt; lia).
      replace (97 <=? 55 + v) with false by (symmetry; apply Z.leb_gt; lia).
      replace (65 <=? 55 + v) with true by (symmetry; apply Z.leb_le; lia).
      replace (55 + v <=? 70) with true by (symmetry; apply Z.leb_le; lia). cbn [andb]. f_equal. lia.
Qed.

Lemma pair_ind {X} (Q : list X -> Prop) : Q [] -> (forall x, Q [x]) -> (forall x y l, Q l -> Q (x :: y :: l)) -> forall l, Q l.
Proof.
  intros H0 H1 H2. fix IH 1. intros [|x [|y l]]; [exact H0|apply H1|apply H2, IH].
Qed.

Lemma hex_decode_ok s : forall b, hex_decode s = Some b <->
  exists pairs, s = flat_map (fun e => [fst e; snd e]) pairs /\
    Forall2 (fun e x => exists h l, digit (fst e) h /\ digit (snd e) l /\ x = 16 * h + l) pairs b.
Proof.
  induction s as [|x|x y s IH] using pair_ind; intro b.
  - cbn. split.
    + intro E. inversion E. exists []. split; [reflexivity|constructor].
    + intros ([|e pairs] & E & F); [now inversion F|discriminate].
  - cbn. split; [discriminate|]. intros ([|e pairs] & E & F); discriminate.
  - cbn [hex_decode]. split.
    + destruct (hex_digit x) as [h|] eqn:E1; [|discriminate]. destruct (hex_digit y) as [l|] eqn:E2; [|discriminate].
      destruct (hex_decode s) as [r|] eqn:E3; [|discriminate]. intro E. inversion E; subst b.
      destruct (proj1 (IH r) eq_refl) as (pairs & -> & F).
      exists ((x, y) :: pairs). split; [reflexivity|]. constructor; [|exact F].
      exists h, l. cbn [fst snd]. rewrite <- !hex_digit_ok. auto.
    + intros ([|[u w] pairs] & E & F); [discriminate|]. cbn in E. inversion E; subst x y.
      inversion F as [|? z ? b' (h & l & D1 & D2 & Ez) F']; subst. cbn [fst snd] in D1, D2.
      apply hex_digit_ok in D1, D2. rewrite D1, D2.
      rewrite (proj2 (IH b')); [reflexivity|]. exists pairs. auto.
Qed.

Lemma trim_ok s : exists k, s = concat (repeat [48; 120] k) ++ trim_0x s.
Proof.
  induction s as [|x|x y s IH] using pair_ind; [exists O; reflexivity|exists O; reflexivity|].
  cbn [trim_0x]. destruct ((x =? 48) && (y =? 120)) eqn:B.
  - apply andb_true_iff in B as [X Y]. apply Z.eqb_eq in X, Y. subst.
    destruct IH as [k E]. exists (S k). cbn [repeat concat app]. now rewrite <- E.
  - exists O. reflexivity.
Qed.
Lemma trim_skip k s : trim_0x (concat (repeat [48; 120] k) ++ s) = trim_0x s.
Proof. induction k as [|k IH]; [reflexivity|]. cbn [repeat concat app]. cbn [trim_0x]. exact IH. Qed.
Lemma digit_not_x c v : digit c v -> c <> 120.
Proof. unfold digit. lia. Qed.

Lemma trim_digits pairs b :
  Forall2 (fun e x => exists h l, digit (fst e) h /\ digit (snd e) l /\ x = 16 * h + l) pairs b ->
  trim_0x (flat_map (fun e => [fst e; snd e]) pairs) = flat_map (fun e : Z * Z => [fst e; snd e]) pairs.
Proof.
  intro F. destruct F as [|e x pairs b (h & l & D1 & D2 & _) F]; [reflexivity|].
  cbn [flat_map app trim_0x]. apply digit_not_x in D2.
  replace (snd e =? 120) with false by (symmetry; apply Z.eqb_neq; exact D2). now rewrite andb_false_r.
Qed.

Lemma hex_iff s b : hex_decode (trim_0x s) = Some b <-> hex_means s b.
Proof.
  rewrite hex_decode_ok. unfold hex_means. split.
  - intros (pairs & E & F). destruct (trim_ok s) as [k Ek]. exists k, pairs. rewrite <- E. auto.
  - intros (k & pairs & -> & F). exists pairs. split; [|exact F]. rewrite trim_skip. eapply trim_digits; eauto.
Qed.

Lemma hex_means_bytes s b : hex_means s b -> is_bytes b.
Proof.
  intros (k & pairs & _ & F). induction F as [|e x pairs b (h & l & D1 & D2 & ->) F IH]; constructor; [|exact IH].
  unfold digit, is_byte in *. lia.
Qed.

Lemma hex_char_digit v : 0 <= v < 16 -> digit (hex_char v) v.
Proof. intro R. unfold hex_char, digit. destruct (Z.ltb_spec v 10); lia. Qed.
Lemma hex_of_means b : is_bytes b -> hex_means (hex_of b) b.
Proof.
  intro H. exists 1%nat, (map (fun x => (hex_char (x / 16), hex_char (x mod 16))) b). split.
  - unfold hex_of. cbn [repeat concat]. f_equal. induction b as [|x b IH]; [reflexivity|].
    cbn [flat_map map fst snd app]. do 2 f_equal. apply IH. now inversion H.
  - induction H as [|x b Hx H IH]; [constructor|]. cbn [map]. constructor; [|exact IH].
    exists (x / 16), (x mod 16). cbn [fst snd]. unfold is_byte in Hx.
    split; [|split].
    + apply hex_char_digit. split; [apply Z.div_pos; lia|apply Z.div_lt_upper_bound; lia].
    + apply hex_char_digit, Z.mod_pos_bound. lia.
    + apply Z.div_mod. lia.
Qed.

Lemma fixed_ok n s b : hex_to_fixed_size_array n s = Ok b <-> hex_means s b /\ length b = n.
Proof.
  unfold hex_to_fixed_size_array. rewrite <- hex_iff. destruct (hex_decode (trim_0x s)) as [x|]; cbn [unwrap rbind].
  - unfold assertb. destruct (Nat.eqb_spec (length x) n) as [E|N]; cbn [rbind].
    + split; [intro X; inversion X; subst; auto|]. intros [X _]. inversion X. reflexivity.
    + split; [discriminate|]. intros [X Y]. inversion X; subst. contradiction.
  - split; [discriminate|]. intros [X _]. discriminate.
Qed.
Lemma fixed_panic n s : hex_to_fixed_size_array n s = Panic <-> (forall b, hex_means s b -> length b <> n).
Proof.
  destruct (hex_to_fixed_size_array n s) as [b|] eqn:E.
  - split; [discriminate|]. intro N. apply fixed_ok in E as [M L]. destruct (N b M L).
  - split; [|reflexivity]. intros _ b M L. assert (X : hex_to_fixed_size_array n s = Ok b) by (apply fixed_ok; auto). congruence.
Qed.
Lemma var_ok s b : hex_to_bytes s = Ok b <-> hex_means s b.
Proof.
  unfold hex_to_bytes. rewrite <- hex_iff. destruct (hex_decode (trim_0x s)) as [x|]; cbn [unwrap].
  - split; intro E; inversion E; reflexivity.
  - split; discriminate.
Qed.

Lemma hex_unique s b b' : hex_means s b -> hex_means s b' -> b = b'.
Proof. rewrite <- !hex_iff. congruence. Qed.

(** ** Strings to bytes *)
Lemma rmap_iff {X Y} (f : X -> res Y) (R : X -> Y -> Prop) (H : forall x y, f x = Ok y <-> R x y) l : forall m,
  rmap f l = Ok m <-> Forall2 R l m.
Proof.
  induction l as [|x l IH]; intro m; cbn [rmap].
  - split; intro E; inversion E; subst; [constructor|reflexivity].
  - split.
    + intro E. apply rbind_ok in E as (y & E1 & E). apply rbind_ok in E as (m' & E2 & E). inversion E; subst.
      constructor; [now apply H|now apply IH].
    + intro F. inversion F as [|? y ? m' F1 F2]; subst. apply H in F1. rewrite F1. cbn [rbind].
      apply IH in F2. rewrite F2. reflexivity.
Qed.
Lemma Forall2_and_r {X Y} (R : X -> Y -> Prop) (Q : Y -> Prop) l m :
  Forall2 (fun x y => R x y /\ Q y) l m <-> Forall2 R l m /\ Forall Q m.
Proof.
  split.
  - intro F. induction F as [|x y l m [F1 F2] F IH]; [split; constructor|]. destruct IH. split; constructor; auto.
  - intros [F Q']. induction F; constructor; inversion Q'; subst; auto.
Qed.

Lemma opt_hex_ok o v : opt_hex o = Ok v <-> value_means o v /\ value_sized v.
Proof.
  unfold opt_hex, value_means, value_sized, sized. destruct o as [s|], v as [b|].
  - split.
    + intro E. apply rbind_ok in E as (x & E1 & E). inversion E; subst. apply fixed_ok in E1 as [M L].
      split; [exact M|]. split; [eapply hex_means_bytes; eauto|exact L].
    + intros [M [_ L]]. unfold hex_to_bytes32. rewrite (proj2 (fixed_ok 32 s b) (conj M L)). reflexivity.
  - split; [|intros [[] _]]. intro E. apply rbind_ok in E as (x & E1 & E). discriminate.
  - split; [discriminate|intros [[] _]].
  - split; auto.
Qed.

Definition suffix_means (x : JSuffixDiff) (d : SuffixDiff) : Prop :=
  js_suffix x = sd_suffix d /\ value_means (js_current x) (sd_current d) /\ value_means (js_new x) (sd_new d).
Lemma suffix_ok j d : suffix_of_json j = Ok d <-> suffix_means j d /\ (value_sized (sd_current d) /\ value_sized (sd_new d)).
Proof.
  unfold suffix_of_json, suffix_means. split.
  - intro E. apply rbind_ok in E as (c & E1 & E). apply rbind_ok in E as (n & E2 & E). inversion E; subst. cbn.
    apply opt_hex_ok in E1, E2. intuition.
  - destruct d as [z c n]. cbn. intros [(E & M1 & M2) [S1 S2]].
    rewrite (proj2 (opt_hex_ok _ _) (conj M1 S1)), (proj2 (opt_hex_ok _ _) (conj M2 S2)). cbn [rbind]. now rewrite E.
Qed.
Definition state_means (j : JStateDiff) (s : StateDiff) : Prop :=
  hex_means (jt_stem j) (st_stem s) /\ Forall2 suffix_means (jt_diffs j) (st_diffs s).
Definition one_state_sized (s : StateDiff) : Prop :=
  sized 31 (st_stem s) /\ Forall (fun d => value_sized (sd_current d) /\ value_sized (sd_new d)) (st_diffs s).
Lemma state_ok j s : state_of_json j = Ok s <-> state_means j s /\ one_state_sized s.
Proof.
  unfold state_of_json, state_means, one_state_sized, sized, hex_to_bytes31. split.
  - intro E. apply rbind_ok in E as (c & E1 & E). apply rbind_ok in E as (n & E2 & E). inversion E; subst. cbn.
    apply fixed_ok in E1 as [M L]. apply (rmap_iff _ _ suffix_ok) in E2. apply Forall2_and_r in E2 as [F1 F2].
    split; [auto|]. split; [|exact F2]. split; [eapply hex_means_bytes; eauto|exact L].
  - destruct s as [c n]. cbn. intros [[M F] [[_ L] S]].
    rewrite (proj2 (fixed_ok 31 _ c) (conj M L)). cbn [rbind].
    rewrite (proj2 (rmap_iff _ _ suffix_ok _ n)); [reflexivity|]. apply Forall2_and_r. auto.
Qed.
Lemma sized_ok n s b : hex_to_fixed_size_array n s = Ok b <-> hex_means s b /\ sized n b.
Proof.
  rewrite fixed_ok. unfold sized. split; [|intuition]. intros [M L]. split; [exact M|]. split; [eapply hex_means_bytes; eauto|exact L].
Qed.

Lemma go_of_witness_ok w g : go_of_witness w = Ok g <-> witness_means w g /\ go_sized g.
Proof.
  unfold go_of_witness, hex_to_bytes31, hex_to_bytes32. split.
  - intro E. apply rbind_ok in E as (st & E1 & E). apply rbind_ok in E as (ot & E2 & E).
    apply rbind_ok in E as (cm & E3 & E). apply rbind_ok in E as (d & E4 & E). apply rbind_ok in E as (cl & E5 & E).
    apply rbind_ok in E as (cr & E6 & E). apply rbind_ok in E as (fi & E7 & E). apply rbind_ok in E as (de & E8 & E).
    inversion E; subst. clear E.
    apply (rmap_iff _ _ state_ok) in E1. apply (rmap_iff _ _ (sized_ok 31)) in E2.
    apply (rmap_iff _ _ (sized_ok 32)) in E3, E5, E6. apply sized_ok in E4, E7. apply var_ok in E8.
    apply Forall2_and_r in E1 as [? ?], E2 as [? ?], E3 as [? ?], E5 as [? ?], E6 as [? ?]. destruct E4, E7.
    split; constructor; cbn; auto. eapply hex_means_bytes; eauto.
  - destruct g as [st cm ot [d cl cr fi] de]. intros [[M1 M2 M3 M4 M5 M6 M7 M8] [S1 S2 S3 S4 S5 S6 S7 S8]]. cbn in *.
    rewrite (proj2 (rmap_iff _ _ state_ok _ st)) by (apply Forall2_and_r; auto). cbn [rbind].
    rewrite (proj2 (rmap_iff _ _ (sized_ok 31) _ ot)) by (apply Forall2_and_r; auto). cbn [rbind].
    rewrite (proj2 (rmap_iff _ _ (sized_ok 32) _ cm)) by (apply Forall2_and_r; auto). cbn [rbind].
    rewrite (proj2 (sized_ok 32 _ d)) by auto. cbn [rbind].
    rewrite (proj2 (rmap_iff _ _ (sized_ok 32) _ cl)) by (apply Forall2_and_r; auto). cbn [rbind].
    rewrite (proj2 (rmap_iff _ _ (sized_ok 32) _ cr)) by (apply Forall2_and_r; auto). cbn [rbind].
    rewrite (proj2 (sized_ok 32 _ fi)) by auto. cbn [rbind].
    rewrite (proj2 (var_ok _ de)) by auto. reflexivity.
Qed.

Lemma Forall2_map_l {X Y} (f : Y -> X) (R : X -> Y -> Prop) l : Forall (fun y => R (f y) y) l -> Forall2 R (map f l) l.
Proof. induction 1; cbn; constructor; auto. Qed.
Lemma value_of_means o : value_sized o -> value_means (option_map hex_of o) o.
Proof. destruct o as [b|]; cbn; [|auto]. intros [H _]. now apply hex_of_means. Qed.

Lemma json_of_go_ok g : go_sized g -> go_of_witness (json_of_go g) = Ok g.
Proof.
  intro S. apply go_of_witness_ok. split; [|exact S]. destruct S as [S1 S2 S3 [S4 _] S5 S6 [S7 _] S8].
  constructor; cbn.
  - apply Forall2_map_l. eapply Forall_impl; [|exact S1]. intros s [[B _] F]. cbn. split; [now apply hex_of_means|].
    apply Forall2_map_l. eapply Forall_impl; [|exact F]. intros d [V1 V2]. cbn. split; [reflexivity|].
    split; now apply value_of_means.
  - apply Forall2_map_l. eapply Forall_impl; [|exact S3]. intros b [B _]. now apply hex_of_means.
  - apply Forall2_map_l. eapply Forall_impl; [|exact S2]. intros b [B _]. now apply hex_of_means.
  - now apply hex_of_means.
  - apply Forall2_map_l. eapply Forall_impl; [|exact S5]. intros b [B _]. now apply hex_of_means.
  - apply Forall2_map_l. eapply Forall_impl; [|exact S6]. intros b [B _]. now apply hex_of_means.
  - now apply hex_of_means.
  - now apply hex_of_means.
Qed.

(** ** Keys *)
Definition kv_of (l : list StateDiff) : KeysValues := mkKV (diff_keys l) (diff_current l) (diff_new l).
Lemma all_keys_ok l : Forall (fun s => length (st_stem s) = 31%nat) l -> all_keys l = Ok (kv_of l).
Proof.
  induction 1 as [|s l Hs H IH]; [reflexivity|]. cbn [all_keys]. unfold keys_with_current_values.
  assert (E : forall ds, rmap (fun d => let key := st_stem s ++ [sd_suffix d] in
     let! _ := assertb (length key =? 32)%nat in Ok key) ds = Ok (map (fun d => st_stem s ++ [sd_suffix d]) ds)).
  { induction ds as [|d ds IHd]; [reflexivity|]. cbn [rmap map]. cbn zeta in IHd |- *. rewrite app_length, Hs. cbn [length].
    change (31 + 1 =? 32)%nat with true. cbn [assertb rbind]. rewrite IHd. reflexivity. }
  rewrite E. cbn [rbind]. rewrite IH. reflexivity.
Qed.
Lemma keys_aligned l : length (diff_keys l) = length (diff_current l) /\ length (diff_keys l) = length (diff_new l).
Proof.
  induction l as [|s l [IH1 IH2]]; [split; reflexivity|]. unfold diff_keys, diff_current, diff_new in *. cbn [flat_map].
  rewrite !app_length, !map_length. split; [exact (f_equal _ IH1)|exact (f_equal _ IH2)].
Qed.

(** ** Statuses *)
Lemma dep_ok b r : byte_to_depth_extension_present b = Ok r <-> (status_means b (fst r) /\ snd r = b / 8).
Proof.
  unfold byte_to_depth_extension_present. rewrite Z.land_comm, land3. pose proof (Z.mod_pos_bound b 4 ltac:(lia)) as R.
  rewrite Z.shiftr_div_pow2 by lia. change (2 ^ 3) with 8. destruct r as [e d]. cbn [fst snd].
  split.
  - intro E. apply rbind_ok in E as (e' & E1 & E). inversion E; subst.
    destruct (Z.eqb_spec (b mod 4) 0); [inversion E1; subst; cbn; auto|].
    destruct (Z.eqb_spec (b mod 4) 1); [inversion E1; subst; cbn; auto|].
    destruct (Z.eqb_spec (b mod 4) 2); [inversion E1; subst; cbn; auto|]. discriminate.
  - intros [M ->]. destruct e; cbn in M; rewrite M; reflexivity.
Qed.
Lemma deps_ok buf : forall r, rmap byte_to_depth_extension_present buf = Ok r <->
  (Forall2 status_means buf (map fst r) /\ map snd r = map (fun b => b / 8) buf).
Proof.
  intro r. rewrite (rmap_iff _ _ dep_ok). split.
  - intro F. induction F as [|b x buf r [F1 F2] F [IH1 IH2]]; [split; constructor|]. cbn. split; [constructor; auto|congruence].
  - revert buf. induction r as [|x r IH]; intros [|b buf] [F E]; inversion F; subst; [constructor|].
    cbn in E. inversion E. constructor; auto.
Qed.
Lemma dep_panic b : byte_to_depth_extension_present b = Panic <-> bad_status b.
Proof.
  unfold byte_to_depth_extension_present, bad_status. rewrite Z.land_comm, land3. pose proof (Z.mod_pos_bound b 4 ltac:(lia)) as R.
  destruct (Z.eqb_spec (b mod 4) 0); [split; [discriminate|lia]|].
  destruct (Z.eqb_spec (b mod 4) 1); [split; [discriminate|lia]|].
  destruct (Z.eqb_spec (b mod 4) 2); [split; [discriminate|lia]|]. split; [lia|reflexivity].
Qed.
Lemma rmap_panic {X Y} (f : X -> res Y) l : rmap f l = Panic <-> Exists (fun x => f x = Panic) l.
Proof.
  induction l as [|x l IH]; cbn [rmap]; [split; [discriminate|intro E; inversion E]|].
  split.
  - destruct (f x) eqn:E; [|left; exact E]. cbn [rbind]. destruct (rmap f l); [discriminate|]. intros _. right. now apply IH.
  - intro E. inversion E as [? ? E1|? ? E1]; subst; [now rewrite E1|]. apply IH in E1. rewrite E1. now destruct (f x).
Qed.

Section Go.
Context {A : Alg} {C : ECodec A}.

Lemma elements_some l : forall gs, elements l = Some gs <-> Forall2 (fun b g => el_de b = Some g) l gs.
Proof.
  induction l as [|b l IH]; intro gs; cbn [elements].
  - split; intro E; inversion E; subst; [constructor|reflexivity].
  - split.
    + destruct (el_de b) as [g|] eqn:E1; [|discriminate]. destruct (elements l) as [m|] eqn:E2; [|discriminate].
      intro E. inversion E; subst. constructor; [exact E1|]. now apply IH.
    + intro F. inversion F as [|? g ? m F1 F2]; subst. rewrite F1. apply IH in F2. now rewrite F2.
Qed.
Lemma elements_ok l : points_decode l <-> exists gs, elements l = Some gs.
Proof.
  unfold points_decode. split.
  - induction 1 as [|b l Hb H [gs IH]]; [exists []; reflexivity|]. cbn [elements].
    destruct (el_de b) as [g|]; [|contradiction]. rewrite IH. eauto.
  - intros [gs E]. apply elements_some in E. induction E as [|b g l gs E1 E IH]; constructor; [|exact IH].
    rewrite E1. discriminate.
Qed.
Lemma elements_none l : elements l = None -> ~ points_decode l.
Proof. intros E D. apply elements_ok in D as [gs D]. congruence. Qed.

Context {CL : ECodecLaws C}.

Lemma elements_rt gs : elements (map el_ser gs) = Some gs.
Proof. apply elements_some. induction gs; cbn; constructor; [apply el_rt|auto]. Qed.
Lemma elements_canon l gs : Forall (sized 32) l -> elements l = Some gs -> map el_ser gs = l.
Proof.
  intros S E. apply elements_some in E. revert S. induction E as [|b g l gs E1 E IH]; intro S; [reflexivity|].
  inversion S as [|? ? [S1 S2] S3]; subst. cbn. f_equal; [now apply el_canon|auto].
Qed.

Lemma state_stems l : state_sized l -> Forall (fun s => length (st_stem s) = 31%nat) l.
Proof. intro S. eapply Forall_impl; [|exact S]. intros s [[_ L] _]. exact L. Qed.

(** The conversion of a witness, completely. *)
Lemma convert_cases g : go_sized g ->
  (Exists bad_status (go_depths g) /\ verkle_proof_of_go g = Panic) \/
  (~ Exists bad_status (go_depths g) /\
   (~ (points_decode (go_comms g) /\ points_decode (go_cl (go_proof g)) /\ points_decode (go_cr (go_proof g))) /\
      verkle_proof_of_go g = Ok None \/
    points_decode (go_comms g) /\ points_decode (go_cl (go_proof g)) /\ points_decode (go_cr (go_proof g)) /\
     (sc_de (rev (go_final (go_proof g))) = None /\ verkle_proof_of_go g = Panic \/
      sc_de (rev (go_final (go_proof g))) <> None /\
      (el_de (go_d (go_proof g)) = None /\ verkle_proof_of_go g = Ok None \/
       exists p, go_says g p /\ verkle_proof_of_go g = Ok (Some (p, kv_of (go_state g))))))).
Proof.
  intros [S1 S2 S3 [S4a S4b] S5 S6 [S7a S7b] S8]. unfold verkle_proof_of_go.
  destruct (rmap byte_to_depth_extension_present (go_depths g)) as [ed|] eqn:E1.
  2:{ left. split; [|reflexivity]. apply rmap_panic in E1. clear - E1. induction E1; [left; now apply dep_panic|right; auto]. }
  right. split.
  { intro B. assert (X : rmap byte_to_depth_extension_present (go_depths g) = Panic).
    { apply rmap_panic. clear - B. induction B; [left; now apply dep_panic|right; auto]. } congruence. }
  cbn [rbind]. rewrite (all_keys_ok _ (state_stems _ S1)). cbn [rbind].
  destruct (elements (go_comms g)) as [cm|] eqn:E2; cbn [qbind].
  2:{ left. split; [|reflexivity]. apply elements_none in E2. tauto. }
  destruct (elements (go_cl (go_proof g))) as [l|] eqn:E3; cbn [qbind].
  2:{ left. split; [|reflexivity]. apply elements_none in E3. tauto. }
  destruct (elements (go_cr (go_proof g))) as [r|] eqn:E4; cbn [qbind].
  2:{ left. split; [|reflexivity]. apply elements_none in E4. tauto. }
  right. split; [apply elements_ok; eauto|]. split; [apply elements_ok; eauto|]. split; [apply elements_ok; eauto|].
  unfold bytes32_to_scalar. destruct (sc_de (rev (go_final (go_proof g)))) as [a|] eqn:E5; cbn [unwrap rbind].
  2:{ left. auto. }
  right. split; [discriminate|]. destruct (el_de (go_d (go_proof g))) as [d|] eqn:E6; cbn [qbind].
  2:{ left. auto. }
  right. apply deps_ok in E1 as [F Ed]. eexists. split; [|reflexivity].
  constructor; cbn [vp_hint vh_ext vh_depths vh_diff vp_comms vp_proof mp_g mp_ipa ipa_L ipa_R ipa_a].
  - exact F.
  - exact Ed.
  - change (fold_left (fun s x => set_insert x s) (go_other g) []) with (set_of (go_other g)).
    split; [apply sorted_set_of|intro x; apply In_set_of].
  - now apply elements_canon.
  - now apply el_canon.
  - now apply elements_canon.
  - now apply elements_canon.
  - rewrite (sc_canon (rev (go_final (go_proof g)))); [apply rev_involutive| | |exact E5].
    + apply Forall_rev. exact S7a.
    + rewrite rev_length. exact S7b.
Qed.

Lemma status_bytes_means ds : forall es, length es = length ds -> Forall (fun d => 0 <= d <= 31) ds ->
  Forall2 status_means (map (fun '(d, e) => 8 * d + ext_code e) (combine ds es)) es /\
  map (fun b => b / 8) (map (fun '(d, e) => 8 * d + ext_code e) (combine ds es)) = ds.
Proof.
  induction ds as [|d ds IH]; intros [|e es] L F; try discriminate; [split; constructor|].
  inversion F; subst. cbn [length] in L. destruct (IH es) as [I1 I2]; [lia|assumption|]. cbn [combine map]. split.
  - constructor; [|exact I1]. unfold status_means. rewrite ext_code_mod. now destruct e.
  - rewrite I2, ext_code_div. reflexivity.
Qed.

Lemma convert_rt p l : hint_fits (vp_hint p) -> state_sized l ->
  verkle_proof_of_go (go_of_proof p l) = Ok (Some (p, kv_of l)).
Proof.
  intros HF S. destruct p as [[ds es df] cm [[L R a] g]]. unfold go_of_proof, verkle_proof_of_go. destruct HF as [H1 H2 H3 H4 H5 H6].
  cbn [vp_hint vp_comms vp_proof vh_depths vh_ext vh_diff mp_ipa mp_g ipa_L ipa_R ipa_a go_depths go_state go_comms go_proof go_cl go_cr go_final go_d go_other] in *.
  destruct (status_bytes_means ds es H1 H2) as [M1 M2].
  assert (E : rmap byte_to_depth_extension_present (map (fun '(d, e) => 8 * d + ext_code e) (combine ds es)) = Ok (combine es ds)).
  { apply deps_ok. rewrite M2. clear - M1 H1. 
    assert (X : map fst (combine es ds) = es /\ map snd (combine es ds) = ds).
    { clear M1. revert ds H1. induction es as [|e es IH]; intros [|d ds] L; try discriminate; [split; reflexivity|].
      cbn in *. destruct (IH ds) as [-> ->]; [lia|]. auto. }
    destruct X as [-> ->]. auto. }
  rewrite E. cbn [rbind]. rewrite (all_keys_ok _ (state_stems _ S)). cbn [rbind].
  rewrite !elements_rt. cbn [qbind]. unfold bytes32_to_scalar. rewrite rev_involutive, sc_rt. cbn [unwrap rbind].
  rewrite el_rt. cbn [qbind].
  assert (X : map fst (combine es ds) = es /\ map snd (combine es ds) = ds).
  { clear - H1. revert ds H1. induction es as [|e es IH]; intros [|d ds] L; try discriminate; [split; reflexivity|].
    cbn in *. destruct (IH ds) as [-> ->]; [lia|]. auto. }
  destruct X as [-> ->]. change (fold_left (fun s x => set_insert x s) df []) with (set_of df).
  rewrite set_of_sorted by assumption. reflexivity.
Qed.

Context {P : Par A} {H : Hasher} {J : Json}.

Lemma verify_ok root json w p l r : json_de json = Some w -> witness_means w (go_of_proof p l) -> go_sized (go_of_proof p l) ->
  hint_fits (vp_hint p) -> hex_means root (el_ser r) ->
  verify_execution_witness root json = (let! (ok, _) := proof_check p (diff_keys l) (diff_current l) r in Ok ok).
Proof.
  intros E M S HF HR. unfold verify_execution_witness. rewrite E. cbn [unwrap rbind].
  rewrite (proj2 (go_of_witness_ok w _) (conj M S)). cbn [rbind].
  rewrite (convert_rt p l HF (gs_state _ S)). cbn [rbind].
  unfold hex_to_bytes32. rewrite (proj2 (fixed_ok 32 root (el_ser r)) (conj HR (el_len r))). cbn [rbind].
  rewrite el_rt. reflexivity.
Qed.

Lemma verify_accept root json : verify_execution_witness root json = Ok true ->
  exists w g p r uh, json_de json = Some w /\ witness_means w g /\ go_sized g /\ go_says g p /\ hex_means root (el_ser r) /\
    proof_check p (diff_keys (go_state g)) (diff_current (go_state g)) r = Ok (true, uh).
Proof.
  unfold verify_execution_witness. intro E. apply rbind_ok in E as (w & E1 & E). apply rbind_ok in E as (g & E2 & E).
  apply rbind_ok in E as (o & E3 & E). destruct o as [[p kv]|]; [|discriminate].
  apply rbind_ok in E as (rb & E4 & E). destruct (el_de rb) as [r|] eqn:E5; [|discriminate].
  apply rbind_ok in E as ([ok uh] & E6 & E). inversion E; subst ok.
  apply go_of_witness_ok in E2 as [M S]. apply sized_ok in E4 as [M' [S' L']].
  assert (X : go_says g p /\ kv = kv_of (go_state g)).
  { destruct (convert_cases g S) as [[_ X]|[_ [[_ X]|(_ & _ & _ & [[_ X]|[_ [[_ X]|(p' & Y & X)]]])]]]; rewrite X in E3; inversion E3; subst; auto. }
  destruct X as [Y ->]. exists w, g, p, r, uh.
  split; [destruct (json_de json); inversion E1; reflexivity|]. split; [exact M|]. split; [exact S|]. split; [exact Y|].
  split; [|exact E6]. rewrite (el_canon rb r S' L' E5). exact M'.
Qed.

(** The verdict does not depend on the new values. *)
Lemma verify_ignores_new root json json' w w' g g' : json_de json = Some w -> json_de json' = Some w' ->
  witness_means w g -> witness_means w' g' -> go_sized g -> go_sized g' ->
  diff_keys (go_state g) = diff_keys (go_state g') -> diff_current (go_state g) = diff_current (go_state g') ->
  go_comms g = go_comms g' -> go_other g = go_other g' -> go_proof g = go_proof g' -> go_depths g = go_depths g' ->
  verify_execution_witness root json = verify_execution_witness root json'.
Proof.
  intros E E' M M' S S' K1 K2 K3 K4 K5 K6. unfold verify_execution_witness. rewrite E, E'. cbn [unwrap rbind].
  rewrite (proj2 (go_of_witness_ok w _) (conj M S)), (proj2 (go_of_witness_ok w' _) (conj M' S')). cbn [rbind].
  unfold verkle_proof_of_go. rewrite K3, K4, K5, K6.
  rewrite (all_keys_ok _ (state_stems _ (gs_state _ S))), (all_keys_ok _ (state_stems _ (gs_state _ S'))).
  unfold kv_of. rewrite K1, K2.
  destruct (rmap byte_to_depth_extension_present (go_depths g')) as [ed|]; [|reflexivity]. cbn [rbind].
  destruct (elements (go_comms g')) as [cm|]; [|reflexivity]. cbn [qbind].
  destruct (elements (go_cl (go_proof g'))) as [cl|]; [|reflexivity]. cbn [qbind].
  destruct (elements (go_cr (go_proof g'))) as [cr|]; [|reflexivity]. cbn [qbind].
  destruct (bytes32_to_scalar (go_final (go_proof g'))) as [a|]; [|reflexivity]. cbn [rbind].
  destruct (el_de (go_d (go_proof g'))) as [d|]; reflexivity.
Qed.

Lemma verify_bad root json : 
  (json_de json = None -> verify_execution_witness root json = Panic) /\
  (forall w, json_de json = Some w -> (forall g, witness_means w g -> ~ go_sized g) -> verify_execution_witness root json = Panic) /\
  (forall w g, json_de json = Some w -> witness_means w g -> go_sized g -> Exists bad_status (go_depths g) ->
     verify_execution_witness root json = Panic).
Proof.
  unfold verify_execution_witness. split; [intros ->; reflexivity|]. split.
  - intros w -> N. cbn [unwrap rbind]. destruct (go_of_witness w) as [g|] eqn:E; [|reflexivity].
    apply go_of_witness_ok in E as [M S]. destruct (N g M S).
  - intros w g -> M S B. cbn [unwrap rbind]. rewrite (proj2 (go_of_witness_ok w g) (conj M S)). cbn [rbind].
    destruct (convert_cases g S) as [[_ X]|[N _]]; [|contradiction]. rewrite X. reflexivity.
Qed.
End Go.
