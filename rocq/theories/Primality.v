(** Proofs that large numbers are prime: Fermat's theorem, Pocklington's criterion, and powers modulo n
    computed with the quotients supplied.  Used for the constants of the curve in [Bander]. *)
From Coq Require Import Znumtheory Zpow_facts Permutation.
From Verif Require Import Base AlgInst.
Local Open Scope Z_scope.

(** ** Fermat *)
Definition prod (l : list Z) : Z := fold_right Z.mul 1 l.
Lemma prod_perm l l' : Permutation l l' -> prod l = prod l'.
Proof.
  induction 1; unfold prod in *; cbn [fold_right]; [reflexivity|congruence|ring|congruence].
Qed.
Lemma prod_scaled n a l : n <> 0 -> prod (map (fun k => (a * k) mod n) l) mod n = (a ^ Z.of_nat (length l) * prod l) mod n.
Proof.
  intro Hn. unfold prod. induction l as [|k l IH]; [reflexivity|]. cbn [map fold_right length].
  rewrite <- Zmult_mod_idemp_r, IH, Zmult_mod_idemp_r, Zmult_mod_idemp_l. f_equal. rewrite Nat2Z.inj_succ, Z.pow_succ_r by lia. ring.
Qed.
Lemma prod_coprime p l : prime p -> (forall k, In k l -> ~ (p | k)) -> ~ (p | prod l).
Proof.
  intros Hp. induction l as [|k l IH]; intros Hl D.
  - cbn in D. apply Z.divide_1_r in D. destruct Hp; lia.
  - cbn [prod fold_right] in D. apply prime_mult in D as [D|D]; [| |exact Hp].
    + apply (Hl k); [now left|exact D].
    + apply IH; [intros; apply Hl; now right|exact D].
Qed.
Lemma NoDup_map_on {X Y} (f : X -> Y) l : NoDup l -> (forall x y, In x l -> In y l -> f x = f y -> x = y) -> NoDup (map f l).
Proof.
  induction 1 as [|x l Hx ND IH]; intro Inj; [constructor|]. cbn [map]. constructor.
  - rewrite in_map_iff. intros (y & E & Hy). assert (y = x) by (apply Inj; [now right|now left|exact E]). congruence.
  - apply IH. intros; apply Inj; try assumption; now right.
Qed.

Theorem fermat p a : prime p -> ~ (p | a) -> (a ^ (p - 1)) mod p = 1.
Proof.
  intros Hp Ha. assert (P1 : 1 < p) by now destruct Hp.
  set (l := map Z.of_nat (seq 1 (Z.to_nat (p - 1)))).
  assert (Hl : forall k, In k l <-> 0 < k < p).
  { intro k. unfold l. rewrite in_map_iff. split.
    - intros (n & <- & Hn). apply in_seq in Hn. lia.
    - intros Hk. exists (Z.to_nat k). split; [lia|]. apply in_seq. lia. }
  assert (ND : NoDup l) by (unfold l; apply FinFun.Injective_map_NoDup; [intros x y; lia|apply seq_NoDup]).
  assert (Len : Z.of_nat (length l) = p - 1) by (unfold l; rewrite map_length, seq_length; lia).
  set (l' := map (fun k => (a * k) mod p) l).
  assert (ND' : NoDup l').
  { apply NoDup_map_on; [exact ND|]. intros x y Hx Hy E. apply Hl in Hx, Hy. assert (D : (p | a * (x - y))).
    { apply Z.mod_divide; [lia|]. rewrite Z.mul_sub_distr_l, Zminus_mod, E, Z.sub_diag. reflexivity. }
    apply prime_mult in D as [D|D]; [contradiction| |exact Hp]. destruct D as [k D]. assert (k = 0) by nia. subst k. lia. }
  assert (PM : Permutation l' l).
  { apply NoDup_Permutation_bis; [exact ND'|unfold l'; rewrite map_length; lia|].
    intros x Hx. unfold l' in Hx. apply in_map_iff in Hx as (k & <- & Hk). apply Hl in Hk. apply Hl.
    pose proof (Z.mod_pos_bound (a * k) p ltac:(lia)) as Hb.
    assert ((a * k) mod p <> 0); [|lia]. intro E. apply Z.mod_divide in E; [|lia].
    apply prime_mult in E as [E|E]; [contradiction| |exact Hp]. apply Z.divide_pos_le in E; lia. }
  assert (E : (p | (a ^ (p - 1) - 1) * prod l)).
  { apply Z.mod_divide; [lia|]. rewrite Z.mul_sub_distr_r, Z.mul_1_l, Zminus_mod.
    rewrite <- Len, <- prod_scaled by lia. fold l'. rewrite (prod_perm _ _ PM), Z.sub_diag. reflexivity. }
  apply prime_mult in E as [E|E]; [| |exact Hp].
  - destruct E as [k E]. replace (a ^ (p - 1)) with (1 + k * p) by lia. rewrite Z.mod_add by lia. apply Z.mod_small. lia.
  - exfalso. revert E. apply prod_coprime; [exact Hp|]. intros k Hk D. apply Hl in Hk. apply Z.divide_pos_le in D; lia.
Qed.

(** ** Pocklington *)
Lemma has_prime_divisor n : 1 < n -> exists s, prime s /\ (s | n).
Proof.
  intro Hn. assert (H0 : 0 <= n) by lia. revert n H0 Hn. apply (Zlt_0_ind (fun n => 1 < n -> exists s, prime s /\ (s | n))).
  intros n IH _ Hn. destruct (prime_dec n) as [Pr|Np]; [exists n; split; [exact Pr|apply Z.divide_refl]|].
  destruct (not_prime_divide n Hn Np) as (m & Hm & Dm). destruct (IH m ltac:(lia) ltac:(lia)) as (s & Ps & Ds).
  exists s. split; [exact Ps|]. eapply Z.divide_trans; eassumption.
Qed.
Lemma small_prime_divisor n : 1 < n -> ~ prime n -> exists s, prime s /\ (s | n) /\ s * s <= n.
Proof.
  intros Hn Np. destruct (not_prime_divide n Hn Np) as (u & Hu & v & E).
  assert (exists w, 1 < w /\ (w | n) /\ w * w <= n) as (w & Hw & Dw & Bw).
  { destruct (Z.le_ge_cases u v).
    - exists u. split; [lia|]. split; [exists v; exact E|]. nia.
    - exists v. split; [nia|]. split; [exists u; lia|]. nia. }
  destruct (has_prime_divisor w Hw) as (s & Ps & Ds). exists s. split; [exact Ps|]. split; [eapply Z.divide_trans; eassumption|].
  apply Z.divide_pos_le in Ds; [|lia]. assert (1 < s) by now destruct Ps. nia.
Qed.
Lemma pow_one_mul s a x k : 0 <= x -> 0 <= k -> 1 < s -> (a ^ x) mod s = 1 -> (a ^ (x * k)) mod s = 1.
Proof.
  intros Hx Hk Hs E. rewrite Z.pow_mul_r by assumption. rewrite Zpower_mod, E by lia. rewrite Z.pow_1_l by exact Hk. apply Z.mod_small. lia.
Qed.
(** If a^x = a^y = 1 then a to the greatest common divisor is 1. *)
Lemma pow_gcd s a x y : 1 < s -> 0 < x -> 0 < y -> (a ^ x) mod s = 1 -> (a ^ y) mod s = 1 -> (a ^ Z.gcd x y) mod s = 1.
Proof.
  intros Hs Hx Hy Ex Ey. pose proof (Z.gcd_nonneg x y) as Gn.
  destruct (Z.gcd_bezout x y (Z.gcd x y) eq_refl) as (u & v & E).
  (* make one coefficient negative: g + k1 y = k2 x with k1, k2 >= 0 *)
  set (t := Z.abs u + Z.abs v).
  assert (E' : Z.gcd x y + (t * x - v) * y = (u + t * y) * x) by (rewrite <- E; ring).
  assert (P1 : 0 <= t * x - v) by (unfold t; nia). assert (P2 : 0 <= u + t * y) by (unfold t; nia).
  assert (A : (a ^ (Z.gcd x y + (t * x - v) * y)) mod s = 1).
  { rewrite E', Z.mul_comm. apply pow_one_mul; try assumption; lia. }
  rewrite Z.pow_add_r in A by nia. rewrite (Z.mul_comm (t * x - v)) in A.
  rewrite <- Zmult_mod_idemp_r, (pow_one_mul s a y) in A by (assumption || lia). now rewrite Z.mul_1_r in A.
Qed.
Lemma pock_part n a p e inv s : 1 < n -> prime p -> 0 < e -> (p ^ e | n - 1) -> (a ^ (n - 1)) mod n = 1 ->
  ((a ^ ((n - 1) / p) - 1) * inv) mod n = 1 -> prime s -> (s | n) -> (p ^ e | s - 1).
Proof.
  intros Hn Hp He De E1 E2 Hs Ds. assert (S1 : 1 < s) by now destruct Hs. assert (P1 : 1 < p) by now destruct Hp.
  assert (R : forall z, z mod n = 1 -> z mod s = 1).
  { intros z Hz. destruct Ds as [c Dc]. rewrite (Z.div_mod z n), Hz, Dc by lia.
    rewrite Z.add_comm. replace (c * s * (z / (c * s))) with ((c * (z / (c * s))) * s) by ring. rewrite Z.mod_add by lia. apply Z.mod_small. lia. }
  apply R in E1. apply R in E2.
  assert (Na : ~ (s | a)).
  { intro D. assert (E : (a ^ (n - 1)) mod s = 0).
    { apply Z.mod_divide; [lia|]. replace (n - 1) with (Z.succ (n - 2)) by lia. rewrite Z.pow_succ_r by lia. now apply Z.divide_mul_l. }
    lia. }
  pose proof (fermat s a Hs Na) as E3.
  assert (Eg : (a ^ Z.gcd (n - 1) (s - 1)) mod s = 1) by (apply pow_gcd; try assumption; lia).
  set (g := Z.gcd (n - 1) (s - 1)) in *. assert (Dg : (g | n - 1)) by apply Z.gcd_divide_l.
  assert (Dg' : (g | s - 1)) by apply Z.gcd_divide_r.
  assert (G0 : 0 < g) by (pose proof (Z.gcd_nonneg (n - 1) (s - 1)); assert (g <> 0) by (unfold g; intro X; apply Z.gcd_eq_0_l in X; lia); unfold g in *; lia).
  apply Z.divide_trans with g; [|exact Dg']. destruct Dg as [k Ek].
  destruct (Zdivide_dec p k) as [[c Ec]|Nk].
  - exfalso. assert (Ed : (n - 1) / p = g * c) by (rewrite Ek, Ec; replace (c * p * g) with (g * c * p) by ring; apply Z.div_mul; lia).
    assert (0 <= c) by nia.
    assert (Eo : (a ^ ((n - 1) / p)) mod s = 1) by (rewrite Ed; apply pow_one_mul; (assumption || lia)).
    assert (Ez : ((a ^ ((n - 1) / p) - 1) * inv) mod s = 0).
    { rewrite <- Zmult_mod_idemp_l, Zminus_mod, Eo, (Z.mod_small 1 s) by lia. reflexivity. }
    lia.
  - rewrite Ek in De. apply Z.gauss with k; [exact De|]. apply Zgcd_1_rel_prime. apply rel_prime_sym. apply rel_prime_Zpower_r; [lia|].
    apply rel_prime_sym. now apply prime_rel_prime.
Qed.
Lemma divide_coprime a b c : (a | c) -> (b | c) -> Z.gcd a b = 1 -> (a * b | c).
Proof.
  intros [k ->] D G. assert (D' : (b | k)). { apply Z.gauss with a; [now rewrite Z.mul_comm|now rewrite Z.gcd_comm]. }
  destruct D' as [j ->]. exists j. ring.
Qed.
Theorem pocklington n f : 1 < n -> n < f * f -> 0 < f -> (forall s, prime s -> (s | n) -> (f | s - 1)) -> prime n.
Proof.
  intros Hn Hf F0 H. destruct (prime_dec n) as [|Np]; [assumption|exfalso].
  destruct (small_prime_divisor n Hn Np) as (s & Ps & Ds & Bs). assert (1 < s) by now destruct Ps.
  specialize (H s Ps Ds). apply Z.divide_pos_le in H; [|lia]. nia.
Qed.

(** ** Powers modulo n.  [ks] are the quotients subtracted; whatever they are, the result is congruent to
    the power. *)
Definition take (ks : list Z) : Z * list Z := match ks with [] => (0, []) | k :: ks' => (k, ks') end.
Fixpoint powc (n a : Z) (e : positive) (ks : list Z) : Z * list Z :=
  match e with
  | xH => (a, ks)
  | xO e' => let '(x, ks) := powc n a e' ks in let '(k, ks) := take ks in (x * x - k * n, ks)
  | xI e' => let '(x, ks) := powc n a e' ks in let '(k, ks) := take ks in let '(k', ks) := take ks in
      ((x * x - k * n) * a - k' * n, ks)
  end.
Lemma cong_sub n x k : n <> 0 -> (x - k * n) mod n = x mod n.
Proof. intro. replace (x - k * n) with (x + (- k) * n) by ring. now apply Z.mod_add. Qed.
Lemma cong_mul n x x' y y' : x mod n = x' mod n -> y mod n = y' mod n -> (x * y) mod n = (x' * y') mod n.
Proof. intros E1 E2. now rewrite Zmult_mod, E1, E2, <- Zmult_mod. Qed.
Lemma powc_ok n a e : n <> 0 -> forall ks, fst (powc n a e ks) mod n = (a ^ Zpos e) mod n.
Proof.
  intro Hn. induction e as [e IH|e IH|]; intro ks; cbn [powc].
  - specialize (IH ks). destruct (powc n a e ks) as [x ks']. destruct (take ks') as [k ks'']. destruct (take ks'') as [k' ks''']. cbn [fst] in *.
    rewrite cong_sub by exact Hn. rewrite Pos2Z.inj_xI, Z.pow_add_r, Z.pow_1_r by lia. apply cong_mul; [|reflexivity].
    rewrite cong_sub by exact Hn. replace (2 * Zpos e) with (Zpos e + Zpos e) by ring. rewrite Z.pow_add_r by lia. now apply cong_mul.
  - specialize (IH ks). destruct (powc n a e ks) as [x ks']. destruct (take ks') as [k ks'']. cbn [fst] in *.
    rewrite cong_sub by exact Hn. rewrite Pos2Z.inj_xO. replace (2 * Zpos e) with (Zpos e + Zpos e) by ring. rewrite Z.pow_add_r by lia. now apply cong_mul.
  - cbn [fst]. now rewrite Z.pow_1_r.
Qed.
Lemma powc_step n a e ks b x y : 0 < n -> 0 <= e -> (b ^ e) mod n = a mod n -> (fst (powc n a x ks) =? y) = true ->
  (b ^ (e * Zpos x)) mod n = y mod n.
Proof.
  intros Hn He E Y. apply Z.eqb_eq in Y. rewrite <- Y, powc_ok, Z.pow_mul_r by lia.
  rewrite Zpower_mod, E, <- Zpower_mod by lia. reflexivity.
Qed.
Lemma powc_fact n b e a x ks y E : 0 < n -> 0 <= e -> E = e * Zpos x -> (b ^ e) mod n = a mod n -> (fst (powc n a x ks) =? y) = true ->
  (b ^ E) mod n = y mod n.
Proof. intros Hn He -> Ea Y. now apply (powc_step n a e ks). Qed.
Lemma pock_check n n1 np a y p e pe m inv s : 1 < n -> prime p -> 0 < e -> n - 1 = n1 -> n1 / p = np -> p ^ e = pe -> n1 = m * pe ->
  (a ^ n1) mod n = 1 mod n -> (a ^ np) mod n = y mod n -> ((y - 1) * inv) mod n = 1 ->
  prime s -> (s | n) -> (pe | s - 1).
Proof.
  intros Hn Hp He <- <- <- Em E1 Ey Ei Hs Ds. rewrite (Z.mod_small 1 n) in E1 by lia. apply (pock_part n a p e inv s); try assumption.
  - exists m. exact Em.
  - etransitivity; [|exact Ei]. apply cong_mul; [|reflexivity]. rewrite (Zminus_mod (a ^ ((n - 1) / p))), Ey, <- Zminus_mod. reflexivity.
Qed.
Lemma divide_times a b ab c : (a | c) -> (b | c) -> Z.gcd a b = 1 -> a * b = ab -> (ab | c).
Proof. intros Da Db Hg <-. now apply divide_coprime. Qed.
