(** Specification of the inner-product and multipoint arguments: what they are
    statements about, and which Fiat-Shamir challenges an honest run draws. *)
From Coq Require Import String.
From Verif Require Import Base Alg WireModel ProofModel IpaModel LagrangeSpec.
Local Open Scope list_scope.

Section IpaSpec.
Context {A : Alg} {C : ECodec A} {H : Hasher}.

(** [<a, b>] and [<a, G>] for vectors with [n] entries (missing ones are 0). *)
Definition dot (n : nat) (a b : list F) : F :=
  fsum n (fun i => fmul (nth (Z.to_nat i) a fzero) (nth (Z.to_nat i) b fzero)).
Definition commit (n : nat) (a : list F) (Gs : list G) : G :=
  gsum n (fun i => smul (nth (Z.to_nat i) a fzero) (nth (Z.to_nat i) Gs gzero)).

(** Pointwise [u + x v]. *)
Fixpoint fold_with (x : F) (u v : list F) : list F :=
  match u, v with a :: u', b :: v' => fadd a (fmul x b) :: fold_with x u' v' | _, _ => [] end.
Fixpoint gfold_with (x : F) (u v : list G) : list G :=
  match u, v with a :: u', b :: v' => gadd a (smul x b) :: gfold_with x u' v' | _, _ => [] end.

(** The challenges an honest prover draws in [k] rounds over vectors of length
    [2^k], the textbook way: in each round the cross terms [L] and [R] are absorbed
    and a challenge drawn, with which the vectors are folded. *)
Fixpoint round_challenges (k : nat) (tr : Transcript) (a b : list F) (Gs : list G) (Q : G) : list F :=
  match k with
  | O => []
  | S k' =>
      let h := (2 ^ k')%nat in
      let '(aL, aR) := (firstn h a, skipn h a) in
      let '(bL, bR) := (firstn h b, skipn h b) in
      let '(GL, GR) := (firstn h Gs, skipn h Gs) in
      let L := gadd (commit h aR GL) (smul (dot h aR bL) Q) in
      let R := gadd (commit h aL GR) (smul (dot h aL bR) Q) in
      let '(x, tr) := challenge_scalar (append_point (append_point tr (lbl "L") L) (lbl "R") R) (lbl "x") in
      x :: round_challenges k' tr (fold_with x aL aR) (fold_with (finv x) bL bR) (gfold_with (finv x) GL GR) Q
  end.
(** The same for a whole run of the argument from the transcript [tr]. *)
Definition ipa_challenges (k : nat) (tr : Transcript) (crs : CRS) (a : list F) (c : G) (b : list F) (z : F) : list F :=
  let '(w, tr) := ipa_absorb (domain_sep tr (lbl "ipa")) c z (dot (2 ^ k) a b) in
  round_challenges k tr a b (crs_G crs) (smul w (crs_Q crs)).

(** ** The multipoint argument *)

(** A true opening over a domain of [n] points with bases [Gs]. *)
Definition good_query (n : nat) (Gs : list G) (q : ProverQuery) : Prop :=
  (List.length (pq_poly q) <= n)%nat /\ 0 <= pq_point q < Z.of_nat n /\
  pq_comm q = commit n (pq_poly q) Gs /\
  pq_result q = nth (Z.to_nat (pq_point q)) (pq_poly q) fzero.

(** A query the prover can work on, whether its claim is true or not. *)
Definition fitting_query (n : nat) (q : ProverQuery) : Prop :=
  (List.length (pq_poly q) <= n)%nat /\ 0 <= pq_point q < Z.of_nat n.

(** multiproof.rs:26-38 [From<ProverQuery> for VerifierQuery]. *)
Definition public_query (q : ProverQuery) : VerifierQuery := mkVQ (pq_comm q) (of_Z (pq_point q)) (pq_result q).

(** Sum over the queries, weighted by [1, r, r^2, ..]. *)
Fixpoint weighted (r w : F) (f : ProverQuery -> F) (l : list ProverQuery) : F :=
  match l with [] => fzero | q :: l' => fadd (fmul w (f q)) (weighted r (fmul r w) f l') end.

(** The quotient of [f - f(i)] by [X - i], in evaluation form (theorem C30 says that
    this is what [divide_by_linear_vanishing] computes). *)
Definition quotient (n : nat) (f : list F) (i : nat) : list F :=
  match precomputed_weights n with
  | Ok pw => match divide_by_linear_vanishing (lb_new (f ++ repeat fzero (n - List.length f))) pw i with
             | Ok q => lb_values q | Panic => [] end
  | Panic => []
  end.
(** [g = sum r^i (f_i - y_i)/(X - z_i)] and [h = sum r^i f_i / (t - z_i)] in evaluation form. *)
Definition mp_g_values (n : nat) (r : F) (qs : list ProverQuery) : list F :=
  map (fun j => weighted r fone (fun q => nth j (quotient n (pq_poly q) (Z.to_nat (pq_point q))) fzero) qs) (seq 0 n).
Definition mp_h_values (n : nat) (r t : F) (qs : list ProverQuery) : list F :=
  map (fun j => weighted r fone (fun q => fmul (finv (fsub t (of_Z (pq_point q)))) (nth j (pq_poly q) fzero)) qs) (seq 0 n).

(** The transcript after the queries, and the challenge [r]. *)
Definition mp_r (tr : Transcript) (qs : list VerifierQuery) : F * Transcript :=
  challenge_scalar
    (fold_left (fun tr q => absorb_query tr (vq_comm q) (vq_point q) (vq_result q)) qs (domain_sep tr (lbl "multiproof")))
    (lbl "r").
(** The challenge [t], drawn after the commitment [D] to [g]. *)
Definition mp_t (tr : Transcript) (qs : list VerifierQuery) (D : G) : F * Transcript :=
  challenge_scalar (append_point (snd (mp_r tr qs)) (lbl "D") D) (lbl "t").

(** [t] and the inner-product challenges of an honest run. *)
Definition mp_honest_t (n : nat) (tr : Transcript) (crs : CRS) (qs : list ProverQuery) : F :=
  let pub := map public_query qs in
  fst (mp_t tr pub (commit n (mp_g_values n (fst (mp_r tr pub)) qs) (crs_G crs))).
Definition mp_honest_challenges (k : nat) (tr : Transcript) (crs : CRS) (qs : list ProverQuery) : list F :=
  let n := (2 ^ k)%nat in
  let pub := map public_query qs in
  let r := fst (mp_r tr pub) in
  let g := mp_g_values n r qs in
  let D := commit n g (crs_G crs) in
  let '(t, tr2) := mp_t tr pub D in
  let h := mp_h_values n r t qs in
  let E := commit n h (crs_G crs) in
  let tr3 := append_point tr2 (lbl "E") E in
  match precomputed_weights n with
  | Ok pw => match evaluate_lagrange_coefficients pw n t with
             | Ok b => ipa_challenges k tr3 crs (map (fun '(x, y) => fsub x y) (combine h g)) (gsub E D) b t
             | Panic => [] end
  | Panic => []
  end.
End IpaSpec.
