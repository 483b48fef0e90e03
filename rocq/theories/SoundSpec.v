(** Soundness of the arguments, in the form "special soundness" takes in the
    literature: the equation a verifier checks, runs of one prover against
    different challenges, and what is computed from the accepted ones. *)
From Coq Require Import String.
From Verif Require Import Base Alg WireModel ProofModel IpaModel LagrangeSpec IpaSpec TranscriptSpec.
Local Open Scope list_scope.

Section SoundSpec.
Context {A : Alg}.

(** ** The equation *)

(** The textbook check of the inner-product argument for a commitment [P] that
    should be [<a,Gs> + <a,b> Q]: every challenge [x] folds the bases and [b] with its
    inverse and adds [x L + 1/x R] to [P]; at the end one scalar remains. *)
Fixpoint ipa_holds (xs : list F) (Ls Rs : list G) (a0 : F) (Gs : list G) (b : list F) (Q P : G) : Prop :=
  match xs, Ls, Rs with
  | [], [], [] =>
      match Gs, b with
      | [G0], [b0] => P = gadd (smul a0 G0) (smul (fmul a0 b0) Q)
      | _, _ => False
      end
  | x :: xs', L :: Ls', R :: Rs' =>
      let h := Nat.div2 (List.length Gs) in
      ipa_holds xs' Ls' Rs' a0
        (gfold_with (finv x) (firstn h Gs) (skipn h Gs)) (fold_with (finv x) (firstn h b) (skipn h b)) Q
        (gadd P (gadd (smul x L) (smul (finv x) R)))
  | _, _, _ => False
  end.

(** ** Runs of one prover *)

(** Four challenges per round, and the rounds after each of them. *)
Inductive CTree :=
| CLeaf
| CNode (x1 : F) (t1 : CTree) (x2 : F) (t2 : CTree) (x3 : F) (t3 : CTree) (x4 : F) (t4 : CTree).

(** [k] rounds, the four challenges different and not zero. *)
Fixpoint full_tree (k : nat) (t : CTree) : Prop :=
  match k, t with
  | O, CLeaf => True
  | S k', CNode x1 t1 x2 t2 x3 t3 x4 t4 =>
      NoDup [x1; x2; x3; x4] /\ ~ In fzero [x1; x2; x3; x4] /\
      full_tree k' t1 /\ full_tree k' t2 /\ full_tree k' t3 /\ full_tree k' t4
  | _, _ => False
  end.

Fixpoint paths (t : CTree) : list (list F) :=
  match t with
  | CLeaf => [[]]
  | CNode x1 t1 x2 t2 x3 t3 x4 t4 =>
      map (cons x1) (paths t1) ++ map (cons x2) (paths t2) ++ map (cons x3) (paths t3) ++ map (cons x4) (paths t4)
  end.

(** A prover is a function of the challenges seen so far; its messages in a run. *)
Fixpoint answers (f : list F -> G) (xs : list F) : list G :=
  match xs with [] => [] | x :: xs' => f [] :: answers (fun l => f (x :: l)) xs' end.

(** ** What is computed from the runs *)

(** Either an opening, or coefficients of a relation between the generators. *)
Inductive Extracted (X : Type) := Opening (a : X) | Relation (v : list F).
Arguments Opening {X} a.
Arguments Relation {X} v.

(** A non-trivial relation between generators. *)
Definition relation (Gs : list G) (v : list F) : Prop :=
  List.length v = List.length Gs /\ Exists (fun x => x <> fzero) v /\ commit (List.length Gs) v Gs = gzero.

Definition is_zero (v : list F) : bool := forallb (fun x => feqb x fzero) v.
Definition scale (c : F) (v : list F) : list F := map (fmul c) v.
Definition lin3 (c1 : F) (v1 : list F) (c2 : F) (v2 : list F) (c3 : F) (v3 : list F) : list F :=
  fold_with c3 (fold_with c2 (scale c1 v1) v2) v3.

(** One round: [e_i] are the coefficients of [P + x_i L + 1/x_i R] over the
    generators.  Three of them give those of [P], [L] and [R]; the fourth must agree. *)
Definition combine4 (x1 x2 x3 x4 : F) (e1 e2 e3 e4 : list F) : Extracted (list F) :=
  let d1 := fmul x1 (finv (fmul (fsub x1 x2) (fsub x1 x3))) in
  let d2 := fmul x2 (finv (fmul (fsub x2 x1) (fsub x2 x3))) in
  let d3 := fmul x3 (finv (fmul (fsub x3 x1) (fsub x3 x2))) in
  let p := lin3 (fmul (fopp (fadd x2 x3)) d1) e1 (fmul (fopp (fadd x1 x3)) d2) e2 (fmul (fopp (fadd x1 x2)) d3) e3 in
  let l := lin3 d1 e1 d2 e2 d3 e3 in
  let r := lin3 (fmul (fmul x2 x3) d1) e1 (fmul (fmul x1 x3) d2) e2 (fmul (fmul x1 x2) d3) e3 in
  let diff := fold_with (fopp fone) (fold_with (finv x4) (fold_with x4 p l) r) e4 in
  if is_zero diff then Opening (removelast p) else Relation diff.

(** The opening of a folded commitment, over the generators before folding. *)
Definition unfold_opening (x : F) (a b : list F) : list F :=
  a ++ scale (finv x) a ++ [dot (List.length a) a b].
Definition unfold_relation (x : F) (v : list F) : list F :=
  removelast v ++ scale (finv x) (removelast v) ++ [last v fzero].

(** All rounds; [a] gives the last message of the prover.  Only field elements are used. *)
Fixpoint extract (t : CTree) (a : list F -> F) (b : list F) : Extracted (list F) :=
  match t with
  | CLeaf => Opening [a []]
  | CNode x1 t1 x2 t2 x3 t3 x4 t4 =>
      let h := Nat.div2 (List.length b) in
      let bx x := fold_with (finv x) (firstn h b) (skipn h b) in
      match extract t1 (fun xs => a (x1 :: xs)) (bx x1), extract t2 (fun xs => a (x2 :: xs)) (bx x2),
            extract t3 (fun xs => a (x3 :: xs)) (bx x3), extract t4 (fun xs => a (x4 :: xs)) (bx x4) with
      | Opening a1, Opening a2, Opening a3, Opening a4 =>
          combine4 x1 x2 x3 x4 (unfold_opening x1 a1 (bx x1)) (unfold_opening x2 a2 (bx x2))
                               (unfold_opening x3 a3 (bx x3)) (unfold_opening x4 a4 (bx x4))
      | Relation v, _, _, _ => Relation (unfold_relation x1 v)
      | _, Relation v, _, _ => Relation (unfold_relation x2 v)
      | _, _, Relation v, _ => Relation (unfold_relation x3 v)
      | _, _, _, Relation v => Relation (unfold_relation x4 v)
      end
  end.

(** The whole inner-product argument: two values of [w], a tree for each. *)
Definition scale_last (w : F) (v : list F) : list F := removelast v ++ [fmul w (last v fzero)].
Definition extract_ipa (w1 : F) (t1 : CTree) (a1 : list F -> F) (w2 : F) (t2 : CTree) (a2 : list F -> F)
    (b : list F) (y : F) : Extracted (list F) :=
  match extract t1 a1 b, extract t2 a2 b with
  | Opening v1, Opening v2 =>
      let n := List.length b in
      let diff := fold_with (fopp fone) (v1 ++ [fmul w1 (fsub (dot n v1 b) y)]) (v2 ++ [fmul w2 (fsub (dot n v2 b) y)]) in
      if is_zero diff then Opening v1 else Relation diff
  | Relation v, _ => Relation (scale_last w1 v)
  | _, Relation v => Relation (scale_last w2 v)
  end.

(** ** The multipoint argument *)

(** [sum r^i C_i / (t - z_i)] and [sum r^i y_i / (t - z_i)]. *)
Fixpoint mp_E (r t c : F) (qs : list VerifierQuery) : G :=
  match qs with
  | [] => gzero
  | q :: qs' => gadd (smul (fmul c (finv (fsub t (vq_point q)))) (vq_comm q)) (mp_E r t (fmul r c) qs')
  end.
Fixpoint mp_y (r t c : F) (qs : list VerifierQuery) : F :=
  match qs with
  | [] => fzero
  | q :: qs' => fadd (fmul (fmul c (finv (fsub t (vq_point q)))) (vq_result q)) (mp_y r t (fmul r c) qs')
  end.
(** The vector with which a polynomial given by its values is evaluated at [t]. *)
Definition eval_vector (n : nat) (t : F) : list F :=
  map (fun i => fmul (prod_except n i t) (finv (prod_except n i (pt i)))) (seq 0 n).

(** The polynomial that is 1 at [t] and 0 at the other points of [T]. *)
Definition basis (T : list F) (t : F) : list F :=
  fold_right (fun s p => scale (finv (fsub t s)) (fold_with (fopp s) (fzero :: p) (p ++ [fzero]))) [fone]
    (filter (fun s => negb (feqb s t)) T).

(** A sum of multiples of vectors of length [n]. *)
Definition lincomb (n : nat) (l : list (F * list F)) : list F :=
  map (fun j => fold_right (fun '(c, v) s => fadd (fmul c (nth j v fzero)) s) fzero l) (seq 0 n).

Fixpoint all_openings {X} (l : list (Extracted X)) : Extracted (list X) :=
  match l with
  | [] => Opening []
  | Relation v :: _ => Relation v
  | Opening a :: l' => match all_openings l' with Opening r => Opening (a :: r) | Relation v => Relation v end
  end.

(** One value of [r]: [fs] are the openings of [E_t - D] for the points [t].  The first
    [n + 1] determine those of [A_z = sum over z_i = z of r^i C_i] and of [D]; the others must agree. *)
Definition group_opening (n : nat) (fs : list (F * list F)) (z : nat) : list F :=
  let fs0 := firstn (S n) fs in
  lincomb n (map (fun '(t, f) =>
    (fmul (peval (basis (map fst fs0) t) (pt z)) (fmul (prod_except n n t) (finv (prod_except n z (pt z)))), f)) fs0).
Definition predicted (n : nat) (alphas : list (list F)) (t : F) : list F :=
  lincomb n (map (fun '(z, a) => (finv (fsub t (pt z)), a)) (combine (seq 0 n) alphas)).
Definition extract_groups (n : nat) (fs : list (F * list F)) : Extracted (list (list F)) :=
  let alphas := map (group_opening n fs) (seq 0 n) in
  match fs with
  | [] => Opening alphas
  | (t0, f0) :: _ =>
      let delta := fold_with (fopp fone) (predicted n alphas t0) f0 in
      let diff '(t, f) := fold_with (fopp fone) (fold_with (fopp fone) (predicted n alphas t) delta) f in
      match find (fun tf => negb (is_zero (diff tf))) fs with
      | Some tf => Relation (diff tf ++ [fzero])
      | None => Opening alphas
      end
  end.

(** The challenges of all runs: values of [r], for each of them values of [t], for each
    of those two values of [w] with a tree. *)
Record Challenges := mkChal {
  ch_r : list F;
  ch_t : F -> list F;
  ch_w1 : F -> F -> F;
  ch_w2 : F -> F -> F;
  ch_x : F -> F -> F -> CTree
}.
(** [m] values of [r], [2n] values of [t] outside the domain, all different. *)
Definition enough_challenges (k m : nat) (ch : Challenges) : Prop :=
  let n := (2 ^ k)%nat in
  NoDup (ch_r ch) /\ List.length (ch_r ch) = m /\
  forall r, In r (ch_r ch) -> NoDup (ch_t ch r) /\ List.length (ch_t ch r) = (2 * n)%nat /\
  forall t, In t (ch_t ch r) -> outside_domain n t /\
    ch_w1 ch r t <> fzero /\ ch_w2 ch r t <> fzero /\ ch_w1 ch r t <> ch_w2 ch r t /\
    full_tree k (ch_x ch r t (ch_w1 ch r t)) /\ full_tree k (ch_x ch r t (ch_w2 ch r t)).

(** A prover: [D] depends on [r], the rounds on all challenges so far. *)
Record Prover := mkProver {
  pr_D : F -> G;
  pr_L : F -> F -> F -> list F -> G;
  pr_R : F -> F -> F -> list F -> G;
  pr_a : F -> F -> F -> list F -> F
}.

(** [zs] are the points of the queries. *)
Definition points_ok (n : nat) (zs : list nat) (qs : list VerifierQuery) : Prop :=
  Forall2 (fun z q => (z < n)%nat /\ vq_point q = pt z) zs qs.

(** The openings of the queried commitments. *)
Definition extract_multi (n : nat) (zs : list nat) (qs : list VerifierQuery) (ch : Challenges)
    (a : F -> F -> F -> list F -> F) : Extracted (list (list F)) :=
  let point r t :=
    let w1 := ch_w1 ch r t in let w2 := ch_w2 ch r t in
    match extract_ipa w1 (ch_x ch r t w1) (a r t w1) w2 (ch_x ch r t w2) (a r t w2) (eval_vector n t) (mp_y r t fone qs) with
    | Opening f => Opening (t, f)
    | Relation v => Relation v
    end in
  let groups r :=
    match all_openings (map (point r) (ch_t ch r)) with
    | Opening fs => match extract_groups n fs with Opening al => Opening (r, al) | Relation v => Relation v end
    | Relation v => Relation v
    end in
  match all_openings (map groups (ch_r ch)) with
  | Opening l =>
      Opening (map (fun '(i, z) =>
        lincomb n (map (fun '(r, al) => (nth i (basis (ch_r ch) r) fzero, nth z al [])) l))
        (combine (seq 0 (List.length zs)) zs))
  | Relation v => Relation v
  end.
End SoundSpec.
Arguments Extracted {A} X.
Arguments Opening {A X} a.
Arguments Relation {A X} v.

Section Runs.
Context {A : Alg} {C : ECodec A}.

(** The run of the verifier from transcript [tr] against the prover [(L, R, a)] accepts
    under a hash function that makes it draw the challenges [w] and [xs]. *)
Definition ipa_run (L R : list F -> G) (a : list F -> F) (tr : Transcript) (crs : CRS) (b : list F) (c : G) (z y w : F)
    (xs : list F) : Prop :=
  exists H : Hasher,
    let Ls := answers L xs in let Rs := answers R xs in
    fst (run_ops tr (ipa_ops c z y Ls Rs)) = w :: xs /\
    ipa_verify (mkIPA Ls Rs (a xs)) tr crs b c z y = Ok true.

(** The same for the multipoint verifier. *)
Definition mp_run (p : Prover) (tr : Transcript) (crs : CRS) (pw : PrecomputedWeights) (qs : list VerifierQuery)
    (r t w : F) (xs : list F) : Prop :=
  exists H : Hasher,
    let Ls := answers (pr_L p r t w) xs in let Rs := answers (pr_R p r t w) xs in
    let E := mp_E r t fone qs in
    fst (run_ops tr (mp_ops qs (pr_D p r) ++
                     TPoint (lbl "E") E :: ipa_ops (gsub E (pr_D p r)) t (mp_y r t fone qs) Ls Rs)) = r :: t :: w :: xs /\
    mp_check (mkMP (mkIPA Ls Rs (pr_a p r t w xs)) (pr_D p r)) crs pw qs tr = Ok true.
(** All runs are accepted. *)
Definition all_accepted (p : Prover) (tr : Transcript) (crs : CRS) (pw : PrecomputedWeights) (qs : list VerifierQuery)
    (ch : Challenges) : Prop :=
  forall r t w xs, In r (ch_r ch) -> In t (ch_t ch r) -> w = ch_w1 ch r t \/ w = ch_w2 ch r t ->
    In xs (paths (ch_x ch r t w)) -> mp_run p tr crs pw qs r t w xs.

(** A whole proof: the prover has fixed the hint and the commitments, from which [qs] are
    derived; [VerkleProof::check] accepts in a run with these challenges. *)
Definition check_run {P : Par A} (p : Prover) (hint : VerificationHint) (comms : list G) (keys : list bytes)
    (values : list (option bytes)) (root : G) (qs : list VerifierQuery) (r t w : F) (xs : list F) : Prop :=
  exists (H : Hasher) (uh : option UpdateHint),
    let Ls := answers (pr_L p r t w) xs in let Rs := answers (pr_R p r t w) xs in
    let E := mp_E r t fone qs in
    fst (run_ops (tr_new (lbl "vt")) (mp_ops qs (pr_D p r) ++
                     TPoint (lbl "E") E :: ipa_ops (gsub E (pr_D p r)) t (mp_y r t fone qs) Ls Rs)) = r :: t :: w :: xs /\
    proof_check (mkVP hint comms (mkMP (mkIPA Ls Rs (pr_a p r t w xs)) (pr_D p r))) keys values root = Ok (true, uh).
Definition all_checked {P : Par A} (p : Prover) (hint : VerificationHint) (comms : list G) (keys : list bytes)
    (values : list (option bytes)) (root : G) (qs : list VerifierQuery) (ch : Challenges) : Prop :=
  forall r t w xs, In r (ch_r ch) -> In t (ch_t ch r) -> w = ch_w1 ch r t \/ w = ch_w2 ch r t ->
    In xs (paths (ch_x ch r t w)) -> check_run p hint comms keys values root qs r t w xs.
End Runs.
