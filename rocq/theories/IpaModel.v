(** Model of the inner-product and multipoint arguments: ipa-multipoint's
    transcript.rs, math_utils.rs, ipa.rs, lagrange_basis.rs and multiproof.rs. *)
From Coq Require Import String Ascii.
From Verif Require Import Base Alg TrieModel WireModel ProofModel.
Local Open Scope list_scope.

(** SHA-256 (crate sha2), left abstract. *)
Class Hasher := sha256 : bytes -> bytes.

(** For transcript.rs. A byte-string literal [b"..."]. *)
Definition lbl (s : string) : bytes := map (fun c => Z.of_nat (nat_of_ascii c)) (list_ascii_of_string s).

Section Ipa.
Context {A : Alg} {C : ECodec A} {H : Hasher}.

(* ------------------------------------------------------------------ *)
(** ** transcript.rs *)

(** transcript.rs:11-13 [Transcript]: the bytes absorbed since the last challenge. *)
Definition Transcript := bytes.
(** transcript.rs:16-21 [Transcript::new]. *)
Definition tr_new (label : bytes) : Transcript := label.
(** transcript.rs:67-69 [domain_sep]. *)
Definition domain_sep (tr : Transcript) (label : bytes) : Transcript := tr ++ label.
(** transcript.rs:23-26 [append_message]. *)
Definition append_message (tr : Transcript) (message label : bytes) : Transcript := (tr ++ label) ++ message.
(** transcript.rs:55-59 [append_point]. *)
Definition append_point (tr : Transcript) (label : bytes) (p : G) : Transcript := append_message tr (el_ser p) label.
(** transcript.rs:61-65 [append_scalar]. *)
Definition append_scalar (tr : Transcript) (label : bytes) (x : F) : Transcript := append_message tr (sc_ser x) label.
(** transcript.rs:37-53 [challenge_scalar]. *)
Definition challenge_scalar (tr : Transcript) (label : bytes) : F * Transcript :=
  let tr := domain_sep tr label in
  let scalar := of_Z (le_Z (sha256 tr)) in
  (scalar, append_scalar [] label scalar).

(* ------------------------------------------------------------------ *)
(** ** math_utils.rs and ark-ff helpers *)

(** math_utils.rs:3-5 [inner_product].  The sum is associated to the right. *)
Fixpoint inner_product (a b : list F) : F :=
  match a, b with
  | x :: a', y :: b' => fadd (fmul x y) (inner_product a' b')
  | _, _ => fzero
  end.

(** math_utils.rs:7-15 [powers_of]: [1, point, ...], never empty. *)
Fixpoint powers_from (x point : F) (n : nat) : list F :=
  match n with O => [] | S n' => x :: powers_from (fmul x point) point n' end.
(** math_utils.rs:7-15 [powers_of], from 1. *)
Definition powers_of (point : F) (n : nat) : list F := powers_from fone point (Nat.max 1 n).

(** For ipa.rs:200 and lagrange_basis.rs:82, 89. ark-ff [Field::inverse]. *)
Definition inverse (x : F) : option F := if feqb x fzero then None else Some (finv x).
(** For lagrange_basis.rs:219 and multiproof.rs:127, 251. ark-ff [batch_inversion_and_mul] and [batch_inversion]: zeros stay zeros. *)
Definition batch_inversion_and_mul (l : list F) (c : F) : list F :=
  map (fun x => if feqb x fzero then fzero else fmul (finv x) c) l.
(** For ipa.rs:263, 325, 402 and multiproof.rs:127, 251. *)
Definition batch_inversion (l : list F) : list F :=
  map (fun x => if feqb x fzero then fzero else finv x) l.

(** For ipa.rs:441-448. Linear combination of points. *)
Fixpoint gdot (scalars : list F) (points : list G) : G :=
  match scalars, points with
  | x :: s', p :: q' => gadd (smul x p) (gdot s' q')
  | _, _ => gzero
  end.
(** ipa.rs:441-448 [slow_vartime_multiscalar_mul] and element.rs:194-204
    [multi_scalar_mul]: ark-ec's [msm] is taken to be the linear combination;
    different lengths panic. *)
Definition msm (scalars : list F) (points : list G) : res G :=
  let! _ := assertb (List.length points =? List.length scalars)%nat in
  Ok (gdot scalars points).

(* ------------------------------------------------------------------ *)
(** ** ipa.rs *)

(** ipa.rs:220-223 [halve]. *)
Definition halve {X} (l : list X) : list X * list X :=
  (firstn (List.length l / 2) l, skipn (List.length l / 2) l).

(** ipa.rs:201-203 and 280-283. The loops [for i in 0..n { l[i] += c * r[i] }]. *)
Fixpoint axpy (n : nat) (c : F) (l r : list F) : res (list F) :=
  match n, l, r with
  | O, _, _ => Ok l
  | S n', x :: l', y :: r' => let! t := axpy n' c l' r' in Ok (fadd x (fmul c y) :: t)
  | _, _, _ => Panic
  end.
(** ipa.rs:204 and 280-283, on points. *)
Fixpoint gaxpy (n : nat) (c : F) (l r : list G) : res (list G) :=
  match n, l, r with
  | O, _, _ => Ok l
  | S n', x :: l', y :: r' => let! t := gaxpy n' c l' r' in Ok (gadd x (smul c y) :: t)
  | _, _, _ => Panic
  end.

(** ipa.rs:180-210, the rounds of [create]. *)
Fixpoint create_rounds (k : nat) (tr : Transcript) (a b : list F) (Gs : list G) (Q : G)
  : res (list G * list G * F * Transcript) :=
  match k with
  | O => let! a0 := index a 0 in Ok ([], [], a0, tr)
  | S k' =>
      let '(a_L, a_R) := halve a in
      let '(b_L, b_R) := halve b in
      let '(G_L, G_R) := halve Gs in
      let z_L := inner_product a_R b_L in
      let z_R := inner_product a_L b_R in
      let! Lk := msm (a_R ++ [z_L]) (G_L ++ [Q]) in
      let! Rk := msm (a_L ++ [z_R]) (G_R ++ [Q]) in
      let tr := append_point tr (lbl "L") Lk in
      let tr := append_point tr (lbl "R") Rk in
      let '(x, tr) := challenge_scalar tr (lbl "x") in
      let! x_inv := unwrap (inverse x) in
      let! a' := axpy (List.length a_L) x a_L a_R in
      let! b' := axpy (List.length a_L) x_inv b_L b_R in
      let! G' := gaxpy (List.length a_L) x_inv G_L G_R in
      let! (Ls, Rs, a0, tr) := create_rounds k' tr a' b' G' Q in
      Ok (Lk :: Ls, Rk :: Rs, a0, tr)
  end.

(** ipa.rs:160, [usize::is_power_of_two]. *)
Definition is_power_of_two (n : nat) : bool := (0 <? n)%nat && (2 ^ Nat.log2 n =? n)%nat.

(** ipa.rs:137-217 [create]. *)
Definition ipa_create (tr : Transcript) (crs : CRS) (a : list F) (a_comm : G) (b : list F) (input_point : F)
  : res (IPAProof * Transcript) :=
  let tr := domain_sep tr (lbl "ipa") in
  let n := List.length (crs_G crs) in
  let! _ := assertb (List.length a =? n)%nat in
  let! _ := assertb (List.length b =? n)%nat in
  let! _ := assertb (is_power_of_two n) in
  let output_point := inner_product a b in
  let tr := append_point tr (lbl "C") a_comm in
  let tr := append_scalar tr (lbl "input point") input_point in
  let tr := append_scalar tr (lbl "output point") output_point in
  let '(w, tr) := challenge_scalar tr (lbl "w") in
  let Q := smul w (crs_Q crs) in
  let! (Ls, Rs, a0, tr) := create_rounds (log2_up n) tr a b (crs_G crs) Q in
  Ok (mkIPA Ls Rs a0, tr).

(** ipa.rs:450-462 [generate_challenges]. *)
Fixpoint generate_challenges (tr : Transcript) (Ls Rs : list G) : list F * Transcript :=
  match Ls, Rs with
  | Lk :: Ls', Rk :: Rs' =>
      let tr := append_point tr (lbl "L") Lk in
      let tr := append_point tr (lbl "R") Rk in
      let '(x, tr) := challenge_scalar tr (lbl "x") in
      let '(xs, tr) := generate_challenges tr Ls' Rs' in
      (x :: xs, tr)
  | _, _ => ([], tr)
  end.

(** ipa.rs:266-273: [challenges[i]], [R_vec[i]] panic when too short. *)
Fixpoint fold_comm (Ls Rs : list G) (xs xis : list F) (acc : G) : res G :=
  match Ls with
  | [] => Ok acc
  | Lk :: Ls' =>
      match Rs, xs, xis with
      | Rk :: Rs', x :: xs', xi :: xis' => fold_comm Ls' Rs' xs' xis' (gadd (gadd acc (smul x Lk)) (smul xi Rk))
      | _, _, _ => Panic
      end
  end.

(** ipa.rs:275-285. *)
Fixpoint fold_bases (xis : list F) (Gs : list G) (b : list F) : res (list G * list F) :=
  match xis with
  | [] => Ok (Gs, b)
  | xi :: xis' =>
      let '(G_L, G_R) := halve Gs in
      let '(b_L, b_R) := halve b in
      let! G' := gaxpy (List.length G_L) xi G_L G_R in
      let! b' := axpy (List.length G_L) xi b_L b_R in
      fold_bases xis' G' b'
  end.

(** The absorption shared by the three verifiers (ipa.rs:238, 254-258 and the
    same lines of the others). *)
Definition ipa_absorb (tr : Transcript) (a_comm : G) (input_point output_point : F) : F * Transcript :=
  let tr := append_point tr (lbl "C") a_comm in
  let tr := append_scalar tr (lbl "input point") input_point in
  let tr := append_scalar tr (lbl "output point") output_point in
  challenge_scalar tr (lbl "w").

(** ipa.rs:229-293 [IPAProof::verify].  [1 << num_rounds] is exact: at most 63 rounds. *)
Definition ipa_verify (p : IPAProof) (tr : Transcript) (crs : CRS) (b : list F) (a_comm : G)
    (input_point output_point : F) : res bool :=
  let tr := domain_sep tr (lbl "ipa") in
  if negb (crs_n crs =? 2 ^ List.length (ipa_L p))%nat then Ok false
  else
    let '(w, tr) := ipa_absorb tr a_comm input_point output_point in
    let Q := smul w (crs_Q crs) in
    let acc := gadd a_comm (smul output_point Q) in
    let '(xs, tr) := generate_challenges tr (ipa_L p) (ipa_R p) in
    let xis := batch_inversion xs in
    let! acc := fold_comm (ipa_L p) (ipa_R p) xs xis acc in
    let! (Gs, bs) := fold_bases xis (crs_G crs) b in
    let! _ := assertb (List.length Gs =? 1)%nat in
    let! _ := assertb (List.length bs =? 1)%nat in
    let! G0 := index Gs 0 in
    let! b0 := index bs 0 in
    Ok (geqb (gadd (smul (ipa_a p) G0) (smul (fmul (ipa_a p) b0) Q)) acc).

(** ipa.rs:437-439 [to_bits]: most significant bit first. *)
Definition to_bits (n bits : nat) : list bool := rev (map (fun i => Nat.testbit n i) (seq 0 bits)).

(** ipa.rs:331-337: start with [s], multiply by the inverse challenges whose bit is set;
    [zip_eq] panics when the lengths differ. *)
Fixpoint bit_product (s : F) (bits : list bool) (xis : list F) : res F :=
  match bits, xis with
  | [], [] => Ok s
  | b :: bits', xi :: xis' => bit_product (if b then fmul s xi else s) bits' xis'
  | _, _ => Panic
  end.
(** ipa.rs:331-337, for each index. *)
Fixpoint bit_products (s : F) (indices : list nat) (logn : nat) (xis : list F) : res (list F) :=
  match indices with
  | [] => Ok []
  | i :: l => let! x := bit_product s (to_bits i logn) xis in
              let! r := bit_products s l logn xis in Ok (x :: r)
  end.

(** ipa.rs:294-366 [IPAProof::verify_multiexp]. *)
Definition ipa_verify_multiexp (p : IPAProof) (tr : Transcript) (crs : CRS) (b_vec : list F) (a_comm : G)
    (input_point output_point : F) : res bool :=
  let tr := domain_sep tr (lbl "ipa") in
  let logn := List.length (ipa_L p) in
  if negb (crs_n crs =? 2 ^ logn)%nat then Ok false
  else
    let '(w, tr) := ipa_absorb tr a_comm input_point output_point in
    let '(xs, tr) := generate_challenges tr (ipa_L p) (ipa_R p) in
    let xis := batch_inversion xs in
    let! b_i := bit_products (fopp fone) (seq 0 (crs_n crs)) logn xis in
    let g_i := map (fun b => fmul (ipa_a p) b) b_i in
    let b_0 := inner_product b_vec b_i in
    let q_i := fmul w (fadd output_point (fmul (ipa_a p) b_0)) in
    let! r := msm (xs ++ xis ++ [fone] ++ [q_i] ++ g_i)
                  (ipa_L p ++ ipa_R p ++ [a_comm] ++ [crs_Q crs] ++ crs_G crs) in
    Ok (geqb r gzero).

(** ipa.rs:371-434 [IPAProof::verify_semi_multiexp]. *)
Definition ipa_verify_semi (p : IPAProof) (tr : Transcript) (crs : CRS) (b_vec : list F) (a_comm : G)
    (input_point output_point : F) : res bool :=
  let tr := domain_sep tr (lbl "ipa") in
  let logn := List.length (ipa_L p) in
  if negb (crs_n crs =? 2 ^ logn)%nat then Ok false
  else
    let '(w, tr) := ipa_absorb tr a_comm input_point output_point in
    let Q := smul w (crs_Q crs) in
    let a_comm := gadd a_comm (smul output_point Q) in
    let '(xs, tr) := generate_challenges tr (ipa_L p) (ipa_R p) in
    let xis := batch_inversion xs in
    let! P := msm (xs ++ xis ++ [fone]) (ipa_L p ++ ipa_R p ++ [a_comm]) in
    let! g_i := bit_products fone (seq 0 (crs_n crs)) logn xis in
    let b_0 := inner_product b_vec g_i in
    let! G_0 := msm g_i (crs_G crs) in
    Ok (geqb (gadd (smul (ipa_a p) G_0) (smul (fmul (ipa_a p) b_0) Q)) P).

(* ------------------------------------------------------------------ *)
(** ** lagrange_basis.rs *)

(** lagrange_basis.rs:5-11 [LagrangeBasis] and 137-141 [new], 143-148 [zero]. *)
Record LagrangeBasis := mkLB { lb_domain : nat; lb_values : list F }.
(** lagrange_basis.rs:137-140 [new]. *)
Definition lb_new (values : list F) : LagrangeBasis := mkLB (List.length values) values.
(** lagrange_basis.rs:143-148 [zero]. *)
Definition lb_zero : LagrangeBasis := mkLB 0 [].

(** lagrange_basis.rs:22-25. [lhs.iter_mut().zip(rhs).for_each(|(l, r)| *l += r)]. *)
Fixpoint zip_add (l r : list F) : list F :=
  match l, r with
  | x :: l', y :: r' => fadd x y :: zip_add l' r'
  | _, _ => l
  end.
(** lagrange_basis.rs:13-28 [Add]. *)
Definition lb_add (l r : LagrangeBasis) : LagrangeBasis :=
  if (lb_domain l =? 0)%nat then r
  else if (lb_domain r =? 0)%nat then l
  else mkLB (lb_domain l) (zip_add (lb_values l) (lb_values r)).
(** lagrange_basis.rs:52-64 [Sub]. *)
Fixpoint zip_sub (l r : list F) : list F :=
  match l, r with x :: l', y :: r' => fsub x y :: zip_sub l' r' | _, _ => [] end.
(** lagrange_basis.rs:52-64 [Sub]. *)
Definition lb_sub (l r : LagrangeBasis) : LagrangeBasis := lb_new (zip_sub (lb_values l) (lb_values r)).

(** lagrange_basis.rs:89, 123, 129. [usize] as a field element, [Fr::from(i as u128)]. *)
Definition fn (i : nat) : F := of_Z (Z.of_nat i).
(** lagrange_basis.rs:127-131 [product]. *)
Definition fprod (l : list F) : F := fold_right fmul fone l.

(** lagrange_basis.rs:122-133 [compute_barycentric_weight_for]. *)
Definition barycentric_weight (domain_element domain_size : nat) : F :=
  fprod (map (fun e => fsub (fn domain_element) (fn e))
    (filter (fun e => negb (e =? domain_element)%nat) (seq 0 domain_size))).

(** lagrange_basis.rs:66-71 [PrecomputedWeights]. *)
Record PrecomputedWeights := mkPW { pw_weights : list F; pw_inverted : list F }.

(** The loops of lagrange_basis.rs:78-92 whose steps can panic. *)
Fixpoint rmap {X Y} (f : X -> res Y) (l : list X) : res (list Y) :=
  match l with
  | [] => Ok []
  | x :: l' => let! y := f x in let! r := rmap f l' in Ok (y :: r)
  end.

(** lagrange_basis.rs:75-98 [PrecomputedWeights::new].  The two halves of each
    vector are written index by index; here they are two lists appended. *)
Definition precomputed_weights (domain_size : nat) : res PrecomputedWeights :=
  let ws := map (fun i => barycentric_weight i domain_size) (seq 0 domain_size) in
  let! wis := rmap (fun w => unwrap (inverse w)) ws in
  let! _ := assertb (negb (domain_size =? 0)%nat) in
  let! ks := rmap (fun i => unwrap (inverse (fn i))) (seq 1 (domain_size - 1)) in
  Ok (mkPW (ws ++ wis) (ks ++ map fopp ks)).

(** lagrange_basis.rs:100-106 [get_inverted_element]. *)
Definition get_inverted_element (pw : PrecomputedWeights) (domain_element : nat) (is_negative : bool) : res F :=
  let! _ := assertb (negb (domain_element =? 0)%nat) in
  let i := (domain_element - 1)%nat in
  let i := if is_negative then (i + List.length (pw_inverted pw) / 2)%nat else i in
  index (pw_inverted pw) i.
(** lagrange_basis.rs:113-120. *)
Definition get_barycentric_weight (pw : PrecomputedWeights) (i : nat) : res F := index (pw_weights pw) i.
(** lagrange_basis.rs:118-120. *)
Definition get_inverse_barycentric_weight (pw : PrecomputedWeights) (i : nat) : res F :=
  index (pw_weights pw) (i + List.length (pw_weights pw) / 2).
(** lagrange_basis.rs:108-111 [get_ratio_of_barycentric_weights]. *)
Definition get_ratio (pw : PrecomputedWeights) (m i : nat) : res F :=
  let! x := get_barycentric_weight pw m in
  let! y := get_inverse_barycentric_weight pw i in
  Ok (fmul x y).

(** lagrange_basis.rs:170-195 [divide_by_linear_vanishing].  [q] is the list of
    quotients with 0 at [index], [qi] the accumulated entry at [index]. *)
Fixpoint div_loop (pw : PrecomputedWeights) (values : list F) (y : F) (idx : nat) (is : list nat) (qi : F)
  : res (list F * F) :=
  match is with
  | [] => Ok ([], qi)
  | i :: is' =>
      if (i =? idx)%nat then
        let! (q, qi) := div_loop pw values y idx is' qi in Ok (fzero :: q, qi)
      else
        let! den_inv := get_inverted_element pw (if (i <? idx)%nat then idx - i else i - idx)%nat (i <? idx)%nat in
        let! v := index values i in
        let q_i := fmul (fsub v y) den_inv in
        let! ratio := get_ratio pw idx i in
        let! (q, qi) := div_loop pw values y idx is' (fsub qi (fmul ratio q_i)) in
        Ok (q_i :: q, qi)
  end.
(** lagrange_basis.rs:170-195, the entry at [index]. *)
Definition set_nth (l : list F) (i : nat) (x : F) : list F := firstn i l ++ x :: skipn (S i) l.
(** lagrange_basis.rs:170-195. *)
Definition divide_by_linear_vanishing (f : LagrangeBasis) (pw : PrecomputedWeights) (idx : nat) : res LagrangeBasis :=
  let! y := index (lb_values f) idx in
  let! (q, qi) := div_loop pw (lb_values f) y idx (seq 0 (lb_domain f)) fzero in
  Ok (lb_new (set_nth q idx qi)).

(** lagrange_basis.rs:197-199 [evaluate_in_domain]. *)
Definition evaluate_in_domain (l : LagrangeBasis) (i : nat) : res F := index (lb_values l) i.

(** lagrange_basis.rs:206-222 [evaluate_lagrange_coefficients]. *)
Definition evaluate_lagrange_coefficients (pw : PrecomputedWeights) (domain_size : nat) (point : F) : res (list F) :=
  let! evals := rmap (fun i => let! w := get_barycentric_weight pw i in Ok (fmul w (fsub point (fn i)))) (seq 0 domain_size) in
  let a_z := fprod (map (fun i => fsub point (fn i)) (seq 0 domain_size)) in
  Ok (batch_inversion_and_mul evals a_z).

(* ------------------------------------------------------------------ *)
(** ** multiproof.rs *)

(** multiproof.rs:42-52 [group_prover_queries]: itertools' [into_group_map_by] keeps the order within a
    group; the groups come out in the hash map's order. *)
Definition Group := (Z * list (ProverQuery * F))%type.
(** multiproof.rs:42-52, one query. *)
Fixpoint group_insert (q : ProverQuery) (c : F) (l : list Group) : list Group :=
  match l with
  | [] => [(pq_point q, [(q, c)])]
  | (z, m) :: l' => if Z.eqb z (pq_point q) then (z, m ++ [(q, c)]) :: l' else (z, m) :: group_insert q c l'
  end.
(** multiproof.rs:42-52. *)
Definition group_prover_queries (order : list Group -> list Group) (queries : list ProverQuery) (challenges : list F)
  : list Group :=
  order (fold_left (fun l '(q, c) => group_insert q c l) (combine queries challenges) []).

(** multiproof.rs:81-101, the aggregated polynomial of a group. *)
Definition aggregate (n : nat) (g : Group) : Z * LagrangeBasis :=
  (fst g, lb_new (fold_left (fun acc '(q, c) => zip_add acc (map (fun x => fmul x c) (pq_poly q))) (snd g) (repeat fzero n))).

(** crs.rs:83-85 [commit_lagrange_poly]. *)
Definition commit_lagrange_poly (crs : CRS) (p : LagrangeBasis) : res G := msm (lb_values p) (crs_G crs).

(** multiproof.rs:285-296 [open_point_outside_of_domain]. *)
Definition open_point_outside_of_domain (crs : CRS) (pw : PrecomputedWeights) (tr : Transcript)
    (polynomial : LagrangeBasis) (commitment : G) (z : F) : res (IPAProof * Transcript) :=
  let! b := evaluate_lagrange_coefficients pw (crs_n crs) z in
  ipa_create tr crs (lb_values polynomial) commitment b z.

(** multiproof.rs:66-71 and 236-238. *)
Definition absorb_query (tr : Transcript) (c : G) (z y : F) : Transcript :=
  let tr := append_point tr (lbl "C") c in
  let tr := append_scalar tr (lbl "z") z in
  append_scalar tr (lbl "y") y.

(** multiproof.rs:55-161 [MultiPoint::open]. *)
Definition mp_open (order : list Group -> list Group) (crs : CRS) (pw : PrecomputedWeights) (tr : Transcript)
    (queries : list ProverQuery) : res (MultiPointProof * Transcript) :=
  let tr := domain_sep tr (lbl "multiproof") in
  let tr := fold_left (fun tr q => absorb_query tr (pq_comm q) (of_Z (pq_point q)) (pq_result q)) queries tr in
  let '(r, tr) := challenge_scalar tr (lbl "r") in
  let powers := powers_of r (List.length queries) in
  let aggregated := map (aggregate (crs_n crs)) (group_prover_queries order queries powers) in
  let! quotients := rmap (fun '(z, f) => divide_by_linear_vanishing f pw (Z.to_nat z)) aggregated in
  let g_x := fold_left lb_add quotients lb_zero in
  let! g_x_comm := commit_lagrange_poly crs g_x in
  let tr := append_point tr (lbl "D") g_x_comm in
  let '(t, tr) := challenge_scalar tr (lbl "t") in
  let g1_den := batch_inversion (map (fun '(z, _) => fsub t (of_Z z)) aggregated) in
  let terms := map (fun '((_, f), d) => lb_new (map (fun x => fmul d x) (lb_values f))) (combine aggregated g1_den) in
  let g1_x := fold_left lb_add terms lb_zero in
  let! g1_comm := commit_lagrange_poly crs g1_x in
  let tr := append_point tr (lbl "E") g1_comm in
  let g_3_x := lb_sub g1_x g_x in
  let g_3_comm := gsub g1_comm g_x_comm in
  let! (ipa, tr) := open_point_outside_of_domain crs pw tr g_3_x g_3_comm t in
  Ok (mkMP ipa g_x_comm, tr).

(** multiproof.rs:224-279 [MultiPointProof::check]. *)
Definition mp_check (p : MultiPointProof) (crs : CRS) (pw : PrecomputedWeights) (queries : list VerifierQuery)
    (tr : Transcript) : res bool :=
  let tr := domain_sep tr (lbl "multiproof") in
  let tr := fold_left (fun tr q => absorb_query tr (vq_comm q) (vq_point q) (vq_result q)) queries tr in
  let '(r, tr) := challenge_scalar tr (lbl "r") in
  let powers := powers_of r (List.length queries) in
  let tr := append_point tr (lbl "D") (mp_g p) in
  let '(t, tr) := challenge_scalar tr (lbl "t") in
  let g2_den := batch_inversion (map (fun q => fsub t (vq_point q)) queries) in
  let helper := map (fun '(ri, d) => fmul d ri) (combine powers g2_den) in
  let g2_t := inner_product helper (map vq_result queries) in
  let! g1_comm := msm helper (map vq_comm queries) in
  let tr := append_point tr (lbl "E") g1_comm in
  let g3_comm := gsub g1_comm (mp_g p) in
  let! b := evaluate_lagrange_coefficients pw (crs_n crs) t in
  ipa_verify_multiexp (mp_ipa p) tr crs b g3_comm t g2_t.

(* ------------------------------------------------------------------ *)
(** ** Whole proofs *)
Context {P : Par A} {S : Type} {D : DbOps S}.

(** verkle-trie/src/constants.rs:10-13 [CRS] (256 generators) and [PRECOMPUTED_WEIGHTS]. *)
Definition trie_crs : CRS := mkCRS 256 (map (fun i => crs (Z.of_nat i)) (seq 0 256)) crsQ.

(** prover.rs:15-51 [create_verkle_proof]. *)
Definition create_verkle_proof (order : list Group -> list Group) (db : S) (keys : list bytes)
  : res (option VerkleProof) :=
  let! o := create_proof_parts db keys in
  match o with
  | None => Ok None
  | Some (queries, hint, comms) =>
      let! pw := precomputed_weights 256 in
      let! (mp, _) := mp_open order trie_crs pw (tr_new (lbl "vt")) queries in
      Ok (Some (mkVP hint comms mp))
  end.

(** proof.rs:247-270 [VerkleProof::check]. *)
Definition proof_check (p : VerkleProof) (keys : list bytes) (values : list (option bytes)) (root : G)
  : res (bool * option UpdateHint) :=
  let! o := create_verifier_queries (vp_hint p) (vp_comms p) keys values root in
  match o with
  | None => Ok (false, None)
  | Some (queries, uh) =>
      let! pw := precomputed_weights 256 in
      let! ok := mp_check (vp_proof p) trie_crs pw queries (tr_new (lbl "vt")) in
      Ok (ok, Some uh)
  end.
End Ipa.
