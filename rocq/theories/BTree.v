(** Ordered sets and maps: the model of Rust's [BTreeSet] and [BTreeMap].

    A set is the strictly increasing list of its elements and a map the list of
    its entries in strictly increasing key order, which is what iterating over
    the Rust collection yields.  The order is Rust's [Ord]: numeric on [u8],
    lexicographic on [Vec<u8>], [[u8; 31]] and tuples, [None < Some _] on
    [Option]. *)
From Coq Require Import ZArith List Bool Lia Sorted RelationClasses.
From Verif Require Import Base.
Import ListNotations.
Local Open Scope Z_scope.

Class Cmp (K : Type) := cmp : K -> K -> comparison.

Class CmpLaws (K : Type) {C : Cmp K} := {
  cmp_eq : forall a b, cmp a b = Eq <-> a = b;
  cmp_anti : forall a b, cmp b a = CompOpp (cmp a b);
  cmp_trans : forall a b c, cmp a b = Lt -> cmp b c = Lt -> cmp a c = Lt
}.

#[global] Instance Cmp_Z : Cmp Z := Z.compare.

Fixpoint list_cmp (a b : list Z) : comparison :=
  match a, b with
  | [], [] => Eq
  | [], _ :: _ => Lt
  | _ :: _, [] => Gt
  | x :: a', y :: b' =>
      match Z.compare x y with Eq => list_cmp a' b' | c => c end
  end.
#[global] Instance Cmp_bytes : Cmp bytes := list_cmp.
#[global] Instance Cmp_list : Cmp (list Z) := list_cmp.

#[global] Instance Cmp_prod {A B} (CA : Cmp A) (CB : Cmp B) : Cmp (A * B) :=
  fun p q => match cmp (fst p) (fst q) with Eq => cmp (snd p) (snd q) | c => c end.

#[global] Instance Cmp_option {A} (CA : Cmp A) : Cmp (option A) :=
  fun p q => match p, q with
             | None, None => Eq
             | None, Some _ => Lt
             | Some _, None => Gt
             | Some a, Some b => cmp a b
             end.

(** [BTreeSet::insert]. *)
Fixpoint set_insert {K} {C : Cmp K} (k : K) (s : list K) : list K :=
  match s with
  | [] => [k]
  | x :: s' =>
      match cmp k x with
      | Lt => k :: s
      | Eq => s
      | Gt => x :: set_insert k s'
      end
  end.

(** [iter.collect::<BTreeSet<_>>()]. *)
Definition set_of {K} {C : Cmp K} (l : list K) : list K :=
  fold_left (fun s k => set_insert k s) l [].

Definition set_mem {K} {C : Cmp K} (k : K) (s : list K) : bool :=
  existsb (fun x => match cmp k x with Eq => true | _ => false end) s.

(** [BTreeMap::insert]: an existing key keeps its place, its value is replaced. *)
Fixpoint map_insert {K V} {C : Cmp K} (k : K) (v : V) (m : list (K * V)) : list (K * V) :=
  match m with
  | [] => [(k, v)]
  | (x, w) :: m' =>
      match cmp k x with
      | Lt => (k, v) :: m
      | Eq => (x, v) :: m'
      | Gt => (x, w) :: map_insert k v m'
      end
  end.

(** [BTreeMap::get]. *)
Fixpoint map_get {K V} {C : Cmp K} (k : K) (m : list (K * V)) : option V :=
  match m with
  | [] => None
  | (x, w) :: m' => match cmp k x with Eq => Some w | _ => map_get k m' end
  end.

Definition map_of {K V} {C : Cmp K} (l : list (K * V)) : list (K * V) :=
  fold_left (fun m p => map_insert (fst p) (snd p) m) l [].

Definition klt {K} {C : Cmp K} (a b : K) : Prop := cmp a b = Lt.
Definition sorted {K} {C : Cmp K} (s : list K) : Prop := StronglySorted klt s.

(* ------------------------------------------------------------------ *)
(** ** Laws of the orders *)

#[global] Instance CmpLaws_Z : CmpLaws Z.
Proof.
  constructor; unfold cmp, Cmp_Z; intros.
  - apply Z.compare_eq_iff.
  - apply Z.compare_antisym.
  - rewrite Z.compare_lt_iff in *. lia.
Qed.

#[global] Instance CmpLaws_list : CmpLaws (list Z).
Proof.
  constructor; unfold cmp, Cmp_list.
  - intros a. induction a as [|x a IH]; intros [|y b]; cbn [list_cmp]; split; intro H;
      try reflexivity; try discriminate.
    + destruct (Z.compare_spec x y); try discriminate. subst. f_equal. now apply IH.
    + injection H as -> ->. rewrite Z.compare_refl. now apply IH.
  - intros a. induction a as [|x a IH]; intros [|y b]; cbn [list_cmp]; try reflexivity.
    rewrite (Z.compare_antisym x y). destruct (x ?= y); cbn; auto.
  - intros a. induction a as [|x a IH]; intros [|y b] [|z c]; cbn [list_cmp]; intros H1 H2;
      try reflexivity; try discriminate.
    destruct (Z.compare_spec x y) as [E1|E1|E1]; destruct (Z.compare_spec y z) as [E2|E2|E2];
      try discriminate; destruct (Z.compare_spec x z) as [E3|E3|E3]; try lia; try reflexivity;
      eapply IH; eassumption.
Qed.
#[global] Instance CmpLaws_bytes : CmpLaws bytes := CmpLaws_list.

Lemma cmp_pair {A B} (CA : Cmp A) (CB : Cmp B) (a c : A) (b d : B) :
  cmp (a, b) (c, d) = match cmp a c with Eq => cmp b d | x => x end.
Proof. reflexivity. Qed.

#[global] Instance CmpLaws_prod {A B} (CA : Cmp A) (CB : Cmp B) (LA : CmpLaws A) (LB : CmpLaws B) :
  CmpLaws (A * B).
Proof.
  constructor.
  - intros [a b] [c d]; rewrite cmp_pair. destruct (cmp a c) eqn:E.
    + apply cmp_eq in E. subst. rewrite cmp_eq. split; congruence.
    + split; [discriminate|]. intro H. injection H as -> ->.
      rewrite (proj2 (cmp_eq c c)) in E; [discriminate|reflexivity].
    + split; [discriminate|]. intro H. injection H as -> ->.
      rewrite (proj2 (cmp_eq c c)) in E; [discriminate|reflexivity].
  - intros [a b] [c d]; rewrite !cmp_pair.
    rewrite (cmp_anti a c). destruct (cmp a c); cbn; auto. apply cmp_anti.
  - intros [a b] [c d] [e f]; rewrite !cmp_pair. intros H1 H2.
    destruct (cmp a c) eqn:E1; try discriminate; destruct (cmp c e) eqn:E2; try discriminate.
    + apply cmp_eq in E1, E2. subst. rewrite (proj2 (cmp_eq e e) eq_refl). eapply cmp_trans; eauto.
    + apply cmp_eq in E1. subst. now rewrite E2.
    + apply cmp_eq in E2. subst. now rewrite E1.
    + now rewrite (cmp_trans _ _ _ E1 E2).
Qed.

#[global] Instance CmpLaws_option {A} (CA : Cmp A) (LA : CmpLaws A) : CmpLaws (option A).
Proof.
  constructor; unfold cmp, Cmp_option.
  - intros [a|] [b|]; try (split; [discriminate | intro; discriminate]).
    + rewrite cmp_eq. split; congruence.
    + tauto.
  - intros [a|] [b|]; try reflexivity. apply cmp_anti.
  - intros [a|] [b|] [c|]; try reflexivity; try discriminate. apply cmp_trans.
Qed.

(* ------------------------------------------------------------------ *)
(** ** Facts about sets and maps *)

Section Facts.
  Context {K : Type} {C : Cmp K} {L : CmpLaws K}.

  Lemma cmp_refl a : cmp a a = Eq.
  Proof. now apply cmp_eq. Qed.

  Lemma cmp_gt a b : cmp a b = Gt <-> klt b a.
  Proof.
    unfold klt. rewrite (cmp_anti a b). destruct (cmp a b); cbn; split; congruence.
  Qed.

  Lemma klt_irrefl a : ~ klt a a.
  Proof. unfold klt. rewrite cmp_refl. discriminate. Qed.

  Lemma klt_trans a b c : klt a b -> klt b c -> klt a c.
  Proof. apply cmp_trans. Qed.

  Lemma cmp_dec (a b : K) : {a = b} + {a <> b}.
  Proof.
    destruct (cmp a b) eqn:E; [left; now apply cmp_eq | right | right];
      intros ->; rewrite cmp_refl in E; discriminate.
  Qed.

  Lemma In_set_insert k s x : In x (set_insert k s) <-> x = k \/ In x s.
  Proof.
    induction s as [|y s IH]; cbn [set_insert In]; [intuition|].
    destruct (cmp k y) eqn:E.
    - apply cmp_eq in E. subst. cbn [In]. intuition.
    - cbn [In]. intuition.
    - cbn [In]. rewrite IH. intuition.
  Qed.

  Lemma sorted_nil : sorted (@nil K).
  Proof. constructor. Qed.

  Lemma sorted_set_insert k s : sorted s -> sorted (set_insert k s).
  Proof.
    induction s as [|y s IH]; cbn [set_insert]; intro H.
    - repeat constructor.
    - apply StronglySorted_inv in H as [Hs Hy]. rewrite Forall_forall in Hy.
      destruct (cmp k y) eqn:E.
      + constructor; auto. now apply Forall_forall.
      + constructor; [constructor; auto; now apply Forall_forall|].
        apply Forall_forall. intros z [<-|Hz]; auto. eapply klt_trans; eauto.
      + constructor; [now apply IH|]. apply Forall_forall. intros z Hz.
        apply In_set_insert in Hz as [->|Hz]; auto. now apply cmp_gt.
  Qed.

  Lemma fold_set_spec l s : sorted s ->
    sorted (fold_left (fun s k => set_insert k s) l s)
    /\ forall x, In x (fold_left (fun s k => set_insert k s) l s) <-> In x l \/ In x s.
  Proof.
    revert s. induction l as [|k l IH]; intros s Hs; cbn [fold_left In].
    - split; auto. intuition.
    - destruct (IH _ (sorted_set_insert k s Hs)) as [H1 H2]. split; auto.
      intro x. rewrite H2, In_set_insert. intuition.
  Qed.

  Lemma sorted_set_of l : sorted (set_of l).
  Proof. apply fold_set_spec, sorted_nil. Qed.

  Lemma In_set_of l x : In x (set_of l) <-> In x l.
  Proof. unfold set_of. rewrite (proj2 (fold_set_spec l [] sorted_nil)). cbn. intuition. Qed.

  (** Strictly increasing lists are determined by their elements. *)
  Lemma sorted_ext (s t : list K) :
    sorted s -> sorted t -> (forall x, In x s <-> In x t) -> s = t.
  Proof.
    revert t. induction s as [|a s IH]; intros [|b t] Hs Ht H.
    - reflexivity.
    - exfalso. apply (H b). now left.
    - exfalso. apply (H a). now left.
    - apply StronglySorted_inv in Hs as [Hs Ha], Ht as [Ht Hb].
      rewrite Forall_forall in Ha, Hb.
      assert (a = b) as ->.
      { assert (In a (b :: t)) as [->|H1] by (apply H; now left); auto.
        assert (In b (a :: s)) as [->|H2] by (apply H; now left); auto.
        exfalso. apply (klt_irrefl a). eapply klt_trans; eauto. }
      f_equal. apply IH; auto. intro x. specialize (H x). cbn [In] in H. split; intro Hx.
      + destruct (proj1 H (or_intror Hx)) as [->|]; auto. now apply Ha, klt_irrefl in Hx.
      + destruct (proj2 H (or_intror Hx)) as [->|]; auto. now apply Hb, klt_irrefl in Hx.
  Qed.

  Lemma sorted_NoDup s : sorted s -> NoDup s.
  Proof.
    induction 1 as [|a s Hs IH Ha]; constructor; auto.
    rewrite Forall_forall in Ha. intro H. now apply Ha, klt_irrefl in H.
  Qed.

  Lemma set_of_sorted s : sorted s -> set_of s = s.
  Proof.
    intro H. apply sorted_ext; auto; [apply sorted_set_of|]. intro. apply In_set_of.
  Qed.

  Lemma set_of_ext l l' : (forall x, In x l <-> In x l') -> set_of l = set_of l'.
  Proof.
    intro H. apply sorted_ext; try apply sorted_set_of. intro x. rewrite !In_set_of. apply H.
  Qed.

  Lemma set_mem_In k s : set_mem k s = true <-> In k s.
  Proof.
    unfold set_mem. rewrite existsb_exists. split.
    - intros (x & Hx & E). destruct (cmp k x) eqn:E1; try discriminate.
      apply cmp_eq in E1. now subst.
    - intro H. exists k. split; auto. now rewrite cmp_refl.
  Qed.

  Section Map.
    Context {V : Type}.
    Implicit Types m : list (K * V).

    Definition msorted m : Prop := sorted (map fst m).

    Lemma map_get_insert k v m x :
      map_get x (map_insert k v m) = match cmp x k with Eq => Some v | _ => map_get x m end.
    Proof.
      induction m as [|[y w] m IH]; cbn [map_insert map_get].
      - reflexivity.
      - destruct (cmp k y) eqn:E.
        + apply cmp_eq in E. subst y. cbn [map_get]. now destruct (cmp x k).
        + cbn [map_get]. now destruct (cmp x k).
        + cbn [map_get]. rewrite IH. destruct (cmp x y) eqn:E1; auto.
          destruct (cmp x k) eqn:E2; auto. apply cmp_eq in E1, E2. subst.
          rewrite cmp_refl in E. discriminate.
    Qed.

    Lemma map_get_insert_eq k v m : map_get k (map_insert k v m) = Some v.
    Proof. now rewrite map_get_insert, cmp_refl. Qed.

    Lemma map_get_insert_ne k v m x : x <> k -> map_get x (map_insert k v m) = map_get x m.
    Proof.
      intro H. rewrite map_get_insert. destruct (cmp x k) eqn:E; auto.
      apply cmp_eq in E. contradiction.
    Qed.

    Lemma keys_map_insert k v m : map fst (map_insert k v m) = set_insert k (map fst m).
    Proof.
      induction m as [|[y w] m IH]; cbn; auto.
      destruct (cmp k y) eqn:E; cbn; auto. now rewrite IH.
    Qed.

    Lemma msorted_insert k v m : msorted m -> msorted (map_insert k v m).
    Proof. unfold msorted. rewrite keys_map_insert. apply sorted_set_insert. Qed.

    Lemma map_get_In k v m : map_get k m = Some v -> In (k, v) m.
    Proof.
      induction m as [|[y w] m IH]; cbn; [discriminate|].
      destruct (cmp k y) eqn:E; auto. apply cmp_eq in E. subst. intro H. injection H as ->.
      now left.
    Qed.

    Lemma map_get_sorted k v m : msorted m -> map_get k m = Some v <-> In (k, v) m.
    Proof.
      intro Hs. split; [apply map_get_In|]. unfold msorted in Hs.
      induction m as [|[y w] m IH]; cbn; [easy|].
      cbn in Hs. apply StronglySorted_inv in Hs as [Hs Hy]. rewrite Forall_forall in Hy.
      intros [E|H].
      - injection E as -> ->. now rewrite cmp_refl.
      - destruct (cmp k y) eqn:E; auto. apply cmp_eq in E. subst.
        exfalso. apply (klt_irrefl y), Hy, in_map_iff. now exists (y, v).
    Qed.

    Lemma map_get_None k m : map_get k m = None <-> ~ In k (map fst m).
    Proof.
      induction m as [|[y w] m IH]; cbn; [tauto|].
      destruct (cmp k y) eqn:E.
      - apply cmp_eq in E. subst. split; [discriminate|]. intro H. exfalso. auto.
      - rewrite IH. split; [|tauto]. intros H [->|H']; auto.
        rewrite cmp_refl in E. discriminate.
      - rewrite IH. split; [|tauto]. intros H [->|H']; auto.
        rewrite cmp_refl in E. discriminate.
    Qed.

    Lemma map_ext_get m m' :
      msorted m -> msorted m' -> (forall k, map_get k m = map_get k m') -> m = m'.
    Proof.
      unfold msorted. revert m'. induction m as [|[a v] m IH]; intros [|[b w] m'] Hs Hs' H.
      - reflexivity.
      - specialize (H b). cbn in H. rewrite cmp_refl in H. discriminate.
      - specialize (H a). cbn in H. rewrite cmp_refl in H. discriminate.
      - assert (E : map fst ((a, v) :: m) = map fst ((b, w) :: m')).
        { apply sorted_ext; auto. intro x.
          destruct (map_get x ((a, v) :: m)) as [u|] eqn:E1.
          - pose proof E1 as E2. rewrite H in E2. apply map_get_In in E1, E2.
            split; intros _; apply in_map_iff; exists (x, u); auto.
          - pose proof E1 as E2. rewrite H in E2. apply map_get_None in E1, E2. tauto. }
        cbn in E. injection E as -> E.
        pose proof (H b) as Hb. cbn in Hb. rewrite cmp_refl in Hb. injection Hb as ->.
        f_equal. cbn in Hs, Hs'. apply StronglySorted_inv in Hs as [Hs Ha], Hs' as [Hs' Hb].
        apply IH; auto. intro k. specialize (H k). cbn in H.
        destruct (cmp k b) eqn:Ek; auto. apply cmp_eq in Ek. subst k.
        rewrite Forall_forall in Ha, Hb.
        rewrite (proj2 (map_get_None b m)), (proj2 (map_get_None b m')); auto;
          intro Hk; [apply Hb in Hk | apply Ha in Hk]; now apply klt_irrefl in Hk.
    Qed.

    Lemma fold_map_spec (l : list (K * V)) m : msorted m ->
      msorted (fold_left (fun m p => map_insert (fst p) (snd p) m) l m).
    Proof.
      revert m. induction l as [|p l IH]; intros m Hm; cbn; auto.
      apply IH. now apply msorted_insert.
    Qed.
    Lemma msorted_nil : msorted [].
    Proof. constructor. Qed.
    Lemma msorted_map_of l : msorted (map_of l).
    Proof. apply fold_map_spec, msorted_nil. Qed.
  End Map.
End Facts.
