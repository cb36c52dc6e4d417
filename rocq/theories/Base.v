(** Common definitions: outcomes of C++ calls, vector accesses. *)
From stdpp Require Export prelude list strings.
From Coq Require Export Lia Sorted.
#[global] Open Scope nat_scope.

(** Outcome of a C++ call.
    [Ok a]      : normal return;
    [Throw m]   : a C++ exception (message abbreviated);
    [UB]        : undefined behaviour (out of bounds [operator[]], null dereference, use after free, ...);
    [OutOfFuel] : artefact of the recursion bound of the model; excluded by theorems. *)
Inductive result (A : Type) : Type :=
| Ok (a : A)
| Throw (m : string)
| UB
| OutOfFuel.
Arguments Ok {A} a.
Arguments Throw {A} m.
Arguments UB {A}.
Arguments OutOfFuel {A}.

Definition result_bind {A B} (f : A -> result B) (x : result A) : result B :=
  match x with
  | Ok a => f a
  | Throw m => Throw m
  | UB => UB
  | OutOfFuel => OutOfFuel
  end.
Definition result_map {A B} (f : A -> B) (x : result A) : result B :=
  result_bind (fun a => Ok (f a)) x.

Notation "'let!' x ':=' e1 'in' e2" := (result_bind (fun x => e2) e1)
  (at level 200, x pattern, e1 at level 200, e2 at level 200, right associativity).

Definition is_ok {A} (x : result A) : bool :=
  match x with Ok _ => true | _ => false end.
Definition is_throw {A} (x : result A) : bool :=
  match x with Throw _ => true | _ => false end.

(** [std::vector::operator[]] : out of bounds access is undefined behaviour. *)
Definition vget {A} (l : list A) (i : nat) : result A :=
  match l !! i with Some a => Ok a | None => UB end.

(** Assignment through [std::vector::operator[]]. *)
Definition vset {A} (l : list A) (i : nat) (a : A) : result (list A) :=
  if decide (i < length l) then Ok (<[i := a]> l) else UB.

Lemma vget_Ok {A} (l : list A) i a : vget l i = Ok a <-> l !! i = Some a.
Proof. unfold vget. destruct (l !! i); split; congruence. Qed.

Lemma vget_lt {A} (l : list A) i : i < length l -> exists a, vget l i = Ok a /\ l !! i = Some a.
Proof.
  intros H. destruct (lookup_lt_is_Some_2 l i H) as [a Ha].
  exists a. unfold vget. by rewrite Ha.
Qed.

Lemma vset_lt {A} (l : list A) i a : i < length l -> vset l i a = Ok (<[i := a]> l).
Proof. intros H. unfold vset. by rewrite decide_True. Qed.

(** [std::set<unsigned long>] as a strictly increasing list (its iteration order). *)
Fixpoint sset_insert (x : nat) (l : list nat) : list nat :=
  match l with
  | [] => [x]
  | y :: l' => if x <? y then x :: l
               else if x =? y then l
               else y :: sset_insert x l'
  end.
Definition sset_erase (x : nat) (l : list nat) : list nat :=
  filter (fun y => y <> x) l.
Definition sset_mem (x : nat) (l : list nat) : bool := bool_decide (x ∈ l).

Definition ssorted (l : list nat) : Prop := StronglySorted lt l.

Lemma elem_of_sset_insert x y l : y ∈ sset_insert x l <-> y = x \/ y ∈ l.
Proof.
  induction l as [|z l IH]; simpl; [set_solver|].
  destruct (Nat.ltb_spec x z); [set_solver|].
  destruct (Nat.eqb_spec x z); [set_solver|].
  rewrite !elem_of_cons, IH. tauto.
Qed.

Lemma elem_of_sset_erase x y l : y ∈ sset_erase x l <-> y <> x /\ y ∈ l.
Proof. unfold sset_erase. rewrite elem_of_list_filter. done. Qed.

Lemma sset_mem_true x l : sset_mem x l = true <-> x ∈ l.
Proof. unfold sset_mem. by rewrite bool_decide_eq_true. Qed.

Lemma sset_mem_false x l : sset_mem x l = false <-> x ∉ l.
Proof. unfold sset_mem. by rewrite bool_decide_eq_false. Qed.

Lemma ssorted_nodup l : ssorted l -> NoDup l.
Proof.
  induction 1 as [|x l Hs IH Hf]; constructor; auto.
  intros Hin. rewrite Forall_forall in Hf. apply Hf in Hin. lia.
Qed.

Lemma ssorted_insert x l : ssorted l -> ssorted (sset_insert x l).
Proof.
  induction 1 as [|y l Hs IH Hf]; simpl; [repeat constructor|].
  destruct (Nat.ltb_spec x y).
  - constructor; [by constructor|]. constructor; [done|].
    eapply Forall_impl; [exact Hf|]. intros z Hz. simpl in Hz. lia.
  - destruct (Nat.eqb_spec x y); [by constructor|].
    constructor; [done|]. rewrite Forall_forall. intros z.
    rewrite elem_of_sset_insert. intros [->|Hz]; [lia|].
    rewrite Forall_forall in Hf. auto.
Qed.

Lemma ssorted_erase x l : ssorted l -> ssorted (sset_erase x l).
Proof.
  unfold sset_erase. induction 1 as [|y l Hs IH Hf]; [constructor|].
  rewrite filter_cons. destruct (decide (y <> x)); [|done].
  constructor; [done|]. rewrite Forall_forall in *. intros z Hz.
  apply elem_of_list_filter in Hz as [_ Hz]. auto.
Qed.

Lemma sset_insert_length x l : x ∉ l -> length (sset_insert x l) = S (length l).
Proof.
  induction l as [|y l IH]; simpl; intros Hx; [done|].
  destruct (Nat.ltb_spec x y); [done|].
  destruct (Nat.eqb_spec x y) as [->|]; [set_solver|].
  simpl. rewrite IH; set_solver.
Qed.

Lemma ssorted_ext l1 l2 :
  ssorted l1 -> ssorted l2 -> (forall x, x ∈ l1 <-> x ∈ l2) -> l1 = l2.
Proof.
  intros H1. revert l2. induction H1 as [|x l1 Hs1 IH Hf1]; intros l2 H2 Heq.
  - destruct l2 as [|y l2]; [done|].
    exfalso. assert (y ∈ @nil nat) by (apply Heq; set_solver). set_solver.
  - destruct H2 as [|y l2 Hs2 Hf2].
    { exfalso. assert (x ∈ @nil nat) by (apply Heq; set_solver). set_solver. }
    rewrite Forall_forall in Hf1, Hf2.
    assert (x = y) as ->.
    { assert (x ∈ y :: l2) as Hx by (apply Heq; set_solver).
      assert (y ∈ x :: l1) as Hy by (apply Heq; set_solver).
      apply elem_of_cons in Hx as [->|Hx]; [done|].
      apply elem_of_cons in Hy as [->|Hy]; [done|].
      apply Hf2 in Hx. apply Hf1 in Hy. lia. }
    f_equal. apply IH; [done|]. intros z. split; intros Hz.
    + assert (z ∈ y :: l2) as Hz' by (apply Heq; set_solver).
      apply elem_of_cons in Hz' as [->|?]; [|done].
      apply Hf1 in Hz. lia.
    + assert (z ∈ y :: l1) as Hz' by (apply Heq; set_solver).
      apply elem_of_cons in Hz' as [->|?]; [|done].
      apply Hf2 in Hz. lia.
Qed.

(** Smallest natural number satisfying a property. *)
Definition is_least (P : nat -> Prop) (n : nat) : Prop :=
  P n /\ forall m, P m -> n <= m.
