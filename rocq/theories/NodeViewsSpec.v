(** What a user has built in a node-breaker voltage level, kept beside the calls without looking at the voltage level: the switches with
    the nodes given to the adder, the internal connections, the terminals with their node. *)
From stdpp Require Import gmap.
From Verif Require Import Base Graph Equip NodeTopo NodeTopoSpec.

Record plan := mkPlan { p_sw : gmap string (nat * nat); p_ic : list (nat * nat); p_tm : gmap nat nterm }.

(** The internal connection [p] is between [n1] and [n2], in either order. *)
Definition between (n1 n2 : nat) (p : nat * nat) : Prop := p = (n1, n2) \/ p = (n2, n1).
#[global] Instance between_dec n1 n2 p : Decision (between n1 n2 p). Proof. unfold between. apply _. Defined.

(** What a call changes if it returns normally; a call that throws changes nothing. *)
Definition draw (P : plan) (o : eop nbop) (r : result unit) : plan :=
  match r, o with
  | Ok _, ECall (NAddSwitch id _ _ n1 n2) => mkPlan (<[id := (n1, n2)]> (p_sw P)) (p_ic P) (p_tm P)
  | Ok _, ECall (NRemoveSwitch id) => mkPlan (delete id (p_sw P)) (p_ic P) (p_tm P)
  | Ok _, ECall (NAddInternal n1 n2) => mkPlan (p_sw P) ((n1, n2) :: p_ic P) (p_tm P)
  | Ok _, ECall (NRemoveInternal n1 n2) => mkPlan (p_sw P) (filter (fun p => ~ between n1 n2 p) (p_ic P)) (p_tm P)
  | Ok _, ECall (NAttach n t) => mkPlan (p_sw P) (p_ic P) (<[n := t]> (p_tm P))
  | Ok _, ECall (NDetach n) => mkPlan (p_sw P) (p_ic P) (delete n (p_tm P))
  | _, _ => P
  end.
Definition blank : plan := mkPlan ∅ [] ∅.

(** A history of calls made while a working variant is set, with the plan drawn on the way. *)
Inductive built : plan -> nbst -> Prop :=
| built_new vl ids vars cur : initial_variant ∈ vars -> (forall i, cur = Some i -> i ∈ vars) -> built blank (nb_new vl ids vars cur)
| built_step P st o : built P st -> any_safe st o -> (forall c, o = ECall c -> is_Some (e_cur st)) ->
    built (draw P o (nb_step st o).1) (nb_step st o).2.

(** A node in use: it bears a terminal, or a switch or an internal connection ends there. *)
Definition ends_on (n : nat) (p : nat * nat) : Prop := n = p.1 \/ n = p.2.
Definition in_use (P : plan) (n : nat) : Prop :=
  is_Some (p_tm P !! n) \/ (exists id p, p_sw P !! id = Some p /\ ends_on n p) \/ (exists p, p ∈ p_ic P /\ ends_on n p).

(** The switch [id] is retained in the working variant. *)
Definition kept_switch (st : nbst) (id : string) : Prop := exists x, pos st id = Some (x, true).
