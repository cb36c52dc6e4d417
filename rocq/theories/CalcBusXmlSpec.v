(** What it means that a voltage level has been written and read back, in the words of [NodeTopoSpec]. *)
From stdpp Require Import gmap.
From Verif Require Import Base Graph GraphSpec Equip NodeTopo NodeTopoSpec.

(** The same terminals on the same nodes, the same nodes joined: what two voltage levels must share for the voltages to be the same. *)
Record copy_of (s : sgraph nterm string) (sw : gmap string (bool * bool)) (s' : sgraph nterm string) (sw' : gmap string (bool * bool)) : Prop := {
  cp_term : forall n t, term_at s' n t <-> term_at s n t;
  cp_link : forall vw a b, link vw s' sw' a b <-> link vw s sw a b;
  cp_edge : forall n, on_edge s' n <-> on_edge s n
}.

(** The topology of a voltage level as a file gives it, in any order: each equipment with its node, each switch with its kind, position
    and nodes, the nodes of each internal connection.  Equipments and switches are given once. *)
Definition given (s : sgraph nterm string) (sw : gmap string (bool * bool)) (kind : gmap string swkind) (o : nbop) : Prop :=
  match o with
  | NAttach n t => term_at s n t
  | NAddSwitch id k p a b => (exists e, s_edges s !! e = Some (a, b, Some id)) /\ sw !! id = Some p /\ kind !! id = Some k
  | NAddInternal a b => exists e, s_edges s !! e = Some (a, b, None)
  | _ => False
  end.
Definition describes (s : sgraph nterm string) (sw : gmap string (bool * bool)) (kind : gmap string swkind) (ops : list nbop) : Prop :=
  (forall o, o ∈ ops <-> given s sw kind o) /\
  (forall x y o, ops !! x = Some o -> ops !! y = Some o -> x = y \/ exists a b, o = NAddInternal a b).

(** The calls made one after the other; all must succeed. *)
Fixpoint built (st : nbst) (ops : list nbop) (st' : nbst) : Prop :=
  match ops with
  | [] => st' = st
  | o :: ops' => exists st1, nb_call o st = (Ok tt, st1) /\ built st1 ops' st'
  end.
