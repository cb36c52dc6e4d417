(** What a voltage level exported at a coarser topology level and imported back must be, in the words of [NodeTopoSpec] for the
    node-breaker level exported and of [BusTopoSpec] for the bus-breaker level read. *)
From stdpp Require Import gmap.
From Verif Require Import Base Graph GraphSpec Equip NodeTopo NodeTopoSpec BusTopo BusTopoSpec BusValuesSpec TopoExport.

(** [ts] lists the terminals that are written: those of all the equipments but the busbar sections, each once. *)
Definition equipments (s : sgraph nterm string) (ts : list (nat * nterm)) : Prop :=
  NoDup ts /\ forall n t, (n, t) ∈ ts <-> term_at s n t /\ is_feeder t.

(** Switch [id] of a bus-breaker level lies between buses [b1] and [b2]. *)
Definition lies_between (s : bbsh) (id b1 b2 : string) : Prop :=
  exists e x1 x2 u1 u2, s_edges (abs (bb_graph s)) !! e = Some (x1, x2, Some id) /\
    on_vertex s u1 x1 /\ on_vertex s u2 x2 /\ bb_live s !! u1 = Some b1 /\ bb_live s !! u2 = Some b2.

(** Nodes joined by anything, open or closed. *)
Definition wired (s : sgraph nterm string) : nat -> nat -> Prop := rtc (fun a b => exists e ob, sjoins s a e b ob).
(** The bus ids of a view in the order of std::map. *)
Definition first_name (P : string -> Prop) (k : string) : Prop := P k /\ forall k', P k' -> key_le k k'.

Section level.
  (** A node-breaker level, its switches in the working variant, the view that is written. *)
  Context (vw : view) (vl : string) (g : sgraph nterm string) (sw : gmap string (bool * bool)).
  Definition named (n : nat) (k : string) : Prop := in_bus vw g sw n /\ bus_name vw g sw vl n k.
  (** The connectable bus of node [n]: its own bus, else the bus of some node that something joins to it, else the first bus of the level. *)
  Definition connectable_of (n : nat) (oc : option string) : Prop :=
    match oc with
    | Some k =>
      (in_bus vw g sw n /\ named n k) \/
      (~ in_bus vw g sw n /\ exists m, wired g n m /\ named m k) \/
      ((forall m, wired g n m -> ~ in_bus vw g sw m) /\ first_name (fun k => exists m, named m k) k)
    | None => forall m, ~ in_bus vw g sw m
    end.
  (** The switches that are written: the retained ones, at the bus-breaker level. *)
  Definition written_switch (id : string) (o : bool) : Prop := vw = BusBreakerView /\ sw !! id = Some (o, true).

  (** The ids that the file declares are new: to the network that imports it and to one another. *)
  Definition new_ids (ids : gset string) : Prop :=
    (forall n k, named n k -> k ∉ ids) /\
    (forall id o, written_switch id o -> id <> "" /\ id ∉ ids /\ forall n, ~ named n id).

  (** The level read. *)
  Record copied (s : bbsh) (v : bbvar) : Prop := {
    (** its buses are those of the view; *)
    cp_bus : forall k, is_bus s k <-> exists n, named n k;
    (** its switches are the retained ones, in the same position, between the buses of their ends; *)
    cp_switch : forall id o, bv_open v !! id = Some o <-> written_switch id o;
    cp_ends : forall id o e a b ka kb, written_switch id o -> s_edges g !! e = Some (a, b, Some id) -> named a ka -> named b kb ->
      lies_between s id ka kb;
    (** its buses are linked exactly when their nodes are; *)
    cp_same : forall n1 n2 k1 k2, named n1 k1 -> named n2 k2 -> same_bus s v k1 k2 <-> same_node BusView g sw n1 n2;
    (** a terminal on a bus of the view is connected to it, a terminal without bus is disconnected, on its connectable bus; *)
    cp_on : forall n t k, term_at g n t -> is_feeder t -> named n k -> bv_conn v !! t = Some (true, k) /\ forall b, hangs s v b t <-> b = k;
    cp_off : forall n t, term_at g n t -> is_feeder t -> ~ in_bus vw g sw n ->
      exists k, connectable_of n (Some k) /\ bv_conn v !! t = Some (false, k) /\ forall b, hangs s v b t <-> b = k;
    (** there is no other terminal. *)
    cp_only : forall b t, hangs s v b t -> is_feeder t /\ exists n, term_at g n t
  }.
End level.

(** ** Bus-breaker levels exported at the bus-branch level *)
(** [s], [v]: the level exported; [s2], [v2]: the level read. *)
Record merged_copy (s : bbsh) (v : bbvar) (s2 : bbsh) (v2 : bbvar) : Prop := {
  (** no switch is left; every bus is a bus of the bus view; *)
  mg_switch : forall id, bv_open v2 !! id = None;
  mg_view : forall k, is_bus s2 k -> in_bus_view s2 v2 k;
  (** each terminal is on one bus, connected if it was; *)
  mg_term : forall b t, hangs s v b t -> exists k, forall k', hangs s2 v2 k' t <-> k' = k;
  mg_connected : forall b t, hangs s v b t -> connected v2 t <-> connected v t;
  mg_only : forall k t, hangs s2 v2 k t -> exists b, hangs s v b t;
  (** two terminals are on the same bus exactly when closed switches linked theirs. *)
  mg_same : forall t1 t2 b1 b2 k1 k2, hangs s v b1 t1 -> hangs s v b2 t2 -> hangs s2 v2 k1 t1 -> hangs s2 v2 k2 t2 -> k1 = k2 <-> same_bus s v b1 b2
}.
