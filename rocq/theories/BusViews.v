(** The bus/breaker view of a bus-breaker voltage level: what it answers about buses and switches
    (src/iidm/BusBreakerVoltageLevelViews.cpp:27-104, BusBreakerVoltageLevel.cpp).  The voltage level is that of BusTopo.v.

    A reference to a bus or to a switch is read as its id: [Identifiable::getId] of the object it refers to. A range is read as the list
    it yields if nothing is changed meanwhile. *)
From stdpp Require Import gmap.
From Verif Require Import Base Graph Equip NodeTopo BusTopo.

(** getEdge: BusBreakerVoltageLevel.cpp:190-202. *)
Definition bw_edge (s : bbsh) (id : string) (throwing : bool) : result (option nat) :=
  if bool_decide (id = "") then Throw "switch id is null"
  else match bb_sw s !! id with
       | Some e => Ok (Some e)
       | None => if throwing then Throw "Switch not found in the voltage level" else Ok None
       end.
(** getVertex: lines 269-281. *)
Definition bw_vertex (s : bbsh) (id : string) (throwing : bool) : result (option nat) :=
  if bool_decide (id = "") then Throw "bus id is null"
  else match bb_buses s !! id with
       | Some x => Ok (Some x)
       | None => if throwing then Throw "Bus not found in the voltage level" else Ok None
       end.
(** The id of the configured bus [u]: undefined if the object is destroyed. *)
Definition bw_name (s : bbsh) (u : nat) : result string := match bb_live s !! u with Some b => Ok b | None => UB end.

(** getBus(id) const: BusBreakerVoltageLevelViews.cpp:28-30, getConfiguredBus(id, false): BusBreakerVoltageLevel.cpp:161-173. *)
Definition bw_bus (s : bbsh) (id : string) : result (option string) :=
  let! o := bw_vertex s id false in
  match o with
  | None => Ok None
  | Some x =>
    let! c := g_vertex_object (bb_graph s) x in
    match c with
    | None => Throw "m_pointer is null"
    | Some u => let! b := bw_name s u in if bool_decide (b = id) then Ok (Some b) else Throw "Invalid bus id"
    end
  end.
(** getBus(id), not const: lines 32-38.  [others]: the configured buses of the other voltage levels of the network, which
    [Network::find] knows as it knows those of this one (NetworkIndex.hxx:120-137). *)
Definition bw_bus_mutable (others : gset string) (s : bbsh) (id : string) : result (option string) :=
  if bool_decide (id ∈ others) then Ok (Some id) else bw_bus s id.
(** getBus1, getBus2: lines 40-54, getConfiguredBus1, getConfiguredBus2: BusBreakerVoltageLevel.cpp:178-188. *)
Definition bw_end (s : bbsh) (x : nat) : result (option string) :=
  let! c := g_vertex_object (bb_graph s) x in
  match c with None => Ok None | Some u => let! b := bw_name s u in Ok (Some b) end.
Definition bw_bus1 (s : bbsh) (id : string) : result (option string) :=
  let! o := bw_edge s id true in
  match o with None => UB | Some e => let! x := g_vertex1 (bb_graph s) e in bw_end s x end.
Definition bw_bus2 (s : bbsh) (id : string) : result (option string) :=
  let! o := bw_edge s id true in
  match o with None => UB | Some e => let! x := g_vertex2 (bb_graph s) e in bw_end s x end.
(** getBuses: lines 56-72. *)
Fixpoint bw_names (s : bbsh) (l : list (option nat)) : result (list string) :=
  match l with
  | [] => Ok []
  | None :: l' => bw_names s l'
  | Some u :: l' => let! b := bw_name s u in let! k := bw_names s l' in Ok (b :: k)
  end.
Definition bw_buses (s : bbsh) : result (list string) := bw_names s (vertex_objects (bb_graph s)).
(** getSwitch: lines 74-80, BusBreakerVoltageLevel.cpp:220-232; getSwitchCount: line 83, BusBreakerVoltageLevel.cpp:234-236. *)
Definition bw_switch (s : bbsh) (id : string) : result (option string) :=
  let! o := bw_edge s id false in
  match o with
  | None => Ok None
  | Some e =>
    let! c := g_edge_object (bb_graph s) e in
    match c with
    | None => Throw "m_pointer is null"
    | Some k => if bool_decide (k = id) then Ok (Some k) else Throw "Invalid switch id"
    end
  end.
Definition bw_switch_count (s : bbsh) : nat := g_edge_count (bb_graph s).
(** getSwitches: lines 86-102. *)
Definition bw_switches (s : bbsh) : list string := omap (fun o => o) (edge_objects (bb_graph s)).
