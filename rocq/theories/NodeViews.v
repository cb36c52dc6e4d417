(** The node/breaker view and the bus/breaker view of a node-breaker voltage level: what they answer about nodes, switches, internal
    connections and terminals (src/iidm/NodeBreakerVoltageLevelViews.cpp, NodeBreakerVoltageLevel.cpp, NodeBreakerVoltageLevelTopology.cpp).

    A range returned by these functions is lazy; it is read here as the list it yields if nothing is changed meanwhile.  A reference to a
    switch is its id, as in NodeTopo.v. *)
From stdpp Require Import gmap.
From Verif Require Import Base Graph Equip NodeTopo.

(** getEdgeObjects: UndirectedGraph.hxx:219-226; the objects of the live edges, [None] for an internal connection. *)
Definition g_edge_objects {V E} (g : graph V E) : list (option E) := omap (fun x => e_obj <$> x) (g_edges g).
(** getVertexObjects: UndirectedGraph.hxx:301-308. *)
Definition g_vertex_objects {V E} (g : graph V E) : list (option V) := omap (fun x => x) (g_vertices g).

(** getEdge: NodeBreakerVoltageLevel.cpp:228-240. *)
Definition nb_edge (s : nbsh) (id : string) (throwing : bool) : result (option nat) :=
  if bool_decide (id = "") then Throw "switch id is null"
  else match nb_sw s !! id with
       | Some e => Ok (Some e)
       | None => if throwing then Throw "Switch not found in the voltage level" else Ok None
       end.
(** [*e] of an empty optional. *)
Definition deref {A} (o : option A) : result A := match o with Some a => Ok a | None => UB end.

(** ** NodeBreakerViewImpl: NodeBreakerVoltageLevelViews.cpp:153-324 *)
(** getInternalConnectionCount: lines 177-179, NodeBreakerVoltageLevel.cpp:246-249. *)
Definition nv_internal_count (s : nbsh) : nat := length (filter (fun o => o = None) (g_edge_objects (nb_graph s))).
(** getInternalConnections: lines 181-194. *)
Definition nv_internals (s : nbsh) : list (nat * nat) :=
  omap (fun x => match x with Some ed => match e_obj ed with None => Some (e_v1 ed, e_v2 ed) | Some _ => None end | None => None end)
       (g_edges (nb_graph s)).
(** getMaximumNodeIndex: lines 196-198, NodeBreakerVoltageLevel.cpp:251-253. *)
Definition nv_max_node (s : nbsh) : Z := (Z.of_nat (g_vertex_capacity (nb_graph s)) - 1)%Z.
(** getNode1, getNode2: lines 200-206, NodeBreakerVoltageLevel.cpp:255-263. *)
Definition nv_node1 (s : nbsh) (id : string) : result nat :=
  let! o := nb_edge s id true in let! e := deref o in g_vertex1 (nb_graph s) e.
Definition nv_node2 (s : nbsh) (id : string) : result nat :=
  let! o := nb_edge s id true in let! e := deref o in g_vertex2 (nb_graph s) e.
(** getNodes: lines 208-210. *)
Definition nv_nodes (s : nbsh) : list nat := g_get_vertices (nb_graph s).
(** getOptionalTerminal: lines 212-224. *)
Definition nv_optional_terminal (s : nbsh) (n : nat) : result (option nterm) :=
  if g_vertex_exists (nb_graph s) n then g_vertex_object (nb_graph s) n else Ok None.
(** getSwitch: lines 226-232, NodeBreakerVoltageLevel.cpp:273-285. *)
Definition nv_switch (s : nbsh) (id : string) : result (option string) :=
  let! o := nb_edge s id false in
  match o with
  | None => Ok None
  | Some e =>
    let! x := g_edge_object (nb_graph s) e in
    match x with
    | None => Throw "m_pointer is null"
    | Some id' => if bool_decide (id' = id) then Ok (Some id') else Throw "Invalid switch id"
    end
  end.
(** getSwitchCount: lines 234-236, NodeBreakerVoltageLevel.cpp:287-292. *)
Definition nv_switch_count (s : nbsh) : nat := length (filter (fun o => is_Some o) (g_edge_objects (nb_graph s))).
(** getSwitches: lines 238-256. *)
Definition nv_switches (s : nbsh) : list string := omap (fun o => o) (g_edge_objects (nb_graph s)).
(** getTerminal: lines 258-264, NodeBreakerVoltageLevel.cpp:302-308; getTerminal1, getTerminal2: lines 266-280. *)
Definition nv_terminal (s : nbsh) (n : nat) : result (option nterm) := g_vertex_object (nb_graph s) n.
Definition nv_terminal1 (s : nbsh) (id : string) : result (option nterm) := let! n := nv_node1 s id in nv_terminal s n.
Definition nv_terminal2 (s : nbsh) (id : string) : result (option nterm) := let! n := nv_node2 s id in nv_terminal s n.
(** hasAttachedEquipment: lines 282-284. *)
Definition nv_has_equipment (s : nbsh) (n : nat) : bool := g_vertex_exists (nb_graph s) n.
(** VoltageLevel::getTerminals: NodeBreakerVoltageLevel.cpp:310-328. *)
Definition nv_terminals (s : nbsh) : list nterm := omap (fun o => o) (g_vertex_objects (nb_graph s)).

(** ** BusBreakerViewImpl: NodeBreakerVoltageLevelViews.cpp:24-110.  Each function reads the
    topology of the working variant first (NodeBreakerVoltageLevel.cpp:216-222): [aget]. *)
(** Switch::isRetained: Switch.cpp:71-73. *)
Definition sw_retained (id : string) : nbact bool := do! p := sw_get id in aret p.2.
(** getRetainedSwitch: NodeBreakerVoltageLevelTopology.cpp:69-78. *)
Definition bv_retained (o : option nat) : nbact (option string) :=
  match o with
  | None => aret None
  | Some e =>
    do! s := ashared in
    do! x := alift (g_edge_object (nb_graph s) e) in
    match x with
    | None => athrow "m_pointer is null"
    | Some id => do! r := sw_retained id in aret (if (r : bool) then Some id else None)
    end
  end.
(** getSwitch(id, true): lines 80-88. *)
Definition bv_switch (id : string) : nbact (option string) :=
  aget ;;!
  do! s := ashared in
  do! o := alift (nb_edge s id false) in
  do! x := bv_retained o in
  match x with None => athrow "Switch not found" | Some _ => aret x end.
(** The filter of getSwitches and the test of getSwitchCount, in the order of the edges. *)
Fixpoint bv_filter (l : list (option string)) : nbact (list string) :=
  match l with
  | [] => aret []
  | None :: l' => bv_filter l'
  | Some id :: l' => do! r := sw_retained id in do! k := bv_filter l' in aret (if (r : bool) then id :: k else k)
  end.
(** getSwitches: lines 102-118; getSwitchCount: lines 90-100 (a loop of its own, with the same test). *)
Definition bv_switches : nbact (list string) := aget ;;! do! s := ashared in bv_filter (g_edge_objects (nb_graph s)).
Fixpoint bv_count (l : list (option string)) (n : nat) : nbact nat :=
  match l with
  | [] => aret n
  | None :: l' => bv_count l' n
  | Some id :: l' => do! r := sw_retained id in bv_count l' (if (r : bool) then S n else n)
  end.
Definition bv_switch_count : nbact nat := aget ;;! do! s := ashared in bv_count (g_edge_objects (nb_graph s)) 0.
(** getBus1(id, true), getBus2(id, true): lines 39-67. *)
Definition bv_bus1 (id : string) : nbact (option cbus) :=
  aget ;;!
  do! s := ashared in
  do! o := alift (nb_edge s id true) in
  do! x := bv_retained o in
  match x with
  | None => athrow "Switch not found"
  | Some _ =>
    do! e := alift (deref o) in
    do! v := alift (g_vertex1 (nb_graph s) e) in
    nb_bus_of_node BusBreakerView v
  end.
Definition bv_bus2 (id : string) : nbact (option cbus) :=
  aget ;;!
  do! s := ashared in
  do! o := alift (nb_edge s id true) in
  do! x := bv_retained o in
  match x with
  | None => athrow "Switch not found"
  | Some _ =>
    do! e := alift (deref o) in
    do! v := alift (g_vertex2 (nb_graph s) e) in
    nb_bus_of_node BusBreakerView v
  end.

(** ** BusViewImpl::getMergedBus(busbarSectionId): NodeBreakerVoltageLevelViews.cpp:141-151.
    getConnectable<BusbarSection> (VoltageLevel.hxx:34-70) finds the section in the index of the network and throws if its terminal is in
    another voltage level; here: the first node whose terminal is that of a busbar section of this id.  The [get()] of an empty reference throws. *)
Definition nv_section_node (s : nbsh) (id : string) : option nat :=
  List.find (fun n => match g_vertices (nb_graph s) !! n with
                      | Some (Some (Some t)) => bool_decide (nt_id t = id) && bool_decide (nt_type t = BUSBAR_SECTION)
                      | _ => false
                      end) (seq 0 (length (g_vertices (nb_graph s)))).
Definition nv_merged_bus (id : string) : nbact (option cbus) :=
  do! s := ashared in
  match nv_section_node s id with
  | None => athrow "m_pointer is null"
  | Some n => nb_bus_of_node BusView n
  end.
