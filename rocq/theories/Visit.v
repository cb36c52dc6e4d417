(** Visitors of the equipments of a bus or of a voltage level (src/iidm/TopologyVisitor.cpp, AbstractTerminalTopologyVisitor.cpp,
    Bus.cpp:223-225, ConfiguredBus.cpp:101-125 and 214-217, MergedBus.cpp:73-91 and 185-190, CalculatedBus.cpp:163-166,
    VoltageLevel.cpp:270-272).

    Simplifications, valid for the whole file:
    - a reference to an equipment is its id; the table [es] gives for each id the type and the terminals of the equipment;
    - a visitor is what its virtual functions do to its own state ([A]) for each call; it does not change the network while it visits;
    - the dynamic_cast of an equipment to the class of its type (each class passes its own ConnectableType to its base) succeeds. *)
From stdpp Require Export gmap.
From Verif Require Export Base Graph Equip NodeTopo BusTopo.

(** Branch::Side and ThreeWindingsTransformer::Side: Branch.hpp, ThreeWindingsTransformer.hpp. *)
Inductive vside := ONE | TWO | THREE.
(** Connectable: its type and m_terminals (Connectable.hpp). *)
Record equipment := mkEquipment { eq_type : ctype; eq_terms : list nterm }.

(** A call of a function of TopologyVisitor: TopologyVisitor.hpp:46-66. *)
Inductive vcall :=
| VBattery (id : string) | VBusbarSection (id : string) | VDanglingLine (id : string) | VGenerator (id : string)
| VHvdcConverterStation (id : string) | VLine (id : string) (s : vside) | VLoad (id : string) | VShuntCompensator (id : string)
| VStaticVarCompensator (id : string) | VThreeWindingsTransformer (id : string) (s : vside)
| VTwoWindingsTransformer (id : string) (s : vside).

(** Connectable::getTerminal(index), getTerminals().at(index): Connectable.cpp:69-85. *)
Definition eq_at (e : equipment) (n : nat) : result nterm :=
  match eq_terms e !! n with Some t => Ok t | None => Throw "out_of_range" end.
(** Branch::getSide: Branch.cpp:242-251 (areSame compares addresses). *)
Definition branch_side (e : equipment) (t : nterm) : result vside :=
  let! t1 := eq_at e 0 in
  if bool_decide (t = t1) then Ok ONE else
  let! t2 := eq_at e 1 in
  if bool_decide (t = t2) then Ok TWO else Throw "The terminal is not connected to this branch".
(** ThreeWindingsTransformer::getSide: ThreeWindingsTransformer.cpp:102-113 (Leg::getTerminal: ThreeWindingsTransformerLeg.cpp:112-114). *)
Definition three_side (e : equipment) (t : nterm) : result vside :=
  let! t1 := eq_at e 0 in
  if bool_decide (t1 = t) then Ok ONE else
  let! t2 := eq_at e 1 in
  if bool_decide (t2 = t) then Ok TWO else
  let! t3 := eq_at e 2 in
  if bool_decide (t3 = t) then Ok THREE else Throw "The terminal is not connected to this three windings transformer".

(** The call made for one terminal: the switch of TopologyVisitor.cpp:43-100.  getConnectable is an empty reference for a terminal
    without equipment; its conversion throws (Reference.hxx). *)
Definition call_for (es : gmap string equipment) (t : nterm) : result vcall :=
  match es !! nt_id t with
  | None => Throw "empty reference"
  | Some e =>
    let id := nt_id t in
    match eq_type e with
    | BUSBAR_SECTION => Ok (VBusbarSection id)
    | LINE => let! s := branch_side e t in Ok (VLine id s)
    | GENERATOR => Ok (VGenerator id)
    | BATTERY => Ok (VBattery id)
    | SHUNT_COMPENSATOR => Ok (VShuntCompensator id)
    | TWO_WINDINGS_TRANSFORMER => let! s := branch_side e t in Ok (VTwoWindingsTransformer id s)
    | THREE_WINDINGS_TRANSFORMER => let! s := three_side e t in Ok (VThreeWindingsTransformer id s)
    | LOAD => Ok (VLoad id)
    | DANGLING_LINE => Ok (VDanglingLine id)
    | STATIC_VAR_COMPENSATOR => Ok (VStaticVarCompensator id)
    | HVDC_CONVERTER_STATION => Ok (VHvdcConverterStation id)
    end
  end.
(** TopologyVisitor::visitEquipments: TopologyVisitor.cpp:41-102. *)
Fixpoint visit_equipments {A} (es : gmap string equipment) (vis : A -> vcall -> result A) (ts : list nterm) (a : A) : result A :=
  match ts with
  | [] => Ok a
  | t :: ts' => let! c := call_for es t in let! a' := vis a c in visit_equipments es vis ts' a'
  end.

(** AbstractTerminalTopologyVisitor over a visitTerminal [f]: AbstractTerminalTopologyVisitor.cpp:28-96 (Injection::getTerminal:
    Injection.cpp:18-20; Branch::getTerminal: Branch.cpp:253-264; the legs: lines 68-85).  A side is never outside of the enumeration, but
    visitBranch refuses THREE, which Branch::Side does not have. *)
Definition terminal_visitor {A} (es : gmap string equipment) (f : A -> nterm -> result A) (a : A) (c : vcall) : result A :=
  let find (id : string) : result equipment := match es !! id with Some e => Ok e | None => UB end in
  let injection (id : string) : result A := let! e := find id in let! t := eq_at e 0 in f a t in
  let branch (id : string) (s : vside) : result A :=
    let! e := find id in
    match s with
    | ONE => let! t := eq_at e 0 in f a t
    | TWO => let! t := eq_at e 1 in f a t
    | THREE => Throw "Unexpected side value"
    end in
  match c with
  | VBattery id | VBusbarSection id | VDanglingLine id | VGenerator id | VHvdcConverterStation id | VLoad id | VShuntCompensator id
  | VStaticVarCompensator id => injection id
  | VLine id s | VTwoWindingsTransformer id s => branch id s
  | VThreeWindingsTransformer id s =>
    let! e := find id in
    let! t := eq_at e (match s with ONE => 0 | TWO => 1 | THREE => 2 end) in f a t
  end.

(** ** Bus-breaker levels *)
(** ConfiguredBus::getTerminals (ConfiguredBus.cpp:138-144) in the working variant. *)
Definition bus_terms (u : nat) : bbact (list nterm) :=
  do! v := aget in match bv_terms v !! u with None => alift UB | Some l => aret l end.
(** ConfiguredBus::visitConnectedOrConnectableEquipments: ConfiguredBus.cpp:214-217. *)
Definition configured_visit_all {A} es (vis : A -> vcall -> result A) (b : string) (a : A) : bbact A :=
  do! u := bb_configured b in
  do! l := bus_terms u in alift (visit_equipments es vis l a).
(** Bus::visitConnectedEquipments (Bus.cpp:223-225) with ConfiguredBus::getConnectedTerminals (ConfiguredBus.cpp:101-111). *)
Definition configured_visit_connected {A} es (vis : A -> vcall -> result A) (b : string) (a : A) : bbact A :=
  do! u := bb_configured b in
  do! l := bus_terms u in
  do! v := aget in
  do! lc := alift (filter_connected v l) in alift (visit_equipments es vis lc a).
(** MergedBus::visitConnectedOrConnectableEquipments (MergedBus.cpp:185-190) of the merged bus [k], just obtained: it is valid. *)
Fixpoint merged_loop {A} es (vis : A -> vcall -> result A) (us : list nat) (a : A) : bbact A :=
  match us with
  | [] => aret a
  | u :: us' => do! l := bus_terms u in do! a' := alift (visit_equipments es vis l a) in merged_loop es vis us' a'
  end.
Definition merged_visit_all {A} es (vis : A -> vcall -> result A) (k : string) (a : A) : bbact A :=
  do! o := bb_by_id k in
  match o with None => athrow "Bus not found" | Some us => merged_loop es vis us a end.
(** Bus::visitConnectedEquipments with MergedBus::getConnectedTerminals. *)
Definition merged_visit_connected {A} es (vis : A -> vcall -> result A) (k : string) (a : A) : bbact A :=
  do! l := bb_terminals k in alift (visit_equipments es vis l a).
(** VoltageLevel::visitEquipments (VoltageLevel.cpp:270-272) with BusBreakerVoltageLevel::getTerminals (BusBreakerVoltageLevel.cpp:247-253);
    the range is enumerated lazily, here the terminals are collected first: the visitor does not change them. *)
Fixpoint level_terms (os : list (option nat)) : bbact (list nterm) :=
  match os with
  | [] => aret []
  | None :: _ => athrow "empty reference"
  | Some u :: os' => do! l := bus_terms u in do! l' := level_terms os' in aret (l ++ l')
  end.
Definition bb_visit_level {A} es (vis : A -> vcall -> result A) (a : A) : bbact A :=
  do! s := ashared in
  do! l := level_terms (vertex_objects (bb_graph s)) in alift (visit_equipments es vis l a).

(** ** Node-breaker levels *)
(** CalculatedBus::visitConnectedOrConnectableEquipments (CalculatedBus.cpp:163-166) and Bus::visitConnectedEquipments with
    CalculatedBus::getConnectedTerminals (lines 88-94) of the bus [k] of a view, just obtained: both run over m_terminals. *)
Definition calculated_visit_all {A} es (vis : A -> vcall -> result A) (vw : view) (k : string) (a : A) : nbact A :=
  do! o := nb_bus_of_id vw k in
  match o with None => athrow "Bus not found" | Some b => alift (visit_equipments es vis (cb_terms b) a) end.
Definition calculated_visit_connected {A} es (vis : A -> vcall -> result A) (vw : view) (k : string) (a : A) : nbact A :=
  do! o := nb_bus_of_id vw k in
  match o with None => athrow "Bus not found" | Some b => alift (visit_equipments es vis (cb_terms b) a) end.
(** VoltageLevel::visitEquipments with NodeBreakerVoltageLevel::getTerminals (NodeBreakerVoltageLevel.cpp:310-318). *)
Definition nb_visit_level {A} es (vis : A -> vcall -> result A) (a : A) : nbact A :=
  do! s := ashared in
  alift (visit_equipments es vis (omap id (omap id (g_vertices (nb_graph s)))) a).
