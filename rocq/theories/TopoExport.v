(** Export of a voltage level at a coarser topology level than its own, and import of the result as a bus-breaker voltage level
    (src/iidm/converter/xml/VoltageLevelXml.cpp, BusXml.cpp, BusBreakerViewSwitchXml.cpp,
    include/powsybl/iidm/converter/xml/AbstractConnectableXml.hxx, src/iidm/TopologyLevel.cpp, NodeBreakerVoltageLevelTopology.cpp,
    NodeTerminalViews.cpp, BusTerminalViews.cpp, TerminalBuilder.cpp).

    Simplifications, valid for the whole file:
    - the file is what it says of the topology of one level: its buses, its switches, the buses of its terminals; the characters of
      the file, the other attributes and the other elements are those of Xml.v and NetXml.v; no anonymization;
    - BusFilter (BusFilter.cpp:28-46) with its empty set of buses, which passes everything: [create] never fills it;
    - the terminals of an equipment are handled one by one ([ts]: the node and the terminal of each, in the order of the file);
      busbar sections are written with the node-breaker topology only (VoltageLevelXml.cpp:238-240). *)
From Coq Require String.
From stdpp Require Export gmap pretty sorting.
From Verif Require Export Base Graph Equip NodeTopo BusTopo.

(** What the file says of a level: the ids of the <bus> elements; id, open, bus1, bus2 of the <switch> elements; bus and connectableBus
    of each terminal. *)
Record xlevel := mkXL { x_buses : list string; x_sws : list (string * bool * string * string);
                        x_terms : list (nterm * option string * option string) }.

(** The ranges over std::map<std::string, ...> go in the order of operator< (bytes). *)
Definition key_le (a b : string) : Prop := Is_true (String.leb a b).
#[global] Instance key_le_dec : RelDecision key_le. Proof. intros a b. unfold key_le. apply _. Defined.
Definition in_order {A} (m : gmap string A) : list string := merge_sort key_le (map fst (map_to_list m)).

(** ** Node-breaker levels *)
(** getConnectableBus(node): NodeBreakerVoltageLevelTopology.cpp:157-189.  The visitor, lines 167-176: its calls of getBus find the cache
    [c], which line 159 has made. *)
Definition cn_found (c : bcache) (v2 : nat) : option (result cbus) :=
  match bc_node c !! v2 with
  | None => Some (Throw "out_of_range")
  | Some None => None
  | Some (Some k) => Some (match bc_id c !! k with Some b => Ok b | None => UB end)
  end.
Definition cn_visit (c : bcache) (s : option (result cbus)) (_ _ v2 : nat) : option (result cbus) * bool :=
  match s with
  | Some x => (Some x, false)
  | None => match cn_found c v2 with Some x => (Some x, false) | None => (None, true) end
  end.
Definition nb_connectable (vw : view) (n : nat) : nbact (option cbus) :=
  do! o := nb_bus_of_node vw n in
  match o with
  | Some b => aret (Some b)
  | None =>
    do! c := nb_cache vw in
    do! x := gact (fun g => g_traverse (cn_visit c) g n None) in
    match x.2 with
    | Some r => do! b := alift r in aret (Some b)
    | None => aret (match in_order (bc_id c) with [] => None | k :: _ => bc_id c !! k end)   (* lines 179-186 *)
    end
  end.

(** getBus1, getBus2 of a switch of the bus-breaker view: NodeBreakerVoltageLevelTopology.cpp:39-78 ([getEdge]:
    NodeBreakerVoltageLevel.cpp:228-240); the reference is dereferenced by its users. *)
Definition nb_switch_bus (first : bool) (id : string) : nbact string :=
  do! s := ashared in
  match nb_sw s !! id with
  | None => athrow "Switch not found"
  | Some e =>
    do! o := alift (g_edge_object (nb_graph s) e) in
    match o with
    | None => athrow "m_pointer is null"
    | Some k =>
      do! p := sw_get k in
      if p.2 then
        do! n := alift (if first then g_vertex1 (nb_graph s) e else g_vertex2 (nb_graph s) e) in
        do! b := nb_bus_of_node BusBreakerView n in
        match b with None => athrow "m_pointer is null" | Some b => aret (cb_id b) end
      else athrow "Switch not found"
    end
  end.
(** VoltageLevelXml.cpp:179-186, BusBreakerViewSwitchXml.cpp:46-53 over getSwitches (NodeBreakerVoltageLevelTopology.cpp:102-118): the
    retained switches in the order of the edges. *)
Fixpoint nb_export_switches (l : list (option string)) : nbact (list (string * bool * string * string)) :=
  match l with
  | [] => aret []
  | None :: l' => nb_export_switches l'
  | Some id :: l' =>
    do! p := sw_get id in
    if p.2 then
      do! b1 := nb_switch_bus true id in
      do! b2 := nb_switch_bus false id in
      do! r := nb_export_switches l' in
      aret ((id, p.1, b1, b2) :: r)
    else nb_export_switches l'
  end.
(** writeNodeOrBus and writeBus: AbstractConnectableXml.hxx:194-213, 140-147. *)
Fixpoint nb_export_terms (vw : view) (ts : list (nat * nterm)) : nbact (list (nterm * option string * option string)) :=
  match ts with
  | [] => aret []
  | (n, t) :: ts' =>
    do! b := nb_bus_of_node vw n in
    do! c := nb_connectable vw n in
    do! r := nb_export_terms vw ts' in
    aret ((t, cb_id <$> b, cb_id <$> c) :: r)
  end.
(** writeBusBreakerTopology, writeBusBranchTopology: VoltageLevelXml.cpp:160-188, and the equipments. *)
Definition nb_export (vw : view) (ts : list (nat * nterm)) : nbact xlevel :=
  do! m := nb_buses vw in
  do! sws := match vw with
             | BusView => aret []
             | BusBreakerView => do! s := ashared in nb_export_switches (omap (fmap e_obj) (g_edges (nb_graph s)))
             end in
  do! r := nb_export_terms vw ts in
  aret (mkXL (in_order m) sws r).

(** ** Bus-breaker levels exported at the bus-branch level *)
(** bus_terminal::BusViewImpl::getConnectableBus, getBus: BusTerminalViews.cpp:62-84. *)
Fixpoint bb_export_terms (ts : list nterm) : bbact (list (nterm * option string * option string)) :=
  match ts with
  | [] => aret []
  | t :: ts' =>
    do! b := bb_terminal_bus t in
    do! x := bt_get t in
    do! c := bb_merged x.2 in
    do! r := bb_export_terms ts' in
    aret ((t, b, c) :: r)
  end.
Definition bb_export (ts : list nterm) : bbact xlevel :=
  do! c := bb_cache in
  do! r := bb_export_terms ts in
  aret (mkXL (in_order (mc_id c)) [] r).

(** ** Import *)
(** TerminalBuilder::getConnectionBus: TerminalBuilder.cpp:25-35; an attribute that is not read leaves the adder with the empty string
    (AbstractConnectableXml.hxx:98-112). *)
Definition connection_bus (bus con : string) : result string :=
  if bool_decide (bus = "") then Ok con
  else if negb (bool_decide (con = "")) && negb (bool_decide (bus = con)) then Throw "connection bus is different from connectable bus"
  else Ok bus.
(** TerminalBuilder::build without node: lines 37-56 ([bb_new_terminal] has the check of line 45). *)
Definition import_term (x : nterm * option string * option string) : bbact unit :=
  let bus := default "" x.1.2 in
  do! k := alift (connection_bus bus (default "" x.2)) in
  bb_new_terminal x.1.1 k (negb (bool_decide (bus = ""))).
Fixpoint bb_each {A} (f : A -> bbact unit) (l : list A) : bbact unit :=
  match l with [] => aret tt | a :: l' => f a ;;! bb_each f l' end.
(** readBusBreakerTopology (VoltageLevelXml.cpp:61-71), BusXml.cpp:31-38, BusBreakerViewSwitchXml.cpp:32-44, then the equipments. *)
Definition bb_import (x : xlevel) : bbact unit :=
  bb_each bb_add_bus (x_buses x) ;;!
  bb_each (fun s => bb_add_switch s.1.1.1 s.1.1.2 s.1.2 s.2) (x_sws x) ;;!
  bb_each import_term (x_terms x).
(** The level as the import creates it: in a network with one variant, which holds [ids] already. *)
Definition bb_blank (vl : string) (ids : gset string) : bbst := bb_new vl ids {[initial_variant]} (Some initial_variant).
