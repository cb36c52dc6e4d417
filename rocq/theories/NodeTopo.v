(** Node-breaker voltage levels: the connectivity graph, the switches, the calculated buses of the two bus views and their
    caches, connect and disconnect (src/iidm/NodeBreakerVoltageLevel.cpp, NodeBreakerVoltageLevelTopology.cpp,
    NodeBreakerVoltageLevelBusCache.cpp, NodeBreakerVoltageLevelBusNamingStrategy.cpp, Switch.cpp).

    Simplifications, valid for the whole file:
    - a reference to a Switch is its id, a reference to a terminal is the pair (equipment id, side) with the equipment type;
      a reference to a destroyed switch is an id absent from the tables below, dereferencing it is [UB];
    - the caches of the network and of the components manager, invalidated in the same places, are not in this file;
    - a CalculatedBus is its id and its terminals (name, fictitious flag, m_terminalRef and the per-terminal values are left out);
    - logging is left out. *)
From stdpp Require Export gmap pretty.
From Verif Require Export Base Graph Equip.

(** SwitchKind.hpp:17-21. *)
Inductive swkind := BREAKER | DISCONNECTOR | LOAD_BREAK_SWITCH.
(** ConnectableType.hpp:17-29. *)
Inductive ctype := BUSBAR_SECTION | LINE | TWO_WINDINGS_TRANSFORMER | THREE_WINDINGS_TRANSFORMER | GENERATOR | BATTERY | LOAD
  | SHUNT_COMPENSATOR | DANGLING_LINE | STATIC_VAR_COMPENSATOR | HVDC_CONVERTER_STATION.
#[global] Instance swkind_eq_dec : EqDecision swkind. Proof. solve_decision. Defined.
#[global] Instance ctype_eq_dec : EqDecision ctype. Proof. solve_decision. Defined.

(** A NodeTerminal: equipment id, side, equipment type. *)
Record nterm := mkNT { nt_id : string; nt_side : nat; nt_type : ctype }.
#[global] Instance nterm_eq_dec : EqDecision nterm. Proof. solve_decision. Defined.

(** CalculatedBus: CalculatedBus.cpp:21-27. *)
Record cbus := mkCB { cb_id : string; cb_terms : list nterm }.
(** BusCache: NodeBreakerVoltageLevelBusCache.hpp:27-54.  m_busByNode holds references into m_busById: keys here. *)
Record bcache := mkBC { bc_node : list (option string); bc_id : gmap string cbus }.

(** Attributes shared by the variants: id of the voltage level, m_graph, m_switches (NodeBreakerVoltageLevel.hpp), the kinds of
    its live switches and the ids known to the network index. *)
Record nbsh := mkNB { nb_id : string; nb_graph : graph nterm string; nb_sw : gmap string nat;
                      nb_kind : gmap string swkind; nb_ids : gset string }.
(** Per variant: m_open and m_retained of each live switch (Switch.hpp), and the m_cache of the two calculated topologies
    (VariantImpl, NodeBreakerVoltageLevelVariant.cpp:20-25). *)
Record nbvar := mkNV { nv_sw : gmap string (bool * bool); nv_bus : option bcache; nv_bb : option bcache }.

Notation nbst := (est nbsh nbvar).
Notation nbact := (act nbsh nbvar).

(** The two views: CalculatedBusTopology and CalculatedBusBreakerTopology. *)
Inductive view := BusView | BusBreakerView.
#[global] Instance view_eq_dec : EqDecision view. Proof. solve_decision. Defined.

(** createSwitchPredicate: NodeBreakerVoltageLevelTopology.cpp:128-132 and 33-37; [p] is (open, retained). *)
Definition terminate (vw : view) (p : bool * bool) : bool :=
  match vw with BusView => p.1 | BusBreakerView => p.1 || p.2 end.

(** BusNamingStrategy::getId: NodeBreakerVoltageLevelBusNamingStrategy.cpp:24-27; [*std::min_element] of an empty vector is UB. *)
Definition bus_id (vl : string) (nodes : list nat) : result string :=
  match nodes with
  | [] => UB
  | n :: ns => Ok (vl +:+ "_" +:+ pretty (N.of_nat (foldl Nat.min n ns)))
  end.

(** isBusValid: NodeBreakerVoltageLevelTopology.cpp:208-248 (counters: feeders, branches, busbar sections) and 120-122.
    The C++ loop reads the terminals of the vertices from the graph a second time; here it reads the list just collected. *)
Definition count_term (c : nat * nat * nat) (t : nterm) : nat * nat * nat :=
  let '(feeders, branches, sections) := c in
  match nt_type t with
  | LINE | TWO_WINDINGS_TRANSFORMER | THREE_WINDINGS_TRANSFORMER | HVDC_CONVERTER_STATION | DANGLING_LINE =>
    (S feeders, S branches, sections)
  | LOAD | GENERATOR | BATTERY | SHUNT_COMPENSATOR | STATIC_VAR_COMPENSATOR => (S feeders, branches, sections)
  | BUSBAR_SECTION => (feeders, branches, S sections)
  end.
Definition is_bus_valid (vw : view) (nodes : list nat) (terms : list nterm) : bool :=
  match vw with
  | BusView =>
    let '(feeders, branches, sections) := foldl count_term (0, 0, 0) terms in
    ((1 <=? sections) && (1 <=? feeders)) || ((1 <=? branches) && (2 <=? feeders))
  | BusBreakerView => match nodes with [] => false | _ => true end
  end.

Section compute.
  Context (vw : view) (vl : string) (sw : gmap string (bool * bool)).

  (** The visitor of CalculatedBusTopology::traverse, NodeBreakerVoltageLevelTopology.cpp:255-263.  [None]: the edge does not
      exist or its switch is destroyed. *)
  Definition edge_passes (es : list (option (edge string))) (e : nat) : option bool :=
    match es !! e with
    | Some (Some ed) =>
      match e_obj ed with
      | None => Some true
      | Some s => negb ∘ terminate vw <$> sw !! s
      end
    | _ => None
    end.
  Definition tv_go (es : list (option (edge string))) (_ e _ : nat) : bool :=
    match edge_passes es e with Some true => true | _ => false end.
  Definition tv_upd (es : list (option (edge string))) (s : result (list nat)) (_ e v2 : nat) : result (list nat) :=
    match edge_passes es e with
    | None => UB
    | Some true => result_map (fun l => l ++ [v2]) s
    | Some false => s
    end.
  Definition tv_visit (es : list (option (edge string))) (s : result (list nat)) (v1 e v2 : nat) : result (list nat) * bool :=
    (tv_upd es s v1 e v2, tv_go es v1 e v2).

  (** Lines 266-273: the terminals of the vertices. *)
  Fixpoint collect_terms (g : graph nterm string) (vs : list nat) : result (list nterm) :=
    match vs with
    | [] => Ok []
    | v :: vs' =>
      let! o := g_vertex_object g v in
      let! r := collect_terms g vs' in
      Ok (match o with Some t => t :: r | None => r end)
    end.

  (** Lines 280-282: busByNode[vertex] = calculatedBus. *)
  Fixpoint set_nodes (k : string) (vs : list nat) (l : list (option string)) : result (list (option string)) :=
    match vs with
    | [] => Ok l
    | v :: vs' => let! l' := vset l v (Some k) in set_nodes k vs' l'
    end.

  (** Lines 265-285: bus of a group of vertices.  [busById.insert] keeps an existing bus of the same id. *)
  Definition add_bus (g : graph nterm string) (vs : list nat) (c : bcache) : result bcache :=
    let! k := bus_id vl vs in
    let! ts := collect_terms g vs in
    if is_bus_valid vw vs ts then
      let! l := set_nodes k vs (bc_node c) in
      Ok (mkBC l (match bc_id c !! k with Some _ => bc_id c | None => <[k := mkCB k ts]> (bc_id c) end))
    else Ok c.

  (** CalculatedBusTopology::traverse: NodeBreakerVoltageLevelTopology.cpp:250-286. *)
  Definition tt_traverse (g : graph nterm string) (v : nat) (st : list bool * bcache) : graph nterm string * result (list bool * bcache) :=
    match st.1 !! v with
    | None => (g, UB)
    | Some true => (g, Ok st)
    | Some false =>
      let '(g', r) := g_traverse_enc (tv_visit (g_edges g)) g v st.1 (Ok [v]) in
      (g', let! x := r in
           let! vs := x.2 in
           let! c := add_bus g' vs st.2 in
           Ok (x.1, c))
    end.

  (** The loop of updateCache, lines 305-308. *)
  Fixpoint tt_edges (l : list nat) (g : graph nterm string) (st : list bool * bcache) : graph nterm string * result (list bool * bcache) :=
    match l with
    | [] => (g, Ok st)
    | e :: l' =>
      match g_vertex1 g e with
      | Ok v1 =>
        match tt_traverse g v1 st with
        | (g1, Ok st1) =>
          match g_vertex2 g1 e with
          | Ok v2 =>
            match tt_traverse g1 v2 st1 with
            | (g2, Ok st2) => tt_edges l' g2 st2
            | (g2, r) => (g2, r)
            end
          | Throw m => (g1, Throw m)
          | UB => (g1, UB)
          | OutOfFuel => (g1, OutOfFuel)
          end
        | (g1, r) => (g1, r)
        end
      | Throw m => (g, Throw m)
      | UB => (g, UB)
      | OutOfFuel => (g, OutOfFuel)
      end
    end.

  (** updateCache without its early return: lines 301-311.  The graph changes only by its adjacency cache. *)
  Definition compute_cache (g : graph nterm string) : graph nterm string * result bcache :=
    let n := length (g_vertices g) in
    let '(g', r) := tt_edges (g_get_edges g) g (replicate n false, mkBC (replicate n None) ∅) in
    (g', result_map snd r).
End compute.

(** ** Member functions *)
Definition nv_cache (vw : view) (v : nbvar) : option bcache := match vw with BusView => nv_bus v | BusBreakerView => nv_bb v end.
Definition nv_set_cache (vw : view) (c : option bcache) (v : nbvar) : nbvar :=
  match vw with BusView => mkNV (nv_sw v) c (nv_bb v) | BusBreakerView => mkNV (nv_sw v) (nv_bus v) c end.
Definition nb_set_graph (s : nbsh) (g : graph nterm string) : nbsh := mkNB (nb_id s) g (nb_sw s) (nb_kind s) (nb_ids s).

(** A call on m_graph. *)
Definition gact {A} (f : graph nterm string -> graph nterm string * result A) : nbact A := fun st =>
  let '(g', r) := f (nb_graph (e_sh st)) in (r, mkE (nb_set_graph (e_sh st) g') (e_vars st) (e_cur st)).

(** updateCache: NodeBreakerVoltageLevelTopology.cpp:288-314. *)
Definition nb_update (vw : view) : nbact unit :=
  do! v := aget in
  match nv_cache vw v with
  | Some _ => aret tt
  | None =>
    do! s := ashared in
    do! c := gact (compute_cache vw (nb_id s) (nv_sw v)) in
    aput (nv_set_cache vw (Some c) v)
  end.
Definition nb_cache (vw : view) : nbact bcache :=
  nb_update vw ;;!
  do! v := aget in
  alift (match nv_cache vw v with Some c => Ok c | None => UB end).

(** getBus(node): NodeBreakerVoltageLevelTopology.cpp:134-138 and NodeBreakerVoltageLevelBusCache.cpp:24-26 ([at] throws). *)
Definition nb_bus_of_node (vw : view) (n : nat) : nbact (option cbus) :=
  do! c := nb_cache vw in
  alift (match bc_node c !! n with
         | None => Throw "out_of_range"
         | Some None => Ok None
         | Some (Some k) => match bc_id c !! k with Some b => Ok (Some b) | None => UB end
         end).
(** getBus(id, false): lines 140-149; BusCache.cpp:28-32. *)
Definition nb_bus_of_id (vw : view) (k : string) : nbact (option cbus) :=
  do! c := nb_cache vw in aret (bc_id c !! k).
(** getBuses: lines 151-155: the buses in increasing order of id; only the set is modelled. *)
Definition nb_buses (vw : view) : nbact (gmap string cbus) := do! c := nb_cache vw in aret (bc_id c).

(** CalculatedBusTopology::invalidateCache (lines 199-206) of both topologies of the working variant:
    NodeBreakerVoltageLevel.cpp:336-343. *)
Definition nv_invalidate (v : nbvar) : nbvar := mkNV (nv_sw v) None None.
Definition nb_invalidate : nbact unit := do! v := aget in aput (nv_invalidate v).
(** getVariantManager().forEachVariant(invalidateCache): VariantManager.cpp:131-140; the guard reads the working variant first. *)
Definition nb_invalidate_all : nbact unit :=
  aindex ;;! fun st => (Ok tt, mkE (e_sh st) (nv_invalidate <$> e_vars st) (e_cur st)).

(** clean: NodeBreakerVoltageLevel.cpp:86-88. *)
Definition nb_clean : nbact unit := gact g_remove_isolated.

(** addInternalConnection: NodeBreakerVoltageLevel.cpp:33-38. *)
Definition nb_add_internal (n1 n2 : nat) : nbact unit :=
  gact (fun g => g_add_vertex_if_not_present g n1) ;;!
  gact (fun g => g_add_vertex_if_not_present g n2) ;;!
  gact (fun g => g_add_edge g n1 n2 None) ;;!
  nb_invalidate.

(** NetworkIndex::checkAndAdd (NetworkIndex.hxx:33-52) for a switch without aliases; the Switch constructor (Switch.cpp:16-23)
    gives the same positions to every variant. *)
Definition nb_index_add (id : string) (k : swkind) (p : bool * bool) : nbact unit := fun st =>
  if bool_decide (id = "") then (Throw "Invalid id", st)
  else if bool_decide (id ∈ nb_ids (e_sh st)) then (Throw "Object already exists", st)
  else let s := e_sh st in
       (Ok tt, mkE (mkNB (nb_id s) (nb_graph s) (nb_sw s) (<[id := k]> (nb_kind s)) ({[id]} ∪ nb_ids s))
                   ((fun v => mkNV (<[id := p]> (nv_sw v)) (nv_bus v) (nv_bb v)) <$> e_vars st) (e_cur st)).
(** Network::remove of a switch: the object is destroyed. *)
Definition nb_index_remove (id : string) : nbact unit := fun st =>
  let s := e_sh st in
  (Ok tt, mkE (mkNB (nb_id s) (nb_graph s) (nb_sw s) (delete id (nb_kind s)) (nb_ids s ∖ {[id]}))
              ((fun v => mkNV (delete id (nv_sw v)) (nv_bus v) (nv_bb v)) <$> e_vars st) (e_cur st)).

(** node_breaker_view::SwitchAdder::add (SwitchAdder.cpp:25-36, all the attributes set, ensureIdUnicity off) and
    NodeBreakerVoltageLevel::addSwitch (NodeBreakerVoltageLevel.cpp:40-48). *)
Definition nb_add_switch (id : string) (k : swkind) (p : bool * bool) (n1 n2 : nat) : nbact unit :=
  nb_index_add id k p ;;!
  gact (fun g => g_add_vertex_if_not_present g n1) ;;!
  gact (fun g => g_add_vertex_if_not_present g n2) ;;!
  do! e := gact (fun g => g_add_edge g n1 n2 (Some id)) in
  fun st => let s := e_sh st in
    (Ok tt, mkE (mkNB (nb_id s) (nb_graph s) (match nb_sw s !! id with Some _ => nb_sw s | None => <[id := e]> (nb_sw s) end)
                      (nb_kind s) (nb_ids s)) (e_vars st) (e_cur st)).

(** removeSwitch: NodeBreakerVoltageLevel.cpp:372-383. *)
Definition nb_remove_switch (id : string) : nbact unit :=
  do! s := ashared in
  match nb_sw s !! id with
  | None => athrow "Switch not found"
  | Some e =>
    do! o := gact (fun g => g_remove_edge g e) in
    nb_clean ;;!
    (fun st => let s := e_sh st in
       (Ok tt, mkE (mkNB (nb_id s) (nb_graph s) (delete id (nb_sw s)) (nb_kind s) (nb_ids s)) (e_vars st) (e_cur st))) ;;!
    match o with
    | None => athrow "m_pointer is null"
    | Some k => nb_index_remove k
    end
  end.

(** removeInternalConnections: NodeBreakerVoltageLevel.cpp:356-370.  The range getEdges() (UndirectedGraph.hxx:258-265) is lazy: its
    bound is fixed, its filter reads [m_edges[e]] (unchecked) when the iterator reaches [e]. *)
Definition is_internal (n1 n2 : nat) (ed : edge string) : bool :=
  match e_obj ed with
  | None => ((e_v1 ed =? n1) && (e_v2 ed =? n2)) || ((e_v1 ed =? n2) && (e_v2 ed =? n1))
  | Some _ => false
  end.
Fixpoint remove_internal_loop (n1 n2 : nat) (l : list nat) (g : graph nterm string) : graph nterm string * result unit :=
  match l with
  | [] => (g, Ok tt)
  | e :: l' =>
    match g_edges g !! e with
    | None => (g, UB)
    | Some None => remove_internal_loop n1 n2 l' g
    | Some (Some ed) =>
      if is_internal n1 n2 ed then
        match g_remove_edge g e with
        | (g', Ok _) => remove_internal_loop n1 n2 l' g'
        | (g', Throw m) => (g', Throw m)
        | (g', UB) => (g', UB)
        | (g', OutOfFuel) => (g', OutOfFuel)
        end
      else remove_internal_loop n1 n2 l' g
    end
  end.
Definition nb_remove_internal (n1 n2 : nat) : nbact unit :=
  do! s := ashared in
  if existsb (fun x => match x with Some ed => is_internal n1 n2 ed | None => false end) (g_edges (nb_graph s)) then
    gact (fun g => remove_internal_loop n1 n2 (seq 0 (length (g_edges g))) g) ;;!
    nb_clean ;;!
    nb_invalidate
  else athrow "Internal connection not found".

(** attach: NodeBreakerVoltageLevel.cpp:55-76, for a NodeTerminal of node [n]. *)
Definition nb_attach (n : nat) (t : nterm) : nbact unit :=
  gact (fun g => g_add_vertex_if_not_present g n) ;;!
  do! o := gact (fun g => (g, g_vertex_object g n)) in
  match o with
  | Some _ => athrow "An equipment is already connected to the node"
  | None =>
    gact (fun g => g_set_vertex_object g n (Some t)) ;;!
    nb_invalidate_all
  end.

(** detach: NodeBreakerVoltageLevel.cpp:129-143, called for the terminal attached to node [n] (Connectable.cpp:95-104).  The two
    assertions are those of a release build: not evaluated. *)
Definition nb_detach (n : nat) : nbact unit :=
  do! s := ashared in
  match g_vertex_object (nb_graph s) n with
  | Ok (Some _) =>
    nb_invalidate_all ;;!
    gact (fun g => g_set_vertex_object g n None) ;;!
    nb_clean
  | _ => athrow "No terminal on this node"                  (* not a call the API can make *)
  end.

(** Switch::isOpen, setOpen, setRetained: Switch.cpp:71-77, 92-118. *)
Definition sw_get (id : string) : nbact (bool * bool) :=
  do! v := aget in alift (match nv_sw v !! id with Some p => Ok p | None => UB end).
Definition sw_put (id : string) (p : bool * bool) : nbact unit :=
  do! v := aget in aput (mkNV (<[id := p]> (nv_sw v)) (nv_bus v) (nv_bb v)).
Definition sw_set_open (id : string) (b : bool) : nbact unit :=
  do! p := sw_get id in
  if bool_decide (p.1 = b) then aret tt else sw_put id (b, p.2) ;;! nb_invalidate.
Definition sw_set_retained (id : string) (b : bool) : nbact unit :=
  do! p := sw_get id in
  if bool_decide (p.2 = b) then aret tt else sw_put id (p.1, b) ;;! nb_invalidate.

(** isConnected: NodeBreakerVoltageLevel.cpp:345-349, for the terminal of node [n]. *)
Definition nb_is_connected (n : nat) : nbact bool := do! b := nb_bus_of_node BusView n in aret (bool_decide (is_Some b)).

(** The predicates given to findAllPaths by connect and disconnect: NodeBreakerVoltageLevel.cpp:101-106. *)
Definition is_busbar (o : option nterm) : bool :=
  match o with Some t => bool_decide (nt_type t = BUSBAR_SECTION) | None => false end.
Definition is_open_disconnector (kinds : gmap string swkind) (sw : gmap string (bool * bool)) (o : option string) : bool :=
  match o with
  | Some s => match kinds !! s, sw !! s with Some DISCONNECTOR, Some (true, _) => true | _, _ => false end
  | None => false
  end.
(** findAllPaths with [srt] for [std::sort] (UndirectedGraph.hxx:113-126). *)
Definition nb_paths (srt : list (list nat) -> list (list nat)) (n : nat) : nbact (list (list nat)) :=
  do! s := ashared in
  do! v := aget in
  do! ps := gact (fun g => g_find_all_paths_raw is_busbar (is_open_disconnector (nb_kind s) (nv_sw v)) g n) in
  aret (srt ps).
(** What [std::sort] by size may return. *)
Definition sorts (srt : list (list nat) -> list (list nat)) : Prop := forall l, l ≡ₚ srt l /\ sorted_by_length (srt l).

(** A breaker?  (getEdgeObject(e), getKind.) *)
Definition edge_breaker (e : nat) : nbact (option string) :=
  do! o := gact (fun g => (g, g_edge_object g e)) in
  match o with
  | None => aret None
  | Some s =>
    do! sh := ashared in
    match nb_kind sh !! s with
    | None => alift UB
    | Some BREAKER => aret (Some s)
    | Some _ => aret None
    end
  end.

(** connect: NodeBreakerVoltageLevel.cpp:90-122. *)
Fixpoint close_path (p : list nat) (connected : bool) : nbact bool :=
  match p with
  | [] => aret connected
  | e :: p' =>
    do! o := edge_breaker e in
    match o with
    | None => close_path p' connected
    | Some s =>
      do! x := sw_get s in
      if x.1 then sw_set_open s false ;;! close_path p' true else close_path p' connected
    end
  end.
Definition nb_connect (srt : list (list nat) -> list (list nat)) (n : nat) : nbact bool :=
  do! c := nb_is_connected n in
  if (c : bool) then aret false
  else
    do! ps := nb_paths srt n in
    match ps with
    | [] => aret false
    | p :: _ => close_path p false
    end.

(** disconnect: NodeBreakerVoltageLevel.cpp:145-189. *)
Fixpoint open_path (p : list nat) : nbact bool :=
  match p with
  | [] => aret false
  | e :: p' =>
    do! o := edge_breaker e in
    match o with
    | None => open_path p'
    | Some s =>
      do! x := sw_get s in
      (if x.1 then aret tt else sw_set_open s true) ;;! aret true
    end
  end.
Fixpoint open_paths (ps : list (list nat)) : nbact bool :=
  match ps with
  | [] => aret true
  | p :: ps' => do! b := open_path p in if (b : bool) then open_paths ps' else aret false
  end.
Definition nb_disconnect (srt : list (list nat) -> list (list nat)) (n : nat) : nbact bool :=
  do! c := nb_is_connected n in
  if (c : bool) then
    do! ps := nb_paths srt n in
    match ps with
    | [] => aret false
    | _ => open_paths ps
    end
  else aret false.

(** ** Histories *)
Inductive nbop :=
| NAddSwitch (id : string) (k : swkind) (p : bool * bool) (n1 n2 : nat)
| NRemoveSwitch (id : string)
| NAddInternal (n1 n2 : nat)
| NRemoveInternal (n1 n2 : nat)
| NAttach (n : nat) (t : nterm)
| NDetach (n : nat)
| NSetOpen (id : string) (b : bool)
| NSetRetained (id : string) (b : bool)
| NQueryNode (vw : view) (n : nat)
| NQueryId (vw : view) (k : string)
| NConnect (srt : list (list nat) -> list (list nat)) (n : nat)
| NDisconnect (srt : list (list nat) -> list (list nat)) (n : nat).
Definition amap {S V A B} (f : A -> B) (m : act S V A) : act S V B := do! a := m in aret (f a).
(** A switch is reached by the user through the index: an unknown id gives no object to call. *)
Definition on_switch (id : string) (m : nbact unit) : nbact unit :=
  do! s := ashared in if bool_decide (is_Some (nb_kind s !! id)) then m else athrow "no such switch".
(** A terminal is reached by the user through its equipment. *)
Definition on_terminal {A} (n : nat) (m : nbact A) : nbact A :=
  do! s := ashared in
  match g_vertex_object (nb_graph s) n with Ok (Some _) => m | _ => athrow "no such terminal" end.
Definition nb_call (o : nbop) : nbact unit :=
  match o with
  | NAddSwitch id k p n1 n2 => nb_add_switch id k p n1 n2
  | NRemoveSwitch id => nb_remove_switch id
  | NAddInternal n1 n2 => nb_add_internal n1 n2
  | NRemoveInternal n1 n2 => nb_remove_internal n1 n2
  | NAttach n t => nb_attach n t
  | NDetach n => nb_detach n
  | NSetOpen id b => on_switch id (sw_set_open id b)
  | NSetRetained id b => on_switch id (sw_set_retained id b)
  | NQueryNode vw n => amap (fun _ => tt) (nb_bus_of_node vw n)
  | NQueryId vw k => amap (fun _ => tt) (nb_bus_of_id vw k)
  | NConnect srt n => amap (fun _ => tt) (on_terminal n (nb_connect srt n))
  | NDisconnect srt n => amap (fun _ => tt) (on_terminal n (nb_disconnect srt n))
  end.

(** Operations on one voltage level, interleaved with those of the variant manager (see [estep]).  Cloning a variant copies the
    positions of the switches (Switch.cpp:25-39) but gives empty caches to the copy: NodeBreakerVoltageLevelVariant.cpp:27-29. *)
Definition nb_step (st : nbst) (o : eop nbop) : result unit * nbst :=
  match o with
  | EClone src tgt ow =>
    match e_vars st !! src with
    | None => (Throw "Variant not found", st)
    | Some v =>
      if bool_decide (is_Some (e_vars st !! tgt)) && negb ow then (Throw "Target variant already exists", st)
      else (Ok tt, mkE (e_sh st) (<[tgt := nv_invalidate v]> (e_vars st)) (e_cur st))
    end
  | _ => estep nb_call st o
  end.

(** A new voltage level: VoltageLevelAdder, NodeBreakerVoltageLevel.cpp:23-31; [ids]: what the network contains already. *)
Definition nb_new (vl : string) (ids : gset string) (vars : gset string) (cur : option string) : nbst :=
  mkE (mkNB vl g_init ∅ ∅ ids) (set_to_map (fun i => (i, mkNV ∅ None None)) vars) cur.
Inductive nb_reach (safe : nbst -> eop nbop -> Prop) : nbst -> Prop :=
| nr_new vl ids vars cur : initial_variant ∈ vars -> (forall i, cur = Some i -> i ∈ vars) -> nb_reach safe (nb_new vl ids vars cur)
| nr_step st o : nb_reach safe st -> safe st o -> nb_reach safe (nb_step st o).2.
