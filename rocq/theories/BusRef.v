(** References to buses by id: IdBasedBusRef.cpp, BusRef.cpp. *)
From stdpp Require Import gmap.
From Verif Require Import Base Graph Equip NodeTopo BusTopo Visit.

(** TopologyLevel: include/powsybl/iidm/TopologyLevel.hpp:19-23; Branch::Side: Branch.hpp:29-32. *)
Inductive tlevel := NODE_BREAKER | BUS_BREAKER | BUS_BRANCH.
Inductive bside := SideOne | SideTwo.
(** A terminal, where it is: its voltage level, and its node there when the level is node-breaker. *)
Record tref := mkTR { tr_vl : string; tr_term : nterm; tr_node : nat }.
(** An object of the network index, by its class (the dynamic_casts of resolveByLevel): a configured bus, an Injection and its
    terminal, a Branch and its two terminals, anything else (containers, switches, three windings transformers, HVDC lines). *)
Inductive entity := EBus (vl : string) | EInjection (t : tref) | EBranch (t1 t2 : tref) | EOther.
Inductive vlevel := VB (st : bbst) | VN (st : nbst).
(** The network: its index (objects by id, ids by alias) and its voltage levels. *)
Record bnet := mkBN { bn_objs : gmap string entity; bn_alias : gmap string string; bn_levels : gmap string vlevel }.
(** A bus reference given back: a configured bus, a merged bus, a calculated bus of a view. *)
Inductive bref := RBus (vl b : string) | RMerged (vl k : string) | RCalc (vl : string) (vw : view) (b : cbus).

Definition nres (A : Type) : Type := result A * bnet.
Definition set_level (net : bnet) (vl : string) (l : vlevel) : bnet := mkBN (bn_objs net) (bn_alias net) (<[vl := l]> (bn_levels net)).
Definition on_bb {A} (net : bnet) (vl : string) (st : bbst) (m : bbact A) : nres A := let '(r, st') := m st in (r, set_level net vl (VB st')).
Definition on_nb {A} (net : bnet) (vl : string) (st : nbst) (m : nbact A) : nres A := let '(r, st') := m st in (r, set_level net vl (VN st')).

(** Terminal::getBusView().getBus(): BusTerminalViews.cpp:62-84 ([bb_terminal_bus]), NodeTerminalViews.cpp:55-65. *)
Definition term_bus_view (net : bnet) (t : tref) : nres (option bref) :=
  match bn_levels net !! tr_vl t with
  | None => (UB, net)
  | Some (VB st) => on_bb net (tr_vl t) st (amap (fmap (RMerged (tr_vl t))) (bb_terminal_bus (tr_term t)))
  | Some (VN st) => on_nb net (tr_vl t) st (amap (fmap (RCalc (tr_vl t) BusView)) (nb_bus_of_node BusView (tr_node t)))
  end.
(** Terminal::getBusBreakerView().getBus(): BusTerminalViews.cpp:25-43, NodeTerminalViews.cpp:23-33. *)
Definition bb_terminal_configured (t : nterm) : bbact (option string) :=
  do! x := bt_get t in if x.1 then bb_configured x.2 ;;! aret (Some x.2) else aret None.
Definition term_bus_breaker_view (net : bnet) (t : tref) : nres (option bref) :=
  match bn_levels net !! tr_vl t with
  | None => (UB, net)
  | Some (VB st) => on_bb net (tr_vl t) st (amap (fmap (RBus (tr_vl t))) (bb_terminal_configured (tr_term t)))
  | Some (VN st) => on_nb net (tr_vl t) st (amap (fmap (RCalc (tr_vl t) BusBreakerView)) (nb_bus_of_node BusBreakerView (tr_node t)))
  end.
(** BusRef::chooseBusByLevel: BusRef.cpp:19-24. *)
Definition choose_bus (net : bnet) (t : tref) (lvl : tlevel) : nres (option bref) :=
  match lvl with BUS_BRANCH => term_bus_view net t | _ => term_bus_breaker_view net t end.

(** The bus view bus of a configured bus: IdBasedBusRef.cpp:37-42, that is std::find_if on ConfiguredBus::getConnectedTerminals
    (ConfiguredBus.cpp:101-111), then getBus again on the terminal found.  The filter is lazy; here the connected terminals are
    collected first: asking for a bus does not change them. *)
Fixpoint first_bus (ts : list nterm) : bbact (option string) :=
  match ts with
  | [] => aret None
  | t :: ts' => do! o := bb_terminal_bus t in match o with Some _ => bb_terminal_bus t | None => first_bus ts' end
  end.
Definition bus_to_view (b : string) : bbact (option string) :=
  do! u := bb_configured b in
  do! l := bus_terms u in
  do! v := aget in
  do! lc := alift (filter_connected v l) in
  first_bus lc.

(** NetworkIndex::find: NetworkIndex.cpp:85-92. *)
Definition bn_find (net : bnet) (id : string) : result (option (string * entity)) :=
  let rid := default id (bn_alias net !! id) in
  if bool_decide (rid = "") then Throw "Invalid id ''" else Ok ((fun e => (rid, e)) <$> bn_objs net !! rid).

(** IdBasedBusRef::resolveByLevel: IdBasedBusRef.cpp:28-67. *)
Definition resolve_by_level (net : bnet) (id : string) (side : option bside) (lvl : tlevel) : nres (option bref) :=
  match bn_find net id with
  | Throw m => (Throw m, net) | UB => (UB, net) | OutOfFuel => (OutOfFuel, net)
  | Ok None => (Ok None, net)
  | Ok (Some (rid, e)) =>
    match side with
    | None =>
      match e with
      | EBus vl =>
        match lvl with
        | BUS_BRANCH =>
          match bn_levels net !! vl with
          | Some (VB st) => on_bb net vl st (amap (fmap (RMerged vl)) (bus_to_view rid))
          | _ => (UB, net)
          end
        | _ => (Ok (Some (RBus vl rid)), net)
        end
      | EInjection t => choose_bus net t lvl
      | _ => (Throw "is not a bus or injection.", net)
      end
    | Some s =>
      match e with
      | EBranch t1 t2 => choose_bus net (match s with SideOne => t1 | SideTwo => t2 end) lvl
      | _ => (Throw "is not a branch.", net)
      end
    end
  end.
(** BusRef::resolve: BusRef.cpp:26-31. *)
Definition resolve (net : bnet) (id : string) (side : option bside) (lvl : tlevel) : nres (option bref) :=
  match lvl with
  | NODE_BREAKER => (Throw "is not supported in resolve a BusRef", net)
  | _ => resolve_by_level net id side lvl
  end.
