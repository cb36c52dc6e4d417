(** Bus-breaker voltage levels: configured buses, switches, terminals, merged buses of the bus view and their cache
    (src/iidm/BusBreakerVoltageLevel.cpp, BusBreakerVoltageLevelTopology.cpp, BusBreakerVoltageLevelBusCache.cpp, ConfiguredBus.cpp,
    MergedBus.cpp, BusTerminal.cpp, BusTerminalViews.cpp).

    Simplifications, valid for the whole file:
    - a ConfiguredBus object is a number never used twice (its address); the live ones are listed in [bb_live] with their id, and
      dereferencing another one is [UB];
    - a reference to a Switch is its id, a BusTerminal is its equipment id, side and type (as in NodeTopo.v);
    - the caches of the network and of the components managers, invalidated in the same places, are not in this file;
    - of a MergedBus only the id and m_buses are kept, of a ConfiguredBus the id and m_terminals. *)
From stdpp Require Export gmap pretty.
From Verif Require Export Base Graph Equip NodeTopo.

#[global] Instance ctype_countable : Countable ctype.
Proof.
  refine (inj_countable (fun t => match t with BUSBAR_SECTION => 0 | LINE => 1 | TWO_WINDINGS_TRANSFORMER => 2
    | THREE_WINDINGS_TRANSFORMER => 3 | GENERATOR => 4 | BATTERY => 5 | LOAD => 6 | SHUNT_COMPENSATOR => 7 | DANGLING_LINE => 8
    | STATIC_VAR_COMPENSATOR => 9 | HVDC_CONVERTER_STATION => 10 end)
    (fun n => match n with 0 => Some BUSBAR_SECTION | 1 => Some LINE | 2 => Some TWO_WINDINGS_TRANSFORMER
    | 3 => Some THREE_WINDINGS_TRANSFORMER | 4 => Some GENERATOR | 5 => Some BATTERY | 6 => Some LOAD | 7 => Some SHUNT_COMPENSATOR
    | 8 => Some DANGLING_LINE | 9 => Some STATIC_VAR_COMPENSATOR | 10 => Some HVDC_CONVERTER_STATION | _ => None end) _).
  by intros [].
Defined.
#[global] Instance nterm_countable : Countable nterm.
Proof.
  refine (inj_countable' (fun t => (nt_id t, nt_side t, nt_type t)) (fun x => mkNT x.1.1 x.1.2 x.2) _). by intros [].
Defined.

(** BusCache: BusBreakerVoltageLevelBusCache.hpp:26-52.  m_mapping by ConfiguredBus address holds references into m_mergedBus:
    keys here; a MergedBus is its m_buses. *)
Record mcache := mkMC { mc_map : gmap nat string; mc_id : gmap string (list nat) }.

(** Attributes shared by the variants: id, m_graph, m_buses, m_switches (BusBreakerVoltageLevel.hpp), the live ConfiguredBus objects,
    the next object number, the ids known to the network index. *)
Record bbsh := mkBB { bb_id : string; bb_graph : graph nat string; bb_buses : gmap string nat; bb_sw : gmap string nat;
                      bb_live : gmap nat string; bb_next : nat; bb_ids : gset string }.
(** Per variant: m_open of the live switches, m_terminals of the live buses, m_connected and m_connectableBusId of the live
    terminals, m_cache of the calculated bus topology. *)
Record bbvar := mkBV { bv_open : gmap string bool; bv_terms : gmap nat (list nterm); bv_conn : gmap nterm (bool * string);
                       bv_cache : option mcache }.
Notation bbst := (est bbsh bbvar).
Notation bbact := (act bbsh bbvar).

(** ** Merged buses *)
(** isBusValid: BusBreakerVoltageLevelTopology.cpp:70-99, over the connected terminals (ConfiguredBus.cpp:101-113) of the buses. *)
Definition branch_count1 (v : bbvar) (t : nterm) : result nat :=
  match bv_conn v !! t with
  | None => UB
  | Some (false, _) => Ok 0
  | Some (true, _) =>
    match nt_type t with
    | LINE | TWO_WINDINGS_TRANSFORMER | THREE_WINDINGS_TRANSFORMER | HVDC_CONVERTER_STATION | DANGLING_LINE => Ok 1
    | LOAD | GENERATOR | BATTERY | SHUNT_COMPENSATOR | STATIC_VAR_COMPENSATOR => Ok 0
    | BUSBAR_SECTION => Throw "Unexpected ConnectableType value"
    end
  end.
Fixpoint branch_count (v : bbvar) (ts : list nterm) : result nat :=
  match ts with
  | [] => Ok 0
  | t :: ts' => let! n := branch_count1 v t in let! m := branch_count v ts' in Ok (n + m)
  end.
Fixpoint branch_counts (v : bbvar) (us : list nat) : result nat :=
  match us with
  | [] => Ok 0
  | u :: us' =>
    match bv_terms v !! u with
    | None => UB
    | Some ts => let! n := branch_count v ts in let! m := branch_counts v us' in Ok (n + m)
    end
  end.
Definition merged_valid (v : bbvar) (us : list nat) : result bool := result_map (fun n => 1 <=? n) (branch_counts v us).

Section compute.
  Context (vl : string) (v : bbvar).
  (** The visitor of updateCache, lines 121-129: [Ok (Some u)] continues and adds bus [u], [Ok None] terminates. *)
  Definition mv_edge (g : graph nat string) (e v2 : nat) : result (option nat) :=
    match g_edge_object g e with
    | Ok None => Throw "m_pointer is null"
    | Ok (Some s) =>
      match bv_open v !! s with
      | None => UB
      | Some true => Ok None
      | Some false =>
        match g_vertex_object g v2 with
        | Ok (Some u) => Ok (Some u)
        | Ok None => Throw "m_pointer is null"
        | Throw m => Throw m
        | UB => UB
        | OutOfFuel => OutOfFuel
        end
      end
    | Throw m => Throw m
    | UB => UB
    | OutOfFuel => OutOfFuel
    end.
  Definition mv_go (g : graph nat string) (_ e v2 : nat) : bool := match mv_edge g e v2 with Ok (Some _) => true | _ => false end.
  Definition mv_upd (g : graph nat string) (s : result (list nat)) (_ e v2 : nat) : result (list nat) :=
    let! l := s in let! o := mv_edge g e v2 in Ok (match o with Some u => l ++ [u] | None => l end).
  Definition mv_visit (g : graph nat string) (s : result (list nat)) (v1 e v2 : nat) : result (list nat) * bool :=
    (mv_upd g s v1 e v2, mv_go g v1 e v2).

  (** Lines 131-140: createMergedBus (lines 30-35) and the two insertions, which keep existing entries. *)
  Definition merged_id (n : nat) : string := vl +:+ "_" +:+ pretty (N.of_nat n).
  Definition add_merged (n : nat) (us : list nat) (c : mcache) : mcache :=
    let k := merged_id n in
    mkMC (foldl (fun m u => match m !! u with Some _ => m | None => <[u := k]> m end) (mc_map c) us)
         (match mc_id c !! k with Some _ => mc_id c | None => <[k := us]> (mc_id c) end).

  (** The loop of updateCache, lines 114-142; [n] is busCount. *)
  Fixpoint mb_loop (l : list nat) (g : graph nat string) (enc : list bool) (n : nat) (c : mcache) : graph nat string * result mcache :=
    match l with
    | [] => (g, Ok c)
    | x :: l' =>
      match enc !! x with
      | None => (g, UB)                                               (* encountered[v] *)
      | Some true => mb_loop l' g enc n c
      | Some false =>
        match g_vertex_object g x with
        | Ok (Some u) =>
          let '(g', r) := g_traverse_enc (mv_visit g) g x enc (Ok [u]) in
          match (let! p := r in let! us := p.2 in let! b := merged_valid v us in Ok (p.1, us, b)) with
          | Ok (enc', us, true) => mb_loop l' g' enc' (S n) (add_merged n us c)
          | Ok (enc', us, false) => mb_loop l' g' enc' n c
          | Throw m => (g', Throw m)
          | UB => (g', UB)
          | OutOfFuel => (g', OutOfFuel)
          end
        | Ok None => (g, Throw "m_pointer is null")
        | Throw m => (g, Throw m)
        | UB => (g, UB)
        | OutOfFuel => (g, OutOfFuel)
        end
      end
    end.
  (** updateCache without its early return, lines 106-143: [encountered] has getVertexCount() entries, not the capacity. *)
  Definition compute_merged (g : graph nat string) : graph nat string * result mcache :=
    mb_loop (g_get_vertices g) g (replicate (g_vertex_count g) false) 0 (mkMC ∅ ∅).
End compute.

(** ** Member functions *)
Definition bb_set_graph (s : bbsh) (g : graph nat string) : bbsh :=
  mkBB (bb_id s) g (bb_buses s) (bb_sw s) (bb_live s) (bb_next s) (bb_ids s).
Definition bgact {A} (f : graph nat string -> graph nat string * result A) : bbact A := fun st =>
  let '(g', r) := f (bb_graph (e_sh st)) in (r, mkE (bb_set_graph (e_sh st) g') (e_vars st) (e_cur st)).
Definition bv_set_cache (c : option mcache) (v : bbvar) : bbvar := mkBV (bv_open v) (bv_terms v) (bv_conn v) c.

(** updateCache: BusBreakerVoltageLevelTopology.cpp:101-144. *)
Definition bb_update : bbact unit :=
  do! v := aget in
  match bv_cache v with
  | Some _ => aret tt
  | None =>
    do! s := ashared in
    do! c := bgact (compute_merged (bb_id s) v) in
    aput (bv_set_cache (Some c) v)
  end.
Definition bb_cache : bbact mcache :=
  bb_update ;;!
  do! v := aget in
  alift (match bv_cache v with Some c => Ok c | None => UB end).

(** getVertex and getConfiguredBus with throwException: BusBreakerVoltageLevel.cpp:269-281 and 161-173. *)
Definition bb_vertex (id : string) : bbact nat :=
  do! s := ashared in
  if bool_decide (id = "") then athrow "bus id is null"
  else match bb_buses s !! id with None => athrow "Bus not found in the voltage level" | Some v => aret v end.
Definition bb_configured (id : string) : bbact nat :=
  do! v := bb_vertex id in
  do! s := ashared in
  do! o := alift (g_vertex_object (bb_graph s) v) in
  match o with
  | None => athrow "m_pointer is null"
  | Some u =>
    match bb_live s !! u with
    | None => alift UB
    | Some id' => if bool_decide (id' = id) then aret u else athrow "Invalid bus id"
    end
  end.

(** BusViewImpl::getMergedBus(configuredBusId): BusBreakerVoltageLevelViews.cpp:158-168; its getBus (lines 32-38) asks the network
    index first, which knows the live buses of this voltage level under the same ids.  [None]: no merged bus. *)
Definition bb_merged (id : string) : bbact (option string) :=
  do! u := bb_configured id in
  do! c := bb_cache in
  aret (mc_map c !! u).
(** getMergedBus(id, false) and the addresses in its m_buses: BusBreakerVoltageLevelTopology.cpp:37-46. *)
Definition bb_by_id (k : string) : bbact (option (list nat)) := do! c := bb_cache in aret (mc_id c !! k).
(** getMergedBuses: lines 54-58; only the set of ids is modelled. *)
Definition bb_merged_ids : bbact (gset string) := do! c := bb_cache in aret (dom (mc_id c)).
(** MergedBus::getConnectedTerminals (MergedBus.cpp:73-81), enumerated: dereferences the buses and the terminals. *)
Fixpoint filter_connected (v : bbvar) (ts : list nterm) : result (list nterm) :=
  match ts with
  | [] => Ok []
  | t :: ts' =>
    match bv_conn v !! t with
    | None => UB
    | Some (c, _) => let! l := filter_connected v ts' in Ok (if (c : bool) then t :: l else l)
    end
  end.
Fixpoint connected_terms (v : bbvar) (us : list nat) : result (list nterm) :=
  match us with
  | [] => Ok []
  | u :: us' =>
    match bv_terms v !! u with
    | None => UB
    | Some ts => let! l := filter_connected v ts in let! l' := connected_terms v us' in Ok (l ++ l')
    end
  end.
Definition bb_terminals (k : string) : bbact (list nterm) :=
  do! o := bb_by_id k in
  match o with
  | None => athrow "Bus not found"
  | Some us => do! v := aget in alift (connected_terms v us)
  end.
(** bus_terminal::BusViewImpl::getBus: BusTerminalViews.cpp:66-84. *)
Definition bt_get (t : nterm) : bbact (bool * string) :=
  do! v := aget in alift (match bv_conn v !! t with Some x => Ok x | None => UB end).
Definition bb_terminal_bus (t : nterm) : bbact (option string) :=
  do! x := bt_get t in if x.1 then bb_merged x.2 else aret None.

(** CalculatedBusTopology::invalidateCache (lines 60-68) of the working variant: BusBreakerVoltageLevel.cpp:283-289. *)
Definition bb_invalidate : bbact unit := do! v := aget in aput (bv_set_cache None v).

(** VariantManager::forEachVariant: VariantManager.cpp:131-140.  The guard reads the working variant, then restores it even after an
    exception.  The variants are visited in the order of [map_to_list] (std::map: by id); no outcome proved here depends on it. *)
Fixpoint foreach_loop {S V} (m : act S V unit) (l : list string) : act S V unit := fun st =>
  match l with
  | [] => (Ok tt, st)
  | i :: l' =>
    match m (mkE (e_sh st) (e_vars st) (Some i)) with
    | (Ok _, st') => foreach_loop m l' st'
    | (r, st') => (r, st')
    end
  end.
Definition aforeach {S V} (m : act S V unit) : act S V unit :=
  do! i := aindex in
  fun st => let '(r, st') := foreach_loop m (map fst (map_to_list (e_vars st))) st in (r, mkE (e_sh st') (e_vars st') (Some i)).

(** NetworkIndex::checkAndAdd (NetworkIndex.hxx:33-52). *)
Definition bb_check_id (id : string) : bbact unit :=
  do! s := ashared in
  if bool_decide (id = "") then athrow "Invalid id"
  else if bool_decide (id ∈ bb_ids s) then athrow "Object already exists" else aret tt.

(** BusAdder::add (BusAdder.cpp:21-26) and addBus: BusBreakerVoltageLevel.cpp:34-42; ConfiguredBus.cpp:31-41. *)
Definition bb_add_bus (id : string) : bbact unit :=
  bb_check_id id ;;!
  (fun st => let s := e_sh st in
     (Ok tt, mkE (mkBB (bb_id s) (bb_graph s) (bb_buses s) (bb_sw s) (<[bb_next s := id]> (bb_live s)) (S (bb_next s)) ({[id]} ∪ bb_ids s))
                 ((fun v => mkBV (bv_open v) (<[bb_next s := []]> (bv_terms v)) (bv_conn v) (bv_cache v)) <$> e_vars st) (e_cur st))) ;;!
  do! s := ashared in
  do! x := bgact g_add_vertex in
  bgact (fun g => g_set_vertex_object g x (Some (bb_next s - 1))) ;;!
  fun st => let s := e_sh st in
    (Ok tt, mkE (mkBB (bb_id s) (bb_graph s) (match bb_buses s !! id with Some _ => bb_buses s | None => <[id := x]> (bb_buses s) end)
                      (bb_sw s) (bb_live s) (bb_next s) (bb_ids s)) (e_vars st) (e_cur st)).
(** Network::remove of a bus: the object is destroyed. *)
Definition bb_destroy_bus (u : nat) : bbact unit := fun st =>
  let s := e_sh st in
  (Ok tt, mkE (mkBB (bb_id s) (bb_graph s) (bb_buses s) (bb_sw s) (delete u (bb_live s)) (bb_next s)
                    (match bb_live s !! u with Some id => bb_ids s ∖ {[id]} | None => bb_ids s end))
              ((fun v => mkBV (bv_open v) (delete u (bv_terms v)) (bv_conn v) (bv_cache v)) <$> e_vars st) (e_cur st)).

(** bus_breaker_view::SwitchAdder::add (SwitchAdder.cpp:67-77) and addSwitch: BusBreakerVoltageLevel.cpp:44-53. *)
Definition bb_add_switch (id : string) (open : bool) (b1 b2 : string) : bbact unit :=
  do! v1 := bb_vertex b1 in
  do! v2 := bb_vertex b2 in
  bb_check_id id ;;!
  (fun st => let s := e_sh st in
     (Ok tt, mkE (mkBB (bb_id s) (bb_graph s) (bb_buses s) (bb_sw s) (bb_live s) (bb_next s) ({[id]} ∪ bb_ids s))
                 ((fun v => mkBV (<[id := open]> (bv_open v)) (bv_terms v) (bv_conn v) (bv_cache v)) <$> e_vars st) (e_cur st))) ;;!
  do! e := bgact (fun g => g_add_edge g v1 v2 (Some id)) in
  fun st => let s := e_sh st in
    (Ok tt, mkE (mkBB (bb_id s) (bb_graph s) (bb_buses s) (match bb_sw s !! id with Some _ => bb_sw s | None => <[id := e]> (bb_sw s) end)
                      (bb_live s) (bb_next s) (bb_ids s)) (e_vars st) (e_cur st)).
(** Network::remove of a switch. *)
Definition bb_destroy_switch (id : string) : bbact unit := fun st =>
  let s := e_sh st in
  (Ok tt, mkE (mkBB (bb_id s) (bb_graph s) (bb_buses s) (bb_sw s) (bb_live s) (bb_next s) (bb_ids s ∖ {[id]}))
              ((fun v => mkBV (delete id (bv_open v)) (bv_terms v) (bv_conn v) (bv_cache v)) <$> e_vars st) (e_cur st)).
(** removeSwitch: BusBreakerVoltageLevel.cpp:348-357. *)
Definition bb_remove_switch (id : string) : bbact unit :=
  do! s := ashared in
  match bb_sw s !! id with
  | None => athrow "Switch not found in voltage level"
  | Some e =>
    do! o := bgact (fun g => g_remove_edge g e) in
    (fun st => let s := e_sh st in
       (Ok tt, mkE (mkBB (bb_id s) (bb_graph s) (bb_buses s) (delete id (bb_sw s)) (bb_live s) (bb_next s) (bb_ids s)) (e_vars st) (e_cur st))) ;;!
    match o with
    | None => athrow "m_pointer is null"
    | Some k => bb_destroy_switch k
    end
  end.

(** removeBus: BusBreakerVoltageLevel.cpp:323-346.  [bus_touches]: the bus is at an end of edge [e]. *)
Definition bus_touches (g : graph nat string) (u : nat) (e : nat) : result bool :=
  let! v1 := g_vertex1 g e in
  let! v2 := g_vertex2 g e in
  let! o1 := g_vertex_object g v1 in
  let! o2 := g_vertex_object g v2 in
  Ok (bool_decide (o1 = Some u) || bool_decide (o2 = Some u)).
Fixpoint check_switches (g : graph nat string) (u : nat) (l : list (string * nat)) : result unit :=
  match l with
  | [] => Ok tt
  | x :: l' => let! b := bus_touches g u x.2 in if (b : bool) then Throw "Cannot remove bus due to the connected switch" else check_switches g u l'
  end.
Definition bus_term_count (u : nat) : bbact nat :=
  do! v := aget in alift (match bv_terms v !! u with Some l => Ok (length l) | None => UB end).
Definition bb_remove_bus (id : string) : bbact unit :=
  do! u := bb_configured id in
  do! n := bus_term_count u in
  if 0 <? n then athrow "Cannot remove bus due to connectable equipments"
  else
    do! s := ashared in
    alift (check_switches (bb_graph s) u (map_to_list (bb_sw s))) ;;!
    match bb_buses s !! id with
    | None => alift UB
    | Some x =>
      bgact (fun g => g_remove_vertex g x) ;;!
      (fun st => let s := e_sh st in
         (Ok tt, mkE (mkBB (bb_id s) (bb_graph s) (delete id (bb_buses s)) (bb_sw s) (bb_live s) (bb_next s) (bb_ids s)) (e_vars st) (e_cur st))) ;;!
      bb_destroy_bus u
    end.

(** removeAllBuses: BusBreakerVoltageLevel.cpp:296-312.  The objects of the live vertices, in order. *)
Definition vertex_objects (g : graph nat string) : list (option nat) := omap id (g_vertices g).
Fixpoint check_buses (l : list (option nat)) : bbact unit :=
  match l with
  | [] => aret tt
  | None :: _ => athrow "m_pointer is null"
  | Some u :: l' =>
    do! n := bus_term_count u in
    if 0 <? n then athrow "Cannot remove bus due to connected equipments" else check_buses l'
  end.
Fixpoint destroy_buses (l : list (option nat)) : bbact unit :=
  match l with
  | [] => aret tt
  | None :: _ => athrow "m_pointer is null"
  | Some u :: l' => bb_destroy_bus u ;;! destroy_buses l'
  end.
Definition bb_remove_all_buses : bbact unit :=
  do! s := ashared in
  if 0 <? g_edge_count (bb_graph s) then athrow "Cannot remove all buses because there is still some switches"
  else
    check_buses (vertex_objects (bb_graph s)) ;;!
    destroy_buses (vertex_objects (bb_graph s)) ;;!
    bgact g_remove_all_vertices ;;!
    fun st => let s := e_sh st in
      (Ok tt, mkE (mkBB (bb_id s) (bb_graph s) ∅ (bb_sw s) (bb_live s) (bb_next s) (bb_ids s)) (e_vars st) (e_cur st)).
(** removeAllSwitches: BusBreakerVoltageLevel.cpp:314-321. *)
Definition edge_objects (g : graph nat string) : list (option string) := omap (fmap e_obj) (g_edges g).
Fixpoint destroy_switches (l : list (option string)) : bbact unit :=
  match l with
  | [] => aret tt
  | None :: _ => athrow "m_pointer is null"
  | Some k :: l' => bb_destroy_switch k ;;! destroy_switches l'
  end.
Definition bb_remove_all_switches : bbact unit :=
  do! s := ashared in
  destroy_switches (edge_objects (bb_graph s)) ;;!
  bgact (fun g => (g_remove_all_edges g, Ok tt)) ;;!
  fun st => let s := e_sh st in
    (Ok tt, mkE (mkBB (bb_id s) (bb_graph s) (bb_buses s) ∅ (bb_live s) (bb_next s) (bb_ids s)) (e_vars st) (e_cur st)).

(** ConfiguredBus::addTerminal, removeTerminal: ConfiguredBus.cpp:43-45 and 179-190. *)
Definition bus_add_terminal (u : nat) (t : nterm) : bbact unit :=
  do! v := aget in
  match bv_terms v !! u with
  | None => alift UB
  | Some l => aput (mkBV (bv_open v) (<[u := l ++ [t]]> (bv_terms v)) (bv_conn v) (bv_cache v))
  end.
Fixpoint remove_first (t : nterm) (l : list nterm) : option (list nterm) :=
  match l with
  | [] => None
  | x :: l' => if bool_decide (x = t) then Some l' else cons x <$> remove_first t l'
  end.
Definition bus_remove_terminal (u : nat) (t : nterm) : bbact unit :=
  do! v := aget in
  match bv_terms v !! u with
  | None => alift UB
  | Some l =>
    match remove_first t l with
    | None => athrow "Terminal not found"
    | Some l' => aput (mkBV (bv_open v) (<[u := l']> (bv_terms v)) (bv_conn v) (bv_cache v))
    end
  end.
(** BusTerminal::setConnectableBusId, setConnected: BusTerminal.cpp:110-120. *)
Definition bt_put (t : nterm) (x : bool * string) : bbact unit :=
  do! v := aget in aput (mkBV (bv_open v) (bv_terms v) (<[t := x]> (bv_conn v)) (bv_cache v)).
Definition bt_set_bus (t : nterm) (id : string) : bbact unit := do! x := bt_get t in bt_put t (x.1, id).
Definition bt_set_connected (t : nterm) (b : bool) : bbact unit := do! x := bt_get t in bt_put t (b, x.2).

(** attach(terminal, false): BusBreakerVoltageLevel.cpp:60-86. *)
Definition bb_attach (t : nterm) : bbact unit :=
  do! x := bt_get t in
  (if bool_decide (x.2 = "") then aret 0 else bb_configured x.2) ;;!
  do! u := bb_configured x.2 in
  aforeach (bus_add_terminal u t ;;! bb_invalidate).
(** detach: BusBreakerVoltageLevel.cpp:108-120. *)
Definition bb_detach (t : nterm) : bbact unit :=
  do! x := bt_get t in
  do! u := bb_configured x.2 in
  aforeach (bus_remove_terminal u t ;;! bt_set_bus t "" ;;! bb_invalidate).
(** setConnectableBus: BusTerminalViews.cpp:45-56. *)
Definition bb_set_connectable (t : nterm) (id : string) : bbact unit :=
  (if bool_decide (id = "") then athrow "busId is empty" else aret tt) ;;!
  bb_configured id ;;!
  bb_detach t ;;!
  bt_set_bus t id ;;!
  bb_attach t.
(** connect, disconnect: BusBreakerVoltageLevel.cpp:88-100 and 122-134. *)
Definition bb_connect (t : nterm) : bbact bool :=
  do! x := bt_get t in if x.1 then aret false else bt_set_connected t true ;;! bb_invalidate ;;! aret true.
Definition bb_disconnect (t : nterm) : bbact bool :=
  do! x := bt_get t in if x.1 then bt_set_connected t false ;;! bb_invalidate ;;! aret true else aret false.

(** Switch::setOpen: Switch.cpp:92-101. *)
Definition bb_set_open (id : string) (b : bool) : bbact unit :=
  do! v := aget in
  match bv_open v !! id with
  | None => alift UB
  | Some o =>
    if bool_decide (o = b) then aret tt
    else aput (mkBV (<[id := b]> (bv_open v)) (bv_terms v) (bv_conn v) (bv_cache v)) ;;! bb_invalidate
  end.

(** An injection adder (LoadAdder.cpp:24-37 from line 29, GeneratorAdder.cpp:36-43): the terminal exists once the equipment is in
    the index, whether attach succeeds or not.  A terminal cannot exist twice (checkAndAdd of its equipment). *)
Definition bb_new_terminal (t : nterm) (bus : string) (connected : bool) : bbact unit :=
  (fun st => if bool_decide (map_Exists (fun _ v => is_Some (bv_conn v !! t)) (e_vars st)) then (Throw "Object already exists", st)
             else if bool_decide (nt_type t = BUSBAR_SECTION) then (Throw "no such adder", st)
             else if bool_decide (bus = "") then (Throw "connectable bus is not set", st)
             else (Ok tt, mkE (e_sh st) ((fun v => mkBV (bv_open v) (bv_terms v) (<[t := (connected, bus)]> (bv_conn v)) (bv_cache v)) <$> e_vars st)
                              (e_cur st))) ;;!
  bb_attach t.
(** Connectable::remove (Connectable.cpp:95-104) of an equipment with one terminal. *)
Definition bb_remove_equipment (t : nterm) : bbact unit :=
  bb_detach t ;;!
  fun st => (Ok tt, mkE (e_sh st) ((fun v => mkBV (bv_open v) (bv_terms v) (delete t (bv_conn v)) (bv_cache v)) <$> e_vars st) (e_cur st)).

(** ** Histories *)
Inductive bbop :=
| BAddBus (id : string) | BRemoveBus (id : string) | BRemoveAllBuses
| BAddSwitch (id : string) (open : bool) (b1 b2 : string) | BRemoveSwitch (id : string) | BRemoveAllSwitches
| BNewTerminal (t : nterm) (bus : string) (connected : bool) | BRemoveEquipment (t : nterm)
| BSetConnectable (t : nterm) (id : string) | BConnect (t : nterm) | BDisconnect (t : nterm)
| BSetOpen (id : string) (b : bool)
| BMerged (id : string) | BById (k : string) | BTerminals (k : string) | BTerminalBus (t : nterm).
(** Switches and terminals are reached by the user through the index and their equipment. *)
Definition on_bb_switch (id : string) (m : bbact unit) : bbact unit :=
  do! s := ashared in if bool_decide (is_Some (bb_sw s !! id)) then m else athrow "no such switch".
Definition on_bb_terminal (t : nterm) (m : bbact unit) : bbact unit := fun st =>
  if bool_decide (map_Exists (fun _ v => is_Some (bv_conn v !! t)) (e_vars st)) then m st else (Throw "no such terminal", st).
Definition bb_call (o : bbop) : bbact unit :=
  match o with
  | BAddBus id => bb_add_bus id
  | BRemoveBus id => bb_remove_bus id
  | BRemoveAllBuses => bb_remove_all_buses
  | BAddSwitch id open b1 b2 => bb_add_switch id open b1 b2
  | BRemoveSwitch id => bb_remove_switch id
  | BRemoveAllSwitches => bb_remove_all_switches
  | BNewTerminal t bus c => bb_new_terminal t bus c
  | BRemoveEquipment t => on_bb_terminal t (bb_remove_equipment t)
  | BSetConnectable t id => on_bb_terminal t (bb_set_connectable t id)
  | BConnect t => on_bb_terminal t (amap (fun _ => tt) (bb_connect t))
  | BDisconnect t => on_bb_terminal t (amap (fun _ => tt) (bb_disconnect t))
  | BSetOpen id b => on_bb_switch id (bb_set_open id b)
  | BMerged id => amap (fun _ => tt) (bb_merged id)
  | BById k => amap (fun _ => tt) (bb_by_id k)
  | BTerminals k => amap (fun _ => tt) (bb_terminals k)
  | BTerminalBus t => on_bb_terminal t (amap (fun _ => tt) (bb_terminal_bus t))
  end.
(** As [nb_step]: a cloned variant starts without cache (BusBreakerVoltageLevelVariant.cpp:22-24). *)
Definition bb_step (st : bbst) (o : eop bbop) : result unit * bbst :=
  match o with
  | EClone src tgt ow =>
    match e_vars st !! src with
    | None => (Throw "Variant not found", st)
    | Some v =>
      if bool_decide (is_Some (e_vars st !! tgt)) && negb ow then (Throw "Target variant already exists", st)
      else (Ok tt, mkE (e_sh st) (<[tgt := bv_set_cache None v]> (e_vars st)) (e_cur st))
    end
  | _ => estep bb_call st o
  end.
Definition bb_new (vl : string) (ids : gset string) (vars : gset string) (cur : option string) : bbst :=
  mkE (mkBB vl g_init ∅ ∅ ∅ 0 ids) (set_to_map (fun i => (i, mkBV ∅ ∅ ∅ None)) vars) cur.
Inductive bb_reach (safe : bbst -> eop bbop -> Prop) : bbst -> Prop :=
| br_new vl ids vars cur : initial_variant ∈ vars -> (forall i, cur = Some i -> i ∈ vars) -> bb_reach safe (bb_new vl ids vars cur)
| br_step st o : bb_reach safe st -> safe st o -> bb_reach safe (bb_step st o).2.
