(** The buses found by their id in the views of a network: the caches of the network, the caches of its voltage levels, the bus objects
    they refer to and their destruction (src/iidm/NetworkViews.cpp, BusCache.cpp, NetworkVariant.cpp, NodeBreakerVoltageLevel.cpp,
    BusBreakerVoltageLevel.cpp, NodeBreakerVoltageLevelTopology.cpp, BusBreakerVoltageLevelTopology.cpp, CalculatedBus.cpp, MergedBus.cpp,
    Switch.cpp, VariantArray.hxx).

    Simplifications, valid for the whole file:
    - the buses that a voltage level calculates from its topology are a parameter [calc] (modelled in NodeTopo.v, C30, and BusTopo.v, C33):
      from the topology of a level to the buses by id; a bus is its contents [C];
    - a BusCache object of a level (NodeBreakerVoltageLevelBusCache.hpp:26-50, BusBreakerVoltageLevelBusCache.hpp:27-50) is a number
      never used twice; it owns its buses: a reference to a bus is the number and the id, and dereferencing a bus of a destroyed
      object is [UB];
    - the configured buses of the bus-breaker voltage levels are their ids in the index of the network;
    - a bus-breaker level has no cache of its bus-breaker view: [level_cache BusBreakerView] on it is a call the API cannot make (the
      theorems allow it: more histories), and the network never makes it ([in_view]);
    - voltage levels are not removed; the order of the voltage levels is that of [map_to_list]. *)
From stdpp Require Export gmap.
From Verif Require Export Base Equip BusTopo.

#[global] Instance view_countable : Countable view.
Proof. refine (inj_countable' (fun v => match v with BusView => true | BusBreakerView => false end) (fun b => if b : bool then BusView else BusBreakerView) _). by intros []. Defined.

Section views.
  Context {T C : Type} (calc : view -> string -> T -> gmap string C).
  Notation ref := (nat * string)%type.

  (** Shared by the variants: the voltage levels with their kind ([true]: node-breaker), the ids of the configured buses, the BusCache
      objects with their buses, the next number. *)
  Record vsh := mkVS { vs_nb : gmap string bool; vs_conf : gset string; vs_heap : gmap nat (gmap string C); vs_next : nat }.
  (** Per variant: the topology of each level; m_cache of its bus view and of its bus-breaker view; m_busViewCache and
      m_busBreakerViewCache of the network (NetworkVariant.hpp). *)
  Record vvar := mkVV { vv_topo : gmap string T; vv_lev : gmap (string * view) nat; vv_bus : option (gmap string ref); vv_bb : option (gmap string ref) }.
  Notation vst := (est vsh vvar).
  Notation vact := (act vsh vvar).

  (** Dereferencing a reference to a bus. *)
  Definition deref (a : ref) : vact C := fun st =>
    (match vs_heap (e_sh st) !! a.1 with Some m => match m !! a.2 with Some c => Ok c | None => UB end | None => UB end, st).

  (** updateCache of a level: NodeBreakerVoltageLevelTopology.cpp:292-314, BusBreakerVoltageLevelTopology.cpp:101-144; the result is
      the BusCache object. *)
  Definition level_cache (vw : view) (vl : string) : vact nat :=
    do! v := aget in
    match vv_lev v !! (vl, vw) with
    | Some g => aret g
    | None =>
      match vv_topo v !! vl with
      | None => alift UB
      | Some t =>
        do! s := ashared in
        aset (mkVS (vs_nb s) (vs_conf s) (<[vs_next s := calc vw vl t]> (vs_heap s)) (S (vs_next s))) ;;!
        aput (mkVV (vv_topo v) (<[(vl, vw) := vs_next s]> (vv_lev v)) (vv_bus v) (vv_bb v)) ;;!
        aret (vs_next s)
      end
    end.
  (** getBus(id) of the view of a level: NodeBreakerVoltageLevelTopology.cpp:140-149, BusBreakerVoltageLevelTopology.cpp:37-46. *)
  Definition level_bus (vw : view) (vl id : string) : vact (option ref) :=
    do! g := level_cache vw vl in
    do! s := ashared in
    match vs_heap s !! g with
    | None => alift UB
    | Some m => aret (match m !! id with Some _ => Some (g, id) | None => None end)
    end.

  (** The levels a view of the network goes through to fill its cache: NetworkVariant.cpp:42-47 (filterNonBusBreaker). *)
  Definition in_view (vw : view) (nb : bool) : bool := match vw with BusView => true | BusBreakerView => nb end.
  (** BusCache::getCache: BusCache.cpp:26-35; emplace keeps the first. *)
  Fixpoint fill (vw : view) (l : list (string * bool)) (m : gmap string ref) : vact (gmap string ref) :=
    match l with
    | [] => aret m
    | (vl, nb) :: l' =>
      if in_view vw nb then
        do! g := level_cache vw vl in
        do! s := ashared in
        match vs_heap s !! g with
        | None => alift UB
        | Some b => fill vw l' (m ∪ map_imap (fun id _ => Some (g, id)) b)
        end
      else fill vw l' m
    end.
  Definition net_cached (vw : view) (v : vvar) : option (gmap string ref) := match vw with BusView => vv_bus v | BusBreakerView => vv_bb v end.
  Definition net_set (vw : view) (c : option (gmap string ref)) (v : vvar) : vvar :=
    match vw with BusView => mkVV (vv_topo v) (vv_lev v) c (vv_bb v) | BusBreakerView => mkVV (vv_topo v) (vv_lev v) (vv_bus v) c end.
  Definition net_cache (vw : view) : vact (gmap string ref) :=
    do! v := aget in
    match net_cached vw v with
    | Some m => aret m
    | None =>
      do! s := ashared in
      do! m := fill vw (map_to_list (vs_nb s)) ∅ in
      do! v := aget in
      aput (net_set vw (Some m) v) ;;!
      aret m
    end.
  (** What getBus answers: a configured bus of the index, a calculated bus. *)
  Inductive found := FConf (id : string) | FCalc (a : ref).
  (** getBus(id) of the views of the network: NetworkViews.cpp:30-44 and 96-102. *)
  Definition net_bus (vw : view) (id : string) : vact (option found) :=
    do! s := ashared in
    if bool_decide (vw = BusBreakerView /\ id ∈ vs_conf s) then aret (Some (FConf id))
    else do! m := net_cache vw in aret (FCalc <$> m !! id).
  (** getBus(id), then the bus is read. *)
  Definition net_read (vw : view) (id : string) : vact (option C) :=
    do! o := net_bus vw id in
    match o with
    | Some (FCalc a) => do! c := deref a in aret (Some c)
    | _ => aret None
    end.

  (** invalidateCache of a level: NodeBreakerVoltageLevel.cpp:336-343, BusBreakerVoltageLevel.cpp:283-289, NetworkViews.cpp:88-90 and
      136-138: both views of the network reset m_busViewCache.  The BusCache objects are destroyed with their buses, which invalidate()
      has marked just before (NodeBreakerVoltageLevelTopology.cpp:199-206, BusBreakerVoltageLevelTopology.cpp:60-68). *)
  Definition drop (o : option nat) (h : gmap nat (gmap string C)) : gmap nat (gmap string C) := match o with Some g => delete g h | None => h end.
  Definition invalidate (vl : string) : vact unit :=
    do! v := aget in
    do! s := ashared in
    aset (mkVS (vs_nb s) (vs_conf s) (drop (vv_lev v !! (vl, BusView)) (drop (vv_lev v !! (vl, BusBreakerView)) (vs_heap s))) (vs_next s)) ;;!
    aput (mkVV (vv_topo v) (delete (vl, BusView) (delete (vl, BusBreakerView) (vv_lev v))) None (vv_bb v)).

  Definition set_topo (vl : string) (t : T) (v : vvar) : vvar := mkVV (<[vl := t]> (vv_topo v)) (vv_lev v) (vv_bus v) (vv_bb v).
  Inductive vop :=
  | VAddLevel (vl : string) (nb : bool) (t : T)
  | VAddBus (id : string) | VRemoveBus (id : string)
  | VChange (vl : string) (t : T)
  | VAttach (vl : string) (f : string -> T)
  | VQuiet (vl : string) (f : string -> T)
  | VLevelBus (vw : view) (vl id : string)
  | VNetBus (vw : view) (id : string).
  Definition on_level (vl : string) (m : vact unit) : vact unit :=
    do! s := ashared in if bool_decide (is_Some (vs_nb s !! vl)) then m else athrow "Unable to find voltage level".
  Definition vcall (o : vop) : vact unit :=
    match o with
    | VAddLevel vl nb t => fun st =>                           (* a new level: the same topology in every variant, no cache *)
      let s := e_sh st in
      if bool_decide (is_Some (vs_nb s !! vl)) then (Throw "Object already exists", st)
      else (Ok tt, mkE (mkVS (<[vl := nb]> (vs_nb s)) (vs_conf s) (vs_heap s) (vs_next s)) (set_topo vl t <$> e_vars st) (e_cur st))
    | VAddBus id => fun st =>                                  (* a configured bus: BusBreakerVoltageLevel.cpp:34-42 *)
      let s := e_sh st in (Ok tt, mkE (mkVS (vs_nb s) ({[id]} ∪ vs_conf s) (vs_heap s) (vs_next s)) (e_vars st) (e_cur st))
    | VRemoveBus id => fun st =>                               (* BusBreakerVoltageLevel.cpp:323-346 *)
      let s := e_sh st in (Ok tt, mkE (mkVS (vs_nb s) (vs_conf s ∖ {[id]}) (vs_heap s) (vs_next s)) (e_vars st) (e_cur st))
    | VChange vl t =>                                          (* setOpen, setRetained, setFictitious (Switch.cpp:82-113), internal connections
                                                                  (NodeBreakerVoltageLevel.cpp:33-38, 356-370), connect, disconnect: the
                                                                  working variant *)
      on_level vl (do! v := aget in aput (set_topo vl t v) ;;! invalidate vl)
    | VAttach vl f =>                                          (* attach, detach (NodeBreakerVoltageLevel.cpp:55-77, 129-144,
                                                                  BusBreakerVoltageLevel.cpp:60-86, 108-120): every variant *)
      on_level vl ((fun st => (Ok tt, mkE (e_sh st) (map_imap (fun i v => Some (set_topo vl (f i) v)) (e_vars st)) (e_cur st))) ;;! aforeach (invalidate vl))
    | VQuiet vl f =>                                           (* addSwitch, removeSwitch (NodeBreakerVoltageLevel.cpp:40-48, 372-383,
                                                                  BusBreakerVoltageLevel.cpp:44-53, 348-357): no invalidation *)
      on_level vl (fun st => (Ok tt, mkE (e_sh st) (map_imap (fun i v => Some (set_topo vl (f i) v)) (e_vars st)) (e_cur st)))
    | VLevelBus vw vl id => on_level vl (amap (fun _ => tt) (level_bus vw vl id))
    | VNetBus vw id => amap (fun _ => tt) (net_bus vw id)
    end.
  (** The objects of a variant, destroyed when it is removed or overwritten (VariantArray.hxx:42-57); a cloned variant starts without
      cache (NetworkVariant.cpp:62-64, NodeBreakerVoltageLevelVariant.cpp, BusBreakerVoltageLevelVariant.cpp). *)
  Definition free (o : option vvar) (s : vsh) : vsh :=
    match o with
    | None => s
    | Some v => mkVS (vs_nb s) (vs_conf s) (filter (fun x : nat * gmap string C => x.1 ∉ map snd (map_to_list (vv_lev v))) (vs_heap s)) (vs_next s)
    end.
  Definition vstep (st : vst) (o : eop vop) : result unit * vst :=
    match o with
    | EClone src tgt ow =>
      match e_vars st !! src with
      | None => (Throw "Variant not found", st)
      | Some v =>
        if bool_decide (is_Some (e_vars st !! tgt)) && negb ow then (Throw "Target variant already exists", st)
        else (Ok tt, mkE (free (e_vars st !! tgt) (e_sh st)) (<[tgt := mkVV (vv_topo v) ∅ None None]> (e_vars st)) (e_cur st))
      end
    | ERemove id =>
      let r := estep vcall st o in
      match r.1 with Ok _ => (r.1, mkE (free (e_vars st !! id) (e_sh st)) (e_vars r.2) (e_cur r.2)) | _ => r end
    | _ => estep vcall st o
    end.
  (** A new network. *)
  Definition vnew : vst := enew (mkVS ∅ ∅ ∅ 0) (mkVV ∅ ∅ None None).
  Inductive vreach (safe : vst -> eop vop -> Prop) : vst -> Prop :=
  | vr_new : vreach safe vnew
  | vr_step st o : vreach safe st -> safe st o -> vreach safe (vstep st o).2.
End views.
Arguments vsh : clear implicits. Arguments vvar : clear implicits. Arguments vop : clear implicits.
Notation vst T C := (est (vsh C) (vvar T)).
