(** The components managers of a network of bus-breaker and node-breaker voltage levels: when the components are computed, kept and invalidated
    (src/iidm/AbstractComponentsManager.cpp, ConnectedComponentsManager.cpp, SynchronousComponentsManager.cpp, ConfiguredBus.cpp, MergedBus.cpp,
    CalculatedBus.cpp, BusBreakerVoltageLevel.cpp, NodeBreakerVoltageLevel.cpp, NetworkVariant.cpp, HvdcLineAdder.cpp, HvdcLine.cpp).

    Simplifications, valid for the whole file:
    - a place is a configured bus of a bus-breaker voltage level or a node of a node-breaker one; both have an id that is unique in the network;
    - the traversals that merge the places are in BusTopo.v and NodeTopo.v, here a bus of the bus view is the list of its places, and the buses are
      given by [rep], which computes the same classes (C33, C34);
    - a node is declared before its use and may be forgotten when nothing uses it (addVertexIfNotPresent and clean do it on the fly); a node
      without terminal and without edge is in no bus either way;
    - connect and disconnect of a terminal of a node-breaker voltage level only call setOpen on switches (NodeBreakerVoltageLevel.cpp:98-127,
      146-170): they are sequences of [CSetOpen];
    - a bus of the bus view is designated by its number in the bus view (the map id2num of update());
    - an equipment is its kind and the places (connectable buses, nodes) of its terminals (the same in every variant); terminal [i] of equipment [e] is [(e, i)];
    - the stations of an HVDC line are found by their id (Hvdc.v has the references). *)
From stdpp Require Export gmap.
From Verif Require Export Base Equip Components.

Inductive ekind := KBranch | KStation | KDangling | KInjection | KBusbar.
#[global] Instance ekind_eq_dec : EqDecision ekind.
Proof. solve_decision. Defined.
Notation cterm := (string * nat)%type.

(** Shared by the variants: voltage levels and their places, the node-breaker voltage levels, the places that are nodes, the internal connections,
    switches with their two places, equipments, HVDC lines with the ids of their stations, the stations whose m_hvdcLine is set. *)
Record csh := mkCS { cs_vls : list (string * list string); cs_nb : gset string; cs_node : gset string; cs_ic : list (string * string);
                     cs_sw : gmap string (string * string); cs_eq : gmap string (ekind * list string);
                     cs_hv : gmap string (string * string); cs_at : gset string }.
(** Per variant: m_open of the switches, m_connected of the terminals (true for those of nodes, where it is not a member), the cached buses of the bus
    view of each voltage level, m_components (the sizes) of the connected and synchronous managers, m_connectedComponentNumber and
    m_synchronousComponentNumber of the configured buses and of the terminals of the nodes (NodeTerminal.hpp; at most one terminal per node). *)
Record cvar := mkCV { cv_open : gmap string bool; cv_conn : gmap cterm bool; cv_view : gmap string (list (list string));
                      cv_cc : list nat; cv_ccn : gmap string nat; cv_sc : list nat; cv_scn : gmap string nat }.
Notation cst := (est csh cvar).

(** ** Merged buses *)
(** The pairs of places of [bs] joined by a closed switch or an internal connection. *)
Definition closed_pairs (s : csh) (v : cvar) (bs : list string) : list (string * string) :=
  omap (fun x : string * (string * string) =>
          if bool_decide (cv_open v !! x.1 = Some false /\ x.2.1 ∈ bs /\ x.2.2 ∈ bs) then Some x.2 else None) (map_to_list (cs_sw s)) ++
  filter (fun x : string * string => x.1 ∈ bs /\ x.2 ∈ bs) (cs_ic s).
(** Representative of the class of a bus: each closed switch merges two classes. *)
Fixpoint rep (l : list (string * string)) (x : string) : string :=
  match l with
  | [] => x
  | (a, b) :: l' => if bool_decide (rep l' x = rep l' a) then rep l' b else rep l' x
  end.
Definition eqv (s : csh) (v : cvar) (bs : list string) (a b : string) : bool := bool_decide (rep (closed_pairs s v bs) a = rep (closed_pairs s v bs) b).
(** The connected terminals of the places of [c]. *)
Definition class_terms (s : csh) (v : cvar) (c : list string) : list (cterm * ekind) :=
  flat_map (fun x : string * (ekind * list string) =>
    omap (fun y : nat * string => if bool_decide (y.2 ∈ c /\ cv_conn v !! (x.1, y.1) = Some true) then Some ((x.1, y.1), x.2.1) else None)
         (imap pair x.2.2)) (map_to_list (cs_eq s)).
(** ConnectableType LINE, TWO_WINDINGS_TRANSFORMER, THREE_WINDINGS_TRANSFORMER, HVDC_CONVERTER_STATION and DANGLING_LINE. *)
Definition branchy (k : ekind) : Prop := k = KBranch \/ k = KStation \/ k = KDangling.
#[global] Instance branchy_dec k : Decision (branchy k).
Proof. unfold branchy. apply _. Defined.
Definition ncount (P : ekind -> Prop) `{forall k, Decision (P k)} (l : list (cterm * ekind)) : nat := length (filter (fun x => P x.2) l).
(** isBusValid: BusBreakerVoltageLevelTopology.cpp:70-99 and NodeBreakerVoltageLevelTopology.cpp:208-249. *)
Definition node_class (s : csh) (c : list string) : bool := existsb (fun b => bool_decide (b ∈ cs_node s)) c.
Definition valid_class (s : csh) (v : cvar) (c : list string) : bool :=
  let l := class_terms s v c in
  if node_class s c
  then ((1 <=? ncount (fun k => k = KBusbar) l) && (1 <=? ncount (fun k => k <> KBusbar) l)) || ((1 <=? ncount branchy l) && (2 <=? ncount (fun k => k <> KBusbar) l))
  else 1 <=? ncount branchy l.
(** Each class once. *)
Fixpoint classes (e : string -> string -> bool) (bs l : list string) : list (list string) :=
  match l with
  | [] => []
  | b :: l' => if existsb (e b) l' then classes e bs l' else filter (fun b' => e b b' = true) bs :: classes e bs l'
  end.
Definition vl_view (s : csh) (v : cvar) (bs : list string) : list (list string) :=
  filter (fun c => valid_class s v c = true) (classes (eqv s v bs) bs bs).
(** BusView::getBuses (NetworkViews.cpp:113-119): the merged buses of every voltage level, computed when not cached. *)
Definition set_view (v : cvar) (w : gmap string (list (list string))) : cvar := mkCV (cv_open v) (cv_conn v) w (cv_cc v) (cv_ccn v) (cv_sc v) (cv_scn v).
Fixpoint force (s : csh) (v : cvar) (l : list (string * list string)) : cvar * list (list string) :=
  match l with
  | [] => (v, [])
  | (vl, bs) :: l' =>
    match cv_view v !! vl with
    | Some x => let r := force s v l' in (r.1, x ++ r.2)
    | None => let x := vl_view s v bs in let r := force s (set_view v (<[vl := x]> (cv_view v))) l' in (r.1, x ++ r.2)
    end
  end.

(** ** The managers; [hv]: connected components (true) or synchronous ones (false) *)
Definition comps (hv : bool) (v : cvar) : list nat := if hv then cv_cc v else cv_sc v.
Definition nums (hv : bool) (v : cvar) : gmap string nat := if hv then cv_ccn v else cv_scn v.
Definition set_mgr (hv : bool) (c : list nat) (n : gmap string nat) (v : cvar) : cvar :=
  if hv then mkCV (cv_open v) (cv_conn v) (cv_view v) c n (cv_sc v) (cv_scn v) else mkCV (cv_open v) (cv_conn v) (cv_view v) (cv_cc v) (cv_ccn v) c n.
(** Terminal::getBusView().getBus() (BusTerminalViews.cpp:66-84): the number of the merged bus of a terminal whose connectable bus is [b]. *)
Definition term_bus (v : cvar) (views : list (list string)) (t : cterm) (b : string) : option nat :=
  match cv_conn v !! t with
  | Some true => fst <$> list_find (fun c => b ∈ c) views
  | _ => None
  end.
(** fillAdjacencyList: AbstractComponentsManager.cpp:47-68 and ConnectedComponentsManager.cpp:34-41. *)
Fixpoint pairs {A} (l : list A) : list (A * A) := match l with [] => [] | x :: l' => map (pair x) l' ++ pairs l' end.
Definition eq_links (v : cvar) (views : list (list string)) (x : string * (ekind * list string)) : list (option nat * option nat) :=
  match x.2.1 with KBranch => pairs (imap (fun i b => term_bus v views (x.1, i) b) x.2.2) | _ => [] end.
Definition station_bus (s : csh) (v : cvar) (views : list (list string)) (st : string) : result (option nat) :=
  match cs_eq s !! st with Some (_, b :: _) => Ok (term_bus v views (st, 0) b) | _ => UB end.
Fixpoint hv_links (s : csh) (v : cvar) (views : list (list string)) (l : list (string * (string * string))) : result (list (option nat * option nat)) :=
  match l with
  | [] => Ok []
  | x :: l' => let! b1 := station_bus s v views x.2.1 in let! b2 := station_bus s v views x.2.2 in let! r := hv_links s v views l' in Ok ((b1, b2) :: r)
  end.
Definition all_links (hv : bool) (s : csh) (v : cvar) (views : list (list string)) : result (list (option nat * option nat)) :=
  let! h := (if hv then hv_links s v views (map_to_list (cs_hv s)) else Ok []) in Ok (flat_map (eq_links v views) (map_to_list (cs_eq s)) ++ h).
(** The places that hold a number: the configured buses, the nodes with a terminal. *)
Definition slot (s : csh) (b : string) : bool :=
  bool_decide (b ∉ cs_node s \/ Exists (fun x : string * (ekind * list string) => b ∈ x.2.2) (map_to_list (cs_eq s))).
(** setComponentNumber on the buses of the bus view: MergedBus.cpp:162-174, ConfiguredBus.cpp:196-204, CalculatedBus.cpp:141-153; the reset first, of
    every bus of the bus-breaker view (AbstractComponentsManager.cpp:108-110).  A terminal whose node has no edge is in none of them: the code leaves
    its number, which no bus reads; here it is reset. *)
Definition number_buses (sl : string -> bool) (views : list (list string)) (num : list (option nat)) : gmap string nat :=
  foldl (fun m (x : list string * option nat) => foldl (fun m b => match x.2 with Some k => if sl b then <[b := k]> m else m | None => m end) m x.1) ∅ (zip views num).

Section managers.
  (** The order std::sort leaves the components in (GraphUtil.cpp:61-63), a function of its input. *)
  Context (order : nat * list nat * list (option nat) -> list nat).

  (** The computation of update(), AbstractComponentsManager.cpp:112-139. *)
  Definition compute (hv : bool) (s : csh) (v : cvar) (views : list (list string)) : result (list (option nat) * list nat) :=
    let! links := all_links hv s v views in
    let! r := cc_number (acm_fill (length views) links) in
    cc_finish (order r) r.
  (** update: AbstractComponentsManager.cpp:99-144. *)
  Definition update (hv : bool) (s : csh) (v : cvar) : result unit * cvar :=
    match comps hv v with
    | _ :: _ => (Ok tt, v)
    | [] =>
      let f := force s v (cs_vls s) in
      match compute hv s f.1 f.2 with
      | Ok (num, sz) => (Ok tt, set_mgr hv sz (number_buses (slot s) f.2 num) f.1)
      | Throw m => (Throw m, f.1)
      | UB => (UB, f.1)
      | OutOfFuel => (OutOfFuel, f.1)
      end
    end.
  (** getComponent(num): AbstractComponentsManager.cpp:70-75. *)
  Definition get_component (hv : bool) (v : cvar) (n : option nat) : result (option nat) :=
    match n with None => Ok None | Some k => if k <? length (comps hv v) then Ok (Some k) else UB end.
  (** ConfiguredBus::getConnectedComponent, getSynchronousComponent: ConfiguredBus.cpp:78-82, 125-129; for a node with a terminal, those of a calculated
      bus whose m_terminalRef is this terminal: CalculatedBus.cpp:66-71, 99-104. *)
  Definition bus_component (hv : bool) (s : csh) (b : string) (v : cvar) : result (option nat) * cvar :=
    match update hv s v with
    | (Ok _, v') => (get_component hv v' (nums hv v' !! b), v')
    | (Throw m, v') => (Throw m, v')
    | (UB, v') => (UB, v')
    | (OutOfFuel, v') => (OutOfFuel, v')
    end.
  (** MergedBus::getConnectedComponent, getSynchronousComponent: MergedBus.cpp:51-60, 97-106. *)
  Fixpoint merged_component (hv : bool) (s : csh) (c : list string) (v : cvar) : result (option nat) * cvar :=
    match c with
    | [] => (Throw "Should not happen", v)
    | b :: c' =>
      match bus_component hv s b v with
      | (Ok (Some k), v') => (Ok (Some k), v')
      | (Ok None, v') => merged_component hv s c' v'
      | r => r
      end
    end.
  (** CalculatedBus::getConnectedComponent, getSynchronousComponent of a bus of the bus view: CalculatedBus.cpp:66-71, 99-104; m_terminalRef is the first
      terminal of the bus (CalculatedBus.cpp:37-40). *)
  Definition calculated_component (hv : bool) (s : csh) (c : list string) (v : cvar) : result (option nat) * cvar :=
    match list_find (fun b => slot s b = true) c with
    | Some (_, b) => bus_component hv s b v
    | None => match update hv s v with
              | (Ok _, v') => (Ok None, v')
              | (Throw m, v') => (Throw m, v')
              | (UB, v') => (UB, v')
              | (OutOfFuel, v') => (OutOfFuel, v')
              end
    end.
  Definition view_component (hv : bool) (s : csh) (c : list string) (v : cvar) : result (option nat) * cvar :=
    if node_class s c then calculated_component hv s c v else merged_component hv s c v.
  (** terminal.getBusView().getBus(), then its component if there is a bus. *)
  Definition terminal_component (hv : bool) (s : csh) (t : cterm) (b : string) (v : cvar) : result (option nat) * cvar :=
    let f := force s v (cs_vls s) in
    match term_bus f.1 f.2 t b with
    | None => (Ok None, f.1)
    | Some i => match f.2 !! i with Some c => view_component hv s c f.1 | None => (UB, f.1) end
    end.
  (** Component::getBuses (Component.cpp:25-39) of component [k]: the buses of the bus view whose component it is; enumerated. *)
  Fixpoint buses_of (hv : bool) (s : csh) (k : nat) (l : list (list string)) (v : cvar) : result (list (list string)) * cvar :=
    match l with
    | [] => (Ok [], v)
    | c :: l' =>
      match view_component hv s c v with
      | (Ok o, v') => let r := buses_of hv s k l' v' in (let! x := r.1 in Ok (if bool_decide (o = Some k) then c :: x else x), r.2)
      | (Throw m, v') => (Throw m, v')
      | (UB, v') => (UB, v')
      | (OutOfFuel, v') => (OutOfFuel, v')
      end
    end.
  Definition component_buses (hv : bool) (s : csh) (k : nat) (v : cvar) : result (list (list string)) * cvar :=
    let f := force s v (cs_vls s) in buses_of hv s k f.2 f.1.

  (** ** Operations *)
  (** The voltage level of a place. *)
  Definition vl_of (s : csh) (b : string) : option string := fst <$> (snd <$> list_find (fun p : string * list string => b ∈ p.2) (cs_vls s)).
  (** invalidateCache of voltage level [vl]: BusBreakerVoltageLevel.cpp:283-289, NodeBreakerVoltageLevel.cpp:336-343. *)
  Definition inval (vl : option string) (v : cvar) : cvar :=
    mkCV (cv_open v) (cv_conn v) (match vl with Some x => delete x (cv_view v) | None => cv_view v end) [] (cv_ccn v) [] (cv_scn v).
  Inductive cop :=
  | CAddVl (id : string) (nb : bool) | CAddBus (vl id : string) | CRemoveBus (id : string)
  | CAddSwitch (id : string) (open : bool) (b1 b2 : string) | CRemoveSwitch (id : string) | CSetOpen (id : string) (open : bool) | CTouch (id : string)
  | CAddInternal (b1 b2 : string) | CRemoveInternal (b1 b2 : string)
  | CAddEq (id : string) (k : ekind) (terms : list (string * bool)) | CRemoveEq (id : string) | CConnect (t : cterm) (c : bool)
  | CAddHvdc (id s1 s2 : string) | CRemoveHvdc (id : string)
  | CQBus (hv : bool) (b : string) | CQTerm (hv : bool) (t : cterm) | CQBuses (hv : bool) (k : nat).
  Definition set_shared (s : csh) (st : cst) : cst := mkE s (e_vars st) (e_cur st).
  Definition bus_known (s : csh) (b : string) : Prop := Exists (fun p : string * list string => b ∈ p.2) (cs_vls s).
  #[local] Instance bus_known_dec s b : Decision (bus_known s b).
  Proof. unfold bus_known. apply _. Defined.
  Definition add_bus_to (vl id : string) (l : list (string * list string)) : list (string * list string) :=
    map (fun p => if bool_decide (p.1 = vl) then (p.1, id :: p.2) else p) l.
  Definition bus_used (s : csh) (b : string) : Prop :=
    Exists (fun x : string * (ekind * list string) => b ∈ x.2.2) (map_to_list (cs_eq s)) \/
    Exists (fun x : string * (string * string) => x.2.1 = b \/ x.2.2 = b) (map_to_list (cs_sw s)) \/
    Exists (fun x : string * string => x.1 = b \/ x.2 = b) (cs_ic s).
  #[local] Instance bus_used_dec s b : Decision (bus_used s b).
  Proof. unfold bus_used. apply _. Defined.
  (** A function of the working variant. *)
  Definition on_var {A} (f : cvar -> result A * cvar) (st : cst) : result A * cst :=
    match e_cur st with
    | None => (Throw "Variant index not set", st)
    | Some i => match e_vars st !! i with None => (UB, st) | Some v => let r := f v in (r.1, mkE (e_sh st) (<[i := r.2]> (e_vars st)) (e_cur st)) end
    end.
  Definition quiet_res {A} (r : result A * cst) : result unit * cst := (result_map (fun _ => tt) r.1, r.2).
  (** attach and detach (BusBreakerVoltageLevel.cpp:60-75, 108-120, NodeBreakerVoltageLevel.cpp:56-77, 129-144) invalidate in every variant; [vls]: the voltage levels of the terminals. *)
  Definition inval_all (vls : list (option string)) (v : cvar) : cvar := foldr inval v vls.
  Definition new_numbers (s : csh) (ts : list (string * bool)) (m : gmap string nat) : gmap string nat :=
    foldr (fun (x : string * bool) m => if bool_decide (x.1 ∈ cs_node s) then <[x.1 := 0]> m else m) m ts.
  Definition cop_call (o : cop) (st : cst) : result unit * cst :=
    let s := e_sh st in
    match o with
    | CAddVl id nb =>
      if bool_decide (id ∈ map fst (cs_vls s)) then (Throw "Object already exists", st)
      else (Ok tt, set_shared (mkCS (cs_vls s ++ [(id, [])]) (if nb then {[id]} ∪ cs_nb s else cs_nb s ∖ {[id]}) (cs_node s) (cs_ic s) (cs_sw s) (cs_eq s) (cs_hv s) (cs_at s)) st)
    | CAddBus vl id =>                                              (* BusBreakerVoltageLevel.cpp:34-42; UndirectedGraph.hxx addVertexIfNotPresent *)
      if bool_decide (vl ∈ map fst (cs_vls s) /\ ~ bus_known s id)
      then (Ok tt, mkE (mkCS (add_bus_to vl id (cs_vls s)) (cs_nb s) (if bool_decide (vl ∈ cs_nb s) then {[id]} ∪ cs_node s else cs_node s ∖ {[id]}) (cs_ic s) (cs_sw s) (cs_eq s) (cs_hv s) (cs_at s))
                       ((fun v => mkCV (cv_open v) (cv_conn v) (cv_view v) (cv_cc v) (delete id (cv_ccn v)) (cv_sc v) (delete id (cv_scn v))) <$> e_vars st) (e_cur st))
      else (Throw "Object already exists", st)
    | CRemoveBus id =>                                              (* BusBreakerVoltageLevel.cpp:323-346; NodeBreakerVoltageLevel.cpp:88-90 *)
      if bool_decide (bus_known s id /\ ~ bus_used s id)
      then (Ok tt, set_shared (mkCS (map (fun p => (p.1, filter (fun b => b <> id) p.2)) (cs_vls s)) (cs_nb s) (cs_node s) (cs_ic s) (cs_sw s) (cs_eq s) (cs_hv s) (cs_at s)) st)
      else (Throw "Cannot remove bus", st)
    | CAddSwitch id open b1 b2 =>                                   (* BusBreakerVoltageLevel.cpp:44-53, NodeBreakerVoltageLevel.cpp:40-48: no invalidation *)
      if bool_decide (cs_sw s !! id = None /\ Exists (fun p : string * list string => b1 ∈ p.2 /\ b2 ∈ p.2) (cs_vls s))
      then (Ok tt, mkE (mkCS (cs_vls s) (cs_nb s) (cs_node s) (cs_ic s) (<[id := (b1, b2)]> (cs_sw s)) (cs_eq s) (cs_hv s) (cs_at s))
                       ((fun v => mkCV (<[id := open]> (cv_open v)) (cv_conn v) (cv_view v) (cv_cc v) (cv_ccn v) (cv_sc v) (cv_scn v)) <$> e_vars st) (e_cur st))
      else (Throw "Object already exists", st)
    | CRemoveSwitch id =>                                           (* BusBreakerVoltageLevel.cpp:348-357, NodeBreakerVoltageLevel.cpp:372-383: no invalidation *)
      if bool_decide (is_Some (cs_sw s !! id))
      then (Ok tt, set_shared (mkCS (cs_vls s) (cs_nb s) (cs_node s) (cs_ic s) (delete id (cs_sw s)) (cs_eq s) (cs_hv s) (cs_at s)) st)
      else (Throw "Switch not found", st)
    | CSetOpen id b =>                                              (* Switch.cpp:90-99 *)
      match cs_sw s !! id with
      | None => (Throw "Switch not found", st)
      | Some (b1, _) =>
        on_var (fun v => (Ok tt, if bool_decide (cv_open v !! id = Some b) then v
                                 else inval (vl_of s b1) (mkCV (<[id := b]> (cv_open v)) (cv_conn v) (cv_view v) (cv_cc v) (cv_ccn v) (cv_sc v) (cv_scn v)))) st
      end
    | CTouch id =>                                                  (* setFictitious, setRetained: Switch.cpp:82-88, 101-113 *)
      match cs_sw s !! id with
      | None => (Throw "Switch not found", st)
      | Some (b1, _) => on_var (fun v => (Ok tt, inval (vl_of s b1) v)) st
      end
    | CAddInternal b1 b2 =>                                         (* NodeBreakerVoltageLevel.cpp:33-38: only the working variant is invalidated *)
      if bool_decide (e_cur st <> None /\ b1 ∈ cs_node s /\ Exists (fun p : string * list string => b1 ∈ p.2 /\ b2 ∈ p.2) (cs_vls s))
      then on_var (fun v => (Ok tt, inval (vl_of s b1) v)) (set_shared (mkCS (cs_vls s) (cs_nb s) (cs_node s) ((b1, b2) :: cs_ic s) (cs_sw s) (cs_eq s) (cs_hv s) (cs_at s)) st)
      else (Throw "not added", st)
    | CRemoveInternal b1 b2 =>                                      (* NodeBreakerVoltageLevel.cpp:356-370: only the working variant is invalidated *)
      if bool_decide (e_cur st <> None /\ ((b1, b2) ∈ cs_ic s \/ (b2, b1) ∈ cs_ic s))
      then on_var (fun v => (Ok tt, inval (vl_of s b1) v))
                  (set_shared (mkCS (cs_vls s) (cs_nb s) (cs_node s) (filter (fun x => x <> (b1, b2) /\ x <> (b2, b1)) (cs_ic s)) (cs_sw s) (cs_eq s) (cs_hv s) (cs_at s)) st)
      else (Throw "Internal connection not found", st)
    | CAddEq id k ts =>                                             (* LineAdder.cpp, LoadAdder.cpp, ... then attach of each terminal; a busbar
                                                                       section is on a node, a node has one terminal; a new terminal of a node has
                                                                       component number 0 (NodeTerminal.cpp:26-27) *)
      if bool_decide (e_cur st <> None /\ cs_eq s !! id = None /\ Forall (fun x : string * bool => bus_known s x.1) ts /\
                      Forall (fun x : string * bool => x.1 ∈ cs_node s -> ~ Exists (fun y : string * (ekind * list string) => x.1 ∈ y.2.2) (map_to_list (cs_eq s))) ts /\
                      NoDup (filter (fun b => b ∈ cs_node s) (map fst ts)) /\ (k = KBusbar -> Forall (fun x : string * bool => x.1 ∈ cs_node s) ts) /\
                      (k = KBranch /\ (length ts = 2 \/ length ts = 3) \/ k <> KBranch /\ length ts = 1))
      then (Ok tt, mkE (mkCS (cs_vls s) (cs_nb s) (cs_node s) (cs_ic s) (cs_sw s) (<[id := (k, map fst ts)]> (cs_eq s)) (cs_hv s) (cs_at s ∖ {[id]}))
                       ((fun v => inval_all (map (fun x : string * bool => vl_of s x.1) ts)
                                    (mkCV (cv_open v) (list_to_map (imap (fun i (x : string * bool) => ((id, i), x.2 || bool_decide (x.1 ∈ cs_node s))) ts) ∪ cv_conn v)
                                          (cv_view v) (cv_cc v) (new_numbers s ts (cv_ccn v)) (cv_sc v) (new_numbers s ts (cv_scn v)))) <$> e_vars st) (e_cur st))
      else (Throw "not added", st)
    | CRemoveEq id =>                                               (* Connectable.cpp:95-104, HvdcConverterStation.cpp:34-39 *)
      match cs_eq s !! id with
      | None => (Throw "no such equipment", st)
      | Some (k, bs) =>
        if bool_decide (e_cur st = None \/ id ∈ cs_at s) then (Throw "Impossible to remove this converter station", st)
        else (Ok tt, mkE (mkCS (cs_vls s) (cs_nb s) (cs_node s) (cs_ic s) (cs_sw s) (delete id (cs_eq s)) (cs_hv s) (cs_at s)) (inval_all (map (vl_of s) bs) <$> e_vars st) (e_cur st))
      end
    | CConnect t c =>                                               (* BusBreakerVoltageLevel.cpp:88-100, 122-134 *)
      match cs_eq s !! t.1 ≫= (fun x => x.2 !! t.2) with
      | None => (Throw "no such terminal", st)
      | Some b =>
        if bool_decide (b ∈ cs_node s) then (Throw "see CSetOpen", st) else
        on_var (fun v => (Ok tt, if bool_decide (cv_conn v !! t = Some c) then v
                                 else inval (vl_of s b) (mkCV (cv_open v) (<[t := c]> (cv_conn v)) (cv_view v) (cv_cc v) (cv_ccn v) (cv_sc v) (cv_scn v)))) st
      end
    | CAddHvdc id s1 s2 =>                                          (* HvdcLineAdder.cpp:25-41, HvdcLine.cpp:39-42: no invalidation *)
      if bool_decide (cs_hv s !! id = None /\ (fst <$> cs_eq s !! s1) = Some KStation /\ (fst <$> cs_eq s !! s2) = Some KStation)
      then (Ok tt, set_shared (mkCS (cs_vls s) (cs_nb s) (cs_node s) (cs_ic s) (cs_sw s) (cs_eq s) (<[id := (s1, s2)]> (cs_hv s)) ({[s1; s2]} ∪ cs_at s)) st)
      else (Throw "converter station not found", st)
    | CRemoveHvdc id =>                                             (* HvdcLine.cpp:123-133: no invalidation *)
      match cs_hv s !! id with
      | None => (Throw "no such line", st)
      | Some (s1, s2) => (Ok tt, set_shared (mkCS (cs_vls s) (cs_nb s) (cs_node s) (cs_ic s) (cs_sw s) (cs_eq s) (delete id (cs_hv s)) (cs_at s ∖ {[s1; s2]})) st)
      end
    | CQBus hv b => quiet_res (on_var (bus_component hv s b) st)
    | CQTerm hv t =>
      match cs_eq s !! t.1 ≫= (fun x => x.2 !! t.2) with
      | None => (Throw "no such terminal", st)
      | Some b => quiet_res (on_var (terminal_component hv s t b) st)
      end
    | CQBuses hv k => quiet_res (on_var (component_buses hv s k) st)
    end.
  (** A cloned variant has no cache; the component numbers of the buses are copied (NetworkVariant.cpp:55-57, ConfiguredBus.cpp:46-72). *)
  Definition uncached (v : cvar) : cvar := mkCV (cv_open v) (cv_conn v) ∅ [] (cv_ccn v) [] (cv_scn v).
  Definition cstep (st : cst) (o : eop cop) : result unit * cst :=
    match o with
    | EClone src tgt ow =>
      match e_vars st !! src with
      | None => (Throw "Variant not found", st)
      | Some v =>
        if bool_decide (is_Some (e_vars st !! tgt)) && negb ow then (Throw "Target variant already exists", st)
        else (Ok tt, mkE (e_sh st) (<[tgt := uncached v]> (e_vars st)) (e_cur st))
      end
    | _ => estep cop_call st o
    end.
  Definition cnet_new : cst := enew (mkCS [] ∅ ∅ [] ∅ ∅ ∅ ∅) (mkCV ∅ ∅ ∅ [] ∅ [] ∅).
  Inductive creach (safe : cst -> eop cop -> Prop) : cst -> Prop :=
  | cr_new : creach safe cnet_new
  | cr_step st o : creach safe st -> safe st o -> creach safe (cstep st o).2.
End managers.
