(** Creation and removal of equipments with one, two or three terminals in networks with voltage levels of both kinds
    (src/iidm/LoadAdder.cpp and the other adders of injections, BusbarSectionAdder.cpp, LineAdder.cpp, TieLineAdder.cpp,
    TwoWindingsTransformerAdder.cpp, ThreeWindingsTransformerAdder.cpp, ThreeWindingsTransformerLegAdder.cpp, TerminalBuilder.cpp,
    Connectable.cpp, NodeBreakerVoltageLevel.cpp, BusBreakerVoltageLevel.cpp, ConfiguredBus.cpp).

    Simplifications, valid for the whole file:
    - the checks of the adders on electrical parameters, which come first and throw, are left out; ids are given without
      ensureIdUnicity (C26); aliases are left out (C13);
    - a graph is its vertices with their objects and its edges (C01, C05: the indices are those of Graph.v); switches and internal
      connections are edges, their ids and positions do not matter here, nor what adding one throws without working variant;
    - the operations below go through forEachVariant and have the same effect in every variant (C51 has setConnectableBus, which does
      not): one copy of the terminals is kept, and whether there is a working variant;
    - a release build: assertions are not evaluated;
    - the removal of voltage levels is left out (C35), and the check of converter stations (C34). *)
From stdpp Require Export gmap strings list.
From Verif Require Export Base.

(** Where a terminal is: on a node (NodeTerminal.hpp), on a connectable bus, connected or not (BusTerminal.hpp). *)
Inductive place := PNode (n : nat) | PBus (b : string) (connected : bool).
(** A terminal: its address, its voltage level, its place. *)
Record terminal := mkT { t_id : nat; t_vl : string; t_place : place }.
(** The nodes with the address of their terminal, the links between nodes; the buses with the addresses of their terminals, the links
    between buses. *)
Inductive level :=
| LNode (vs : gmap nat (option nat)) (es : list (nat * nat))
| LBus (bs : gmap string (list nat)) (es : list (string * string)).
(** The voltage levels with their substation, the equipments with their terminals (Connectable.hpp: m_terminals), the ids of the other
    objects of the index, the first free address, whether there is a working variant. *)
Record net := mkNet { n_levels : gmap string (string * level); n_eqs : gmap string (list terminal); n_ids : gset string; n_next : nat;
                      n_work : bool }.
Definition net0 : net := mkNet ∅ ∅ ∅ 0 true.

Definition with_level (nt : net) (vl sub : string) (l : level) : net :=
  mkNet (<[vl := (sub, l)]> (n_levels nt)) (n_eqs nt) (n_ids nt) (n_next nt) (n_work nt).
Definition with_eq (nt : net) (id : string) (ts : list terminal) (k : nat) : net :=
  mkNet (n_levels nt) (<[id := ts]> (n_eqs nt)) (n_ids nt) (k + n_next nt) (n_work nt).

(** ** Actions *)
Definition nact (A : Type) : Type := net -> result A * net.
Definition nret {A} (a : A) : nact A := fun nt => (Ok a, nt).
Definition nlift {A} (f : net -> result A) : nact A := fun nt => (f nt, nt).
Definition nthrow {A} (m : string) : nact A := fun nt => (Throw m, nt).
Definition nbind {A B} (m : nact A) (f : A -> nact B) : nact B := fun nt =>
  match m nt with
  | (Ok a, nt') => f a nt'
  | (Throw e, nt') => (Throw e, nt')
  | (UB, nt') => (UB, nt')
  | (OutOfFuel, nt') => (OutOfFuel, nt')
  end.
Notation "'don!' x := e 'in' e'" := (nbind e (fun x => e')) (at level 200, x name, e at level 100, e' at level 200).
Notation "e ;;n e'" := (nbind e (fun _ => e')) (at level 100, e' at level 200, right associativity).
Definition nlevel (vl : string) : nact (string * level) :=
  nlift (fun nt => match n_levels nt !! vl with Some x => Ok x | None => Throw "voltage level not found" end).
Definition nput (vl sub : string) (l : level) : nact unit := fun nt => (Ok tt, with_level nt vl sub l).
(** VariantManager::getVariantIndex, forEachVariant: MultiVariantObject, VariantManager.cpp: throw without working variant. *)
Definition nwork : nact unit := nlift (fun nt => if n_work nt then Ok tt else Throw "Variant index not set").

(** ** attach and detach *)
(** checkTerminal: NodeBreakerVoltageLevel.cpp:78-84, BusBreakerVoltageLevel.cpp:74-86. *)
Definition check_terminal (t : terminal) : nact unit :=
  don! x := nlevel (t_vl t) in
  match x.2, t_place t with
  | LNode _ _, PNode _ => nret tt
  | LNode _ _, PBus _ _ => nthrow "a node connection should be specified instead of a bus connection"
  | LBus _ _, PNode _ => nthrow "a bus connection should be specified instead of a node connection"
  | LBus bs _, PBus b _ =>
    nwork ;;n
    if bool_decide (b = "") then nret tt else if bool_decide (is_Some (bs !! b)) then nret tt else nthrow "Bus not found in the voltage level"
  end.
(** attach(terminal, false): NodeBreakerVoltageLevel.cpp:55-76, BusBreakerVoltageLevel.cpp:60-72. *)
Definition attach (t : terminal) : nact unit :=
  check_terminal t ;;n
  don! x := nlevel (t_vl t) in
  match x.2, t_place t with
  | LNode vs es, PNode n =>
    (* addVertexIfNotPresent *)
    nput (t_vl t) x.1 (LNode (match vs !! n with None => <[n := None]> vs | Some _ => vs end) es) ;;n
    match vs !! n with
    | Some (Some _) => nthrow "An equipment is already connected to the node"
    | _ => nput (t_vl t) x.1 (LNode (<[n := Some (t_id t)]> vs) es) ;;n nwork
    end
  | LBus bs es, PBus b _ =>
    match bs !! b with
    | None => nthrow "Bus not found in the voltage level"
    | Some l => nwork ;;n nput (t_vl t) x.1 (LBus (<[b := l ++ [t_id t]]> bs) es)
    end
  | _, _ => nret tt
  end.
(** clean: NodeBreakerVoltageLevel.cpp:86-88; removeIsolatedVertices: UndirectedGraph.hxx:373-386. *)
Definition linked (es : list (nat * nat)) (n : nat) : bool := existsb (fun e => (fst e =? n) || (snd e =? n)) es.
Definition clean (vs : gmap nat (option nat)) (es : list (nat * nat)) : gmap nat (option nat) :=
  filter (fun x => x.2 <> None \/ linked es x.1 = true) vs.
(** ConfiguredBus::removeTerminal: ConfiguredBus.cpp:177-188: the first occurrence. *)
Fixpoint erase_first (a : nat) (l : list nat) : option (list nat) :=
  match l with
  | [] => None
  | b :: l' => if a =? b then Some l' else cons b <$> erase_first a l'
  end.
(** detach: NodeBreakerVoltageLevel.cpp:129-143, BusBreakerVoltageLevel.cpp:108-120, for the terminal number [k] of equipment [id]. *)
Definition set_place (id : string) (k : nat) (p : place) : nact unit := fun nt =>
  (Ok tt, mkNet (n_levels nt) (alter (fun ts => alter (fun t => mkT (t_id t) (t_vl t) p) k ts) id (n_eqs nt)) (n_ids nt) (n_next nt) (n_work nt)).
Definition detach (id : string) (k : nat) (t : terminal) : nact unit :=
  don! x := nlevel (t_vl t) in
  match x.2, t_place t with
  | LNode vs es, PNode n =>
    nwork ;;n
    match vs !! n with
    | None => nthrow "Vertex not found"
    | Some _ => nput (t_vl t) x.1 (LNode (clean (<[n := None]> vs) es) es)
    end
  | LBus bs es, PBus b c =>
    nwork ;;n
    match bs !! b with
    | None => nthrow "Bus not found in the voltage level"
    | Some l =>
      match erase_first (t_id t) l with
      | None => nthrow "Terminal not found"
      | Some l' => nput (t_vl t) x.1 (LBus (<[b := l']> bs) es) ;;n set_place id k (PBus "" c)
      end
    end
  | _, _ => nthrow "std::bad_cast"                                         (* the dynamic_cast of the other kind of terminal *)
  end.

(** ** Adders *)
(** One side: the voltage level, setNode, setBus, setConnectableBus (InjectionAdder.hxx, BranchAdder.hxx, LegAdder). *)
Record side := mkSide { s_vl : string; s_node : option nat; s_bus : string; s_cbus : string }.
(** TerminalBuilder::getConnectionBus, build: TerminalBuilder.cpp:25-56. *)
Definition build (s : side) : result place :=
  let! k := (if bool_decide (s_bus s = "") then Ok (s_cbus s)
             else if negb (bool_decide (s_cbus s = "")) && negb (bool_decide (s_bus s = s_cbus s)) then Throw "connection bus is different from connectable bus"
             else Ok (s_bus s)) in
  match s_node s with
  | Some n => if bool_decide (k = "") then Ok (PNode n) else Throw "connection node and connection bus are exclusives"
  | None => if bool_decide (k = "") then Throw "connectable bus is not set" else Ok (PBus k (negb (bool_decide (s_bus s = ""))))
  end.
(** checkAndGetUniqueId: IdentifiableAdder.hxx:26-45. *)
Definition check_id (id : string) : nact unit := nlift (fun nt =>
  if bool_decide (id = "") then Throw "id is not set"
  else if bool_decide (id ∈ n_ids nt \/ is_Some (n_levels nt !! id) \/ is_Some (n_eqs nt !! id)) then Throw "The network already contains an object with the id" else Ok tt).
(** checkAndAdd (NetworkIndex.hxx:33-52) and addTerminal (Connectable.cpp:30-35). *)
Definition put_eq (id : string) (ps : list (string * place)) : nact (list terminal) := fun nt =>
  let ts := imap (fun k x => mkT (n_next nt + k) x.1 x.2) ps in (Ok ts, with_eq nt id ts (length ps)).
Fixpoint attach_all (ts : list terminal) : nact unit :=
  match ts with [] => nret tt | t :: ts' => attach t ;;n attach_all ts' end.
(** Injections: LoadAdder.cpp:24-37 from line 29, and likewise BatteryAdder.cpp, DanglingLineAdder.cpp,
    LccConverterStationAdder.cpp, VscConverterStationAdder.cpp.  The voltage level is at hand. *)
Definition add_injection (id : string) (s : side) : nact unit :=
  nlevel (s_vl s) ;;n
  check_id id ;;n
  put_eq id [] ;;n
  don! p := nlift (fun _ => build s) in
  don! ts := put_eq id [(s_vl s, p)] in
  attach_all ts.
(** The injections that regulate a terminal build their own one first: GeneratorAdder.cpp:24-46 from line 35,
    ShuntCompensatorAdder.cpp:23-43 from line 33, StaticVarCompensatorAdder.cpp:24-40 from line 30. *)
Definition add_regulated (id : string) (s : side) : nact unit :=
  nlevel (s_vl s) ;;n
  don! p := nlift (fun _ => build s) in
  check_id id ;;n
  don! ts := put_eq id [(s_vl s, p)] in
  attach_all ts.
(** BusbarSectionAdder.cpp:24-34; newBusbarSection throws for bus-breaker levels. *)
Definition add_busbar (id vl : string) (node : option nat) : nact unit :=
  don! x := nlevel vl in
  match x.2, node with
  | LBus _ _, _ => nthrow "Not supported in a bus breaker topology"
  | LNode _ _, None => nthrow "Node is not set"
  | LNode _ _, Some n =>
    check_id id ;;n
    don! ts := put_eq id [(vl, PNode n)] in
    attach_all ts
  end.
(** checkAndGetVoltageLevel1, checkAndGetVoltageLevel2: BranchAdder.hxx:41-67; [sub]: TwoWindingsTransformerAdder.cpp:28-31,
    ThreeWindingsTransformerLegAdder.cpp:67-79, none for lines. *)
Definition check_level (sub : option string) (s : side) : nact unit :=
  don! x := nlevel (s_vl s) in
  match sub with
  | Some k => if bool_decide (x.1 = k) then nret tt else nthrow "shall belong to the substation"
  | None => nret tt
  end.
Fixpoint each {A} (f : A -> nact unit) (l : list A) : nact unit :=
  match l with [] => nret tt | a :: l' => f a ;;n each f l' end.
Fixpoint build_all (ss : list side) : nact (list (string * place)) :=
  match ss with
  | [] => nret []
  | s :: ss' => don! p := nlift (fun _ => build s) in don! ps := build_all ss' in nret ((s_vl s, p) :: ps)
  end.
(** attach(terminal, true): only checkTerminal. *)
Definition test_attach (x : string * place) : nact unit := check_terminal (mkT 0 x.1 x.2).
(** LineAdder.cpp:26-53, TieLineAdder.cpp:24-55, TwoWindingsTransformerAdder.cpp:24-56. *)
Definition add_branch (sub : option string) (id : string) (s1 s2 : side) : nact unit :=
  each (check_level sub) [s1; s2] ;;n
  don! ps := build_all [s1; s2] in
  each test_attach ps ;;n
  check_id id ;;n
  don! ts := put_eq id ps in
  attach_all ts.
(** ThreeWindingsTransformerAdder.cpp:24-71: leg by leg. *)
Definition check_leg (sub : string) (s : side) : nact (string * place) :=
  check_level (Some sub) s ;;n don! p := nlift (fun _ => build s) in nret (s_vl s, p).
Definition add_three (sub id : string) (s1 s2 s3 : side) : nact unit :=
  don! p1 := check_leg sub s1 in
  don! p2 := check_leg sub s2 in
  don! p3 := check_leg sub s3 in
  each test_attach [p1; p2; p3] ;;n
  check_id id ;;n
  don! ts := put_eq id [p1; p2; p3] in
  attach_all ts.

(** ** Removal *)
(** Connectable::remove: Connectable.cpp:95-104; getNetwork, lines 58-64, throws without terminal. *)
Fixpoint detach_all (id : string) (k : nat) (ts : list terminal) : nact unit :=
  match ts with [] => nret tt | t :: ts' => detach id k t ;;n detach_all id (S k) ts' end.
Definition remove_equipment (id : string) : nact unit := fun nt =>
  match n_eqs nt !! id with
  | None => (Throw "Unable to find to the identifiable", nt)
  | Some [] => (Throw "is not attached to a network", nt)
  | Some ts => (detach_all id 0 ts ;;n fun nt' => (Ok tt, mkNet (n_levels nt') (delete id (n_eqs nt')) (n_ids nt') (n_next nt') (n_work nt'))) nt
  end.

(** ** The other operations *)
(** SubstationAdder, VoltageLevelAdder: a level without node nor bus. *)
Definition add_level (vl sub : string) (node_breaker : bool) : nact unit :=
  check_id vl ;;n nput vl sub (if node_breaker then LNode ∅ [] else LBus ∅ []).
(** addBus (BusBreakerVoltageLevel.cpp), removeBus: BusBreakerVoltageLevel.cpp:323-346. *)
Definition put_id (id : string) : nact unit := fun nt => (Ok tt, mkNet (n_levels nt) (n_eqs nt) ({[id]} ∪ n_ids nt) (n_next nt) (n_work nt)).
Definition drop_id (id : string) : nact unit := fun nt => (Ok tt, mkNet (n_levels nt) (n_eqs nt) (n_ids nt ∖ {[id]}) (n_next nt) (n_work nt)).
Definition add_bus (vl id : string) : nact unit :=
  don! x := nlevel vl in
  match x.2 with
  | LNode _ _ => nthrow "Not supported in a node breaker topology"
  | LBus bs es => check_id id ;;n put_id id ;;n nput vl x.1 (LBus (<[id := []]> bs) es)
  end.
Definition remove_bus (vl id : string) : nact unit :=
  don! x := nlevel vl in
  match x.2 with
  | LNode _ _ => nthrow "Not supported in a node breaker topology"
  | LBus bs es =>
    match bs !! id with
    | None => nthrow "Bus not found in the voltage level"
    | Some l =>
      nwork ;;n
      if bool_decide (l <> []) then nthrow "Cannot remove bus due to connectable equipments"
      else if bool_decide (Exists (fun e => e.1 = id \/ e.2 = id) es) then nthrow "Cannot remove bus due to the connected switch"
      else nput vl x.1 (LBus (delete id bs) es) ;;n drop_id id
    end
  end.
(** addSwitch, addInternalConnection: NodeBreakerVoltageLevel.cpp; BusBreakerVoltageLevel.cpp.  removeSwitch,
    removeInternalConnection: NodeBreakerVoltageLevel.cpp:372-383, which clean the graph. *)
Definition touch (n : nat) (vs : gmap nat (option nat)) : gmap nat (option nat) := match vs !! n with None => <[n := None]> vs | Some _ => vs end.
Definition add_link (vl : string) (n1 n2 : nat) : nact unit :=
  don! x := nlevel vl in
  match x.2 with
  | LNode vs es => nput vl x.1 (LNode (touch n2 (touch n1 vs)) (es ++ [(n1, n2)]))
  | LBus _ _ => nthrow "Not supported in a bus breaker topology"
  end.
Definition remove_link (vl : string) (k : nat) : nact unit :=
  don! x := nlevel vl in
  match x.2 with
  | LNode vs es => nput vl x.1 (LNode (clean vs (delete k es)) (delete k es))
  | LBus _ _ => nthrow "Not supported in a bus breaker topology"
  end.
Definition add_bus_link (vl b1 b2 : string) : nact unit :=
  don! x := nlevel vl in
  match x.2 with
  | LNode _ _ => nthrow "Not supported in a node breaker topology"
  | LBus bs es =>
    if bool_decide (is_Some (bs !! b1) /\ is_Some (bs !! b2)) then nput vl x.1 (LBus bs (es ++ [(b1, b2)])) else nthrow "Bus not found in the voltage level"
  end.
Definition remove_bus_link (vl : string) (k : nat) : nact unit :=
  don! x := nlevel vl in
  match x.2 with
  | LNode _ _ => nthrow "Not supported in a node breaker topology"
  | LBus bs es => nput vl x.1 (LBus bs (delete k es))
  end.
(** setWorkingVariant, or the removal of the working variant. *)
Definition set_work (b : bool) : nact unit := fun nt => (Ok tt, mkNet (n_levels nt) (n_eqs nt) (n_ids nt) (n_next nt) b).

Inductive nop :=
| OLevel (vl sub : string) (node_breaker : bool)
| OBus (vl id : string) | ORemoveBus (vl id : string)
| OLink (vl : string) (n1 n2 : nat) | OUnlink (vl : string) (k : nat)
| OBusLink (vl b1 b2 : string) | OBusUnlink (vl : string) (k : nat)
| OWork (b : bool)
| OInjection (id : string) (s : side) | ORegulated (id : string) (s : side) | OBusbar (id vl : string) (node : option nat)
| OBranch (sub : option string) (id : string) (s1 s2 : side)
| OThree (sub id : string) (s1 s2 s3 : side)
| ORemove (id : string).
Definition nstep (o : nop) : nact unit :=
  match o with
  | OLevel vl sub b => add_level vl sub b
  | OBus vl id => add_bus vl id
  | ORemoveBus vl id => remove_bus vl id
  | OLink vl n1 n2 => add_link vl n1 n2
  | OUnlink vl k => remove_link vl k
  | OBusLink vl b1 b2 => add_bus_link vl b1 b2
  | OBusUnlink vl k => remove_bus_link vl k
  | OWork b => set_work b
  | OInjection id s => add_injection id s
  | ORegulated id s => add_regulated id s
  | OBusbar id vl n => add_busbar id vl n
  | OBranch sub id s1 s2 => add_branch sub id s1 s2
  | OThree sub id s1 s2 s3 => add_three sub id s1 s2 s3
  | ORemove id => remove_equipment id
  end.
