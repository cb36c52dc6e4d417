(** Model of the typed lookups and collections: the getters of a network (src/iidm/Network.cpp:125-644, include/powsybl/iidm/Network.hxx:28-70),
    of a voltage level (include/powsybl/iidm/VoltageLevel.hxx:33-85), of a substation (src/iidm/Substation.cpp:60-102), and the terminals and
    sides of branches and three-windings transformers (src/iidm/Branch.cpp:242-285, src/iidm/ThreeWindingsTransformer.cpp:101-134).  Built on
    the network index (NetIndex.v) and the distinct ranges (Ranges.v). *)
From stdpp Require Export gmap.
From Verif Require Export Base NetIndex Ranges.

(** ** Classes *)
(** The classes derived from Identifiable, and Identifiable. *)
Inductive cls :=
| CNetwork | CSubstation | CNodeBreakerVoltageLevel | CBusBreakerVoltageLevel | CConfiguredBus | CSwitch | CBusbarSection | CLoad | CGenerator
| CBattery | CShuntCompensator | CStaticVarCompensator | CDanglingLine | CLccConverterStation | CVscConverterStation | CLine | CTieLine
| CTwoWindingsTransformer | CThreeWindingsTransformer | CHvdcLine
| CIdentifiable | CContainer | CVoltageLevel | CBus | CConnectable | CInjection | CHvdcConverterStation | CBranch.
#[global] Instance cls_eq_dec : EqDecision cls.
Proof. solve_decision. Defined.
Definition all_cls : list cls :=
  [CNetwork; CSubstation; CNodeBreakerVoltageLevel; CBusBreakerVoltageLevel; CConfiguredBus; CSwitch; CBusbarSection; CLoad; CGenerator;
   CBattery; CShuntCompensator; CStaticVarCompensator; CDanglingLine; CLccConverterStation; CVscConverterStation; CLine; CTieLine;
   CTwoWindingsTransformer; CThreeWindingsTransformer; CHvdcLine;
   CIdentifiable; CContainer; CVoltageLevel; CBus; CConnectable; CInjection; CHvdcConverterStation; CBranch].
(** typeid: a number for each class; 0 is Network (NetIndex.v: ty_network). *)
Definition cls_id (c : cls) : nat := match list_find (fun d => c = d) all_cls with Some (k, _) => k | None => 0 end.
Definition cls_of (n : nat) : option cls := all_cls !! n.
(** The base of each class, among these: Network.hpp:57, Substation.hpp:33, VoltageLevel.hpp:48, Container.hpp:17, Bus.hpp:38, Switch.hpp:23,
    HvdcLine.hpp:24, Connectable.hpp:24, Injection.hpp:21, Branch.hpp:27, Line.hpp:18, TieLine.hpp:19, TwoWindingsTransformer.hpp:23,
    ThreeWindingsTransformer.hpp:20, HvdcConverterStation.hpp:20, LccConverterStation.hpp:17, VscConverterStation.hpp:18, Load.hpp:20,
    Generator.hpp:23, Battery.hpp:18, ShuntCompensator.hpp:24, StaticVarCompensator.hpp:22, DanglingLine.hpp:29, BusbarSection.hpp:17;
    NodeBreakerVoltageLevel.hpp, BusBreakerVoltageLevel.hpp and ConfiguredBus.hpp in src/iidm.  The holders of limits, tap changers and reactive
    limits, which are other bases of some of them, are left out. *)
Definition bases (c : cls) : list cls :=
  match c with
  | CNetwork | CSubstation | CVoltageLevel => [CContainer]
  | CNodeBreakerVoltageLevel | CBusBreakerVoltageLevel => [CVoltageLevel]
  | CConfiguredBus => [CBus]
  | CContainer | CBus | CSwitch | CHvdcLine | CConnectable => [CIdentifiable]
  | CBusbarSection | CLoad | CGenerator | CBattery | CShuntCompensator | CStaticVarCompensator | CDanglingLine | CHvdcConverterStation => [CInjection]
  | CLccConverterStation | CVscConverterStation => [CHvdcConverterStation]
  | CLine | CTwoWindingsTransformer => [CBranch]
  | CTieLine => [CLine]
  | CInjection | CBranch | CThreeWindingsTransformer => [CConnectable]
  | CIdentifiable => []
  end.
(** dynamic_cast<T*>, stdcxx::isInstanceOf<T> (instanceof.hpp:17-40): go up to the bases; five levels are enough. *)
Fixpoint derives (n : nat) (c t : cls) : bool :=
  bool_decide (c = t) || match n with O => false | S n' => existsb (fun b => derives n' b t) (bases c) end.
Definition instance_of (t : cls) (n : nat) : bool := match cls_of n with Some c => derives 5 c t | None => false end.

(** ** The network *)
(** The index; of a voltage level its substation and the terminals attached to it, a terminal being an equipment and a rank; of a substation its
    m_voltageLevels and its country; of an equipment the voltage level of each of its terminals (Connectable.hpp: m_terminals).  The place of a
    terminal in its level (bus or node, see C61) is left out: the attachments are accepted, and the terminals of a level are in the order of
    their attachment. *)
Record cat := mkCat {
  c_ix : NetIndex.index;
  c_sub : gmap nat nat;
  c_levels : gmap nat (list nat);
  c_country : gmap nat string;
  c_att : gmap nat (list (nat * nat));
  c_terms : gmap nat (list nat)
}.
Definition cat_init (id : string) : cat := mkCat (ix_init id) ∅ ∅ ∅ ∅ ∅.

(** attach: NodeBreakerVoltageLevel.cpp:55-83, BusBreakerVoltageLevel.cpp:60-85; detach: NodeBreakerVoltageLevel.cpp:129-141,
    BusBreakerVoltageLevel.cpp:108-126. *)
Definition attach (vt : nat * (nat * nat)) (m : gmap nat (list (nat * nat))) : gmap nat (list (nat * nat)) :=
  <[vt.1 := default [] (m !! vt.1) ++ [vt.2]]> m.
Definition detach (vt : nat * (nat * nat)) (m : gmap nat (list (nat * nat))) : gmap nat (list (nat * nat)) :=
  <[vt.1 := filter (fun t => t <> vt.2) (default [] (m !! vt.1))]> m.
Definition terminals_of (p : nat) (vls : list nat) : list (nat * (nat * nat)) := imap (fun k v => (v, (p, k))) vls.

(** checkAndAdd, then the terminals: the last lines of the adders (LineAdder.cpp:44-51, LoadAdder.cpp:27-34 and so on). *)
Definition add_equipment (st : cat) (c : cls) (vls : list nat) (id : string) (ensure : bool) : result (option nat) * cat :=
  match ix_add (c_ix st) id (cls_id c) ensure with
  | (Ok p, ix) => (Ok (Some p), mkCat ix (c_sub st) (c_levels st) (c_country st) (foldl (fun m t => attach t m) (c_att st) (terminals_of p vls))
                                      (<[p := vls]> (c_terms st)))
  | (Throw m, ix) => (Throw m, st)
  | (UB, _) => (UB, st) | (OutOfFuel, _) => (OutOfFuel, st)
  end.
(** checkAndGetVoltageLevel1, checkAndGetVoltageLevel2: BranchAdder.hxx:39-65; checkAndGetVoltageLevel: ThreeWindingsTransformerLegAdder.cpp:67-79. *)
Definition find_level (st : cat) (s : string) : result nat :=
  if bool_decide (s = "") then Throw "voltage level is not set"
  else
    let! r := ix_find_as (instance_of CVoltageLevel) (c_ix st) s in
    match r with Some v => Ok v | None => Throw "voltage level not found" end.
Fixpoint find_levels (st : cat) (l : list string) : result (list nat) :=
  match l with
  | [] => Ok []
  | s :: l' => let! v := find_level st s in let! vs := find_levels st l' in Ok (v :: vs)
  end.

(** ** Histories.  [QRemove]: the remove() of an equipment, of a switch or of an HVDC line (Connectable.cpp:97-106, Network.cpp:668-670);
    removing substations and voltage levels is in Removal.v. *)
Inductive cop :=
| QSubstation (id : string) (ensure : bool)
| QCountry (s : nat) (country : option string)
| QLevel (s : nat) (node : bool) (id : string) (ensure : bool)
| QInjection (c : cls) (v : nat) (id : string) (ensure : bool)
| QLine (tie : bool) (v1 v2 : string) (id : string) (ensure : bool)
| QTwo (s : nat) (v1 v2 : string) (id : string) (ensure : bool)
| QThree (s : nat) (v1 v2 v3 : string) (id : string) (ensure : bool)
| QOther (c : cls) (id : string) (ensure : bool)
| QRemove (p : nat)
| QAlias (p : nat) (alias ty : string) (ensure : bool)
| QUnalias (p : nat) (alias : string).
Definition with_ix (st : cat) (ix : NetIndex.index) : cat := mkCat ix (c_sub st) (c_levels st) (c_country st) (c_att st) (c_terms st).
Definition cstep (st : cat) (o : cop) : result (option nat) * cat :=
  match o with
  | QSubstation id e =>                                        (* SubstationAdder.cpp:21-27 *)
    match ix_add (c_ix st) id (cls_id CSubstation) e with
    | (Ok p, ix) => (Ok (Some p), mkCat ix (c_sub st) (<[p := []]> (c_levels st)) (c_country st) (c_att st) (c_terms st))
    | (Throw m, _) => (Throw m, st) | (UB, _) => (UB, st) | (OutOfFuel, _) => (OutOfFuel, st)
    end
  | QCountry s k => (Ok None, mkCat (c_ix st) (c_sub st) (c_levels st) (partial_alter (fun _ => k) s (c_country st)) (c_att st) (c_terms st))   (* Substation.cpp:164-167 *)
  | QLevel s node id e =>                                      (* VoltageLevelAdder.cpp:25-49, Substation::addVoltageLevel (Substation.cpp:40-42) *)
    match ix_add (c_ix st) id (cls_id (if node then CNodeBreakerVoltageLevel else CBusBreakerVoltageLevel)) e with
    | (Ok p, ix) => (Ok (Some p), mkCat ix (<[p := s]> (c_sub st)) (<[s := default [] (c_levels st !! s) ++ [p]]> (c_levels st)) (c_country st) (<[p := []]> (c_att st)) (c_terms st))
    | (Throw m, _) => (Throw m, st) | (UB, _) => (UB, st) | (OutOfFuel, _) => (OutOfFuel, st)
    end
  | QInjection c v id e => add_equipment st c [v] id e
  | QLine tie v1 v2 id e =>                                    (* LineAdder.cpp:26-54, TieLineAdder.cpp:24-59 *)
    match find_levels st [v1; v2] with
    | Ok vls => add_equipment st (if tie then CTieLine else CLine) vls id e
    | Throw m => (Throw m, st) | UB => (UB, st) | OutOfFuel => (OutOfFuel, st)
    end
  | QTwo s v1 v2 id e =>                                       (* TwoWindingsTransformerAdder.cpp:24-56 *)
    match find_levels st [v1; v2] with
    | Ok vls => if forallb (fun v => bool_decide (c_sub st !! v = Some s)) vls then add_equipment st CTwoWindingsTransformer vls id e
                else (Throw "the 2 windings of the transformer shall belong to the substation", st)
    | Throw m => (Throw m, st) | UB => (UB, st) | OutOfFuel => (OutOfFuel, st)
    end
  | QThree s v1 v2 v3 id e =>                                  (* ThreeWindingsTransformerAdder.cpp:24-71, ThreeWindingsTransformerLegAdder.cpp:67-79 *)
    match find_levels st [v1; v2; v3] with
    | Ok vls => if forallb (fun v => bool_decide (c_sub st !! v = Some s)) vls then add_equipment st CThreeWindingsTransformer vls id e
                else (Throw "voltage level shall belong to the substation", st)
    | Throw m => (Throw m, st) | UB => (UB, st) | OutOfFuel => (OutOfFuel, st)
    end
  | QOther c id e => let r := ix_add (c_ix st) id (cls_id c) e in (result_map Some r.1, with_ix st r.2)
  | QRemove p =>
    match ix_remove (c_ix st) p with
    | (Ok _, ix) => (Ok None, mkCat ix (c_sub st) (c_levels st) (c_country st)
                                    (foldl (fun m t => detach t m) (c_att st) (terminals_of p (default [] (c_terms st !! p)))) (delete p (c_terms st)))
    | (Throw m, _) => (Throw m, st) | (UB, _) => (UB, st) | (OutOfFuel, _) => (OutOfFuel, st)
    end
  | QAlias p a t e => let r := ix_add_alias (c_ix st) p a t e in (result_map (fun _ => None) r.1, with_ix st r.2)
  | QUnalias p a => let r := ix_remove_alias (c_ix st) p a in (result_map (fun _ => None) r.1, with_ix st r.2)
  end.

(** ** The getters of the network *)
Inductive getter :=
| GBattery | GBranch | GBusbarSection | GDanglingLine | GGenerator | GHvdcConverterStation | GHvdcLine | GIdentifiable | GLccConverterStation | GLine
| GLoad | GShuntCompensator | GStaticVarCompensator | GSubstation | GSwitch | GThreeWindingsTransformer | GTwoWindingsTransformer | GVoltageLevel
| GVscConverterStation.
(** get<T>(id): the T of each getX(id), Network.cpp:125, 145, 173, 252, 276, 296, 320, 352, 376, 396, 420, 448, 480, 500, 520, 548, 568, 606, 626. *)
Definition g_class (g : getter) : cls :=
  match g with
  | GBattery => CBattery | GBranch => CBranch | GBusbarSection => CBusbarSection | GDanglingLine => CDanglingLine | GGenerator => CGenerator
  | GHvdcConverterStation => CHvdcConverterStation | GHvdcLine => CHvdcLine | GIdentifiable => CIdentifiable | GLccConverterStation => CLccConverterStation
  | GLine => CLine | GLoad => CLoad | GShuntCompensator => CShuntCompensator | GStaticVarCompensator => CStaticVarCompensator | GSubstation => CSubstation
  | GSwitch => CSwitch | GThreeWindingsTransformer => CThreeWindingsTransformer | GTwoWindingsTransformer => CTwoWindingsTransformer
  | GVoltageLevel => CVoltageLevel | GVscConverterStation => CVscConverterStation
  end.
Definition n_get (g : getter) (st : cat) (id : string) : result nat := ix_get_as (instance_of (g_class g)) (c_ix st) id.
(** getAll<T>: by the type of registration. *)
Definition n_of (c : cls) (st : cat) : list nat := ix_all (c_ix st) (cls_id c).
Definition n_count_of (c : cls) (st : cat) : nat := ix_count (c_ix st) (cls_id c).
(** getAll<Identifiable, Identifiable>: NetworkIndex.cpp:105-113; the order of m_objectsById is not represented. *)
Definition n_objects (st : cat) : list nat := map snd (map_to_list (ix_byid (c_ix st))).
(** The ranges: Network.cpp:137, 157-163, 185, 264, 288, 308-312, 344, 360, 388, 408-412, 432, 460, 492, 512, 532, 560, 580, 618, 634, with
    getAll<VoltageLevel, VoltageLevel> (NetworkIndex.cpp:133-136). *)
Definition n_all (g : getter) (st : cat) : list nat :=
  match g with
  | GBranch => (n_of CLine st ++ n_of CTieLine st) ++ n_of CTwoWindingsTransformer st
  | GHvdcConverterStation => n_of CLccConverterStation st ++ n_of CVscConverterStation st
  | GLine => n_of CLine st ++ n_of CTieLine st
  | GVoltageLevel => n_of CBusBreakerVoltageLevel st ++ n_of CNodeBreakerVoltageLevel st
  | GIdentifiable => n_objects st
  | GBattery => n_of CBattery st | GBusbarSection => n_of CBusbarSection st | GDanglingLine => n_of CDanglingLine st | GGenerator => n_of CGenerator st
  | GHvdcLine => n_of CHvdcLine st | GLccConverterStation => n_of CLccConverterStation st | GLoad => n_of CLoad st
  | GShuntCompensator => n_of CShuntCompensator st | GStaticVarCompensator => n_of CStaticVarCompensator st | GSubstation => n_of CSubstation st
  | GSwitch => n_of CSwitch st | GThreeWindingsTransformer => n_of CThreeWindingsTransformer st | GTwoWindingsTransformer => n_of CTwoWindingsTransformer st
  | GVscConverterStation => n_of CVscConverterStation st
  end.
(** The counts: Network.cpp:133, 153, 181, 260, 284, 304, 340, 384, 404, 428, 456, 488, 508, 528, 556, 576, 614, 642, with
    getObjectCount<VoltageLevel> (NetworkIndex.cpp:148-151) and getObjectCount<Identifiable> (NetworkIndex.cpp:143-146). *)
Definition n_count (g : getter) (st : cat) : nat :=
  match g with
  | GBranch => (n_count_of CLine st + n_count_of CTieLine st) + n_count_of CTwoWindingsTransformer st
  | GHvdcConverterStation => n_count_of CLccConverterStation st + n_count_of CVscConverterStation st
  | GLine => n_count_of CLine st + n_count_of CTieLine st
  | GVoltageLevel => n_count_of CBusBreakerVoltageLevel st + n_count_of CNodeBreakerVoltageLevel st
  | GIdentifiable => size (ix_byid (c_ix st))
  | g => n_count_of (g_class g) st
  end.
(** getConnectables<T>, getConnectableCount<T>: Network.hxx:38-58. *)
Definition has_class (st : cat) (t : cls) (p : nat) : bool := match ix_heap (c_ix st) !! p with Some o => instance_of t (o_type o) | None => false end.
Definition n_connectables (t : cls) (st : cat) : list nat := filter (fun p => has_class st t p = true) (n_objects st).
(** getCountries, getCountryCount: Network.cpp:237-250. *)
Definition n_countries (st : cat) : gset string := foldl (fun acc s => match c_country st !! s with Some k => {[k]} ∪ acc | None => acc end) ∅ (n_all GSubstation st).

(** ** The getters of a voltage level *)
Definition id_at (st : cat) (p : nat) : string := match ix_heap (c_ix st) !! p with Some o => o_id o | None => "" end.
(** The ids that go through the distinct filter: the equipments of type T of the terminals. *)
Definition level_ids (t : cls) (st : cat) (v : nat) : list string :=
  map (fun x => id_at st x.1) (filter (fun x => has_class st t x.1 = true) (default [] (c_att st !! v))).
(** getConnectables<T> of VoltageLevel.hxx:77-85, iterated once (Ranges.v: a pass on a range already used gives less, C29); the ids. *)
Definition v_connectables (t : cls) (st : cat) (v : nat) : result (list string) :=
  let l := level_ids t st v in
  let '(h, (loc, r)) := v_range [] l in
  result_map fst (v_iterate (S (length l)) h loc r).
(** getConnectableCount<T>: 72-75. *)
Definition v_count (t : cls) (st : cat) (v : nat) : result nat := result_map (@length string) (v_connectables t st v).
(** The voltage level of the terminal [k] of an equipment: m_terminals.at(k), std::out_of_range. *)
Definition level_of (st : cat) (p k : nat) : result nat :=
  match default [] (c_terms st !! p) !! k with Some v => Ok v | None => Throw "out of range" end.
(** getConnectable<T>(id): 33-63. *)
Definition v_get (t : cls) (st : cat) (v : nat) (id : string) : result (option nat) :=
  let! r := ix_find_as (instance_of t) (c_ix st) id in
  match r with
  | None => Ok None
  | Some p =>
    if has_class st CInjection p then
      let! w := level_of st p 0 in
      if bool_decide (w = v) then Ok (Some p) else Throw "The injection is not connected to the voltage level"
    else if has_class st CBranch p then
      let! w1 := level_of st p 0 in
      let! w2 := level_of st p 1 in
      if bool_decide (w1 = v) || bool_decide (w2 = v) then Ok (Some p) else Throw "The branch is not connected to the voltage level"
    else if has_class st CThreeWindingsTransformer p then
      let! w1 := level_of st p 0 in
      let! w2 := level_of st p 1 in
      let! w3 := level_of st p 2 in
      if bool_decide (w1 = v) || bool_decide (w2 = v) || bool_decide (w3 = v) then Ok (Some p) else Throw "The 3 windings transformer is not connected to the voltage level"
    else Throw "Unexpected ConnectableType value"
  end.

(** ** The transformers of a substation: Substation.cpp:60-102, iterated once *)
Definition s_transformers (t : cls) (st : cat) (s : nat) : result (list string) :=
  let l := map (level_ids t st) (default [] (c_levels st !! s)) in
  let! ps := s_passes 1 (S (length (concat l))) [] l in
  match ps with [out] => Ok out | _ => UB end.

(** ** Terminals and sides; sides are numbered from 0 *)
(** Branch::getTerminal(side): Branch.cpp:253-264; ThreeWindingsTransformer::getTerminal(side): ThreeWindingsTransformer.cpp:121-132; another
    value of the enumeration is an AssertionError.  A terminal is an equipment and a rank. *)
Definition b_terminal (st : cat) (p k : nat) : result (nat * nat) :=
  if bool_decide (k < 2) then let! _ := level_of st p k in Ok (p, k) else Throw "Unexpected side value".
Definition t_terminal (st : cat) (p k : nat) : result (nat * nat) :=
  if bool_decide (k < 3) then let! _ := level_of st p k in Ok (p, k) else Throw "Unexpected side value".
(** Branch::getSide(terminal): Branch.cpp:242-251; ThreeWindingsTransformer::getSide: ThreeWindingsTransformer.cpp:101-112. *)
Definition b_side (st : cat) (p : nat) (x : nat * nat) : result nat :=
  let! t1 := b_terminal st p 0 in
  if bool_decide (x = t1) then Ok 0
  else
    let! t2 := b_terminal st p 1 in
    if bool_decide (x = t2) then Ok 1 else Throw "The terminal is not connected to this branch".
Definition t_side (st : cat) (p : nat) (x : nat * nat) : result nat :=
  let! t1 := t_terminal st p 0 in
  if bool_decide (t1 = x) then Ok 0
  else
    let! t2 := t_terminal st p 1 in
    if bool_decide (t2 = x) then Ok 1
    else
      let! t3 := t_terminal st p 2 in
      if bool_decide (t3 = x) then Ok 2 else Throw "The terminal is not connected to this three windings transformer".
(** Branch::getTerminal(voltageLevelId): Branch.cpp:270-285. *)
Definition b_terminal_at (st : cat) (p : nat) (s : string) : result (nat * nat) :=
  let! v1 := level_of st p 0 in
  let! v2 := level_of st p 1 in
  let side1 := bool_decide (id_at st v1 = s) in
  let side2 := bool_decide (id_at st v2 = s) in
  if side1 && side2 then Throw "Both terminals are connected to voltage level"
  else if side1 then Ok (p, 0)
  else if side2 then Ok (p, 1)
  else Throw "No terminal connected to voltage level".
