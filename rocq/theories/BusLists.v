(** The equipments of a bus, class by class: src/iidm/Bus.cpp:32-91, 167-205, include/powsybl/iidm/Terminal.hxx:19-28.

    Simplifications, valid for the whole file:
    - a reference to an equipment is its id; the table [cs] gives the class of each equipment; an id out of the table is a terminal whose
      equipment is gone (an empty reference);
    - the lazy ranges are read to their end. *)
From stdpp Require Import gmap.
From Verif Require Import Base Graph Equip NodeTopo BusTopo Visit.

(** The classes of the equipments with terminals. *)
Inductive eclass := Battery | BusbarSection | DanglingLine | Generator | LccConverterStation | Line | TieLine | Load | ShuntCompensator
  | StaticVarCompensator | ThreeWindingsTransformer | TwoWindingsTransformer | VscConverterStation.
#[global] Instance eclass_dec : EqDecision eclass. Proof. solve_decision. Defined.
(** The base of a class, if it is one of them: TieLine.hpp:19; the other bases (Injection, Branch, Connectable, HvdcConverterStation) have no
    getter. *)
Definition base_of (c : eclass) : option eclass := match c with TieLine => Some Line | _ => None end.
(** stdcxx::isInstanceOf<T>, a dynamic_cast: instanceof.hpp. *)
Definition derives (c t : eclass) : bool := bool_decide (c = t) || bool_decide (base_of c = Some t).
(** Terminal::isInstanceOf<T>: Terminal.hxx:19-23. *)
Definition terminal_is (cs : gmap string eclass) (t : eclass) (x : nterm) : bool :=
  match cs !! nt_id x with Some c => derives c t | None => false end.
(** Bus::getAll<T> on the connected terminals of the bus: Bus.cpp:36-44; Terminal::map: Terminal.hxx:25-28. *)
Definition bus_all (cs : gmap string eclass) (t : eclass) (ts : list nterm) : list string := nt_id <$> List.filter (terminal_is cs t) ts.
(** The getters: Bus.cpp:46-91, 167-205. *)
Inductive getter := GetBatteries | GetDanglingLines | GetGenerators | GetLccConverterStations | GetLines | GetLoads | GetShuntCompensators
  | GetStaticVarCompensators | GetThreeWindingsTransformers | GetTwoWindingsTransformers | GetVscConverterStations.
Definition got (g : getter) : eclass :=
  match g with
  | GetBatteries => Battery | GetDanglingLines => DanglingLine | GetGenerators => Generator | GetLccConverterStations => LccConverterStation
  | GetLines => Line | GetLoads => Load | GetShuntCompensators => ShuntCompensator | GetStaticVarCompensators => StaticVarCompensator
  | GetThreeWindingsTransformers => ThreeWindingsTransformer | GetTwoWindingsTransformers => TwoWindingsTransformer
  | GetVscConverterStations => VscConverterStation
  end.

(** On a configured bus: ConfiguredBus::getConnectedTerminals, ConfiguredBus.cpp:101-123. *)
Definition configured_list (cs : gmap string eclass) (g : getter) (b : string) : bbact (list string) :=
  do! u := bb_configured b in
  do! l := bus_terms u in
  do! v := aget in
  do! lc := alift (filter_connected v l) in aret (bus_all cs (got g) lc).
(** On the merged bus [k], just obtained: MergedBus::getConnectedTerminals, MergedBus.cpp:77-95. *)
Definition merged_list (cs : gmap string eclass) (g : getter) (k : string) : bbact (list string) := amap (bus_all cs (got g)) (bb_terminals k).
(** On a calculated bus: CalculatedBus::getConnectedTerminals, CalculatedBus.cpp:83-97. *)
Definition calculated_list (cs : gmap string eclass) (g : getter) (b : cbus) : list string := bus_all cs (got g) (cb_terms b).
