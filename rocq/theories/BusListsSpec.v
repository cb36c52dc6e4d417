(** What the getters of a bus should list. *)
From stdpp Require Import gmap.
From Verif Require Import Base Equip NodeTopo BusTopo BusLists.

(** The classes that a getter is named after: a tie line is a line. *)
Inductive named_after : getter -> eclass -> Prop :=
| na_battery : named_after GetBatteries Battery
| na_dangling : named_after GetDanglingLines DanglingLine
| na_generator : named_after GetGenerators Generator
| na_lcc : named_after GetLccConverterStations LccConverterStation
| na_line : named_after GetLines Line
| na_tie : named_after GetLines TieLine
| na_load : named_after GetLoads Load
| na_shunt : named_after GetShuntCompensators ShuntCompensator
| na_svc : named_after GetStaticVarCompensators StaticVarCompensator
| na_three : named_after GetThreeWindingsTransformers ThreeWindingsTransformer
| na_two : named_after GetTwoWindingsTransformers TwoWindingsTransformer
| na_vsc : named_after GetVscConverterStations VscConverterStation.
(** The equipment [id] is what the getter promises. *)
Definition wanted (cs : gmap string eclass) (g : getter) (id : string) : Prop := exists c, cs !! id = Some c /\ named_after g c.
(** The terminals of a bus being those that satisfy [P], [l] lists the equipments wanted, once for each of their terminals there. *)
Definition lists_each (cs : gmap string eclass) (g : getter) (P : nterm -> Prop) (l : list string) : Prop :=
  exists ts, NoDup ts /\ (forall t, t ∈ ts <-> P t /\ wanted cs g (nt_id t)) /\ l = nt_id <$> ts.
