(** The filter of an export (src/iidm/converter/BusFilter.cpp) and the loops of the writers that ask it
    (src/iidm/converter/xml/VoltageLevelXml.cpp, SubstationXml.cpp, NetworkXml.cpp).

    Simplifications, valid for the whole file:
    - the network is that of CompNet.v: its buses, switches, equipments and HVDC lines by their ids;
    - what is written of an object (NetXml.v) is left out: only whether it is written. *)
From stdpp Require Export gmap.
From Verif Require Export CompNet.

(** The options the filter may look at: isOnlyMainCc, getTopologyLevel() == BUS_BRANCH (ExportOptions.hpp). *)
Record xoptions := mkXO { xo_main : bool; xo_branch : bool }.
(** BusFilter: m_buses and m_options (BusFilter.hpp:41-43). *)
Record bfilter := mkBF { bf_buses : gset string; bf_options : xoptions }.
(** BusFilter::create: BusFilter.cpp:33-45.  The body that fills the set is commented out. *)
Definition bf_create (_ : csh) (o : xoptions) : bfilter := mkBF ∅ o.
(** BusFilter::test(bus): BusFilter.cpp:47-49. *)
Definition bf_bus (f : bfilter) (b : string) : bool := bool_decide (bf_buses f = ∅) || bool_decide (b ∈ bf_buses f).
(** BusFilter::test(connectable): BusFilter.cpp:51-62, the test of the loop as it is written: a terminal whose connectable bus is in the set makes it
    answer false.  [bs]: the connectable buses of the terminals. *)
Definition bf_connectable (f : bfilter) (bs : list (option string)) : bool :=
  bool_decide (bf_buses f = ∅) || forallb (fun b => match b with Some b => negb (bool_decide (b ∈ bf_buses f)) | None => true end) bs.

(** The objects written: VoltageLevelXml.cpp:151-190, 199-206 and the like, SubstationXml.cpp:106-118, NetworkXml.cpp:316-332.  [cb]: the connectable bus
    of the terminal at a place. *)
Definition written_buses (f : bfilter) (bs : list string) : list string := filter (fun b => bf_bus f b = true) bs.
Definition written_switches (f : bfilter) (l : list (string * (string * string))) : list (string * (string * string)) :=
  filter (fun x => bf_bus f x.2.1 = true /\ bf_bus f x.2.2 = true) l.
Definition written_equipments (f : bfilter) (cb : string -> option string) (l : list (string * (ekind * list string))) : list (string * (ekind * list string)) :=
  filter (fun x => bf_connectable f (map cb x.2.2) = true) l.
Definition station_passes (f : bfilter) (cb : string -> option string) (s : csh) (id : string) : bool :=
  match cs_eq s !! id with Some (_, bs) => bf_connectable f (map cb bs) | None => true end.
Definition written_lines (f : bfilter) (cb : string -> option string) (s : csh) (l : list (string * (string * string))) : list (string * (string * string)) :=
  filter (fun x => station_passes f cb s x.2.1 = true /\ station_passes f cb s x.2.2 = true) l.
