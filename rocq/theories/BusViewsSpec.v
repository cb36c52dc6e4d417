(** What a user has built in a bus-breaker voltage level, kept beside the calls without looking at the voltage level: the buses, and the
    switches with the buses given to the adder. *)
From stdpp Require Import gmap.
From Verif Require Import Base Graph GraphSpec Equip NodeTopo BusTopo BusTopoSpec.

Record bplan := mkBP { q_bus : gset string; q_sw : gmap string (string * string) }.
(** What a call changes if it returns normally; a call that throws changes nothing. *)
Definition wire (P : bplan) (o : eop bbop) (r : result unit) : bplan :=
  match r, o with
  | Ok _, ECall (BAddBus id) => mkBP ({[id]} ∪ q_bus P) (q_sw P)
  | Ok _, ECall (BRemoveBus id) => mkBP (q_bus P ∖ {[id]}) (q_sw P)
  | Ok _, ECall BRemoveAllBuses => mkBP ∅ (q_sw P)
  | Ok _, ECall (BAddSwitch id _ b1 b2) => mkBP (q_bus P) (<[id := (b1, b2)]> (q_sw P))
  | Ok _, ECall (BRemoveSwitch id) => mkBP (q_bus P) (delete id (q_sw P))
  | Ok _, ECall BRemoveAllSwitches => mkBP (q_bus P) ∅
  | _, _ => P
  end.
(** The calls that read no freed or unallocated memory whatever the caches hold: removeAllBuses after switches were removed one by one destroys the
    buses and throws, and updateCache of the merged buses needs the first vertex number to be below the number of vertices (C33).  Nothing is
    asked of the other calls: switches change while merged buses are cached. *)
Definition bus_safe (st : bbst) (o : eop bbop) : Prop :=
  match o with
  | ECall BRemoveAllBuses => g_edges (bb_graph (e_sh st)) = [] \/ s_edges (abs (bb_graph (e_sh st))) <> ∅
  | ECall (BMerged _) | ECall (BById _) | ECall (BTerminals _) | ECall (BTerminalBus _) => well_numbered st
  | _ => True
  end.
(** A history of calls, with the plan drawn on the way. *)
Inductive wired : bplan -> bbst -> Prop :=
| wired_new vl ids vars cur : initial_variant ∈ vars -> (forall i, cur = Some i -> i ∈ vars) -> wired (mkBP ∅ ∅) (bb_new vl ids vars cur)
| wired_step P st o : wired P st -> bus_safe st o -> wired (wire P o (bb_step st o).1) (bb_step st o).2.
