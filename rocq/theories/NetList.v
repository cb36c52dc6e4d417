(** The buses and the switches listed by the views of a network: src/iidm/NetworkViews.cpp:45-84, 108-123.

    Simplifications, valid for the whole file:
    - the network is the list of its voltage levels in the order of getVoltageLevels (C81), each with its own state: [VB] for those of
      BusTopo.v, [VN] for those of NodeTopo.v (BusRef.v);
    - the ranges are lazy in the code (transformed, then flattened: C28 says that iterating gives the concatenation); here the list
      is read from end to end, so that a level whose range throws ends the reading;
    - the buses of a calculated view are in the order of [map_to_list] instead of that of std::map; a bus is its id. *)
From stdpp Require Import gmap.
From Verif Require Import Base Graph Equip NodeTopo BusTopo NodeViews BusViews BusRef.

(** What a lazy range over a level gives, and the level after it (its caches). *)
Definition lrange (A : Type) : Type := vlevel -> result A * vlevel.
Definition of_bb {A} (st : bbst) (m : bbact A) : result A * vlevel := let '(r, st') := m st in (r, VB st').
Definition of_nb {A} (st : nbst) (m : nbact A) : result A * vlevel := let '(r, st') := m st in (r, VN st').
(** VoltageLevel::getBusBreakerView().getSwitches(), getSwitchCount(): BusBreakerVoltageLevelViews.cpp:87-101 (C85),
    NodeBreakerVoltageLevelViews.cpp (C84). *)
Definition lv_switches : lrange (list string) := fun l =>
  match l with VB st => (Ok (bw_switches (e_sh st)), l) | VN st => of_nb st bv_switches end.
Definition lv_switch_count : lrange nat := fun l =>
  match l with VB st => (Ok (bw_switch_count (e_sh st)), l) | VN st => of_nb st bv_switch_count end.
(** VoltageLevel::getBusBreakerView().getBuses(), VoltageLevel::getBusView().getBuses(): C85, C33 ([bb_merged_ids]), C30 ([nb_buses]). *)
Definition lv_buses (vw : view) : lrange (list string) := fun l =>
  match l, vw with
  | VB st, BusBreakerView => (bw_buses (e_sh st), l)
  | VB st, BusView => of_bb st (amap elements bb_merged_ids)
  | VN st, _ => of_nb st (amap (fun m : gmap string cbus => (map_to_list m).*1) (nb_buses vw))
  end.

(** The voltage levels of the network, in order. *)
Definition levels : Type := list (string * vlevel).
(** getVoltageLevels() | transformed(mapper) | flattened, read to its end; each element with the id of its level. *)
Fixpoint net_flat {A} (f : lrange (list A)) (ls : levels) : result (list (string * A)) * levels :=
  match ls with
  | [] => (Ok [], [])
  | (vl, l) :: ls' =>
    match f l with
    | (Ok xs, l') =>
      let '(r, ls2) := net_flat f ls' in (let! ys := r in Ok (((fun x => (vl, x)) <$> xs) ++ ys), (vl, l') :: ls2)
    | (Throw m, l') => (Throw m, (vl, l') :: ls')
    | (UB, l') => (UB, (vl, l') :: ls')
    | (OutOfFuel, l') => (OutOfFuel, (vl, l') :: ls')
    end
  end.
(** BusBreakerView::getBuses, BusView::getBuses: NetworkViews.cpp:45-59, 109-123. *)
Definition net_buses (vw : view) (ls : levels) : result (list (string * string)) * levels := net_flat (lv_buses vw) ls.
(** BusBreakerView::getSwitches: NetworkViews.cpp:71-85. *)
Definition net_switches (ls : levels) : result (list (string * string)) * levels := net_flat lv_switches ls.
(** BusBreakerView::getSwitchCount: NetworkViews.cpp:61-69. *)
Fixpoint count_loop (ls : levels) (res : nat) : result nat * levels :=
  match ls with
  | [] => (Ok res, [])
  | (vl, l) :: ls' =>
    match lv_switch_count l with
    | (Ok n, l') => let '(r, ls2) := count_loop ls' (res + n) in (r, (vl, l') :: ls2)
    | (Throw m, l') => (Throw m, (vl, l') :: ls')
    | (UB, l') => (UB, (vl, l') :: ls')
    | (OutOfFuel, l') => (OutOfFuel, (vl, l') :: ls')
    end
  end.
Definition net_switch_count (ls : levels) : result nat * levels := count_loop ls 0.
