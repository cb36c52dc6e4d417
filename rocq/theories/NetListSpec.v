(** What was built in the voltage levels of a network, level by level (C84, C85), and the buses they should show. *)
From stdpp Require Import gmap.
From Verif Require Import Base Graph GraphSpec Equip NodeTopo NodeTopoSpec BusTopo BusTopoSpec NodeViewsSpec BusViewsSpec BusRef NetList.

(** What a level is made of. *)
Inductive lplan := QB (P : bplan) | QN (P : plan).
(** The level, named [vl], is the outcome of some history; a working variant is set. *)
Inductive raised (vl : string) : lplan -> vlevel -> Prop :=
| raised_b P st : wired P st -> bb_id (e_sh st) = vl -> raised vl (QB P) (VB st)
| raised_n P st : built P st -> is_Some (e_cur st) -> nb_id (e_sh st) = vl -> raised vl (QN P) (VN st).
(** The network, with the plans of its levels: every level has an id of its own. *)
Definition network_of (Ps : list (string * lplan)) (ls : levels) : Prop :=
  NoDup ls.*1 /\ Forall2 (fun p l => p.1 = l.1 /\ raised l.1 p.2 l.2) Ps ls.

(** Level [vl] of the network shows switch [id] in its bus/breaker view: it was built there and, in a node/breaker level, it is retained in
    the working variant. *)
Definition shows_switch (p : lplan) (l : vlevel) (id : string) : Prop :=
  match p, l with
  | QB P, _ => is_Some (q_sw P !! id)
  | QN P, VN st => is_Some (p_sw P !! id) /\ kept_switch st id
  | QN _, VB _ => False
  end.
(** The buses that the topology of a level has in a view: configured buses; groups of nodes with a valid bus; groups of configured buses with
    a connected branch, that C33 names. *)
Definition has_bus (vw : view) (l : vlevel) (k : string) : Prop :=
  match l, vw with
  | VB st, BusBreakerView => is_bus (e_sh st) k
  | VB st, BusView => exists b st', is_bus (e_sh st) b /\ bb_merged b st = (Ok (Some k), st')
  | VN st, _ => exists i v n, e_cur st = Some i /\ e_vars st !! i = Some v /\ in_bus vw (nbg st) (nv_sw v) n /\ bus_name vw (nbg st) (nv_sw v) (nb_id (e_sh st)) n k
  end.
(** The buses kept in the caches of the working variant are those of the topology (C31, C33): after histories that keep them right, or when
    there are none. *)
Definition up_to_date (vw : view) (l : vlevel) : Prop :=
  match l with
  | VB st => exists v, working st v /\ well_numbered st /\ (bb_reach bb_safe st \/ bb_reach bus_safe st /\ bv_cache v = None)
  | VN st => exists i v, e_cur st = Some i /\ e_vars st !! i = Some v /\ (nb_reach fresh_safe st \/ nb_reach any_safe st /\ nv_cache vw v = None)
  end.
(** Only caches differ. *)
Definition level_alike (l l' : vlevel) : Prop :=
  match l, l' with
  | VB st, VB st' => same_but_merged st st'
  | VN st, VN st' => nbg st' = nbg st /\ e_cur st' = e_cur st /\ forall id, pos st' id = pos st id
  | _, _ => False
  end.
