(** What a reference to a bus must resolve to (C71): stated on the configured buses, their switches and terminals, and on the nodes. *)
From stdpp Require Import gmap.
From Verif Require Import Base Graph GraphSpec Equip NodeTopo NodeTopoSpec BusTopo BusTopoSpec BusRef.

(** The object an id or an alias designates. *)
Definition designates (net : bnet) (id rid : string) (e : entity) : Prop :=
  rid <> "" /\ bn_objs net !! rid = Some e /\ ((bn_alias net !! id = None /\ rid = id) \/ bn_alias net !! id = Some rid).
(** [id] is neither the id nor an alias of an object. *)
Definition unknown (net : bnet) (id : string) : Prop :=
  id <> "" /\ match bn_alias net !! id with None => bn_objs net !! id = None | Some rid => rid <> "" /\ bn_objs net !! rid = None end.

(** The merged bus [k], looked up in the level [st'], gathers the configured buses linked to [b] by closed switches. *)
Definition merged_of (st : bbst) (v : bbvar) (b : string) (st' : bbst) (k : string) : Prop :=
  in_bus_view (e_sh st) v b /\
  exists us, bb_by_id k st' = (Ok (Some us), st') /\
    forall u, u ∈ us <-> exists b', bb_live (e_sh st) !! u = Some b' /\ same_bus (e_sh st) v b b'.

(** Terminal [t] of a bus-breaker level: its connectable bus if it is connected, at the level of the configured buses; the merged
    bus of it, if it has one, at the bus branch level. *)
Definition right_configured (st st' : bbst) (vl : string) (t : nterm) (lvl : tlevel) (r : option bref) : Prop :=
  exists v c b, working st v /\ bv_conn v !! t = Some (c, b) /\
    match r with
    | None => c = false \/ (lvl = BUS_BRANCH /\ ~ in_bus_view (e_sh st) v b)
    | Some (RBus vl' b') => c = true /\ lvl = BUS_BREAKER /\ vl' = vl /\ b' = b
    | Some (RMerged vl' k) => c = true /\ lvl = BUS_BRANCH /\ vl' = vl /\ merged_of st v b st' k
    | Some (RCalc _ _ _) => False
    end.
(** Node [n] of a node-breaker level: the bus of its electrical node in the view of the level. *)
Definition view_of (lvl : tlevel) : view := match lvl with BUS_BRANCH => BusView | _ => BusBreakerView end.
Definition right_calculated (st : nbst) (vl : string) (n : nat) (lvl : tlevel) (r : option bref) : Prop :=
  match r with
  | None => answers_right (view_of lvl) st n None
  | Some (RCalc vl' vw b) => vl' = vl /\ vw = view_of lvl /\ answers_right vw st n (Some b)
  | _ => False
  end.
(** [r] is the bus terminal [t] of [net] is connected to. *)
Definition right_bus (net net' : bnet) (t : tref) (lvl : tlevel) (r : option bref) : Prop :=
  match bn_levels net !! tr_vl t, bn_levels net' !! tr_vl t with
  | Some (VB st), Some (VB st') => right_configured st st' (tr_vl t) (tr_term t) lvl r
  | Some (VN st), Some (VN _) => right_calculated st (tr_vl t) (tr_node t) lvl r
  | _, _ => False
  end.

(** Resolving changes the caches only. *)
Definition only_caches (net net' : bnet) : Prop :=
  bn_objs net' = bn_objs net /\ bn_alias net' = bn_alias net /\
  forall vl, match bn_levels net !! vl, bn_levels net' !! vl with
             | Some (VB st), Some (VB st') => same_but_merged st st'
             | Some (VN st), Some (VN st') => nbg st' = nbg st /\ e_cur st' = e_cur st /\ forall id, pos st' id = pos st id
             | None, None => True
             | _, _ => False
             end.

(** Where a terminal can be for its bus to be known: in a bus-breaker level, connected to an existing bus or disconnected; in a
    node-breaker level, on its node.  The levels have had histories after which their caches are up to date (C31, C33). *)
Definition in_place (net : bnet) (t : tref) : Prop :=
  match bn_levels net !! tr_vl t with
  | Some (VB st) =>
    bb_reach bb_safe st /\ well_numbered st /\
    exists v c b, working st v /\ bv_conn v !! tr_term t = Some (c, b) /\ (c = true -> is_bus (e_sh st) b)
  | Some (VN st) => nb_reach fresh_safe st /\ is_Some (e_cur st) /\ term_at (nbg st) (tr_node t) (tr_term t)
  | None => False
  end.
(** The connected terminals of bus [b] know that they are on [b]. *)
Definition terminals_know (st : bbst) (v : bbvar) (b : string) : Prop :=
  forall t, hangs (e_sh st) v b t -> connected v t -> bv_conn v !! t = Some (true, b).
