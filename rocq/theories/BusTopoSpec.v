(** Specification of bus-breaker voltage levels: when two configured buses are the same electrical node, which terminals they
    carry, which merged buses exist.  Written on the public objects (bus ids, switches, terminals), without the functions of the model. *)
From stdpp Require Export gmap.
From Verif Require Import Base Graph GraphSpec Equip NodeTopo BusTopo.

(** The attributes of the working variant. *)
Definition working (st : bbst) (v : bbvar) : Prop := exists i, e_cur st = Some i /\ e_vars st !! i = Some v.
(** [b] is a configured bus of the voltage level. *)
Definition is_bus (s : bbsh) (b : string) : Prop := exists u, bb_live s !! u = Some b.
(** The configured bus object [u] sits on vertex [x]. *)
Definition on_vertex (s : bbsh) (u x : nat) : Prop := s_vertices (abs (bb_graph s)) !! x = Some (Some u).
(** A closed switch joins buses [b1] and [b2]. *)
Definition joined (s : bbsh) (v : bbvar) (b1 b2 : string) : Prop :=
  exists sw e x1 x2 u1 u2, sjoins (abs (bb_graph s)) x1 e x2 (Some sw) /\ bv_open v !! sw = Some false /\
    on_vertex s u1 x1 /\ on_vertex s u2 x2 /\ bb_live s !! u1 = Some b1 /\ bb_live s !! u2 = Some b2.
(** [b1] and [b2] are linked by closed switches. *)
Definition same_bus (s : bbsh) (v : bbvar) : string -> string -> Prop := rtc (joined s v).
(** Terminal [t] hangs on bus [b] (connected or not). *)
Definition hangs (s : bbsh) (v : bbvar) (b : string) (t : nterm) : Prop :=
  exists u l, bb_live s !! u = Some b /\ bv_terms v !! u = Some l /\ t ∈ l.
Definition connected (v : bbvar) (t : nterm) : Prop := exists id, bv_conn v !! t = Some (true, id).
(** Terminals that make a merged bus exist: of branches, dangling lines and HVDC converter stations. *)
Definition is_branch (t : nterm) : Prop :=
  nt_type t = LINE \/ nt_type t = TWO_WINDINGS_TRANSFORMER \/ nt_type t = THREE_WINDINGS_TRANSFORMER \/
  nt_type t = HVDC_CONVERTER_STATION \/ nt_type t = DANGLING_LINE.
(** The electrical node of [b] is a bus of the bus view: it carries a connected branch terminal. *)
Definition in_bus_view (s : bbsh) (v : bbvar) (b : string) : Prop :=
  exists b' t, same_bus s v b b' /\ hangs s v b' t /\ connected v t /\ is_branch t.

(** The only thing two states differ by is the cache of the working variant (and the adjacency cache of the graph). *)
Definition same_but_merged (st st' : bbst) : Prop :=
  let s := e_sh st in let s' := e_sh st' in
  abs (bb_graph s') = abs (bb_graph s) /\ bb_id s' = bb_id s /\ bb_buses s' = bb_buses s /\ bb_sw s' = bb_sw s /\
  bb_live s' = bb_live s /\ bb_next s' = bb_next s /\ bb_ids s' = bb_ids s /\ e_cur st' = e_cur st /\
  forall i, match e_vars st !! i, e_vars st' !! i with
            | Some v, Some v' => bv_open v' = bv_open v /\ bv_terms v' = bv_terms v /\ bv_conn v' = bv_conn v /\
                                 (Some i <> e_cur st -> v' = v)
            | None, None => True
            | _, _ => False
            end.

(** ** Histories for which the caches stay up to date and the memory is safe *)
Definition no_merged (st : bbst) : Prop := forall i v, e_vars st !! i = Some v -> bv_cache v = None.
(** The smallest vertex number in use is smaller than the number of vertices: what updateCache needs to be memory safe. *)
Definition well_numbered (st : bbst) : Prop :=
  forall x, is_Some (s_vertices (abs (bb_graph (e_sh st))) !! x) ->
            (forall y, is_Some (s_vertices (abs (bb_graph (e_sh st))) !! y) -> x <= y) ->
            x < size (s_vertices (abs (bb_graph (e_sh st)))).
Definition bb_safe (st : bbst) (o : eop bbop) : Prop :=
  match o with
  | ECall (BAddSwitch _ _ _ _) | ECall (BRemoveSwitch _) | ECall BRemoveAllSwitches => no_merged st
  | ECall BRemoveAllBuses => g_edges (bb_graph (e_sh st)) = [] \/ s_edges (abs (bb_graph (e_sh st))) <> ∅
  | ECall (BMerged _) | ECall (BById _) | ECall (BTerminals _) | ECall (BTerminalBus _) => well_numbered st
  | _ => True
  end.
