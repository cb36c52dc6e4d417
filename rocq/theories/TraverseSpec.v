(** What [Terminal::traverse] should do, as a reachability question on the network. *)
From stdpp Require Import gmap sets relations.
From Verif Require Import Base Graph GraphSpec Traverse.

(** A network as the library builds it: graphs obtained by the operations of the graph class, each
    terminal recorded at its vertex and nowhere else, both ends of an equipment present. *)
Record tnet_wf (n : tnet) : Prop := {
  wf_nb : forall k g, tn_levels n !! k = Some (NodeBreaker g) -> g_reachable g;
  wf_bb : forall k g, tn_levels n !! k = Some (BusBreaker g) -> g_reachable g;
  wf_level : forall t i, tn_terms n !! t = Some i -> is_Some (tn_levels n !! ti_level i);
  wf_node : forall t i g, tn_terms n !! t = Some i -> tn_levels n !! ti_level i = Some (NodeBreaker g) ->
    s_vertices (abs g) !! ti_vertex i = Some (Some t);
  wf_bus : forall t i g, tn_terms n !! t = Some i -> tn_levels n !! ti_level i = Some (BusBreaker g) ->
    exists l, s_vertices (abs g) !! ti_vertex i = Some (Some l) /\ t ∈ l /\ NoDup l;
  wf_node_back : forall k g v t, tn_levels n !! k = Some (NodeBreaker g) -> s_vertices (abs g) !! v = Some (Some t) ->
    exists i, tn_terms n !! t = Some i /\ ti_level i = k /\ ti_vertex i = v;
  wf_bus_back : forall k g v l t, tn_levels n !! k = Some (BusBreaker g) -> s_vertices (abs g) !! v = Some (Some l) -> t ∈ l ->
    exists i, tn_terms n !! t = Some i /\ ti_level i = k /\ ti_vertex i = v;
  wf_bus_object : forall k g v o, tn_levels n !! k = Some (BusBreaker g) -> s_vertices (abs g) !! v = Some o -> is_Some o;
  wf_next : forall t i u, tn_terms n !! t = Some i -> u ∈ ti_next i -> is_Some (tn_terms n !! u);
}.

(** The answer of the traverser about a terminal. *)
Definition asked_connected (n : tnet) (u : nat) (c : bool) : Prop :=
  exists i, tn_terms n !! u = Some i /\
    match tn_levels n !! ti_level i with
    | Some (NodeBreaker _) => c = true
    | Some (BusBreaker _) => c = ti_connected i
    | None => False
    end.
Definition accepted (n : tnet) (tr : traverser) (u : nat) : Prop :=
  exists c, asked_connected n u c /\ tr_terminal tr u c = true.

(** One step inside a node/breaker level: an edge without switch or with an accepted one, to a node
    without terminal or with an accepted one. *)
Definition node_step (n : tnet) (tr : traverser) (g : graph nat nat) (a b : nat) : Prop :=
  exists e ob, sjoins (abs g) a e b ob /\
    (forall w, ob = Some w -> tr_switch tr w = true) /\
    (forall u, s_vertices (abs g) !! b = Some (Some u) -> accepted n tr u).
(** One step inside a bus/breaker level: an accepted switch. *)
Definition bus_step (tr : traverser) (g : graph (list nat) nat) (a b : nat) : Prop :=
  exists e ob, sjoins (abs g) a e b ob /\ (forall w, ob = Some w -> tr_switch tr w = true).

(** Two terminals of the same voltage level, one of them within reach of the other inside it. *)
Definition same_area (n : tnet) (tr : traverser) (t u : nat) : Prop :=
  exists i j, tn_terms n !! t = Some i /\ tn_terms n !! u = Some j /\ ti_level i = ti_level j /\
    match tn_levels n !! ti_level i with
    | Some (NodeBreaker g) => rtc (node_step n tr g) (ti_vertex i) (ti_vertex j)
    | Some (BusBreaker g) => rtc (bus_step tr g) (ti_vertex i) (ti_vertex j)
    | None => False
    end.
(** Two terminals of the same equipment. *)
Definition same_equipment (n : tnet) (t u : nat) : Prop :=
  exists i, tn_terms n !! t = Some i /\ u ∈ ti_next i.
Definition linked (n : tnet) (tr : traverser) (t u : nat) : Prop :=
  same_equipment n t u \/ same_area n tr t u.

(** The terminals a traversal from [t] should go through. *)
Definition within_reach (n : tnet) (tr : traverser) (t u : nat) : Prop :=
  accepted n tr t /\ rtc (fun a b => linked n tr a b /\ accepted n tr b) t u.

(** No bus/breaker level has a switch that the traverser accepts. *)
Definition buses_apart (n : tnet) (tr : traverser) : Prop :=
  forall k g a b, tn_levels n !! k = Some (BusBreaker g) -> ~ bus_step tr g a b.
Definition node_breaker_only (n : tnet) : Prop :=
  forall k l, tn_levels n !! k = Some l -> exists g, l = NodeBreaker g.
(** The order in which a set of terminals is visited (by address): any. *)
Definition visits (order : gset nat -> list nat) : Prop := forall X, order X ≡ₚ elements X.

(** Terminals accepted during the traversal, in order, with repetitions. *)
Definition gone_through (calls : list (nat * bool)) : list nat := map fst (filter (fun c => c.2 = true) calls).
