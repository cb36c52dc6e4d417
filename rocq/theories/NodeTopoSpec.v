(** What the bus views of a node-breaker voltage level must answer, stated on the abstract graph (live nodes with their terminal,
    live edges with their switch) and the positions of the switches. *)
From stdpp Require Import gmap pretty.
From Verif Require Import Base Graph GraphSpec Equip NodeTopo.

(** A switch lets current through for the bus view if closed, for the bus-breaker view if closed and not retained. *)
Definition conducts (vw : view) (open retained : bool) : Prop :=
  open = false /\ (vw = BusBreakerView -> retained = false).

Section spec.
  Context (vw : view) (s : sgraph nterm string) (sw : gmap string (bool * bool)).

  (** Nodes [a] and [b] are joined by an internal connection or a conducting switch. *)
  Definition link (a b : nat) : Prop :=
    exists e ob, sjoins s a e b ob /\
      match ob with None => True | Some id => exists open retained, sw !! id = Some (open, retained) /\ conducts vw open retained end.
  (** Electrically the same node. *)
  Definition same_node : nat -> nat -> Prop := rtc link.

  Definition on_edge (n : nat) : Prop := exists e b ob, sjoins s n e b ob.
  Definition term_at (n : nat) (t : nterm) : Prop := s_vertices s !! n = Some (Some t).

  Definition is_branch (t : nterm) : Prop :=
    nt_type t ∈ [LINE; TWO_WINDINGS_TRANSFORMER; THREE_WINDINGS_TRANSFORMER; HVDC_CONVERTER_STATION; DANGLING_LINE].
  Definition is_section (t : nterm) : Prop := nt_type t = BUSBAR_SECTION.
  Definition is_feeder (t : nterm) : Prop := nt_type t <> BUSBAR_SECTION.

  (** The group of node [n] is a bus: a busbar section and a feeder, or a branch and another feeder. *)
  Definition valid_group (n : nat) : Prop :=
    match vw with
    | BusView =>
      (exists a b ta tb, same_node n a /\ same_node n b /\ term_at a ta /\ term_at b tb /\ is_section ta /\ is_feeder tb) \/
      (exists a b ta tb, a <> b /\ same_node n a /\ same_node n b /\ term_at a ta /\ term_at b tb /\ is_branch ta /\ is_feeder tb)
    | BusBreakerView => True
    end.

  (** The id of the bus of node [n]: from the smallest node of its group. *)
  Definition bus_name (vl : string) (n : nat) (k : string) : Prop :=
    exists m, is_least (same_node n) m /\ k = vl +:+ "_" +:+ pretty (N.of_nat m).

  (** [n] belongs to a bus. *)
  Definition in_bus (n : nat) : Prop := on_edge n /\ valid_group n.

  (** [b] is the bus of node [n]: its terminals are those of the nodes of the group, each once. *)
  Definition bus_of (vl : string) (n : nat) (b : cbus) : Prop :=
    bus_name vl n (cb_id b) /\
    exists nodes, NoDup nodes /\ (forall m, m ∈ nodes <-> same_node n m) /\
      cb_terms b = omap (fun m => mjoin (s_vertices s !! m)) nodes.
End spec.

(** ** States *)
(** The topology shared by the variants. *)
Definition nbg (st : nbst) : sgraph nterm string := abs (nb_graph (e_sh st)).
(** Position of a switch in the working variant. *)
Definition pos (st : nbst) (id : string) : option (bool * bool) :=
  match e_cur st with Some i => match e_vars st !! i with Some v => nv_sw v !! id | None => None end | None => None end.
Definition changed (st st' : nbst) (id : string) : Prop := pos st' id <> pos st id.

(** [ob] is the right answer for the bus of node [n] in the working variant. *)
Definition answers_right (vw : view) (st : nbst) (n : nat) (ob : option cbus) : Prop :=
  exists i v, e_cur st = Some i /\ e_vars st !! i = Some v /\
    match ob with
    | Some b => in_bus vw (nbg st) (nv_sw v) n /\ bus_of vw (nbg st) (nv_sw v) (nb_id (e_sh st)) n b
    | None => ~ in_bus vw (nbg st) (nv_sw v) n
    end.
(** Nodes [a] and [b] are linked in the working variant. *)
Definition linked (vw : view) (st : nbst) (a b : nat) : Prop :=
  exists i v, e_cur st = Some i /\ e_vars st !! i = Some v /\ same_node vw (nbg st) (nv_sw v) a b.
Definition section_at (st : nbst) (n : nat) : Prop := exists t, term_at (nbg st) n t /\ is_section t.

(** The switches that connect and disconnect never go through: open disconnectors. *)
Definition blocks (st : nbst) (ob : option string) : bool :=
  match ob with Some s => bool_decide (nb_kind (e_sh st) !! s = Some DISCONNECTOR) && match pos st s with Some (true, _) => true | _ => false end | None => false end.
(** A path of distinct nodes from [n] to its first busbar section that goes through no open disconnector. *)
Definition route (st : nbst) (n : nat) (p : list nat) : Prop := simple_path (nbg st) is_busbar (blocks st) n p.
(** Which breaker an edge is. *)
Definition breaker_edge (st : nbst) (e : nat) (id : string) : Prop :=
  exists a b, s_edges (nbg st) !! e = Some (a, b, Some id) /\ nb_kind (e_sh st) !! id = Some BREAKER.

(** ** Histories *)
Definition no_cache (v : nbvar) : Prop := nv_bus v = None /\ nv_bb v = None.
Definition srt_ok (o : nbop) : Prop := match o with NConnect srt _ | NDisconnect srt _ => sorts srt | _ => True end.
(** Calls after which every cache is still up to date: switches are added and removed while no variant holds a cache, internal
    connections while no other variant than the working one holds a cache, terminals are attached with a working variant set. *)
Definition no_caches (st : nbst) : Prop := forall i v, e_vars st !! i = Some v -> no_cache v.
Definition no_other_caches (st : nbst) : Prop := forall i v, e_vars st !! i = Some v -> e_cur st <> Some i -> no_cache v.
Definition fresh_safe (st : nbst) (o : eop nbop) : Prop :=
  match o with
  | ECall (NAddSwitch _ _ _ _ _) | ECall (NRemoveSwitch _) => no_caches st
  | ECall (NAddInternal _ _) | ECall (NRemoveInternal _ _) => no_other_caches st
  | ECall (NAttach _ _) => is_Some (e_cur st) \/ no_caches st
  | ECall c => srt_ok c
  | _ => True
  end.
Definition any_safe (st : nbst) (o : eop nbop) : Prop := match o with ECall c => srt_ok c | _ => True end.
