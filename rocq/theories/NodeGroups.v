(** The nodes of each bus of a node-breaker voltage level and the terminal that stands for a node without equipment
    (src/iidm/util/Networks.cpp), on the voltage levels of [NodeTopo].

    Simplifications: a terminal is given by the node it is attached to (the terminal of node [n] answers [n] to getNode); the test
    of the kind of topology, which throws in bus-breaker voltage levels, is left out, these having no nodes. *)
From Verif Require Export NodeTopo.

Section equivalent.
  Context (g : graph nterm string) (cur : result nbvar).

  (** The first test of the traverser, Networks.cpp:30-32: is there an open switch?  Switch::isOpen (Switch.cpp:71-73) reads the
      working variant, [cur]; it throws if there is none.  getEdgeObject: NodeBreakerVoltageLevelViews.cpp:315-317. *)
  Definition eq_open (e : nat) : result bool :=
    let! o := g_edge_object g e in
    match o with
    | None => Ok false
    | Some s => let! v := cur in match nv_sw v !! s with Some p => Ok p.1 | None => UB end
    end.
  (** The traverser, Networks.cpp:29-38: the terminal recorded is the last one met; the search goes on where there is none. *)
  Definition eq_go (_ e v2 : nat) : bool :=
    match eq_open e with Ok false => match g_vertex_object g v2 with Ok None => true | _ => false end | _ => false end.
  Definition eq_upd (s : result (option nat)) (_ e v2 : nat) : result (option nat) :=
    let! r := s in
    let! op := eq_open e in
    if op : bool then Ok r else let! t := g_vertex_object g v2 in Ok (match t with Some _ => Some v2 | None => r end).
  Definition eq_visit (s : result (option nat)) (v1 e v2 : nat) : result (option nat) * bool := (eq_upd s v1 e v2, eq_go v1 e v2).
End equivalent.

(** Networks::getEquivalentTerminal: Networks.cpp:22-43. *)
Definition nb_equivalent (n : nat) : nbact (option nat) := fun st =>
  let cur := (aget st).1 in
  (do! x := gact (fun g => g_traverse (eq_visit g cur) g n (Ok None)) in alift x.2) st.

(** terminal.getBusView().getBus(): NodeTerminalViews.cpp:55-59, and nodesByBus[bus.getId()].insert(node): Networks.cpp:54-57, 62-65. *)
Definition add_node (n m : nat) (acc : gmap string (gset nat)) : nbact (gmap string (gset nat)) :=
  do! b := nb_bus_of_node BusView m in
  aret (match b with Some b => <[cb_id b := {[n]} ∪ default ∅ (acc !! cb_id b)]> acc | None => acc end).
(** The loop of Networks::getNodesByBus: Networks.cpp:50-69. *)
Fixpoint nodes_loop (ns : list nat) (acc : gmap string (gset nat)) : nbact (gmap string (gset nat)) :=
  match ns with
  | [] => aret acc
  | n :: ns' =>
    do! s := ashared in
    do! t := alift (g_vertex_object (nb_graph s) n) in
    match t with
    | Some _ => do! acc' := add_node n n acc in nodes_loop ns' acc'
    | None =>
      do! e := nb_equivalent n in
      match e with
      | Some m => do! acc' := add_node n m acc in nodes_loop ns' acc'
      | None => nodes_loop ns' acc
      end
    end
  end.
(** Networks::getNodesByBus: Networks.cpp:45-72; getNodes: NodeBreakerVoltageLevelViews.cpp:208-210. *)
Definition nb_nodes_by_bus : nbact (gmap string (gset nat)) :=
  do! s := ashared in nodes_loop (g_get_vertices (nb_graph s)) ∅.
