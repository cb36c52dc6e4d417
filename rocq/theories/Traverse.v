(** Model of [Terminal::traverse] with a [TopologyTraverser]:
    src/iidm/NodeBreakerVoltageLevel.cpp:393-434, src/iidm/BusBreakerVoltageLevel.cpp:364-413,
    src/iidm/VoltageLevel.cpp:47-74, src/iidm/NodeTerminal.cpp:138-144, src/iidm/BusTerminal.cpp:115-121.

    Simplifications, valid for the whole file:
    - a terminal is a number; so is a switch;
    - the traverser answers as a function of what it is asked (it has no memory); the questions about
      terminals are logged, those about switches are not;
    - [TerminalSet] (include/powsybl/iidm/TerminalSet.hpp) is a [std::set] ordered by address: the
      order in which its elements are visited is a parameter;
    - the network does not change during the traversal, the adjacency cache of each graph is not kept
      between two visits. *)
From stdpp Require Import gmap sets.
From Verif Require Import Base Graph GraphSpec GraphTraverse.

(** What the traversal reads of a terminal: its voltage level, its vertex there ([getNode()], or the
    vertex of [getConnectableBusId()]), [isConnected()], and the other terminals of its equipment that
    addNextTerminals (VoltageLevel.cpp:47-74) would add: the opposite terminal of a branch, the two
    other legs of a three windings transformer, nothing for an injection. *)
Record tinfo := mkTinfo {
  ti_level : nat;
  ti_vertex : nat;
  ti_connected : bool;
  ti_next : list nat;
}.

(** The graph of a voltage level.  Node/breaker: at most one terminal per node and no switch on an
    internal connection (NodeBreakerVoltageLevel.hpp, [m_graph]).  Bus/breaker: the terminals of each
    configured bus in the order of [ConfiguredBus::getTerminals] (BusBreakerVoltageLevel.hpp, [m_graph]). *)
Inductive level :=
| NodeBreaker (g : graph nat nat)
| BusBreaker (g : graph (list nat) nat).

Record tnet := mkTnet { tn_levels : list level; tn_terms : gmap nat tinfo }.

(** voltage_level::TopologyTraverser (include/powsybl/iidm/VoltageLevelTopologyTraverser.hpp): may the
    traversal go through this terminal (told whether it is connected), through this switch? *)
Record traverser := mkTraverser { tr_terminal : nat -> bool -> bool; tr_switch : nat -> bool }.

(** traversedTerminals; nextTerminals of the current call; questions asked with their answers. *)
Record tstate := mkTstate { ts_done : gset nat; ts_calls : list (nat * bool) }.
Record lstate := mkLstate { ls_done : gset nat; ls_next : gset nat; ls_calls : list (nat * bool) }.

Section traverse.
  Context (n : tnet) (tr : traverser) (order : gset nat -> list nat).

  (** The [connected] argument passed for terminal [u]: [true] in a node/breaker level
      (NodeBreakerVoltageLevel.cpp:403, 420), [isConnected()] in a bus/breaker one
      (BusBreakerVoltageLevel.cpp:377, 387, 403). *)
  Definition t_flag (u : nat) : bool :=
    match tn_terms n !! u with
    | Some i => match tn_levels n !! ti_level i with Some (BusBreaker _) => ti_connected i | _ => true end
    | None => true
    end.
  Definition t_ask (u : nat) : bool := tr_terminal tr u (t_flag u).

  (** addNextTerminals: VoltageLevel.cpp:47-74. *)
  Definition t_next (u : nat) : list nat := default [] (ti_next <$> tn_terms n !! u).

  (** The lambdas NodeBreakerVoltageLevel.cpp:411-428 and BusBreakerVoltageLevel.cpp:394-409 have the
      same shape once [swok e] says whether edge [e] may be crossed and [rep b] gives the terminal that
      is asked about when entering vertex [b]: first the answer, then the effects. *)
  Definition cb_continue (swok : nat -> bool) (rep : nat -> option nat) (a e b : nat) : bool :=
    swok e && match rep b with Some u => t_ask u | None => true end.
  Definition cb_effect (swok : nat -> bool) (rep : nat -> option nat) (s : lstate) (a e b : nat) : lstate :=
    if swok e then
      match rep b with
      | None => s
      | Some u =>
        if t_ask u then mkLstate ({[u]} ∪ ls_done s) (list_to_set (t_next u) ∪ ls_next s) (ls_calls s ++ [(u, true)])
        else mkLstate (ls_done s) (ls_next s) (ls_calls s ++ [(u, false)])
      end
    else s.

  (** NodeBreakerVoltageLevel.cpp:412, 414-415: an edge without switch is an internal connection. *)
  Definition nb_swok (g : graph nat nat) (e : nat) : bool :=
    match g_edge_object g e with Ok (Some w) => tr_switch tr w | _ => true end.
  (** NodeBreakerVoltageLevel.cpp:413: the terminal of a node. *)
  Definition nb_rep (g : graph nat nat) (b : nat) : option nat :=
    match g_vertex_object g b with Ok o => o | _ => None end.

  (** BusBreakerVoltageLevel.cpp:395, 397: every edge carries a switch. *)
  Definition bb_swok (g : graph (list nat) nat) (e : nat) : bool :=
    match g_edge_object g e with Ok (Some w) => tr_switch tr w | _ => true end.
  Definition bb_terminals (g : graph (list nat) nat) (b : nat) : list nat :=
    match g_vertex_object g b with Ok (Some l) => l | _ => [] end.
  (** BusBreakerVoltageLevel.cpp:398-402: only the first terminal of another bus is looked at. *)
  Definition bb_rep (g : graph (list nat) nat) (b : nat) : option nat := head (bb_terminals g b).

  (** BusBreakerVoltageLevel.cpp:386-390: the other terminals of the bus of [t].  They are not recorded
      in traversedTerminals. *)
  Fixpoint bb_same_bus (t : nat) (l : list nat) (s : lstate) : lstate :=
    match l with
    | [] => s
    | u :: l' =>
      bb_same_bus t l'
        (if u =? t then s
         else if t_ask u then mkLstate (ls_done s) (list_to_set (t_next u) ∪ ls_next s) (ls_calls s ++ [(u, true)])
         else mkLstate (ls_done s) (ls_next s) (ls_calls s ++ [(u, false)]))
    end.

  (** The part of the traversal inside the voltage level of [t], once [t] has been accepted:
      NodeBreakerVoltageLevel.cpp:404-428, BusBreakerVoltageLevel.cpp:378-409. *)
  Definition t_inside (t : nat) (s : tstate) : result lstate :=
    match tn_terms n !! t with
    | None => UB
    | Some i =>
      let s0 := mkLstate ({[t]} ∪ ts_done s) (list_to_set (t_next t)) (ts_calls s ++ [(t, true)]) in
      match tn_levels n !! ti_level i with
      | None => UB
      | Some (NodeBreaker g) =>
        result_map snd (g_traverse (ptrav (cb_continue (nb_swok g) (nb_rep g)) (cb_effect (nb_swok g) (nb_rep g))) g (ti_vertex i) s0).2
      | Some (BusBreaker g) =>
        result_map snd (g_traverse (ptrav (cb_continue (bb_swok g) (bb_rep g)) (cb_effect (bb_swok g) (bb_rep g))) g (ti_vertex i)
                          (bb_same_bus t (bb_terminals g (ti_vertex i)) s0)).2
      end
    end.

  (** NodeBreakerVoltageLevel.cpp:398-434, BusBreakerVoltageLevel.cpp:369-413.  [fuel] bounds the
      depth of the recursion; a theorem shows that it is never exhausted. *)
  Fixpoint t_traverse (fuel : nat) (t : nat) (s : tstate) : result tstate :=
    match fuel with
    | 0 => OutOfFuel
    | S fuel' =>
      if decide (t ∈ ts_done s) then Ok s
      else if t_ask t then
        match t_inside t s with
        | Ok ls =>
          (fix loop (l : list nat) (s : tstate) : result tstate :=
             match l with
             | [] => Ok s
             | u :: l' => match t_traverse fuel' u s with Ok s' => loop l' s' | r => r end
             end) (order (ls_next ls)) (mkTstate (ls_done ls) (ls_calls ls))
        | Throw m => Throw m
        | UB => UB
        | OutOfFuel => OutOfFuel
        end
      else Ok (mkTstate (ts_done s) (ts_calls s ++ [(t, false)]))
    end.

  (** Terminal::traverse(traverser): NodeBreakerVoltageLevel.cpp:393-396, BusBreakerVoltageLevel.cpp:364-367. *)
  Definition traverse (t : nat) : result tstate :=
    t_traverse (S (size (tn_terms n))) t (mkTstate ∅ []).
End traverse.
