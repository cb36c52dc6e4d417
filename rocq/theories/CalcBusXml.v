(** The calculated buses of a node-breaker voltage level in the XML file (src/iidm/converter/xml/VoltageLevelXml.cpp): their voltage
    magnitude and angle, written with the nodes of the bus and given back at the end of the reading.

    Simplifications, valid for the whole file:
    - the attributes are the values themselves: the text of doubles is in DoubleText.v (C54), and a list of nodes joined by commas is
      taken back as it is;
    - the values are those of the working variant (see [BusValues]); NaN is [None];
    - only files of version 1.1 or later have these elements (lines 74 and 246). *)
From stdpp Require Import sorting.
From Verif Require Export NodeTopo NodeGroups BusValues.

Section xml.
  Context {A : Type} (neg : A -> bool).
  Notation value := (option A).
  Notation nvals := (nterm -> value).

  (** An element "bus" inside "nodeBreakerTopology": writeCalculatedBus, lines 190-197. *)
  Record xbus := mkXB { xb_v : value; xb_angle : value; xb_nodes : list nat }.

  (** getV, getAngle: CalculatedBus.cpp:110-114 and 60-64, on the terminal found when the bus is built, lines 28 and 37-58.
      [n] is nodes.front(). *)
  Definition cb_values (n : nat) (b : cbus) (fv fa : nvals) : nbact (value * value) :=
    do! r := find_terminal n (cb_terms b) in aret (cb_get_v r fv, cb_get_v r fa).

  (** The loop of writeNodeBreakerTopology: lines 247-253; [l] enumerates nodesByBus, the nodes of each bus in the order of the
      std::set.  A bus without nodes does not occur (C57); it is answered as a bus without terminal. *)
  Fixpoint xb_write (l : list (string * gset nat)) (fv fa : nvals) : nbact (list xbus) :=
    match l with
    | [] => aret []
    | (k, N) :: l' =>
      do! ob := nb_bus_of_id BusView k in
      do! x := match ob with
               | None => aret None
               | Some b =>
                 do! va := cb_values (hd 0 (merge_sort le (elements N))) b fv fa in
                 aret (match va with
                       | (None, None) => None
                       | (v, a) => Some (mkXB v a (merge_sort le (elements N)))
                       end)
               end in
      do! xs := xb_write l' fv fa in
      aret (match x with Some x => x :: xs | None => xs end)
    end.

  (** The search of the end task of readCalculatedBus, lines 81-91: the bus, in the bus view, of the first node that has a terminal
      that has one; getTerminal throws for a node that does not exist (NodeBreakerVoltageLevel.cpp:306-308), getBus of the terminal:
      NodeTerminalViews.cpp:55-59. *)
  Fixpoint xb_find (ns : list nat) : nbact (option cbus) :=
    match ns with
    | [] => aret None
    | n :: ns' =>
      do! s := ashared in
      do! t := alift (g_vertex_object (nb_graph s) n) in
      match t with
      | None => xb_find ns'
      | Some _ =>
        do! b := nb_bus_of_node BusView n in
        match b with Some b => aret (Some b) | None => xb_find ns' end
      end
    end.
  (** CalculatedBus::setAngle: CalculatedBus.cpp:131-138; NodeTerminal::setAngle does not check (NodeTerminal.cpp:112-116). *)
  Definition cb_set_angle (b : cbus) (x : value) (f : nvals) : nvals := foldl (fun f t => nt_set t x f) f (cb_terms b).
  (** The end tasks of the elements, in their order: lines 78-92.  The result is the values after them. *)
  Fixpoint xb_read (xs : list xbus) (fv fa : nvals) : nbact (nvals * nvals) :=
    match xs with
    | [] => aret (fv, fa)
    | x :: xs' =>
      do! ob := xb_find (xb_nodes x) in
      match ob with
      | None => xb_read xs' fv fa
      | Some b =>
        match cb_set_v neg b (xb_v x) fv with
        | (Ok _, fv') => xb_read xs' fv' (cb_set_angle b (xb_angle x) fa)
        | (Throw m, _) => athrow m
        | (UB, _) => alift UB
        | (OutOfFuel, _) => alift OutOfFuel
        end
      end
    end.
End xml.
Arguments mkXB {A}.
Arguments xbus : clear implicits.
