(** Removal of a voltage level and of a substation (src/iidm/Substation.cpp, VoltageLevel.cpp, util/Substations.cpp, util/VoltageLevels.cpp,
    Connectable.cpp, NodeBreakerVoltageLevel.cpp, BusBreakerVoltageLevel.cpp, HvdcLine.cpp).

    Simplifications, valid for the whole file:
    - objects are designated by their ids; an object is destroyed when its id leaves its table;
    - the terminals of one equipment in one voltage level are detached together;
    - the ids of the buses and switches of the voltage levels are in one set, [r_idx];
    - one variant (detach acts in every variant); the attributes of the objects are left out. *)
From stdpp Require Export gmap.
From Verif Require Export Base.

Inductive rkind := RMulti | RStation | RInjection. (* lines and transformers; HVDC converter stations; the others *)
#[global] Instance rkind_eq_dec : EqDecision rkind.
Proof. solve_decision. Defined.
(** A graph vertex: [None] removed, [Some None] without a terminal, [Some (Some e)] with a terminal of equipment [e].
    A graph edge: its ends, and its switch, [None] for an internal connection. *)
Inductive rtopo :=
| RNode (nodes : list (option (option string))) (edges : list (nat * nat * option string))
| RBus (buses : list (string * list string)) (switches : list string).
Record rvl := mkRV { rv_sub : string; rv_topo : rtopo }.
(** The substations with their vector m_voltageLevels, the voltage levels, the equipments with the voltage levels of their terminals, the HVDC lines
    with their two stations, the ids of the buses and switches. *)
Record rnet := mkRN { r_subs : gmap string (list string); r_vls : gmap string rvl; r_eqs : gmap string (rkind * list string);
                      r_hv : gmap string (string * string); r_idx : gset string }.
Definition set_vls (n : rnet) (m : gmap string rvl) : rnet := mkRN (r_subs n) m (r_eqs n) (r_hv n) (r_idx n).
Definition set_eqs (n : rnet) (m : gmap string (rkind * list string)) : rnet := mkRN (r_subs n) (r_vls n) m (r_hv n) (r_idx n).
Definition set_hv (n : rnet) (m : gmap string (string * string)) : rnet := mkRN (r_subs n) (r_vls n) (r_eqs n) m (r_idx n).

(** getTerminals: NodeBreakerVoltageLevel.cpp:310-328, BusBreakerVoltageLevel.cpp:247-261; the equipment of each. *)
Definition terminals (x : rvl) : list string :=
  match rv_topo x with RNode ns _ => omap (fun o => o ≫= id) ns | RBus bs _ => concat (map snd bs) end.
(** Network::findHvdcLine: Network.cpp:113-119. *)
Definition line_of (n : rnet) (st : string) : option (string * (string * string)) :=
  snd <$> list_find (fun x : string * (string * string) => x.2.1 = st \/ x.2.2 = st) (map_to_list (r_hv n)).

(** ** Removability *)
Definition sub_of (n : rnet) (v : string) : option string := rv_sub <$> r_vls n !! v.
(** checkRemovability(substation, ...): Substations.cpp:44-69; [true]: passes. *)
Definition all_in (n : rnet) (s : string) (vs : list string) : bool := forallb (fun v => bool_decide (sub_of n v = Some s)) vs.
Definition station_in (n : rnet) (s st : string) : bool := match r_eqs n !! st with Some (_, vs) => all_in n s vs | None => false end.
Definition conn_ok (n : rnet) (s e : string) : bool :=
  match r_eqs n !! e with
  | Some (RMulti, vs) => all_in n s vs
  | Some (RStation, _) => match line_of n e with Some (_, (s1, s2)) => station_in n s s1 && station_in n s s2 | None => true end
  | _ => true
  end.
(** checkRemovability(substation): Substations.cpp:29-42. *)
Definition sub_ok (n : rnet) (s : string) (l : list string) : bool :=
  forallb (fun v => match r_vls n !! v with Some x => forallb (conn_ok n s) (terminals x) | None => true end) l.
(** checkRemovability(voltageLevel): VoltageLevels.cpp:24-37. *)
Definition vl_ok (n : rnet) (x : rvl) : bool :=
  forallb (fun e => match r_eqs n !! e with
                    | Some (RMulti, _) => false
                    | Some (RStation, _) => match line_of n e with Some _ => false | None => true end
                    | _ => true
                    end) (terminals x).

(** ** Removing an equipment *)
(** clean(), removeIsolatedVertices: NodeBreakerVoltageLevel.cpp:86-88, UndirectedGraph.hxx:373-411: the vertices without an edge nor a terminal are
    removed, and the removed vertices at the end of the vector popped. *)
Fixpoint trim (l : list (option (option string))) : list (option (option string)) :=
  match l with [] => [] | x :: l' => match x, trim l' with None, [] => [] | _, t => x :: t end end.
Definition clean (ns : list (option (option string))) (es : list (nat * nat * option string)) : list (option (option string)) :=
  trim (imap (fun i (o : option (option string)) =>
                match o with Some None => if bool_decide (Exists (fun e : nat * nat * option string => e.1.1 = i \/ e.1.2 = i) es) then o else None | _ => o end) ns).
(** detach: NodeBreakerVoltageLevel.cpp:129-143, BusBreakerVoltageLevel.cpp:108-120. *)
Definition detach (e : string) (x : rvl) : rvl :=
  mkRV (rv_sub x)
    match rv_topo x with
    | RNode ns es => RNode (clean (map (fun o => if bool_decide (o = Some (Some e)) then Some None else o) ns) es) es
    | RBus bs sw => RBus (map (fun b => (b.1, filter (fun e' => e' <> e) b.2)) bs) sw
    end.
Definition detach_all (e : string) (vs : list string) (m : gmap string rvl) : gmap string rvl := foldl (fun m v => alter (detach e) v m) m vs.
(** Connectable::remove: Connectable.cpp:95-104; HvdcConverterStation::remove: HvdcConverterStation.cpp:34-39. *)
Definition remove_eq (e : string) (n : rnet) : result unit * rnet :=
  match r_eqs n !! e with
  | None => (UB, n)
  | Some (k, vs) =>
    if bool_decide (k = RStation) && bool_decide (is_Some (line_of n e)) then (Throw "Impossible to remove this converter station", n)
    else (Ok tt, set_eqs (set_vls n (detach_all e vs (r_vls n))) (delete e (r_eqs n)))
  end.
(** HvdcLine::remove: HvdcLine.cpp:123-133. *)
Definition remove_line (h : string) (n : rnet) : result unit * rnet := (Ok tt, set_hv n (delete h (r_hv n))).

(** ** Iterating on vl.getConnectables() while the body changes the voltage level (VoltageLevel.hxx:77-85) *)
(** Node-breaker: iterators on the vector m_vertices (UndirectedGraph.hxx:311-317), here positions; the end is the one of the start of the loop; a
    popped vertex is a null pointer.  DistinctPredicate.cpp:17-29: [seen]. *)
Fixpoint node_loop (body : string -> rnet -> result unit * rnet) (v : string) (k pos : nat) (seen : list string) (n : rnet) : result unit * rnet :=
  match k with
  | 0 => (Ok tt, n)
  | S k' =>
    match (match rv_topo <$> r_vls n !! v with Some (RNode ns _) => mjoin (mjoin (ns !! pos)) | _ => None end) with
    | None => node_loop body v k' (S pos) seen n
    | Some e =>
      if bool_decide (e ∈ seen) then node_loop body v k' (S pos) seen n
      else match body e n with
           | (Ok _, n') => node_loop body v k' (S pos) (e :: seen) n'
           | r => r
           end
    end
  end.
(** Bus-breaker: iterators on the std::list of terminals of each bus (ConfiguredBus.hpp, flattened.hpp); when the body has erased the terminal under
    the iterator, incrementing it is undefined. *)
Fixpoint bus_loop (body : string -> rnet -> result unit * rnet) (l seen : list string) (n : rnet) : result unit * rnet :=
  match l with
  | [] => (Ok tt, n)
  | e :: l' =>
    if bool_decide (e ∈ seen) then bus_loop body l' seen n
    else match body e n with
         | (Ok _, n') => if bool_decide (is_Some (r_eqs n' !! e)) then bus_loop body l' (e :: seen) n' else (UB, n')
         | r => r
         end
  end.
Definition each_connectable (body : string -> rnet -> result unit * rnet) (v : string) (n : rnet) : result unit * rnet :=
  match rv_topo <$> r_vls n !! v with
  | None => (UB, n)
  | Some (RNode ns _) => node_loop body v (length ns) 0 [] n
  | Some (RBus bs _) => bus_loop body (concat (map snd bs)) [] n
  end.

(** ** Removing a voltage level *)
(** removeTopology: NodeBreakerVoltageLevel.cpp:385-391 (the null switch of an internal connection cannot be dereferenced: reference.hpp:69-78),
    BusBreakerVoltageLevel.cpp:296-321, 359-362. *)
Fixpoint drop_edges (es : list (nat * nat * option string)) (idx : gset string) : result unit * gset string :=
  match es with
  | [] => (Ok tt, idx)
  | (_, None) :: _ => (Throw "m_pointer is null", idx)
  | (_, Some sw) :: es' => drop_edges es' (idx ∖ {[sw]})
  end.
Definition set_idx (n : rnet) (i : gset string) : rnet := mkRN (r_subs n) (r_vls n) (r_eqs n) (r_hv n) i.
Definition remove_topology (x : rvl) (n : rnet) : result unit * rnet :=
  match rv_topo x with
  | RNode _ es => let r := drop_edges es (r_idx n) in (r.1, set_idx n r.2)
  | RBus bs sw => (Ok tt, set_idx n (r_idx n ∖ list_to_set (map fst bs ++ sw)))
  end.
(** Substation::remove(voltageLevel) (Substation.cpp:155-162), then the removal from the index. *)
Definition drop_vl (v : string) (x : rvl) (n : rnet) : rnet :=
  mkRN (alter (filter (fun w => w <> v)) (rv_sub x) (r_subs n)) (delete v (r_vls n)) (r_eqs n) (r_hv n) (r_idx n).
(** VoltageLevel::remove: VoltageLevel.cpp:237-251. *)
Definition vl_remove (v : string) (n : rnet) : result unit * rnet :=
  match r_vls n !! v with
  | None => (UB, n)
  | Some x =>
    if negb (vl_ok n x) then (Throw "The voltage level cannot be removed", n)
    else match each_connectable remove_eq v n with
         | (Ok _, n1) =>
           match r_vls n1 !! v with
           | None => (UB, n1)
           | Some x1 => match remove_topology x1 n1 with (Ok _, n2) => (Ok tt, drop_vl v x1 n2) | r => r end
           end
         | r => r
         end
  end.

(** ** Removing a substation *)
(** The body of the first inner loop: Substation.cpp:135-145. *)
Definition sub_body (e : string) (n : rnet) : result unit * rnet :=
  match r_eqs n !! e with
  | None => (UB, n)
  | Some (RMulti, _) => remove_eq e n
  | Some (RStation, _) => match line_of n e with Some (h, _) => remove_line h n | None => (Ok tt, n) end
  | Some (RInjection, _) => (Ok tt, n)
  end.
Definition vl_phase (v : string) (n : rnet) : result unit * rnet :=
  match each_connectable sub_body v n with (Ok _, n') => vl_remove v n' | r => r end.
(** The loop on m_voltageLevels (Substation.cpp:133-149), from which vl.remove() erases.  The iterators are pointers into the buffer of the vector:
    its first cells are the current elements, the others ([stale]) keep what they had when the elements were moved down; the end is the one of the
    start.  Reading a cell that designates a destroyed voltage level is undefined.  With [strict], incrementing an iterator that an erase has
    invalidated is undefined too, as the C++ standard says. *)
Fixpoint sub_loop (strict : bool) (s : string) (k pos : nat) (stale : list string) (n : rnet) : result unit * rnet :=
  match k with
  | 0 => (Ok tt, n)
  | S k' =>
    let live := default [] (r_subs n !! s) in
    match (live ++ stale) !! pos with
    | None => (UB, n)
    | Some v =>
      match r_vls n !! v with
      | None => (UB, n)
      | Some _ =>
        match vl_phase v n with
        | (Ok _, n') => if strict then (UB, n') else sub_loop strict s k' (S pos) (from_option (fun w => [w]) [] (last live) ++ stale) n'
        | r => r
        end
      end
    end
  end.
(** Substation::remove: Substation.cpp:130-153. *)
Definition sub_remove (strict : bool) (s : string) (n : rnet) : result unit * rnet :=
  match r_subs n !! s with
  | None => (UB, n)
  | Some l =>
    if negb (sub_ok n s l) then (Throw "The substation is still connected to another substation", n)
    else match sub_loop strict s (length l) 0 [] n with
         | (Ok _, n') => (Ok tt, mkRN (delete s (r_subs n')) (r_vls n') (r_eqs n') (r_hv n') (r_idx n'))
         | r => r
         end
  end.
