(** Specification of the removal of a substation. *)
From stdpp Require Export gmap.
From Verif Require Export Removal.

(** Consistency of a network built through the API. *)
Record nwf (n : rnet) : Prop := {
  n_sub : forall s l, r_subs n !! s = Some l -> NoDup l /\ forall v, v ∈ l <-> exists x, r_vls n !! v = Some x /\ rv_sub x = s;
  n_vl : forall v x, r_vls n !! v = Some x -> is_Some (r_subs n !! rv_sub x);
  n_term : forall v x e, r_vls n !! v = Some x -> (e ∈ terminals x <-> exists k vs, r_eqs n !! e = Some (k, vs) /\ v ∈ vs);
  n_eq : forall e k vs, r_eqs n !! e = Some (k, vs) -> (forall v, v ∈ vs -> is_Some (r_vls n !! v)) /\ (k <> RMulti -> exists v, vs = [v]);
  n_hv : forall h s1 s2, r_hv n !! h = Some (s1, s2) -> forall st, st = s1 \/ st = s2 -> exists v, r_eqs n !! st = Some (RStation, [v]);
  n_one : forall h h' s1 s2 t1 t2, r_hv n !! h = Some (s1, s2) -> r_hv n !! h' = Some (t1, t2) -> s1 = t1 \/ s1 = t2 \/ s2 = t1 \/ s2 = t2 -> h = h'
}.
(** Equipment [e] has a terminal in one of the voltage levels [p]. *)
Definition touches (n : rnet) (p : list string) (e : string) : Prop := exists k vs v, r_eqs n !! e = Some (k, vs) /\ v ∈ vs /\ v ∈ p.
Definition in_substation (n : rnet) (s e : string) : Prop := exists k vs v, r_eqs n !! e = Some (k, vs) /\ v ∈ vs /\ sub_of n v = Some s.
(** No line, transformer or HVDC line goes from the substation to another. *)
Definition removable (n : rnet) (s : string) : Prop :=
  (forall e vs v w, r_eqs n !! e = Some (RMulti, vs) -> v ∈ vs -> w ∈ vs -> sub_of n v = Some s -> sub_of n w = Some s) /\
  (forall h s1 s2, r_hv n !! h = Some (s1, s2) -> (in_substation n s s1 <-> in_substation n s s2)).

(** The ids of the switches and of the buses of a voltage level. *)
Definition vl_ids (x : rvl) : list string :=
  match rv_topo x with RNode _ es => omap snd es | RBus bs sw => map fst bs ++ sw end.
Definition node_breaker (x : rvl) : Prop := exists ns es, rv_topo x = RNode ns es.
Definition no_internal (x : rvl) : Prop := forall ns es i j, rv_topo x = RNode ns es -> (i, j, None) ∉ es.

(** [n'] is [n] without substation [s], its voltage levels [l], their buses and switches, their equipments and the HVDC lines of their stations; nothing
    else is changed. *)
Record sub_removed (s : string) (l : list string) (n n' : rnet) : Prop := {
  d_subs : r_subs n' = delete s (r_subs n);
  d_vls : forall v, (v ∈ l -> r_vls n' !! v = None) /\ (v ∉ l -> r_vls n' !! v = r_vls n !! v);
  d_eqs : forall e, (touches n l e -> r_eqs n' !! e = None) /\ (~ touches n l e -> r_eqs n' !! e = r_eqs n !! e);
  d_hv : forall h, (forall s1 s2, r_hv n !! h = Some (s1, s2) -> touches n l s1 \/ touches n l s2 -> r_hv n' !! h = None) /\
                   ((forall s1 s2, r_hv n !! h = Some (s1, s2) -> ~ touches n l s1 /\ ~ touches n l s2) -> r_hv n' !! h = r_hv n !! h);
  d_idx : forall i, i ∈ r_idx n' <-> i ∈ r_idx n /\ forall v x, v ∈ l -> r_vls n !! v = Some x -> i ∉ vl_ids x
}.

(** A voltage level once equipment [e] has left it: a node is kept if another equipment has a terminal on it or if it is the end of an edge, and
    the last node is not a hole; nothing else changes. *)
Definition node_end (es : list (nat * nat * option string)) (i : nat) : Prop := exists a b sw, (a, b, sw) ∈ es /\ (a = i \/ b = i).
Definition shed (e : string) (x x' : rvl) : Prop :=
  rv_sub x' = rv_sub x /\
  match rv_topo x, rv_topo x' with
  | RNode ns es, RNode ns' es' =>
    es' = es /\ last ns' <> Some None /\ forall i,
      (forall e', ns' !! i = Some (Some (Some e')) <-> ns !! i = Some (Some (Some e')) /\ e' <> e) /\
      (ns' !! i = Some (Some None) <-> (ns !! i = Some (Some None) \/ ns !! i = Some (Some (Some e))) /\ node_end es i)
  | RBus bs sw, RBus bs' sw' => sw' = sw /\ Forall2 (fun b b' => b'.1 = b.1 /\ forall e', e' ∈ b'.2 <-> e' ∈ b.2 /\ e' <> e) bs bs'
  | _, _ => False
  end.
(** [n'] is [n] without equipment [e], which has terminals in the voltage levels [vs]. *)
Record eq_removed (e : string) (vs : list string) (n n' : rnet) : Prop := {
  q_subs : r_subs n' = r_subs n;
  q_hv : r_hv n' = r_hv n;
  q_idx : r_idx n' = r_idx n;
  q_eqs : r_eqs n' = delete e (r_eqs n);
  q_vls : forall v, match r_vls n !! v, r_vls n' !! v with
                    | Some x, Some x' => if bool_decide (v ∈ vs) then shed e x x' else x' = x
                    | None, None => True
                    | _, _ => False
                    end
}.
