(** What the creation and the removal of equipments should do, in terms of nodes, buses and terminals. *)
From Verif Require Export EquipNet.

(** Node [n] of level [vl] holds terminal [a]; bus [b] of level [vl] has terminal [a]. *)
Definition holds (nt : net) (vl : string) (n a : nat) : Prop :=
  exists sub vs es, n_levels nt !! vl = Some (sub, LNode vs es) /\ vs !! n = Some (Some a).
Definition on_bus (nt : net) (vl b : string) (a : nat) : Prop :=
  exists sub bs es l, n_levels nt !! vl = Some (sub, LBus bs es) /\ bs !! b = Some l /\ a ∈ l.
Definition at_place (nt : net) (vl : string) (p : place) (a : nat) : Prop :=
  match p with PNode n => holds nt vl n a | PBus b _ => on_bus nt vl b a end.
Definition same_place (p q : place) : Prop :=
  match p, q with PNode n, PNode n' => n = n' | PBus b _, PBus b' _ => b = b' | _, _ => False end.
(** The terminal is where it says it is. *)
Definition attached (nt : net) (t : terminal) : Prop := at_place nt (t_vl t) (t_place t) (t_id t).
(** Terminal [t] is one of those of equipment [id]. *)
Definition owns (nt : net) (id : string) (t : terminal) : Prop := exists ts, n_eqs nt !! id = Some ts /\ t ∈ ts.
Definition in_level (nt : net) (vl sub : string) : Prop := exists l, n_levels nt !! vl = Some (sub, l).
Definition bus_of (nt : net) (vl b : string) : Prop := exists sub bs es, n_levels nt !! vl = Some (sub, LBus bs es) /\ is_Some (bs !! b).
Definition node_level (nt : net) (vl : string) : Prop := exists sub vs es, n_levels nt !! vl = Some (sub, LNode vs es).
Definition bus_level (nt : net) (vl : string) : Prop := exists sub bs es, n_levels nt !! vl = Some (sub, LBus bs es).

(** ** Requests *)
(** What a side asks for: a node; a bus, to connect to; a bus, without connecting. *)
Definition wants (s : side) (p : place) : Prop :=
  match p with
  | PNode n => s_node s = Some n /\ s_bus s = "" /\ s_cbus s = ""
  | PBus b true => s_node s = None /\ b <> "" /\ s_bus s = b /\ (s_cbus s = "" \/ s_cbus s = b)
  | PBus b false => s_node s = None /\ b <> "" /\ s_bus s = "" /\ s_cbus s = b
  end.
(** The level can take it: right kind of level, existing bus. *)
Definition suits (nt : net) (vl : string) (p : place) : Prop :=
  match p with PNode _ => node_level nt vl | PBus b _ => bus_of nt vl b end.
(** The place is free: buses always are. *)
Definition free (nt : net) (vl : string) (p : place) : Prop :=
  match p with PNode n => forall a, ~ holds nt vl n a | PBus _ _ => True end.
Definition new_id (nt : net) (id : string) : Prop := id <> "" /\ id ∉ n_ids nt /\ n_levels nt !! id = None /\ n_eqs nt !! id = None.
(** Two of the places are the same node. *)
Definition node_of (x : string * place) : option (string * nat) := match x.2 with PNode n => Some (x.1, n) | PBus _ _ => None end.
Definition distinct_nodes (ps : list (string * place)) : Prop := NoDup (omap node_of ps).
(** The sides ask for the places [ps]. *)
Definition want_all (ss : list side) (ps : list (string * place)) : Prop := Forall2 (fun s x => x.1 = s_vl s /\ wants s x.2) ss ps.
Definition in_substation (nt : net) (sub : option string) (s : side) : Prop := exists k, in_level nt (s_vl s) k /\ match sub with Some k' => k = k' | None => True end.

(** ** Effects *)
(** Equipment [id] is new, with terminals at [ps]; they are attached and nothing else has changed. *)
Record created (nt nt' : net) (id : string) (ps : list (string * place)) : Prop := {
  cr_terms : exists ts, n_eqs nt' = <[id := ts]> (n_eqs nt) /\ (fun t => (t_vl t, t_place t)) <$> ts = ps /\
    (forall t, t ∈ ts -> attached nt' t) /\ NoDup (t_id <$> ts) /\
    (forall t id' t', t ∈ ts -> owns nt id' t' -> t_id t <> t_id t') /\
    forall vl p a, at_place nt' vl p a <-> at_place nt vl p a \/ exists t, t ∈ ts /\ t_id t = a /\ t_vl t = vl /\ same_place (t_place t) p;
  cr_ids : n_ids nt' = n_ids nt;
  cr_work : n_work nt' = n_work nt;
  cr_level : forall vl sub, in_level nt' vl sub <-> in_level nt vl sub;
  cr_bus : forall vl b, bus_of nt' vl b <-> bus_of nt vl b }.

(** Equipment [id] is gone, its terminals are detached and nothing else has changed. *)
Record removed (nt nt' : net) (id : string) : Prop := {
  rm_eqs : n_eqs nt' = delete id (n_eqs nt);
  rm_ids : n_ids nt' = n_ids nt;
  rm_work : n_work nt' = n_work nt;
  rm_place : forall vl p a, at_place nt' vl p a <-> at_place nt vl p a /\ forall t, owns nt id t -> t_id t <> a;
  rm_level : forall vl sub, in_level nt' vl sub <-> in_level nt vl sub;
  rm_bus : forall vl b, bus_of nt' vl b <-> bus_of nt vl b }.

(** ** Histories *)
Inductive net_reach (P : nop -> net -> Prop) : net -> Prop :=
| nr_new : net_reach P net0
| nr_step o nt : net_reach P nt -> P o nt -> net_reach P (nstep o nt).2.
Definition any (_ : nop) (_ : net) : Prop := True.
Definition creates (o : nop) : option string :=
  match o with OInjection id _ | ORegulated id _ | OBusbar id _ _ | OBranch _ id _ _ | OThree _ id _ _ _ => Some id | _ => None end.
(** The calls that fail leave no trace. *)
Definition no_trace (o : nop) (nt : net) : Prop := (exists id, creates o = Some id) -> (exists m, (nstep o nt).1 = Throw m) -> (nstep o nt).2 = nt.

(** ** Creations *)
(** What a creation asks for: the id, the substation the levels must belong to, the sides. *)
Definition request (o : nop) : option (string * option string * list side) :=
  match o with
  | OInjection id s | ORegulated id s => Some (id, None, [s])
  | OBusbar id vl n => Some (id, None, [mkSide vl n "" ""])
  | OBranch sub id s1 s2 => Some (id, sub, [s1; s2])
  | OThree sub id s1 s2 s3 => Some (id, Some sub, [s1; s2; s3])
  | _ => None
  end.
(** The request is right: a new id, levels that exist, in the substation, that can take the places asked for. *)
Definition right_request (o : nop) (nt : net) (ps : list (string * place)) : Prop :=
  exists id sub ss, request o = Some (id, sub, ss) /\ new_id nt id /\ Forall (in_substation nt sub) ss /\ want_all ss ps /\ Forall (fun x => suits nt x.1 x.2) ps.
(** The equipment enters the network, whatever comes next: for an injection when the level exists and the id is new; for a generator, a
    shunt compensator or a static var compensator when, moreover, the side can be read; for the others when the request is right and, without working variant, asks for no bus. *)
Definition enters (o : nop) (nt : net) : Prop :=
  match o with
  | OInjection id s => (exists k, in_level nt (s_vl s) k) /\ new_id nt id
  | ORegulated id s => (exists k, in_level nt (s_vl s) k) /\ new_id nt id /\ exists p, wants s p
  | _ => exists ps, right_request o nt ps /\ (n_work nt = true \/ Forall (fun x => exists n, x.2 = PNode n) ps)
  end.
