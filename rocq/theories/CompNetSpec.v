(** Specification of the components: which buses are electrically connected, written on the public objects. *)
From stdpp Require Export gmap relations.
From Verif Require Export CompNet.

(** A closed switch, or an internal connection, between two places. *)
Definition cjoined (s : csh) (v : cvar) (a b : string) : Prop :=
  (exists id, cs_sw s !! id = Some (a, b) /\ cv_open v !! id = Some false) \/ (a, b) ∈ cs_ic s.
(** Terminal [i] of equipment [e], of kind [k], is connected to place [b]. *)
Definition on_bus (s : csh) (v : cvar) (e : string) (i : nat) (k : ekind) (b : string) : Prop :=
  exists bs, cs_eq s !! e = Some (k, bs) /\ bs !! i = Some b /\ cv_conn v !! (e, i) = Some true.
(** Two terminals of a branch; with [hv], also the stations of an HVDC line. *)
Definition clinked (hv : bool) (s : csh) (v : cvar) (a b : string) : Prop :=
  (exists e i j, i <> j /\ on_bus s v e i KBranch a /\ on_bus s v e j KBranch b) \/
  (hv = true /\ exists id s1 s2, (cs_hv s !! id = Some (s1, s2) \/ cs_hv s !! id = Some (s2, s1)) /\
                                 on_bus s v s1 0 KStation a /\ on_bus s v s2 0 KStation b).
Definition electrical (hv : bool) (s : csh) (v : cvar) : string -> string -> Prop :=
  rtc (fun a b => cjoined s v a b \/ cjoined s v b a \/ clinked hv s v a b).
(** Through closed switches and internal connections, terminal [i] of equipment [e] is connected to place [b]. *)
Definition reaches (s : csh) (v : cvar) (b : string) (e : string) (i : nat) (k : ekind) : Prop := exists b', rtsc (cjoined s v) b b' /\ on_bus s v e i k b'.
(** The place has a bus in the bus view.  A configured bus: a branch, dangling line or converter station is reached.  A node: a busbar section, a branch,
    a dangling line or a converter station is reached, and another terminal, not one of a busbar section. *)
Definition energised (s : csh) (v : cvar) (b : string) : Prop :=
  exists e i k, reaches s v b e i k /\
    ((b ∉ cs_node s /\ (k = KBranch \/ k = KStation \/ k = KDangling)) \/
     (b ∈ cs_node s /\ k <> KInjection /\ exists e' i' k', (e', i') <> (e, i) /\ reaches s v b e' i' k' /\ k' <> KBusbar)).
(** The places whose component can be asked: a configured bus, a node with a terminal. *)
Definition askable (s : csh) (b : string) : Prop := b ∈ cs_node s -> exists e k bs, cs_eq s !! e = Some (k, bs) /\ b ∈ bs.

Definition cworking (st : cst) (v : cvar) : Prop := exists i, e_cur st = Some i /\ e_vars st !! i = Some v.
Definition nocache (v : cvar) : Prop := cv_view v = ∅ /\ cv_cc v = [] /\ cv_sc v = [].
(** The histories covered.  A closed switch is only added or removed while nothing is computed; an internal
    connection, while nothing is computed in the other variants; a station has one HVDC line; equipments are added and
    removed with a working variant.  With [strict], HVDC lines are only added or removed while the connected components are not computed. *)
Definition csafe (strict : bool) (st : cst) (o : eop cop) : Prop :=
  match o with
  | ECall (CAddSwitch _ open _ _) => open = true \/ forall i v, e_vars st !! i = Some v -> nocache v
  | ECall (CRemoveSwitch id) => forall i v, e_vars st !! i = Some v -> cv_open v !! id <> Some false \/ nocache v
  | ECall (CAddInternal _ _) | ECall (CRemoveInternal _ _) => forall i v, e_vars st !! i = Some v -> e_cur st <> Some i -> nocache v
  | ECall (CAddEq _ _ _) | ECall (CRemoveEq _) => e_cur st <> None
  | ECall (CAddHvdc _ s1 s2) => s1 ∉ cs_at (e_sh st) /\ s2 ∉ cs_at (e_sh st) /\ (strict = true -> forall i v, e_vars st !! i = Some v -> cv_cc v = [])
  | ECall (CRemoveHvdc _) => strict = true -> forall i v, e_vars st !! i = Some v -> cv_cc v = []
  | _ => True
  end.
