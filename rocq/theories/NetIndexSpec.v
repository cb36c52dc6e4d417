(** What a network contains, seen by its user: the live objects with their id, type and aliases.  No index. *)
From stdpp Require Export gmap pretty.
From Verif Require Export Base NetIndex.

(** Aliases with their type ("" for an alias without type). *)
Record sobj := mkS { s_id : string; s_type : nat; s_aliases : gmap string string }.
Notation snet := (gmap nat sobj).

(** The name [s] is the id or an alias of the object [p]. *)
Definition names (sp : snet) (s : string) (p : nat) : Prop :=
  exists o, sp !! p = Some o /\ (s_id o = s \/ is_Some (s_aliases o !! s)).
Definition taken (sp : snet) (s : string) : Prop := exists p, names sp s p.

(** [u] is the name generated from [id]: [id] itself when possible, else the first free id#k. *)
Definition fresh_name (sp : snet) (id u : string) : Prop :=
  (id <> "" /\ ~ taken sp id /\ u = id) \/
  ((id = "" \/ taken sp id) /\
   let base := if decide (id = "") then "autoId" else id in
   exists k, u = base +:+ "#" +:+ pretty (N.of_nat k) /\ ~ taken sp u /\
             forall j, j < k -> taken sp (base +:+ "#" +:+ pretty (N.of_nat j))).

Definition sp_iinit (id : string) : snet := {[ 0 := mkS id ty_network ∅ ]}.

(** What is observed of an operation: accepted (with the created object if any), refused, or neither. *)
Inductive iout := IDone (p : option nat) | IRefused | IBroken.
Definition ioutcome (r : result (option nat)) : iout :=
  match r with Ok p => IDone p | Throw _ => IRefused | UB => IBroken | OutOfFuel => IBroken end.

Inductive sp_istep (sp : snet) : iop -> iout -> snet -> Prop :=
| sp_add (id : string) (ty : nat) (ensure : bool) (u : string) (p : nat) : id <> "" -> u <> "" -> ~ taken sp u -> (if ensure then fresh_name sp id u else u = id) -> sp !! p = None ->
    sp_istep sp (IAdd id ty ensure) (IDone (Some p)) (<[p := mkS u ty ∅]> sp)
| sp_add_refused (id : string) (ty : nat) (ensure : bool) : id = "" \/ (ensure = false /\ taken sp id) -> sp_istep sp (IAdd id ty ensure) IRefused sp
| sp_remove p : sp_istep sp (IRemove p) (IDone None) (delete p sp)
| sp_alias (p : nat) (x : sobj) (a t : string) (ensure : bool) (u : string) : sp !! p = Some x -> ~ taken sp u -> (if ensure then fresh_name sp a u else u = a) ->
    (t = "" \/ forall b, s_aliases x !! b <> Some t) ->
    sp_istep sp (IAddAlias p a t ensure) (IDone None) (<[p := mkS (s_id x) (s_type x) (<[u := t]> (s_aliases x))]> sp)
| sp_alias_same (p : nat) (x : sobj) (a t : string) : sp !! p = Some x -> names sp a p -> (t = "" \/ forall b, s_aliases x !! b <> Some t) ->
    sp_istep sp (IAddAlias p a t false) (IDone None) sp
| sp_alias_refused (p : nat) (x : sobj) (a t : string) (ensure : bool) : sp !! p = Some x ->
    (t <> "" /\ exists b, s_aliases x !! b = Some t) \/ (ensure = false /\ exists q, q <> p /\ names sp a q) ->
    sp_istep sp (IAddAlias p a t ensure) IRefused sp
| sp_unalias (p : nat) (x : sobj) (a : string) : sp !! p = Some x -> is_Some (s_aliases x !! a) ->
    sp_istep sp (IRemoveAlias p a) (IDone None) (<[p := mkS (s_id x) (s_type x) (delete a (s_aliases x))]> sp)
| sp_unalias_refused (p : nat) (x : sobj) (a : string) : sp !! p = Some x -> s_aliases x !! a = None -> sp_istep sp (IRemoveAlias p a) IRefused sp.

Inductive sp_irun : snet -> list iop -> list iout -> snet -> Prop :=
| sp_irun_nil sp : sp_irun sp [] [] sp
| sp_irun_snoc sp ops outs sp1 o out sp2 : sp_irun sp ops outs sp1 -> sp_istep sp1 o out sp2 ->
    sp_irun sp (ops ++ [o]) (outs ++ [out]) sp2.

(** The lookups and listings of the index give what the specification says. *)
Definition lookups_agree (ix : index) (sp : snet) : Prop :=
  (forall s p, ix_find ix s = Ok (Some p) <-> names sp s p) /\
  (forall s, ix_find ix s = Ok None <-> s <> "" /\ ~ taken sp s) /\
  (forall s, (exists m, ix_find ix s = Throw m) <-> s = "" /\ ~ taken sp s) /\
  (forall is_a s p, ix_find_as is_a ix s = Ok (Some p) <-> names sp s p /\ exists o, sp !! p = Some o /\ is_a (s_type o) = true) /\
  (forall is_a s p, ix_get_as is_a ix s = Ok p <-> names sp s p /\ exists o, sp !! p = Some o /\ is_a (s_type o) = true) /\
  (forall ty p, p ∈ ix_all ix ty <-> exists o, sp !! p = Some o /\ s_type o = ty) /\
  (forall ty, NoDup (ix_all ix ty)) /\
  (forall p, is_Some (ix_heap ix !! p) <-> is_Some (sp !! p)) /\
  (forall p o x, ix_heap ix !! p = Some o -> sp !! p = Some x ->
     o_id o = s_id x /\ o_type o = s_type x /\ (forall a, a ∈ o_aliases o <-> is_Some (s_aliases x !! a)) /\
     NoDup (o_aliases o) /\
     (forall t a, t <> "" -> o_alias_from_type o t = Ok (Some a) <-> s_aliases x !! a = Some t) /\
     (forall a t, s_aliases x !! a = Some t -> o_alias_type o a = t)).
