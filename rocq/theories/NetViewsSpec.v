(** What the views of a network must answer, on the current topologies; which references to buses are alive; the histories. *)
From stdpp Require Import gmap pretty.
From Verif Require Import Base Equip NetViews.

Section spec.
  Context {T C : Type} (calc : view -> string -> T -> gmap string C).

  (** The names of the calculated buses: the id of the level, then a number. *)
  Definition named : Prop := forall vw vl t id, is_Some (calc vw vl t !! id) -> exists n : N, id = vl +:+ "_" +:+ pretty n.
  (** The working variant. *)
  Definition works (st : vst T C) (v : vvar T) : Prop := exists i, e_cur st = Some i /\ e_vars st !! i = Some v.
  (** The current topology of some voltage level has a calculated bus [id] with contents [c].  In the bus-breaker view only node-breaker
      levels calculate their buses. *)
  Definition bus_here (vw : view) (st : vst T C) (v : vvar T) (id : string) (c : C) : Prop :=
    exists vl nb t, vs_nb (e_sh st) !! vl = Some nb /\ (vw = BusBreakerView -> nb = true) /\ vv_topo v !! vl = Some t /\ calc vw vl t !! id = Some c.
  (** Only caches differ: levels, configured buses, variants and topologies are the same. *)
  Definition only_caches (st st' : vst T C) : Prop :=
    vs_nb (e_sh st') = vs_nb (e_sh st) /\ vs_conf (e_sh st') = vs_conf (e_sh st) /\ e_cur st' = e_cur st /\
    forall i, vv_topo <$> e_vars st' !! i = vv_topo <$> e_vars st !! i.
  (** [a] refers to a bus with contents [c], which belongs to level [vl] in variant [i] and view [vw]. *)
  Definition bus_ref (st : vst T C) (i vl : string) (vw : view) (a : nat * string) (c : C) : Prop :=
    exists v m, e_vars st !! i = Some v /\ vv_lev v !! (vl, vw) = Some a.1 /\ vs_heap (e_sh st) !! a.1 = Some m /\ m !! a.2 = Some c.
  (** An operation that changes the topology of level [vl] in variant [i] and says so, or replaces or removes this variant. *)
  Definition touches (st : vst T C) (o : eop (vop T)) (i vl : string) : Prop :=
    match o with
    | ECall (VChange vl' _) => vl' = vl /\ e_cur st = Some i
    | ECall (VAttach vl' _) => vl' = vl
    | EClone _ tgt _ => tgt = i
    | ERemove i' => i' = i
    | _ => False
    end.

  (** Later states. *)
  Definition later : vst T C -> vst T C -> Prop := rtc (fun st st' => exists o, st' = (vstep calc st o).2).

  (** ** Histories *)
  Definition any (st : vst T C) (o : eop (vop T)) : Prop := True.
  (** New levels have no bus; equipments are created and removed with a working variant; switches are added to and removed from a level
      while no cache is held of its buses or of the buses of the network (see C31). *)
  Definition fresh_safe (st : vst T C) (o : eop (vop T)) : Prop :=
    match o with
    | ECall (VAddLevel vl _ t) => forall vw, calc vw vl t = ∅
    | ECall (VAttach _ _) => e_cur st <> None
    | ECall (VQuiet vl _) => forall i v, e_vars st !! i = Some v -> (forall vw, vv_lev v !! (vl, vw) = None) /\ vv_bus v = None
    | _ => True
    end.
  (** Moreover no topology changes in a variant after a bus was searched by id in its bus-breaker view. *)
  Definition still_safe (st : vst T C) (o : eop (vop T)) : Prop :=
    fresh_safe st o /\
    match o with
    | ECall (VChange _ _) => forall v, works st v -> vv_bb v = None
    | ECall (VAttach _ _) | ECall (VQuiet _ _) => forall i v, e_vars st !! i = Some v -> vv_bb v = None
    | _ => True
    end.
End spec.
