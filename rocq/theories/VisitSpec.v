(** What a visitor must receive: for each terminal, one call that names its equipment, its kind and its side. *)
From stdpp Require Import gmap.
From Verif Require Import Base Graph Equip NodeTopo BusTopo Visit.

(** How many terminals an equipment of a type has. *)
Definition arity (ty : ctype) : nat :=
  match ty with LINE | TWO_WINDINGS_TRANSFORMER => 2 | THREE_WINDINGS_TRANSFORMER => 3 | _ => 1 end.
(** [e] is an equipment as the adders make it: its terminals carry its id, its type, and are numbered by side. *)
Definition well_made (id : string) (e : equipment) : Prop :=
  eq_terms e = (fun s => mkNT id s (eq_type e)) <$> seq 0 (arity (eq_type e)).
(** Terminal [t] is one of the terminals of its equipment. *)
Definition owned (es : gmap string equipment) (t : nterm) : Prop :=
  exists e, es !! nt_id t = Some e /\ well_made (nt_id t) e /\ t ∈ eq_terms e.

Definition side_number (s : vside) : nat := match s with ONE => 0 | TWO => 1 | THREE => 2 end.
(** The call that is right for a terminal. *)
Inductive describes (t : nterm) : vcall -> Prop :=
| d_battery : nt_type t = BATTERY -> describes t (VBattery (nt_id t))
| d_section : nt_type t = BUSBAR_SECTION -> describes t (VBusbarSection (nt_id t))
| d_dangling : nt_type t = DANGLING_LINE -> describes t (VDanglingLine (nt_id t))
| d_generator : nt_type t = GENERATOR -> describes t (VGenerator (nt_id t))
| d_hvdc : nt_type t = HVDC_CONVERTER_STATION -> describes t (VHvdcConverterStation (nt_id t))
| d_line s : nt_type t = LINE -> side_number s = nt_side t -> describes t (VLine (nt_id t) s)
| d_load : nt_type t = LOAD -> describes t (VLoad (nt_id t))
| d_shunt : nt_type t = SHUNT_COMPENSATOR -> describes t (VShuntCompensator (nt_id t))
| d_svc : nt_type t = STATIC_VAR_COMPENSATOR -> describes t (VStaticVarCompensator (nt_id t))
| d_three s : nt_type t = THREE_WINDINGS_TRANSFORMER -> side_number s = nt_side t -> describes t (VThreeWindingsTransformer (nt_id t) s)
| d_two s : nt_type t = TWO_WINDINGS_TRANSFORMER -> side_number s = nt_side t -> describes t (VTwoWindingsTransformer (nt_id t) s).

(** A visitor receives the calls [cs] one after the other, until one throws. *)
Inductive receives {X A} (vis : A -> X -> result A) : list X -> A -> result A -> Prop :=
| rc_end a : receives vis [] a (Ok a)
| rc_next c cs a a' r : vis a c = Ok a' -> receives vis cs a' r -> receives vis (c :: cs) a r
| rc_stop c cs a r : vis a c = r -> (forall a', r <> Ok a') -> receives vis (c :: cs) a r.

(** The terminals that satisfy [P] are visited, each once, in some order, each with the call that describes it. *)
Definition visits_each {A} (P : nterm -> Prop) (vis : A -> vcall -> result A) (a : A) (r : result A) : Prop :=
  exists ts cs, NoDup ts /\ (forall t, t ∈ ts <-> P t) /\ Forall2 describes ts cs /\ receives vis cs a r.
