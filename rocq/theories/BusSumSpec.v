(** Specification: the total of a collection of exact numbers, NaN excepted. *)
From stdpp Require Export list.
From Coq Require Export QArith.
From Verif Require Export Equip DblArith BusSum.

(** The exact sum of the finite values. *)
Definition qsum (l : list dbl) : Q := foldr (fun x s => match x with Fin q => q + s | _ => s end)%Q 0%Q l.
(** The sum of defined values: infinite values win, opposite infinities have no sum. *)
Definition total (l : list dbl) (r : dbl) : Prop :=
  (PInf ∈ l -> NInf ∈ l -> r = NaN) /\ (PInf ∈ l -> NInf ∉ l -> r = PInf) /\ (PInf ∉ l -> NInf ∈ l -> r = NInf) /\
  (PInf ∉ l -> NInf ∉ l -> exists q, r = Fin q /\ (q == qsum l)%Q).
(** The terminals connected to a bus. *)
Definition on_bus (b : bus dbl) : list (term dbl) :=
  match b with Calculated l => l | Configured l => filter (fun t => t_on t = true) l | Merged bs => filter (fun t => t_on t = true) (mjoin bs) end.
(** The defined values of the equipment of the given types. *)
Definition values (types : list ctype) (f : term dbl -> dbl) (l : list (term dbl)) : list dbl :=
  filter (fun x => is_nan x = false) (f <$> filter (fun t => t_type t ∈ types) l).
Definition p_types : list ctype := [CGenerator; CBattery; CLoad; CStation].
Definition q_types : list ctype := [CGenerator; CBattery; CLoad; CStation; CShunt; CStaticVar].
Definition dbus_p : bus dbl -> dbl := bus_p NaN dzero is_nan dplus.
Definition dbus_q : bus dbl -> dbl := bus_q NaN dzero is_nan dplus.
