(** Active and reactive power of a bus (src/iidm/Bus.cpp:103-165) and the terminals it sums over (CalculatedBus.cpp:77-97,
    ConfiguredBus.cpp:88-124, MergedBus.cpp:66-95).

    The number type is a parameter, so that the same function is run on exact numbers and on IEEE doubles. Simplifications: a terminal is
    its equipment type, its P and Q and whether it is connected; the validity check of calculated and merged buses is not in this file. *)
From stdpp Require Export list.
From Verif Require Export Base.

(** ConnectableType. *)
Inductive ctype := CBusbarSection | CLine | CTwoWindings | CThreeWindings | CGenerator | CBattery | CLoad | CShunt | CDanglingLine | CStaticVar | CStation.
Global Instance ctype_dec : EqDecision ctype. Proof. solve_decision. Defined.
Record term (A : Type) := mkTerm { t_type : ctype; t_p : A; t_q : A; t_on : bool }.
Arguments mkTerm {A}. Arguments t_type {A}. Arguments t_p {A}. Arguments t_q {A}. Arguments t_on {A}.
(** The three kinds of bus: calculated (its terminals are connected ones), configured, merged from configured buses. *)
Inductive bus (A : Type) := Calculated (l : list (term A)) | Configured (l : list (term A)) | Merged (l : list (list (term A))).
Arguments Calculated {A}. Arguments Configured {A}. Arguments Merged {A}.
(** ConfiguredBus.cpp:88-99 (loop with a counter), CalculatedBus.cpp:77-81, MergedBus.cpp:66-75 (sum). *)
Definition configured_count {A} (l : list (term A)) : nat := foldl (fun n t => if t_on t then S n else n) 0 l.
Definition connected_count {A} (b : bus A) : nat :=
  match b with
  | Calculated l => length l
  | Configured l => configured_count l
  | Merged bs => foldl (fun n l => n + configured_count l) 0 bs
  end.
Definition configured_terminals {A} (l : list (term A)) : list (term A) := filter (fun t => t_on t = true) l.
Definition connected_terminals {A} (b : bus A) : list (term A) :=
  match b with Calculated l => l | Configured l => configured_terminals l | Merged bs => mjoin (configured_terminals <$> bs) end.

(** The types that are skipped by getP and getQ: Bus.cpp:111-119, 143-149. *)
Definition p_skipped (c : ctype) : bool :=
  match c with CGenerator | CBattery | CLoad | CStation => false | _ => true end.
Definition q_skipped (c : ctype) : bool :=
  match c with CGenerator | CBattery | CLoad | CStation | CShunt | CStaticVar => false | _ => true end.
(** Bus::getP: Bus.cpp:103-133; Bus::getQ: Bus.cpp:135-165. *)
Definition bus_p {A} (nan zero : A) (is_nan : A -> bool) (plus : A -> A -> A) (b : bus A) : A :=
  if connected_count b =? 0 then nan
  else foldl (fun p t => if p_skipped (t_type t) then p else if is_nan (t_p t) then p else plus p (t_p t)) zero (connected_terminals b).
Definition bus_q {A} (nan zero : A) (is_nan : A -> bool) (plus : A -> A -> A) (b : bus A) : A :=
  if connected_count b =? 0 then nan
  else foldl (fun q t => if q_skipped (t_type t) then q else if is_nan (t_q t) then q else plus q (t_q t)) zero (connected_terminals b).
