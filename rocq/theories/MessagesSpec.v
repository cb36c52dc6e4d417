(** What messages and loggers are expected to do (C80), without the functions of the code. *)
From Verif Require Import Messages.

(** A decimal number. *)
Definition digit (c : ascii) (d : nat) : Prop := d < 10 /\ c = ascii_of_nat (48 + d).
Inductive decimal : string -> nat -> Prop :=
| dec_one c d : digit c d -> decimal (String c "") d
| dec_more ds n c d : decimal ds n -> digit c d -> decimal (ds +:+ String c "") (10 * n + d).
(** The text [t] is the template [f] where %1%, %2%, ... are replaced with the arguments, and %% with %. *)
Inductive fills (args : list string) : string -> string -> Prop :=
| fl_nil : fills args "" ""
| fl_char c f t : c <> "%"%char -> fills args f t -> fills args (String c f) (String c t)
| fl_percent f t : fills args f t -> fills args ("%%" +:+ f) ("%" +:+ t)
| fl_arg ds n a f t : decimal ds (S n) -> args !! n = Some a -> fills args f t -> fills args ("%" +:+ ds +:+ "%" +:+ f) (a +:+ t).
(** The last argument is of no use. *)
Definition superfluous (args : list string) (f : string) : Prop := args <> [] /\ exists t, fills (removelast args) f t.
(** A text without %. *)
Definition plain (s : string) : Prop := forall i c, String.get i s = Some c -> c <> "%"%char.
(** The name [p] is the name [n] without what follows its last "::". *)
Definition enclosing (n p : string) : Prop :=
  (exists s, n = p +:+ "::" +:+ s) /\ forall p' s', n = p' +:+ "::" +:+ s' -> String.length p' <= String.length p.
(** The name of the logger in force for [n]: the first registered one among [n] and the names around it. *)
Inductive in_force (m : loggers) : string -> option string -> Prop :=
| if_here n g : m !! n = Some g -> in_force m n (Some n)
| if_around n p r : m !! n = None -> enclosing n p -> in_force m p r -> in_force m n r
| if_none n : m !! n = None -> (forall p, ~ enclosing n p) -> in_force m n None.
(** The order of the levels, and the levels that a logger listens to. *)
Definition severity : list level := [LvTrace; LvDebug; LvInfo; LvWarn; LvError].
Definition as_severe (l m : level) : Prop := exists i j, severity !! i = Some m /\ severity !! j = Some l /\ i <= j.
Definition listens (k : lkind) (l : level) : Prop := match k with LkNoop => False | LkConsole m => as_severe l m | LkContainer => True end.
(** The calls whose text does not fit their arguments. *)
Definition misfits : list (string * nat) :=
  [("src/iidm/IdBasedBusRef.cpp", 63); ("src/iidm/converter/xml/VoltageLevelXml.cpp", 308);
   ("include/powsybl/iidm/OperationalLimitsHolder.hxx", 31); ("include/powsybl/iidm/converter/xml/AbstractConnectableXml.hxx", 207)].
