(** Specification: the name of the correspondence table of a network file. *)
From stdpp Require Import list strings.
From Coq Require Import Ascii.
From Verif Require Import Base.

(** A directory part is empty or ends with a slash. *)
Definition is_dir (d : list ascii) : Prop := d = [] \/ exists d', d = d' ++ ["/"%char].
(** [beside path table]: same directory and same name, the last extension, if there is one, being replaced by csv. *)
Inductive beside : list ascii -> list ascii -> Prop :=
| beside_extension d stem ext : is_dir d -> "/"%char ∉ stem -> "/"%char ∉ ext -> "."%char ∉ ext ->
    (ext = [] -> stem <> [] /\ stem <> ["."%char]) -> beside (d ++ stem ++ "."%char :: ext) (d ++ stem ++ [".";"c";"s";"v"]%char)
| beside_none d name : is_dir d -> "/"%char ∉ name -> "."%char ∉ name -> beside (d ++ name) (d ++ name ++ [".";"c";"s";"v"]%char)
| beside_dots d name : is_dir d -> name = ["."%char] \/ name = [".";"."]%char -> beside (d ++ name) (d ++ name ++ [".";"c";"s";"v"]%char).
