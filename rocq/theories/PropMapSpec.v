(** Specification: the value of a property after a history. *)
From stdpp Require Export list strings.
From Verif Require Import Base PropMap.

(** The last value given to [k] and not removed since. *)
Fixpoint last_value (h : list pop) (k : string) : option string :=
  match h with
  | [] => None
  | PSet k' v :: h' => if bool_decide (k = k') then Some v else last_value h' k
  | PRemove k' :: h' => if bool_decide (k = k') then None else last_value h' k
  | PClear :: _ => None
  end.
(** Byte order of strings: a proper prefix, or a smaller byte at the first difference. *)
Definition byte (c : Ascii.ascii) : nat := Ascii.nat_of_ascii c.
Inductive before : string -> string -> Prop :=
| before_prefix c b : before "" (String c b)
| before_byte c d a b : byte c < byte d -> before (String c a) (String d b)
| before_same c a b : before a b -> before (String c a) (String c b).
