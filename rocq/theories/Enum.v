(** The names of the values of the enumerations: include/powsybl/iidm/Enum.hxx, src/iidm/Country.cpp:20-280. *)
From stdpp Require Export strings list.
From Verif Require Export Base.

(** An enumeration: its enumerators, as written in the header, and the table that Enum::getNames gives.  A value is the underlying
    integer; a value of the C++ type may be outside of the enumerators (static_cast). *)
Record enumeration := mkEnum { en_ids : list string; en_names : list string }.
#[global] Instance enumeration_eq_dec : EqDecision enumeration. Proof. solve_decision. Defined.

(** std::find, then the distance: the first position. *)
Fixpoint index_of (s : string) (l : list string) : option nat :=
  match l with
  | [] => None
  | x :: l' => if bool_decide (x = s) then Some 0 else S <$> index_of s l'
  end.
(** Enum::fromString: Enum.hxx:24-33. *)
Definition from_string (e : enumeration) (s : string) : result nat :=
  match index_of s (en_names e) with None => Throw "Unexpected name" | Some i => Ok i end.
(** Enum::toString: Enum.hxx:35-43; operator<< writes the same (Enum.hpp:33-37). *)
Definition to_string (e : enumeration) (v : nat) : result string :=
  match en_names e !! v with None => Throw "Unexpected value" | Some s => Ok s end.
(** getCountryName: Country.cpp:274-278, over the table of names. *)
Definition country_name (names : list string) (v : nat) : result string :=
  match names !! v with None => Throw "Unexpected Country value" | Some s => Ok s end.
