(** Specification: what the parameters given as properties ask for.  [last_value h k]: the value of the property [k] after the history
    [h] (PropMapSpec.v). *)
From stdpp Require Export list strings.
From Coq Require Export Ascii.
From Verif Require Import Base.
From Verif Require Export PropMap PropMapSpec.

(** The value asked under one of the names: the first name that has a value gives it, and the default value does if none has. *)
Definition absent (h : list pop) (names : list string) : Prop := forall n, n ∈ names -> last_value h n = None.
Inductive asked (h : list pop) (names : list string) (dflt : string) : string -> Prop :=
| asked_given i n v : names !! i = Some n -> last_value h n = Some v -> absent h (take i names) -> asked h names dflt v
| asked_default : absent h names -> asked h names dflt dflt.
(** "true" in small letters, capital letters, or both. *)
Definition true_text (v : string) : Prop :=
  Forall2 (fun c l => c ∈ l) (list_ascii_of_string v) [["t"; "T"]; ["r"; "R"]; ["u"; "U"]; ["e"; "E"]]%char.
(** The pieces of a text between its commas and colons. *)
Definition plain (p : string) : Prop := ","%char ∉ list_ascii_of_string p /\ ":"%char ∉ list_ascii_of_string p.
Inductive pieces : string -> list string -> Prop :=
| pieces_one p : plain p -> pieces p [p]
| pieces_more p c s l : plain p -> c = ","%char \/ c = ":"%char -> pieces s l -> pieces (p +:+ String c s) (p :: l).
