(** Specification: HVDC lines and stations by their ids. *)
From stdpp Require Export gmap.
From Verif Require Import Base Hvdc.

(** The state seen through the public functions: which stations exist and the line each one answers, which lines exist and their
    stations. *)
Record hview := mkHV { hv_st : gmap string (option string); hv_ln : gmap string (string * string) }.
Definition shows (n : hnet) (v : hview) : Prop :=
  (forall id l, hv_st v !! id = Some l <-> station_line id n = Ok l) /\ (forall id, is_Some (hv_st v !! id) <-> is_Some (find_station n id)) /\
  (forall id p, hv_ln v !! id = Some p <-> line_stations id n = Ok p) /\ (forall id, is_Some (hv_ln v !! id) <-> is_Some (find_line n id)).
(** Lines and stations reference each other: every line has two distinct stations, which both answer it; every station that answers a
    line is one of its stations. *)
Definition consistent (v : hview) : Prop :=
  (forall id i1 i2, hv_ln v !! id = Some (i1, i2) -> i1 <> i2 /\ hv_st v !! i1 = Some (Some id) /\ hv_st v !! i2 = Some (Some id)) /\
  (forall i id, hv_st v !! i = Some (Some id) -> exists i1 i2, hv_ln v !! id = Some (i1, i2) /\ (i = i1 \/ i = i2)).
(** Effects of the operations on the view. *)
Definition attached (v : hview) (id i1 i2 : string) : hview :=
  mkHV (<[i2 := Some id]> (<[i1 := Some id]> (hv_st v))) (<[id := (i1, i2)]> (hv_ln v)).
Definition freed (v : hview) (id i1 i2 : string) : hview :=
  mkHV (<[i2 := None]> (<[i1 := None]> (hv_st v))) (delete id (hv_ln v)).
(** A line is only created between two different stations that have none. *)
Definition free_ends (n : hnet) (o : hop) : Prop :=
  match o with HAddLine _ i1 i2 => i1 <> i2 /\ (forall l, station_line i1 n = Ok l -> l = None) /\ (forall l, station_line i2 n = Ok l -> l = None) | _ => True end.
Definition any_line (n : hnet) (o : hop) : Prop := True.
