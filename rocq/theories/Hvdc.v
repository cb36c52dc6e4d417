(** HVDC lines and converter stations: creation, removal and the references between them
    (src/iidm/HvdcLine.cpp, HvdcLineAdder.cpp, HvdcConverterStation.cpp).

    Simplifications: objects are numbers never used twice (their addresses), dereferencing a destroyed one is [UB]; the network index
    (NetworkIndex.cpp) is a map from ids to objects, without aliases (see Index.v for them); the terminals of the stations and the electrical
    parameters are not in this file: their checks come before any effect (HvdcLineAdder.cpp:26-31). *)
From stdpp Require Export gmap.
From Verif Require Export Base.

(** HvdcConverterStation: id, m_hvdcLine (HvdcConverterStation.hpp). *)
Record station := mkStation { hs_id : string; hs_line : option nat }.
(** HvdcLine: id, m_converterStation1, m_converterStation2 (HvdcLine.hpp). *)
Record hline := mkHLine { hl_id : string; hl_s1 : option nat; hl_s2 : option nat }.
(** What the index knows under an id. *)
Inductive hobj := HStation (a : nat) | HLine (a : nat) | HOther.
(** The live objects and the index. *)
Record hnet := mkHNet { hn_st : gmap nat station; hn_ln : gmap nat hline; hn_ix : gmap string hobj; hn_next : nat }.

(** stdcxx::Reference::get then use: reference.hpp:73-78. *)
Definition deref {A} (m : gmap nat A) (p : option nat) : result A :=
  match p with
  | None => Throw "m_pointer is null"
  | Some a => match m !! a with Some x => Ok x | None => UB end
  end.

(** NetworkIndex::find<HvdcConverterStation>: NetworkIndex.hxx:120-130. *)
Definition find_station (n : hnet) (id : string) : option nat := match hn_ix n !! id with Some (HStation a) => Some a | _ => None end.
Definition find_line (n : hnet) (id : string) : option nat := match hn_ix n !! id with Some (HLine a) => Some a | _ => None end.

(** checkAndGetUniqueId without setEnsureIdUnicity: IdentifiableAdder.hxx:26-48. *)
Definition check_id (n : hnet) (id : string) : result unit :=
  if bool_decide (id = "") then Throw "id is not set"
  else match hn_ix n !! id with Some _ => Throw "The network already contains an object with the id" | None => Ok tt end.

(** Creation of a converter station (LccConverterStationAdder.cpp, VscConverterStationAdder.cpp): m_hvdcLine is null. *)
Definition add_station (id : string) (n : hnet) : result unit * hnet :=
  match check_id n id with
  | Ok _ => (Ok tt, mkHNet (<[hn_next n := mkStation id None]> (hn_st n)) (hn_ln n) (<[id := HStation (hn_next n)]> (hn_ix n)) (S (hn_next n)))
  | r => (r, n)
  end.
(** Creation of another object. *)
Definition add_other (id : string) (n : hnet) : result unit * hnet :=
  match check_id n id with
  | Ok _ => (Ok tt, mkHNet (hn_st n) (hn_ln n) (<[id := HOther]> (hn_ix n)) (hn_next n))
  | r => (r, n)
  end.

(** HvdcLineAdder::getConverterStation: HvdcLineAdder.cpp:43-51. *)
Definition get_station (n : hnet) (id : string) : result nat :=
  if bool_decide (id = "") then Throw "converter station not set"
  else match find_station n id with Some a => Ok a | None => Throw "converter station not found" end.
(** HvdcConverterStation::setHvdcLine: HvdcConverterStation.cpp:41-43, on station [a]. *)
Definition set_line (a : nat) (l : option nat) (m : gmap nat station) : gmap nat station :=
  match m !! a with Some s => <[a := mkStation (hs_id s) l]> m | None => m end.
(** HvdcLineAdder::add (HvdcLineAdder.cpp:25-41) and the constructor, which attaches both stations (HvdcLine.cpp:18-22, 39-42). *)
Definition add_line (id i1 i2 : string) (n : hnet) : result unit * hnet :=
  match (let! a1 := get_station n i1 in let! a2 := get_station n i2 in let! _ := check_id n id in Ok (a1, a2)) with
  | Ok (a1, a2) =>
    (Ok tt, mkHNet (set_line a2 (Some (hn_next n)) (set_line a1 (Some (hn_next n)) (hn_st n)))
                   (<[hn_next n := mkHLine id (Some a1) (Some a2)]> (hn_ln n)) (<[id := HLine (hn_next n)]> (hn_ix n)) (S (hn_next n)))
  | Throw m => (Throw m, n)
  | UB => (UB, n)
  | OutOfFuel => (OutOfFuel, n)
  end.

(** HvdcConverterStation::remove: HvdcConverterStation.cpp:34-39; the message of the exception reads the id of the line.
    Injection::remove destroys the station. *)
Definition remove_station (id : string) (n : hnet) : result unit * hnet :=
  match find_station n id with
  | None => (Throw "no such station", n)
  | Some a =>
    match hn_st n !! a with
    | None => (UB, n)
    | Some s =>
      match hs_line s with
      | None => (Ok tt, mkHNet (delete a (hn_st n)) (hn_ln n) (delete (hs_id s) (hn_ix n)) (hn_next n))
      | Some l => (let! x := deref (hn_ln n) (Some l) in Throw ("Impossible to remove this converter station (still attached to '" +:+ hl_id x +:+ "')"), n)
      end
    end
  end.

(** HvdcLine::getNetwork: HvdcLine.cpp:89-98. *)
Definition line_network (n : hnet) (l : hline) : result unit :=
  match hl_s1 l with
  | Some a => match hn_st n !! a with Some _ => Ok tt | None => UB end
  | None => match hl_s2 l with Some a => match hn_st n !! a with Some _ => Ok tt | None => UB end | None => Throw "is not attached to a network" end
  end.
(** HvdcLine::remove: HvdcLine.cpp:123-133. *)
Definition remove_line (id : string) (n : hnet) : result unit * hnet :=
  match find_line n id with
  | None => (Throw "no such line", n)
  | Some a =>
    match hn_ln n !! a with
    | None => (UB, n)
    | Some l =>
      match line_network n l with
      | Ok _ =>
        match deref (hn_st n) (hl_s1 l), hl_s1 l with
        | Ok _, Some a1 =>
          let m1 := set_line a1 None (hn_st n) in
          match deref m1 (hl_s2 l), hl_s2 l with
          | Ok _, Some a2 => (Ok tt, mkHNet (set_line a2 None m1) (delete a (hn_ln n)) (delete (hl_id l) (hn_ix n)) (hn_next n))
          | Throw m, _ => (Throw m, mkHNet m1 (hn_ln n) (hn_ix n) (hn_next n))
          | _, _ => (UB, n)
          end
        | Throw m, _ => (Throw m, n)
        | _, _ => (UB, n)
        end
      | r => (r, n)
      end
    end
  end.

(** getHvdcLine()->getId() of a station: HvdcConverterStation.cpp:22-28. *)
Definition station_line (id : string) (n : hnet) : result (option string) :=
  match find_station n id with
  | None => Throw "no such station"
  | Some a =>
    match hn_st n !! a with
    | None => UB
    | Some s => match hs_line s with None => Ok None | Some l => let! x := deref (hn_ln n) (Some l) in Ok (Some (hl_id x)) end
    end
  end.
(** getConverterStation1/2()->getId() of a line: HvdcLine.cpp:68-82. *)
Definition line_stations (id : string) (n : hnet) : result (string * string) :=
  match find_line n id with
  | None => Throw "no such line"
  | Some a =>
    match hn_ln n !! a with
    | None => UB
    | Some l => let! s1 := deref (hn_st n) (hl_s1 l) in let! s2 := deref (hn_st n) (hl_s2 l) in Ok (hs_id s1, hs_id s2)
    end
  end.

(** ** Histories *)
Inductive hop := HAddStation (id : string) | HAddOther (id : string) | HAddLine (id i1 i2 : string) | HRemoveStation (id : string)
  | HRemoveLine (id : string).
Definition hstep (n : hnet) (o : hop) : result unit * hnet :=
  match o with
  | HAddStation id => add_station id n
  | HAddOther id => add_other id n
  | HAddLine id i1 i2 => add_line id i1 i2 n
  | HRemoveStation id => remove_station id n
  | HRemoveLine id => remove_line id n
  end.
Definition hnew : hnet := mkHNet ∅ ∅ ∅ 0.
Inductive hreach (safe : hnet -> hop -> Prop) : hnet -> Prop :=
| hr_new : hreach safe hnew
| hr_step n o : hreach safe n -> safe n o -> (hstep n o).1 <> UB -> hreach safe (hstep n o).2.
