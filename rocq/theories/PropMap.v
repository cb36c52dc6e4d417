(** Properties of an object (src/stdcxx/Properties.cpp, src/iidm/Identifiable.cpp:137-159, 189-191).

    m_properties is a std::map: modelled by the list of its entries in increasing order of keys (byte order of std::string), which is what its
    iteration shows; find, insert and erase are given by their effect on that list. *)
From stdpp Require Export list strings.
From Verif Require Export Base.

(** operator< of std::string (char_traits compares the bytes as unsigned). *)
Fixpoint str_lt (a b : string) : bool :=
  match a, b with
  | EmptyString, EmptyString => false
  | EmptyString, String _ _ => true
  | String _ _, EmptyString => false
  | String c a', String d b' =>
    if Nat.ltb (Ascii.nat_of_ascii c) (Ascii.nat_of_ascii d) then true
    else if Nat.ltb (Ascii.nat_of_ascii d) (Ascii.nat_of_ascii c) then false else str_lt a' b'
  end.
Notation pmap := (list (string * string)).
(** std::map::find, with the equivalence of keys the order gives. *)
Fixpoint p_find (k : string) (m : pmap) : option string :=
  match m with
  | [] => None
  | (k', v) :: m' => if str_lt k' k then p_find k m' else if str_lt k k' then None else Some v
  end.
(** std::map::insert followed by the assignment of Properties::set: Properties.cpp:77-87. *)
Fixpoint p_put (k v : string) (m : pmap) : pmap :=
  match m with
  | [] => [(k, v)]
  | (k', v') :: m' => if str_lt k' k then (k', v') :: p_put k v m' else if str_lt k k' then (k, v) :: (k', v') :: m' else (k', v) :: m'
  end.
Definition p_set (k v : string) (m : pmap) : option string * pmap := (p_find k m, p_put k v m).
(** Properties::get(key): 46-53; get(key, default): 55-58; contains: 64-66; isEmpty: 68-70; getKeys: 60-62; size: 89-91. *)
Definition p_get (k : string) (m : pmap) : result string := match p_find k m with Some v => Ok v | None => Throw ("Property " +:+ k +:+ " does not exist") end.
Definition p_get_or (k d : string) (m : pmap) : string := match p_find k m with Some v => v | None => d end.
Definition p_contains (k : string) (m : pmap) : bool := match p_find k m with Some _ => true | None => false end.
Definition p_empty (m : pmap) : bool := match m with [] => true | _ => false end.
Definition p_keys (m : pmap) : list string := m.*1.
Definition p_size (m : pmap) : nat := length m.
(** Properties::remove: 72-75; clear: 33-36. *)
Fixpoint p_remove (k : string) (m : pmap) : pmap :=
  match m with
  | [] => []
  | (k', v') :: m' => if str_lt k' k then (k', v') :: p_remove k m' else if str_lt k k' then (k', v') :: m' else m'
  end.
Inductive pop := PSet (k v : string) | PRemove (k : string) | PClear.
Definition pstep (m : pmap) (o : pop) : pmap := match o with PSet k v => (p_set k v m).2 | PRemove k => p_remove k m | PClear => [] end.
(** The properties after the history [h] (most recent first). *)
Definition prun (h : list pop) : pmap := foldr (fun o m => pstep m o) [] h.
