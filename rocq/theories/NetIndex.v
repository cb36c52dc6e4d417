(** Model of the network index (src/iidm/NetworkIndex.cpp, include/powsybl/iidm/NetworkIndex.hxx), of the aliases of the
    identifiables (src/iidm/Identifiable.cpp) and of the unique id generation (src/iidm/util/Identifiables.cpp). *)
From stdpp Require Export gmap pretty.
From Verif Require Export Base.

(** An [Identifiable]: Identifiable.hpp, members m_id, m_aliasesWithoutType, m_aliasesByType.  The dynamic type
    (typeid) is a number; the other members play no part in the index. *)
Record iobj := mkObj {
  o_id : string;
  o_type : nat;
  o_untyped : gset string;            (* std::set<std::string> m_aliasesWithoutType *)
  o_typed : gmap string string        (* std::map<std::string, std::string> m_aliasesByType *)
}.

(** NetworkIndex.hpp: m_objectsById, m_objectsByType, m_idByAlias; objects are designated by their address,
    [ix_heap] gives the objects that exist.  [ix_next] is the address of the next object. *)
Record index := mkIx {
  ix_heap : gmap nat iobj;
  ix_byid : gmap string nat;
  ix_bytype : gmap nat (list nat);
  ix_alias : gmap string string;
  ix_next : nat
}.

(** typeid(Network). *)
Definition ty_network : nat := 0.

(** Network::Network(id, sourceFormat): Network.cpp:71-80 registers the network (address 0) in its own index.
    The id is not empty: Identifiable.cpp:29-33. *)
Definition ix_init (id : string) : index :=
  mkIx {[ 0 := mkObj id ty_network ∅ ∅ ]} {[ id := 0 ]} {[ ty_network := [0] ]} ∅ 1.

(** find<Identifiable>: NetworkIndex.cpp:87-94 with checkId (NetworkIndex.cpp:82-84). *)
Definition ix_find (ix : index) (id : string) : result (option nat) :=
  let resolved := default id (ix_alias ix !! id) in
  if bool_decide (resolved = "") then Throw "Invalid id" else Ok (ix_byid ix !! resolved).

(** find<T>: NetworkIndex.hxx:123-133, the [dynamic_cast] being the test [is_a] on the type. *)
Definition ix_find_as (is_a : nat -> bool) (ix : index) (id : string) : result (option nat) :=
  let! r := ix_find ix id in
  match r with
  | None => Ok None
  | Some p =>
    match ix_heap ix !! p with
    | None => UB                                  (* dangling reference *)
    | Some o => Ok (if is_a (o_type o) then Some p else None)
    end
  end.

(** get<T>: NetworkIndex.hxx:55-69. *)
Definition ix_get_as (is_a : nat -> bool) (ix : index) (id : string) : result nat :=
  let! r := ix_find ix id in
  match r with
  | None => Throw "Unable to find to the identifiable"
  | Some p =>
    match ix_heap ix !! p with
    | None => UB
    | Some o => if is_a (o_type o) then Ok p else Throw "Identifiable is not a"
    end
  end.

(** The loop of getUniqueId: Identifiables.cpp:33-37.  [fuel] stands for the distance to the maximum of
    unsigned long, at which the loop gives up; running out of it is reported. *)
Fixpoint unique_loop (contains : string -> bool) (base : string) (fuel i : nat) : result string :=
  match fuel with
  | O => OutOfFuel
  | S f =>
    let u := base +:+ "#" +:+ pretty (N.of_nat i) in
    if contains u then unique_loop contains base f (S i) else Ok u
  end.
(** getUniqueId: Identifiables.cpp:19-42. *)
Definition get_unique_id (contains : string -> bool) (fuel : nat) (base : string) : result string :=
  if bool_decide (base = "") then unique_loop contains "autoId" fuel 0
  else if contains base then unique_loop contains base fuel 0
  else Ok base.

(** The predicate used by the callers: [static_cast<bool>(network.find(id))].  The ids tried are never empty and an
    alias never resolves to the empty id (see the theorems), so find does not throw. *)
Definition ix_contains (ix : index) (id : string) : bool :=
  match ix_find ix id with Ok (Some _) => true | _ => false end.
(** A number of attempts larger than the number of ids and aliases. *)
Definition ix_fuel (ix : index) : nat := S (size (ix_byid ix) + size (ix_alias ix)).

(** addAlias of the index: NetworkIndex.cpp:54-80.  The boolean tells whether the alias has been added. *)
Definition ix_add_alias_raw (ix : index) (p : nat) (alias : string) : result bool * index :=
  match ix_byid ix !! alias with
  | Some q => if decide (q = p) then (Ok false, ix) else (Throw "alias already refers to object", ix)
  | None =>
    match ix_alias ix !! alias with
    | Some id =>
      match ix_byid ix !! id with
      | None => (UB, ix)                          (* m_objectsById[id] inserts a null pointer, dereferenced *)
      | Some q => if decide (q = p) then (Ok false, ix) else (Throw "alias already refers to object", ix)
      end
    | None =>
      match ix_heap ix !! p with
      | None => (UB, ix)
      | Some o => (Ok true, mkIx (ix_heap ix) (ix_byid ix) (ix_bytype ix) (<[alias := o_id o]> (ix_alias ix)) (ix_next ix))
      end
    end
  end.

(** IdentifiableAdder::checkAndGetUniqueId (IdentifiableAdder.hxx:25-47) followed by NetworkIndex::checkAndAdd
    (NetworkIndex.hxx:32-52) of an object without aliases, as all the adders do. *)
Definition ix_check_unique (ix : index) (id : string) (ensure : bool) : result string :=
  if bool_decide (id = "") then Throw "id is not set"
  else if ensure then get_unique_id (ix_contains ix) (ix_fuel ix) id
  else
    let! r := ix_find ix id in
    match r with
    | Some _ => Throw "The network already contains an object"
    | None => Ok id
    end.
Definition ix_check_and_add (ix : index) (id : string) (ty : nat) : result nat * index :=
  if bool_decide (id = "") then (Throw "Invalid id", ix)
  else
    match ix_byid ix !! id with
    | Some _ => (Throw "Object already exists", ix)
    | None =>
      let p := ix_next ix in
      (Ok p, mkIx (<[p := mkObj id ty ∅ ∅]> (ix_heap ix)) (<[id := p]> (ix_byid ix))
                  (<[ty := default [] (ix_bytype ix !! ty) ++ [p]]> (ix_bytype ix)) (ix_alias ix) (S p))
    end.
Definition ix_add (ix : index) (id : string) (ty : nat) (ensure : bool) : result nat * index :=
  match ix_check_unique ix id ensure with
  | Ok u => ix_check_and_add ix u ty
  | Throw m => (Throw m, ix)
  | UB => (UB, ix)
  | OutOfFuel => (OutOfFuel, ix)
  end.

(** getAliases: Identifiable.cpp:99-101. *)
Definition o_aliases (o : iobj) : list string := elements (o_untyped o) ++ map snd (map_to_list (o_typed o)).

(** remove: NetworkIndex.cpp:141-163; erasing from m_objectsById destroys the object. *)
Definition ix_remove (ix : index) (p : nat) : result unit * index :=
  match ix_heap ix !! p with
  | None => (UB, ix)
  | Some o =>
    if bool_decide (ix_byid ix !! o_id o = Some p) then
      match ix_bytype ix !! o_type o with
      | None => (UB, ix)                          (* end() dereferenced *)
      | Some l =>
        match list_find (eq p) l with
        | None => (Ok tt, ix)
        | Some (k, _) =>
          (Ok tt, mkIx (delete p (ix_heap ix)) (delete (o_id o) (ix_byid ix)) (<[o_type o := delete k l]> (ix_bytype ix))
                       (foldl (fun m a => delete a m) (ix_alias ix) (o_aliases o)) (ix_next ix))
        end
      end
    else (Ok tt, ix)
  end.

(** Identifiable::addAlias(alias, aliasType, ensureAliasUnicity): Identifiable.cpp:51-69. *)
Definition ix_add_alias (ix : index) (p : nat) (alias ty : string) (ensure : bool) : result unit * index :=
  match ix_heap ix !! p with
  | None => (UB, ix)
  | Some o =>
    match (if ensure then get_unique_id (ix_contains ix) (ix_fuel ix) alias else Ok alias) with
    | Ok u =>
      if bool_decide (ty <> "") && bool_decide (is_Some (o_typed o !! ty)) then (Throw "already has an alias of type", ix)
      else
        match ix_add_alias_raw ix p u with
        | (Ok true, ix1) =>
          let o' := if bool_decide (ty = "") then mkObj (o_id o) (o_type o) ({[u]} ∪ o_untyped o) (o_typed o)
                    else mkObj (o_id o) (o_type o) (o_untyped o) (<[ty := u]> (o_typed o)) in
          (Ok tt, mkIx (<[p := o']> (ix_heap ix1)) (ix_byid ix1) (ix_bytype ix1) (ix_alias ix1) (ix_next ix1))
        | (Ok false, ix1) => (Ok tt, ix1)
        | (Throw m, ix1) => (Throw m, ix1)
        | (UB, ix1) => (UB, ix1)
        | (OutOfFuel, ix1) => (OutOfFuel, ix1)
        end
    | Throw m => (Throw m, ix)
    | UB => (UB, ix)
    | OutOfFuel => (OutOfFuel, ix)
    end
  end.

(** Identifiable::removeAlias (Identifiable.cpp:173-183) with NetworkIndex::removeAlias (NetworkIndex.cpp:165-174).
    The first entry of m_aliasesByType with that value is erased, else the untyped alias. *)
Definition ix_remove_alias (ix : index) (p : nat) (alias : string) : result unit * index :=
  match ix_heap ix !! p with
  | None => (UB, ix)
  | Some o =>
    match ix_alias ix !! alias with
    | None => (Throw "No alias found in the network", ix)
    | Some id =>
      if bool_decide (id = o_id o) then
        let o' := match list_find (fun e => e.2 = alias) (map_to_list (o_typed o)) with
                  | Some (_, (t, _)) => mkObj (o_id o) (o_type o) (o_untyped o) (delete t (o_typed o))
                  | None => mkObj (o_id o) (o_type o) (o_untyped o ∖ {[alias]}) (o_typed o)
                  end in
        (Ok tt, mkIx (<[p := o']> (ix_heap ix)) (ix_byid ix) (ix_bytype ix) (delete alias (ix_alias ix)) (ix_next ix))
      else (Throw "Alias does not correspond to object", ix)
    end
  end.

(** getAliasFromType, getAliasType: Identifiable.cpp:103-119. *)
Definition o_alias_from_type (o : iobj) (t : string) : result (option string) :=
  if bool_decide (t = "") then Throw "Alias type must not be empty" else Ok (o_typed o !! t).
Definition o_alias_type (o : iobj) (a : string) : string :=
  if bool_decide (a ∈ o_untyped o) then ""
  else match list_find (fun e => e.2 = a) (map_to_list (o_typed o)) with
       | Some (_, (t, _)) => t
       | None => ""
       end.

(** getAll<T> / getObjectCount<T>: NetworkIndex.hxx:89-121. *)
Definition ix_all (ix : index) (ty : nat) : list nat := default [] (ix_bytype ix !! ty).
Definition ix_count (ix : index) (ty : nat) : nat := length (ix_all ix ty).

(** Move construction: NetworkIndex.cpp:40-52; m_idByAlias is not moved.  The moved network keeps address 0. *)
Definition ix_move (ix : index) : index :=
  mkIx (ix_heap ix) (ix_byid ix) (ix_bytype ix) ∅ (ix_next ix).

(** ** Histories.  The network itself (address 0) is never removed. *)
Inductive iop :=
| IAdd (id : string) (ty : nat) (ensure : bool)
| IRemove (p : nat)
| IAddAlias (p : nat) (alias ty : string) (ensure : bool)
| IRemoveAlias (p : nat) (alias : string).
(** The address of the created object is part of the result. *)
Definition ix_step (ix : index) (o : iop) : result (option nat) * index :=
  match o with
  | IAdd id ty e => let r := ix_add ix id ty e in (result_map Some r.1, r.2)
  | IRemove p => let r := ix_remove ix p in (result_map (fun _ => None) r.1, r.2)
  | IAddAlias p a t e => let r := ix_add_alias ix p a t e in (result_map (fun _ => None) r.1, r.2)
  | IRemoveAlias p a => let r := ix_remove_alias ix p a in (result_map (fun _ => None) r.1, r.2)
  end.
