(** Extensions of an object (src/iidm/Extendable.cpp, include/powsybl/iidm/Extendable.hxx, src/iidm/Extension.cpp).

    Simplifications: an extension object is its address, given by the order of creation; the C++ type of an extension is a string (exact
    type, no inheritance between extension types); assertExtendable is a boolean given with the extension and always accepts a null
    reference, as all implementations of the library do (e.g. LoadDetail.cpp:41-45). *)
From stdpp Require Export gmap.
From Verif Require Export Base.

(** Extension: getName, getType, m_extendable (the address of the extended object). *)
Record ext := mkExt { x_name : string; x_type : string; x_owner : option nat }.
(** Extendable: its address, the live extension objects, m_extensionsByName (owning), m_extensionsByType (referencing). *)
Record xst := mkXst { xs_self : nat; xs_obj : gmap nat ext; xs_name : gmap string nat; xs_type : gmap string nat; xs_next : nat }.
Definition xnew (self : nat) : xst := mkXst self ∅ ∅ ∅ 0.

(** Extendable::addExtension: Extendable.cpp:29-43. The extension was created for the object [owner] (Extension.cpp:17-19) and [fits] tells
    whether assertExtendable accepts this object. *)
Definition add_ext (name type : string) (owner : option nat) (fits : bool) (s : xst) : result unit * xst :=
  let a := xs_next s in
  let s1 := match xs_name s !! name with (* clean the existing extension: lines 30-36 *)
            | Some b => mkXst (xs_self s) (delete b (xs_obj s)) (delete name (xs_name s)) (delete type (xs_type s)) (S a)
            | None => mkXst (xs_self s) (xs_obj s) (xs_name s) (xs_type s) (S a)
            end in
  if negb fits then (Throw "Unexpected extendable type", s1) (* Extension.cpp:26 *)
  else if match owner with Some o => negb (bool_decide (o = xs_self s)) | None => false end
  then (Throw "Extension is already associated to the extendable", s1) (* Extension.cpp:28-30 *)
  else (Ok tt, mkXst (xs_self s) (<[a := mkExt name type (Some (xs_self s))]> (xs_obj s1)) (<[name := a]> (xs_name s1))
                     (match xs_type s1 !! type with Some _ => xs_type s1 | None => <[type := a]> (xs_type s1) end) (S a)).
(** findExtension<E>, getExtension<E>: Extendable.hxx:20-56. *)
Definition find_ext (type : string) (s : xst) : result (option nat) :=
  match xs_type s !! type with
  | None => Ok None
  | Some a => match xs_obj s !! a with Some _ => Ok (Some a) | None => UB end
  end.
(** getExtensionByName<Extension>: Extendable.hxx:58-70. *)
Definition ext_by_name (name : string) (s : xst) : result (option nat) :=
  match xs_name s !! name with
  | None => Ok None
  | Some a => match xs_obj s !! a with Some _ => Ok (Some a) | None => UB end
  end.
(** removeExtension<E>: Extendable.hxx:77-84. *)
Definition remove_ext (type : string) (s : xst) : result unit * xst :=
  match xs_type s !! type with
  | None => (Ok tt, s)
  | Some a =>
    match xs_obj s !! a with
    | None => (UB, s)
    | Some x =>
      let obj := match xs_name s !! x_name x with Some b => delete b (xs_obj s) | None => xs_obj s end in
      (Ok tt, mkXst (xs_self s) obj (delete (x_name x) (xs_name s)) (delete type (xs_type s)) (xs_next s))
    end
  end.
(** getExtensions: Extendable.cpp:45-51: the values of the map by name. *)
Definition all_exts (s : xst) : list nat := (map_to_list (xs_name s)).*2.
(** The move constructor: Extendable.cpp:20-27, for the object built at address [self]. It is noexcept: an exception ends the program
    (std::terminate). setExtendable refuses an object other than the present one (Extension.cpp:28-30). *)
Definition terminate {A} : result A := Throw "std::terminate".
Definition move_ext (self : nat) (s : xst) : result xst :=
  if forallb (fun a => match xs_obj s !! a with
                       | Some x => match x_owner x with Some o => bool_decide (o = self) | None => true end
                       | None => true
                       end) (all_exts s)
  then Ok (mkXst self ((fun x => mkExt (x_name x) (x_type x) (Some self)) <$> xs_obj s) (xs_name s) (xs_type s) (xs_next s))
  else terminate.

(** ** Histories *)
Inductive xop := XAdd (name type : string) (owner : option nat) (fits : bool) | XRemove (type : string).
Definition xstep (s : xst) (o : xop) : result unit * xst :=
  match o with XAdd n t ow f => add_ext n t ow f s | XRemove t => remove_ext t s end.
(** The states after the history [h], most recent operation first. *)
Inductive xreach (self : nat) : list xop -> xst -> Prop :=
| xr_new : xreach self [] (xnew self)
| xr_step h s o : xreach self h s -> (xstep s o).1 <> UB -> xreach self (o :: h) (xstep s o).2.
