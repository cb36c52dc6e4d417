(** Model of the slack terminals: src/iidm/extensions/SlackTerminal.cpp, SlackTerminalAdder.cpp, and of
    src/iidm/util/TerminalFinder.cpp. *)
From stdpp Require Import gmap list.
From Verif Require Import Base Variants.

(** What the rules of TerminalFinder.cpp:42-51 look at: the class of the equipment.  Injections other than busbar sections and
    HVDC converter stations (loads, generators, ...) are [CInjection]; lines and transformers with two windings are [CBranch]. *)
Inductive tclass := CBusbar | CInjection | CHvdc | CBranch | CThree.
#[global] Instance tclass_eq_dec : EqDecision tclass.
Proof. solve_decision. Defined.

(** A terminal: its identity, its voltage level, the class of its equipment. *)
Record term := mkTerm { t_id : nat; t_vl : string; t_class : tclass }.
#[global] Instance term_eq_dec : EqDecision term.
Proof. solve_decision. Defined.

(** getDefaultRules: TerminalFinder.cpp:42-51.  BusbarSection and HvdcConverterStation derive from Injection
    (BusbarSection.hpp:17, HvdcConverterStation.hpp:20). *)
Definition is_injection (c : tclass) : bool := bool_decide (c ∈ [CBusbar; CInjection; CHvdc]).
Definition rules : list (term -> bool) :=
  [fun t => bool_decide (t_class t = CBusbar); fun t => is_injection (t_class t); fun t => bool_decide (t_class t = CBranch);
   fun t => bool_decide (t_class t = CThree); fun t => bool_decide (t_class t = CHvdc)].

(** getComparator: TerminalFinder.cpp:26-40. *)
Fixpoint by_rules (rs : list (term -> bool)) (t1 t2 : term) : bool :=
  match rs with
  | [] => false
  | p :: rs => if p t1 || p t2 then negb (p t1) && p t2 else by_rules rs t1 t2
  end.
Definition comparator (t1 t2 : term) : bool := if bool_decide (t1 = t2) then false else by_rules rules t1 t2.

(** std::max_element: the first of the greatest elements. *)
Fixpoint max_from (best : term) (l : list term) : term :=
  match l with
  | [] => best
  | t :: l => max_from (if comparator best t then t else best) l
  end.
(** find: TerminalFinder.cpp:57-65. *)
Definition finder (l : list term) : option term :=
  match l with [] => None | t :: l => Some (max_from t l) end.

(** The SlackTerminal extensions of a network: the voltage levels having one and, at the same position in [vm_objs], their arrays
    m_terminals (SlackTerminal.hpp:70).  The other objects of the network do not matter and are left out. *)
Record slst := mkSl { sl_names : list string; sl_vm : vm term }.
Definition sl_init : slst := mkSl [] vm_init.
Definition with_objs (m : vm term) (os : list (vobj term)) : vm term := mkVm (vm_ids m) (vm_unused m) (vm_size m) (vm_work m) os.

(** findExtension<SlackTerminal>: Extendable.hxx:33-42. *)
Definition sl_find (s : slst) (vl : string) : option (nat * vobj term) :=
  match list_find (eq vl) (sl_names s) with
  | Some (k, _) => (fun o => (k, o)) <$> vm_objs (sl_vm s) !! k
  | None => None
  end.

Definition slres : Type := slst * result unit.

(** removeExtension<SlackTerminal>: Extendable.hxx:77-84. *)
Definition sl_erase (s : slst) (k : nat) : slst :=
  mkSl (delete k (sl_names s)) (with_objs (sl_vm s) (delete k (vm_objs (sl_vm s)))).
(** addExtension: Extendable.cpp:29-43; the extension of the same name is destroyed. *)
Definition sl_put (s : slst) (vl : string) (a : list (option term)) : slst :=
  let s1 := match sl_find s vl with Some (k, _) => sl_erase s k | None => s end in
  mkSl (sl_names s1 ++ [vl]) (with_objs (sl_vm s1) (vm_objs (sl_vm s1) ++ [mkVobj VSlack a])).

(** The check of setTerminal: SlackTerminal.cpp:105-107. *)
Definition misplaced (vl : string) (t : option term) : bool :=
  match t with Some t => negb (bool_decide (t_vl t = vl)) | None => false end.
Definition wrong_level : string := "Terminal given is not in the right VoltageLevel".
(** The cell of the working variant is replaced: SlackTerminal.cpp:108. *)
Definition set_cell (s : slst) (a : list (option term)) (t : option term) : result (list (option term)) :=
  let! i := vm_index (sl_vm s) in vset a i t.

(** isEmpty: SlackTerminal.cpp:77-82. *)
Definition is_empty (a : list (option term)) : bool := forallb (fun t => match t with None => true | Some _ => false end) a.

(** setTerminal(terminal, cleanIfEmpty): SlackTerminal.cpp:104-127, on the extension of [vl] at position [k]. *)
Definition sl_set (s : slst) (vl : string) (k : nat) (o : vobj term) (t : option term) (clean : bool) : slres :=
  if misplaced vl t then (s, Throw wrong_level)
  else match set_cell s (vo_arr o) t with
  | Ok a => (if clean && is_empty a then sl_erase s k
             else mkSl (sl_names s) (with_objs (sl_vm s) (<[k := mkVobj VSlack a]> (vm_objs (sl_vm s)))), Ok tt)
  | Throw m => (s, Throw m)
  | UB => (s, UB)
  | OutOfFuel => (s, OutOfFuel)
  end.

(** newExtension<SlackTerminalAdder>().withTerminal(t).add(): SlackTerminalAdder.cpp:23-36, SlackTerminal.cpp:23-27,
    ExtensionAdder.cpp:20-23. *)
Definition sl_add (s : slst) (vl : string) (t : option term) : slres :=
  match t with
  | None => (s, Throw "Terminal needs to be set to create a SlackTerminal extension")
  | Some _ =>
    if misplaced vl t then (s, Throw wrong_level)
    else match set_cell s (replicate (vm_size (sl_vm s)) None) t with
    | Ok a => (sl_put s vl a, Ok tt)
    | Throw m => (s, Throw m)
    | UB => (s, UB)
    | OutOfFuel => (s, OutOfFuel)
    end
  end.

(** reset(voltageLevel, terminal): SlackTerminal.cpp:94-101. *)
Definition sl_reset (s : slst) (vl : string) (t : option term) : slres :=
  match sl_find s vl with
  | None => match t with Some _ => sl_add s vl t | None => (s, Ok tt) end
  | Some (k, o) => sl_set s vl k o t true
  end.

(** reset(network): SlackTerminal.cpp:88-92; [vls] are the voltage levels of the network, in order. *)
Fixpoint sl_reset_all (s : slst) (vls : list string) : slres :=
  match vls with
  | [] => (s, Ok tt)
  | vl :: vls => match sl_reset s vl None with (s', Ok _) => sl_reset_all s' vls | r => r end
  end.

(** attach(bus): SlackTerminal.cpp:42-49; the bus is given by its voltage level and its connected terminals. *)
Definition sl_attach (s : slst) (vl : string) (ts : list term) : slres :=
  match finder ts with
  | None => (s, Throw "Unable to find a terminal in the bus")
  | Some t => sl_reset s vl (Some t)
  end.

(** getExtension<SlackTerminal>().getTerminal(): Extendable.hxx:44-51, SlackTerminal.cpp:64-66. *)
Definition sl_get (s : slst) (vl : string) : result (option term) :=
  match sl_find s vl with
  | None => Throw "Extension not found"
  | Some (_, o) => let! i := vm_index (sl_vm s) in vget (vo_arr o) i
  end.

Inductive slop :=
| SClone (src : string) (ts : list string) (ow : bool)
| SRemove (id : string)
| SSetWorking (id : string)
| SAdd (vl : string) (t : option term)
| SSet (vl : string) (t : option term) (clean : bool)
| SReset (vl : string) (t : option term)
| SResetAll (vls : list string)
| SAttach (vl : string) (ts : list term).

Definition on_vm (s : slst) (r : vm term * result unit) : slres := (mkSl (sl_names s) r.1, r.2).
Definition sl_step (s : slst) (o : slop) : slres :=
  match o with
  | SClone src ts ow => on_vm s (vm_clone (sl_vm s) src ts ow)
  | SRemove id => on_vm s (vm_remove (sl_vm s) id)
  | SSetWorking id => on_vm s (vm_set_working (sl_vm s) id)
  | SAdd vl t => sl_add s vl t
  | SSet vl t clean => match sl_find s vl with Some (k, o) => sl_set s vl k o t clean | None => (s, Throw "Extension not found") end
  | SReset vl t => sl_reset s vl t
  | SResetAll vls => sl_reset_all s vls
  | SAttach vl ts => sl_attach s vl ts
  end.
