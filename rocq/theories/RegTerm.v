(** The terminals that equipments regulate: generators, shunt compensators and static var compensators, ratio and phase tap changers
    (src/iidm/GeneratorAdder.cpp, Generator.cpp, ShuntCompensatorAdder.cpp, ShuntCompensator.cpp, StaticVarCompensatorAdder.cpp,
    StaticVarCompensator.cpp, RatioTapChangerAdder.cpp, RatioTapChanger.cpp, PhaseTapChangerAdder.cpp, PhaseTapChanger.cpp,
    TapChanger.hxx, ValidationUtils.cpp, Connectable.cpp, converter/xml/TerminalRefXml.cpp).

    Several networks (EquipNet.v) are alive at the same time; they have numbers.  A reference to a terminal is the number of the
    network and the address of the terminal in it; it dangles when no equipment of this network owns a terminal with this address (new
    terminals have new addresses: in the program an address may be used again, which is no better).

    Simplifications, valid for the whole file:
    - the checks that do not look at the regulated terminal (C15 to C20) are arguments of the operations: what they answer;
    - whether a tap changer regulates in the working variant is an argument too;
    - any equipment with at least two terminals may get tap changers: a superset of the transformers. *)
From Verif Require Export EquipNet.

(** std::reference_wrapper<Terminal>, stdcxx::Reference<Terminal>. *)
Definition ref : Type := nat * nat.
(** A tap changer: its transformer, the leg, ratio or phase. *)
Record tapkey := mkKey { k_net : nat; k_id : string; k_leg : nat; k_ratio : bool }.
Global Instance tapkey_dec : EqDecision tapkey.
Proof. solve_decision. Defined.
Global Instance tapkey_countable : Countable tapkey.
Proof.
  refine (inj_countable' (fun k => (k_net k, k_id k, k_leg k, k_ratio k)) (fun x => mkKey x.1.1.1 x.1.1.2 x.1.2 x.2) _).
  by intros [].
Defined.
(** The networks; the references of the injections that regulate (Generator.hpp:100, ShuntCompensator.hpp:91,
    StaticVarCompensator.hpp:81: always set); those of the tap changers (TapChanger.hpp:102: may be empty). *)
Record world := mkW { w_nets : gmap nat net; w_regs : gmap (nat * string) ref; w_taps : gmap tapkey (option ref) }.
Definition world0 : world := mkW ∅ ∅ ∅.
Definition with_net (w : world) (k : nat) (nt : net) : world := mkW (<[k := nt]> (w_nets w)) (w_regs w) (w_taps w).
Definition with_reg (w : world) (k : nat) (id : string) (r : ref) : world := mkW (w_nets w) (<[(k, id) := r]> (w_regs w)) (w_taps w).
Definition with_tap (w : world) (key : tapkey) (r : option ref) : world := mkW (w_nets w) (w_regs w) (<[key := r]> (w_taps w)).

(** ** Using a reference *)
(** The equipment and the index of the terminal with this address. *)
Definition terminals_of (nt : net) : list (string * nat * nat) :=
  x ← map_to_list (n_eqs nt); imap (fun i t => (x.1, i, t_id t)) x.2.
Definition find_addr (nt : net) (a : nat) : option (string * nat) :=
  (fun y : nat * (string * nat * nat) => y.2.1) <$> list_find (fun y => y.2 = a) (terminals_of nt).
(** terminal.getVoltageLevel().getNetwork(): the number of the network; undefined when the terminal does not exist anymore. *)
Definition network_of (w : world) (r : ref) : result nat :=
  match w_nets w !! r.1 with
  | None => UB
  | Some nt => match find_addr nt r.2 with None => UB | Some _ => Ok r.1 end
  end.

(** ** Checks *)
(** checkRegulatingTerminal: ValidationUtils.cpp:340-344. *)
Definition check_regulating (w : world) (k : nat) (r : option ref) : result unit :=
  match r with
  | None => Ok tt
  | Some r => let! n := network_of w r in if bool_decide (n = k) then Ok tt else Throw "Regulating terminal is not part of the network"
  end.
(** What the caller of a tap changer adder or setter has set, besides the terminal: whether it regulates, loadTapChangingCapabilities,
    whether targetV or regulationValue is right, whether the mode is FIXED_TAP, whether the other checks pass. *)
Record tapargs := mkArgs { a_regulating : bool; a_capable : bool; a_value : bool; a_fixed : bool; a_rest : bool }.
(** throwExceptionOrWarningForRtc: ValidationUtils.cpp. *)
Definition or_warn (capable : bool) (m : string) : result unit := if capable then Throw m else Ok tt.
(** checkRatioTapChangerRegulation: ValidationUtils.cpp:323-338; the empty reference throws (stdcxx/reference.hpp: get). *)
Definition check_ratio (w : world) (k : nat) (a : tapargs) (r : option ref) : result unit :=
  if a_regulating a then
    let! _ := (if a_value a then Ok tt else or_warn (a_capable a) "a target voltage has to be set for a regulating ratio tap changer") in
    let! _ := (match r with None => or_warn (a_capable a) "a regulation terminal has to be set for a regulating ratio tap changer" | Some _ => Ok tt end) in
    match r with
    | None => Throw "m_pointer is null"
    | Some r => let! n := network_of w r in if bool_decide (n = k) then Ok tt else or_warn (a_capable a) "regulation terminal is not part of the network"
    end
  else Ok tt.
(** checkPhaseTapChangerRegulation: ValidationUtils.cpp:249-274. *)
Definition check_phase (w : world) (k : nat) (a : tapargs) (r : option ref) : result unit :=
  let! _ :=
    (if a_regulating a then
       if negb (a_fixed a) && negb (a_value a) then Throw "phase regulation is on and threshold/setpoint value is not set"
       else if negb (a_fixed a) && bool_decide (r = None) then Throw "phase regulation is on and regulated terminal is not set"
       else if a_fixed a then Throw "phase regulation cannot be on if mode is FIXED" else Ok tt
     else Ok tt) in
  match r with
  | None => Ok tt
  | Some r => let! n := network_of w r in if bool_decide (n = k) then Ok tt else Throw "phase regulation terminal is not part of the network"
  end.
Definition check_tap (w : world) (key : tapkey) (a : tapargs) (r : option ref) : result unit :=
  (if k_ratio key then check_ratio else check_phase) w (k_net key) a r.
(** TapChanger::setRegulationTerminal: TapChanger.hxx:184-191. *)
Definition check_tap_changer (w : world) (k : nat) (r : option ref) : result unit :=
  match r with
  | None => Ok tt
  | Some r => let! n := network_of w r in if bool_decide (n = k) then Ok tt else Throw "regulation terminal is not part of the network"
  end.

(** ** Operations *)
Definition wact : Type := world -> result unit * world.
Definition wcheck (c : world -> result unit) (f : wact) : wact := fun w =>
  match c w with Ok _ => f w | Throw m => (Throw m, w) | UB => (UB, w) | OutOfFuel => (OutOfFuel, w) end.
(** A network, a generator or a tap changer that does not exist cannot be asked anything. *)
Definition in_net (k : nat) (f : net -> wact) : wact := fun w => match w_nets w !! k with Some nt => f nt w | None => (UB, w) end.
(** GeneratorAdder.cpp:24-46, ShuntCompensatorAdder.cpp:23-43, StaticVarCompensatorAdder.cpp:24-40.  Once in the network (checkAndAdd)
    the equipment stays there when attach throws, with its reference: its own terminal when none is given. *)
Definition add_reg (k : nat) (id : string) (s : side) (r : option ref) : wact :=
  in_net k (fun nt => wcheck (fun w => check_regulating w k r) (fun w =>
    let '(res, nt') := nstep (ORegulated id s) nt in
    let w' := with_net w k nt' in
    match n_eqs nt !! id, n_eqs nt' !! id with
    | None, Some (t :: _) => (res, with_reg w' k id (match r with Some r => r | None => (k, t_id t) end))
    | _, _ => (res, w')
    end)).
(** Generator.cpp:157-165, ShuntCompensator.cpp:122-126, StaticVarCompensator.cpp:110-114. *)
Definition set_reg (k : nat) (id : string) (r : option ref) : wact :=
  in_net k (fun nt => wcheck (fun w => check_regulating w k r) (fun w =>
    match w_regs w !! (k, id), n_eqs nt !! id with
    | Some _, Some (t :: _) => (Ok tt, with_reg w k id (match r with Some r => r | None => (k, t_id t) end))
    | _, _ => (UB, w)
    end)).
(** RatioTapChangerAdder.cpp:66-92 with RatioTapChanger.cpp:15-24; PhaseTapChangerAdder.cpp:71-99 with PhaseTapChanger.cpp:17-26.  A
    tap changer replaces the one before. *)
Definition add_tap (key : tapkey) (a : tapargs) (r : option ref) : wact :=
  in_net (k_net key) (fun nt =>
    match n_eqs nt !! k_id key with
    | Some (_ :: _ :: _) =>
      wcheck (fun w => check_tap w key a r) (wcheck (fun _ => if a_rest a then Ok tt else Throw "tap changer") (fun w => (Ok tt, with_tap w key r)))
    | _ => fun w => (UB, w)
    end).
(** RatioTapChanger.cpp:69-72, PhaseTapChanger.cpp:66-69, TapChanger.hxx:184-191. *)
Definition set_tap (key : tapkey) (a : tapargs) (r : option ref) : wact :=
  in_net (k_net key) (fun _ w =>
    match w_taps w !! key with
    | Some _ => wcheck (fun w => check_tap w key a r) (wcheck (fun w => check_tap_changer w (k_net key) r) (fun w => (Ok tt, with_tap w key r))) w
    | None => (UB, w)
    end).
(** RatioTapChanger.cpp:54-56, PhaseTapChanger.cpp:56-58. *)
Definition remove_tap (key : tapkey) : wact := in_net (k_net key) (fun _ w => (Ok tt, mkW (w_nets w) (w_regs w) (delete key (w_taps w)))).
(** Connectable::remove (Connectable.cpp:95-104): the equipment is destroyed, with its tap changers and its references; those of the
    other equipments stay. *)
Definition remove_in (k : nat) (id : string) : wact := in_net k (fun nt w =>
  let '(res, nt') := nstep (ORemove id) nt in
  let w' := with_net w k nt' in
  match res with
  | Ok _ => (res, mkW (w_nets w') (delete (k, id) (w_regs w')) (filter (fun x => ~ (k_net x.1 = k /\ k_id x.1 = id)) (w_taps w')))
  | _ => (res, w')
  end).
(** The end of a network. *)
Definition drop_net (k : nat) : wact := fun w =>
  (Ok tt, mkW (delete k (w_nets w)) (filter (fun x => x.1.1 <> k) (w_regs w)) (filter (fun x => k_net x.1 <> k) (w_taps w))).
Definition new_net (k : nat) : wact := fun w => match w_nets w !! k with Some _ => (UB, w) | None => (Ok tt, with_net w k net0) end.

Inductive wop :=
| WNew (k : nat) | WDrop (k : nat)
| WStep (k : nat) (o : nop)
| WReg (k : nat) (id : string) (s : side) (r : option ref)
| WSet (k : nat) (id : string) (r : option ref)
| WTap (key : tapkey) (a : tapargs) (r : option ref)
| WTapSet (key : tapkey) (a : tapargs) (r : option ref)
| WTapRemove (key : tapkey).
Definition wstep (o : wop) : wact :=
  match o with
  | WNew k => new_net k
  | WDrop k => drop_net k
  | WStep k (ORemove id) => remove_in k id
  | WStep k (ORegulated id s) => add_reg k id s None
  | WStep k o => in_net k (fun nt w => let '(res, nt') := nstep o nt in (res, with_net w k nt'))
  | WReg k id s r => add_reg k id s r
  | WSet k id r => set_reg k id r
  | WTap key a r => add_tap key a r
  | WTapSet key a r => set_tap key a r
  | WTapRemove key => remove_tap key
  end.

(** ** In the XML file *)
(** TerminalRefXml::writeTerminalRefAttribute: TerminalRefXml.cpp:76-100, without anonymizer nor filter, at the node-breaker level: the
    id of the equipment, the side when it has several terminals (Branch::getSide, ThreeWindingsTransformer::getSide). *)
Definition write_ref (w : world) (r : ref) : result (string * option nat) :=
  match w_nets w !! r.1 with
  | None => UB
  | Some nt =>
    match find_addr nt r.2 with
    | None => UB
    | Some (id, i) => match n_eqs nt !! id with Some (_ :: _ :: _) => Ok (id, Some i) | _ => Ok (id, None) end
    end
  end.
(** TerminalRefXml::readTerminalRef: TerminalRefXml.cpp:33-51, in network [nt]; Enum::fromString throws for a side that is missing or
    has no such name. *)
Definition read_ref (nt : net) (x : string * option nat) : result nat :=
  match n_eqs nt !! x.1 with
  | None => if bool_decide (x.1 ∈ n_ids nt \/ is_Some (n_levels nt !! x.1)) then Throw "Unexpected terminal reference identifiable instance" else Throw "Terminal reference identifiable not found"
  | Some [] => Throw "vector::_M_range_check"
  | Some [t] => Ok (t_id t)
  | Some ts =>
    match x.2 with
    | None => Throw "Unexpected side"
    | Some i => match ts !! i with Some t => Ok (t_id t) | None => Throw "Unexpected side" end
    end
  end.

(** ** Histories *)
Inductive world_reach (P : wop -> world -> Prop) : world -> Prop :=
| wr_new : world_reach P world0
| wr_step o w : world_reach P w -> P o w -> world_reach P (wstep o w).2.
