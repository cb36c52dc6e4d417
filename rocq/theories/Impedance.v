(** Model of the electrical characteristics and of the state values of the branches, legs, dangling lines, tap changer steps, buses of
    the bus-breaker topology and terminals: their adders and setters.  As in ExtSetters.v, the values shared by the variants are kept in
    one list and those per variant in another, each in the order of the getters named in [Impedance]Spec.  The adders are modelled for
    these values only: the checks of the voltage levels, buses, nodes and ids are in EquipNet.v, the tap changers in TapChanger.v, the
    generation of a dangling line in Setters.v. *)
From stdpp Require Import pretty.
From Verif Require Export ExtSetters.

(** KTerminal shunt: a terminal of a shunt compensator, or of another connectable that is no busbar section. *)
Inductive ikind := KLine | KHalfLine | KTwoWindings | KLeg | KDangling | KRatioStep | KPhaseStep | KBus | KTerminal (shunt : bool).
Inductive line_attr := LR | LX | LG1 | LB1 | LG2 | LB2.
Inductive icall : ikind -> Type :=
| LineSet (a : line_attr) (x : dbl) : icall KLine
| HalfLineSet (a : line_attr) (x : dbl) : icall KHalfLine
| HalfLineSetFictitious (b : bool) : icall KHalfLine
| TwtSetR (x : dbl) : icall KTwoWindings
| TwtSetX (x : dbl) : icall KTwoWindings
| TwtSetG (x : dbl) : icall KTwoWindings
| TwtSetB (x : dbl) : icall KTwoWindings
| TwtSetRatedU1 (x : dbl) : icall KTwoWindings
| TwtSetRatedU2 (x : dbl) : icall KTwoWindings
| TwtSetRatedS (x : dbl) : icall KTwoWindings
| LegSetR (x : dbl) : icall KLeg
| LegSetX (x : dbl) : icall KLeg
| LegSetG (x : dbl) : icall KLeg
| LegSetB (x : dbl) : icall KLeg
| LegSetRatedU (x : dbl) : icall KLeg
| LegSetRatedS (x : dbl) : icall KLeg
| DlSetR (x : dbl) : icall KDangling
| DlSetX (x : dbl) : icall KDangling
| DlSetG (x : dbl) : icall KDangling
| DlSetB (x : dbl) : icall KDangling
| DlSetP0 (x : dbl) : icall KDangling
| DlSetQ0 (x : dbl) : icall KDangling
| RtcSetRho (x : dbl) : icall KRatioStep
| RtcSetR (x : dbl) : icall KRatioStep
| RtcSetX (x : dbl) : icall KRatioStep
| RtcSetG (x : dbl) : icall KRatioStep
| RtcSetB (x : dbl) : icall KRatioStep
| PtcSetAlpha (x : dbl) : icall KPhaseStep
| PtcSetRho (x : dbl) : icall KPhaseStep
| PtcSetR (x : dbl) : icall KPhaseStep
| PtcSetX (x : dbl) : icall KPhaseStep
| PtcSetG (x : dbl) : icall KPhaseStep
| PtcSetB (x : dbl) : icall KPhaseStep
| BusSetV (x : dbl) : icall KBus
| BusSetAngle (x : dbl) : icall KBus
| TermSetP {shunt} (x : dbl) : icall (KTerminal shunt)
| TermSetQ {shunt} (x : dbl) : icall (KTerminal shunt).

(** checkB, checkB1, checkB2, checkG, checkG1, checkG2, checkP0, checkQ0, checkR, checkX: ValidationUtils.cpp:49-68, 110-129, 235-240,
    286-298, 439-444; checkRatedU, checkRatedU1, checkRatedU2: 307-321; checkOptional on a double: 228-233.  They differ by the message. *)
Definition check_set (x : dbl) (m : string) := check (is_nan x) m.
(** checkVoltage: ValidationUtils.cpp:400-405. *)
Definition check_voltage (x : dbl) := check (negb (is_nan x) && dlt x dzero) "voltage cannot be < 0".

(** LineCharacteristics.cpp:55-77. *)
Definition set_line (a : line_attr) (x : dbl) : setter attrs attrs :=
  match a with
  | LR => set_shared 0 (check_set x "r is invalid") (OD x)
  | LX => set_shared 1 (check_set x "x is invalid") (OD x)
  | LG1 => set_shared 2 (check_set x "g1 is invalid") (OD x)
  | LB1 => set_shared 3 (check_set x "b1 is invalid") (OD x)
  | LG2 => set_shared 4 (check_set x "g2 is invalid") (OD x)
  | LB2 => set_shared 5 (check_set x "b2 is invalid") (OD x)
  end.
Definition iset {k} (c : icall k) : setter attrs attrs :=
  match c with
  (* Line.cpp:60-88 *)
  | LineSet a x => set_line a x
  (* HalfLine.cpp:95-135 *)
  | HalfLineSet a x => set_line a x
  | HalfLineSetFictitious b => set_shared 6 (Ok tt) (OB b)
  (* TwoWindingsTransformer.cpp:171-179, 185-203, 217-220 *)
  | TwtSetR x => set_shared 0 (check_set x "r is invalid") (OD x)
  | TwtSetX x => set_shared 1 (check_set x "x is invalid") (OD x)
  | TwtSetG x => set_shared 2 (check_set x "g is invalid") (OD x)
  | TwtSetB x => set_shared 3 (check_set x "b is invalid") (OD x)
  | TwtSetRatedU1 x => set_shared 4 (check_set x "rated U1 is invalid") (OD x)
  | TwtSetRatedU2 x => set_shared 5 (check_set x "rated U2 is invalid") (OD x)
  | TwtSetRatedS x => set_shared 6 (checkRatedS x) (OD x)
  (* ThreeWindingsTransformerLeg.cpp:142-165, 175-178 *)
  | LegSetR x => set_shared 0 (check_set x "r is invalid") (OD x)
  | LegSetX x => set_shared 1 (check_set x "x is invalid") (OD x)
  | LegSetG x => set_shared 2 (check_set x "g is invalid") (OD x)
  | LegSetB x => set_shared 3 (check_set x "b is invalid") (OD x)
  | LegSetRatedU x => set_shared 4 (check_set x "rated U is invalid") (OD x)
  | LegSetRatedS x => set_shared 5 (checkRatedS x) (OD x)
  (* DanglingLine.cpp:124-158 *)
  | DlSetR x => set_shared 0 (check_set x "r is invalid") (OD x)
  | DlSetX x => set_shared 1 (check_set x "x is invalid") (OD x)
  | DlSetG x => set_shared 2 (check_set x "g is invalid") (OD x)
  | DlSetB x => set_shared 3 (check_set x "b is invalid") (OD x)
  | DlSetP0 x => set_variant 0 (check_set x "p0 is invalid") (OD x)
  | DlSetQ0 x => set_variant 1 (check_set x "q0 is invalid") (OD x)
  (* TapChangerStep.hxx:50-78 *)
  | RtcSetRho x => set_shared 0 (Ok tt) (OD x)
  | RtcSetR x => set_shared 1 (Ok tt) (OD x)
  | RtcSetX x => set_shared 2 (Ok tt) (OD x)
  | RtcSetG x => set_shared 3 (Ok tt) (OD x)
  | RtcSetB x => set_shared 4 (Ok tt) (OD x)
  (* PhaseTapChangerStep.cpp:23-26, TapChangerStep.hxx:50-78 *)
  | PtcSetAlpha x => set_shared 0 (Ok tt) (OD x)
  | PtcSetRho x => set_shared 1 (Ok tt) (OD x)
  | PtcSetR x => set_shared 2 (Ok tt) (OD x)
  | PtcSetX x => set_shared 3 (Ok tt) (OD x)
  | PtcSetG x => set_shared 4 (Ok tt) (OD x)
  | PtcSetB x => set_shared 5 (Ok tt) (OD x)
  (* ConfiguredBus.cpp:206-212, 190-194 *)
  | BusSetV x => set_variant 0 (check_voltage x) (OD x)
  | BusSetAngle x => set_variant 1 (Ok tt) (OD x)
  (* Terminal.cpp:108-133, for a connectable that is no busbar section *)
  | @TermSetP shunt x => set_variant 0 (check (negb (is_nan x) && shunt) "cannot set active power on a shunt compensator") (OD x)
  | TermSetQ x => set_variant 1 (Ok tt) (OD x)
  end.
(** Setters that always throw: the six of a tie line (TieLine.cpp:102-124) and setP, setQ on a busbar section (Terminal.cpp:108-133). *)
Inductive fcall := TieLineSet (a : line_attr) (x : dbl) | BusbarSetP (x : dbl) | BusbarSetQ (x : dbl).
Definition fset (c : fcall) : setter attrs attrs :=
  match c with
  | TieLineSet _ _ => SSh0 (fun _ => Throw "direct modification of characteristics not supported for tie lines")
  | BusbarSetP _ => SVar (fun _ _ => Throw "cannot set active power on a busbar section")
  | BusbarSetQ _ => SVar (fun _ _ => Throw "cannot set reactive power on a busbar section")
  end.

(** The values given to an adder; None: its setter was not called. *)
Inductive iargs : ikind -> Type :=
| LineArgs (r x g1 b1 g2 b2 : option dbl) : iargs KLine
| HalfLineArgs (id : option string) (fictitious : option bool) (r x g1 b1 g2 b2 : option dbl) : iargs KHalfLine
| TwtArgs (r x g b u1 u2 ratedS : option dbl) : iargs KTwoWindings
| LegArgs (num : nat) (r x g b u ratedS : option dbl) : iargs KLeg
| DlArgs (r x g b p0 q0 : option dbl) : iargs KDangling
| RtcArgs (rho r x g b : option dbl) : iargs KRatioStep
| PtcArgs (alpha rho r x g b : option dbl) : iargs KPhaseStep
| BusArgs : iargs KBus
| TermArgs {shunt} : iargs (KTerminal shunt).
Definition iadd {k} (a : iargs k) : result (attrs * attrs) :=
  match a with
  (* LineAdder.hpp:52-62, LineAdder.cpp:33-38; the constructor (LineCharacteristics.cpp:21-29) checks the same values again *)
  | LineArgs r x g1 b1 g2 b2 =>
    let r := default NaN r in let x := default NaN x in let g1 := default NaN g1 in let b1 := default NaN b1 in
    let g2 := default NaN g2 in let b2 := default NaN b2 in
    check_set b1 "b1 is invalid" ;;+ check_set b2 "b2 is invalid" ;;+ check_set g1 "g1 is invalid" ;;+ check_set g2 "g2 is invalid" ;;+
    check_set r "r is invalid" ;;+ check_set x "x is invalid" ;;+ Ok ([OD r; OD x; OD g1; OD b1; OD g2; OD b2], [])
  (* HalfLineAdder.hpp:63-79, HalfLineAdder.cpp:25-48 *)
  | HalfLineArgs id fict r x g1 b1 g2 b2 =>
    let r := default NaN r in let x := default NaN x in let g1 := default NaN g1 in let b1 := default NaN b1 in
    let g2 := default NaN g2 in let b2 := default NaN b2 in
    check (bool_decide (default "" id = "")) "id is not set for half line" ;;+
    check_set r "r is not set for half line" ;;+ check_set x "x is not set for half line" ;;+ check_set g1 "g1 is not set for half line" ;;+
    check_set b1 "b1 is not set for half line" ;;+ check_set g2 "g2 is not set for half line" ;;+ check_set b2 "b2 is not set for half line" ;;+
    Ok ([OD r; OD x; OD g1; OD b1; OD g2; OD b2; OB (default false fict)], [])
  (* TwoWindingsTransformerAdder.hpp:55-67, TwoWindingsTransformerAdder.cpp:35-41 *)
  | TwtArgs r x g b u1 u2 s =>
    let r := default NaN r in let x := default NaN x in let g := default NaN g in let b := default NaN b in
    let u1 := default NaN u1 in let u2 := default NaN u2 in let s := default NaN s in
    check_set r "r is invalid" ;;+ check_set x "x is invalid" ;;+ check_set g "g is invalid" ;;+ check_set b "b is invalid" ;;+
    check_set u1 "rated U1 is invalid" ;;+ check_set u2 "rated U2 is invalid" ;;+ checkRatedS s ;;+
    Ok ([OD r; OD x; OD g; OD b; OD u1; OD u2; OD s], [])
  (* ThreeWindingsTransformerLegAdder.hpp:82-92, newLeg1, newLeg2, newLeg3 (ThreeWindingsTransformerAdder.cpp:91-101),
     ThreeWindingsTransformerLegAdder.cpp:28-34 *)
  | LegArgs num r x g b u s =>
    let r := default NaN r in let x := default NaN x in
    let g := default (if bool_decide (num = 1) then NaN else dzero) g in let b := default (if bool_decide (num = 1) then NaN else dzero) b in
    let u := default NaN u in let s := default NaN s in
    check_set r "r is not set" ;;+ check_set x "x is not set" ;;+ check_set g "g is not set" ;;+ check_set b "b is not set" ;;+
    check_set u "rated U is not set" ;;+ checkRatedS s ;;+ Ok ([OD r; OD x; OD g; OD b; OD u; OD s], [])
  (* DanglingLineAdder.hpp:62-72, DanglingLineAdder.cpp:26-31 *)
  | DlArgs r x g b p0 q0 =>
    let r := default NaN r in let x := default NaN x in let g := default NaN g in let b := default NaN b in
    let p0 := default NaN p0 in let q0 := default NaN q0 in
    check_set p0 "p0 is invalid" ;;+ check_set q0 "q0 is invalid" ;;+ check_set r "r is invalid" ;;+ check_set x "x is invalid" ;;+
    check_set g "g is invalid" ;;+ check_set b "b is invalid" ;;+ Ok ([OD r; OD x; OD g; OD b], [OD p0; OD q0])
  (* RatioTapChangerAdder.hpp:54-62, RatioTapChangerAdder.cpp:27-35 *)
  | RtcArgs rho r x g b =>
    let rho := default NaN rho in let r := default NaN r in let x := default NaN x in let g := default NaN g in let b := default NaN b in
    check_set rho "step rho is not set" ;;+ check_set r "step r is not set" ;;+ check_set x "step x is not set" ;;+
    check_set g "step g is not set" ;;+ check_set b "step b is not set" ;;+ Ok ([OD rho; OD r; OD x; OD g; OD b], [])
  (* PhaseTapChangerAdder.hpp:56-66, PhaseTapChangerAdder.cpp:26-35 *)
  | PtcArgs alpha rho r x g b =>
    let alpha := default NaN alpha in
    let rho := default NaN rho in let r := default NaN r in let x := default NaN x in let g := default NaN g in let b := default NaN b in
    check_set alpha "step alpha is not set" ;;+ check_set rho "step rho is not set" ;;+ check_set r "step r is not set" ;;+
    check_set x "step x is not set" ;;+ check_set g "step g is not set" ;;+ check_set b "step b is not set" ;;+
    Ok ([OD alpha; OD rho; OD r; OD x; OD g; OD b], [])
  (* ConfiguredBus.cpp:35-36, Terminal.cpp:28-29 *)
  | BusArgs => Ok ([], [OD NaN; OD NaN])
  | TermArgs => Ok ([], [OD NaN; OD NaN])
  end.

(** MinMaxReactiveLimitsAdder.hpp:36-38, MinMaxReactiveLimitsAdder.cpp:33-46; the limits have no setter. *)
Definition minmax_add (minQ maxQ : option dbl) : result (dbl * dbl) :=
  let minQ := default NaN minQ in let maxQ := default NaN maxQ in
  check_set minQ "Minimum reactive power is not set" ;;+ check_set maxQ "Maximum reactive power is not set" ;;+
  check (dlt maxQ minQ) "Maximum reactive power is expected to be greater than or equal to minimum reactive power" ;;+ Ok (minQ, maxQ).

(** The adder of three windings transformers (ThreeWindingsTransformerAdder.cpp): the rated voltages of the legs given so far (the legs
    themselves are [LegArgs]), and m_ratedU0. *)
Record tadder := mkTA { ta_leg1 : option dbl; ta_leg2 : option dbl; ta_leg3 : option dbl; ta_u0 : dbl }.
Definition ta_new := mkTA None None None NaN.
(** The add of a leg adder (ThreeWindingsTransformerLegAdder.cpp:36-48) with its rated voltage, setRatedU0 and add.  [before] and
    [after]: whether the checks of the voltage levels and terminals, and that of the id, succeed. *)
Inductive tcall := TSetLeg1 (u : dbl) | TSetLeg2 (u : dbl) | TSetLeg3 (u : dbl) | TSetRatedU0 (x : dbl) | TAdd (before after : bool).
(** The result of add is the ratedU0 of the transformer created: 24-71. *)
Definition trun (c : tcall) (a : tadder) : option (result dbl) * tadder :=
  match c with
  | TSetLeg1 u => (None, mkTA (Some u) (ta_leg2 a) (ta_leg3 a) (ta_u0 a))
  | TSetLeg2 u => (None, mkTA (ta_leg1 a) (Some u) (ta_leg3 a) (ta_u0 a))
  | TSetLeg3 u => (None, mkTA (ta_leg1 a) (ta_leg2 a) (Some u) (ta_u0 a))
  | TSetRatedU0 x => (None, mkTA (ta_leg1 a) (ta_leg2 a) (ta_leg3 a) x)
  | TAdd before after =>
    match ta_leg1 a, ta_leg2 a, ta_leg3 a with
    | None, _, _ => (Some (Throw "leg 1 is not defined"), a)
    | _, None, _ => (Some (Throw "leg 2 is not defined"), a)
    | _, _, None => (Some (Throw "leg 3 is not defined"), a)
    | Some u1, Some _, Some _ =>
      if before then
        (* 53-57: the member of the adder is assigned *)
        let a' := if is_nan (ta_u0 a) then mkTA (ta_leg1 a) (ta_leg2 a) (ta_leg3 a) u1 else a in
        if after then (Some (Ok (ta_u0 a')), a') else (Some (Throw "the network already contains an object"), a')
      else (Some (Throw "voltage level not found"), a)
    end
  end.
(** The adder after some calls. *)
Fixpoint truns (cs : list tcall) (a : tadder) : tadder := match cs with [] => a | c :: cs => truns cs (trun c a).2 end.

(** The order of the initialisations of Leg::Leg: ThreeWindingsTransformerLeg.cpp:23-32.  The base FlowsLimitsHolder is initialised
    before the members, with a text made of m_legNumber.  None: an indeterminate value. *)
Record leg_members := mkLM { lm_attribute : option string; lm_number : option nat }.
Definition pretty_number (n : nat) : string := pretty (N.of_nat n).
Definition leg_ctor (num : nat) : leg_members :=
  let this := mkLM None None in
  let this := mkLM (n ← lm_number this; Some ("limits" +:+ pretty_number n)) (lm_number this) in
  mkLM (lm_attribute this) (Some num).
