(** Model of the attributes of the extensions: their adders and setters.  The value of an attribute is kept in the list of the
    values shared by the variants, or, for LoadDetail, in the list of the values per variant; the number of an attribute in its
    list is the rank of the member in the class.  The extendable of an extension is not modelled here (Ext.v), nor are its
    effects on messages.  Not in this file: measurements (Measure.v), the slack terminal (Slack.v), and the extensions whose
    attributes are only an enumeration (BranchStatus, EntsoeArea) or a terminal (RemoteReactivePowerControl). *)
From Verif Require Export SettersSpec.

Inductive xkind := KAngleDroop | KOperatorRange | KCoordinated | KSlope | KClock | KClocks | KMergedXnode | KXnode
| KActivePower | KBusbarPosition | KLoadDetail.
(** The setters of each class. *)
Inductive xcall : xkind -> Type :=
| SetP0 (x : dbl) : xcall KAngleDroop
| SetDroop (x : dbl) : xcall KAngleDroop
| SetEnabled (b : bool) : xcall KAngleDroop
| SetOpr12 (x : dbl) : xcall KOperatorRange
| SetOpr21 (x : dbl) : xcall KOperatorRange
| SetQPercent (x : dbl) : xcall KCoordinated
| SetSlope (x : dbl) : xcall KSlope
| SetClock (n : nat) : xcall KClock
| SetClock2 (n : nat) : xcall KClocks
| SetClock3 (n : nat) : xcall KClocks
| SetRdp (x : dbl) : xcall KMergedXnode
| SetXdp (x : dbl) : xcall KMergedXnode
| SetXnodeP1 (x : dbl) : xcall KMergedXnode
| SetXnodeQ1 (x : dbl) : xcall KMergedXnode
| SetXnodeP2 (x : dbl) : xcall KMergedXnode
| SetXnodeQ2 (x : dbl) : xcall KMergedXnode
| SetLine1Name (x : string) : xcall KMergedXnode
| SetLine2Name (x : string) : xcall KMergedXnode
| SetMergedCode (x : string) : xcall KMergedXnode
| SetXnodeCode (x : string) : xcall KXnode
| SetParticipate (b : bool) : xcall KActivePower
| SetActiveDroop (x : dbl) : xcall KActivePower
| SetBusbarIndex (n : nat) : xcall KBusbarPosition
| SetSectionIndex (n : nat) : xcall KBusbarPosition
| SetFixedP (x : dbl) : xcall KLoadDetail
| SetFixedQ (x : dbl) : xcall KLoadDetail
| SetVariableP (x : dbl) : xcall KLoadDetail
| SetVariableQ (x : dbl) : xcall KLoadDetail.

(** HvdcAngleDroopActivePowerControl.cpp:36-41, 43-48. *)
Definition checkDroop (x : dbl) := check (is_nan x) "droop is not set".
Definition checkAngleP0 (x : dbl) := check (is_nan x) "p0 is not set".
(** HvdcOperatorActivePowerRange.cpp:38-43. *)
Definition checkOPR (x : dbl) := check (negb (is_nan x) && dlt x dzero) "OPR must be greater than 0".
(** CoordinatedReactiveControl.cpp:38-47: a value that is no percentage is only logged. *)
Definition checkQPercent (x : dbl) := check (is_nan x) "Undefined value for qPercent".
(** VoltagePerReactivePowerControl.cpp:31-40. *)
Definition checkSlope (x : dbl) := check (is_nan x) "Undefined value for slope" ;;+ check (dlt x dzero) "Slope value must be positive".
(** TwoWindingsTransformerPhaseAngleClock.cpp:37-42, ThreeWindingsTransformerPhaseAngleClock.cpp:40-45. *)
Definition checkPhaseAngleClock (n : nat) := check (bool_decide (11 < n)) "Unexpected value for phaseAngleClock".
(** MergedXnode.cpp:44-49, 51-56. *)
Definition checkDividerPosition (x : dbl) := check (dlt x dzero || dlt (Fin 1) x || is_nan x) "Invalid divider position".
Definition checkPowerFlow (x : dbl) := check (is_nan x) "Power flow is invalid".
(** ValidationUtils.cpp:208-213. *)
Definition checkNotEmpty (x : string) (m : string) := check (bool_decide (x = "")) m.
(** LoadDetail.cpp:47-52. *)
Definition checkPower (x : dbl) (m : string) := check (is_nan x) m.

Definition attrs := list oval.
Definition set_shared (i : nat) (c : result unit) (x : oval) : setter attrs attrs := SSh0 (fun s => c ;;+ Ok (<[i := x]> s)).
Definition set_variant (i : nat) (c : result unit) (x : oval) : setter attrs attrs := SVar (fun s v => c ;;+ Ok (<[i := x]> v)).
Definition xset {k} (c : xcall k) : setter attrs attrs :=
  match c with
  (* HvdcAngleDroopActivePowerControl.cpp:72-85 *)
  | SetP0 x => set_shared 0 (checkAngleP0 x) (OD x)
  | SetDroop x => set_shared 1 (checkDroop x) (OD x)
  | SetEnabled b => set_shared 2 (Ok tt) (OB b)
  (* HvdcOperatorActivePowerRange.cpp:63-73 *)
  | SetOpr12 x => set_shared 0 (checkOPR x) (OD x)
  | SetOpr21 x => set_shared 1 (checkOPR x) (OD x)
  (* CoordinatedReactiveControl.cpp:63-66 *)
  | SetQPercent x => set_shared 0 (checkQPercent x) (OD x)
  (* VoltagePerReactivePowerControl.cpp:55-58 *)
  | SetSlope x => set_shared 0 (checkSlope x) (OD x)
  (* TwoWindingsTransformerPhaseAngleClock.cpp:58-61 *)
  | SetClock n => set_shared 0 (checkPhaseAngleClock n) (ON n)
  (* ThreeWindingsTransformerPhaseAngleClock.cpp:65-73 *)
  | SetClock2 n => set_shared 0 (checkPhaseAngleClock n) (ON n)
  | SetClock3 n => set_shared 1 (checkPhaseAngleClock n) (ON n)
  (* MergedXnode.cpp:104-147 *)
  | SetRdp x => set_shared 0 (checkDividerPosition x) (OD x)
  | SetXdp x => set_shared 1 (checkDividerPosition x) (OD x)
  | SetXnodeP1 x => set_shared 2 (checkPowerFlow x) (OD x)
  | SetXnodeQ1 x => set_shared 3 (checkPowerFlow x) (OD x)
  | SetXnodeP2 x => set_shared 4 (checkPowerFlow x) (OD x)
  | SetXnodeQ2 x => set_shared 5 (checkPowerFlow x) (OD x)
  | SetLine1Name x => set_shared 6 (Ok tt) (OS x)
  | SetLine2Name x => set_shared 7 (Ok tt) (OS x)
  | SetMergedCode x => set_shared 8 (checkNotEmpty x "Xnode code is empty") (OS x)
  (* Xnode.cpp:46-49 *)
  | SetXnodeCode x => set_shared 0 (checkNotEmpty x "Xnode code is empty") (OS x)
  (* ActivePowerControl.cpp:57-65 *)
  | SetParticipate b => set_shared 0 (Ok tt) (OB b)
  | SetActiveDroop x => set_shared 1 (Ok tt) (OD x)
  (* BusbarSectionPosition.cpp:52-60 *)
  | SetBusbarIndex n => set_shared 0 (Ok tt) (ON n)
  | SetSectionIndex n => set_shared 1 (Ok tt) (ON n)
  (* LoadDetail.cpp:98-116 *)
  | SetFixedP x => set_variant 0 (checkPower x "Invalid fixedActivePower") (OD x)
  | SetFixedQ x => set_variant 1 (checkPower x "Invalid fixedReactivePower") (OD x)
  | SetVariableP x => set_variant 2 (checkPower x "Invalid variableActivePower") (OD x)
  | SetVariableQ x => set_variant 3 (checkPower x "Invalid variableReactivePower") (OD x)
  end.

(** The values given to an adder; None: its with-function was not called. *)
Inductive xargs : xkind -> Type :=
| AngleDroopArgs (p0 droop : option dbl) (enabled : option bool) : xargs KAngleDroop
| OperatorRangeArgs (o12 o21 : option dbl) : xargs KOperatorRange
| CoordinatedArgs (q : option dbl) : xargs KCoordinated
| SlopeArgs (s : option dbl) : xargs KSlope
| ClockArgs (n : option nat) : xargs KClock
| ClocksArgs (n2 n3 : option nat) : xargs KClocks
| MergedXnodeArgs (rdp xdp p1 q1 p2 q2 : option dbl) (l1 l2 code : option string) : xargs KMergedXnode
| XnodeArgs (code : option string) : xargs KXnode
| ActivePowerArgs (participate : option bool) (droop : option dbl) : xargs KActivePower
| BusbarPositionArgs (bb section : option nat) : xargs KBusbarPosition
| LoadDetailArgs (fp fq vp vq : option dbl) : xargs KLoadDetail.
(** The initial values of the members of the adder (the Adder.hpp files) and createExtension of each adder with the constructor of the
    extension: the members are initialised in order, each with its check. *)
Definition xadd {k} (a : xargs k) : result (attrs * attrs) :=
  match a with
  (* HvdcAngleDroopActivePowerControlAdder.hpp:74-85, HvdcAngleDroopActivePowerControlAdder.cpp:25-30, HvdcAngleDroopActivePowerControl.cpp:23-28 *)
  | AngleDroopArgs p0 droop en =>
    let p0 := default NaN p0 in let droop := default NaN droop in
    checkAngleP0 p0 ;;+ checkDroop droop ;;+ Ok ([OD p0; OD droop; OB (default false en)], [])
  (* HvdcOperatorActivePowerRangeAdder.hpp:82-84, HvdcOperatorActivePowerRangeAdder.cpp:27-32, HvdcOperatorActivePowerRange.cpp:24-29 *)
  | OperatorRangeArgs o12 o21 =>
    let o12 := default dzero o12 in let o21 := default dzero o21 in
    checkOPR o12 ;;+ checkOPR o21 ;;+ Ok ([OD o12; OD o21], [])
  (* CoordinatedReactiveControlAdder.hpp:75, CoordinatedReactiveControlAdder.cpp:25-30, CoordinatedReactiveControl.cpp:27-30 *)
  | CoordinatedArgs q => let q := default NaN q in checkQPercent q ;;+ Ok ([OD q], [])
  (* VoltagePerReactivePowerControlAdder.hpp:74, VoltagePerReactivePowerControlAdder.cpp:27-32, VoltagePerReactivePowerControl.cpp:20-23 *)
  | SlopeArgs s => let s := default dzero s in checkSlope s ;;+ Ok ([OD s], [])
  (* TwoWindingsTransformerPhaseAngleClockAdder.cpp:25-33 *)
  | ClockArgs None => Throw "Undefined value for phaseAngleClock"
  | ClockArgs (Some n) => checkPhaseAngleClock n ;;+ Ok ([ON n], [])
  (* ThreeWindingsTransformerPhaseAngleClockAdder.cpp:25-36 *)
  | ClocksArgs None _ => Throw "Undefined value for phaseAngleClockLeg2"
  | ClocksArgs (Some _) None => Throw "Undefined value for phaseAngleClockLeg3"
  | ClocksArgs (Some n2) (Some n3) => checkPhaseAngleClock n2 ;;+ checkPhaseAngleClock n3 ;;+ Ok ([ON n2; ON n3], [])
  (* MergedXnodeAdder.hpp:85-101, MergedXnodeAdder.cpp:25-30, MergedXnode.cpp:23-36 *)
  | MergedXnodeArgs rdp xdp p1 q1 p2 q2 l1 l2 code =>
    let rdp := default NaN rdp in let xdp := default NaN xdp in let p1 := default NaN p1 in let q1 := default NaN q1 in
    let p2 := default NaN p2 in let q2 := default NaN q2 in let code := default "" code in
    checkDividerPosition rdp ;;+ checkDividerPosition xdp ;;+ checkPowerFlow p1 ;;+ checkPowerFlow q1 ;;+ checkPowerFlow p2 ;;+
    checkPowerFlow q2 ;;+ checkNotEmpty code "Xnode code is empty" ;;+
    Ok ([OD rdp; OD xdp; OD p1; OD q1; OD p2; OD q2; OS (default "" l1); OS (default "" l2); OS code], [])
  (* XnodeAdder.hpp:75, XnodeAdder.cpp:28-33, Xnode.cpp:21-24 *)
  | XnodeArgs code => let code := default "" code in checkNotEmpty code "Xnode code is empty" ;;+ Ok ([OS code], [])
  (* ActivePowerControlAdder.hpp:82-84, ActivePowerControlAdder.cpp:27-35 *)
  | ActivePowerArgs p d => Ok ([OB (default false p); OD (default dzero d)], [])
  (* BusbarSectionPositionAdder.hpp:83-85, BusbarSectionPositionAdder.cpp:27-38 *)
  | BusbarPositionArgs None _ => Throw "Undefined value for busbar index"
  | BusbarPositionArgs (Some _) None => Throw "Undefined value for section index"
  | BusbarPositionArgs (Some b) (Some s) => Ok ([ON b; ON s], [])
  (* LoadDetailAdder.hpp:98-104, LoadDetailAdder.cpp:23-28, LoadDetail.cpp:23-30 *)
  | LoadDetailArgs fp fq vp vq =>
    let fp := default dzero fp in let fq := default dzero fq in let vp := default dzero vp in let vq := default dzero vq in
    checkPower fp "Invalid fixedActivePower" ;;+ checkPower fq "Invalid fixedReactivePower" ;;+
    checkPower vp "Invalid variableActivePower" ;;+ checkPower vq "Invalid variableReactivePower" ;;+
    Ok ([], [OD fp; OD fq; OD vp; OD vq])
  end.

(** The feeders of ConnectablePosition, present or not: ConnectablePosition.cpp:84-108. *)
Definition position_check (f f1 f2 f3 : bool) : result unit :=
  check (negb f && negb f1 && negb f2 && negb f3) "invalid feeder" ;;+
  check (f && (f1 || f2 || f3)) "feeder and feeder 1|2|3 are exclusives" ;;+
  check (if f1 then negb f2 && f3 else f2 || f3) "feeder 1|2|3 have to be set in the right order".
