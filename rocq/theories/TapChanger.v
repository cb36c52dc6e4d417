(** Model of the tap changers (include/powsybl/iidm/TapChanger.hxx, src/iidm/RatioTapChanger.cpp,
    src/iidm/PhaseTapChanger.cpp) with their adders, and of the tap changers of a transformer. *)
From Verif Require Export Equip.

Inductive tkind := Ratio | Phase.
(** PhaseTapChanger::RegulationMode. *)
Inductive pmode := CURRENT_LIMITER | ACTIVE_POWER_CONTROL | FIXED_TAP.
Global Instance pmode_eq_dec : EqDecision pmode. Proof. solve_decision. Defined.
Global Instance tkind_eq_dec : EqDecision tkind. Proof. solve_decision. Defined.
(** RatioTapChangerStep / PhaseTapChangerStep; [st_alpha] unused for a ratio tap changer. *)
Record tstep := mkStep { st_rho : dbl; st_r : dbl; st_x : dbl; st_g : dbl; st_b : dbl; st_alpha : dbl }.

Global Instance term_eq_dec : EqDecision term. Proof. solve_decision. Defined.
Global Instance tstep_nil_dec (l : list tstep) : Decision (l = []). Proof. destruct l; [by left|by right]. Defined.

(** Attributes shared by the variants: TapChanger.hpp, RatioTapChanger.hpp, PhaseTapChanger.hpp.  The two classes share one
    record: [ts_ltc] belongs to ratio tap changers, [ts_mode] to phase tap changers. *)
Record tsh := mkTs { ts_kind : tkind; ts_low : Z; ts_steps : list tstep; ts_term : option term; ts_ltc : bool; ts_mode : pmode }.
(** Attributes per variant; [tv_val] is m_targetV (ratio) or m_regulationValue (phase). *)
Record tvar := mkTv { tv_tap : Z; tv_reg : bool; tv_db : dbl; tv_val : dbl }.

(** getHighTapPosition: TapChanger.hxx:87-90 (no overflow of long). *)
Definition tc_high (s : tsh) : Z := (ts_low s + Z.of_nat (length (ts_steps s)) - 1)%Z.

(** checkRatioTapChangerRegulation: ValidationUtils.cpp:323-338.  Without load tap changing capabilities the messages are
    only warnings, but the terminal is then dereferenced: Reference::get throws if it is not set (reference.hpp:73-78). *)
Definition checkRatioRegulation (regulating ltc : bool) (t : option term) (targetV : dbl) : result unit :=
  if regulating then
    check (is_nan targetV && ltc) "a target voltage has to be set for a regulating ratio tap changer" ;;+
    check (dle targetV dzero && ltc) "bad target voltage" ;;+
    match t with
    | None => Throw "a regulation terminal has to be set for a regulating ratio tap changer"
    | Some t => check (negb (t_here t) && ltc) "regulation terminal is not part of the network"
    end
  else Ok tt.
(** checkPhaseTapChangerRegulation: ValidationUtils.cpp:249-274. *)
Definition checkPhaseRegulation (mode : pmode) (value : dbl) (regulating : bool) (t : option term) : result unit :=
  (if regulating then
     check (bool_decide (mode <> FIXED_TAP) && is_nan value) "phase regulation is on and threshold/setpoint value is not set" ;;+
     check (bool_decide (mode <> FIXED_TAP) && bool_decide (t = None)) "phase regulation is on and regulated terminal is not set" ;;+
     check (bool_decide (mode = FIXED_TAP)) "phase regulation cannot be on if mode is FIXED"
   else Ok tt) ;;+
  match t with Some t => check (negb (t_here t)) "phase regulation terminal is not part of the network" | None => Ok tt end.

(** ** Member functions *)
Inductive tcall :=
| TSetTap (p : Z) | TSetLow (l : Z) | TSetReg (b : bool) | TSetDb (d : dbl) | TSetTerm (t : option term)
| TSetVal (x : dbl)      (* setTargetV (ratio), setRegulationValue (phase) *)
| TSetLtc (b : bool)     (* ratio *)
| TSetMode (m : pmode).  (* phase *)

(** TapChanger::setRegulationTerminal: TapChanger.hxx:183-191. *)
Definition base_set_term (s : tsh) (t : option term) : result tsh :=
  match t with Some t => check (negb (t_here t)) "regulation terminal is not part of the network" | None => Ok tt end ;;+
  Ok (mkTs (ts_kind s) (ts_low s) (ts_steps s) t (ts_ltc s) (ts_mode s)).

Definition tcall_setter (c : tcall) : setter tsh tvar :=
  match c with
  (* setTapPosition: TapChanger.hxx:193-198 *)
  | TSetTap p => SVar (fun s v => checkTapPosition p (ts_low s) (tc_high s) ;;+ Ok (mkTv p (tv_reg v) (tv_db v) (tv_val v)))
  (* see tc_call *)
  | TSetLow l => SVar (fun s v => Ok v)
  (* RatioTapChanger.cpp:64-67 then TapChanger.hxx:175-181; PhaseTapChanger does not override setRegulating *)
  | TSetReg b => SVar (fun s v =>
      match ts_kind s with Ratio => checkRatioRegulation b (ts_ltc s) (ts_term s) (tv_val v) | Phase => Ok tt end ;;+
      checkTargetDeadband b (tv_db v) ;;+ Ok (mkTv (tv_tap v) b (tv_db v) (tv_val v)))
  (* setTargetDeadband: TapChanger.hxx:200-205 *)
  | TSetDb d => SVar (fun s v => checkTargetDeadband (tv_reg v) d ;;+ Ok (mkTv (tv_tap v) (tv_reg v) d (tv_val v)))
  (* RatioTapChanger.cpp:69-72, PhaseTapChanger.cpp:65-68 then TapChanger.hxx:183-191 *)
  | TSetTerm t => SSh (fun s v =>
      match ts_kind s with
      | Ratio => checkRatioRegulation (tv_reg v) (ts_ltc s) t (tv_val v)
      | Phase => checkPhaseRegulation (ts_mode s) (tv_val v) (tv_reg v) t
      end ;;+ base_set_term s t)
  (* RatioTapChanger.cpp:74-78, PhaseTapChanger.cpp:70-74 *)
  | TSetVal x => SVar (fun s v =>
      match ts_kind s with
      | Ratio => checkRatioRegulation (tv_reg v) (ts_ltc s) (ts_term s) x
      | Phase => checkPhaseRegulation (ts_mode s) x (tv_reg v) (ts_term s)
      end ;;+ Ok (mkTv (tv_tap v) (tv_reg v) (tv_db v) x))
  (* RatioTapChanger.cpp:58-62: the check is made with the old value *)
  | TSetLtc b => SSh (fun s v =>
      checkRatioRegulation (tv_reg v) (ts_ltc s) (ts_term s) (tv_val v) ;;+
      Ok (mkTs (ts_kind s) (ts_low s) (ts_steps s) (ts_term s) b (ts_mode s)))
  (* PhaseTapChanger.cpp:59-63 *)
  | TSetMode m => SSh (fun s v =>
      checkPhaseRegulation m (tv_val v) (tv_reg v) (ts_term s) ;;+
      Ok (mkTs (ts_kind s) (ts_low s) (ts_steps s) (ts_term s) (ts_ltc s) m))
  end.
(** setLowTapPosition: TapChanger.hxx:166-173: the shared attribute is assigned first, the tap position of the working
    variant (only) is shifted afterwards. *)
Definition tc_set_low (l : Z) : act tsh tvar unit :=
  do! s := ashared in
  aset (mkTs (ts_kind s) l (ts_steps s) (ts_term s) (ts_ltc s) (ts_mode s)) ;;!
  do! v := aget in
  aput (mkTv (tv_tap v + l - ts_low s) (tv_reg v) (tv_db v) (tv_val v)).
(** The setters of the other class do not exist: [tc_legal]. *)
Definition tc_call (c : tcall) : act tsh tvar unit :=
  match c with TSetLow l => tc_set_low l | _ => run_setter (tcall_setter c) end.
Definition tc_legal (k : tkind) (c : tcall) : Prop :=
  match c with TSetLtc _ => k = Ratio | TSetMode _ => k = Phase | _ => True end.

(** getStep, getCurrentStep: TapChanger.hxx:77-85, 127-137. *)
Definition tc_get_step (s : tsh) (p : Z) : result tstep :=
  checkTapPosition p (ts_low s) (tc_high s) ;;+ vget (ts_steps s) (Z.to_nat (p - ts_low s)).
Definition tc_current_step (s : tsh) (v : tvar) : result tstep := tc_get_step s (tv_tap v).

(** RatioTapChangerAdder::add (RatioTapChangerAdder.cpp:66-76), PhaseTapChangerAdder::add (PhaseTapChangerAdder.cpp:71-81) and
    the checks of the constructors, up to the check on the other tap changers.  [tap] is the optional tap position. *)
Definition tc_adder_checks (s : tsh) (tap : option Z) (reg : bool) (db val : dbl) : result tvar :=
  match tap with
  | None => Throw "tap position is not set"
  | Some p =>
    check (bool_decide (ts_steps s = [])) "tap changer should have at least one step" ;;+
    checkTapPosition p (ts_low s) (tc_high s) ;;+
    match ts_kind s with
    | Ratio => checkRatioRegulation reg (ts_ltc s) (ts_term s) val
    | Phase => checkPhaseRegulation (ts_mode s) val reg (ts_term s)
    end ;;+
    checkTargetDeadband reg db ;;+
    Ok (mkTv p reg db val)
  end.

(** ** The tap changers of a transformer *)
(** A slot is a place for a tap changer: ratio and phase of a two windings transformer (2 slots), of each leg of a three
    windings transformer (6 slots).  The kind of a slot never changes. *)
Definition xst := est (gmap nat tsh) (gmap nat tvar).

(** The tap changer in the slot [k] seen alone, and put back (a call to it does not change the working variant). *)
Definition xfocus (k : nat) (st : xst) : option (est tsh tvar) :=
  match e_sh st !! k with
  | None => None
  | Some s => Some (mkE s (omap (fun m : gmap nat tvar => m !! k) (e_vars st)) (e_cur st))
  end.
Definition xput (k : nat) (v1 : gmap string tvar) (id : string) (m : gmap nat tvar) : option (gmap nat tvar) :=
  Some (match v1 !! id with Some v => <[k := v]> m | None => m end).
Definition xunfocus (k : nat) (st : xst) (st1 : est tsh tvar) : xst :=
  mkE (<[k := e_sh st1]> (e_sh st)) (map_imap (xput k (e_vars st1)) (e_vars st)) (e_cur st).

(** getRegulatingTapChangerCount: TwoWindingsTransformer.cpp:209-215, ThreeWindingsTransformerLeg.cpp:94-111: the working
    variant is looked at if there is a tap changer. *)
Definition regulating_in (m : gmap nat tvar) : list nat := map fst (filter (fun e => tv_reg e.2 = true) (map_to_list m)).
Definition xcount : act (gmap nat tsh) (gmap nat tvar) nat :=
  do! s := ashared in
  if bool_decide (s = ∅) then aret 0 else do! v := aget in aret (length (regulating_in v)).
(** wasRegulating: RatioTapChangerAdder.cpp:80, PhaseTapChangerAdder.cpp:85. *)
Definition xwas (k : nat) : act (gmap nat tsh) (gmap nat tvar) bool :=
  do! s := ashared in
  match s !! k with
  | None => aret false
  | Some _ => do! v := aget in aret (match v !! k with Some w => tv_reg w | None => false end)
  end.

Inductive xcall :=
| XCall (k : nat) (c : tcall)                                                          (* a setter of the tap changer in slot k *)
| XAdd (k : nat) (s : tsh) (tap : option Z) (reg : bool) (db val : dbl)                (* adder.add() for slot k *)
| XRemove (k : nat).                                                                   (* tapChanger.remove() *)
Definition x_call (c : xcall) : act (gmap nat tsh) (gmap nat tvar) unit :=
  match c with
  | XCall k c => fun st =>
      match xfocus k st with
      | None => (Throw "tap changer is not set", st)
      | Some st1 => let r := tc_call c st1 in (r.1, xunfocus k st r.2)
      end
  (* RatioTapChangerAdder.cpp:66-92, PhaseTapChangerAdder.cpp:71-97, the new tap changer has the same values in all the
     variants: TapChanger.hxx:26-36 *)
  | XAdd k s tap reg db val =>
      do! v := alift (tc_adder_checks s tap reg db val) in
      do! was := xwas k in
      do! n := xcount in
      aif (reg && bool_decide (0 < n - (if was then 1 else 0))) "Only one regulating control enabled is allowed" ;;!
      fun st => (Ok tt, mkE (<[k := s]> (e_sh st)) ((fun m : gmap nat tvar => <[k := v]> m) <$> e_vars st) (e_cur st))
  (* RatioTapChanger.cpp:54-56, PhaseTapChanger.cpp:55-57 *)
  | XRemove k => fun st =>
      match e_sh st !! k with
      | None => (Throw "tap changer is not set", st)
      | Some _ => (Ok tt, mkE (delete k (e_sh st)) ((fun m : gmap nat tvar => delete k m) <$> e_vars st) (e_cur st))
      end
  end.
