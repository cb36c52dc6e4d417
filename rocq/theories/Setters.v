(** Models of the setters and adders of the equipment with set points.  In each record the values shared by the variants come
    first.  A setter that validates before reading the working variant index is modelled as reading the index first: this only
    changes which exception is thrown when both would be. *)
From Verif Require Export Equip.

(** The own terminal of an equipment is terminal 0, in the network. *)
Definition own_terminal : term := mkT 0 true.
Definition or_own (t : option term) : term := match t with Some t => t | None => own_terminal end.

(** ** Generator *)
Record gsh := mkG { g_minP : dbl; g_maxP : dbl; g_ratedS : dbl; g_term : term }.
Record gvar := mkGv { g_p : dbl; g_q : dbl; g_v : dbl; g_on : bool }.
Inductive gcall := GSetP (x : dbl) | GSetMaxP (x : dbl) | GSetMinP (x : dbl) | GSetRatedS (x : dbl) | GSetQ (x : dbl)
| GSetTerm (t : option term) | GSetOn (b : bool) | GSetV (x : dbl).
Definition gset (c : gcall) : setter gsh gvar :=
  match c with
  (* Generator.cpp:122-125 *)
  | GSetP x => SVar (fun s v => checkActivePowerSetpoint x ;;+ Ok (mkGv x (g_q v) (g_v v) (g_on v)))
  (* 132-137 *)
  | GSetMaxP x => SSh0 (fun s => checkMaxP x ;;+ checkActivePowerLimits (g_minP s) x ;;+ Ok (mkG (g_minP s) x (g_ratedS s) (g_term s)))
  (* 139-144 *)
  | GSetMinP x => SSh0 (fun s => checkMinP x ;;+ checkActivePowerLimits x (g_maxP s) ;;+ Ok (mkG x (g_maxP s) (g_ratedS s) (g_term s)))
  (* 146-149 *)
  | GSetRatedS x => SSh0 (fun s => checkRatedS x ;;+ Ok (mkG (g_minP s) (g_maxP s) x (g_term s)))
  (* 151-155 *)
  | GSetQ x => SVar (fun s v => checkVoltageControl (g_on v) (g_v v) x ;;+ Ok (mkGv (g_p v) x (g_v v) (g_on v)))
  (* 157-165 *)
  | GSetTerm t => SSh0 (fun s => checkRegulatingTerminal t ;;+ Ok (mkG (g_minP s) (g_maxP s) (g_ratedS s) (or_own t)))
  (* 179-183 *)
  | GSetOn b => SVar (fun s v => checkVoltageControl b (g_v v) (g_q v) ;;+ Ok (mkGv (g_p v) (g_q v) (g_v v) b))
  (* 185-189 *)
  | GSetV x => SVar (fun s v => checkVoltageControl (g_on v) x (g_q v) ;;+ Ok (mkGv (g_p v) (g_q v) x (g_on v)))
  end.
(** GeneratorAdder.cpp:24-48, the checks and the values given to the constructor. *)
Definition gadd (minP maxP ratedS : dbl) (t : option term) (p q v : dbl) (on : option bool) : result (gsh * gvar) :=
  checkMinP minP ;;+ checkMaxP maxP ;;+ checkRegulatingTerminal t ;;+ checkActivePowerSetpoint p ;;+
  match on with
  | None => Throw "voltage regulator status is not set"
  | Some on =>
    checkVoltageControl on v q ;;+ checkActivePowerLimits minP maxP ;;+ checkRatedS ratedS ;;+
    Ok (mkG minP maxP ratedS (or_own t), mkGv p q v on)
  end.

(** ** Battery *)
Record bsh := mkB { b_minP : dbl; b_maxP : dbl }.
Record bvar := mkBv { b_p : dbl; b_q : dbl }.
Inductive bcall := BSetMaxP (x : dbl) | BSetMinP (x : dbl) | BSetP (x : dbl) | BSetQ (x : dbl).
Definition bset (c : bcall) : setter bsh bvar :=
  match c with
  (* Battery.cpp:71-77 *)
  | BSetMaxP x => SSh0 (fun s => checkMaxP x ;;+ checkActivePowerLimits (b_minP s) x ;;+ Ok (mkB (b_minP s) x))
  (* 79-85 *)
  | BSetMinP x => SSh0 (fun s => checkMinP x ;;+ checkActivePowerLimits x (b_maxP s) ;;+ Ok (mkB x (b_maxP s)))
  (* 87-92 *)
  | BSetP x => SVar (fun s v => checkP0 x ;;+ Ok (mkBv x (b_q v)))
  (* 94-98 *)
  | BSetQ x => SVar (fun s v => checkQ0 x ;;+ Ok (mkBv (b_p v) x))
  end.
(** BatteryAdder.cpp:25-31 and the constructor Battery.cpp:17-25 (the same checks again). *)
Definition badd (minP maxP p q : dbl) : result (bsh * bvar) :=
  checkP0 p ;;+ checkQ0 q ;;+ checkMinP minP ;;+ checkMaxP maxP ;;+ checkActivePowerLimits minP maxP ;;+ Ok (mkB minP maxP, mkBv p q).

(** ** VSC converter station *)
Record vsh := mkV { v_loss : dbl }.
Record vvar := mkVv { v_on : bool; v_q : dbl; v_v : dbl }.
Inductive vcall := VSetLoss (x : dbl) | VSetQ (x : dbl) | VSetOn (b : bool) | VSetV (x : dbl).
Definition vset (c : vcall) : setter vsh vvar :=
  match c with
  (* HvdcConverterStation.cpp:45-48 *)
  | VSetLoss x => SSh0 (fun s => checkLossFactor x ;;+ Ok (mkV x))
  (* VscConverterStation.cpp:78-82 *)
  | VSetQ x => SVar (fun s v => checkVoltageControl (v_on v) (v_v v) x ;;+ Ok (mkVv (v_on v) x (v_v v)))
  (* 84-88 *)
  | VSetOn b => SVar (fun s v => checkVoltageControl b (v_v v) (v_q v) ;;+ Ok (mkVv b (v_q v) (v_v v)))
  (* 90-94 *)
  | VSetV x => SVar (fun s v => checkVoltageControl (v_on v) x (v_q v) ;;+ Ok (mkVv (v_on v) (v_q v) x))
  end.
(** VscConverterStationAdder.cpp:23-60, HvdcConverterStationAdder.hxx:36-39. *)
Definition vadd (loss : dbl) (on : option bool) (q v : dbl) : result (vsh * vvar) :=
  checkLossFactor loss ;;+
  match on with
  | None => Throw "voltage regulator status is not set"
  | Some on => checkVoltageControl on v q ;;+ Ok (mkV loss, mkVv on q v)
  end.

(** ** LCC converter station: nothing per variant *)
Record lsh := mkL { l_loss : dbl; l_pf : dbl }.
Inductive lcall := LSetLoss (x : dbl) | LSetPf (x : dbl).
Definition lset (c : lcall) : setter lsh unit :=
  match c with
  (* HvdcConverterStation.cpp:45-48 *)
  | LSetLoss x => SSh0 (fun s => checkLossFactor x ;;+ Ok (mkL x (l_pf s)))
  (* LccConverterStation.cpp:39-43 *)
  | LSetPf x => SSh0 (fun s => checkPowerFactor x ;;+ Ok (mkL (l_loss s) x))
  end.
(** LccConverterStationAdder.cpp:23-50. *)
Definition ladd (loss pf : dbl) : result (lsh * unit) := checkLossFactor loss ;;+ checkPowerFactor pf ;;+ Ok (mkL loss pf, tt).

(** ** Static var compensator *)
Inductive svcmode := SvcVoltage | SvcReactive | SvcOff.
(** checkBmax, checkBmin: ValidationUtils.cpp:70-82. *)
Definition checkBmax (x : dbl) := check (is_nan x) "bMax is invalid".
Definition checkBmin (x : dbl) := check (is_nan x) "bMin is invalid".
(** checkSvcRegulator: ValidationUtils.cpp:358-381. *)
Definition checkSvcRegulator (v q : dbl) (m : option svcmode) : result unit :=
  match m with
  | None => Throw "Regulation mode is invalid"
  | Some SvcVoltage => check (is_nan v) "invalid voltage setpoint"
  | Some SvcReactive => check (is_nan q) "invalid reactive power setpoint"
  | Some SvcOff => Ok tt
  end.
Record svsh := mkSv { sv_bmin : dbl; sv_bmax : dbl; sv_term : term }.
Record svvar := mkSvv { sv_v : dbl; sv_q : dbl; sv_mode : svcmode }.
Inductive svcall := SvSetBmax (x : dbl) | SvSetBmin (x : dbl) | SvSetQ (x : dbl) | SvSetTerm (t : option term) | SvSetMode (m : svcmode) | SvSetV (x : dbl).
Definition svset (c : svcall) : setter svsh svvar :=
  match c with
  (* StaticVarCompensator.cpp:91-95 *)
  | SvSetBmax x => SSh0 (fun s => checkBmax x ;;+ Ok (mkSv (sv_bmin s) x (sv_term s)))
  (* 97-101 *)
  | SvSetBmin x => SSh0 (fun s => checkBmin x ;;+ Ok (mkSv x (sv_bmax s) (sv_term s)))
  (* 103-108 *)
  | SvSetQ x => SVar (fun s v => checkSvcRegulator (sv_v v) x (Some (sv_mode v)) ;;+ Ok (mkSvv (sv_v v) x (sv_mode v)))
  (* 110-114 *)
  | SvSetTerm t => SSh0 (fun s => checkRegulatingTerminal t ;;+ Ok (mkSv (sv_bmin s) (sv_bmax s) (or_own t)))
  (* 116-121 *)
  | SvSetMode m => SVar (fun s v => checkSvcRegulator (sv_v v) (sv_q v) (Some m) ;;+ Ok (mkSvv (sv_v v) (sv_q v) m))
  (* 123-128 *)
  | SvSetV x => SVar (fun s v => checkSvcRegulator x (sv_q v) (Some (sv_mode v)) ;;+ Ok (mkSvv x (sv_q v) (sv_mode v)))
  end.
(** StaticVarCompensatorAdder.cpp:24-41. *)
Definition svadd (bmin bmax : dbl) (t : option term) (v q : dbl) (m : option svcmode) : result (svsh * svvar) :=
  checkBmin bmin ;;+ checkBmax bmax ;;+ checkRegulatingTerminal t ;;+ checkSvcRegulator v q m ;;+
  match m with Some m => Ok (mkSv bmin bmax (or_own t), mkSvv v q m) | None => UB end.

(** ** Generation of a dangling line *)
Record dsh := mkD { d_minP : dbl; d_maxP : dbl }.
Record dvar := mkDv { d_p : dbl; d_q : dbl; d_v : dbl; d_on : bool }.
Inductive dcall := DSetMaxP (x : dbl) | DSetMinP (x : dbl) | DSetP (x : dbl) | DSetQ (x : dbl) | DSetV (x : dbl) | DSetOn (b : bool).
Definition dset (c : dcall) : setter dsh dvar :=
  match c with
  (* DanglingLineGeneration.cpp:94-99 *)
  | DSetMaxP x => SSh0 (fun s => checkMaxP x ;;+ checkActivePowerLimits (d_minP s) x ;;+ Ok (mkD (d_minP s) x))
  (* 101-106 *)
  | DSetMinP x => SSh0 (fun s => checkMinP x ;;+ checkActivePowerLimits x (d_maxP s) ;;+ Ok (mkD x (d_maxP s)))
  (* 108-113 *)
  | DSetP x => SVar (fun s v => checkActivePowerSetpoint x ;;+ Ok (mkDv x (d_q v) (d_v v) (d_on v)))
  (* 115-120 *)
  | DSetQ x => SVar (fun s v => checkVoltageControl (d_on v) (d_v v) x ;;+ Ok (mkDv (d_p v) x (d_v v) (d_on v)))
  (* 122-127 *)
  | DSetV x => SVar (fun s v => checkVoltageControl (d_on v) x (d_q v) ;;+ Ok (mkDv (d_p v) (d_q v) x (d_on v)))
  (* 129-134 *)
  | DSetOn b => SVar (fun s v => checkVoltageControl b (d_v v) (d_q v) ;;+ Ok (mkDv (d_p v) (d_q v) (d_v v) b))
  end.
(** DanglingLineGenerationAdder.cpp:24-34 and the constructor DanglingLineGeneration.cpp:24-34: undefined limits are replaced
    by the extreme doubles. *)
Definition dadd (minP maxP p q v : dbl) (on : bool) : result (dsh * dvar) :=
  checkActivePowerLimits minP maxP ;;+ checkActivePowerSetpoint p ;;+ checkVoltageControl on v q ;;+
  Ok (mkD (if is_nan minP then Fin (- dbl_max) else minP) (if is_nan maxP then Fin dbl_max else maxP), mkDv p q v on).

(** ** HVDC line (its stations are modelled in Hvdc.v) *)
Inductive cmode := Side1Rectifier | Side1Inverter.
Record hsh := mkH { h_r : dbl; h_nomV : dbl; h_maxP : dbl }.
Record hvar := mkHv { h_mode : cmode; h_p : dbl }.
Inductive hcall := HSetP (x : dbl) | HSetMode (m : cmode) | HSetMaxP (x : dbl) | HSetNomV (x : dbl) | HSetR (x : dbl).
Definition hset (c : hcall) : setter hsh hvar :=
  match c with
  (* HvdcLine.cpp:135-139 *)
  | HSetP x => SVar (fun s v => checkHvdcActivePowerSetpoint x ;;+ Ok (mkHv (h_mode v) x))
  (* 141-145 *)
  | HSetMode m => SVar (fun s v => Ok (mkHv m (h_p v)))
  (* 147-151 *)
  | HSetMaxP x => SSh0 (fun s => checkHvdcMaxP x ;;+ Ok (mkH (h_r s) (h_nomV s) x))
  (* 153-157 *)
  | HSetNomV x => SSh0 (fun s => checkNominalVoltage x ;;+ Ok (mkH (h_r s) x (h_maxP s)))
  (* 159-163 *)
  | HSetR x => SSh0 (fun s => checkR x ;;+ Ok (mkH x (h_nomV s) (h_maxP s)))
  end.
(** HvdcLineAdder.cpp:25-31. *)
Definition hadd (r nomV maxP : dbl) (m : option cmode) (p : dbl) : result (hsh * hvar) :=
  checkR r ;;+
  match m with
  | None => Throw "converter mode is invalid"
  | Some m => checkNominalVoltage nomV ;;+ checkHvdcActivePowerSetpoint p ;;+ checkHvdcMaxP maxP ;;+ Ok (mkH r nomV maxP, mkHv m p)
  end.

(** ** Voltage level: nothing per variant *)
Record vlsh := mkVl { vl_nomV : dbl; vl_low : dbl; vl_high : dbl }.
Inductive vlcall := VlSetHigh (x : dbl) | VlSetLow (x : dbl) | VlSetNomV (x : dbl).
Definition vlset (c : vlcall) : setter vlsh unit :=
  match c with
  (* VoltageLevel.cpp:253-257 *)
  | VlSetHigh x => SSh0 (fun s => checkVoltageLimits (vl_low s) x ;;+ Ok (mkVl (vl_nomV s) (vl_low s) x))
  (* 259-263 *)
  | VlSetLow x => SSh0 (fun s => checkVoltageLimits x (vl_high s) ;;+ Ok (mkVl (vl_nomV s) x (vl_high s)))
  (* 265-268 *)
  | VlSetNomV x => SSh0 (fun s => checkNominalVoltage x ;;+ Ok (mkVl x (vl_low s) (vl_high s)))
  end.
(** VoltageLevelAdder.cpp:25-28. *)
Definition vladd (nomV low high : dbl) : result (vlsh * unit) :=
  checkNominalVoltage nomV ;;+ checkVoltageLimits low high ;;+ Ok (mkVl nomV low high, tt).

(** ** Load *)
Record ldvar := mkLd { ld_p : dbl; ld_q : dbl }.
Inductive ldcall := LdSetP (x : dbl) | LdSetQ (x : dbl).
Definition ldset (c : ldcall) : setter unit ldvar :=
  match c with
  (* Load.cpp:73-77 *)
  | LdSetP x => SVar (fun s v => checkP0 x ;;+ Ok (mkLd x (ld_q v)))
  (* 79-83 *)
  | LdSetQ x => SVar (fun s v => checkQ0 x ;;+ Ok (mkLd (ld_p v) x))
  end.
(** LoadAdder.cpp:24-29. *)
Definition ldadd (p q : dbl) : result (unit * ldvar) := checkP0 p ;;+ checkQ0 q ;;+ Ok (tt, mkLd p q).

(** ** Shunt compensator *)
(** x * n for a double x and an integer n. *)
Definition dscale (x : dbl) (n : nat) : dbl :=
  match x with
  | NaN => NaN
  | Fin q => Fin (q * inject_Z (Z.of_nat n))
  | NInf => if bool_decide (n = 0) then NaN else NInf
  | PInf => if bool_decide (n = 0) then NaN else PInf
  end.
(** A section, and whether its reference to the shunt compensator is set; the constructor leaves it null:
    ShuntCompensatorNonLinearModel.cpp:19-22. *)
Record section := mkSec { sec_b : dbl; sec_g : dbl; sec_ref : bool }.
Definition new_section (b g : dbl) : section := mkSec b g false.
(** ShuntCompensatorLinearModel and ShuntCompensatorNonLinearModel. *)
Inductive smodel := Linear (b g : dbl) (max : nat) | NonLinear (secs : list section).
(** attach, called by the constructor of the shunt compensator (ShuntCompensator.cpp:28): sets the reference of the model only,
    which is not modelled (it is never null afterwards) and leaves the sections alone; Section::attach (24-30) is called nowhere.
    ShuntCompensatorLinearModel.cpp:25-31, ShuntCompensatorNonLinearModel.cpp:57-63. *)
Definition sm_attach (m : smodel) : smodel := m.
Definition sm_max (m : smodel) : nat := match m with Linear _ _ n => n | NonLinear l => length l end.
(** getB: ShuntCompensatorLinearModel.cpp:33-38, ShuntCompensatorNonLinearModel.cpp:73-78. *)
Definition sm_getB (m : smodel) (n : nat) : result dbl :=
  match m with
  | Linear b g mx => if bool_decide (mx < n) then Throw "section count too large" else Ok (dscale b n)
  | NonLinear l =>
    if bool_decide (length l < n) then Throw "invalid section count"
    else if bool_decide (n = 0) then Ok dzero else result_map sec_b (vget l (n - 1))
  end.
(** getG: ShuntCompensatorLinearModel.cpp:44-49, ShuntCompensatorNonLinearModel.cpp:80-85. *)
Definition sm_getG (m : smodel) (n : nat) : result dbl :=
  match m with
  | Linear b g mx => if bool_decide (mx < n) then Throw "section count too large" else Ok (if is_nan g then dzero else dscale g n)
  | NonLinear l =>
    if bool_decide (length l < n) then Throw "invalid section count"
    else if bool_decide (n = 0) then Ok dzero else result_map sec_g (vget l (n - 1))
  end.
Definition checkBPerSection (x : dbl) := check (is_nan x) "susceptance per section is invalid".
Record ssh := mkS { s_model : smodel; s_term : term }.
Record svar := mkSvr { s_count : nat; s_on : bool; s_v : dbl; s_db : dbl }.
Inductive scall := SSetCount (n : nat) | SSetMax (n : nat) | SSetB (x : dbl) | SSetG (x : dbl) | SSetSectionB (i : nat) (x : dbl)
| SSetSectionG (i : nat) (x : dbl) | SSetDb (x : dbl) | SSetV (x : dbl) | SSetOn (b : bool) | SSetTerm (t : option term).
Definition upd_section (s : ssh) (i : nat) (f : section -> result section) : result ssh :=
  match s_model s with
  | Linear _ _ _ => Throw "not a non linear model"
  | NonLinear l =>
    match l !! i with
    | None => Throw "no such section"
    | Some e =>
      if sec_ref e then result_map (fun e' => mkS (NonLinear (<[i := e']> l)) (s_term s)) (f e)
      else Throw "m_pointer is null"
    end
  end.
Definition sset (c : scall) : setter ssh svar :=
  match c with
  (* ShuntCompensator.cpp:129-134 *)
  | SSetCount n => SVar (fun s v => checkSections n (sm_max (s_model s)) ;;+ Ok (mkSvr n (s_on v) (s_v v) (s_db v)))
  (* ShuntCompensatorLinearModel.cpp:75-79: the section count is the one of the working variant *)
  | SSetMax n => SSh (fun s v =>
      match s_model s with
      | Linear b g _ => checkSections (s_count v) n ;;+ Ok (mkS (Linear b g n) (s_term s))
      | NonLinear _ => Throw "not a linear model"
      end)
  (* ShuntCompensatorLinearModel.cpp:64-68 *)
  | SSetB x => SSh0 (fun s =>
      match s_model s with
      | Linear _ g n => checkBPerSection x ;;+ Ok (mkS (Linear x g n) (s_term s))
      | NonLinear _ => Throw "not a linear model"
      end)
  (* ShuntCompensatorLinearModel.cpp:70-73 *)
  | SSetG x => SSh0 (fun s =>
      match s_model s with
      | Linear b _ n => Ok (mkS (Linear b x n) (s_term s))
      | NonLinear _ => Throw "not a linear model"
      end)
  (* ShuntCompensatorNonLinearModel.cpp:41-51 on the i-th element of getAllSections(): the reference to the shunt compensator is
     converted to the Validable argument, which throws if it is null (reference.hpp:69-78); then checkB, checkG *)
  | SSetSectionB i x => SSh0 (fun s => upd_section s i (fun e => checkBPerSection x ;;+ Ok (mkSec x (sec_g e) (sec_ref e))))
  | SSetSectionG i x => SSh0 (fun s => upd_section s i (fun e => checkBPerSection x ;;+ Ok (mkSec (sec_b e) x (sec_ref e))))
  (* ShuntCompensator.cpp:136-141 *)
  | SSetDb x => SVar (fun s v => checkTargetDeadband (s_on v) x ;;+ Ok (mkSvr (s_count v) (s_on v) (s_v v) x))
  (* 143-148 *)
  | SSetV x => SVar (fun s v => checkVoltageControl1 (s_on v) x ;;+ Ok (mkSvr (s_count v) (s_on v) x (s_db v)))
  (* 150-156 *)
  | SSetOn b => SVar (fun s v => checkVoltageControl1 b (s_v v) ;;+ checkTargetDeadband b (s_db v) ;;+ Ok (mkSvr (s_count v) b (s_v v) (s_db v)))
  (* 122-127 *)
  | SSetTerm t => SSh0 (fun s => checkRegulatingTerminal t ;;+ Ok (mkS (s_model s) (or_own t)))
  end.
(** ShuntCompensatorNonLinearModelAdder.cpp:31-42: the section adders (b, g) ended so far, in order. *)
Definition end_section (l : list (dbl * dbl)) (b g : dbl) : result (list (dbl * dbl)) :=
  checkBPerSection b ;;+
  Ok (l ++ [(b, if is_nan g then match last l with Some e => snd e | None => dzero end else g)]).
(** Successive beginSection().setB(b).setG(g).endSection(). *)
Fixpoint end_sections (l : list (dbl * dbl)) (args : list (dbl * dbl)) : result (list (dbl * dbl)) :=
  match args with
  | [] => Ok l
  | (b, g) :: args => match end_section l b g with Ok l' => end_sections l' args | Throw m => Throw m | UB => UB | OutOfFuel => OutOfFuel end
  end.
(** The model builders: ShuntCompensatorLinearModelAdder.cpp:26-31, ShuntCompensatorNonLinearModelAdder.cpp:58-77. *)
Inductive sbuild := BLinear (b g : dbl) (max : option nat) | BNonLinear (args : list (dbl * dbl)).
Definition build_model (m : sbuild) : result smodel :=
  match m with
  | BLinear b g mx =>
    checkBPerSection b ;;+
    match mx with
    | None => Throw "the maximum number of section is not set"
    | Some n => check (bool_decide (n = 0)) "the maximum number of section should be greater than 0" ;;+ Ok (Linear b g n)
    end
  | BNonLinear args =>
    match end_sections [] args with
    | Ok l => check (bool_decide (length l = 0)) "a shunt compensator must have at least one section" ;;+ Ok (NonLinear (map (fun e => new_section (fst e) (snd e)) l))
    | Throw m => Throw m | UB => UB | OutOfFuel => OutOfFuel
    end
  end.
(** ShuntCompensatorAdder.cpp:23-43. *)
Definition sadd (t : option term) (on : bool) (v db : dbl) (m : option sbuild) (n : option nat) : result (ssh * svar) :=
  checkRegulatingTerminal t ;;+ checkVoltageControl1 on v ;;+ checkTargetDeadband on db ;;+
  match m with
  | None => Throw "the shunt compensator model has not been defined"
  | Some m =>
    match build_model m with
    | Ok m =>
      match n with
      | None => Throw "section count is not set"
      | Some n => checkSections n (sm_max m) ;;+ Ok (mkS (sm_attach m) (or_own t), mkSvr n on v db)
      end
    | Throw e => Throw e | UB => UB | OutOfFuel => OutOfFuel
    end
  end.
