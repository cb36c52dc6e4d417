(** Model of the holders of limits: OperationalLimitsHolder.cpp, OperationalLimitsHolder.hxx, FlowsLimitsHolder.cpp, the limits of
    Branch.cpp, and ReactiveLimitsHolder.cpp.  Line numbers refer to OperationalLimitsHolder.cpp unless stated otherwise.  A branch has
    the holders 1 and 2 (Branch.cpp:44-48), a dangling line or a leg the holder 1 (FlowsLimitsHolder.cpp:22-28). *)
From Verif Require Export Limits Curve.

(** LimitType.hpp:16-21, with the order of the enumerators. *)
Inductive ltype := LActivePower | LApparentPower | LCurrent | LVoltage.
Global Instance ltype_eq_dec : EqDecision ltype.
Proof. solve_decision. Defined.
Definition ltype_rank (t : ltype) : nat := match t with LActivePower => 0 | LApparentPower => 1 | LCurrent => 2 | LVoltage => 3 end.
(** The address of an object. *)
Notation addr := nat.
(** A limits object: its class (given by the limit type: ActivePowerLimits, ApparentPowerLimits, CurrentLimits) and its values. *)
Record lobj := mkLO { lo_class : ltype; lo_limits : limits }.
(** std::map<LimitType, std::unique_ptr<OperationalLimits>> (OperationalLimitsHolder.hpp:78): the entries in iteration order. *)
Notation lmap := (list (ltype * addr)).
Fixpoint lm_find (t : ltype) (m : lmap) : option addr :=
  match m with [] => None | (u, a) :: m' => if bool_decide (t = u) then Some a else lm_find t m' end.
(** operator[] and the assignment; the address that was there is the object deleted by the unique_ptr. *)
Fixpoint lm_set (t : ltype) (a : addr) (m : lmap) : lmap :=
  match m with
  | [] => [(t, a)]
  | (u, b) :: m' => if ltype_rank u <? ltype_rank t then (u, b) :: lm_set t a m' else if ltype_rank t <? ltype_rank u then (t, a) :: (u, b) :: m' else (t, a) :: m'
  end.
(** The objects alive, the number of objects created so far, and the map of each holder. *)
Record lheap := mkLH { lh_objs : gmap addr lobj; lh_next : addr; lh_holders : gmap nat lmap }.
Definition lh_new (n : nat) : lheap := mkLH ∅ 0 (list_to_map ((fun i => (i, [])) <$> seq 1 n)).

(** setOperationalLimits with a limits object: 56-64 (the limits are never null: the adders are the only callers). *)
Definition set_operational_limits (h : nat) (t : ltype) (o : lobj) (st : lheap) : result addr * lheap :=
  match lh_holders st !! h with
  | None => (UB, st)
  | Some m =>
    let a := lh_next st in
    let objs := match lm_find t m with Some old => delete old (lh_objs st) | None => lh_objs st end in
    (Ok a, mkLH (<[a := o]> objs) (S a) (<[h := lm_set t a m]> (lh_holders st)))
  end.
(** The three adders: ActivePowerLimitsAdder.cpp, ApparentPowerLimitsAdder.cpp, CurrentLimitsAdder.cpp:21-25; [l]: the values of the
    adder.  There is no adder of voltage limits. *)
Inductive atype := AActivePower | AApparentPower | ACurrent.
Global Instance atype_eq_dec : EqDecision atype.
Proof. solve_decision. Defined.
Definition ltype_of (t : atype) : ltype := match t with AActivePower => LActivePower | AApparentPower => LApparentPower | ACurrent => LCurrent end.
Definition add_limits (h : nat) (t : atype) (l : limits) (st : lheap) : result addr * lheap :=
  match limits_add l with
  | Ok l' => set_operational_limits h (ltype_of t) (mkLO (ltype_of t) l') st
  | Throw m => (Throw m, st) | UB => (UB, st) | OutOfFuel => (OutOfFuel, st)
  end.
(** setPermanentLimit on a limits object obtained before: LoadingLimits.cpp:73-77; undefined if the object was deleted. *)
Definition set_permanent (a : addr) (x : dbl) (st : lheap) : result unit * lheap :=
  match lh_objs st !! a with
  | None => (UB, st)
  | Some o =>
    match checkPermanentLimit x with
    | Ok _ => (Ok tt, mkLH (<[a := mkLO (lo_class o) (mkL x (l_temp (lo_limits o)))]> (lh_objs st)) (lh_next st) (lh_holders st))
    | Throw m => (Throw m, st) | UB => (UB, st) | OutOfFuel => (OutOfFuel, st)
    end
  end.
(** getOperationalLimits<T>(type): OperationalLimitsHolder.hxx:22-33, for the class T of [t] and the type [t]. *)
Definition get_limits (h : nat) (t : atype) (st : lheap) : result (option addr) :=
  match lh_holders st !! h with
  | None => UB
  | Some m =>
    match lm_find (ltype_of t) m with
    | None => Ok None
    | Some a => match lh_objs st !! a with
                | None => UB
                | Some o => if bool_decide (lo_class o = ltype_of t) then Ok (Some a) else Throw "Unexpected class for operational limits"
                end
    end
  end.
(** getOperationalLimits(): 34-40. *)
Definition get_all_limits (h : nat) (st : lheap) : result (list addr) := match lh_holders st !! h with None => UB | Some m => Ok (map snd m) end.
(** Branch::getLimits: Branch.cpp:211-226 and getActivePowerLimits(side), ... : 116-209. *)
Definition branch_limits (t : ltype) (side : nat) (st : lheap) : result (option addr) :=
  match t with
  | LCurrent => get_limits side ACurrent st
  | LActivePower => get_limits side AActivePower st
  | LApparentPower => get_limits side AApparentPower st
  | LVoltage => Throw "Getting limits is not supported."
  end.
(** Reading a limits object. *)
Definition deref (a : addr) (st : lheap) : result limits := match lh_objs st !! a with Some o => Ok (lo_limits o) | None => UB end.
(** The limits LimitViolationUtils gets for a side. *)
Definition limits_of_side (t : ltype) (side : nat) (st : lheap) : result (option limits) :=
  let! r := branch_limits t side st in match r with None => Ok None | Some a => let! l := deref a st in Ok (Some l) end.
(** Branch::getValueForLimit: Branch.cpp:306-321; [p q i]: the values of the terminal, [app p q]: sqrt(p * p + q * q). *)
Definition value_for_limit (app : dbl -> dbl -> dbl) (t : ltype) (p q i : dbl) : result dbl :=
  match t with LActivePower => Ok p | LApparentPower => Ok (app p q) | LCurrent => Ok i | LVoltage => Throw "Getting limits is not supported" end.
(** Branch::checkPermanentLimit(side, limitReduction, type): Branch.cpp:54-81. *)
Definition branch_check_permanent (app : dbl -> dbl -> dbl) (side : nat) (r : dbl) (t : ltype) (p q i : dbl) (st : lheap) : result bool :=
  let! v := value_for_limit app t p q i in let! l := limits_of_side t side st in Ok (check_permanent l r v).
(** Branch::checkTemporaryLimits(side, limitReduction, type): Branch.cpp:87-114. *)
Definition branch_check_temporary (app : dbl -> dbl -> dbl) (side : nat) (r : dbl) (t : ltype) (p q i : dbl) (st : lheap) : result (option overload) :=
  let! v := value_for_limit app t p q i in let! l := limits_of_side t side st in Ok (check_temporary l r v).

(** A history: adding limits, and setting the permanent limit of an object got from an add. *)
Inductive lhop := HAdd (h : nat) (t : atype) (l : limits) | HPermanent (a : addr) (x : dbl).
Definition lh_step (st : lheap) (o : lhop) : lheap := match o with HAdd h t l => (add_limits h t l st).2 | HPermanent a x => (set_permanent a x st).2 end.
Definition lh_run (n : nat) (ops : list lhop) : lheap := fold_left lh_step ops (lh_new n).

(** ReactiveLimitsHolder: m_reactiveLimits, an object.  The default limits: MinMaxReactiveLimits.hpp:43-45, the opposite of the greatest
    double and the greatest double. *)
Definition dbl_max : dbl := Fin (inject_Z ((2 ^ 53 - 1) * 2 ^ 971)).
Definition dbl_lowest : dbl := Fin (inject_Z (- ((2 ^ 53 - 1) * 2 ^ 971))).
Inductive robj := RMinMax (minQ maxQ : dbl) | RCurve (c : curve).
Record rheap := mkRH { rh_objs : gmap addr robj; rh_next : addr; rh_held : addr }.
(** ReactiveLimitsHolder.cpp:17-19. *)
Definition rh_new : rheap := mkRH {[0 := RMinMax dbl_lowest dbl_max]} 1 0.
(** setReactiveLimits: ReactiveLimitsHolder.cpp:33-35; the object held before is deleted. *)
Definition set_reactive (o : robj) (st : rheap) : rheap :=
  let a := rh_next st in mkRH (<[a := o]> (delete (rh_held st) (rh_objs st))) (S a) a.
(** getReactiveLimits<T>: ReactiveLimitsHolder.hxx:23-37, for MinMaxReactiveLimits, ReactiveCapabilityCurve and ReactiveLimits. *)
Definition get_minmax (st : rheap) : result (dbl * dbl) :=
  match rh_objs st !! rh_held st with Some (RMinMax a b) => Ok (a, b) | Some (RCurve _) => Throw "Incorrect reactive limits type" | None => UB end.
Definition get_curve (st : rheap) : result curve :=
  match rh_objs st !! rh_held st with Some (RCurve c) => Ok c | Some (RMinMax _ _) => Throw "Incorrect reactive limits type" | None => UB end.
(** getMinQ(p) and getMaxQ(p) of the limits held: MinMaxReactiveLimits.cpp:26-40 and ReactiveCapabilityCurve.cpp. *)
Definition get_minQ (st : rheap) (p : dbl) : result dbl :=
  match rh_objs st !! rh_held st with Some (RMinMax a _) => Ok a | Some (RCurve c) => cv_getMinQ c p | None => UB end.
Definition get_maxQ (st : rheap) (p : dbl) : result dbl :=
  match rh_objs st !! rh_held st with Some (RMinMax _ b) => Ok b | Some (RCurve c) => cv_getMaxQ c p | None => UB end.
(** add of the two adders: MinMaxReactiveLimitsAdder.cpp:33-46, ReactiveCapabilityCurveAdder.cpp:54-65; [c]: the points of the adder. *)
Inductive rhop := RAddMinMax (minQ maxQ : dbl) | RAddCurve (c : curve).
Definition rh_step (st : rheap) (o : rhop) : rheap :=
  match o with
  | RAddMinMax a b => match mm_add a b with Ok (a, b) => set_reactive (RMinMax a b) st | _ => st end
  | RAddCurve c => match (ca_add c).1 with Ok c => set_reactive (RCurve c) st | _ => st end
  end.
Definition rh_run (ops : list rhop) : rheap := fold_left rh_step ops rh_new.
