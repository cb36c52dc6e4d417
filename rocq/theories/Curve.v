(** Model of the reactive limits: ReactiveCapabilityCurve.cpp, ReactiveCapabilityCurveAdder.cpp, MinMaxReactiveLimitsAdder.cpp. *)
From Verif Require Export DblArith.

(** ReactiveCapabilityCurve::Point: ReactiveCapabilityCurve.cpp:21-25. *)
Record point := mkP { p_p : dbl; p_minQ : dbl; p_maxQ : dbl }.
(** std::map<double, Point>: the points in increasing order of p; the key of a point is its p. *)
Notation curve := (list point).
(** std::map::find: the element whose key is neither less nor greater. *)
Definition cv_find (c : curve) (p : dbl) : option point := last (filter (fun e => negb (dlt (p_p e) p || dlt p (p_p e)) = true) c).
(** std::map::insert: before the first greater key (no equal key here). *)
Fixpoint cv_insert (e : point) (c : curve) : curve :=
  match c with
  | [] => [e]
  | f :: c' => if dlt (p_p f) (p_p e) then f :: cv_insert e c' else e :: f :: c'
  end.
(** std::map::lower_bound: the position of the first key that is not less. *)
Fixpoint cv_lower_bound (c : curve) (p : dbl) : nat :=
  match c with
  | [] => 0
  | e :: c' => if dlt (p_p e) p then S (cv_lower_bound c' p) else 0
  end.

(** getMinP, getMaxP: 80-82, 49-51; begin and rbegin of an empty map are undefined. *)
Definition cv_getMinP (c : curve) : result dbl := match c with [] => UB | e :: _ => Ok (p_p e) end.
Definition cv_getMaxP (c : curve) : result dbl := match last c with None => UB | Some e => Ok (p_p e) end.
(** getMaxQ, getMinQ: 53-78, 84-109 (the same code for the two bounds; the assert of the size is not modelled). *)
Definition cv_getQ (sel : point -> dbl) (c : curve) (p : dbl) : result dbl :=
  let it := cv_lower_bound c p in
  if match c !! it with Some e => dis_equal (p_p e) p | None => false end then result_map sel (vget c it)
  else
    let it1 := if bool_decide (it = 0) then None else c !! (it - 1) in
    let it2 := c !! it in
    match it1, it2 with
    | None, Some e2 => Ok (sel e2)
    | Some e1, None => Ok (sel e1)
    | Some e1, Some e2 => Ok (dplus (sel e1) (dmul (ddiv (dminus (sel e2) (sel e1)) (dminus (p_p e2) (p_p e1))) (dminus p (p_p e1))))
    | None, None => Throw "Should not happen"
    end.
Definition cv_getMinQ := cv_getQ p_minQ.
Definition cv_getMaxQ := cv_getQ p_maxQ.

(** The adder: its points.  checkOptional on a double refuses NaN (ValidationUtils.cpp:228-233). *)
(** endPoint and addPoint: ReactiveCapabilityCurveAdder.cpp:25-33, 67-82. *)
Definition ca_end_point (p minQ maxQ : dbl) (c : curve) : result unit * curve :=
  if is_nan p then (Throw "P is not set", c)
  else if is_nan minQ then (Throw "min Q is not set", c)
  else if is_nan maxQ then (Throw "max Q is not set", c)
  else match cv_find c p with
       | Some _ => (Throw "A point is already defined for active power", c)
       | None => (Ok tt, cv_insert (mkP p minQ maxQ) c)
       end.
(** add: 54-65; the points are moved out of the adder, which is left without points. *)
Definition ca_add (c : curve) : result curve * curve :=
  if bool_decide (length c < 2) then (Throw "A reactive capability curve should have at least two points", c) else (Ok c, []).
Inductive caop := CEnd (p minQ maxQ : dbl) | CAdd.
(** The adder and the curves it has produced. *)
Definition ca_step (st : curve * list curve) (o : caop) : curve * list curve :=
  match o with
  | CEnd p n x => ((ca_end_point p n x st.1).2, st.2)
  | CAdd => match ca_add st.1 with (Ok c, a) => (a, c :: st.2) | (_, a) => (a, st.2) end
  end.
Definition ca_run (ops : list caop) : curve * list curve := fold_left ca_step ops ([], []).
(** The curves an adder can produce. *)
Definition accepted (c : curve) : Prop := exists ops, c ∈ (ca_run ops).2.

(** MinMaxReactiveLimitsAdder::add: MinMaxReactiveLimitsAdder.cpp:33-46. *)
Definition mm_add (minQ maxQ : dbl) : result (dbl * dbl) :=
  if is_nan minQ then Throw "Minimum reactive power is not set"
  else if is_nan maxQ then Throw "Maximum reactive power is not set"
  else if dlt maxQ minQ then Throw "Maximum reactive power is expected to be greater than or equal to minimum reactive power"
  else Ok (minQ, maxQ).
