(** What the characteristics and state values should hold, written without the checks of the model. *)
From Verif Require Export Impedance ExtSettersSpec.

(** The values the adder of each kind accepts, in the order of the getters:
    line: R, X, G1, B1, G2, B2; half line: the same, isFictitious; two windings transformer: R, X, G, B, RatedU1, RatedU2, RatedS;
    leg: R, X, G, B, RatedU, RatedS; dangling line: R, X, G, B, P0, Q0; steps: (Alpha,) Rho, R, X, G, B; bus: V, Angle; terminal: P, Q. *)
Definition demanded (k : ikind) : list (oval -> Prop) :=
  match k with
  | KLine => [number defined; number defined; number defined; number defined; number defined; number defined]
  | KHalfLine => [number defined; number defined; number defined; number defined; number defined; number defined; flag]
  | KTwoWindings => [number defined; number defined; number defined; number defined; number defined; number defined; number (undef_or positive)]
  | KLeg => [number defined; number defined; number defined; number defined; number defined; number (undef_or positive)]
  | KDangling => [number defined; number defined; number defined; number defined; number defined; number defined]
  | KRatioStep => [number defined; number defined; number defined; number defined; number defined]
  | KPhaseStep => [number defined; number defined; number defined; number defined; number defined; number defined]
  | KBus => [number (undef_or non_negative); number any]
  | KTerminal shunt => [number (fun x => shunt = true -> x = NaN); number any]
  end.
Definition is_step (k : ikind) : bool := match k with KRatioStep | KPhaseStep => true | _ => false end.
(** The values the setters keep: those of a step are free. *)
Definition kept (k : ikind) : list (oval -> Prop) := if is_step k then map (fun _ => number any) (demanded k) else demanded k.
(** How many of the values are shared by the variants. *)
Definition shared_values (k : ikind) : nat :=
  match k with KLine => 6 | KHalfLine => 7 | KTwoWindings => 7 | KLeg => 6 | KDangling => 4 | KRatioStep => 5 | KPhaseStep => 6 | KBus | KTerminal _ => 0 end.
Definition holds (ps : list (oval -> Prop)) (xs : list oval) : Prop := Forall2 (fun (P : oval -> Prop) x => P x) ps xs.
Definition i_ok (k : ikind) (s v : attrs) : Prop := length s = shared_values k /\ holds (kept k) (x_obs s v).

(** The getter a setter belongs to, and the value set. *)
Definition line_rank (a : line_attr) : nat := match a with LR => 0 | LX => 1 | LG1 => 2 | LB1 => 3 | LG2 => 4 | LB2 => 5 end.
Definition i_what {k} (c : icall k) : nat * oval :=
  match c with
  | LineSet a x | HalfLineSet a x => (line_rank a, OD x) | HalfLineSetFictitious b => (6, OB b)
  | TwtSetR x => (0, OD x) | TwtSetX x => (1, OD x) | TwtSetG x => (2, OD x) | TwtSetB x => (3, OD x)
  | TwtSetRatedU1 x => (4, OD x) | TwtSetRatedU2 x => (5, OD x) | TwtSetRatedS x => (6, OD x)
  | LegSetR x => (0, OD x) | LegSetX x => (1, OD x) | LegSetG x => (2, OD x) | LegSetB x => (3, OD x)
  | LegSetRatedU x => (4, OD x) | LegSetRatedS x => (5, OD x)
  | DlSetR x => (0, OD x) | DlSetX x => (1, OD x) | DlSetG x => (2, OD x) | DlSetB x => (3, OD x)
  | DlSetP0 x => (4, OD x) | DlSetQ0 x => (5, OD x)
  | RtcSetRho x => (0, OD x) | RtcSetR x => (1, OD x) | RtcSetX x => (2, OD x) | RtcSetG x => (3, OD x) | RtcSetB x => (4, OD x)
  | PtcSetAlpha x => (0, OD x) | PtcSetRho x => (1, OD x) | PtcSetR x => (2, OD x) | PtcSetX x => (3, OD x) | PtcSetG x => (4, OD x)
  | PtcSetB x => (5, OD x)
  | BusSetV x => (0, OD x) | BusSetAngle x => (1, OD x)
  | TermSetP x => (0, OD x) | TermSetQ x => (1, OD x)
  end.
(** The values an adder is given, in the order of the getters, with the documented defaults; a half line also needs an id. *)
Definition i_given {k} (a : iargs k) : list oval :=
  let D x := OD (default NaN x) in
  match a with
  | LineArgs r x g1 b1 g2 b2 => [D r; D x; D g1; D b1; D g2; D b2]
  | HalfLineArgs _ f r x g1 b1 g2 b2 => [D r; D x; D g1; D b1; D g2; D b2; OB (default false f)]
  | TwtArgs r x g b u1 u2 s => [D r; D x; D g; D b; D u1; D u2; D s]
  | LegArgs 1 r x g b u s => [D r; D x; D g; D b; D u; D s]
  | LegArgs _ r x g b u s => [D r; D x; OD (default (Fin 0) g); OD (default (Fin 0) b); D u; D s]
  | DlArgs r x g b p0 q0 => [D r; D x; D g; D b; D p0; D q0]
  | RtcArgs rho r x g b => [D rho; D r; D x; D g; D b]
  | PtcArgs alpha rho r x g b => [D alpha; D rho; D r; D x; D g; D b]
  | BusArgs => [OD NaN; OD NaN]
  | TermArgs => [OD NaN; OD NaN]
  end.
Definition named {k} (a : iargs k) : Prop := match a with HalfLineArgs id _ _ _ _ _ _ _ => exists s, id = Some s /\ s <> "" | _ => True end.

(** The last value some calls set for ratedU0, and the last rated voltage given for leg 1. *)
Fixpoint last_u0 (cs : list tcall) (d : dbl) : dbl := match cs with [] => d | TSetRatedU0 x :: cs => last_u0 cs x | _ :: cs => last_u0 cs d end.
Fixpoint last_leg1 (cs : list tcall) (d : option dbl) : option dbl := match cs with [] => d | TSetLeg1 u :: cs => last_leg1 cs (Some u) | _ :: cs => last_leg1 cs d end.
(** What ratedU0 should be: the value set, or the rated voltage of leg 1. *)
Definition u0_of (cs : list tcall) (u0 : dbl) : Prop :=
  exists u1, last_leg1 cs None = Some u1 /\ u0 = match last_u0 cs NaN with NaN => u1 | x => x end.
Definition is_add (c : tcall) : Prop := match c with TAdd _ _ => True | _ => False end.
