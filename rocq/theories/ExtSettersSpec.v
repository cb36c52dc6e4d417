(** What the attributes of the extensions should hold, written without the checks of the model. *)
From Verif Require Export ExtSetters.

Definition number (P : dbl -> Prop) (o : oval) : Prop := exists x, o = OD x /\ P x.
Definition whole (P : nat -> Prop) (o : oval) : Prop := exists n, o = ON n /\ P n.
Definition text (P : string -> Prop) (o : oval) : Prop := exists x, o = OS x /\ P x.
Definition flag (o : oval) : Prop := exists b, o = OB b.
Definition any {A} (x : A) : Prop := True.
(** The values allowed for the attributes of each extension, in the order of its getters. *)
Definition allowed (k : xkind) : list (oval -> Prop) :=
  match k with
  | KAngleDroop => [number defined; number defined; flag]
  | KOperatorRange => [number (undef_or non_negative); number (undef_or non_negative)]
  | KCoordinated => [number defined]
  | KSlope => [number non_negative]
  | KClock => [whole (fun n => n < 12)]
  | KClocks => [whole (fun n => n < 12); whole (fun n => n < 12)]
  | KMergedXnode => [number (fun x => in_between (Fin 0) x (Fin 1)); number (fun x => in_between (Fin 0) x (Fin 1));
      number defined; number defined; number defined; number defined; text any; text any; text (fun x => x <> "")]
  | KXnode => [text (fun x => x <> "")]
  | KActivePower => [flag; number any]
  | KBusbarPosition => [whole any; whole any]
  | KLoadDetail => [number defined; number defined; number defined; number defined]
  end.
(** Whether the attributes are kept per variant. *)
Definition per_variant (k : xkind) : bool := match k with KLoadDetail => true | _ => false end.
Definition x_obs (s v : attrs) : list oval := s ++ v.
Definition x_ok (k : xkind) (s v : attrs) : Prop :=
  (if per_variant k then s else v) = [] /\ Forall2 (fun (P : oval -> Prop) x => P x) (allowed k) (x_obs s v).
(** The getter a setter belongs to, and the value set. *)
Definition x_what {k} (c : xcall k) : nat * oval :=
  match c with
  | SetP0 x => (0, OD x) | SetDroop x => (1, OD x) | SetEnabled b => (2, OB b)
  | SetOpr12 x => (0, OD x) | SetOpr21 x => (1, OD x)
  | SetQPercent x => (0, OD x) | SetSlope x => (0, OD x)
  | SetClock n => (0, ON n) | SetClock2 n => (0, ON n) | SetClock3 n => (1, ON n)
  | SetRdp x => (0, OD x) | SetXdp x => (1, OD x) | SetXnodeP1 x => (2, OD x) | SetXnodeQ1 x => (3, OD x)
  | SetXnodeP2 x => (4, OD x) | SetXnodeQ2 x => (5, OD x)
  | SetLine1Name x => (6, OS x) | SetLine2Name x => (7, OS x) | SetMergedCode x => (8, OS x)
  | SetXnodeCode x => (0, OS x)
  | SetParticipate b => (0, OB b) | SetActiveDroop x => (1, OD x)
  | SetBusbarIndex n => (0, ON n) | SetSectionIndex n => (1, ON n)
  | SetFixedP x => (0, OD x) | SetFixedQ x => (1, OD x) | SetVariableP x => (2, OD x) | SetVariableQ x => (3, OD x)
  end.
(** The values an adder is given, in the order of the getters; None: one that has no default is missing. *)
Definition given {k} (a : xargs k) : option (list oval) :=
  let D d x := OD (default d x) in
  match a with
  | AngleDroopArgs p0 droop en => Some [D NaN p0; D NaN droop; OB (default false en)]
  | OperatorRangeArgs o12 o21 => Some [D (Fin 0) o12; D (Fin 0) o21]
  | CoordinatedArgs q => Some [D NaN q]
  | SlopeArgs s => Some [D (Fin 0) s]
  | ClockArgs n => n ← n; Some [ON n]
  | ClocksArgs n2 n3 => n2 ← n2; n3 ← n3; Some [ON n2; ON n3]
  | MergedXnodeArgs rdp xdp p1 q1 p2 q2 l1 l2 code =>
    Some [D NaN rdp; D NaN xdp; D NaN p1; D NaN q1; D NaN p2; D NaN q2; OS (default "" l1); OS (default "" l2); OS (default "" code)]
  | XnodeArgs code => Some [OS (default "" code)]
  | ActivePowerArgs p d => Some [OB (default false p); D (Fin 0) d]
  | BusbarPositionArgs b s => b ← b; s ← s; Some [ON b; ON s]
  | LoadDetailArgs fp fq vp vq => Some [D (Fin 0) fp; D (Fin 0) fq; D (Fin 0) vp; D (Fin 0) vq]
  end.
