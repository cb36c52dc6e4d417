(** What the regulated terminals should be. *)
From Verif Require Export RegTerm EquipNetSpec.

(** Reference [r] names a terminal of equipment [id] of network [k]. *)
Definition names (w : world) (r : ref) (k : nat) (id : string) : Prop :=
  r.1 = k /\ exists nt t, w_nets w !! k = Some nt /\ owns nt id t /\ t_id t = r.2.
(** The terminal exists. *)
Definition live (w : world) (r : ref) : Prop := exists id, names w r r.1 id.
(** Equipment [id] of network [k] refers to [r]: as a generator, a shunt or static var compensator, or by a phase tap changer; or by a
    ratio tap changer. *)
Definition refers_surely (w : world) (k : nat) (id : string) (r : ref) : Prop :=
  w_regs w !! (k, id) = Some r \/ exists leg, w_taps w !! mkKey k id leg false = Some (Some r).
Definition refers_ratio (w : world) (k : nat) (id : string) (r : ref) : Prop := exists leg, w_taps w !! mkKey k id leg true = Some (Some r).
Definition refers (w : world) (k : nat) (id : string) (r : ref) : Prop := refers_surely w k id r \/ refers_ratio w k id r.

(** A right history: equipments are removed when no other equipment refers to their terminals, networks when no other network refers to
    theirs, and a ratio tap changer that does not regulate, or without load tap changing capabilities, is not given the terminal of
    another network; the terminals the calls are given exist. *)
Definition any_world (_ : wop) (_ : world) : Prop := True.
Definition own_ratio (o : wop) : Prop :=
  match o with WTap key a (Some r) => k_ratio key = true -> a_regulating a && a_capable a = true \/ r.1 = k_net key | _ => True end.
Definition leaves_no_reference (o : wop) (w : world) : Prop :=
  match o with
  | WStep k (ORemove id) => forall k' id' r, refers w k' id' r -> names w r k id -> k' = k /\ id' = id
  | WDrop k => forall k' id' r, refers w k' id' r -> r.1 = k -> k' = k
  | _ => True
  end.
(** The terminal a call is given. *)
Definition given (o : wop) : option ref := match o with WReg _ _ _ r | WSet _ _ r | WTap _ _ r | WTapSet _ _ r => r | _ => None end.
Definition right_history (o : wop) (w : world) : Prop := own_ratio o /\ leaves_no_reference o w /\ forall r, given o = Some r -> live w r.
(** The objects it is about exist: networks, generators, transformers, tap changers. *)
Definition about (o : wop) (w : world) : Prop :=
  match o with
  | WNew k => w_nets w !! k = None
  | WDrop _ => True
  | WStep k _ | WReg k _ _ _ => is_Some (w_nets w !! k)
  | WSet k id _ => is_Some (w_regs w !! (k, id))
  | WTap key _ _ => exists nt t t' ts, w_nets w !! k_net key = Some nt /\ n_eqs nt !! k_id key = Some (t :: t' :: ts)
  | WTapSet key _ _ => is_Some (w_taps w !! key)
  | WTapRemove key => is_Some (w_taps w !! key)
  end.
(** The equipment whose reference the call is about. *)
Definition touches (o : wop) (k : nat) (id : string) : Prop :=
  match o with
  | WDrop k' => k = k'
  | WStep k' (ORemove id') | WStep k' (ORegulated id' _) | WReg k' id' _ _ | WSet k' id' _ => k = k' /\ id = id'
  | WTap key _ _ | WTapSet key _ _ | WTapRemove key => k = k_net key /\ id = k_id key
  | _ => False
  end.
(** The settings of a tap changer that go with regulated terminal [r], when it is one of the network, or another, or none. *)
Definition settings_ok (ratio : bool) (a : tapargs) (r : option ref) : Prop :=
  a_regulating a = true ->
    if ratio then (a_value a = true \/ a_capable a = false) /\ r <> None else a_value a = true /\ a_fixed a = false /\ r <> None.
