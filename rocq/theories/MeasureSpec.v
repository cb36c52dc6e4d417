(** Specification of the measurements of an equipment. *)
From Verif Require Export Measure ExtXmlSpec.

(** ** Histories: any calls on an equipment that starts without measurement; calls that are undefined are not part of one. *)
Definition calls {O A : Type} (step : O -> items A -> result unit * items A) (c c' : items A) : Prop := exists o, (step o c).1 <> UB /\ (step o c).2 = c'.
Definition empty_of {A : Type} (k : cls) : items A := mkItems k [] 0.
Definition m_reach (k : cls) (c : items meas) : Prop := rtc (calls mstep) (empty_of k) c.
Definition d_reach (k : cls) (c : items dmeas) : Prop := rtc (calls dstep) (empty_of k) c.

(** ** Adding *)
(** Properties: every name given, with the last value given for it; names are not empty. *)
Definition props_given (l : list (string * string)) (ps : gmap string string) : Prop :=
  forall n x, ps !! n = Some x <-> exists l1 l2, l = l1 ++ (n, x) :: l2 /\ forall y, (n, y) ∉ l2.
Definition names_given (l : list (string * string)) : Prop := forall x, ("", x) ∉ l.
(** A measurement of an injection has no side, another one has one unless it is of the type OTHER. *)
Definition side_fits (k : cls) (ty : mtype) (s : option mside) : Prop := (k ∈ injections /\ s = None) \/ (k ∈ others /\ (s <> None \/ ty = MOther)).
Definition m_accepted (c : items meas) (a : madder) : Prop :=
  names_given (ma_props a) /\ (ma_id a = "" \/ ~ exists i, i ∈ c_items c /\ i_id i = ma_id a) /\
  exists ty, ma_type a = Some ty /\ (ma_valid a = true -> ma_value a <> None) /\ side_fits (c_cls c) ty (ma_side a).
Definition m_given (a : madder) (i : item meas) : Prop :=
  i_id i = ma_id a /\ props_given (ma_props a) (i_props i) /\ Some (m_type (i_data i)) = ma_type a /\ m_side (i_data i) = ma_side a /\ m_value (i_data i) = ma_value a /\
  m_std (i_data i) = ma_std a /\ m_valid (i_data i) = ma_valid a.
(** A discrete measurement: positions of switches are those of switches, tap changers those of transformers, with the side for three windings. *)
Definition tap_fits (k : cls) (ty : dtype) (t : option dtap) : Prop :=
  (ty = DSwitch -> k = CBusSwitch \/ k = CNodeSwitch) /\ (ty = DTap -> t <> None) /\
  (forall p, t = Some p -> (k = CTwoWt /\ p ∈ [TRatio; TPhase]) \/ (k = CThreeWt /\ p ∈ [TRatio1; TPhase1; TRatio2; TPhase2; TRatio3; TPhase3])).
Definition d_accepted (c : items dmeas) (a : dadder) : Prop :=
  names_given (da_props a) /\ (da_id a = "" \/ ~ exists i, i ∈ c_items c /\ i_id i = da_id a) /\ exists ty, da_type a = Some ty /\ tap_fits (c_cls c) ty (da_tap a) /\ da_value a <> None.
Definition kind_of (x : dval) : vtype := match x with DBool _ => TBool | DInt _ => TInt | DText _ => TText end.
Definition d_given (a : dadder) (i : item dmeas) : Prop :=
  i_id i = da_id a /\ props_given (da_props a) (i_props i) /\ Some (d_type (i_data i)) = da_type a /\ d_tap (i_data i) = da_tap a /\ d_value (i_data i) = da_value a /\ d_valid (i_data i) = da_valid a.
(** Added: it is the last, its address is a new one, nothing else changes. *)
Definition entered {A : Type} (c c' : items A) (i : item A) : Prop :=
  c_cls c' = c_cls c /\ c_items c' = c_items c ++ [i] /\ forall j, j ∈ c_items c -> i_addr j <> i_addr i.

(** ** Changing *)
(** [only k c c' f]: the measurement at [k] becomes what [f] says, the others, and the order, are as they were. *)
Definition changed {A : Type} (k : nat) (c c' : items A) (f : item A -> item A -> Prop) : Prop :=
  c_cls c' = c_cls c /\ Forall2 (fun i j => (i_addr i <> k -> j = i) /\ (i_addr i = k -> i_addr j = k /\ i_id j = i_id i /\ f i j)) (c_items c) (c_items c').
Definition present {A : Type} (c : items A) (k : nat) : Prop := exists i, i ∈ c_items c /\ i_addr i = k.
(** What each call on a measurement changes. *)
Definition m_effect (o : mop) (i j : item meas) : Prop :=
  let a := i_data i in let b := i_data j in
  m_type b = m_type a /\ m_side b = m_side a /\
  match o with
  | MSetValue _ x => i_props j = i_props i /\ m_value b = x /\ m_std b = m_std a /\ m_valid b = m_valid a
  | MSetStd _ x => i_props j = i_props i /\ m_value b = m_value a /\ m_std b = x /\ m_valid b = m_valid a
  | MSetValid _ x => i_props j = i_props i /\ m_value b = m_value a /\ m_std b = m_std a /\ m_valid b = x
  | MPut _ n x => b = a /\ i_props j !! n = Some x /\ forall n', n' <> n -> i_props j !! n' = i_props i !! n'
  | MDrop _ n => b = a /\ i_props j !! n = None /\ forall n', n' <> n -> i_props j !! n' = i_props i !! n'
  | _ => False
  end.
Definition m_target (o : mop) : option nat := match o with MAdd _ | MRemove _ => None | MSetValue k _ | MSetStd k _ | MSetValid k _ | MPut k _ _ | MDrop k _ => Some k end.
Definition m_refused (o : mop) : Prop := exists k x, o = MPut k "" x.
Definition d_effect (o : dop) (i j : item dmeas) : Prop :=
  let a := i_data i in let b := i_data j in
  d_type b = d_type a /\ d_tap b = d_tap a /\
  match o with
  | DSetValue _ x => i_props j = i_props i /\ d_value b = Some x /\ d_vtype b = kind_of x /\ d_valid b = d_valid a
  | DSetValid _ x => i_props j = i_props i /\ d_value b = d_value a /\ d_vtype b = d_vtype a /\ d_valid b = x
  | DPut _ n x => b = a /\ i_props j !! n = Some x /\ forall n', n' <> n -> i_props j !! n' = i_props i !! n'
  | DDrop _ n => b = a /\ i_props j !! n = None /\ forall n', n' <> n -> i_props j !! n' = i_props i !! n'
  | _ => False
  end.
Definition d_target (o : dop) : option nat := match o with DAdd _ | DRemove _ => None | DSetValue k _ | DSetValid k _ | DPut k _ _ | DDrop k _ => Some k end.
Definition d_refused (o : dop) : Prop := exists k x, o = DPut k "" x.
(** Removed: the others remain, in their order. *)
Definition removed {A : Type} (k : nat) (c c' : items A) : Prop :=
  c_cls c' = c_cls c /\ exists l1 i l2, i_addr i = k /\ c_items c = l1 ++ i :: l2 /\ c_items c' = l1 ++ l2 /\ forall j, j ∈ l1 ++ l2 -> i_addr j <> k.

(** ** Careful calls: a measurement is not declared valid without a value, nor deprived of its value while valid; texts of discrete measurements are not empty. *)
Definition m_careful (o : mop) (c : items meas) : Prop :=
  match o with
  | MSetValue k None => forall i, i ∈ c_items c -> i_addr i = k -> m_valid (i_data i) = false
  | MSetValid k true => forall i, i ∈ c_items c -> i_addr i = k -> m_value (i_data i) <> None
  | _ => True
  end.
Definition d_careful (o : dop) : Prop := match o with DAdd a => da_value a <> Some (DText "") | DSetValue _ x => x <> DText "" | _ => True end.
Definition m_calls (c c' : items meas) : Prop := exists o, m_careful o c /\ (mstep o c).1 <> UB /\ (mstep o c).2 = c'.
Definition d_calls (c c' : items dmeas) : Prop := exists o, d_careful o /\ (dstep o c).1 <> UB /\ (dstep o c).2 = c'.
(** A valid measurement has a value. *)
Definition valid_has_value (i : item meas) : Prop := m_valid (i_data i) = true -> m_value (i_data i) <> None.
(** The measurement found under an id that is not empty is the one. *)
Definition ids_unique {A : Type} (c : items A) : Prop := forall n m i j, c_items c !! n = Some i -> c_items c !! m = Some j -> i_id i = i_id j -> i_id i <> "" -> n = m.
