(** Networks the library can hold, as the XML converter sees them, stated without the tables of the converter. *)
From Verif Require Export NetXmlSpec.

(** ** Attributes. *)
(** Numbers that must have a value (not NaN), numbers that may have none, flags, words, words that are not empty, words that may be missing, identifiers of
    other objects, identifiers that may be missing, sets of tags. *)
Inductive kind := Number | MaybeNumber | Flag | Word | FilledWord | MaybeWord | Ref | MaybeRef | Tags.
(** Tags are not empty; without anonymization they have no comma. *)
Definition value_valid (a : bool) (k : kind) (x : fval) : Prop :=
  match k, x with
  | Number, VNum d => d <> None
  | MaybeNumber, VNum _ | Flag, VBool _ | Word, VText _ | MaybeWord, VOpt _ | MaybeRef, VOpt _ => True
  | FilledWord, VText s => s <> ""
  | Ref, VOpt o => o <> None
  | Tags, VTags l => Forall (fun t => t <> "" /\ (a = false -> ","%char ∉ to_str t)) l
  | _, _ => False
  end.
Definition valid (a : bool) (ks : list kind) (xs : list fval) : Prop := Forall2 (value_valid a) ks xs.
(** Node, bus, connectable bus. *)
Definition connection : list kind := [MaybeWord; MaybeRef; MaybeRef].
(** And voltage level of a side. *)
Definition side : list kind := connection ++ [Ref].
Definition flows : list kind := [MaybeNumber; MaybeNumber].
(** r, x, g, b, rated voltage and power. *)
Definition leg : list kind := [Number; Number; Number; Number; Number; MaybeNumber].
(** Identifier, name, r, x, g1, b1, g2, b2, fictitious. *)
Definition half : list kind := [Word; Word; Number; Number; Number; Number; Number; Number; Flag].
Definition attributes (c : cls) : list kind :=
  match c with
  | CNetwork => [Word; FilledWord; Word] (* date, forecast distance, source format *)
  | CSubstation => [MaybeWord; Word; Tags] (* country, TSO, geographical tags *)
  | CVoltageLevel => [Number; MaybeNumber; MaybeNumber] (* nominal voltage, limits *)
  | CBus => [MaybeNumber; MaybeNumber] (* v, angle *)
  | CBusbarSection => [Word] (* node *)
  | CBusSwitch => [Word; Flag; Flag; Ref; Ref] (* kind, retained, open, buses *)
  | CNodeSwitch => [Word; Flag; Flag; Word; Word] (* kind, retained, open, nodes *)
  | CLoad => [FilledWord; Number; Number] ++ connection ++ flows (* type, p0, q0 *)
  | CGenerator => [Word; Number; Number; MaybeNumber; Flag; Number; MaybeNumber; MaybeNumber] ++ connection ++ flows (* source, minP, maxP, ratedS, on, targetP, targetV, targetQ *)
  | CBattery => [Number; Number; Number; Number] ++ connection ++ flows (* p0, q0, minP, maxP *)
  | CShunt => [Number; MaybeNumber; Word] ++ [Word; Flag; MaybeNumber; MaybeNumber] ++ connection ++ flows (* b, g per section, maximum count; count, on, targetV, deadband *)
  | CDanglingLine => [Number; Number; Number; Number; Number; Number] (* p0, q0, r, x, g, b *)
      ++ [MaybeNumber; MaybeNumber; MaybeWord; MaybeNumber; MaybeNumber; MaybeNumber] ++ [Word] ++ connection ++ flows (* generation; UCTE code *)
  | CSvc => [Number; Number; MaybeNumber; MaybeNumber; Word] ++ connection ++ flows (* bMin, bMax, set points, mode *)
  | CVsc => [Flag; Number; MaybeNumber; MaybeNumber] ++ connection ++ flows (* on, loss factor, set points *)
  | CLcc => [Number; MaybeNumber] ++ connection ++ flows (* loss factor, power factor *)
  | CLine => [Number; Number; Number; Number; Number; Number] ++ side ++ side ++ flows ++ flows
  | CTwoWt => [Number; Number; Number; Number; Number; Number; MaybeNumber] ++ side ++ side ++ flows ++ flows (* r, x, g, b, rated voltages and power *)
  | CThreeWt => leg ++ leg ++ leg ++ [Number] ++ side ++ side ++ side ++ flows ++ flows ++ flows (* legs, voltage at the star point *)
  | CTieLine => [Word] ++ side ++ side ++ flows ++ flows ++ half ++ half (* UCTE code *)
  | CHvdcLine => [Number; Number; Word; Number; Number; Ref; Ref] (* r, nominal voltage, mode, set point, maxP, stations *)
  end.

(** ** Parts. *)
Definition part_attributes (k : pkind) : list kind :=
  match k with
  | PLimits => [MaybeNumber] (* permanent limit *)
  | PCurve | PNonLinear => []
  | PMinMax => [Number; Number]
  | PRatio => [Word; Word; MaybeNumber; Flag; Flag; MaybeNumber] (* low tap, tap, deadband, on load, regulating, targetV *)
  | PPhase => [Word; Word; MaybeNumber; Word; Flag; MaybeNumber] (* low tap, tap, deadband, mode, regulating, value *)
  | PTerminal => [Ref; MaybeWord] (* object, side *)
  | PLinear => [Number; MaybeNumber; Word]
  end.
(** The names and attributes of the elements of a part. *)
Definition part_elements (k : pkind) : list (string * list kind) :=
  match k with
  | PLimits => [("temporaryLimit", [Word; MaybeWord; MaybeNumber; Flag])] (* name, duration, value, fictitious *)
  | PCurve => [("point", [Number; Number; Number])] (* p, minQ, maxQ *)
  | PRatio => [("terminalRef", [Ref; MaybeWord]); ("step", [Number; Number; Number; Number; Number])] (* r, x, g, b, rho *)
  | PPhase => [("terminalRef", [Ref; MaybeWord]); ("step", [Number; Number; Number; Number; Number; Number])] (* and alpha *)
  | PNonLinear => [("section", [Number; Number])] (* b, g *)
  | PMinMax | PTerminal | PLinear => []
  end.
(** Temporary limits have distinct durations, the points of a curve distinct active powers. *)
Definition part_valid (a : bool) (p : part) : Prop :=
  valid a (part_attributes (p_kind p)) (p_fields p) /\
  (forall n xs, (n, xs) ∈ p_children p -> exists ks, (n, ks) ∈ part_elements (p_kind p) /\ valid a ks xs) /\
  (p_kind p = PLimits -> NoDup ((fun c => c.2 !! 1) <$> p_children p)) /\ (p_kind p = PCurve -> NoDup ((fun c => c.2 !! 0) <$> p_children p)).
(** Where an object has parts, and of which kind. *)
Definition limits (i : string) : list (string * pkind) := [("activePowerLimits" +:+ i, PLimits); ("apparentPowerLimits" +:+ i, PLimits); ("currentLimits" +:+ i, PLimits)].
Definition reactive : list (string * pkind) := [("reactiveLimits", PCurve); ("reactiveLimits", PMinMax)].
Definition taps (i : string) : list (string * pkind) := [("ratioTapChanger" +:+ i, PRatio); ("phaseTapChanger" +:+ i, PPhase)].
Definition parts (c : cls) : list (string * pkind) :=
  match c with
  | CGenerator => ("regulatingTerminal", PTerminal) :: reactive
  | CBattery | CVsc => reactive
  | CShunt => [("model", PNonLinear); ("regulatingTerminal", PTerminal)]
  | CDanglingLine => reactive ++ limits ""
  | CSvc => [("regulatingTerminal", PTerminal)]
  | CTwoWt => taps "" ++ limits "1" ++ limits "2"
  | CThreeWt => taps "1" ++ taps "2" ++ taps "3" ++ limits "1" ++ limits "2" ++ limits "3"
  | CLine | CTieLine => limits "1" ++ limits "2"
  | _ => []
  end.

(** ** Objects. *)
(** Switches of bus/breaker levels are retained breakers. A shunt compensator has a linear model (its three first attributes) or a non linear one. Without
    generation, a dangling line has no value for what describes it. *)
Definition fields_valid (a : bool) (l : leaf) : Prop :=
  match l_cls l with
  | CShunt =>
    match l_parts l !! "model" with
    | None => valid a (attributes CShunt) (l_fields l)
    | Some p => exists fs, l_fields l = VNum None :: VNum None :: VText "" :: fs /\ valid a (drop 3 (attributes CShunt)) fs
    end
  | CBusSwitch => valid a (attributes CBusSwitch) (l_fields l) /\ take 2 (l_fields l) = [VText "BREAKER"; VBool true]
  | CDanglingLine =>
    valid a (attributes CDanglingLine) (l_fields l) /\
    ((take 6 (drop 6 (l_fields l)) = [VNum None; VNum None; VOpt None; VNum None; VNum None; VNum None] /\ l_parts l !! "reactiveLimits" = None) \/
     l_fields l !! 8 = Some (VOpt (Some "true")) \/ l_fields l !! 8 = Some (VOpt (Some "false")))
  | c => valid a (attributes c) (l_fields l)
  end.
(** Aliases are not blank; an object has at most one alias of each type. *)
Definition leaf_valid (a : bool) (k : cls) (l : leaf) : Prop :=
  l_cls l = k /\ l_id l <> "" /\ fields_valid a l /\
  (forall s t, l_aliases l !! s = Some t -> blank s = false) /\
  (forall s1 s2 t, t <> "" -> l_aliases l !! s1 = Some t -> l_aliases l !! s2 = Some t -> s1 = s2) /\
  (forall key p, l_parts l !! key = Some p -> part_valid a p /\ (key, p_kind p) ∈ parts k).

(** ** References to other objects. *)
Definition referred (k : kind) (x : fval) : option string := match k, x with Ref, VOpt o | MaybeRef, VOpt o => o | _, _ => None end.
Definition refers (ks : list kind) (xs : list fval) (r : string) : Prop := exists i k x, ks !! i = Some k /\ xs !! i = Some x /\ referred k x = Some r.
Definition leaf_refers (l : leaf) (r : string) : Prop := refers (attributes (l_cls l)) (l_fields l) r.
(** In the parts of an object: regulating terminals. *)
Definition part_refers (l : leaf) (r : string) : Prop :=
  exists key p, l_parts l !! key = Some p /\
  (refers (part_attributes (p_kind p)) (p_fields p) r \/ exists n xs ks, (n, xs) ∈ p_children p /\ (n, ks) ∈ part_elements (p_kind p) /\ refers ks xs r).

(** ** Voltage levels, substations, networks. *)
(** Buses: no property, no alias (from 1.3 on, where they are written): see C53. *)
Definition bus_valid (a : bool) (v : ver) (l : leaf) : Prop := leaf_valid a CBus l /\ l_props l = ∅ /\ (older v 3 = false -> l_aliases l = ∅).
Definition equipments : list cls := [CGenerator; CBattery; CLoad; CShunt; CDanglingLine; CSvc; CVsc; CLcc].
(** Node/breaker levels have busbar sections, bus/breaker levels buses; equipments are listed class after class; what is in the level refers to its buses. *)
Definition vl_valid (a : bool) (v : ver) (x : vlevel) : Prop :=
  leaf_valid a CVoltageLevel (v_leaf x) /\
  (if v_nb x then v_buses x = [] /\ Forall (leaf_valid a CBusbarSection) (v_sections x) /\ Forall (leaf_valid a CNodeSwitch) (v_switches x)
   else v_sections x = [] /\ v_ics x = [] /\ Forall (bus_valid a v) (v_buses x) /\ Forall (leaf_valid a CBusSwitch) (v_switches x)) /\
  Forall (fun l => l_cls l ∈ equipments /\ leaf_valid a (l_cls l) l) (v_eqs x) /\
  v_eqs x = mjoin (map (fun c => filter (fun l => l_cls l = c) (v_eqs x)) equipments) /\
  (forall l r, l ∈ v_switches x ++ v_eqs x -> leaf_refers l r -> r ∈ map l_id (v_buses x)).
(** Transformers refer to objects of the voltage levels of the substation. *)
Definition sub_valid (a : bool) (v : ver) (x : substation) : Prop :=
  leaf_valid a CSubstation (s_leaf x) /\ Forall (vl_valid a v) (s_vls x) /\ Forall (leaf_valid a CTwoWt) (s_twts x) /\ Forall (leaf_valid a CThreeWt) (s_thwts x) /\
  (forall l r, l ∈ s_twts x ++ s_thwts x -> leaf_refers l r -> r ∈ map l_id (mjoin (vl_leaves <$> s_vls x))).
(** Identifiers and aliases are unique; lines refer to objects of the substations; regulating terminals are those of objects of the network. *)
Definition net_valid (a : bool) (v : ver) (n : network) : Prop :=
  leaf_valid false CNetwork (n_leaf n) /\ Forall (sub_valid a v) (n_subs n) /\
  Forall (fun l => l_cls l ∈ [CLine; CTieLine] /\ leaf_valid a (l_cls l) l) (n_lines n) /\ Forall (leaf_valid a CHvdcLine) (n_hvdcs n) /\
  NoDup (mjoin (leaf_names <$> net_leaves n)) /\
  (forall l r, l ∈ n_lines n ++ n_hvdcs n -> leaf_refers l r -> r ∈ map l_id (mjoin (sub_leaves <$> n_subs n))) /\
  (forall l r, l ∈ net_leaves n -> part_refers l r -> r ∈ map l_id (net_leaves n)).
