(** Which value of an object is written under which name: the columns of the lists of values of NetXml.v (objects, parts, elements of parts), written apart from the
    tables of the converter. *)
From Verif Require Export VocabularySpec.

(** A column: its names with their first and last version. *)
Definition column := list (nat * nat * string).
Definition col (a : string) : column := [(0, 5, a)].
Definition col_from (k : nat) (a : string) : column := [(k, 5, a)].
Definition col_until (k : nat) (a : string) : column := [(0, k, a)].
Definition renamed (old new : string) : column := [(0, 2, old); (3, 5, new)].
Definition cols (l : list string) : list column := map col l.
Definition place : list column := cols ["node"; "bus"; "connectableBus"].
Definition place_of (i : string) : list column := cols ["node" +:+ i; "bus" +:+ i; "connectableBus" +:+ i; "voltageLevelId" +:+ i].
Definition flow_of (i : string) : list column := cols ["p" +:+ i; "q" +:+ i].
Definition half_of (i : string) : list column :=
  cols ["id_" +:+ i; "name_" +:+ i; "r_" +:+ i; "x_" +:+ i; "g1_" +:+ i; "b1_" +:+ i; "g2_" +:+ i; "b2_" +:+ i] ++ [col_from 3 ("fictitious_" +:+ i)].
Definition columns (c : cls) : list column :=
  match c with
  | CNetwork => cols ["caseDate"; "forecastDistance"; "sourceFormat"]
  | CSubstation => cols ["country"; "tso"; "geographicalTags"]
  | CVoltageLevel => cols ["nominalV"; "lowVoltageLimit"; "highVoltageLimit"]
  | CBus => cols ["v"; "angle"]
  | CBusbarSection => cols ["node"]
  | CBusSwitch => cols ["kind"; "retained"; "open"; "bus1"; "bus2"]
  | CNodeSwitch => cols ["kind"; "retained"; "open"; "node1"; "node2"]
  | CLoad => cols ["loadType"; "p0"; "q0"] ++ place ++ flow_of ""
  | CGenerator => cols ["energySource"; "minP"; "maxP"; "ratedS"; "voltageRegulatorOn"; "targetP"; "targetV"; "targetQ"] ++ place ++ flow_of ""
  | CBattery => cols ["p0"; "q0"; "minP"; "maxP"] ++ place ++ flow_of ""
  | CShunt => [col_until 2 "bPerSection"; []; col_until 2 "maximumSectionCount"; renamed "currentSectionCount" "sectionCount";
               col_from 2 "voltageRegulatorOn"; col_from 2 "targetV"; col_from 2 "targetDeadband"] ++ place ++ flow_of ""
  | CDanglingLine => cols ["p0"; "q0"; "r"; "x"; "g"; "b"] ++ map (col_from 3) ["generationMinP"; "generationMaxP"; "generationVoltageRegulationOn"; "generationTargetP"; "generationTargetV"; "generationTargetQ"]
                     ++ cols ["ucteXnodeCode"] ++ place ++ flow_of ""
  | CSvc => cols ["bMin"; "bMax"] ++ [renamed "voltageSetPoint" "voltageSetpoint"; renamed "reactivePowerSetPoint" "reactivePowerSetpoint"] ++ cols ["regulationMode"] ++ place ++ flow_of ""
  | CVsc => cols ["voltageRegulatorOn"; "lossFactor"; "voltageSetpoint"; "reactivePowerSetpoint"] ++ place ++ flow_of ""
  | CLcc => cols ["lossFactor"; "powerFactor"] ++ place ++ flow_of ""
  | CLine => cols ["r"; "x"; "g1"; "b1"; "g2"; "b2"] ++ place_of "1" ++ place_of "2" ++ flow_of "1" ++ flow_of "2"
  | CTwoWt => cols ["r"; "x"; "g"; "b"; "ratedU1"; "ratedU2"] ++ [col_from 2 "ratedS"] ++ place_of "1" ++ place_of "2" ++ flow_of "1" ++ flow_of "2"
  | CThreeWt => cols ["r1"; "x1"; "g1"; "b1"; "ratedU1"] ++ [col_from 2 "ratedS1"] ++ cols ["r2"; "x2"] ++ [col_from 1 "g2"; col_from 1 "b2"] ++ cols ["ratedU2"] ++ [col_from 2 "ratedS2"]
                ++ cols ["r3"; "x3"] ++ [col_from 1 "g3"; col_from 1 "b3"] ++ cols ["ratedU3"] ++ [col_from 2 "ratedS3"; col_from 1 "ratedU0"]
                ++ place_of "1" ++ place_of "2" ++ place_of "3" ++ flow_of "1" ++ flow_of "2" ++ flow_of "3"
  | CTieLine => cols ["ucteXnodeCode"] ++ place_of "1" ++ place_of "2" ++ flow_of "1" ++ flow_of "2" ++ half_of "1" ++ half_of "2"
  | CHvdcLine => cols ["r"; "nominalV"; "convertersMode"; "activePowerSetpoint"; "maxP"; "converterStation1"; "converterStation2"]
  end.
Definition part_columns (k : pkind) : list column :=
  match k with
  | PLimits => cols ["permanentLimit"]
  | PCurve | PNonLinear => []
  | PMinMax => cols ["minQ"; "maxQ"]
  | PRatio => cols ["lowTapPosition"; "tapPosition"; "targetDeadband"; "loadTapChangingCapabilities"; "regulating"; "targetV"]
  | PPhase => cols ["lowTapPosition"; "tapPosition"; "targetDeadband"; "regulationMode"; "regulating"; "regulationValue"]
  | PTerminal => cols ["id"; "side"]
  | PLinear => cols ["bPerSection"; "gPerSection"; "maximumSectionCount"]
  end.
Definition element_columns (k : pkind) (n : string) : list column :=
  if String.eqb n "temporaryLimit" then cols ["name"; "acceptableDuration"; "value"; "fictitious"]
  else if String.eqb n "point" then cols ["p"; "minQ"; "maxQ"]
  else if String.eqb n "terminalRef" then cols ["id"; "side"]
  else if String.eqb n "section" then cols ["b"; "g"]
  else if String.eqb n "step" then cols (["r"; "x"; "g"; "b"; "rho"] ++ match k with PPhase => ["alpha"] | _ => [] end)
  else [].
(** The text of a value; none if it is missing. Tags are separated by commas. *)
Fixpoint with_commas (l : list string) : string := match l with [] => "" | [s] => s | s :: l' => s +:+ "," +:+ with_commas l' end.
Definition shown (x : fval) : option string :=
  match x with
  | VNum t => t
  | VBool b => Some (if b then "true" else "false")
  | VText s => Some s
  | VOpt s => s
  | VTags l => Some (with_commas l)
  end.
(** The attributes are values of [xs], each under the name of its column. *)
Definition tells (v : ver) (cs : list column) (xs : list fval) (attrs : list (string * string)) : Prop :=
  forall a t, (a, t) ∈ attrs -> exists i c x lo hi, cs !! i = Some c /\ (lo, hi, a) ∈ c /\ lo <= number v <= hi /\ xs !! i = Some x /\ shown x = Some t.
(** No two columns have the same name in a version. *)
Definition distinct (v : ver) (cs : list column) : Prop :=
  forall i j c d a lo hi lo' hi', cs !! i = Some c -> cs !! j = Some d -> (lo, hi, a) ∈ c -> (lo', hi', a) ∈ d -> lo <= number v <= hi -> lo' <= number v <= hi' -> i = j.

(** ** What the element of an object says *)
Definition element (c : cls) : string :=
  match c with
  | CNetwork => "network" | CSubstation => "substation" | CVoltageLevel => "voltageLevel" | CBus => "bus" | CBusbarSection => "busbarSection" | CBusSwitch | CNodeSwitch => "switch"
  | CLoad => "load" | CGenerator => "generator" | CBattery => "battery" | CShunt => "shunt" | CDanglingLine => "danglingLine" | CSvc => "staticVarCompensator"
  | CVsc => "vscConverterStation" | CLcc => "lccConverterStation" | CLine => "line" | CTwoWt => "twoWindingsTransformer" | CThreeWt => "threeWindingsTransformer"
  | CTieLine => "tieLine" | CHvdcLine => "hvdcLine"
  end.
Definition element_name (key : string) (k : pkind) : string :=
  match k with PCurve => "reactiveCapabilityCurve" | PMinMax => "minMaxReactiveLimits" | PLinear => "shuntLinearModel" | PNonLinear => "shuntNonLinearModel" | _ => key end.
(** What is computed before 1.3, which has neither non linear models nor generation of dangling lines: the susceptance per section, the maximum and current section
    counts; p0 and q0. *)
Definition computed (v : ver) (l : leaf) (i : nat) : Prop :=
  number v < 3 /\
  (l_cls l = CShunt /\ is_Some (l_parts l !! "model") /\ (i = 0 \/ i = 2 \/ i = 3) \/
   l_cls l = CDanglingLine /\ (exists s, l_fields l !! 8 = Some (VOpt (Some s))) /\ (i = 0 \/ i = 1)).
(** Each attribute is the identifier, the name, the fictitious flag, or a value of the object under its name. *)
Definition object_told (v : ver) (l : leaf) (attrs : list (string * string)) : Prop :=
  ("id", l_id l) ∈ attrs /\
  forall a t, (a, t) ∈ attrs -> (a = "id" /\ t = l_id l) \/ (a = "name" /\ t = l_name l) \/ (a = "fictitious" /\ t = "true" /\ l_fict l = true) \/
    (exists i c x lo hi, columns (l_cls l) !! i = Some c /\ (lo, hi, a) ∈ c /\ lo <= number v <= hi /\ l_fields l !! i = Some x /\ (shown x = Some t \/ computed v l i)) \/
    (a = "topologyKind" /\ l_cls l = CVoltageLevel).
(** A part of the object; the linear model of a shunt compensator is its first three values. *)
Definition has_part (l : leaf) (key : string) (p : part) : Prop :=
  l_parts l !! key = Some p \/ (l_cls l = CShunt /\ l_parts l !! "model" = None /\ key = "model" /\ p = Part PLinear (take 3 (l_fields l)) []).
Definition parts_told (v : ver) (l : leaf) (cs : list xml) : Prop :=
  forall n attrs e es, Elem n attrs e es ∈ cs -> n = "alias" \/ n = "property" \/
    exists key p, has_part l key p /\ n = element_name key (p_kind p) /\ tells v (part_columns (p_kind p)) (p_fields p) attrs /\
      Forall2 (fun c z => exists at' e', z = Elem c.1 at' e' [] /\ tells v (element_columns (p_kind p) c.1) c.2 at') (p_children p) es.
(** The element of an object is in the document; the elements in those of substations and voltage levels are those of other objects. *)
Definition said (v : ver) (l : leaf) (y : xml) : Prop :=
  exists attrs e cs, occurs (Elem (element (l_cls l)) attrs e cs) y /\ object_told v l attrs /\ (l_cls l <> CSubstation -> l_cls l <> CVoltageLevel -> parts_told v l cs).
