(** The names of the XML documents: which elements and attributes the documents of each version have. The tables are those of the format, checked below
    against the reference documents of the tests (test/resources/V1_0 to V1_5); they do not use the tables of the converter. *)
From Verif Require Export Xml NetXmlShape.

(** (element, first and last version, attributes). *)
Definition identity : list string := ["id"; "name"].
Definition connection_attrs : list string := ["node"; "bus"; "connectableBus"; "p"; "q"].
Definition side_attrs (i : string) : list string := map (fun s => s +:+ i) ["node"; "bus"; "connectableBus"; "voltageLevelId"; "p"; "q"].
Definition half_attrs (i : string) : list string := map (fun s => s +:+ i) ["id_"; "name_"; "r_"; "x_"; "g1_"; "b1_"; "g2_"; "b2_"].
Definition tap_attrs : list string := ["lowTapPosition"; "tapPosition"; "targetDeadband"; "regulating"].
Definition ratio_attrs : list string := tap_attrs ++ ["loadTapChangingCapabilities"; "targetV"].
Definition phase_attrs : list string := tap_attrs ++ ["regulationMode"; "regulationValue"].
Definition attribute_rows : list (string * (nat * nat) * list string) :=
  [("network", (0, 5), ["xmlns:iidm"; "id"; "caseDate"; "forecastDistance"; "sourceFormat"]);
   ("substation", (0, 5), identity ++ ["country"; "tso"; "geographicalTags"]);
   ("voltageLevel", (0, 5), identity ++ ["nominalV"; "lowVoltageLimit"; "highVoltageLimit"; "topologyKind"]);
   ("bus", (0, 5), identity ++ ["v"; "angle"]);
   ("busbarSection", (0, 5), identity ++ ["node"]);
   ("switch", (0, 5), identity ++ ["kind"; "retained"; "open"; "fictitious"; "bus1"; "bus2"; "node1"; "node2"]);
   ("internalConnection", (0, 5), ["node1"; "node2"]);
   ("load", (0, 5), identity ++ connection_attrs ++ ["loadType"; "p0"; "q0"]);
   ("generator", (0, 5), identity ++ connection_attrs ++ ["energySource"; "minP"; "maxP"; "ratedS"; "voltageRegulatorOn"; "targetP"; "targetV"; "targetQ"]);
   ("battery", (0, 5), identity ++ connection_attrs ++ ["p0"; "q0"; "minP"; "maxP"]);
   ("shunt", (0, 5), identity ++ connection_attrs);
   ("shunt", (0, 2), ["bPerSection"; "maximumSectionCount"; "currentSectionCount"]);
   ("shunt", (2, 5), ["voltageRegulatorOn"; "targetV"; "targetDeadband"]);
   ("shunt", (3, 5), ["sectionCount"]);
   ("danglingLine", (0, 5), identity ++ connection_attrs ++ ["p0"; "q0"; "r"; "x"; "g"; "b"; "ucteXnodeCode"]);
   ("danglingLine", (3, 5), ["generationMinP"; "generationMaxP"; "generationVoltageRegulationOn"; "generationTargetP"; "generationTargetV"; "generationTargetQ"]);
   ("staticVarCompensator", (0, 5), identity ++ connection_attrs ++ ["bMin"; "bMax"; "regulationMode"]);
   ("staticVarCompensator", (0, 2), ["voltageSetPoint"; "reactivePowerSetPoint"]);
   ("staticVarCompensator", (3, 5), ["voltageSetpoint"; "reactivePowerSetpoint"]);
   ("vscConverterStation", (0, 5), identity ++ connection_attrs ++ ["voltageRegulatorOn"; "lossFactor"; "voltageSetpoint"; "reactivePowerSetpoint"]);
   ("lccConverterStation", (0, 5), identity ++ connection_attrs ++ ["lossFactor"; "powerFactor"]);
   ("line", (0, 5), identity ++ side_attrs "1" ++ side_attrs "2" ++ ["r"; "x"; "g1"; "b1"; "g2"; "b2"]);
   ("tieLine", (0, 5), identity ++ side_attrs "1" ++ side_attrs "2" ++ half_attrs "1" ++ half_attrs "2" ++ ["ucteXnodeCode"]);
   ("tieLine", (3, 5), ["fictitious_1"; "fictitious_2"]);
   ("twoWindingsTransformer", (0, 5), identity ++ side_attrs "1" ++ side_attrs "2" ++ ["r"; "x"; "g"; "b"; "ratedU1"; "ratedU2"]);
   ("twoWindingsTransformer", (2, 5), ["ratedS"]);
   ("threeWindingsTransformer", (0, 5), identity ++ side_attrs "1" ++ side_attrs "2" ++ side_attrs "3" ++
      ["r1"; "x1"; "g1"; "b1"; "ratedU1"; "r2"; "x2"; "ratedU2"; "r3"; "x3"; "ratedU3"]);
   ("threeWindingsTransformer", (1, 5), ["g2"; "b2"; "g3"; "b3"; "ratedU0"]);
   ("threeWindingsTransformer", (2, 5), ["ratedS1"; "ratedS2"; "ratedS3"]);
   ("hvdcLine", (0, 5), identity ++ ["r"; "nominalV"; "convertersMode"; "activePowerSetpoint"; "maxP"; "converterStation1"; "converterStation2"]);
   ("alias", (4, 5), ["type"]); ("property", (0, 5), ["name"; "value"]);
   ("regulatingTerminal", (0, 5), ["id"; "side"]); ("terminalRef", (0, 5), ["id"; "side"]);
   ("minMaxReactiveLimits", (0, 5), ["minQ"; "maxQ"]); ("point", (0, 5), ["p"; "minQ"; "maxQ"]);
   ("shuntLinearModel", (3, 5), ["bPerSection"; "gPerSection"; "maximumSectionCount"]); ("section", (3, 5), ["b"; "g"]);
   ("temporaryLimit", (0, 5), ["name"; "acceptableDuration"; "value"; "fictitious"]);
   ("ratioTapChanger", (0, 5), ratio_attrs); ("phaseTapChanger", (0, 5), phase_attrs);
   ("ratioTapChanger1", (1, 5), ratio_attrs); ("ratioTapChanger2", (0, 5), ratio_attrs); ("ratioTapChanger3", (0, 5), ratio_attrs);
   ("phaseTapChanger1", (1, 5), phase_attrs); ("phaseTapChanger2", (1, 5), phase_attrs); ("phaseTapChanger3", (1, 5), phase_attrs);
   ("step", (0, 5), ["r"; "x"; "g"; "b"; "rho"; "alpha"])]
  ++ map (fun e => (e, (2, 5), ["fictitious"])) ["substation"; "voltageLevel"; "bus"; "busbarSection"; "load"; "generator"; "battery"; "shunt"; "danglingLine";
       "staticVarCompensator"; "vscConverterStation"; "lccConverterStation"; "line"; "tieLine"; "twoWindingsTransformer"; "threeWindingsTransformer"; "hvdcLine"]
  ++ map (fun i => ("currentLimits" +:+ i, (0, 5), ["permanentLimit"])) [""; "1"; "2"; "3"]
  ++ map (fun i => ("activePowerLimits" +:+ i, (5, 5), ["permanentLimit"])) [""; "1"; "2"; "3"]
  ++ map (fun i => ("apparentPowerLimits" +:+ i, (5, 5), ["permanentLimit"])) [""; "1"; "2"; "3"].
(** (element, first and last version, elements directly inside). *)
Definition limits_in (i : string) (e : string) : list (string * (nat * nat) * list string) :=
  [(e, (0, 5), ["currentLimits" +:+ i]); (e, (5, 5), ["activePowerLimits" +:+ i; "apparentPowerLimits" +:+ i])].
Definition child_rows : list (string * (nat * nat) * list string) :=
  [("network", (0, 5), ["substation"; "line"; "tieLine"; "hvdcLine"]);
   ("substation", (0, 5), ["voltageLevel"; "twoWindingsTransformer"; "threeWindingsTransformer"]);
   ("voltageLevel", (0, 5), ["busBreakerTopology"; "nodeBreakerTopology"; "generator"; "battery"; "load"; "shunt"; "danglingLine"; "staticVarCompensator";
                             "vscConverterStation"; "lccConverterStation"]);
   ("busBreakerTopology", (0, 5), ["bus"; "switch"]);
   ("nodeBreakerTopology", (0, 5), ["busbarSection"; "switch"; "internalConnection"]);
   ("generator", (0, 5), ["regulatingTerminal"; "reactiveCapabilityCurve"; "minMaxReactiveLimits"]);
   ("battery", (0, 5), ["reactiveCapabilityCurve"; "minMaxReactiveLimits"]);
   ("vscConverterStation", (0, 5), ["reactiveCapabilityCurve"; "minMaxReactiveLimits"]);
   ("danglingLine", (3, 5), ["reactiveCapabilityCurve"; "minMaxReactiveLimits"]);
   ("shunt", (2, 5), ["regulatingTerminal"]); ("shunt", (3, 5), ["shuntLinearModel"; "shuntNonLinearModel"]);
   ("shuntNonLinearModel", (3, 5), ["section"]);
   ("staticVarCompensator", (1, 5), ["regulatingTerminal"]);
   ("reactiveCapabilityCurve", (0, 5), ["point"]);
   ("twoWindingsTransformer", (0, 5), ["ratioTapChanger"; "phaseTapChanger"]);
   ("threeWindingsTransformer", (0, 5), ["ratioTapChanger2"; "ratioTapChanger3"]);
   ("threeWindingsTransformer", (1, 5), ["ratioTapChanger1"; "phaseTapChanger1"; "phaseTapChanger2"; "phaseTapChanger3"])]
  ++ limits_in "" "danglingLine" ++ limits_in "1" "line" ++ limits_in "2" "line" ++ limits_in "1" "tieLine" ++ limits_in "2" "tieLine"
  ++ limits_in "1" "twoWindingsTransformer" ++ limits_in "2" "twoWindingsTransformer"
  ++ limits_in "1" "threeWindingsTransformer" ++ limits_in "2" "threeWindingsTransformer" ++ limits_in "3" "threeWindingsTransformer"
  ++ map (fun i => ("currentLimits" +:+ i, (0, 5), ["temporaryLimit"])) [""; "1"; "2"; "3"]
  ++ map (fun i => ("activePowerLimits" +:+ i, (5, 5), ["temporaryLimit"])) [""; "1"; "2"; "3"]
  ++ map (fun i => ("apparentPowerLimits" +:+ i, (5, 5), ["temporaryLimit"])) [""; "1"; "2"; "3"]
  ++ map (fun e => (e, (0, 5), ["terminalRef"; "step"])) ["ratioTapChanger"; "phaseTapChanger"; "ratioTapChanger2"; "ratioTapChanger3"]
  ++ map (fun e => (e, (1, 5), ["terminalRef"; "step"])) ["ratioTapChanger1"; "phaseTapChanger1"; "phaseTapChanger2"; "phaseTapChanger3"]
  ++ mjoin (map (fun e => [(e, (0, 5), ["property"]); (e, (3, 5), ["alias"])])
       ["network"; "substation"; "voltageLevel"; "busbarSection"; "switch"; "load"; "generator"; "battery"; "shunt"; "danglingLine"; "staticVarCompensator";
        "vscConverterStation"; "lccConverterStation"; "line"; "tieLine"; "twoWindingsTransformer"; "threeWindingsTransformer"; "hvdcLine"]).

(** The documents of version [v] may have [x] in the element [e]. *)
Definition listed (rows : list (string * (nat * nat) * list string)) (v : ver) (e x : string) : Prop :=
  exists lo hi l, (e, (lo, hi), l) ∈ rows /\ lo <= number v <= hi /\ x ∈ l.
Definition attribute : ver -> string -> string -> Prop := listed attribute_rows.
Definition child : ver -> string -> string -> Prop := listed child_rows.
(** All attributes and elements of a document are in the tables; text is found in aliases only. *)
Inductive conforms (v : ver) : xml -> Prop :=
| conforms_elem n a e cs : (forall x, x ∈ a -> attribute v n x.1) -> (forall c, c ∈ cs -> conforms v c) ->
    (forall n' a' e' cs', Elem n' a' e' cs' ∈ cs -> child v n n') -> (forall s, Text s ∈ cs -> n = "alias") -> conforms v (Elem n a e cs)
| conforms_text s : conforms v (Text s)
| conforms_other : conforms v Other.
(** An element of the document. *)
Inductive occurs (x : xml) : xml -> Prop :=
| occurs_here : occurs x x
| occurs_in n a e cs c : c ∈ cs -> occurs x c -> occurs x (Elem n a e cs).

(** What the reference documents of the tests have: (element, versions, attributes); extracted from test/resources, without the attributes and elements that are
    not in the model (the calculated buses, nodeCount, the xnode flows of tie lines, the state of busbar sections in 1.0, the extensions). *)
Definition attested : list (string * list nat * list string) :=
  [("activePowerLimits", [5], ["permanentLimit"]); ("activePowerLimits1", [5], ["permanentLimit"]); ("activePowerLimits2", [5], ["permanentLimit"]);
   ("activePowerLimits3", [5], ["permanentLimit"]); ("apparentPowerLimits", [5], ["permanentLimit"]); ("apparentPowerLimits1", [5], ["permanentLimit"]);
   ("apparentPowerLimits2", [5], ["permanentLimit"]); ("apparentPowerLimits3", [5], ["permanentLimit"]);
   ("battery", [0; 1; 2; 3; 4; 5], ["bus"; "connectableBus"; "id"; "maxP"; "minP"; "p"; "p0"; "q"; "q0"]); ("bus", [0; 1; 2; 3; 4; 5], ["angle"; "id"; "v"]);
   ("busbarSection", [0; 1; 2; 3; 4; 5], ["id"; "name"; "node"]); ("currentLimits", [0; 1; 2; 3; 4; 5], ["permanentLimit"]);
   ("currentLimits1", [0; 1; 2; 3; 4; 5], ["permanentLimit"]); ("currentLimits2", [0; 1; 2; 3; 4; 5], ["permanentLimit"]);
   ("currentLimits3", [0; 1; 2; 3; 4; 5], ["permanentLimit"]);
   ("danglingLine", [0; 1; 2; 3; 4; 5], ["b"; "bus"; "connectableBus"; "g"; "id"; "p"; "p0"; "q"; "q0"; "r"; "x"]);
   ("danglingLine", [3; 4; 5], ["generationMaxP"; "generationMinP"; "generationTargetP"; "generationTargetV"; "generationVoltageRegulationOn"]);
   ("generator", [0; 1; 2; 3; 4; 5], ["bus"; "connectableBus"; "energySource"; "id"; "maxP"; "minP"; "node"; "p"; "q"; "targetP"; "targetQ"; "targetV"; "voltageRegulatorOn"]);
   ("hvdcLine", [0; 1; 2; 3; 4; 5], ["activePowerSetpoint"; "converterStation1"; "converterStation2"; "convertersMode"; "id"; "maxP"; "name"; "nominalV"; "r"]);
   ("internalConnection", [0; 1; 2; 3; 4; 5], ["node1"; "node2"]);
   ("lccConverterStation", [0; 1; 2; 3; 4; 5], ["bus"; "connectableBus"; "id"; "lossFactor"; "name"; "node"; "p"; "powerFactor"; "q"]);
   ("line", [0; 1; 2; 3; 4; 5], ["b1"; "b2"; "bus1"; "bus2"; "connectableBus1"; "connectableBus2"; "g1"; "g2"; "id"; "node1"; "node2"; "p1"; "p2"; "q1"; "q2"; "r"; "voltageLevelId1"; "voltageLevelId2"; "x"]);
   ("load", [0; 1; 2; 3; 4; 5], ["bus"; "connectableBus"; "id"; "loadType"; "node"; "p"; "p0"; "q"; "q0"]);
   ("minMaxReactiveLimits", [0; 1; 2; 3; 4; 5], ["maxQ"; "minQ"]); ("network", [0; 1; 2; 3; 4; 5], ["caseDate"; "forecastDistance"; "id"; "sourceFormat"]);
   ("phaseTapChanger", [0; 1; 2; 3; 4; 5], ["lowTapPosition"; "regulating"; "regulationMode"; "regulationValue"; "tapPosition"; "targetDeadband"]);
   ("phaseTapChanger1", [1; 2; 3; 4; 5], ["lowTapPosition"; "regulationMode"; "tapPosition"]);
   ("phaseTapChanger2", [1; 2; 3; 4; 5], ["lowTapPosition"; "regulationMode"; "tapPosition"]);
   ("phaseTapChanger3", [1; 2; 3; 4; 5], ["lowTapPosition"; "regulationMode"; "tapPosition"]); ("point", [0; 1; 2; 3; 4; 5], ["maxQ"; "minQ"; "p"]);
   ("property", [0; 1; 2; 3; 4; 5], ["name"; "value"]);
   ("ratioTapChanger", [0; 1; 2; 3; 4; 5], ["loadTapChangingCapabilities"; "lowTapPosition"; "regulating"; "tapPosition"; "targetV"]);
   ("ratioTapChanger", [2; 3; 4; 5], ["targetDeadband"]); ("ratioTapChanger1", [1; 2; 3; 4; 5], ["loadTapChangingCapabilities"; "lowTapPosition"; "tapPosition"]);
   ("ratioTapChanger1", [2; 3; 4; 5], ["targetDeadband"]);
   ("ratioTapChanger2", [0; 1; 2; 3; 4; 5], ["loadTapChangingCapabilities"; "lowTapPosition"; "regulating"; "tapPosition"; "targetV"]);
   ("ratioTapChanger2", [2; 3; 4; 5], ["targetDeadband"]);
   ("ratioTapChanger3", [0; 1; 2; 3; 4; 5], ["loadTapChangingCapabilities"; "lowTapPosition"; "regulating"; "tapPosition"; "targetV"]);
   ("ratioTapChanger3", [2; 3; 4; 5], ["targetDeadband"]); ("regulatingTerminal", [0; 1; 2; 3; 4; 5], ["id"; "side"]); ("section", [3; 4; 5], ["b"; "g"]);
   ("shunt", [0; 1; 2], ["bPerSection"; "currentSectionCount"; "maximumSectionCount"]);
   ("shunt", [0; 1; 2; 3; 4; 5], ["bus"; "connectableBus"; "id"; "name"; "node"; "q"]); ("shunt", [2; 3; 4; 5], ["targetDeadband"; "targetV"; "voltageRegulatorOn"]);
   ("shunt", [3; 4; 5], ["sectionCount"]); ("shuntLinearModel", [3; 4; 5], ["bPerSection"; "maximumSectionCount"]);
   ("staticVarCompensator", [0; 1; 2], ["voltageSetPoint"]);
   ("staticVarCompensator", [0; 1; 2; 3; 4; 5], ["bMax"; "bMin"; "bus"; "connectableBus"; "id"; "regulationMode"]);
   ("staticVarCompensator", [3; 4; 5], ["voltageSetpoint"]); ("staticVarCompensator", [4; 5], ["node"; "q"]);
   ("step", [0; 1; 2; 3; 4; 5], ["alpha"; "b"; "g"; "r"; "rho"; "x"]); ("substation", [0; 1; 2; 3; 4; 5], ["country"; "geographicalTags"; "id"; "tso"]);
   ("switch", [0; 1; 2; 3; 4; 5], ["bus1"; "bus2"; "fictitious"; "id"; "kind"; "name"; "node1"; "node2"; "open"; "retained"]);
   ("temporaryLimit", [0; 1; 2; 3; 4; 5], ["acceptableDuration"; "fictitious"; "name"; "value"]); ("terminalRef", [0; 1; 2; 3; 4; 5], ["id"; "side"]);
   ("threeWindingsTransformer", [0; 1; 2; 3; 4; 5], ["b1"; "bus1"; "bus2"; "bus3"; "connectableBus1"; "connectableBus2"; "connectableBus3"; "g1"; "id"; "r1"; "r2"; "r3"; "ratedU1"; "ratedU2"; "ratedU3"; "voltageLevelId1"; "voltageLevelId2"; "voltageLevelId3"; "x1"; "x2"; "x3"]);
   ("threeWindingsTransformer", [1; 2; 3; 4; 5], ["b2"; "b3"; "g2"; "g3"; "ratedU0"]); ("threeWindingsTransformer", [2; 3; 4; 5], ["ratedS1"; "ratedS2"; "ratedS3"]);
   ("tieLine", [0; 1; 2; 3; 4; 5], ["b1_1"; "b1_2"; "b2_1"; "b2_2"; "bus1"; "bus2"; "connectableBus1"; "connectableBus2"; "g1_1"; "g1_2"; "g2_1"; "g2_2"; "id"; "id_1"; "id_2"; "p1"; "p2"; "q1"; "q2"; "r_1"; "r_2"; "ucteXnodeCode"; "voltageLevelId1"; "voltageLevelId2"; "x_1"; "x_2"]);
   ("tieLine", [3; 4; 5], ["fictitious_1"; "fictitious_2"]);
   ("twoWindingsTransformer", [0; 1; 2; 3; 4; 5], ["b"; "bus1"; "bus2"; "connectableBus1"; "connectableBus2"; "g"; "id"; "node1"; "node2"; "p1"; "p2"; "q1"; "q2"; "r"; "ratedU1"; "ratedU2"; "voltageLevelId1"; "voltageLevelId2"; "x"]);
   ("twoWindingsTransformer", [2; 3; 4; 5], ["ratedS"]); ("voltageLevel", [0; 1; 2; 3; 4; 5], ["highVoltageLimit"; "id"; "lowVoltageLimit"; "nominalV"; "topologyKind"]);
   ("vscConverterStation", [0; 1; 2; 3; 4; 5], ["bus"; "connectableBus"; "id"; "lossFactor"; "name"; "node"; "p"; "q"; "reactivePowerSetpoint"; "voltageRegulatorOn"; "voltageSetpoint"])].