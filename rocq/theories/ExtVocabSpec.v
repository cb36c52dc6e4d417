(** The names of the extensions in the documents and the values under each of them: written apart from the tables of the serializers (ExtXml.v). *)
From Verif Require Export ColumnsSpec ExtXmlSpec.

(** ** The columns of the lists of values of ExtXml.v. *)
Definition extension_columns (name : string) : list column :=
  if String.eqb name "detail" then cols ["fixedActivePower"; "fixedReactivePower"; "variableActivePower"; "variableReactivePower"]
  else if String.eqb name "slackTerminal" then cols ["id"; "side"]
  else if String.eqb name "busbarSectionPosition" then cols ["busbarIndex"; "sectionIndex"]
  else if String.eqb name "coordinatedReactiveControl" then cols ["qPercent"]
  else if String.eqb name "threeWindingsTransformerPhaseAngleClock" then cols ["phaseAngleClockLeg2"; "phaseAngleClockLeg3"]
  else if String.eqb name "twoWindingsTransformerPhaseAngleClock" then cols ["phaseAngleClock"]
  else if String.eqb name "hvdcOperatorActivePowerRange" then cols ["fromCS1toCS2"; "fromCS2toCS1"]
  else if String.eqb name "hvdcAngleDroopActivePowerControl" then cols ["p0"; "droop"; "enabled"]
  else if String.eqb name "voltagePerReactivePowerControl" then cols ["slope"]
  else if String.eqb name "activePowerControl" then cols ["participate"; "droop"]
  else if String.eqb name "xnode" then cols ["code"]
  else if String.eqb name "mergedXnode" then cols ["rdp"; "xdp"; "xnodeP1"; "xnodeQ1"; "xnodeP2"; "xnodeQ2"; "code"] ++ [[]; []] (* the names of the lines are not written *)
  else [].
Definition sub_columns (name : string) : list column :=
  if String.eqb name "position" then cols ["name"; "order"; "direction"]
  else if String.eqb name "measurements" then cols ["id"; "type"; "side"; "value"; "standardDeviation"; "valid"]
  else if String.eqb name "discreteMeasurements" then cols ["id"; "type"; "tapChanger"; "valueType"; "value"; "valid"]
  else [].
(** ** The namespaces: name, versions of the network, prefix, URI. *)
Definition itesla_ns (s : string) : string := "http://www.itesla_project.eu/schema/iidm/ext/" +:+ s +:+ "/1_0".
Definition powsybl_ns (s : string) : string := "http://www.powsybl.org/schema/iidm/ext/" +:+ s.
Definition namespace_rows : list (string * (nat * nat) * string * string) :=
  [("detail", (0, 5), "ld", itesla_ns "load_detail"); ("busbarSectionPosition", (0, 5), "bbsp", itesla_ns "busbarsectionposition"); ("position", (0, 5), "cp", itesla_ns "connectable_position");
   ("hvdcOperatorActivePowerRange", (0, 5), "hopr", itesla_ns "hvdc_operator_active_power_range"); ("activePowerControl", (0, 5), "apc", itesla_ns "active_power_control");
   ("hvdcAngleDroopActivePowerControl", (0, 5), "hapc", itesla_ns "hvdc_angle_droop_active_power_control"); ("entsoeArea", (0, 5), "ea", itesla_ns "entsoe_area"); ("xnode", (0, 5), "xn", itesla_ns "xnode");
   ("mergedXnode", (0, 5), "mxn", itesla_ns "merged_xnode"); ("branchStatus", (0, 5), "bs", powsybl_ns "branch_status/1_0");
   ("coordinatedReactiveControl", (0, 5), "crc", powsybl_ns "coordinated_reactive_control/1_0"); ("measurements", (0, 5), "m", powsybl_ns "measurements/1_0");
   ("threeWindingsTransformerPhaseAngleClock", (0, 5), "threewtpac", powsybl_ns "three_windings_transformer_phase_angle_clock/1_0");
   ("twoWindingsTransformerPhaseAngleClock", (0, 5), "twowtpac", powsybl_ns "two_windings_transformer_phase_angle_clock/1_0");
   ("voltagePerReactivePowerControl", (0, 5), "vprpc", powsybl_ns "voltage_per_reactive_power_control/1_0"); ("discreteMeasurements", (0, 5), "dm", powsybl_ns "discrete_measurements/1_0");
   ("slackTerminal", (3, 3), "slt", powsybl_ns "slack_terminal/1_0"); ("slackTerminal", (4, 4), "slt", powsybl_ns "slack_terminal/1_1"); ("slackTerminal", (5, 5), "slt", powsybl_ns "slack_terminal/1_2")].
Definition namespace_in (v : ver) (name prefix uri : string) : Prop := exists lo hi, (name, (lo, hi), prefix, uri) ∈ namespace_rows /\ lo <= number v <= hi.

(** ** What the element of an extension says. *)
Definition textual (name : string) : Prop := name = "branchStatus" \/ name = "entsoeArea".
(** A feeder, a measurement: its values, its properties. *)
Definition sub_told (name : string) (c : child) (z : xml) : Prop :=
  exists attrs e ps, z = Elem (ch_name c) attrs e ps /\ tells V1_5 (sub_columns name) (ch_fields c) attrs /\
  (forall k w, ch_props c !! k = Some w <-> Elem "property" [("name", k); ("value", w)] true [] ∈ ps) /\ forall z', z' ∈ ps -> exists k w, z' = Elem "property" [("name", k); ("value", w)] true [].
Definition extension_told (name : string) (e : ext) (attrs : list (string * string)) (kids : list xml) : Prop :=
  tells V1_5 (extension_columns name) (e_fields e) attrs /\ (textual name -> kids = [Text (e_text e)]) /\ (~ textual name -> Forall2 (sub_told name) (e_children e) kids).

(** What the reference documents of the tests have: names, prefixes and URIs of the namespaces, attributes, attributes of the sub-elements. *)
Definition attested_ext : list (string * (string * string) * list string * list string) :=
  [("activePowerControl", ("apc", "http://www.itesla_project.eu/schema/iidm/ext/active_power_control/1_0"), ["droop"; "participate"], []);
   ("branchStatus", ("bs", "http://www.powsybl.org/schema/iidm/ext/branch_status/1_0"), [], []);
   ("busbarSectionPosition", ("bbsp", "http://www.itesla_project.eu/schema/iidm/ext/busbarsectionposition/1_0"), ["busbarIndex"; "sectionIndex"], []);
   ("coordinatedReactiveControl", ("crc", "http://www.powsybl.org/schema/iidm/ext/coordinated_reactive_control/1_0"), ["qPercent"], []);
   ("detail", ("ld", "http://www.itesla_project.eu/schema/iidm/ext/load_detail/1_0"), ["fixedActivePower"; "fixedReactivePower"; "variableActivePower"; "variableReactivePower"], []);
   ("discreteMeasurements", ("dm", "http://www.powsybl.org/schema/iidm/ext/discrete_measurements/1_0"), [], ["id"; "tapChanger"; "type"; "valid"; "value"; "valueType"]);
   ("entsoeArea", ("ea", "http://www.itesla_project.eu/schema/iidm/ext/entsoe_area/1_0"), [], []);
   ("hvdcAngleDroopActivePowerControl", ("hapc", "http://www.itesla_project.eu/schema/iidm/ext/hvdc_angle_droop_active_power_control/1_0"), ["droop"; "enabled"; "p0"], []);
   ("hvdcOperatorActivePowerRange", ("hopr", "http://www.itesla_project.eu/schema/iidm/ext/hvdc_operator_active_power_range/1_0"), ["fromCS1toCS2"; "fromCS2toCS1"], []);
   ("measurements", ("m", "http://www.powsybl.org/schema/iidm/ext/measurements/1_0"), [], ["id"; "side"; "standardDeviation"; "type"; "valid"; "value"]);
   ("mergedXnode", ("mxn", "http://www.itesla_project.eu/schema/iidm/ext/merged_xnode/1_0"), ["code"; "rdp"; "xdp"; "xnodeP1"; "xnodeP2"; "xnodeQ1"; "xnodeQ2"], []);
   ("position", ("cp", "http://www.itesla_project.eu/schema/iidm/ext/connectable_position/1_0"), [], ["direction"; "name"; "order"]);
   ("slackTerminal", ("slt", "http://www.powsybl.org/schema/iidm/ext/slack_terminal/1_2"), ["id"; "side"], []);
   ("threeWindingsTransformerPhaseAngleClock", ("threewtpac", "http://www.powsybl.org/schema/iidm/ext/three_windings_transformer_phase_angle_clock/1_0"), ["phaseAngleClockLeg2"; "phaseAngleClockLeg3"], []);
   ("twoWindingsTransformerPhaseAngleClock", ("twowtpac", "http://www.powsybl.org/schema/iidm/ext/two_windings_transformer_phase_angle_clock/1_0"), ["phaseAngleClock"], []);
   ("voltagePerReactivePowerControl", ("vprpc", "http://www.powsybl.org/schema/iidm/ext/voltage_per_reactive_power_control/1_0"), ["slope"], []);
   ("xnode", ("xn", "http://www.itesla_project.eu/schema/iidm/ext/xnode/1_0"), ["code"], [])].
