(** Writing a network as XML and reading it back (src/iidm/converter/xml).

    The network is represented by what the converter sees of it: a tree of objects with their attributes and their parts (limits, tap changers,
    reactive limits, regulating terminals, models of shunt compensators). Not modelled here: extensions, the voltages of calculated buses, the
    attribute nodeCount (written until V1_1, never read), the attributes xnodeP and xnodeQ of the halves of tie lines (written until V1_4, read
    only to be compared in a log message), the validity checks of the adders on the values, filters (everything is exported) and topology
    levels other than the level of the network; the option withBranchSV is on.

    Numbers are represented by their texts: a double by the text to_string gives for it ([None]: NaN), an integer or an enumeration by its text.
    That the text of a double denotes it is in DoubleText.v (C54). *)
From stdpp Require Export gmap.
From Verif Require Export Xml Anonymizer.

(** * Versions: IidmXmlVersion.cpp. *)
Inductive ver := V1_0 | V1_1 | V1_2 | V1_3 | V1_4 | V1_5.
#[global] Instance ver_eq : EqDecision ver. Proof. solve_decision. Defined.
(** all: 62-73. *)
Definition all_versions : list ver := [V1_0; V1_1; V1_2; V1_3; V1_4; V1_5].
(** std::find: the position. *)
Fixpoint position (v : ver) (l : list ver) : nat := match l with [] => 0 | w :: l' => if decide (w = v) then 0 else S (position v l') end.
(** 35-60. *)
Definition ver_lt (v w : ver) : bool := position v all_versions <? position w all_versions.
Definition ver_le (v w : ver) : bool := position v all_versions <=? position w all_versions.
Definition ver_gt (v w : ver) : bool := negb (ver_le v w).
Definition ver_ge (v w : ver) : bool := negb (ver_lt v w).
(** runFromMinimumVersion, runUntilMaximumVersion: IidmXmlUtil.cpp:127-137: whether the runnable runs. *)
Definition run_from (minv v : ver) : bool := ver_ge v minv.
Definition run_until (maxv v : ver) : bool := ver_le v maxv.
(** V1_0 ... V1_5: 122-150 (domain and numbers); toString: 115-119. *)
Definition domain (v : ver) : string := match v with V1_0 => "itesla_project.eu" | _ => "powsybl.org" end.
Definition ver_text (sep : string) (v : ver) : string :=
  "1" +:+ sep +:+ match v with V1_0 => "0" | V1_1 => "1" | V1_2 => "2" | V1_3 => "3" | V1_4 => "4" | V1_5 => "5" end.
(** getNamespaceUri: 95-97. *)
Definition namespace_uri (v : ver) : string := "http://www." +:+ domain v +:+ "/schema/iidm/" +:+ ver_text "_" v.
(** of: 105-113. *)
Definition version_of (s sep : string) : result ver :=
  match list_find (fun v => ver_text sep v = s) all_versions with Some (_, v) => Ok v | None => Throw "Version is not supported." end.
(** substr(find_last_of('/') + 1). *)
Fixpoint after_slash (s acc : string) : string :=
  match s with EmptyString => acc | String c s' => if Ascii.eqb c "/"%char then after_slash s' s' else after_slash s' acc end.
(** fromNamespaceURI: 79-89. *)
Definition from_uri (uri : string) : result ver :=
  let! v := version_of (after_slash uri uri) "_" in
  if String.eqb uri (namespace_uri v) then Ok v else Throw "Namespace is not supported".

(** * The network. *)
Inductive cls := CNetwork | CSubstation | CVoltageLevel | CBus | CBusbarSection | CBusSwitch | CNodeSwitch
               | CLoad | CGenerator | CBattery | CShunt | CDanglingLine | CSvc | CVsc | CLcc | CTwoWt | CThreeWt | CLine | CTieLine | CHvdcLine.
#[global] Instance cls_eq : EqDecision cls. Proof. solve_decision. Defined.
Definition all_classes : list cls :=
  [CNetwork; CSubstation; CVoltageLevel; CBus; CBusbarSection; CBusSwitch; CNodeSwitch;
   CLoad; CGenerator; CBattery; CShunt; CDanglingLine; CSvc; CVsc; CLcc; CTwoWt; CThreeWt; CLine; CTieLine; CHvdcLine].
(** Values of attributes: doubles, booleans, strings, optional strings, sets of strings (in their order). *)
Inductive fval := VNum (d : option string) | VBool (b : bool) | VText (s : string) | VOpt (o : option string) | VTags (l : list string).
#[global] Instance fval_eq : EqDecision fval. Proof. solve_decision. Defined.
(** Parts of an object, written as sub-elements: loading limits (current, active power or apparent power), reactive capability curves, minimum
    and maximum reactive limits, ratio and phase tap changers, regulating terminals, linear and non linear models of shunt compensators. *)
Inductive pkind := PLimits | PCurve | PMinMax | PRatio | PPhase | PTerminal | PLinear | PNonLinear.
#[global] Instance pkind_eq : EqDecision pkind. Proof. solve_decision. Defined.
(** The attributes of a part in the order of the table of its kind ([pschema]); its own sub-elements, each with its attributes ([cschema]):
    temporary limits, points, the regulating terminal and the steps of a tap changer, sections. *)
Record part := Part { p_kind : pkind; p_fields : list fval; p_children : list (string * list fval) }.
#[global] Instance part_eq : EqDecision part. Proof. solve_decision. Defined.
(** An identifiable: its attributes in the order of the table of its class ([schema]), its aliases with their types ("": none), its
    properties, its parts ([slots]). The order in which std::map and std::set list aliases and properties is replaced by that of map_to_list. *)
Record leaf := Leaf { l_cls : cls; l_id : string; l_name : string; l_fict : bool; l_aliases : gmap string string; l_props : gmap string string; l_fields : list fval; l_parts : gmap string part }.
(** A voltage level: [v_nb]: node/breaker topology; the equipments, class after class. *)
Record vlevel := VLevel { v_leaf : leaf; v_nb : bool; v_buses : list leaf; v_sections : list leaf; v_switches : list leaf; v_ics : list (string * string); v_eqs : list leaf }.
(** A substation: its voltage levels, its two windings transformers, its three windings transformers. *)
Record substation := Sub { s_leaf : leaf; s_vls : list vlevel; s_twts : list leaf; s_thwts : list leaf }.
(** The network: [n_lines]: lines and tie lines. *)
Record network := Net { n_leaf : leaf; n_subs : list substation; n_lines : list leaf; n_hvdcs : list leaf }.
(** All the objects of a network. *)
Definition vl_leaves (x : vlevel) : list leaf := v_leaf x :: v_buses x ++ v_sections x ++ v_switches x ++ v_eqs x.
Definition sub_leaves (x : substation) : list leaf := s_leaf x :: mjoin (vl_leaves <$> s_vls x) ++ s_twts x ++ s_thwts x.
Definition net_leaves (n : network) : list leaf := n_leaf n :: mjoin (sub_leaves <$> n_subs n) ++ n_lines n ++ n_hvdcs n.

(** * Attributes: how each is written and read, in which versions. *)
(** WNum: writeAttribute / writeOptionalAttribute(double), omitted if NaN (XmlStreamWriter.cpp); WBool, WText: always written;
    WBoolUnless d: writeOptionalAttribute(bool, d); WNonEmpty: written if not empty; WOpt: written if present; WAnon*: anonymized;
    WBoolIf i: written if true, or if field [i] is true or a mode other than FIXED_TAP (AbstractTransformerXml.hxx:196-198, 225-227). *)
Inductive wkind := WNum | WBool | WBoolUnless (d : bool) | WText | WNonEmpty | WOpt | WAnonOpt | WAnonText | WAnonNonEmpty | WTags | WBoolIf (i : nat).
(** RNum, RText: getAttributeValue, throws if missing; RNat, RBool: same for integers and booleans, where the missing attribute is a null
    pointer (XmlStreamReader.cpp:60-94); R*Or, ROpt: getOptionalAttributeValue; RRef: mandatory identifier of an existing object, not anonymized;
    RAnon, RAnonOpt: identifier of an existing object, deanonymized; RAnonMand, RAnonText: deanonymized, mandatory or not; RTags: SubstationXml.cpp:55-63. *)
Inductive rkind := RNum | RNumOpt | RBool | RBoolOr (d : bool) | RText | RNat | RTextOr (d : string) | ROpt | RRef | RAnon | RAnonOpt | RAnonMand | RAnonText | RTags.
Record fdesc := FD { fd_wattr : ver -> option string; fd_w : wkind; fd_rattr : ver -> option string; fd_r : rkind; fd_default : fval }.
Definition always (a : string) : ver -> option string := fun _ => Some a.
Definition never : ver -> option string := fun _ => None.
Definition from (minv : ver) (a : string) : ver -> option string := fun v => if run_from minv v then Some a else None.
Definition until (maxv : ver) (a : string) : ver -> option string := fun v => if run_until maxv v then Some a else None.
Definition num_field (a : string) : fdesc := FD (always a) WNum (always a) RNum (VNum None).
Definition opt_num_field (a : string) : fdesc := FD (always a) WNum (always a) RNumOpt (VNum None).
Definition text_field (a : string) : fdesc := FD (always a) WText (always a) RText (VText "").
Definition nat_field (a : string) : fdesc := FD (always a) WText (always a) RNat (VText "").
Definition bool_field (a : string) : fdesc := FD (always a) WBool (always a) RBool (VBool false).
Definition opt_field (a : string) : fdesc := FD (always a) WOpt (always a) ROpt (VOpt None).
Definition ref_field (a : string) : fdesc := FD (always a) WAnonOpt (always a) RAnonOpt (VOpt None).
Definition mand_ref_field (a : string) : fdesc := FD (always a) WAnonOpt (always a) RAnon (VOpt None).
(** writeNodeOrBus / readNodeOrBus for injections: AbstractConnectableXml.hxx:94-109, 133-140, 171-196. *)
Definition connection_fields : list fdesc := [opt_field "node"; ref_field "bus"; ref_field "connectableBus"].
(** The same for side [i] of branches: 66-91, 133-140, 171-196. *)
Definition side_fields (i : string) : list fdesc :=
  [opt_field ("node" +:+ i); ref_field ("bus" +:+ i); ref_field ("connectableBus" +:+ i); mand_ref_field ("voltageLevelId" +:+ i)].
(** writePQ / readPQ: 127-131, 199-202. *)
Definition pq_fields (i : string) : list fdesc := [opt_num_field ("p" +:+ i); opt_num_field ("q" +:+ i)].
(** StaticVarCompensatorXml.cpp:39-40, 75-76: the name depends on the version. *)
Definition svc_name (old new : string) : ver -> option string := fun v => Some (if ver_le v V1_2 then old else new).
(** Attributes with a minimum version and a default value: writeAttributeFromMinimumVersion (IidmXmlUtil.cpp:139-156), runFromMinimumVersion. *)
Definition num_from (minv : ver) (a : string) (d : option string) : fdesc := FD (from minv a) WNum (from minv a) RNum (VNum d).
Definition opt_num_from (minv : ver) (a : string) : fdesc := FD (from minv a) WNum (from minv a) RNumOpt (VNum None).
(** TieLineXml.cpp:44-67 (readHalf), 124-144 (writeHalf), without xnodeP and xnodeQ. *)
Definition half_fields (i : string) : list fdesc :=
  [FD (always ("id_" +:+ i)) WAnonText (always ("id_" +:+ i)) RAnonMand (VText ""); FD (always ("name_" +:+ i)) WAnonNonEmpty (always ("name_" +:+ i)) RAnonText (VText "");
   num_field ("r_" +:+ i); num_field ("x_" +:+ i); num_field ("g1_" +:+ i); num_field ("b1_" +:+ i); num_field ("g2_" +:+ i); num_field ("b2_" +:+ i);
   FD (from V1_3 ("fictitious_" +:+ i)) (WBoolUnless false) (from V1_3 ("fictitious_" +:+ i)) (RBoolOr false) (VBool false)].

(** The attributes written by writeRootElementAttributes and read by readRootElementAttributes. *)
Definition schema (c : cls) : list fdesc :=
  match c with
  | CNetwork => (* NetworkXml.cpp:213-216, 304-307 *)
    [text_field "caseDate"; FD (always "forecastDistance") WText (always "forecastDistance") (RTextOr "0") (VText "0"); text_field "sourceFormat"]
  | CSubstation => (* SubstationXml.cpp:42-65, 81-100 *)
    [opt_field "country"; FD (always "tso") WAnonNonEmpty (always "tso") RAnonText (VText ""); FD (always "geographicalTags") WTags (always "geographicalTags") RTags (VTags [])]
  | CVoltageLevel => (* VoltageLevelXml.cpp:111-121, 262-269, without topologyKind *)
    [num_field "nominalV"; opt_num_field "lowVoltageLimit"; opt_num_field "highVoltageLimit"]
  | CBus => (* BusXml.cpp:31-38, 46-49 *)
    [opt_num_field "v"; opt_num_field "angle"]
  | CBusbarSection => (* BusbarSectionXml.cpp:35-58 *)
    [nat_field "node"]
  | CBusSwitch => (* AbstractSwitchXml.hxx:38-46, BusBreakerViewSwitchXml.cpp:32-53; kind and retained are written but not read *)
    [FD (always "kind") WText never RText (VText "BREAKER"); FD (always "retained") WBool never RBool (VBool true); bool_field "open"; mand_ref_field "bus1"; mand_ref_field "bus2"]
  | CNodeSwitch => (* AbstractSwitchXml.hxx:38-46, NodeBreakerViewSwitchXml.cpp:27-50 *)
    [text_field "kind"; bool_field "retained"; bool_field "open"; nat_field "node1"; nat_field "node2"]
  | CLoad => (* LoadXml.cpp:38-50, 58-64 *)
    [FD (always "loadType") WText (always "loadType") (RTextOr "UNDEFINED") (VText "UNDEFINED"); num_field "p0"; num_field "q0"] ++ connection_fields ++ pq_fields ""
  | CGenerator => (* GeneratorXml.cpp:37-59, 78-89 *)
    [text_field "energySource"; num_field "minP"; num_field "maxP"; opt_num_field "ratedS"; bool_field "voltageRegulatorOn"; num_field "targetP"; opt_num_field "targetV"; opt_num_field "targetQ"]
    ++ connection_fields ++ pq_fields ""
  | CBattery => (* BatteryXml.cpp:33-46, 59-66 *)
    [num_field "p0"; num_field "q0"; num_field "minP"; num_field "maxP"] ++ connection_fields ++ pq_fields ""
  | CShunt => (* ShuntCompensatorXml.cpp:39-62, 155-174. The linear model in memory: bPerSection, gPerSection, maximumSectionCount (no value if the
                 model is not linear); gPerSection is written in the element shuntLinearModel only. *)
    [FD (until V1_2 "bPerSection") WNum (until V1_2 "bPerSection") RNum (VNum None); FD never WNum never RNumOpt (VNum None);
     FD (until V1_2 "maximumSectionCount") WText (until V1_2 "maximumSectionCount") RNat (VText "");
     FD (svc_name "currentSectionCount" "sectionCount") WText (svc_name "currentSectionCount" "sectionCount") RNat (VText "");
     FD (from V1_2 "voltageRegulatorOn") WBool (from V1_2 "voltageRegulatorOn") (RBoolOr false) (VBool false); opt_num_from V1_2 "targetV"; opt_num_from V1_2 "targetDeadband"]
    ++ connection_fields ++ pq_fields ""
  | CDanglingLine => (* DanglingLineXml.cpp:37-75, 101-137; the attributes of the generation have no value if there is none *)
    [num_field "p0"; num_field "q0"; num_field "r"; num_field "x"; num_field "g"; num_field "b";
     opt_num_from V1_3 "generationMinP"; opt_num_from V1_3 "generationMaxP";
     FD (from V1_3 "generationVoltageRegulationOn") WOpt (from V1_3 "generationVoltageRegulationOn") ROpt (VOpt None);
     opt_num_from V1_3 "generationTargetP"; opt_num_from V1_3 "generationTargetV"; opt_num_from V1_3 "generationTargetQ"; FD (always "ucteXnodeCode") WNonEmpty (always "ucteXnodeCode") (RTextOr "") (VText "")]
    ++ connection_fields ++ pq_fields ""
  | CSvc => (* StaticVarCompensatorXml.cpp:37-54, 71-81 *)
    [num_field "bMin"; num_field "bMax";
     FD (svc_name "voltageSetPoint" "voltageSetpoint") WNum (svc_name "voltageSetPoint" "voltageSetpoint") RNumOpt (VNum None);
     FD (svc_name "reactivePowerSetPoint" "reactivePowerSetpoint") WNum (svc_name "reactivePowerSetPoint" "reactivePowerSetpoint") RNumOpt (VNum None);
     text_field "regulationMode"] ++ connection_fields ++ pq_fields ""
  | CVsc => (* VscConverterStationXml.cpp:33-47, 60-67 *)
    [bool_field "voltageRegulatorOn"; num_field "lossFactor"; opt_num_field "voltageSetpoint"; opt_num_field "reactivePowerSetpoint"] ++ connection_fields ++ pq_fields ""
  | CLcc => (* LccConverterStationXml.cpp:31-41, 49-54 *)
    [num_field "lossFactor"; opt_num_field "powerFactor"] ++ connection_fields ++ pq_fields ""
  | CLine => (* LineXml.cpp:35-53, 79-92 *)
    [num_field "r"; num_field "x"; num_field "g1"; num_field "b1"; num_field "g2"; num_field "b2"] ++ side_fields "1" ++ side_fields "2" ++ pq_fields "1" ++ pq_fields "2"
  | CTwoWt => (* TwoWindingsTransformerXml.cpp:35-56, 86-100; AbstractTransformerXml.hxx:88-91, 210-214: ratedS is read in every version *)
    [num_field "r"; num_field "x"; num_field "g"; num_field "b"; num_field "ratedU1"; num_field "ratedU2"; FD (from V1_2 "ratedS") WNum (always "ratedS") RNumOpt (VNum None)]
    ++ side_fields "1" ++ side_fields "2" ++ pq_fields "1" ++ pq_fields "2"
  | CThreeWt => (* ThreeWindingsTransformerXml.cpp:39-99, 173-206 *)
    [num_field "r1"; num_field "x1"; num_field "g1"; num_field "b1"; num_field "ratedU1"; opt_num_from V1_2 "ratedS1";
     num_field "r2"; num_field "x2"; num_from V1_1 "g2" (Some "0"); num_from V1_1 "b2" (Some "0"); num_field "ratedU2"; opt_num_from V1_2 "ratedS2";
     num_field "r3"; num_field "x3"; num_from V1_1 "g3" (Some "0"); num_from V1_1 "b3" (Some "0"); num_field "ratedU3"; opt_num_from V1_2 "ratedS3";
     num_from V1_1 "ratedU0" None]
    ++ side_fields "1" ++ side_fields "2" ++ side_fields "3" ++ pq_fields "1" ++ pq_fields "2" ++ pq_fields "3"
  | CTieLine => (* TieLineXml.cpp:44-90, 124-156 *)
    [FD (always "ucteXnodeCode") WText (always "ucteXnodeCode") (RTextOr "") (VText "")] ++ side_fields "1" ++ side_fields "2" ++ pq_fields "1" ++ pq_fields "2"
    ++ half_fields "1" ++ half_fields "2"
  | CHvdcLine => (* HvdcLineXml.cpp:33-50, 58-66 *)
    [num_field "r"; num_field "nominalV"; text_field "convertersMode"; num_field "activePowerSetpoint"; num_field "maxP";
     FD (always "converterStation1") WOpt (always "converterStation1") RRef (VOpt None); FD (always "converterStation2") WOpt (always "converterStation2") RRef (VOpt None)]
  end.
(** getRootElementName. *)
Definition tag (c : cls) : string :=
  match c with
  | CNetwork => "network" | CSubstation => "substation" | CVoltageLevel => "voltageLevel" | CBus => "bus" | CBusbarSection => "busbarSection"
  | CBusSwitch | CNodeSwitch => "switch" | CLoad => "load" | CGenerator => "generator" | CBattery => "battery" | CDanglingLine => "danglingLine"
  | CSvc => "staticVarCompensator" | CVsc => "vscConverterStation" | CLcc => "lccConverterStation" | CLine => "line" | CTieLine => "tieLine"
  | CShunt => "shunt" | CTwoWt => "twoWindingsTransformer" | CThreeWt => "threeWindingsTransformer" | CHvdcLine => "hvdcLine"
  end.
(** The name given to readUntilEndElement by readSubElements: that of the element, except for buses (BusXml.cpp:41). *)
Definition until_name (c : cls) : string := match c with CBus => "substation" | _ => tag c end.
Definition is_switch (c : cls) : bool := match c with CBusSwitch | CNodeSwitch => true | _ => false end.
(** The classes read inside a voltage level (VoltageLevelXml.cpp:123-150), in the order in which they are written (296-303). *)
Definition eq_classes : list cls := [CGenerator; CBattery; CLoad; CShunt; CDanglingLine; CSvc; CVsc; CLcc].

(** * Parts: their attributes and sub-elements, where each is written and read. *)
(** AbstractConnectableXml.hxx:42-63, 169-186 (loading limits; no value: NaN); ReactiveLimitsXml.cpp:31-93; AbstractTransformerXml.hxx:44-84,
    106-143, 157-172, 186-207, 217-243, 256-265 (tap changers); TerminalRefXml.cpp:33-100; ShuntCompensatorXml.cpp:69-105, 132-153 (regulating terminal, models). *)
Definition pschema (k : pkind) : list fdesc :=
  match k with
  | PLimits => [opt_num_field "permanentLimit"]
  | PCurve | PNonLinear => []
  | PMinMax => [num_field "minQ"; num_field "maxQ"]
  | PRatio => [nat_field "lowTapPosition"; nat_field "tapPosition"; opt_num_field "targetDeadband"; bool_field "loadTapChangingCapabilities";
               FD (always "regulating") (WBoolIf 3) (always "regulating") (RBoolOr false) (VBool false); opt_num_field "targetV"]
  | PPhase => [nat_field "lowTapPosition"; nat_field "tapPosition"; opt_num_field "targetDeadband"; text_field "regulationMode";
               FD (always "regulating") (WBoolIf 3) (always "regulating") (RBoolOr false) (VBool false); opt_num_field "regulationValue"]
  | PTerminal => [mand_ref_field "id"; opt_field "side"]
  | PLinear => [num_field "bPerSection"; opt_num_field "gPerSection"; nat_field "maximumSectionCount"]
  end.
(** The sub-elements of a part. temporaryLimit: no duration and no value stand for the largest ones, which are omitted; step: r, x, g, b, rho and
    for phase tap changers alpha (AbstractTransformerXml.hxx:147-154, 247-253). *)
Definition cschema (k : pkind) (n : string) : option (list fdesc) :=
  let step := [num_field "r"; num_field "x"; num_field "g"; num_field "b"; num_field "rho"] in
  match k with
  | PLimits => if String.eqb n "temporaryLimit" then
      Some [text_field "name"; opt_field "acceptableDuration"; opt_num_field "value"; FD (always "fictitious") (WBoolUnless false) (always "fictitious") (RBoolOr false) (VBool false)] else None
  | PCurve => if String.eqb n "point" then Some [num_field "p"; num_field "minQ"; num_field "maxQ"] else None
  | PRatio => if String.eqb n "terminalRef" then Some (pschema PTerminal) else if String.eqb n "step" then Some step else None
  | PPhase => if String.eqb n "terminalRef" then Some (pschema PTerminal) else if String.eqb n "step" then Some (step ++ [num_field "alpha"]) else None
  | PNonLinear => if String.eqb n "section" then Some [num_field "b"; num_field "g"] else None
  | PMinMax | PTerminal | PLinear => None
  end.
(** A place for a part in an object: its key in [l_parts], the names of the elements by which it is written for each kind of part;
    [sl_assert]: the version asserted by the writer if the part is present (assertMinimumVersion...), [sl_run]: the first version in which it is
    written (runFromMinimumVersion), [sl_rassert]: the version asserted by the reader. *)
Record slot := Slot { sl_key : string; sl_kinds : list (string * pkind); sl_assert : ver; sl_run : ver; sl_rassert : ver }.
Definition reactive_slot (run : ver) : slot := Slot "reactiveLimits" [("reactiveCapabilityCurve", PCurve); ("minMaxReactiveLimits", PMinMax)] V1_0 run run.
(** LineXml.cpp:56-76, 95-116 and the same in the other classes. *)
Definition limit_slots (i : string) : list slot :=
  [Slot ("activePowerLimits" +:+ i) [("activePowerLimits" +:+ i, PLimits)] V1_5 V1_5 V1_5;
   Slot ("apparentPowerLimits" +:+ i) [("apparentPowerLimits" +:+ i, PLimits)] V1_5 V1_5 V1_5;
   Slot ("currentLimits" +:+ i) [("currentLimits" +:+ i, PLimits)] V1_0 V1_0 V1_0].
Definition tap_slot (n : string) (k : pkind) (asserted : ver) : slot := Slot n [(n, k)] asserted V1_0 asserted.
(** The sub-elements written by writeSubElements and read by readSubElements, in the order of writing. *)
Definition slots (c : cls) : list slot :=
  match c with
  | CGenerator => (* GeneratorXml.cpp:61-76, 91-96 *) [Slot "regulatingTerminal" [("regulatingTerminal", PTerminal)] V1_0 V1_0 V1_0; reactive_slot V1_0]
  | CBattery => (* BatteryXml.cpp:48-57, 68-70 *) [reactive_slot V1_0]
  | CVsc => (* VscConverterStationXml.cpp:49-58, 69-71 *) [reactive_slot V1_0]
  | CShunt => (* ShuntCompensatorXml.cpp:68-110, 176-182; the assertion for a non linear model (156-158) is in [unsupported] *)
    [Slot "model" [("shuntLinearModel", PLinear); ("shuntNonLinearModel", PNonLinear)] V1_0 V1_3 V1_3;
     Slot "regulatingTerminal" [("regulatingTerminal", PTerminal)] V1_2 V1_2 V1_0]
  | CDanglingLine => (* DanglingLineXml.cpp:77-99, 139-154 *) reactive_slot V1_3 :: limit_slots ""
  | CSvc => (* StaticVarCompensatorXml.cpp:56-69, 83-88; the writer writes the element even when it logged an error *)
    [Slot "regulatingTerminal" [("regulatingTerminal", PTerminal)] V1_1 V1_0 V1_1]
  | CTwoWt => (* TwoWindingsTransformerXml.cpp:58-84, 102-131 *)
    tap_slot "ratioTapChanger" PRatio V1_0 :: tap_slot "phaseTapChanger" PPhase V1_0 :: limit_slots "1" ++ limit_slots "2"
  | CThreeWt => (* ThreeWindingsTransformerXml.cpp:101-159, 208-239; written even when an error was logged *)
    [tap_slot "ratioTapChanger1" PRatio V1_1; tap_slot "phaseTapChanger1" PPhase V1_1; tap_slot "ratioTapChanger2" PRatio V1_0; tap_slot "phaseTapChanger2" PPhase V1_1;
     tap_slot "ratioTapChanger3" PRatio V1_0; tap_slot "phaseTapChanger3" PPhase V1_1] ++ limit_slots "1" ++ limit_slots "2" ++ limit_slots "3"
  | CLine => (* LineXml.cpp:55-77, 94-117 *) limit_slots "1" ++ limit_slots "2"
  | CTieLine => (* TieLineXml.cpp:92-122, 158-181 *) limit_slots "1" ++ limit_slots "2"
  | _ => []
  end.

(** * Strings. *)
Definition to_str (s : string) : str := String.list_ascii_of_string s.
Definition of_str (s : str) : string := String.string_of_list_ascii s.
Definition bool_text (b : bool) : string := if b then "true" else "false".
(** boost::iequals(s, "true"). *)
Definition lower (a : ascii) : ascii := let n := nat_of_ascii a in if (65 <=? n) && (n <=? 90) then ascii_of_nat (n + 32) else a.
Definition is_true_text (s : string) : bool := bool_decide (map lower (to_str s) = to_str "true").
(** boost::algorithm::join(tags, ","). *)
Fixpoint join_comma (l : list str) : str := match l with [] => [] | [s] => s | s :: l' => s ++ ","%char :: join_comma l' end.
(** The anonymizer of the context: SimpleAnonymizer or FakeAnonymizer ([None]). *)
Definition anon (s : string) (m : option mapping) : string * option mapping :=
  match m with None => (s, None) | Some m => let '(c, m') := anonymize (to_str s) m in (of_str c, Some m') end.
Definition dean (mf : option mapping) (c : string) : result string :=
  match mf with None => Ok c | Some m => let! s := deanonymize (to_str c) m in Ok (of_str s) end.

(** * Writing. *)
Section wmap.
  Context {A B M : Type} (f : A -> M -> B * M).
  Fixpoint wmap (l : list A) (m : M) : list B * M :=
    match l with [] => ([], m) | x :: l' => let '(y, m1) := f x m in let '(ys, m2) := wmap l' m1 in (y :: ys, m2) end.
End wmap.
Section wmapr.
  Context {A B M : Type} (f : A -> M -> result (B * M)).
  Fixpoint wmapr (l : list A) (m : M) : result (list B * M) :=
    match l with [] => Ok ([], m) | x :: l' => letp! (y, m1) := f x m in letp! (ys, m2) := wmapr l' m1 in Ok (y :: ys, m2) end.
End wmapr.
(** Whether field [i] is a true boolean or a mode other than FIXED_TAP. *)
Definition flagged (xs : list fval) (i : nat) : bool :=
  match xs !! i with Some (VBool b) => b | Some (VText s) => negb (String.eqb s "FIXED_TAP") | _ => false end.
(** [xs]: the values of all the attributes of the object. *)
Definition write_field (v : ver) (xs : list fval) (d : fdesc) (x : fval) (m : option mapping) : list (string * string) * option mapping :=
  match fd_wattr d v with
  | None => ([], m)
  | Some a =>
    match fd_w d, x with
    | WNum, VNum (Some t) => ([(a, t)], m)
    | WBool, VBool b => ([(a, bool_text b)], m)
    | WBoolUnless d, VBool b => (if Bool.eqb b d then [] else [(a, bool_text b)], m)
    | WText, VText s => ([(a, s)], m)
    | WNonEmpty, VText s => (if String.eqb s "" then [] else [(a, s)], m)
    | WOpt, VOpt (Some s) => ([(a, s)], m)
    | WAnonOpt, VOpt (Some s) => let '(c, m') := anon s m in ([(a, c)], m')
    | WAnonText, VText s => let '(c, m') := anon s m in ([(a, c)], m')
    | WBoolIf i, VBool b => (if b || flagged xs i then [(a, bool_text b)] else [], m)
    | WAnonNonEmpty, VText s => if String.eqb s "" then ([], m) else let '(c, m') := anon s m in ([(a, c)], m')
    | WTags, VTags l => match l with [] => ([], m) | _ => let '(cs, m') := wmap anon l m in ([(a, of_str (join_comma (map to_str cs)))], m') end
    | _, _ => ([], m)
    end
  end.
Definition write_fields (v : ver) (ds : list fdesc) (xs : list fval) (m : option mapping) : list (string * string) * option mapping :=
  let '(l, m') := wmap (fun p m => write_field v xs p.1 p.2 m) (zip ds xs) m in (mjoin l, m').
(** writeOptionalAttribute(FICTITIOUS, fictitious, false). *)
Definition fict_attr (b : bool) : list (string * string) := if b then [("fictitious", bool_text b)] else [].
(** AbstractIdentifiableXml::write, 72-85, and for switches AbstractSwitchXml.hxx:43-45. *)
Definition write_attrs (v : ver) (l : leaf) (m : option mapping) : list (string * string) * option mapping :=
  let '(id, m1) := anon (l_id l) m in
  let '(name, m2) := if String.eqb (l_name l) "" then ([], m1) else let '(c, m2) := anon (l_name l) m1 in ([("name", c)], m2) in
  let '(fs, m3) := write_fields v (schema (l_cls l)) (l_fields l) m2 in
  (("id", id) :: name ++ (if run_from V1_2 v then fict_attr (l_fict l) else []) ++ fs
   ++ (if is_switch (l_cls l) && run_until V1_1 v then fict_attr (l_fict l) else []), m3).
(** writeEndElement: an element without content is written <a/>. *)
Definition elem (n : string) (a : list (string * string)) (cs : list xml) : xml := Elem n a (match cs with [] => true | _ => false end) cs.
(** The nodes libxml2 gives for a text: none if empty, a white space node if blank. *)
Definition blank (s : string) : bool := forallb (fun a => bool_decide (a ∈ [" "; "009"; "010"; "013"]%char)) (to_str s).
Definition chars (s : string) : list xml := if String.eqb s "" then [] else if blank s then [Other] else [Text s].
(** AliasesXml::write, 38-49. *)
Definition write_alias (v : ver) (p : string * string) (m : option mapping) : xml * option mapping :=
  let '(c, m') := anon p.1 m in
  (elem "alias" (if run_from V1_4 v && negb (String.eqb p.2 "") then [("type", p.2)] else []) (chars c), m').
(** PropertiesXml::write, 31-39. *)
Definition write_prop (p : string * string) : xml := elem "property" [("name", p.1); ("value", p.2)] [].
(** 87-91. *)
Definition write_extras (v : ver) (l : leaf) (m : option mapping) : list xml * option mapping :=
  let '(als, m') := if run_from V1_3 v then wmap (write_alias v) (map_to_list (l_aliases l)) m else ([], m) in
  (als ++ map write_prop (map_to_list (l_props l)), m').
(** writeLoadingLimits writes nothing for limits without values (AbstractConnectableXml.hxx:171). *)
Definition part_empty (p : part) : bool := bool_decide (p = Part PLimits [VNum None] []).
Definition write_child (v : ver) (k : pkind) (c : string * list fval) (m : option mapping) : xml * option mapping :=
  let '(a, m') := write_fields v (default [] (cschema k c.1)) c.2 m in (elem c.1 a [], m').
Definition write_part (v : ver) (n : string) (p : part) (m : option mapping) : xml * option mapping :=
  let '(a, m1) := write_fields v (pschema (p_kind p)) (p_fields p) m in
  let '(cs, m2) := wmap (write_child v (p_kind p)) (p_children p) m1 in
  (elem n a cs, m2).
(** The name of the element for a part in a slot. *)
Definition slot_name (s : slot) (k : pkind) : option string := fst ∘ snd <$> list_find (fun e => e.2 = k) (sl_kinds s).
(** The part of an object written for a slot, with the name of its element. *)
Definition slot_part (v : ver) (parts : gmap string part) (s : slot) : option (string * part) :=
  match parts !! sl_key s with
  | None => None
  | Some p => if run_from (sl_run s) v && negb (part_empty p) then (fun n => (n, p)) <$> slot_name s (p_kind p) else None
  end.
Definition write_slot (v : ver) (parts : gmap string part) (s : slot) (m : option mapping) : list xml * option mapping :=
  match slot_part v parts s with
  | None => ([], m)
  | Some (n, p) => let '(x, m') := write_part v n p m in ([x], m')
  end.
Definition write_parts (v : ver) (c : cls) (parts : gmap string part) (m : option mapping) : list xml * option mapping :=
  let '(xs, m') := wmap (write_slot v parts) (slots c) m in (mjoin xs, m').
(** AbstractIdentifiableXml::write (71-98), writeSubElements of the class, once what is to be written has been computed ([wire]). *)
Definition write_doc (v : ver) (l : leaf) (m : option mapping) : xml * option mapping :=
  let '(a, m1) := write_attrs v l m in
  let '(es, m2) := write_extras v l m1 in
  let '(ps, m3) := write_parts v (l_cls l) (l_parts l) m2 in
  (elem (tag (l_cls l)) a (es ++ ps), m3).

(** ** What is written when it is not what is in memory. *)
(** The options of the export: version, THROW_EXCEPTION or LOG_ERROR for what the version does not support; how two doubles given by their
    texts are subtracted (DanglingLineXml.cpp:107-114) and the susceptance of a non linear model for a section count
    (ShuntCompensatorNonLinearModel.cpp, getB): both are left open. *)
Record opts := Opts { o_ver : ver; o_throwing : bool; o_minus : string -> string -> string; o_b : part -> fval -> string }.
Definition with_fields (l : leaf) (fs : list fval) : leaf := Leaf (l_cls l) (l_id l) (l_name l) (l_fict l) (l_aliases l) (l_props l) fs (l_parts l).
Definition with_parts (l : leaf) (ps : gmap string part) : leaf := Leaf (l_cls l) (l_id l) (l_name l) (l_fict l) (l_aliases l) (l_props l) (l_fields l) ps.
(** isEqual(x, 0): math.hpp. *)
Definition is_zero (x : fval) : bool := bool_decide (x ∈ [VNum (Some "0"); VNum (Some "-0")]).
(** writeTargetDeadband: AbstractTransformerXml.hxx:256-265: until V1_1 a deadband of 0 is omitted. *)
Definition wire_part (v : ver) (p : part) : part :=
  match p_kind p, p_fields p with
  | PRatio, low :: tap :: db :: fs | PPhase, low :: tap :: db :: fs =>
    Part (p_kind p) (low :: tap :: (if run_until V1_1 v && is_zero db then VNum None else db) :: fs) (p_children p)
  | _, _ => p
  end.
(** TieLineXml.cpp:127-129: the name of a half is omitted if it is its identifier. *)
Definition wire_half (fs : list fval) : list fval :=
  match fs with VText i :: VText n :: fs' => VText i :: VText (if String.eqb n i then "" else n) :: fs' | _ => fs end.
(** targetP if it is not NaN: DanglingLineXml.cpp:107-114. *)
Definition minus (o : opts) (x y : fval) : fval := match x, y with VNum (Some s), VNum (Some t) => VNum (Some (o_minus o s t)) | _, _ => x end.
Definition wire_fields (o : opts) (l : leaf) : list fval :=
  match l_cls l, l_fields l with
  | CShunt, b :: g :: mx :: n :: fs => (* ShuntCompensatorXml.cpp:159-167 *)
    match l_parts l !! "model" with
    | Some p => if run_until V1_2 (o_ver o) then VNum (Some (o_b o p n)) :: g :: VText "1" :: VText "1" :: fs else l_fields l
    | None => l_fields l
    end
  | CDanglingLine, p0 :: q0 :: r :: x :: g :: b :: mn :: mx :: on :: tp :: tv :: tq :: fs => (* DanglingLineXml.cpp:105-117 *)
    match on with
    | VOpt (Some _) => if run_until V1_2 (o_ver o) then minus o p0 tp :: minus o q0 tq :: r :: x :: g :: b :: mn :: mx :: on :: tp :: tv :: tq :: fs else l_fields l
    | _ => l_fields l
    end
  | CTieLine, fs => take 13 fs ++ wire_half (take 9 (drop 13 fs)) ++ wire_half (drop 22 fs)
  | _, fs => fs
  end.
Definition wire_parts (v : ver) (l : leaf) : gmap string part :=
  let ps := wire_part v <$> l_parts l in
  match l_cls l, l_fields l with
  | CShunt, b :: g :: mx :: _ => (* writeModel: 132-138, 177 *)
    match l_parts l !! "model" with None => <["model" := Part PLinear [b; g; mx] []]> ps | Some _ => ps end
  | _, _ => ps
  end.
Definition wire (o : opts) (l : leaf) : leaf := with_parts (with_fields l (wire_fields o l)) (wire_parts (o_ver o) l).
(** The assertions of the writer on the version: assertMinimumVersion, assertMinimumVersionIfNotDefault, assertMinimumVersionAndRunIfNotDefault,
    writeAttributeFromMinimumVersion (IidmXmlUtil.cpp:44-82, 103-108, 139-156). *)
Definition unsupported (v : ver) (l : leaf) : bool :=
  existsb (fun s => ver_lt v (sl_assert s) && bool_decide (is_Some (l_parts l !! sl_key s))) (slots (l_cls l)) ||
  match l_cls l, l_fields l with
  | CShunt, b :: g :: mx :: n :: on :: tv :: td :: _ => (* ShuntCompensatorXml.cpp:156-158, 169-171 *)
    (ver_lt v V1_3 && bool_decide (is_Some (l_parts l !! "model"))) ||
    (ver_lt v V1_2 && negb (bool_decide (on = VBool false /\ tv = VNum None /\ td = VNum None)))
  | CDanglingLine, p0 :: q0 :: r :: x :: g :: b :: mn :: mx :: on :: _ => (* DanglingLineXml.cpp:105-106 *) ver_lt v V1_3 && negb (bool_decide (on = VOpt None))
  | CThreeWt, r1 :: x1 :: g1 :: b1 :: u1 :: s1 :: r2 :: x2 :: g2 :: b2 :: u2 :: s2 :: r3 :: x3 :: g3 :: b3 :: u3 :: s3 :: u0 :: _ =>
    (* ThreeWindingsTransformerXml.cpp:182-198 *) ver_lt v V1_1 && negb (is_zero g2 && is_zero b2 && is_zero g3 && is_zero b3 && bool_decide (u0 = u1))
  | _, _ => false
  end.
(** The object is refused if the version does not support it and the option asks for it; the assertions come at different points of the
    writing, but nothing written is used when one fails. *)
Definition write_leaf (o : opts) (l : leaf) (m : option mapping) : result (xml * option mapping) :=
  if o_throwing o && unsupported (o_ver o) l then Throw "is not supported" else Ok (write_doc (o_ver o) (wire o l) m).
(** getBus1(anonymizeString(sw.getId())) and getBus2(...): VoltageLevelXml.cpp:180-181: the switch of that name must be in the level. *)
Definition write_bus_switch (o : opts) (all : list leaf) (l : leaf) (m : option mapping) : result (xml * option mapping) :=
  let '(c, m1) := anon (l_id l) m in
  if existsb (fun sw => String.eqb (l_id sw) c) all then write_leaf o l m1 else Throw "Switch not found in voltage level".
(** NodeBreakerViewInternalConnectionXml::write: 37-42. *)
Definition write_ic (p : string * string) : xml := elem "internalConnection" [("node1", p.1); ("node2", p.2)] [].
(** VoltageLevelXml: writeRootElementAttributes (262-269), writeSubElements (277-304), writeBusBreakerTopology (171-188),
    writeNodeBreakerTopology (234-254). *)
Definition topology_text (nb : bool) : string := if nb then "NODE_BREAKER" else "BUS_BREAKER".
Definition write_topology (o : opts) (x : vlevel) (m : option mapping) : result (xml * option mapping) :=
  if v_nb x then
    letp! (a, m1) := wmapr (write_leaf o) (v_sections x) m in
    letp! (b, m2) := wmapr (write_leaf o) (v_switches x) m1 in
    Ok (elem "nodeBreakerTopology" [] (a ++ b ++ map write_ic (v_ics x)), m2)
  else
    letp! (a, m1) := wmapr (write_leaf o) (v_buses x) m in
    letp! (b, m2) := wmapr (write_bus_switch o (v_switches x)) (v_switches x) m1 in
    Ok (elem "busBreakerTopology" [] (a ++ b), m2).
Definition write_vl (o : opts) (x : vlevel) (m : option mapping) : result (xml * option mapping) :=
  let '(a, m1) := write_attrs (o_ver o) (v_leaf x) m in
  let '(es, m2) := write_extras (o_ver o) (v_leaf x) m1 in
  letp! (t, m3) := write_topology o x m2 in
  letp! (qs, m4) := wmapr (write_leaf o) (mjoin (map (fun c => filter (fun l => l_cls l = c) (v_eqs x)) eq_classes)) m3 in
  Ok (elem "voltageLevel" (a ++ [("topologyKind", topology_text (v_nb x))]) (es ++ t :: qs), m4).
(** SubstationXml::writeSubElements: 101-119. *)
Definition write_sub (o : opts) (x : substation) (m : option mapping) : result (xml * option mapping) :=
  let '(a, m1) := write_attrs (o_ver o) (s_leaf x) m in
  let '(es, m2) := write_extras (o_ver o) (s_leaf x) m1 in
  letp! (vs, m3) := wmapr (write_vl o) (s_vls x) m2 in
  letp! (ts, m4) := wmapr (write_leaf o) (s_twts x) m3 in
  letp! (us, m5) := wmapr (write_leaf o) (s_thwts x) m4 in
  Ok (elem "substation" a (es ++ vs ++ ts ++ us), m5).
(** NetworkXml::write: 284-346. The aliases are written
    without runFromMinimumVersion (309), after assertMinimumVersionIfNotDefault (AliasesXml.cpp:37). *)
Definition write_network (o : opts) (anonymized : bool) (n : network) : result (xml * option mapping) :=
  let m0 := if anonymized then Some [] else None in
  let l := n_leaf n in
  let '(fs, m1) := write_fields (o_ver o) (schema CNetwork) (l_fields l) m0 in
  if o_throwing o && ver_lt (o_ver o) V1_3 && negb (bool_decide (l_aliases l = ∅)) then Throw "network.alias is not supported" else
  let '(als, m2) := wmap (write_alias (o_ver o)) (map_to_list (l_aliases l)) m1 in
  letp! (ss, m3) := wmapr (write_sub o) (n_subs n) m2 in
  letp! (ls, m4) := wmapr (write_leaf o) (n_lines n) m3 in
  letp! (hs, m5) := wmapr (write_leaf o) (n_hvdcs n) m4 in
  Ok (elem "network" (("xmlns:iidm", namespace_uri (o_ver o)) :: ("id", l_id l) :: fs) (als ++ map write_prop (map_to_list (l_props l)) ++ ss ++ ls ++ hs), m5).

(** * Reading. [index]: the identifiers and aliases known to the network. *)
Notation index := (gset string).
Definition read_field (v : ver) (mf : option mapping) (d : fdesc) (c : cursor) : result fval :=
  match fd_rattr d v with
  | None => Ok (fd_default d)
  | Some a =>
    match fd_r d with
    | RNum => let! t := attr_value c a in Ok (VNum (Some t))
    | RNumOpt => let! t := attr c a in Ok (VNum t)
    | RBool => let! t := attr c a in match t with Some t => Ok (VBool (is_true_text t)) | None => UB end
    | RBoolOr b => let! t := attr c a in Ok (VBool (from_option is_true_text b t))
    | RText => let! t := attr_value c a in Ok (VText t)
    | RNat => let! t := attr c a in match t with Some t => Ok (VText t) | None => UB end
    | RTextOr s => let! t := attr_or c a "" in Ok (VText (if String.eqb t "" then s else t))
    | ROpt => let! t := attr c a in Ok (VOpt t)
    | RRef => let! t := attr_value c a in Ok (VOpt (Some t))
    | RAnon => let! t := attr_value c a in let! s := dean mf t in Ok (VOpt (Some s))
    | RAnonOpt => let! t := attr c a in match t with None => Ok (VOpt None) | Some t => let! s := dean mf t in Ok (VOpt (Some s)) end
    | RAnonMand => let! t := attr_value c a in let! s := dean mf t in Ok (VText s)
    | RAnonText => let! t := attr_or c a "" in let! s := dean mf t in Ok (VText s)
    | RTags =>
      let! t := attr_or c a "" in
      if String.eqb t "" then Ok (VTags []) else
      let! l := foldr (fun s r => let! x := dean mf (of_str s) in let! xs := r in Ok (x :: xs)) (Ok []) (split_on ","%char (to_str t)) in Ok (VTags l)
    end
  end.
Fixpoint read_fields (v : ver) (mf : option mapping) (ds : list fdesc) (c : cursor) : result (list fval) :=
  match ds with [] => Ok [] | d :: ds' => let! x := read_field v mf d c in let! xs := read_fields v mf ds' c in Ok (x :: xs) end.
(** The identifiers of other objects an object refers to; its adder throws if one of them is not in the network (TerminalBuilder,
    BusBreakerVoltageLevel::getConfiguredBus, BranchAdder, HvdcLineAdder::getConverterStation). That the object found is of the right class and
    in the right voltage level is not modelled. *)
Definition field_ref (d : fdesc) (x : fval) : list string :=
  match fd_r d, x with RRef, VOpt (Some s) | RAnon, VOpt (Some s) | RAnonOpt, VOpt (Some s) => [s] | _, _ => [] end.
Definition refs (ds : list fdesc) (xs : list fval) : list string := mjoin (zip_with field_ref ds xs).
(** checkAndGetUniqueId: IdentifiableAdder.hxx:26-49, and NetworkIndex::checkAndAdd. *)
Definition add_object (id : string) (idx : index) : result index :=
  if String.eqb id "" then Throw "id is not set" else if bool_decide (id ∈ idx) then Throw "The network already contains an object" else Ok ({[id]} ∪ idx).
(** getOptionalAttributeValue(FICTITIOUS, false). *)
Definition read_fict (c : cursor) : result bool := let! t := attr c "fictitious" in Ok (from_option is_true_text false t).
(** AbstractIdentifiableXml::read (37-47), readRootElementAttributes of the class; fictitious for switches until V1_1:
    BusBreakerViewSwitchXml.cpp:34-37, NodeBreakerViewSwitchXml.cpp:31-34. *)
Definition read_head (v : ver) (mf : option mapping) (k : cls) (idx : index) (c : cursor) : result (leaf * index) :=
  let! ci := attr_value c "id" in
  let! id := dean mf ci in
  let! cn := attr_or c "name" "" in
  let! name := dean mf cn in
  let! f1 := if run_from V1_2 v then read_fict c else Ok false in
  let! fs := read_fields v mf (schema k) c in
  let! f2 := if is_switch k && run_until V1_1 v then read_fict c else Ok f1 in
  if negb (forallb (fun r => bool_decide (r ∈ idx)) (refs (schema k) fs)) then Throw "not found" else
  let! idx' := add_object id idx in
  Ok (Leaf k id name f2 ∅ ∅ fs ∅, idx').
(** Identifiable::addAlias (Identifiable.cpp:49-68) with NetworkIndex::addAlias (NetworkIndex.cpp:54-80): an alias already in the index is
    accepted and ignored if it refers to the object itself, else an exception is thrown. *)
Definition add_alias (l : leaf) (a t : string) (idx : index) : result (leaf * index) :=
  if negb (String.eqb t "") && bool_decide (t ∈ (map_to_list (l_aliases l)).*2) then Throw "already has an alias of type"
  else if bool_decide (a ∈ idx) then
    if String.eqb a (l_id l) || bool_decide (is_Some (l_aliases l !! a)) then Ok (l, idx) else Throw "alias already refers to object"
  else Ok (Leaf (l_cls l) (l_id l) (l_name l) (l_fict l) (<[a := t]> (l_aliases l)) (l_props l) (l_fields l) (l_parts l), {[a]} ∪ idx).
Definition set_prop (l : leaf) (k x : string) : leaf := Leaf (l_cls l) (l_id l) (l_name l) (l_fict l) (l_aliases l) (<[k := x]> (l_props l)) (l_fields l) (l_parts l).
(** AliasesXml::read: 27-33; PropertiesXml::read: 25-29. *)
Definition read_alias (v : ver) (mf : option mapping) (s : leaf * index) (c : cursor) : result ((leaf * index) * cursor) :=
  if ver_lt v V1_3 then Throw "alias is not supported" else
  let! t := if run_from V1_4 v then attr_or c "type" "" else Ok "" in
  letp! (ca, c') := read_characters c in
  let! a := dean mf ca in
  let! s' := add_alias s.1 a t s.2 in Ok (s', c').
Definition read_prop (s : leaf * index) (c : cursor) : result ((leaf * index) * cursor) :=
  let! k := attr_value c "name" in let! x := attr_value c "value" in Ok ((set_prop s.1 k x, s.2), c).
(** AbstractIdentifiableXml::readSubElements: 56-66. *)
Definition read_extra (v : ver) (mf : option mapping) (s : leaf * index) (c : cursor) : result ((leaf * index) * cursor) :=
  let! n := local_name c in
  if String.eqb n "property" then read_prop s c else if String.eqb n "alias" then read_alias v mf s c else Throw "Unknown element name".
(** The children of a part. Temporary limits are kept by duration, a second one with the same duration is ignored (LoadingLimitsAdder.hxx, emplace);
    a second point for the same active power is an error (ReactiveCapabilityCurveAdder.cpp, endPoint: here for equal texts). *)
Definition add_child (k : pkind) (c : string * list fval) (cs : list (string * list fval)) : result (list (string * list fval)) :=
  match k with
  | PLimits => if bool_decide (c.2 !! 1 ∈ (fun d => d.2 !! 1) <$> cs) then Ok cs else Ok (cs ++ [c])
  | PCurve => if bool_decide (c.2 !! 0 ∈ (fun d => d.2 !! 0) <$> cs) then Throw "a point already exists for active power" else Ok (cs ++ [c])
  | _ => Ok (cs ++ [c])
  end.
Definition read_child (v : ver) (mf : option mapping) (k : pkind) (cs : list (string * list fval)) (c : cursor) : result (list (string * list fval) * cursor) :=
  let! n := local_name c in
  match cschema k n with
  | Some ds => let! xs := read_fields v mf ds c in let! cs' := add_child k (n, xs) cs in Ok (cs', c)
  | None => match k with PLimits => Ok (cs, c) | _ => Throw "Unexpected element" end
  end.
(** Parts whose sub-elements are read by readUntilEndElement. *)
Definition has_children (k : pkind) : bool := match k with PMinMax | PTerminal | PLinear => false | _ => true end.
Definition read_part (fuel : nat) (v : ver) (mf : option mapping) (n : string) (k : pkind) (c : cursor) : result (part * cursor) :=
  let! xs := read_fields v mf (pschema k) c in
  if has_children k then letp! (_, cs, c') := read_until (read_child v mf k) fuel n [] c in Ok (Part k xs cs, c')
  else Ok (Part k xs [], c).
(** The slot and the kind of part for the name of an element. *)
Fixpoint find_slot (n : string) (ss : list slot) : option (slot * pkind) :=
  match ss with
  | [] => None
  | s :: ss' => match list_find (fun e => e.1 = n) (sl_kinds s) with Some (_, e) => Some (s, e.2) | None => find_slot n ss' end
  end.
Definition set_part (l : leaf) (k : string) (p : part) : leaf := with_parts l (<[k := p]> (l_parts l)).
(** Whether a part can be set: the reactive limits of a dangling line are those of its generation (DanglingLineXml.cpp:91-94). *)
Definition settable (l : leaf) (key : string) : bool :=
  match l_cls l, l_fields l with
  | CDanglingLine, _ :: _ :: _ :: _ :: _ :: _ :: _ :: _ :: on :: _ => negb (String.eqb key "reactiveLimits") || negb (bool_decide (on = VOpt None))
  | _, _ => true
  end.
(** readSubElements of the class for one element. *)
Definition read_sub_element (fuel : nat) (v : ver) (mf : option mapping) (s : leaf * index) (c : cursor) : result ((leaf * index) * cursor) :=
  let! n := local_name c in
  match find_slot n (slots (l_cls s.1)) with
  | Some (sl, k) =>
    if ver_lt v (sl_rassert sl) then Throw "is not supported" else
    if negb (settable s.1 (sl_key sl)) then Throw "m_pointer is null" else
    letp! (p, c') := read_part fuel v mf n k c in Ok ((set_part s.1 (sl_key sl) p, s.2), c')
  | None => read_extra v mf s c
  end.
(** readTargetDeadband: AbstractTransformerXml.hxx:157-172: until V1_1, 0 if there is none and the tap changer is regulating. *)
Definition unwire_part (v : ver) (p : part) : part :=
  match p_kind p, p_fields p with
  | PRatio, low :: tap :: db :: x :: reg :: fs | PPhase, low :: tap :: db :: x :: reg :: fs =>
    Part (p_kind p) (low :: tap :: (if run_until V1_1 v && bool_decide (db = VNum None /\ reg = VBool true) then VNum (Some "0") else db) :: x :: reg :: fs) (p_children p)
  | _, _ => p
  end.
(** The object made of what was read. *)
Definition unwire (v : ver) (l : leaf) : result leaf :=
  let l := with_parts l (unwire_part v <$> l_parts l) in
  match l_cls l, l_fields l with
  | CShunt, b :: g :: mx :: fs => (* ShuntCompensatorXml.cpp:47-56, 81-112; ShuntCompensatorAdder.cpp:28-30 *)
    if run_until V1_2 v then Ok l else
    match l_parts l !! "model" with
    | Some (Part PLinear [b'; g'; mx'] _) => Ok (with_parts (with_fields l (b' :: g' :: mx' :: fs)) (delete "model" (l_parts l)))
    | Some _ => Ok l
    | None => Throw "the shunt compensator model has not been defined"
    end
  | CDanglingLine, p0 :: q0 :: r :: x :: g :: b :: mn :: mx :: on :: tp :: tv :: tq :: fs => (* DanglingLineXml.cpp:44-62 *)
    match on with
    | VOpt (Some t) => Ok (with_fields l (p0 :: q0 :: r :: x :: g :: b :: mn :: mx :: VOpt (Some (bool_text (is_true_text t))) :: tp :: tv :: tq :: fs))
    | _ => Ok (with_fields l (p0 :: q0 :: r :: x :: g :: b :: VNum None :: VNum None :: on :: VNum None :: VNum None :: VNum None :: fs))
    end
  | CThreeWt, r1 :: x1 :: g1 :: b1 :: u1 :: s1 :: r2 :: x2 :: g2 :: b2 :: u2 :: s2 :: r3 :: x3 :: g3 :: b3 :: u3 :: s3 :: u0 :: fs =>
    (* ThreeWindingsTransformerAdder.cpp:53-55: the rated voltage at the star point defaults to that of leg 1 *)
    Ok (with_fields l (r1 :: x1 :: g1 :: b1 :: u1 :: s1 :: r2 :: x2 :: g2 :: b2 :: u2 :: s2 :: r3 :: x3 :: g3 :: b3 :: u3 :: s3 :: (if bool_decide (u0 = VNum None) then u1 else u0) :: fs))
  | _, _ => Ok l
  end.
(** AbstractIdentifiableXml::readElement (50-53). A shunt compensator is added after its sub-elements have been read (ShuntCompensatorXml.cpp:68-125),
    the others before: only the order of the exceptions differs. The types of the aliases of shunt compensators, read in V1_3 as well (76-80), are
    taken to be read from V1_4 on as for the other objects; the writer writes none before. *)
Definition read_leaf (fuel : nat) (v : ver) (mf : option mapping) (k : cls) (idx : index) (c : cursor) : result (leaf * index * cursor) :=
  let! s := read_head v mf k idx c in
  letp! (_, s', c') := read_until (read_sub_element fuel v mf) fuel (until_name k) s c in
  let! l := unwire v s'.1 in Ok ((l, s'.2), c').

Definition set_leaf (x : vlevel) (l : leaf) : vlevel := VLevel l (v_nb x) (v_buses x) (v_sections x) (v_switches x) (v_ics x) (v_eqs x).
Definition add_bus (x : vlevel) (l : leaf) : vlevel := VLevel (v_leaf x) (v_nb x) (v_buses x ++ [l]) (v_sections x) (v_switches x) (v_ics x) (v_eqs x).
Definition add_section (x : vlevel) (l : leaf) : vlevel := VLevel (v_leaf x) (v_nb x) (v_buses x) (v_sections x ++ [l]) (v_switches x) (v_ics x) (v_eqs x).
Definition add_switch (x : vlevel) (l : leaf) : vlevel := VLevel (v_leaf x) (v_nb x) (v_buses x) (v_sections x) (v_switches x ++ [l]) (v_ics x) (v_eqs x).
Definition add_ic (x : vlevel) (p : string * string) : vlevel := VLevel (v_leaf x) (v_nb x) (v_buses x) (v_sections x) (v_switches x) (v_ics x ++ [p]) (v_eqs x).
Definition add_eq (x : vlevel) (l : leaf) : vlevel := VLevel (v_leaf x) (v_nb x) (v_buses x) (v_sections x) (v_switches x) (v_ics x) (v_eqs x ++ [l]).
Definition read_into (add : vlevel -> leaf -> vlevel) (fuel : nat) (v : ver) (mf : option mapping) (k : cls) (s : vlevel * index) (c : cursor) : result ((vlevel * index) * cursor) :=
  letp! (l, idx, c') := read_leaf fuel v mf k s.2 c in Ok ((add s.1 l, idx), c').
(** readBusBreakerTopology: VoltageLevelXml.cpp:61-71. *)
Definition bus_topology_handler (fuel : nat) (v : ver) (mf : option mapping) (s : vlevel * index) (c : cursor) : result ((vlevel * index) * cursor) :=
  let! n := local_name c in
  if String.eqb n "bus" then read_into add_bus fuel v mf CBus s c
  else if String.eqb n "switch" then read_into add_switch fuel v mf CBusSwitch s c else Throw "Unsupported element".
(** readNodeBreakerTopology: 95-109, without the calculated buses; NodeBreakerViewInternalConnectionXml::read: 31-35. *)
Definition node_topology_handler (fuel : nat) (v : ver) (mf : option mapping) (s : vlevel * index) (c : cursor) : result ((vlevel * index) * cursor) :=
  let! n := local_name c in
  if String.eqb n "busbarSection" then read_into add_section fuel v mf CBusbarSection s c
  else if String.eqb n "switch" then read_into add_switch fuel v mf CNodeSwitch s c
  else if String.eqb n "internalConnection" then
    let! n1 := attr c "node1" in let! n2 := attr c "node2" in
    match n1, n2 with Some n1, Some n2 => Ok ((add_ic s.1 (n1, n2), s.2), c) | _, _ => UB end
  else Throw "Unexpected element".
(** VoltageLevelXml::readSubElements: 123-150; getNodeBreakerView and getBusBreakerView().newBus throw on levels of the other kind. *)
Definition vl_handler (fuel : nat) (v : ver) (mf : option mapping) (s : vlevel * index) (c : cursor) : result ((vlevel * index) * cursor) :=
  let! n := local_name c in
  if String.eqb n "nodeBreakerTopology" then
    if v_nb s.1 then letp! (_, s', c') := read_until (node_topology_handler fuel v mf) fuel "nodeBreakerTopology" s c in Ok (s', c') else Throw "Not implemented"
  else if String.eqb n "busBreakerTopology" then
    if v_nb s.1 then Throw "Not implemented" else letp! (_, s', c') := read_until (bus_topology_handler fuel v mf) fuel "busBreakerTopology" s c in Ok (s', c')
  else match list_find (fun k => tag k = n) eq_classes with
       | Some (_, k) => read_into add_eq fuel v mf k s c
       | None => letp! (l, idx, c') := read_extra v mf (v_leaf s.1, s.2) c in Ok ((set_leaf s.1 l, idx), c')
       end.
(** readRootElementAttributes: 111-121. *)
Definition read_vl (fuel : nat) (v : ver) (mf : option mapping) (idx : index) (c : cursor) : result (vlevel * index * cursor) :=
  letp! (l, idx1) := read_head v mf CVoltageLevel idx c in
  let! k := attr_value c "topologyKind" in
  let! nb := if String.eqb k "NODE_BREAKER" then Ok true else if String.eqb k "BUS_BREAKER" then Ok false else Throw "Unexpected TopologyKind" in
  letp! (_, s', c') := read_until (vl_handler fuel v mf) fuel "voltageLevel" (VLevel l nb [] [] [] [] [], idx1) c in Ok (s', c').
(** SubstationXml::readSubElements: 67-79. *)
Definition sub_handler (fuel : nat) (v : ver) (mf : option mapping) (s : substation * index) (c : cursor) : result ((substation * index) * cursor) :=
  let! n := local_name c in
  if String.eqb n "voltageLevel" then letp! (x, idx, c') := read_vl fuel v mf s.2 c in Ok ((Sub (s_leaf s.1) (s_vls s.1 ++ [x]) (s_twts s.1) (s_thwts s.1), idx), c')
  else if String.eqb n "twoWindingsTransformer" then letp! (x, idx, c') := read_leaf fuel v mf CTwoWt s.2 c in Ok ((Sub (s_leaf s.1) (s_vls s.1) (s_twts s.1 ++ [x]) (s_thwts s.1), idx), c')
  else if String.eqb n "threeWindingsTransformer" then letp! (x, idx, c') := read_leaf fuel v mf CThreeWt s.2 c in Ok ((Sub (s_leaf s.1) (s_vls s.1) (s_twts s.1) (s_thwts s.1 ++ [x]), idx), c')
  else letp! (l, idx, c') := read_extra v mf (s_leaf s.1, s.2) c in Ok ((Sub l (s_vls s.1) (s_twts s.1) (s_thwts s.1), idx), c').
Definition read_sub (fuel : nat) (v : ver) (mf : option mapping) (idx : index) (c : cursor) : result (substation * index * cursor) :=
  letp! (l, idx1) := read_head v mf CSubstation idx c in
  letp! (_, s', c') := read_until (sub_handler fuel v mf) fuel "substation" (Sub l [] [] [], idx1) c in Ok (s', c').
(** NetworkXml::read: 202-282, the part on one element. *)
Definition net_handler (fuel : nat) (v : ver) (mf : option mapping) (s : network * index) (c : cursor) : result ((network * index) * cursor) :=
  let '(x, idx) := s in
  let! n := local_name c in
  if String.eqb n "alias" then letp! (l, idx', c') := read_alias v mf (n_leaf x, idx) c in Ok ((Net l (n_subs x) (n_lines x) (n_hvdcs x), idx'), c')
  else if String.eqb n "property" then letp! (l, idx', c') := read_prop (n_leaf x, idx) c in Ok ((Net l (n_subs x) (n_lines x) (n_hvdcs x), idx'), c')
  else if String.eqb n "substation" then letp! (y, idx', c') := read_sub fuel v mf idx c in Ok ((Net (n_leaf x) (n_subs x ++ [y]) (n_lines x) (n_hvdcs x), idx'), c')
  else if String.eqb n "line" then letp! (y, idx', c') := read_leaf fuel v mf CLine idx c in Ok ((Net (n_leaf x) (n_subs x) (n_lines x ++ [y]) (n_hvdcs x), idx'), c')
  else if String.eqb n "tieLine" then letp! (y, idx', c') := read_leaf fuel v mf CTieLine idx c in Ok ((Net (n_leaf x) (n_subs x) (n_lines x ++ [y]) (n_hvdcs x), idx'), c')
  else if String.eqb n "hvdcLine" then letp! (y, idx', c') := read_leaf fuel v mf CHvdcLine idx c in Ok ((Net (n_leaf x) (n_subs x) (n_lines x) (n_hvdcs x ++ [y]), idx'), c')
  else Throw "Unexpected element".
(** The identifiers parts refer to: regulating terminals, resolved by the end tasks once the document has been read (273-275). *)
Definition part_refs (p : part) : list string :=
  refs (pschema (p_kind p)) (p_fields p) ++ mjoin ((fun c => refs (default [] (cschema (p_kind p) c.1)) c.2) <$> p_children p).
Definition leaf_part_refs (l : leaf) : list string := mjoin (part_refs <$> (map_to_list (l_parts l)).*2).
Definition net_part_refs (n : network) : list string := mjoin (leaf_part_refs <$> net_leaves n).
(** The cursor stands on the element network; [mf]: the mapping read from the .csv file if it exists. *)
Definition read_network (fuel : nat) (mf : option mapping) (c : cursor) : result network :=
  let! uri := attr_value c "xmlns:iidm" in
  let! v := from_uri uri in
  let! id := attr_value c "id" in
  let! fs := read_fields v None (schema CNetwork) c in
  let! idx := add_object id ∅ in
  letp! (_, s, _) := read_until (net_handler fuel v mf) fuel "network" (Net (Leaf CNetwork id "" false ∅ ∅ fs ∅) [] [] [], idx) c in
  (* TerminalRefXml.cpp:33-60 *) if forallb (fun r => bool_decide (r ∈ s.2)) (net_part_refs s.1) then Ok s.1 else Throw "Terminal reference identifiable not found".
