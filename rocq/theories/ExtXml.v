(** Extensions in the XML file: NetworkXml.cpp (extensions part), the serializers of the extensions of the library (src/iidm/extensions) and of
    the extension libraries (extensions/entsoe, extensions/iidm, extensions/sld).

    An extension is represented by what its serializer sees of it in the working variant. Numbers are texts as in NetXml.v; an optional enumeration
    or identifier is a text, "" for none; a phase angle clock of 0 is [VOpt None]. Not modelled: serializers defined by users of the library
    ([KOther]: an extension without serializer), the attributes subLoad1ActivePower... that the reader of the extension "detail" accepts in place of those
    the writer writes, the conversion of texts that are not those of a value of the type. *)
From Verif Require Export NetXml.

(** * The extensions with a serializer: 17 classes; [KOther]: any other. *)
Inductive ekind := KDetail | KSlack | KBusbar | KStatus | KPosition | KCoordinated | KMeasurements | KClock3 | KRange | KSlope | KActive | KDroop | KDiscrete | KClock2
                 | KArea | KXnode | KMerged | KOther (n : string).
#[global] Instance ekind_eq : EqDecision ekind. Proof. solve_decision. Defined.
Definition known : list ekind :=
  [KDetail; KSlack; KBusbar; KStatus; KPosition; KCoordinated; KMeasurements; KClock3; KRange; KSlope; KActive; KDroop; KDiscrete; KClock2; KArea; KXnode; KMerged].
(** getExtensionName: first argument of the constructor of the serializer, and getName of the extension. *)
Definition kind_name (k : ekind) : string :=
  match k with
  | KDetail => "detail" | KSlack => "slackTerminal" | KBusbar => "busbarSectionPosition" | KStatus => "branchStatus" | KPosition => "position"
  | KCoordinated => "coordinatedReactiveControl" | KMeasurements => "measurements" | KClock3 => "threeWindingsTransformerPhaseAngleClock"
  | KRange => "hvdcOperatorActivePowerRange" | KSlope => "voltagePerReactivePowerControl" | KActive => "activePowerControl" | KDroop => "hvdcAngleDroopActivePowerControl"
  | KDiscrete => "discreteMeasurements" | KClock2 => "twoWindingsTransformerPhaseAngleClock" | KArea => "entsoeArea" | KXnode => "xnode" | KMerged => "mergedXnode" | KOther n => n
  end.
(** getNamespacePrefix: third argument. *)
Definition kind_prefix (k : ekind) : string :=
  match k with
  | KDetail => "ld" | KSlack => "slt" | KBusbar => "bbsp" | KStatus => "bs" | KPosition => "cp" | KCoordinated => "crc" | KMeasurements => "m" | KClock3 => "threewtpac"
  | KRange => "hopr" | KSlope => "vprpc" | KActive => "apc" | KDroop => "hapc" | KDiscrete => "dm" | KClock2 => "twowtpac" | KArea => "ea" | KXnode => "xn" | KMerged => "mxn" | KOther _ => ""
  end.
(** getNamespaceUri of the serializers with one version: fourth argument. *)
Definition itesla (s : string) : string := "http://www.itesla_project.eu/schema/iidm/ext/" +:+ s +:+ "/1_0".
Definition powsybl (s : string) : string := "http://www.powsybl.org/schema/iidm/ext/" +:+ s +:+ "/1_0".
Definition kind_uri (k : ekind) : string :=
  match k with
  | KDetail => itesla "load_detail" | KBusbar => itesla "busbarsectionposition" | KPosition => itesla "connectable_position" | KRange => itesla "hvdc_operator_active_power_range"
  | KActive => itesla "active_power_control" | KDroop => itesla "hvdc_angle_droop_active_power_control" | KArea => itesla "entsoe_area" | KXnode => itesla "xnode"
  | KMerged => itesla "merged_xnode" | KStatus => powsybl "branch_status" | KCoordinated => powsybl "coordinated_reactive_control" | KMeasurements => powsybl "measurements"
  | KClock3 => powsybl "three_windings_transformer_phase_angle_clock" | KSlope => powsybl "voltage_per_reactive_power_control" | KDiscrete => powsybl "discrete_measurements"
  | KClock2 => powsybl "two_windings_transformer_phase_angle_clock" | KSlack | KOther _ => ""
  end.
(** SlackTerminalXmlSerializer.cpp:29-41: the versions of the network and of the extension that go together, and the URIs. *)
Definition slack_versions (v : ver) : option (list string) := match v with V1_3 => Some ["1.0"] | V1_4 => Some ["1.1"] | V1_5 => Some ["1.2"] | _ => None end.
Definition slack_uri (xv : string) : option string :=
  if String.eqb xv "1.0" then Some "http://www.powsybl.org/schema/iidm/ext/slack_terminal/1_0"
  else if String.eqb xv "1.1" then Some "http://www.powsybl.org/schema/iidm/ext/slack_terminal/1_1"
  else if String.eqb xv "1.2" then Some "http://www.powsybl.org/schema/iidm/ext/slack_terminal/1_2" else None.

(** * The contents of the elements. *)
(** A sub-element: a feeder, a measurement with its properties. *)
Record child := Child { ch_name : string; ch_fields : list fval; ch_props : gmap string string }.
(** The attributes, the text, the sub-elements. *)
Record ext := Ext { e_kind : ekind; e_fields : list fval; e_text : string; e_children : list child }.
#[global] Instance child_eq : EqDecision child. Proof. solve_decision. Defined.
#[global] Instance ext_eq : EqDecision ext. Proof. solve_decision. Defined.
(** An optional enumeration or identifier, and the value of a discrete measurement. *)
Definition opt_text_field (a : string) : fdesc := FD (always a) WNonEmpty (always a) (RTextOr "") (VText "").
(** The attributes. LoadDetailXmlSerializer.cpp:31-66; SlackTerminalXmlSerializer.cpp:52-70 with TerminalRefXml.cpp:33-53, 78-105 (side: only for
    branches and three windings transformers); BusbarSectionPositionXmlSerializer.cpp:30-44; CoordinatedReactiveControlXmlSerializer.cpp:37-47;
    ThreeWindingsTransformerPhaseAngleClockXmlSerializer.cpp:37-49; HvdcOperatorActivePowerRangeXmlSerializer.cpp:32-46;
    VoltagePerReactivePowerControlXmlSerializer.cpp:33-44; ActivePowerControlXmlSerializer.cpp:37-50;
    HvdcAngleDroopActivePowerControlXmlSerializer.cpp:31-47; TwoWindingsTransformerPhaseAngleClockXmlSerializer.cpp:35-46; XnodeXmlSerializer.cpp:33-42;
    MergedXnodeXmlSerializer.cpp:33-55: the names of the lines are not written and read as "". *)
Definition ext_fields (k : ekind) : list fdesc :=
  match k with
  | KDetail => [num_field "fixedActivePower"; num_field "fixedReactivePower"; num_field "variableActivePower"; num_field "variableReactivePower"]
  | KSlack => [mand_ref_field "id"; opt_text_field "side"]
  | KBusbar => [nat_field "busbarIndex"; nat_field "sectionIndex"]
  | KCoordinated => [num_field "qPercent"]
  | KClock3 => [opt_field "phaseAngleClockLeg2"; opt_field "phaseAngleClockLeg3"]
  | KRange => [opt_num_field "fromCS1toCS2"; opt_num_field "fromCS2toCS1"]
  | KSlope => [num_field "slope"]
  | KActive => [bool_field "participate"; num_field "droop"]
  | KDroop => [num_field "p0"; num_field "droop"; bool_field "enabled"]
  | KClock2 => [opt_field "phaseAngleClock"]
  | KXnode => [text_field "code"]
  | KMerged => [num_field "rdp"; num_field "xdp"; num_field "xnodeP1"; num_field "xnodeQ1"; num_field "xnodeP2"; num_field "xnodeQ2"; text_field "code";
                FD never WText never RText (VText ""); FD never WText never RText (VText "")]
  | KStatus | KArea | KPosition | KMeasurements | KDiscrete | KOther _ => []
  end.
(** BranchStatusXmlSerializer.cpp:31-42, EntsoeAreaXmlSerializer.cpp:37-47. *)
Definition has_text (k : ekind) : bool := match k with KStatus | KArea => true | _ => false end.
(** The sub-elements. ConnectablePositionXmlSerializer.cpp:30-90; MeasurementsXmlSerializer.cpp:39-98; DiscreteMeasurementsXmlSerializer.cpp:39-134. *)
Definition feeders : list string := ["feeder"; "feeder1"; "feeder2"; "feeder3"].
Definition child_fields (k : ekind) (n : string) : option (list fdesc) :=
  match k with
  | KPosition => if bool_decide (n ∈ feeders) then Some [text_field "name"; nat_field "order"; text_field "direction"] else None
  | KMeasurements => if String.eqb n "measurement" then
      Some [opt_text_field "id"; text_field "type"; opt_text_field "side"; opt_num_field "value"; opt_num_field "standardDeviation"; bool_field "valid"] else None
  | KDiscrete => if String.eqb n "discreteMeasurement" then
      Some [opt_text_field "id"; text_field "type"; opt_text_field "tapChanger"; text_field "valueType"; opt_text_field "value"; bool_field "valid"] else None
  | _ => None
  end.
Definition has_children_ext (k : ekind) : bool := match k with KPosition | KMeasurements | KDiscrete => true | _ => false end.
(** Sub-elements with properties (feeders have none). *)
Definition has_props (k : ekind) : bool := match k with KMeasurements | KDiscrete => true | _ => false end.

(** * Writing. The version of the network does not matter for the contents. *)
(** write of the serializers. *)
Definition write_ext_child (k : ekind) (c : child) (m : option mapping) : xml * option mapping :=
  let '(a, m') := write_fields V1_5 (default [] (child_fields k (ch_name c))) (ch_fields c) m in
  (elem (ch_name c) a (if has_props k then map write_prop (map_to_list (ch_props c)) else []), m').
(** ConnectablePositionXmlSerializer.cpp:64-77: the feeders in this order. *)
Definition arrange (k : ekind) (cs : list child) : list child :=
  match k with KPosition => omap (fun n => snd <$> list_find (fun c => ch_name c = n) cs) feeders | _ => cs end.
(** writeStartElement, write, writeEndElement: NetworkXml.cpp:181-183. *)
Definition write_ext (e : ext) (m : option mapping) : xml * option mapping :=
  let '(a, m1) := write_fields V1_5 (ext_fields (e_kind e)) (e_fields e) m in
  let '(cs, m2) := if has_text (e_kind e) then (chars (e_text e), m1) else wmap (write_ext_child (e_kind e)) (arrange (e_kind e) (e_children e)) m1 in
  (elem (kind_name (e_kind e)) a cs, m2).

(** The options of the export (ExportOptions.cpp): the extensions to write (empty: all), throwExceptionIfExtensionNotFound, the versions asked for. *)
Record export := Export { x_only : gset string; x_throw : bool; x_versions : gmap string string }.
(** The options of the import (ImportOptions.cpp). *)
Record import := Import { i_only : gset string; i_throw : bool }.
(** withExtension. *)
Definition selected (only : gset string) (n : string) : bool := bool_decide (only = ∅ \/ n ∈ only).
(** ExtensionProviders::findProvider; [reg]: the names of the serializers registered (those of the libraries that have been loaded). *)
Definition find_provider (reg : gset string) (n : string) : option ekind :=
  if bool_decide (n ∈ reg) then snd <$> list_find (fun k => kind_name k = n) known else None.
(** The extensions of the objects of a network, by identifier and name. *)
Notation exts := (gmap string (gmap string ext)).
Definition versionable (k : ekind) : bool := match k with KSlack => true | _ => false end.
(** checkExtensionVersionSupported: ExtensionXmlSerializer.cpp:28-32, AbstractVersionableExtensionXmlSerializer.cpp:31-35. *)
Definition version_supported (k : ekind) (xv : string) : bool := if versionable k then bool_decide (is_Some (slack_uri xv)) else String.eqb xv "1.0".
(** getNamespaceUri: NetworkXml.cpp:92-115; checkWritingCompatibility and getVersion: AbstractVersionableExtensionXmlSerializer.cpp:51-61, 80-82. *)
Definition namespace_of (x : export) (v : ver) (k : ekind) : result string :=
  let xv := default "" (x_versions x !! kind_name k) in
  if versionable k then
    if String.eqb xv "" then
      match slack_versions v with
      | None => Throw "std::out_of_range"
      | Some l => match last l with Some w => match slack_uri w with Some u => Ok u | None => Throw "Namespace URI null" end | None => UB end
      end
    else if negb (version_supported k xv) then Throw "The version of the extension is not supported."
    else match slack_versions v with
         | None => Throw "IIDM-XML version of network is not supported by the extension's XML serializer"
         | Some l => if bool_decide (xv ∈ l) then match slack_uri xv with Some u => Ok u | None => Throw "Namespace URI null" end
                     else Throw "IIDM-XML version of network is not compatible with the version of the extension"
         end
  else Ok (kind_uri k).
(** getExtensionNames: NetworkXml.cpp:61-69: the extensions of all the objects, that of the network included. The order of std::set is that of
    [elements]. *)
Definition ext_names (n : network) (x : exts) : list string := elements (list_to_set (mjoin ((fun l => (map_to_list (default ∅ (x !! l_id l))).*1) <$> net_leaves n)) : gset string).
(** writeExtensionNamespaces: 137-167. *)
Fixpoint namespaces (reg : gset string) (x : export) (v : ver) (names : list string) (uris prefixes : list string) : result (list (string * string)) :=
  match names with
  | [] => Ok []
  | n :: names' =>
    if negb (selected (x_only x) n) then namespaces reg x v names' uris prefixes else
    match find_provider reg n with
    | None => namespaces reg x v names' uris prefixes
    | Some k =>
      let! uri := namespace_of x v k in
      if bool_decide (uri ∈ uris) then Throw "Extension namespace URI collision" else
      if bool_decide (kind_prefix k ∈ prefixes) then Throw "Extension namespace prefix collision" else
      let! l := namespaces reg x v names' (uri :: uris) (kind_prefix k :: prefixes) in Ok (("xmlns:" +:+ kind_prefix k, uri) :: l)
    end
  end.
(** isSerializable: SlackTerminalXmlSerializer.cpp:44-50, MeasurementsXmlSerializer.cpp:34-37, DiscreteMeasurementsXmlSerializer.cpp:34-37. *)
Definition serializable (e : ext) : bool :=
  match e_kind e with
  | KSlack => negb (bool_decide (e_fields e !! 0 = Some (VOpt None)))
  | KMeasurements | KDiscrete => negb (bool_decide (e_children e = []))
  | _ => true
  end.
(** getExtensionSerializer: NetworkXml.cpp:71-90. *)
Definition serializer (reg : gset string) (x : export) (e : ext) : result (option ekind) :=
  let p := find_provider reg (kind_name (e_kind e)) in
  if x_throw x then match p with Some k => Ok (Some k) | None => Throw "Extension provider not found" end
  else Ok (match p with Some k => if serializable e then Some k else None | None => None end).
(** writeExtension: 169-184. The serializer found writes extensions of its own class: its kind is that of the extension. *)
Definition write_extension (reg : gset string) (x : export) (e : ext) (m : option mapping) : result (xml * option mapping) :=
  let! s := serializer reg x e in
  match s with
  | None => Throw "AssertionError: Extension XML Serializer should not be null"
  | Some k =>
    let xv := default "" (x_versions x !! kind_name (e_kind e)) in
    if negb (String.eqb xv "") && negb (version_supported k xv) then Throw "The version of the extension is not supported." else Ok (write_ext e m)
  end.
(** writeExtensions: 186-200, for one object; hasAtLeastOneExtension (ExportOptions.cpp). *)
Definition write_object_exts (reg : gset string) (x : export) (xs : exts) (l : leaf) (m : option mapping) : result (list xml * option mapping) :=
  let es := (map_to_list (default ∅ (xs !! l_id l))).*2 in
  if match es with [] => true | _ => negb (existsb (fun e => selected (x_only x) (kind_name (e_kind e))) es) end then Ok ([], m) else
  let '(c, m1) := anon (l_id l) m in
  letp! (ys, m2) := wmapr (write_extension reg x) (List.filter (fun e => selected (x_only x) (kind_name (e_kind e))) es) m1 in
  Ok ([elem "extension" [("id", c)] ys], m2).
(** The objects written: all but the network itself (AbstractIdentifiableXml.hxx:91, addExportedEquipment), here in the order of the document; the code
    takes them in the order of the index of the network. *)
Definition written (n : network) : list leaf := tail (net_leaves n).
(** NetworkXml::write: 284-346. The namespaces come right after that of the network, the extensions after everything else. *)
Definition write_all (reg : gset string) (x : export) (o : opts) (anonymized : bool) (n : network) (xs : exts) : result (xml * option mapping) :=
  let! ns := namespaces reg x (o_ver o) (ext_names n xs) [] [] in
  letp! (y, m) := write_network o anonymized n in
  letp! (es, m') := wmapr (write_object_exts reg x xs) (written n) m in
  match y with
  | Elem name (iidm :: al) _ cs => Ok (elem name (iidm :: ns ++ al) (cs ++ mjoin es), m')
  | _ => UB
  end.

(** * Reading. *)
(** How two doubles given by their texts compare to 0 and 1: left open. *)
Record signs := Signs { negative : string -> bool; above_one : string -> bool }.
(** ** The objects of the network. *)
(** network.get and network.find: by identifier or alias. *)
Definition find_object (n : network) (id : string) : option leaf := snd <$> list_find (fun l => id = l_id l \/ is_Some (l_aliases l !! id)) (net_leaves n).
Definition is_injection (c : cls) : bool := bool_decide (c ∈ [CBusbarSection; CLoad; CGenerator; CBattery; CShunt; CDanglingLine; CSvc; CVsc; CLcc]).
Definition is_branch (c : cls) : bool := bool_decide (c ∈ [CTwoWt; CLine; CTieLine]).
Definition is_connectable (c : cls) : bool := is_injection c || is_branch c || bool_decide (c = CThreeWt).
(** The value of an attribute. *)
Definition field_value (l : leaf) (a : string) : option fval := list_find (fun d => fd_wattr d V1_5 = Some a) (schema (l_cls l)) ≫= fun p => l_fields l !! p.1.
Definition level_field (l : leaf) (i : string) : option string := match field_value l ("voltageLevelId" +:+ i) with Some (VOpt o) => o | _ => None end.
Definition levels (n : network) : list vlevel := mjoin (s_vls <$> n_subs n).
(** readTerminalRef (TerminalRefXml.cpp:33-53) followed by Terminal::getVoltageLevel. Enum::fromString throws for other sides. *)
Definition terminal_level (n : network) (id side : string) : option string :=
  l ← find_object n id;
  if is_injection (l_cls l) then (fun p => l_id (v_leaf p.2)) <$> list_find (fun x => l_id l ∈ map l_id (v_sections x ++ v_eqs x)) (levels n)
  else if is_branch (l_cls l) then if String.eqb side "ONE" then level_field l "1" else if String.eqb side "TWO" then level_field l "2" else None
  else if bool_decide (l_cls l = CThreeWt) then
    if String.eqb side "ONE" then level_field l "1" else if String.eqb side "TWO" then level_field l "2" else if String.eqb side "THREE" then level_field l "3" else None
  else None.
(** ** The checks of the adders and of the constructors. *)
Definition not_negative (sg : signs) (x : fval) : bool := match x with VNum (Some t) => negb (negative sg t) | VNum None => true | _ => false end.
(** MergedXnode.cpp:45-50. *)
Definition divider (sg : signs) (x : fval) : bool := match x with VNum (Some t) => negb (negative sg t) && negb (above_one sg t) | _ => false end.
(** TwoWindingsTransformerPhaseAngleClock.cpp:37-42, ThreeWindingsTransformerPhaseAngleClock.cpp:40-45; [None] is 0. *)
Definition clock_texts : list string := ["1"; "2"; "3"; "4"; "5"; "6"; "7"; "8"; "9"; "10"; "11"].
Definition clock (x : fval) : bool := match x with VOpt None => true | VOpt (Some t) => bool_decide (t ∈ clock_texts) | _ => false end.
(** The names of the enumerations: BranchStatus.cpp, EntsoeGeographicalCode.cpp, ConnectablePosition.cpp, Measurement.cpp, DiscreteMeasurement.cpp. *)
Definition statuses : list string := ["IN_OPERATION"; "PLANNED_OUTAGE"; "FORCED_OUTAGE"].
Definition areas : list string :=
  ["AL"; "AT"; "BA"; "BE"; "BG"; "BY"; "CH"; "CZ"; "DE"; "D1"; "D2"; "D4"; "D7"; "D8"; "DK"; "ES"; "FR"; "GB"; "GR"; "HR"; "HU"; "IT"; "KS"; "LU"; "LT"; "MA"; "MD"; "ME"; "MK";
   "NL"; "NO"; "PL"; "PT"; "RO"; "RS"; "RU"; "SE"; "SK"; "SI"; "TR"; "UA"; "UC"; "UX"].
Definition directions : list string := ["TOP"; "BOTTOM"; "UNDEFINED"].
Definition measurement_types : list string := ["ANGLE"; "ACTIVE_POWER"; "APPARENT_POWER"; "REACTIVE_POWER"; "CURRENT"; "VOLTAGE"; "FREQUENCY"; "OTHER"].
Definition sides : list string := ["ONE"; "TWO"; "THREE"].
Definition discrete_types : list string := ["TAP_POSITION"; "SWITCH_POSITION"; "SHUNT_COMPENSATOR_SECTION"; "OTHER"].
Definition tap_changers_2 : list string := ["RATIO_TAP_CHANGER"; "PHASE_TAP_CHANGER"].
Definition tap_changers_3 : list string :=
  ["RATIO_TAP_CHANGER_1"; "RATIO_TAP_CHANGER_2"; "RATIO_TAP_CHANGER_3"; "PHASE_TAP_CHANGER_1"; "PHASE_TAP_CHANGER_2"; "PHASE_TAP_CHANGER_3"].
(** FeederAdder::add (ConnectablePositionAdder.cpp): the name is mandatory. *)
Definition feeder_ok (c : child) : bool := match ch_fields c with [VText n; VText _; VText d] => negb (String.eqb n "") && bool_decide (d ∈ directions) | _ => false end.
(** ConnectablePosition::check (84-104). *)
Definition feeders_ok (ns : list string) : bool :=
  let has n := bool_decide (n ∈ ns) in
  (has "feeder" || has "feeder1" || has "feeder2" || has "feeder3") && negb (has "feeder" && (has "feeder1" || has "feeder2" || has "feeder3")) &&
  (has "feeder1" || negb (has "feeder2" || has "feeder3")) && (has "feeder2" || negb (has "feeder3")).
(** putProperty: MeasurementAdder.cpp:38-44, DiscreteMeasurementAdder.cpp:40-46. *)
Definition props_ok (c : child) : bool := bool_decide (ch_props c !! "" = None).
(** MeasurementAdder::add (26-36), MeasurementValidationUtil.cpp:26-45, the names of the enumerations. A side without being an injection, and so on;
    an extendable that is not a Connectable is a bad cast. *)
Definition measurement_ok (k : cls) (c : child) : bool :=
  match ch_fields c with
  | [VText id; VText ty; VText side; VNum x; VNum d; VBool valid] =>
    bool_decide (ty ∈ measurement_types) && (String.eqb side "" || bool_decide (side ∈ sides)) && negb (valid && bool_decide (x = None)) && is_connectable k &&
    negb (negb (String.eqb side "") && is_injection k) && negb (String.eqb side "" && negb (String.eqb ty "OTHER") && negb (is_injection k)) && props_ok c
  | _ => false
  end.
Definition is_transformer (k : cls) : bool := bool_decide (k = CTwoWt \/ k = CThreeWt).
(** The text of a value as the reader understands it: booleans; an empty text leaves the value unset, which checkValue or getValueType refuse. *)
Definition value_text (ty value : string) : string := if String.eqb ty "BOOLEAN" && negb (String.eqb value "") then bool_text (is_true_text value) else value.
(** DiscreteMeasurementAdder::add (26-38), DiscreteMeasurementValidationUtil.cpp:28-82. *)
Definition discrete_ok (k : cls) (c : child) : bool :=
  match ch_fields c with
  | [VText id; VText ty; VText tap; VText vt; VText x; VBool valid] =>
    bool_decide (ty ∈ discrete_types) && (String.eqb tap "" || bool_decide (tap ∈ tap_changers_2 ++ tap_changers_3)) && bool_decide (vt ∈ ["BOOLEAN"; "INT"; "STRING"]) &&
    negb (String.eqb ty "SWITCH_POSITION" && negb (is_switch k)) && negb (String.eqb ty "TAP_POSITION" && negb (is_transformer k)) &&
    negb (String.eqb tap "" && String.eqb ty "TAP_POSITION") &&
    (String.eqb tap "" || (is_transformer k && negb (bool_decide (k = CTwoWt /\ tap ∉ tap_changers_2)) && negb (bool_decide (k = CThreeWt /\ tap ∈ tap_changers_2)))) &&
    negb (String.eqb x "") && props_ok c
  | _ => false
  end.
(** checkId: MeasurementValidationUtil.cpp:26-30, DiscreteMeasurementValidationUtil.cpp:28-32. *)
Definition child_ids (cs : list child) : list string := omap (fun c => match ch_fields c !! 0 with Some (VText id) => if String.eqb id "" then None else Some id | _ => None end) cs.
(** Everything the readers and the adders check once the attributes, the text and the sub-elements have been read; in the code the checks come as
    the sub-elements are read, only the exception thrown differs. [l]: the object. The extendables: read and assertExtendable of each class. *)
Definition accept (sg : signs) (n : network) (l : leaf) (e : ext) : bool :=
  let k := l_cls l in
  match e_kind e, e_fields e with
  | KDetail, _ => bool_decide (k = CLoad)
  | KSlack, [VOpt (Some id); VText side] => bool_decide (k = CVoltageLevel /\ terminal_level n id side = Some (l_id l))
  | KBusbar, _ => bool_decide (k = CBusbarSection)
  | KStatus, _ => is_connectable k && bool_decide (e_text e ∈ statuses)
  | KArea, _ => bool_decide (k = CSubstation /\ e_text e ∈ areas)
  | KCoordinated, _ => bool_decide (k = CGenerator)
  | KClock3, [a; b] => bool_decide (k = CThreeWt) && clock a && clock b
  | KClock2, [a] => bool_decide (k = CTwoWt) && clock a
  | KRange, [a; b] => bool_decide (k = CHvdcLine) && not_negative sg a && not_negative sg b
  | KDroop, _ => bool_decide (k = CHvdcLine)
  | KSlope, [a] => bool_decide (k = CSvc) && not_negative sg a
  | KActive, _ => bool_decide (k = CGenerator \/ k = CBattery)
  | KXnode, [VText c] => bool_decide (k = CDanglingLine) && negb (String.eqb c "")
  | KMerged, r :: x :: p1 :: q1 :: p2 :: q2 :: VText c :: _ => bool_decide (k = CLine \/ k = CTieLine) && divider sg r && divider sg x && negb (String.eqb c "")
  | KPosition, _ => is_connectable k && forallb feeder_ok (e_children e) && feeders_ok (ch_name <$> e_children e)
  | KMeasurements, _ => forallb (measurement_ok k) (e_children e) && bool_decide (NoDup (child_ids (e_children e)))
  | KDiscrete, _ => forallb (discrete_ok k) (e_children e) && bool_decide (NoDup (child_ids (e_children e)))
  | _, _ => false
  end.
(** What is made of the texts read: a clock of 0, booleans. *)
Definition normal_field (k : ekind) (x : fval) : fval := match k, x with KClock2, VOpt (Some t) | KClock3, VOpt (Some t) => if String.eqb t "0" then VOpt None else x | _, _ => x end.
Definition normal_child (k : ekind) (c : child) : child :=
  match k, ch_fields c with
  | KDiscrete, [id; ty; tap; VText vt; VText x; valid] => Child (ch_name c) [id; ty; tap; VText vt; VText (value_text vt x); valid] (ch_props c)
  | _, _ => c
  end.
(** ** The readers of the serializers. *)
Definition prop_handler (s : gmap string string) (c : cursor) : result (gmap string string * cursor) :=
  let! n := local_name c in
  if String.eqb n "property" then let! k := attr_value c "name" in let! x := attr_value c "value" in Ok (<[k := x]> s, c) else Throw "Unexpected element".
(** A second feeder with the same name replaces the first: ConnectablePositionAdder.cpp, setFeeder. *)
Definition add_ext_child (k : ekind) (c : child) (cs : list child) : list child :=
  match k with KPosition => List.filter (fun d => negb (String.eqb (ch_name d) (ch_name c))) cs ++ [c] | _ => cs ++ [c] end.
Definition read_ext_child (fuel : nat) (mf : option mapping) (k : ekind) (cs : list child) (c : cursor) : result (list child * cursor) :=
  let! n := local_name c in
  match child_fields k n with
  | None => Throw "Unexpected element"
  | Some ds =>
    let! xs := read_fields V1_5 mf ds c in
    letp! (ps, c') := if has_props k then letp! (_, ps, c') := read_until prop_handler fuel n ∅ c in Ok (ps, c') else Ok (∅, c) in
    Ok (add_ext_child k (Child n xs ps) cs, c')
  end.
Definition read_ext (fuel : nat) (sg : signs) (mf : option mapping) (n : network) (l : leaf) (k : ekind) (c : cursor) : result (ext * cursor) :=
  let! xs := read_fields V1_5 mf (ext_fields k) c in
  letp! (t, cs, c') :=
    if has_text k then letp! (t, c') := skip_until fuel (kind_name k) c in Ok ((t, []), c')
    else if has_children_ext k then letp! (_, cs, c') := read_until (read_ext_child fuel mf k) fuel (kind_name k) [] c in Ok (("", cs), c')
    else Ok (("", []), c) in
  let e := Ext k (normal_field k <$> xs) t (normal_child k <$> arrange k cs) in
  if accept sg n l e then Ok (e, c') else Throw "invalid extension".
(** readExtensions: NetworkXml.cpp:117-135. The state: the extensions of the object (Extendable::addExtension replaces the one with the same name), the
    names of the extensions not found. *)
Definition ext_handler (fuel : nat) (sg : signs) (reg : gset string) (i : import) (mf : option mapping) (n : network) (l : leaf) (s : gmap string ext * gset string) (c : cursor)
  : result ((gmap string ext * gset string) * cursor) :=
  let! name := local_name c in
  if negb (selected (i_only i) name) then letp! (_, c') := skip_until fuel name c in Ok (s, c') else
  match find_provider reg name with
  | Some k => letp! (e, c') := read_ext fuel sg mf n l k c in Ok ((<[kind_name k := e]> s.1, s.2), c')
  | None => letp! (_, c') := skip_until fuel name c in Ok ((s.1, {[name]} ∪ s.2), c')
  end.
(** NetworkXml::read: 262-266. *)
Definition read_object_exts (fuel : nat) (sg : signs) (reg : gset string) (i : import) (mf : option mapping) (n : network) (s : exts * gset string) (c : cursor) : result ((exts * gset string) * cursor) :=
  let! ci := attr_value c "id" in
  let! id := dean mf ci in
  match find_object n id with
  | None => Throw "Unable to find object"
  | Some l => letp! (_, s', c') := read_until (ext_handler fuel sg reg i mf n l) fuel "extension" (default ∅ (s.1 !! l_id l), s.2) c in Ok ((<[l_id l := s'.1]> s.1, s'.2), c')
  end.
Definition all_handler (fuel : nat) (sg : signs) (reg : gset string) (i : import) (v : ver) (mf : option mapping) (s : (network * index) * (exts * gset string)) (c : cursor)
  : result (((network * index) * (exts * gset string)) * cursor) :=
  let! name := local_name c in
  if String.eqb name "extension" then letp! (e, c') := read_object_exts fuel sg reg i mf s.1.1 s.2 c in Ok ((s.1, e), c')
  else letp! (n, c') := net_handler fuel v mf s.1 c in Ok ((n, s.2), c').
(** NetworkXml::read: 202-282; checkExtensionsNotFound (48-59) comes before the end tasks. *)
Definition read_all (fuel : nat) (sg : signs) (reg : gset string) (i : import) (mf : option mapping) (c : cursor) : result (network * exts) :=
  let! uri := attr_value c "xmlns:iidm" in
  let! v := from_uri uri in
  let! id := attr_value c "id" in
  let! fs := read_fields v None (schema CNetwork) c in
  let! idx := add_object id ∅ in
  letp! (_, s, _) := read_until (all_handler fuel sg reg i v mf) fuel "network" ((Net (Leaf CNetwork id "" false ∅ ∅ fs ∅) [] [] [], idx), (∅, ∅)) c in
  if i_throw i && negb (bool_decide (s.2.2 = ∅)) then Throw "Extensions not found!" else
  if forallb (fun r => bool_decide (r ∈ s.1.2)) (net_part_refs s.1.1) then Ok (s.1.1, s.2.1) else Throw "Terminal reference identifiable not found".
