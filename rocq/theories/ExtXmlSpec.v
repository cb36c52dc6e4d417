(** Specification of the extensions in the XML file. *)
From Verif Require Export ExtXml NetXmlSpec NetXmlShape.

(** ** Terminals: the terminal of an injection is in the voltage level of the injection, that of a side of a branch or of a three windings transformer in
    the voltage level the object has for that side. *)
(** The place of the voltage level of each side in the attributes of NetXmlShape.v. *)
Definition side_table : list (cls * string * nat) :=
  [(CTwoWt, "1", 10); (CTwoWt, "2", 14); (CThreeWt, "1", 22); (CThreeWt, "2", 26); (CThreeWt, "3", 30); (CLine, "1", 9); (CLine, "2", 13); (CTieLine, "1", 4); (CTieLine, "2", 8)].
Inductive terminal_in (n : network) : string -> string -> string -> Prop :=
| in_injection s x l : s ∈ n_subs n -> x ∈ s_vls s -> l ∈ v_sections x ++ v_eqs x -> terminal_in n (l_id l) "" (l_id (v_leaf x))
| in_side l d side i vl : l ∈ net_leaves n -> (d, side) ∈ [("1", "ONE"); ("2", "TWO"); ("3", "THREE")] ->
    (l_cls l, d, i) ∈ side_table -> l_fields l !! i = Some (VOpt (Some vl)) -> terminal_in n (l_id l) side vl.
Definition injections : list cls := [CBusbarSection; CLoad; CGenerator; CBattery; CShunt; CDanglingLine; CSvc; CVsc; CLcc].
Definition others : list cls := [CTwoWt; CThreeWt; CLine; CTieLine].

(** ** Extensions that survive the file: [ext_ok sg n l e]: [e] may be an extension of the object [l] of the network [n]. Numbers are not NaN unless they
    are optional. *)
Definition feeder (c : child) : Prop :=
  exists name order dir, ch_fields c = [VText name; VText order; VText dir] /\ ch_props c = ∅ /\ name <> "" /\ dir ∈ ["TOP"; "BOTTOM"; "UNDEFINED"].
(** A measurement of an injection has no side; another one has a side, unless it is of the type OTHER; a valid one has a value. *)
Definition measurement (k : cls) (c : child) : Prop :=
  exists id ty side x d valid, ch_name c = "measurement" /\ ch_fields c = [VText id; VText ty; VText side; VNum x; VNum d; VBool valid] /\
  ty ∈ ["ANGLE"; "ACTIVE_POWER"; "APPARENT_POWER"; "REACTIVE_POWER"; "CURRENT"; "VOLTAGE"; "FREQUENCY"; "OTHER"] /\
  ((k ∈ injections /\ side = "") \/ (k ∈ others /\ (side ∈ ["ONE"; "TWO"; "THREE"] \/ (side = "" /\ ty = "OTHER")))) /\
  (valid = true -> x <> None) /\ ch_props c !! "" = None.
(** A discrete measurement: of the position of a switch, of a tap changer (given for these); the value is not an empty text. *)
Definition discrete (k : cls) (c : child) : Prop :=
  exists id ty tap vt x valid, ch_name c = "discreteMeasurement" /\ ch_fields c = [VText id; VText ty; VText tap; VText vt; VText x; VBool valid] /\
  ty ∈ ["TAP_POSITION"; "SWITCH_POSITION"; "SHUNT_COMPENSATOR_SECTION"; "OTHER"] /\ (ty = "SWITCH_POSITION" -> k = CBusSwitch \/ k = CNodeSwitch) /\ (ty = "TAP_POSITION" -> tap <> "") /\
  (tap = "" \/ (k = CTwoWt /\ tap ∈ ["RATIO_TAP_CHANGER"; "PHASE_TAP_CHANGER"]) \/
   (k = CThreeWt /\ tap ∈ ["RATIO_TAP_CHANGER_1"; "RATIO_TAP_CHANGER_2"; "RATIO_TAP_CHANGER_3"; "PHASE_TAP_CHANGER_1"; "PHASE_TAP_CHANGER_2"; "PHASE_TAP_CHANGER_3"])) /\
  ((vt = "BOOLEAN" /\ (x = "true" \/ x = "false")) \/ (vt = "INT" /\ x <> "") \/ (vt = "STRING" /\ x <> "")) /\ ch_props c !! "" = None.
(** Identifiers of measurements, when given, are unique. *)
Definition unique_ids (cs : list child) : Prop :=
  forall i j c d id, cs !! i = Some c -> cs !! j = Some d -> ch_fields c !! 0 = Some (VText id) -> ch_fields d !! 0 = Some (VText id) -> id <> "" -> i = j.
Definition codes : list string :=
  ["AL"; "AT"; "BA"; "BE"; "BG"; "BY"; "CH"; "CZ"; "DE"; "D1"; "D2"; "D4"; "D7"; "D8"; "DK"; "ES"; "FR"; "GB"; "GR"; "HR"; "HU"; "IT"; "KS"; "LU"; "LT"; "MA"; "MD"; "ME"; "MK";
   "NL"; "NO"; "PL"; "PT"; "RO"; "RS"; "RU"; "SE"; "SK"; "SI"; "TR"; "UA"; "UC"; "UX"].
Definition hour (x : fval) : Prop := x = VOpt None \/ exists t, x = VOpt (Some t) /\ t ∈ ["1"; "2"; "3"; "4"; "5"; "6"; "7"; "8"; "9"; "10"; "11"].
Definition nonneg (sg : signs) (x : option string) : Prop := forall t, x = Some t -> negative sg t = false.
Inductive ext_ok (sg : signs) (n : network) (l : leaf) : ext -> Prop :=
| ok_detail a b c d : l_cls l = CLoad -> ext_ok sg n l (Ext KDetail [VNum (Some a); VNum (Some b); VNum (Some c); VNum (Some d)] "" [])
| ok_slack id side : l_cls l = CVoltageLevel -> terminal_in n id side (l_id l) -> ext_ok sg n l (Ext KSlack [VOpt (Some id); VText side] "" [])
| ok_busbar a b : l_cls l = CBusbarSection -> ext_ok sg n l (Ext KBusbar [VText a; VText b] "" [])
| ok_status s : l_cls l ∈ injections ++ others -> s ∈ ["IN_OPERATION"; "PLANNED_OUTAGE"; "FORCED_OUTAGE"] -> ext_ok sg n l (Ext KStatus [] s [])
| ok_area s : l_cls l = CSubstation -> s ∈ codes -> ext_ok sg n l (Ext KArea [] s [])
| ok_position cs : l_cls l ∈ injections ++ others -> Forall feeder cs ->
    ch_name <$> cs ∈ [["feeder"]; ["feeder1"]; ["feeder1"; "feeder2"]; ["feeder1"; "feeder2"; "feeder3"]] -> ext_ok sg n l (Ext KPosition [] "" cs)
| ok_coordinated q : l_cls l = CGenerator -> ext_ok sg n l (Ext KCoordinated [VNum (Some q)] "" [])
| ok_measurements cs : Forall (measurement (l_cls l)) cs -> unique_ids cs -> ext_ok sg n l (Ext KMeasurements [] "" cs)
| ok_discrete cs : Forall (discrete (l_cls l)) cs -> unique_ids cs -> ext_ok sg n l (Ext KDiscrete [] "" cs)
| ok_clock3 a b : l_cls l = CThreeWt -> hour a -> hour b -> ext_ok sg n l (Ext KClock3 [a; b] "" [])
| ok_clock2 a : l_cls l = CTwoWt -> hour a -> ext_ok sg n l (Ext KClock2 [a] "" [])
| ok_range a b : l_cls l = CHvdcLine -> nonneg sg a -> nonneg sg b -> ext_ok sg n l (Ext KRange [VNum a; VNum b] "" [])
| ok_slope a : l_cls l = CSvc -> nonneg sg (Some a) -> ext_ok sg n l (Ext KSlope [VNum (Some a)] "" [])
| ok_active b d : l_cls l = CGenerator \/ l_cls l = CBattery -> ext_ok sg n l (Ext KActive [VBool b; VNum (Some d)] "" [])
| ok_droop p d b : l_cls l = CHvdcLine -> ext_ok sg n l (Ext KDroop [VNum (Some p); VNum (Some d); VBool b] "" [])
| ok_xnode c : l_cls l = CDanglingLine -> c <> "" -> ext_ok sg n l (Ext KXnode [VText c] "" [])
| ok_merged r x p1 q1 p2 q2 c n1 n2 : l_cls l = CLine \/ l_cls l = CTieLine -> nonneg sg (Some r) -> nonneg sg (Some x) -> above_one sg r = false -> above_one sg x = false -> c <> "" ->
    ext_ok sg n l (Ext KMerged [VNum (Some r); VNum (Some x); VNum (Some p1); VNum (Some q1); VNum (Some p2); VNum (Some q2); VText c; VText n1; VText n2] "" []).
(** What comes back: the same, except for the names of the lines of a merged node, which are lost. *)
Definition as_read (e : ext) : ext :=
  match e with
  | Ext KMerged [r; x; p1; q1; p2; q2; c; _; _] t cs => Ext KMerged [r; x; p1; q1; p2; q2; c; VText ""; VText ""] t cs
  | _ => e
  end.

(** ** The extensions of a network. *)
Definition ext_of (xs : exts) (id name : string) : option ext := xs !! id ≫= fun es => es !! name.
(** They are kept by name. *)
Definition named_exts (xs : exts) : Prop := forall id name e, ext_of xs id name = Some e -> kind_name (e_kind e) = name.
(** An empty list of extensions in the options stands for all. *)
Definition asked (only : gset string) (name : string) : Prop := only = ∅ \/ name ∈ only.
(** The names of the serializers of the library, of which [reg] are loaded. *)
Definition library : list string := kind_name <$> known.
Definition loaded (reg : gset string) (name : string) : Prop := name ∈ reg /\ name ∈ library.
(** The objects of the network, itself excepted. *)
Definition objects (n : network) : list leaf := mjoin (sub_leaves <$> n_subs n) ++ n_lines n ++ n_hvdcs n.
(** The extensions asked for are as above. *)
Definition exts_ok (sg : signs) (x : export) (n : network) (xs : exts) : Prop :=
  named_exts xs /\ forall l name e, l ∈ objects n -> ext_of xs (l_id l) name = Some e -> asked (x_only x) name -> ext_ok sg n l e.
(** There is an extension to import whose serializer is not loaded. *)
Definition unknown (reg : gset string) (x : export) (i : import) (n : network) (xs : exts) : Prop :=
  exists l name e, l ∈ objects n /\ ext_of xs (l_id l) name = Some e /\ asked (x_only x) name /\ asked (i_only i) name /\ ~ loaded reg name.
(** [e] is what the network read back has under that name. *)
Definition comes_back (reg : gset string) (x : export) (i : import) (n : network) (xs : exts) (id name : string) (e : ext) : Prop :=
  exists l e0, l ∈ objects n /\ l_id l = id /\ ext_of xs id name = Some e0 /\ asked (x_only x) name /\ asked (i_only i) name /\ loaded reg name /\ e = as_read e0.

(** ** What can be exported. *)
(** Extensions that say nothing: a slack terminal without terminal, measurements without measurement. *)
Definition empty_ext (e : ext) : Prop := (e_kind e = KSlack /\ e_fields e !! 0 = Some (VOpt None)) \/ ((e_kind e = KMeasurements \/ e_kind e = KDiscrete) /\ e_children e = []).
Definition version_asked (x : export) (name : string) : string := default "" (x_versions x !! name).
(** The objects: the serializers are loaded, the extensions are not empty (unless missing serializers are to be reported), the version asked for is
    the only one. The slack terminals: the version of the network has them, the version asked for is the one for that version of the network. *)
Definition exportable (reg : gset string) (x : export) (v : ver) (n : network) (xs : exts) : Prop :=
  (forall l name e, l ∈ objects n -> ext_of xs (l_id l) name = Some e -> asked (x_only x) name ->
     loaded reg name /\ (x_throw x = false -> ~ empty_ext e) /\ (name <> "slackTerminal" -> version_asked x name ∈ [""; "1.0"])) /\
  (forall l e, l ∈ n_leaf n :: objects n -> ext_of xs (l_id l) "slackTerminal" = Some e -> asked (x_only x) "slackTerminal" -> loaded reg "slackTerminal" ->
     exists w, (v, w) ∈ [(V1_3, "1.0"); (V1_4, "1.1"); (V1_5, "1.2")] /\ version_asked x "slackTerminal" ∈ [""; w]).
