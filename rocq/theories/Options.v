(** Model of the options of the export and of the import: src/iidm/converter/ExportOptions.cpp, ImportOptions.cpp, Parameter.cpp,
    ConversionParameters.cpp.  [export] and [import] (ExtXml.v) are the parts that concern the extensions; the properties are the
    std::map of PropMap.v.  Not modelled: readDoubleParameter, no parameter being a double.  Characters are bytes, compared without
    case as in the classic locale. *)
From stdpp Require Export list strings gmap.
From Coq Require Export Ascii.
From Verif Require Export PropMap EnumTables ExtXml.

(** Parameter.cpp:20-30: the names, the first being the main one, and the default value; the type and the description are not used. *)
Record param := mkParam { pa_names : list string; pa_default : string }.

(** std::toupper in the classic locale. *)
Definition upper (c : ascii) : ascii :=
  if Nat.leb 97 (nat_of_ascii c) && Nat.leb (nat_of_ascii c) 122 then ascii_of_nat (nat_of_ascii c - 32) else c.
(** boost::iequals: the same length, and the same characters once in upper case. *)
Fixpoint iequals (a b : string) : bool :=
  match a, b with
  | EmptyString, EmptyString => true
  | String c a', String d b' => bool_decide (upper c = upper d) && iequals a' b'
  | _, _ => false
  end.
(** boost::algorithm::split with is_any_of(",:"), without compression of the separators. *)
Definition is_separator (c : ascii) : bool := bool_decide (c = ","%char) || bool_decide (c = ":"%char).
Fixpoint pieces_of (s : string) : list string :=
  match s with
  | EmptyString => [""]
  | String c s' => if is_separator c then "" :: pieces_of s' else match pieces_of s' with w :: ws => String c w :: ws | [] => [String c ""] end
  end.

(** The loop common to the three functions of ConversionParameters.cpp:24-31, 42-50, 52-59: the value under the first name present. *)
Fixpoint value_of (names : list string) (ps : pmap) : option (result string) :=
  match names with [] => None | n :: names' => if p_contains n ps then Some (p_get n ps) else value_of names' ps end.
(** readBooleanParameter: ConversionParameters.cpp:24-31; getBooleanDefaultValue: Parameter.cpp:32-34. *)
Definition read_boolean (ps : pmap) (p : param) : result bool :=
  match value_of (pa_names p) ps with Some r => let! v := r in Ok (iequals v "true") | None => Ok (iequals (pa_default p) "true") end.
(** readStringListParameter: 42-50; getStringListDefaultValue: Parameter.cpp:56-62. *)
Definition read_list (ps : pmap) (p : param) : result (list string) :=
  match value_of (pa_names p) ps with
  | Some r => let! v := r in Ok (pieces_of v)
  | None => Ok (if bool_decide (pa_default p = "") then [] else pieces_of (pa_default p))
  end.
(** readStringParameter: 52-59. *)
Definition read_string (ps : pmap) (p : param) : result string := match value_of (pa_names p) ps with Some r => r | None => Ok (pa_default p) end.

(** ExportOptions.hpp:28-36, ExportOptions.cpp:39-47. *)
Definition p_anonymised := mkParam ["iidm.export.xml.anonymised"] "false".
Definition p_extensions := mkParam ["iidm.export.xml.extensions"] "".
Definition p_behavior := mkParam ["iidm.export.xml.iidm-version-incompatibility-behavior"] "THROW_EXCEPTION".
Definition p_indent := mkParam ["iidm.export.xml.indent"] "true".
Definition p_main_cc := mkParam ["iidm.export.xml.only-main-cc"] "false".
Definition p_throw := mkParam (["iidm.export.xml.throw-exception-if-extension-not-found"] ++ ["throwExceptionIfExtensionNotFound"]) "false".
Definition p_topology := mkParam ["iidm.export.xml.topology-level"] "NODE_BREAKER".
Definition p_version := mkParam ["iidm.export.xml.version"] (ver_text "." V1_5).
Definition p_branch_sv := mkParam ["iidm.export.xml.with-branch-state-variables"] "true".
(** ImportOptions.hpp:24-25, ImportOptions.cpp:21-23. *)
Definition p_import_extensions := mkParam ["iidm.import.xml.extensions"] "".
Definition p_import_throw := mkParam (["iidm.import.xml.throw-exception-if-extension-not-found"] ++ ["throwExceptionIfExtensionNotFound"]) "false".

(** ExportOptions.hpp:265-283; topology level and behavior: the values of the enumerations of EnumTables.v. *)
Record xopts := mkXOpts { xo_anonymized : bool; xo_indent : bool; xo_main_cc : bool; xo_topology : nat; xo_branch_sv : bool; xo_ext : export; xo_version : string; xo_behavior : nat }.
(** ExportOptions(): ExportOptions.hpp:47, 265-283. *)
Definition xopts_default : xopts := mkXOpts false true false 0 true (Export ∅ false ∅) "" 0.
(** ExportOptions(withBranchSV, ...): ExportOptions.cpp:54-64. *)
Definition xopts_of (branch_sv indent main_cc : bool) (topology : nat) (throw : bool) (version : string) (behavior : nat) : xopts :=
  mkXOpts false indent main_cc topology branch_sv (Export ∅ throw ∅) version behavior.
(** ExportOptions(parameters): 66-76, in the order of the members; toSet: set.hpp:29-32. *)
Definition xopts_read (ps : pmap) : result xopts :=
  let! anonymized := read_boolean ps p_anonymised in
  let! indent := read_boolean ps p_indent in
  let! main_cc := read_boolean ps p_main_cc in
  let! throw := read_boolean ps p_throw in
  let! level := read_string ps p_topology in
  let! topology := from_string e_TopologyLevel level in
  let! branch_sv := read_boolean ps p_branch_sv in
  let! exts := read_list ps p_extensions in
  let! version := read_string ps p_version in
  let! text := read_string ps p_behavior in
  let! behavior := from_string e_ExportOptions_IidmVersionIncompatibilityBehavior text in
  Ok (mkXOpts anonymized indent main_cc topology branch_sv (Export (list_to_set exts) throw ∅) version behavior).
(** ImportOptions(): ImportOptions.hpp:28; ImportOptions(parameters): ImportOptions.cpp:25-28. *)
Definition iopts_default : import := Import ∅ false.
Definition iopts_read (ps : pmap) : result import :=
  let! throw := read_boolean ps p_import_throw in
  let! exts := read_list ps p_import_extensions in
  Ok (Import (list_to_set exts) throw).

(** The calls on export options: ExportOptions.cpp:78-94, 148-191. *)
Inductive xcall :=
| XAddExtension (n : string) | XAddVersion (n v : string) | XSetExtensions (l : gset string)
| XSetAnonymized (b : bool) | XSetIndent (b : bool) | XSetMainCc (b : bool) | XSetThrow (b : bool) | XSetTopology (l : nat)
| XSetVersion (v : string) | XSetBranchSV (b : bool) | XSetBehavior (b : nat).
Definition with_ext (o : xopts) (e : export) : xopts :=
  mkXOpts (xo_anonymized o) (xo_indent o) (xo_main_cc o) (xo_topology o) (xo_branch_sv o) e (xo_version o) (xo_behavior o).
Definition xcall_run (c : xcall) (o : xopts) : result unit * xopts :=
  let 'mkXOpts an ind cc tl sv e ve be := o in
  let only := x_only e in let vs := x_versions e in
  match c with
  (* 78-81 *)
  | XAddExtension n => (Ok tt, with_ext o (Export ({[n]} ∪ only) (x_throw e) vs))
  (* 83-94 *)
  | XAddVersion n v =>
    if bool_decide (only <> ∅) && bool_decide (n ∉ only) then (Throw "is not an extension you have passed in the extensions list to export.", o)
    else match vs !! n with
         | Some _ => (Throw "The version of the XML serializer has already been set.", o)
         | None => (Ok tt, with_ext o (Export only (x_throw e) (<[n := v]> vs)))
         end
  (* 153-156 *)
  | XSetExtensions l => (Ok tt, with_ext o (Export l (x_throw e) vs))
  | XSetAnonymized b => (Ok tt, mkXOpts b ind cc tl sv e ve be)
  | XSetBehavior b => (Ok tt, mkXOpts an ind cc tl sv e ve b)
  | XSetIndent b => (Ok tt, mkXOpts an b cc tl sv e ve be)
  | XSetMainCc b => (Ok tt, mkXOpts an ind b tl sv e ve be)
  | XSetThrow b => (Ok tt, with_ext o (Export only b vs))
  | XSetTopology l => (Ok tt, mkXOpts an ind cc l sv e ve be)
  | XSetVersion v => (Ok tt, mkXOpts an ind cc tl sv e v be)
  | XSetBranchSV b => (Ok tt, mkXOpts an ind cc tl b e ve be)
  end.
(** The options after some calls, the exceptions being caught. *)
Definition xruns (cs : list xcall) (o : xopts) : xopts := fold_left (fun o c => (xcall_run c o).2) cs o.

(** getExtensionVersion: 96-102. *)
Definition ext_version (o : xopts) (n : string) : string := default "" (x_versions (xo_ext o) !! n).
(** withExtension: 193-195. *)
Definition with_extension (o : xopts) (n : string) : bool := selected (x_only (xo_ext o)) n.
(** hasAtLeastOneExtension: 116-126; [l]: the names of the extensions given. *)
Definition has_one_extension (o : xopts) (l : list string) : bool :=
  if bool_decide (x_only (xo_ext o) = ∅) then true else existsb (fun n => bool_decide (n ∈ x_only (xo_ext o))) l.
(** The version of the file, NetworkXml.cpp:295: the current one by default; CURRENT_IIDM_XML_VERSION: IidmXmlVersion.cpp:75-77. *)
Definition file_version (o : xopts) : result ver := if bool_decide (xo_version o = "") then Ok V1_5 else version_of (xo_version o) ".".
