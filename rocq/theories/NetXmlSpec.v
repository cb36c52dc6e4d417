(** Specification of the XML round trip. *)
From Verif Require Export NetXml.

(** ** What a version cannot carry. *)
Definition number (v : ver) : nat := match v with V1_0 => 0 | V1_1 => 1 | V1_2 => 2 | V1_3 => 3 | V1_4 => 4 | V1_5 => 5 end.
(** The version is older than 1.[n]. *)
Definition older (v : ver) (n : nat) : bool := number v <? n.
(** Tap changers before 1.2: a target deadband of zero is not told from none; what is read is zero if the tap changer is regulating, none if not. *)
Definition degrade_deadband (db reg : fval) : fval :=
  if bool_decide (db ∈ [VNum None; VNum (Some "0"); VNum (Some "-0")]) then (if bool_decide (reg = VBool true) then VNum (Some "0") else VNum None) else db.
Definition degrade_part (v : ver) (p : part) : part :=
  match p with
  | Part PRatio (low :: tap :: db :: x :: reg :: fs) cs => if older v 2 then Part PRatio (low :: tap :: degrade_deadband db reg :: x :: reg :: fs) cs else p
  | Part PPhase (low :: tap :: db :: x :: reg :: fs) cs => if older v 2 then Part PPhase (low :: tap :: degrade_deadband db reg :: x :: reg :: fs) cs else p
  | _ => p
  end.
Definition power_limits : list string :=
  ["activePowerLimits"; "activePowerLimits1"; "activePowerLimits2"; "activePowerLimits3"; "apparentPowerLimits"; "apparentPowerLimits1"; "apparentPowerLimits2"; "apparentPowerLimits3"].
(** Parts that are lost: power limits before 1.5, the non linear model of a shunt compensator before 1.3, its regulating terminal before 1.2,
    the reactive limits of the generation of a dangling line before 1.3, and in every version limits without any value. *)
Definition lost (v : ver) (c : cls) (key : string) (p : part) : bool :=
  (older v 5 && bool_decide (key ∈ power_limits)) || (older v 3 && bool_decide (c = CShunt /\ key = "model")) ||
  (older v 2 && bool_decide (c = CShunt /\ key = "regulatingTerminal")) || (older v 3 && bool_decide (c = CDanglingLine /\ key = "reactiveLimits")) ||
  bool_decide (p = Part PLimits [VNum None] []).
Definition degrade_parts (v : ver) (l : leaf) : gmap string part :=
  map_imap (fun key p => if lost v (l_cls l) key p then None else Some (degrade_part v p)) (l_parts l).
(** The half of a tie line: a name equal to the identifier is the same as none; fictitious flags are lost before 1.3. *)
Definition degrade_half (v : ver) (h : list fval) : list fval :=
  match h with
  | [VText i; VText n; r; x; g1; b1; g2; b2; f] => [VText i; VText (if String.eqb n i then "" else n); r; x; g1; b1; g2; b2; if older v 3 then VBool false else f]
  | _ => h
  end.
(** Difference of two numbers, the second being optional. *)
Definition minus_opt (o : opts) (x y : fval) : fval := match x, y with VNum (Some s), VNum (Some t) => VNum (Some (o_minus o s t)) | _, _ => x end.
Definition degrade_fields (o : opts) (l : leaf) : list fval :=
  let v := o_ver o in
  match l_cls l, l_fields l with
  | CTwoWt, r :: x :: g :: b :: u1 :: u2 :: s :: fs => (* rated powers before 1.2 *)
    r :: x :: g :: b :: u1 :: u2 :: (if older v 2 then VNum None else s) :: fs
  | CThreeWt, r1 :: x1 :: g1 :: b1 :: u1 :: s1 :: r2 :: x2 :: g2 :: b2 :: u2 :: s2 :: r3 :: x3 :: g3 :: b3 :: u3 :: s3 :: u0 :: fs =>
    (* rated powers before 1.2; g and b of legs 2 and 3 and the rated voltage of the star point in 1.0 *)
    let s x := if older v 2 then VNum None else x in
    let z x := if older v 1 then VNum (Some "0") else x in
    r1 :: x1 :: g1 :: b1 :: u1 :: s s1 :: r2 :: x2 :: z g2 :: z b2 :: u2 :: s s2 :: r3 :: x3 :: z g3 :: z b3 :: u3 :: s s3 :: (if older v 1 then u1 else u0) :: fs
  | CShunt, b :: g :: mx :: n :: on :: tv :: td :: fs =>
    (* before 1.3 the conductance is lost and a non linear model becomes one section; before 1.2 there is no voltage regulation *)
    let reg := if older v 2 then [VBool false; VNum None; VNum None] else [on; tv; td] in
    match l_parts l !! "model" with
    | Some p => if older v 3 then VNum (Some (o_b o p n)) :: VNum None :: VText "1" :: VText "1" :: reg ++ fs else b :: g :: mx :: n :: reg ++ fs
    | None => b :: (if older v 3 then VNum None else g) :: mx :: n :: reg ++ fs
    end
  | CDanglingLine, p0 :: q0 :: r :: x :: g :: b :: mn :: mx :: on :: tp :: tv :: tq :: fs =>
    (* before 1.3 the generation is subtracted from the load *)
    if older v 3 then
      (if bool_decide (on = VOpt None) then [p0; q0] else [minus_opt o p0 tp; minus_opt o q0 tq]) ++ r :: x :: g :: b :: VNum None :: VNum None :: VOpt None :: VNum None :: VNum None :: VNum None :: fs
    else l_fields l
  | CTieLine, fs => take 13 fs ++ degrade_half v (take 9 (drop 13 fs)) ++ degrade_half v (drop 22 fs)
  | _, fs => fs
  end.
(** Objects: fictitious flags before 1.2 (except for switches), aliases before 1.3, the types of aliases in 1.3, and the above. *)
Definition degrade_fict (v : ver) (l : leaf) : bool := if older v 2 && negb (is_switch (l_cls l)) then false else l_fict l.
Definition degrade_aliases (v : ver) (l : leaf) : gmap string string := if older v 3 then ∅ else if older v 4 then (fun _ => "") <$> l_aliases l else l_aliases l.
Definition degrade_leaf (o : opts) (l : leaf) : leaf :=
  Leaf (l_cls l) (l_id l) (l_name l) (degrade_fict (o_ver o) l) (degrade_aliases (o_ver o) l) (l_props l) (degrade_fields o l) (degrade_parts (o_ver o) l).
Definition degrade_vl (o : opts) (x : vlevel) : vlevel :=
  VLevel (degrade_leaf o (v_leaf x)) (v_nb x) (degrade_leaf o <$> v_buses x) (degrade_leaf o <$> v_sections x) (degrade_leaf o <$> v_switches x) (v_ics x) (degrade_leaf o <$> v_eqs x).
Definition degrade_sub (o : opts) (x : substation) : substation :=
  Sub (degrade_leaf o (s_leaf x)) (degrade_vl o <$> s_vls x) (degrade_leaf o <$> s_twts x) (degrade_leaf o <$> s_thwts x).
(** The network itself: neither its name nor its fictitious flag is written, in any version. *)
Definition degrade_root (o : opts) (l : leaf) : leaf := Leaf CNetwork (l_id l) "" false (degrade_aliases (o_ver o) l) (l_props l) (l_fields l) ∅.
Definition degrade (o : opts) (n : network) : network :=
  Net (degrade_root o (n_leaf n)) (degrade_sub o <$> n_subs n) (degrade_leaf o <$> n_lines n) (degrade_leaf o <$> n_hvdcs n).

(** ** Networks the library can hold, in terms of the tables of the converter. The theorems use the definitions of NetXmlShape.v, which are equivalent (net_iff). *)
(** Values of the right type; a mandatory attribute has a value. [a]: anonymized. *)
Definition value_ok (a : bool) (r : rkind) (x : fval) : Prop :=
  match r, x with
  | RNum, VNum (Some _) | RNumOpt, VNum _ | RBool, VBool _ | RBoolOr _, VBool _ | RText, VText _ | RNat, VText _ | ROpt, VOpt _
  | RAnonOpt, VOpt _ | RAnonText, VText _ | RAnonMand, VText _ | RRef, VOpt (Some _) | RAnon, VOpt (Some _) => True
  | RTextOr d, VText s => s <> "" \/ d = ""
  | RTags, VTags l => Forall (fun t => t <> "" /\ (a = false -> ","%char ∉ to_str t)) l
  | _, _ => False
  end.
Definition typed (a : bool) (ds : list fdesc) (xs : list fval) : Prop := Forall2 (fun d x => value_ok a (fd_r d) x) ds xs.
(** Temporary limits have distinct durations, the points of a curve distinct active powers. *)
Definition part_ok (a : bool) (p : part) : Prop :=
  typed a (pschema (p_kind p)) (p_fields p) /\
  (forall n xs, (n, xs) ∈ p_children p -> exists ds, cschema (p_kind p) n = Some ds /\ typed a ds xs) /\
  match p_kind p with
  | PLimits => NoDup ((fun c => c.2 !! 1) <$> p_children p)
  | PCurve => NoDup ((fun c => c.2 !! 0) <$> p_children p)
  | _ => True
  end.
(** The attributes. Switches of bus/breaker levels are retained breakers; a shunt compensator has a linear or a non linear model; without
    generation, a dangling line has no value for what describes it. *)
Definition fields_ok (a : bool) (l : leaf) : Prop :=
  match l_cls l with
  | CShunt =>
    match l_fields l with
    | b :: g :: mx :: fs =>
      typed a (drop 3 (schema CShunt)) fs /\
      match l_parts l !! "model" with
      | None => typed a [num_field "bPerSection"; opt_num_field "gPerSection"; nat_field "maximumSectionCount"] [b; g; mx]
      | Some p => p_kind p = PNonLinear /\ b = VNum None /\ g = VNum None /\ mx = VText ""
      end
    | _ => False
    end
  | CBusSwitch => typed a (schema CBusSwitch) (l_fields l) /\ take 2 (l_fields l) = [VText "BREAKER"; VBool true]
  | CDanglingLine =>
    typed a (schema CDanglingLine) (l_fields l) /\
    match l_fields l with
    | p0 :: q0 :: r :: x :: g :: b :: mn :: mx :: on :: tp :: tv :: tq :: fs =>
      (on = VOpt None /\ mn = VNum None /\ mx = VNum None /\ tp = VNum None /\ tv = VNum None /\ tq = VNum None /\ l_parts l !! "reactiveLimits" = None) \/
      on = VOpt (Some "true") \/ on = VOpt (Some "false")
    | _ => False
    end
  | c => typed a (schema c) (l_fields l)
  end.
Definition leaf_ok (a : bool) (k : cls) (l : leaf) : Prop :=
  l_cls l = k /\ l_id l <> "" /\ fields_ok a l /\
  (* aliases are not blank; an object has at most one alias of each type *)
  (forall s t, l_aliases l !! s = Some t -> blank s = false) /\
  (forall s1 s2 t, t <> "" -> l_aliases l !! s1 = Some t -> l_aliases l !! s2 = Some t -> s1 = s2) /\
  (* the parts are parts of the class *)
  (forall key p, l_parts l !! key = Some p -> part_ok a p /\ exists s, s ∈ slots k /\ sl_key s = key /\ p_kind p ∈ (sl_kinds s).*2).
(** Buses: no property, no alias (from 1.3 on, where they are written). *)
Definition bus_ok (a : bool) (v : ver) (l : leaf) : Prop :=
  leaf_ok a CBus l /\ l_props l = ∅ /\ (older v 3 = false -> l_aliases l = ∅).
Definition leaf_refs (l : leaf) : list string := refs (schema (l_cls l)) (l_fields l).
Definition vl_ok (a : bool) (v : ver) (x : vlevel) : Prop :=
  leaf_ok a CVoltageLevel (v_leaf x) /\
  (if v_nb x then v_buses x = [] /\ Forall (leaf_ok a CBusbarSection) (v_sections x) /\ Forall (leaf_ok a CNodeSwitch) (v_switches x)
   else v_sections x = [] /\ v_ics x = [] /\ Forall (bus_ok a v) (v_buses x) /\ Forall (leaf_ok a CBusSwitch) (v_switches x)) /\
  Forall (fun l => l_cls l ∈ eq_classes /\ leaf_ok a (l_cls l) l) (v_eqs x) /\
  (* the equipments are listed class after class *)
  v_eqs x = mjoin (map (fun c => filter (fun l => l_cls l = c) (v_eqs x)) eq_classes) /\
  (* switches and equipments refer to buses of the level *)
  (forall l r, l ∈ v_switches x ++ v_eqs x -> r ∈ leaf_refs l -> r ∈ map l_id (v_buses x)).
Definition sub_ok (a : bool) (v : ver) (x : substation) : Prop :=
  leaf_ok a CSubstation (s_leaf x) /\ Forall (vl_ok a v) (s_vls x) /\ Forall (leaf_ok a CTwoWt) (s_twts x) /\ Forall (leaf_ok a CThreeWt) (s_thwts x) /\
  (* transformers refer to objects of the voltage levels *)
  (forall l r, l ∈ s_twts x ++ s_thwts x -> r ∈ leaf_refs l -> r ∈ map l_id (mjoin (vl_leaves <$> s_vls x))).
Definition leaf_names (l : leaf) : list string := l_id l :: (map_to_list (l_aliases l)).*1.
Definition net_ok (a : bool) (v : ver) (n : network) : Prop :=
  leaf_ok false CNetwork (n_leaf n) /\ Forall (sub_ok a v) (n_subs n) /\
  Forall (fun l => l_cls l ∈ [CLine; CTieLine] /\ leaf_ok a (l_cls l) l) (n_lines n) /\ Forall (leaf_ok a CHvdcLine) (n_hvdcs n) /\
  (* identifiers and aliases are unique *)
  NoDup (mjoin (leaf_names <$> net_leaves n)) /\
  (* lines refer to objects of the substations *)
  (forall l r, l ∈ n_lines n ++ n_hvdcs n -> r ∈ leaf_refs l -> r ∈ map l_id (mjoin (sub_leaves <$> n_subs n))) /\
  (* regulating terminals are those of objects of the network *)
  (forall l r, l ∈ net_leaves n -> r ∈ leaf_part_refs l -> r ∈ map l_id (net_leaves n)).
(** The mapping available to the reader contains the mapping of the writer. *)
Definition available (m mf : option mapping) : Prop :=
  match m, mf with None, None => True | Some m, Some mf => NoDup (map fst mf) /\ NoDup (map snd mf) /\ forall p, p ∈ m -> p ∈ mf | _, _ => False end.

(** ** What a version does not support, for an export that should throw. *)
(** Sub-elements that 1.0 does not have. *)
Definition since_1_1 (c : cls) : list string :=
  match c with CSvc => ["regulatingTerminal"] | CThreeWt => ["ratioTapChanger1"; "phaseTapChanger1"; "phaseTapChanger2"; "phaseTapChanger3"] | _ => [] end.
Definition zero (x : fval) : Prop := x = VNum (Some "0") \/ x = VNum (Some "-0").
Definition supported (v : ver) (l : leaf) : Prop :=
  (older v 5 = true -> forall key, key ∈ power_limits -> l_parts l !! key = None) /\
  (older v 1 = true -> forall key, key ∈ since_1_1 (l_cls l) -> l_parts l !! key = None) /\
  match l_cls l, l_fields l with
  | CShunt, b :: g :: mx :: n :: on :: tv :: td :: _ =>
    (older v 3 = true -> l_parts l !! "model" = None) /\
    (older v 2 = true -> on = VBool false /\ tv = VNum None /\ td = VNum None /\ l_parts l !! "regulatingTerminal" = None)
  | CDanglingLine, p0 :: q0 :: r :: x :: g :: b :: mn :: mx :: on :: _ => older v 3 = true -> on = VOpt None
  | CThreeWt, r1 :: x1 :: g1 :: b1 :: u1 :: s1 :: r2 :: x2 :: g2 :: b2 :: u2 :: s2 :: r3 :: x3 :: g3 :: b3 :: u3 :: s3 :: u0 :: _ =>
    older v 1 = true -> zero g2 /\ zero b2 /\ zero g3 /\ zero b3 /\ u0 = u1
  | _, _ => True
  end.
Definition net_supported (v : ver) (n : network) : Prop :=
  (older v 3 = true -> l_aliases (n_leaf n) = ∅) /\ forall l, l ∈ mjoin (sub_leaves <$> n_subs n) ++ n_lines n ++ n_hvdcs n -> supported v l.
(** An export that logs errors may write what the reader refuses: the aliases of the network itself, the sub-elements above. *)
Definition readable (v : ver) (n : network) : Prop :=
  (older v 3 = true -> l_aliases (n_leaf n) = ∅) /\
  forall l, l ∈ mjoin (sub_leaves <$> n_subs n) ++ n_lines n ++ n_hvdcs n -> older v 1 = true -> forall key, key ∈ since_1_1 (l_cls l) -> l_parts l !! key = None.

(** ** What is lost without a word, in an object that is supported: nothing if this holds. *)
Definition kept (v : ver) (l : leaf) : Prop :=
  (older v 2 = true -> is_switch (l_cls l) = false -> l_fict l = false) /\ (older v 3 = true -> l_aliases l = ∅) /\
  (older v 4 = true -> forall s t, l_aliases l !! s = Some t -> t = "") /\
  (forall key p, l_parts l !! key = Some p -> p <> Part PLimits [VNum None] []) /\
  (older v 2 = true -> forall key k low tap db x reg fs cs, l_parts l !! key = Some (Part k (low :: tap :: db :: x :: reg :: fs) cs) ->
    match reg with VBool true => db <> VNum None /\ db <> VNum (Some "-0") | _ => ~ zero db end) /\
  match l_cls l, l_fields l with
  | CTwoWt, r :: x :: g :: b :: u1 :: u2 :: s :: fs => older v 2 = true -> s = VNum None
  | CThreeWt, r1 :: x1 :: g1 :: b1 :: u1 :: s1 :: r2 :: x2 :: g2 :: b2 :: u2 :: s2 :: r3 :: x3 :: g3 :: b3 :: u3 :: s3 :: u0 :: fs =>
    (older v 2 = true -> s1 = VNum None /\ s2 = VNum None /\ s3 = VNum None) /\
    (older v 1 = true -> Forall (fun x => x <> VNum (Some "-0")) [g2; b2; g3; b3])
  | CShunt, b :: g :: _ => older v 3 = true -> g = VNum None
  | CTieLine, fs => forall i j, i ∈ [13; 22] -> j = i + 8 -> (fs !! i <> fs !! S i) /\ (older v 3 = true -> fs !! j = Some (VBool false))
  | _, _ => True
  end.
(** The same for the network itself. *)
Definition root_kept (v : ver) (l : leaf) : Prop := l_name l = "" /\ l_fict l = false /\ (older v 3 = true -> l_aliases l = ∅) /\ (older v 4 = true -> forall s t, l_aliases l !! s = Some t -> t = "").

(** ** Renaming the identifiers, names and tags of a network. Not renamed: the identifier of the network itself, properties, types of aliases. *)
Definition rename_field (f : string -> string) (d : fdesc) (x : fval) : fval :=
  match fd_r d, x with
  | RRef, VOpt (Some s) | RAnon, VOpt (Some s) | RAnonOpt, VOpt (Some s) => VOpt (Some (f s))
  | RAnonText, VText s | RAnonMand, VText s => VText (f s)
  | RTags, VTags l => VTags (f <$> l)
  | _, _ => x
  end.
Definition rename_fields (f : string -> string) (ds : list fdesc) (xs : list fval) : list fval := zip_with (rename_field f) ds xs.
Definition rename_part (f : string -> string) (p : part) : part :=
  Part (p_kind p) (rename_fields f (pschema (p_kind p)) (p_fields p)) ((fun c => (c.1, rename_fields f (default [] (cschema (p_kind p) c.1)) c.2)) <$> p_children p).
Definition rename_leaf (f : string -> string) (l : leaf) : leaf :=
  Leaf (l_cls l) (f (l_id l)) (f (l_name l)) (l_fict l) (kmap f (l_aliases l)) (l_props l) (rename_fields f (schema (l_cls l)) (l_fields l)) (rename_part f <$> l_parts l).
Definition rename_vl (f : string -> string) (x : vlevel) : vlevel :=
  VLevel (rename_leaf f (v_leaf x)) (v_nb x) (rename_leaf f <$> v_buses x) (rename_leaf f <$> v_sections x) (rename_leaf f <$> v_switches x) (v_ics x) (rename_leaf f <$> v_eqs x).
Definition rename_sub (f : string -> string) (x : substation) : substation :=
  Sub (rename_leaf f (s_leaf x)) (rename_vl f <$> s_vls x) (rename_leaf f <$> s_twts x) (rename_leaf f <$> s_thwts x).
Definition rename_root (f : string -> string) (l : leaf) : leaf := Leaf (l_cls l) (l_id l) (f (l_name l)) (l_fict l) (kmap f (l_aliases l)) (l_props l) (l_fields l) (l_parts l).
Definition rename (f : string -> string) (n : network) : network :=
  Net (rename_root f (n_leaf n)) (rename_sub f <$> n_subs n) (rename_leaf f <$> n_lines n) (rename_leaf f <$> n_hvdcs n).
(** The renaming keeps the order in which the aliases of an object are listed (no condition on an object with at most one alias). *)
Definition keeps_order (f : string -> string) (l : leaf) : Prop := map_to_list (kmap f (l_aliases l) : gmap string string) = prod_map f id <$> map_to_list (l_aliases l).
(** The converter stations HVDC lines refer to keep their identifiers. *)
Definition keeps_stations (f : string -> string) (l : leaf) : Prop := l_cls l = CHvdcLine -> forall s, s ∈ leaf_refs l -> f s = s.
Definition no_bus_switch (x : vlevel) : Prop := v_nb x = false -> v_switches x = [].
