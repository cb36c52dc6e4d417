(** C38, C39, C40, C53: networks written as XML and read back. *)
From Verif Require Import Xml XmlSpec Anonymizer AnonymizerProofs AnonymizerProps NetXml NetXmlSpec NetXmlProofs NetXmlMore NetXmlDec NetXmlShape NetXmlShapeProofs.

(** * A network with both kinds of topology. [full]: with what only the newest versions can carry; [sw]: the switches of the bus/breaker level;
    [p]: the properties of bus B1. *)
Definition nums (l : list string) : list fval := (VNum ∘ Some) <$> l.
Definition at_bus (b : string) : list fval := [VOpt None; VOpt (Some b); VOpt (Some b)].
Definition at_node (n : string) : list fval := [VOpt (Some n); VOpt None; VOpt None].
Definition no_flow : list fval := [VNum None; VNum None].
Definition x_load (full : bool) : leaf := Leaf CLoad "LD" "load" full (if full then {["LD alias" := "kind"]} else ∅) {["owner" := "x, y"]}
  ([VText "UNDEFINED"] ++ nums ["10"; "5.5"] ++ at_bus "B1" ++ [VNum (Some "10"); VNum None]) ∅.
Definition x_cs (id : string) (conn : list fval) : leaf := Leaf CVsc id "" false ∅ ∅ ([VBool true; VNum (Some "0.011"); VNum (Some "405"); VNum None] ++ conn ++ no_flow) {["reactiveLimits" := Part PMinMax (nums ["-5"; "5"]) []]}.
Definition x_gen : leaf := Leaf CGenerator "G1" "" false ∅ ∅
  ([VText "HYDRO"; VNum (Some "0"); VNum (Some "100"); VNum None; VBool false; VNum (Some "50"); VNum (Some "400"); VNum None] ++ at_node "3" ++ no_flow)
  {["regulatingTerminal" := Part PTerminal [VOpt (Some "L1"); VOpt (Some "ONE")] []; "reactiveLimits" := Part PCurve [] [("point", nums ["0"; "-1"; "1"]); ("point", nums ["100"; "-2"; "2"])]]}.
Definition x_shunt (full : bool) : leaf := Leaf CShunt "SH1" "" false ∅ ∅
  ([VNum (Some "0.01"); (if full then VNum (Some "0.001") else VNum None); VText "3"; VText "2"; VBool full; (if full then VNum (Some "400") else VNum None); (if full then VNum (Some "0") else VNum None)] ++ at_bus "B2" ++ no_flow)
  (if full then {["regulatingTerminal" := Part PTerminal [VOpt (Some "LD"); VOpt None] []]} else ∅).
Definition x_banks : leaf := Leaf CShunt "SH2" "" false ∅ ∅ ([VNum None; VNum None; VText ""; VText "1"; VBool false; VNum None; VNum None] ++ at_node "4" ++ no_flow)
  {["model" := Part PNonLinear [] [("section", nums ["0.1"; "0"]); ("section", nums ["0.3"; "0.01"])]]}.
Definition x_dangling (full : bool) : leaf := Leaf CDanglingLine "DL" "" false ∅ ∅
  (nums ["1"; "2"; "3"; "4"; "5"; "6"] ++ (if full then [VNum (Some "-10"); VNum (Some "10"); VOpt (Some "true"); VNum (Some "7"); VNum (Some "400"); VNum None] else [VNum None; VNum None; VOpt None; VNum None; VNum None; VNum None])
   ++ [VText "XNODE"] ++ at_bus "B1" ++ no_flow)
  (<["currentLimits" := Part PLimits [VNum (Some "1000")] [("temporaryLimit", [VText "20'"; VOpt (Some "1200"); VNum (Some "1200"); VBool false]); ("temporaryLimit", [VText "N/A"; VOpt (Some "60"); VNum None; VBool true])]]>
   (if full then {["reactiveLimits" := Part PMinMax (nums ["-3"; "3"]) []; "activePowerLimits" := Part PLimits [VNum (Some "600")] []]} else ∅)).
Definition x_svc (full : bool) : leaf := Leaf CSvc "SVC" "" false ∅ ∅ (nums ["-0.05"; "0.05"] ++ [VNum (Some "390"); VNum None; VText "VOLTAGE"] ++ at_bus "B1" ++ no_flow)
  (if full then {["regulatingTerminal" := Part PTerminal [VOpt (Some "G1"); VOpt None] []]} else ∅).
Definition x_bus (id : string) (v : option string) (p : gmap string string) : leaf := Leaf CBus id "" false ∅ p [VNum v; VNum None] ∅.
Definition x_sw : leaf := Leaf CBusSwitch "SW 1" "" true ∅ ∅ [VText "BREAKER"; VBool true; VBool false; VOpt (Some "B1"); VOpt (Some "B2")] ∅.
Definition x_vl1 (full : bool) (sw : list leaf) (p : gmap string string) : vlevel :=
  VLevel (Leaf CVoltageLevel "VL1" "" false (if full then {["level 1" := ""]} else ∅) ∅ [VNum (Some "400"); VNum None; VNum (Some "420")] ∅) false [x_bus "B1" (Some "400.5") p; x_bus "B2" None ∅] [] sw []
    [x_load full; x_shunt full; x_dangling full; x_svc full; x_cs "CS 1" [VOpt None; VOpt None; VOpt (Some "B2")]].
Definition x_vl2 (full : bool) : vlevel :=
  VLevel (Leaf CVoltageLevel "VL2" "" false ∅ ∅ [VNum (Some "225"); VNum None; VNum None] ∅) true [] [Leaf CBusbarSection "BBS" "bbs" false ∅ ∅ [VText "0"] ∅]
    [Leaf CNodeSwitch "BRK" "" false ∅ ∅ [VText "DISCONNECTOR"; VBool true; VBool true; VText "0"; VText "1"] ∅] [("1", "2"); ("2", "3")] (x_gen :: (if full then [x_banks] else []) ++ [x_cs "CS 2" (at_node "1")]).
Definition x_side (conn : list fval) (vl : string) : list fval := conn ++ [VOpt (Some vl)].
Definition x_ratio (db : option string) (reg : bool) : part := Part PRatio [VText "0"; VText "1"; VNum db; VBool true; VBool reg; VNum (Some "225")]
  [("terminalRef", [VOpt (Some "LD"); VOpt None]); ("step", nums ["0"; "0"; "0"; "0"; "0.95"]); ("step", nums ["0"; "0"; "0"; "0"; "1"])].
Definition x_phase : part := Part PPhase [VText "0"; VText "0"; VNum None; VText "FIXED_TAP"; VBool false; VNum None] [("step", nums ["0"; "0"; "0"; "0"; "1"; "-10"])].
Definition x_twt (s : option string) (ps : gmap string part) : leaf := Leaf CTwoWt "T2" "" false ∅ ∅
  (nums ["0.1"; "1"; "0"; "0"; "400"; "225"] ++ [VNum s] ++ x_side (at_bus "B1") "VL1" ++ x_side (at_node "5") "VL2" ++ no_flow ++ no_flow) ps.
Definition x_thwt (full : bool) : leaf := Leaf CThreeWt "T3" "" false ∅ ∅
  (nums ["1"; "2"; "3"; "4"; "400"] ++ [VNum (if full then Some "100" else None)] ++ nums ["5"; "6"] ++ (if full then nums ["7"; "8"] else nums ["0"; "0"]) ++ nums ["225"] ++ [VNum None]
   ++ nums ["9"; "10"; "0"; "0"; "63"] ++ [VNum None] ++ [VNum (Some (if full then "380" else "400"))] ++ x_side (at_bus "B1") "VL1" ++ x_side (at_node "6") "VL2" ++ x_side (at_node "7") "VL2" ++ no_flow ++ no_flow ++ no_flow)
  (if full then {["ratioTapChanger1" := x_ratio (Some "2") true; "phaseTapChanger3" := x_phase; "apparentPowerLimits2" := Part PLimits [VNum (Some "50")] []]} else {["ratioTapChanger2" := x_ratio (Some "2") true]}).
Definition x_line (ps : gmap string part) : leaf := Leaf CLine "L1" "" false ∅ ∅
  (nums ["1"; "10"; "0"; "0"; "0"; "0"] ++ x_side (at_bus "B1") "VL1" ++ x_side (at_node "2") "VL2" ++ [VNum (Some "4"); VNum None; VNum None; VNum None]) ps.
Definition x_half (id : string) (f : bool) : list fval := [VText id; VText ""] ++ nums ["1"; "2"; "0"; "0"; "0"; "0"] ++ [VBool f].
Definition x_tie (f : bool) : leaf := Leaf CTieLine "TL" "tie" false ∅ ∅
  ([VText "XN"] ++ x_side (at_bus "B2") "VL1" ++ x_side (at_node "8") "VL2" ++ no_flow ++ no_flow ++ x_half "TL1" f ++ x_half "TL2" false) ∅.
Definition x_hvdc : leaf := Leaf CHvdcLine "H1" "" false ∅ ∅ [VNum (Some "1"); VNum (Some "400"); VText "SIDE_1_RECTIFIER_SIDE_2_INVERTER"; VNum (Some "280"); VNum (Some "300"); VOpt (Some "CS 1"); VOpt (Some "CS 2")] ∅.
Definition x_root (name : string) : leaf := Leaf CNetwork "net" name false ∅ {["a" := "b"]} [VText "2020-01-01T00:00:00.000Z"; VText "0"; VText "test"] ∅.
Definition x_sub : leaf := Leaf CSubstation "S1" "" false ∅ ∅ [VOpt (Some "FR"); VText "RTE"; VTags ["A"; "B"]] ∅.
Definition x_net (full : bool) (sw : list leaf) (p : gmap string string) : network :=
  Net (x_root "") [Sub x_sub [x_vl1 full sw p; x_vl2 full] [x_twt (if full then Some "90" else None) {["ratioTapChanger" := x_ratio (Some "3") false; "phaseTapChanger" := x_phase]}] [x_thwt full]]
    [x_line {["currentLimits2" := Part PLimits [VNum (Some "500")] []]}; x_tie full] [x_hvdc].
(** What the writer computes with doubles plays no role in the cases below. *)
Definition x_opts (v : ver) (t : bool) : opts := Opts v t (fun _ _ => "0") (fun _ _ => "0").
Lemma x_ok a v full sw : sw = [] \/ (sw = [x_sw] /\ a = false) -> net_valid a v (x_net full sw ∅).
Proof. rewrite ?net_iff. intros [-> |[-> ->]]; apply (bool_decide_unpack _); destruct v, full; try destruct a; vm_compute; exact I. Qed.
Lemma x_supported v full sw : full = false \/ v = V1_5 -> sw = [] \/ sw = [x_sw] -> net_supported v (x_net full sw ∅).
Proof. intros H [-> | ->]; apply (bool_decide_unpack _); destruct H as [-> | ->]; try destruct v; try destruct full; vm_compute; exact I. Qed.
Lemma x_kept v full sw : full = false \/ v = V1_5 -> sw = [] \/ sw = [x_sw] -> root_kept v (x_root "") /\ forall l, l ∈ mjoin (sub_leaves <$> n_subs (x_net full sw ∅)) ++ n_lines (x_net full sw ∅) ++ n_hvdcs (x_net full sw ∅) -> kept v l.
Proof. intros H Hs. split; [split; [done|split; [done|split; [done|intros _ s t [=]]]]|]. apply all_iff, (bool_decide_unpack _). destruct Hs as [-> | ->], H as [-> | ->]; try destruct v; try destruct full; vm_compute; exact I. Qed.

(** * C38. *)
(** Every network the library can hold is written in every version and read back up to what the version cannot carry, if an export that
    throws has nothing to throw for, resp. if an export that only logs errors has nothing that the reader refuses. [degrade] says what is not
    carried. Attributes are compared one by one: [net_valid] only asks that mandatory ones have a value, so NaN (no value) and default values
    are included. *)
Theorem C38_roundtrip o n : net_valid false (o_ver o) n -> (if o_throwing o then net_supported (o_ver o) n else readable (o_ver o) n) ->
  exists y, write_network o false n = Ok (y, None) /\
    forall fuel, length (events y) <= fuel -> read_network fuel None (events y) = Ok (degrade o n).
Proof. rewrite ?net_iff.
  intros K S. assert (exists y, write_network o false n = Ok (y, None)) as [y E].
  { destruct (o_throwing o) eqn:T; [by apply supported_throwing|]. apply write_network_succeeds; [by left|]. intros l _. unfold accepted. by rewrite T. }
  exists y. split; [done|]. intros fuel L. assert (T : o_throwing o = true \/ readable (o_ver o) n) by (destruct (o_throwing o); auto).
  by apply (proj2 (roundtrip0 false o n y None K T E) None fuel I).
Qed.
(** Nothing is lost if the version supports the network and none of the values listed in [kept] is there. *)
Theorem C38_lossless o n : net_valid false (o_ver o) n -> net_supported (o_ver o) n -> root_kept (o_ver o) (n_leaf n) ->
  (forall l, l ∈ mjoin (sub_leaves <$> n_subs n) ++ n_lines n ++ n_hvdcs n -> kept (o_ver o) l) ->
  exists y, write_network o false n = Ok (y, None) /\
    forall fuel, length (events y) <= fuel -> read_network fuel None (events y) = Ok n.
Proof. rewrite ?net_iff.
  intros K S R Kp. destruct (C38_roundtrip o n (proj2 (net_iff _ _ _) K)) as (y & E & H); [destruct (o_throwing o); [done|by apply supported_readable_net]|].
  exists y. split; [done|]. intros fuel L. rewrite (H fuel L). by rewrite (kept_network false o n K S R Kp).
Qed.
(** In 1.5 the only losses are the name and the fictitious flag of the network, limits without any value, and the names of halves of tie
    lines equal to their identifiers (where no name stands for the identifier). *)
Theorem C38_current o n : o_ver o = V1_5 -> net_valid false V1_5 n -> l_name (n_leaf n) = "" -> l_fict (n_leaf n) = false ->
  (forall l key p, l ∈ net_leaves n -> l_parts l !! key = Some p -> ~ (p_kind p = PLimits /\ p_fields p = [VNum None] /\ p_children p = [])) ->
  (forall l, l ∈ net_leaves n -> l_cls l = CTieLine -> l_fields l !! 13 <> l_fields l !! 14 /\ l_fields l !! 22 <> l_fields l !! 23) ->
  exists y, write_network o false n = Ok (y, None) /\
    forall fuel, length (events y) <= fuel -> read_network fuel None (events y) = Ok n.
Proof. rewrite ?net_iff.
  intros V K En Ef Hl Ht. apply C38_lossless; rewrite ?V; [by apply net_iff|..].
  - split; [done|]. intros l Hn. split; [done|]. split; [done|]. destruct (net_leaf_ok false V1_5 n l K) as [Ko _]; [done|]. destruct (l_cls l) eqn:C; try done; generalize (l_fields l) as fs; intros fs; do 19 (destruct fs as [|? fs]; try done).
  - done.
  - intros l Hn. destruct (net_leaf_ok false V1_5 n l K Hn) as [Ko _]. split; [done|]. split; [done|]. split; [done|]. split; [|split; [done|]].
    + intros key p Hp ->. apply (Hl l key _ ltac:(by right) Hp). done.
    + destruct (l_cls l) eqn:C; try done; [generalize (l_fields l) as fs; intros fs; do 7 (destruct fs as [|? fs]; try done)..|].
      * do 12 (destruct fs as [|? fs]; try done).
      * destruct (Ht l ltac:(by right) C) as [H1 H2]. intros i j Hi ->. apply elem_of_cons in Hi as [->|Hi]; [by split|]. apply elem_of_list_singleton in Hi as ->. by split.
Qed.
(** Two networks written as the same document differ only by what the version cannot carry. *)
Theorem C38_injective o o' n n' y : o_ver o' = o_ver o -> net_valid false (o_ver o) n -> net_valid false (o_ver o) n' -> readable (o_ver o) n -> readable (o_ver o) n' ->
  write_network o false n = Ok (y, None) -> write_network o' false n' = Ok (y, None) -> degrade o n = degrade o' n'.
Proof. rewrite ?net_iff.
  intros V K K' S S' E E'. pose proof (proj2 (roundtrip0 false o n y None K (or_intror S) E) None _ I (le_n _)) as R. rewrite <- V in K', S'.
  pose proof (proj2 (roundtrip0 false o' n' y None K' (or_intror S') E') None _ I (le_n _)) as R'. congruence.
Qed.
(** The concrete network meets the hypotheses: its full form in 1.5, the other form in every version, without any loss. *)
Example C38_case v full : full = false \/ v = V1_5 ->
  net_valid false v (x_net full [x_sw] ∅) /\ net_supported v (x_net full [x_sw] ∅) /\ readable v (x_net full [x_sw] ∅) /\ root_kept v (n_leaf (x_net full [x_sw] ∅)) /\
  forall l, l ∈ mjoin (sub_leaves <$> n_subs (x_net full [x_sw] ∅)) ++ n_lines (x_net full [x_sw] ∅) ++ n_hvdcs (x_net full [x_sw] ∅) -> kept v l.
Proof.
  intros V. pose proof (x_supported v full [x_sw] V ltac:(by right)) as S. split; [apply x_ok; by right|]. split; [exact S|]. split; [by apply supported_readable_net|]. apply (x_kept v full [x_sw] V ltac:(by right)).
Qed.
Example C38_case_size : match write_network (x_opts V1_5 true) false (x_net true [x_sw] ∅) with Ok (y, _) => length (events y) | _ => 0 end = 89.
Proof. vm_compute. reflexivity. Qed.
Example C38_case_current : let n := x_net true [x_sw] ∅ in
  (forall l key p, l ∈ net_leaves n -> l_parts l !! key = Some p -> ~ (p_kind p = PLimits /\ p_fields p = [VNum None] /\ p_children p = [])) /\
  (forall l, l ∈ net_leaves n -> l_cls l = CTieLine -> l_fields l !! 13 <> l_fields l !! 14 /\ l_fields l !! 22 <> l_fields l !! 23).
Proof.
  split.
  - intros l key p Hl. revert key p. apply (map_all_iff (fun _ p => ~ (p_kind p = PLimits /\ p_fields p = [VNum None] /\ p_children p = []))). revert l Hl. refine (proj1 (all_iff _ _) _). apply (bool_decide_unpack _). vm_compute. exact I.
  - refine (proj1 (all_iff (fun l => l_cls l = CTieLine -> l_fields l !! 13 <> l_fields l !! 14 /\ l_fields l !! 22 <> l_fields l !! 23) _) _). apply (bool_decide_unpack _). vm_compute. exact I.
Qed.
(** In 1.0 the full form can be written, when errors are logged; it cannot be read. *)
Example C38_case_unreadable : net_valid false V1_0 (x_net true [] ∅) /\ ~ readable V1_0 (x_net true [] ∅) /\ readable V1_1 (x_net true [] ∅) /\ ~ net_supported V1_1 (x_net true [] ∅).
Proof. split; [apply x_ok; by left|]. split; [|split]; apply (bool_decide_unpack _); vm_compute; exact I. Qed.
Print Assumptions C38_roundtrip.
Print Assumptions C38_lossless.
Print Assumptions C38_current.
Print Assumptions C38_injective.

(** * C39. *)
(** The comparison operators order the versions as their minor numbers do. *)
Theorem C39_order v w : (ver_lt v w = true <-> number v < number w) /\ (ver_le v w = true <-> number v <= number w) /\
  (ver_gt v w = true <-> number v > number w) /\ (ver_ge v w = true <-> number v >= number w) /\ (number v = number w -> v = w).
Proof. repeat split; destruct v, w; cbn; intros H; try done; try lia; try discriminate. Qed.
(** For two consecutive versions exactly one of the two guards runs, whatever the version of the file. *)
Theorem C39_partition v w w' : number w' = S (number w) -> run_until w v = negb (run_from w' v).
Proof. destruct v, w, w'; cbn; intros H; try done; discriminate. Qed.
(** The guards run exactly in the versions they name, and the versions after, resp. before. *)
Theorem C39_runs v w : (run_from w v = true <-> number w <= number v) /\ (run_until w v = true <-> number v <= number w).
Proof. repeat split; destruct v, w; cbn; intros H; try done; try lia; try discriminate. Qed.
(** Each version is recognised from its namespace, and only from it. *)
Theorem C39_uri v uri : from_uri uri = Ok v <-> uri = namespace_uri v.
Proof.
  split; [|intros ->; apply uri_round]. unfold from_uri. destruct (version_of _ _) as [w| | |]; try done. cbn [result_bind].
  destruct (String.eqb uri (namespace_uri w)) eqn:E; [|done]. intros [= <-]. by apply String.eqb_eq.
Qed.
(** An export that should throw on what the version does not support succeeds exactly on the networks the version supports ([supported]:
    power limits need 1.5, the generation of dangling lines and non linear models 1.3, the voltage regulation of shunt compensators 1.2,
    regulating terminals of static var compensators, the tap changers of all legs and the parameters of legs 2 and 3 1.1, aliases of the
    network 1.3). *)
Theorem C39_supported o n : net_valid false (o_ver o) n -> o_throwing o = true -> (exists y, write_network o false n = Ok (y, None)) <-> net_supported (o_ver o) n.
Proof. rewrite ?net_iff. intros K T. split; [intros [y E]; by eapply throwing_supported|by apply supported_throwing]. Qed.
(** So what such an export writes is read back as it was, but for the values that are dropped without a word. [kept] lists them: fictitious
    flags, aliases and their types, limits without any value, target deadbands, rated powers, the conductance of linear shunt compensators,
    the fictitious flags of halves of tie lines, zeros with a sign. *)
Theorem C39_loud_partial o n y : net_valid false (o_ver o) n -> o_throwing o = true -> write_network o false n = Ok (y, None) -> root_kept (o_ver o) (n_leaf n) ->
  (forall l, l ∈ mjoin (sub_leaves <$> n_subs n) ++ n_lines n ++ n_hvdcs n -> kept (o_ver o) l) ->
  forall fuel, length (events y) <= fuel -> read_network fuel None (events y) = Ok n.
Proof. rewrite ?net_iff.
  intros K T E R Kp fuel L. pose proof (throwing_supported o false n _ K T E) as S. destruct (C38_lossless o n (proj2 (net_iff _ _ _) K) S R Kp) as (y' & E' & H). rewrite E in E'. injection E' as <-. by apply H.
Qed.
(** Those values are dropped, each by an export that should throw. *)
Definition x_one (vl : vlevel) (twts lines : list leaf) : network := Net (x_root "") [Sub x_sub [vl; x_vl2 false] twts []] (x_line ∅ :: lines) [].
Definition x_with (l : leaf) : vlevel := VLevel (Leaf CVoltageLevel "VL1" "" false ∅ ∅ [VNum (Some "400"); VNum None; VNum None] ∅) false [x_bus "B1" None ∅; x_bus "B2" None ∅] [] [] [] [l].
Definition x_load' (fict : bool) (als : gmap string string) : leaf := Leaf CLoad "LD" "" fict als ∅ ([VText "UNDEFINED"] ++ nums ["10"; "5.5"] ++ at_bus "B1" ++ no_flow) ∅.
Definition x_lossy : list (ver * network) :=
  [(V1_1, x_one (x_with (x_load' true ∅)) [] []);
   (V1_2, x_one (x_with (x_load' false {["LD alias" := ""]})) [] []);
   (V1_3, x_one (x_with (x_load' false {["LD alias" := "kind"]})) [] []);
   (V1_2, x_one (x_with (Leaf CShunt "SH1" "" false ∅ ∅ ([VNum (Some "0.01"); VNum (Some "0.001"); VText "3"; VText "2"; VBool false; VNum None; VNum None] ++ at_bus "B2" ++ no_flow) ∅)) [] []);
   (V1_1, x_one (x_with (x_load' false ∅)) [x_twt (Some "90") ∅] []);
   (V1_1, x_one (x_with (x_load' false ∅)) [x_twt None {["ratioTapChanger" := x_ratio (Some "0") false]}] []);
   (V1_1, x_one (x_with (x_load' false ∅)) [x_twt None {["ratioTapChanger" := x_ratio None true]}] []);
   (V1_2, x_one (x_with (x_load' false ∅)) [] [x_tie true]);
   (V1_5, Net (x_root "") [Sub x_sub [x_with (x_load' false ∅); x_vl2 false] [] []] [x_line {["currentLimits1" := Part PLimits [VNum None] []]}] []);
   (V1_5, Net (x_root "name") [Sub x_sub [x_with (x_load' false ∅); x_vl2 false] [] []] [x_line ∅] [])].
Definition facts (n : network) := (fun l => (l_name l, l_fict l, map_to_list (l_aliases l), l_fields l, map_to_list (l_parts l))) <$> net_leaves n.
Theorem C39_silent_refuted : Forall (fun vn => let o := x_opts vn.1 true in net_valid false vn.1 vn.2 /\ exists y, write_network o false vn.2 = Ok (y, None) /\
  read_network (length (events y)) None (events y) <> Ok vn.2) x_lossy.
Proof.
  assert (H : Forall (fun vn => net_valid false vn.1 vn.2 /\ net_supported vn.1 vn.2 /\ facts (degrade (x_opts vn.1 true) vn.2) <> facts vn.2) x_lossy) by (apply (bool_decide_unpack _); vm_compute; exact I).
  eapply Forall_impl; [exact H|]. intros [v n] (K & S & N). cbn [fst snd] in *. split; [done|]. destruct (C38_roundtrip (x_opts v true) n K S) as (y & E & R). exists y. split; [exact E|]. rewrite R by done. intros [= E']. by rewrite E' in N.
Qed.
(** An export that only logs errors may write a file that cannot be read. *)
Theorem C39_unreadable_refuted : exists o n y, net_valid false (o_ver o) n /\ write_network o false n = Ok (y, None) /\ forall m, read_network (length (events y)) None (events y) <> Ok m.
Proof. setoid_rewrite net_iff.
  set (n := x_one (x_with (x_svc true)) [] []). exists (x_opts V1_0 false), n. destruct (write_network (x_opts V1_0 false) false n) as [[y m]| | |] eqn:E; [|by vm_compute in E..].
  assert (Em : match write_network (x_opts V1_0 false) false n with Ok (_, m) => bool_decide (m = None) | _ => false end = true) by (vm_compute; reflexivity). rewrite E in Em. apply bool_decide_eq_true in Em as ->.
  exists y. split; [apply (bool_decide_unpack _); vm_compute; exact I|]. split; [done|]. intros m.
  assert (R : match write_network (x_opts V1_0 false) false n with Ok (y, _) => match read_network (length (events y)) None (events y) with Ok _ => true | _ => false end | _ => true end = false) by (vm_compute; reflexivity).
  rewrite E in R. intros E'. by rewrite E' in R.
Qed.
Example C39_case : net_valid false V1_0 (x_net true [] ∅) /\ ~ net_supported V1_0 (x_net true [] ∅) /\ net_supported V1_0 (x_net false [] ∅).
Proof. split; [apply x_ok; by left|]. split; apply (bool_decide_unpack _); vm_compute; exact I. Qed.
Print Assumptions C39_order.
Print Assumptions C39_partition.
Print Assumptions C39_runs.
Print Assumptions C39_uri.
Print Assumptions C39_supported.
Print Assumptions C39_loud_partial.
Print Assumptions C39_silent_refuted.
Print Assumptions C39_unreadable_refuted.

(** * C40. *)
(** An anonymized export, when it succeeds, is read back with the mapping file it wrote ([l]: the order in which the map is written). *)
Theorem C40_roundtrip_partial o n y m : net_valid true (o_ver o) n -> o_throwing o = true \/ readable (o_ver o) n -> write_network o true n = Ok (y, m) ->
  exists m1, m = Some m1 /\ ((forall s c, (s, c) ∈ m1 -> ";"%char ∉ s /\ newline ∉ s) -> forall l, l ≡ₚ m1 ->
    exists m2, read_mapping (write_pairs l) [] = (Ok tt, m2) /\
      forall fuel, length (events y) <= fuel -> read_network fuel (Some m2) (events y) = Ok (degrade o n)).
Proof. rewrite ?net_iff.
  intros K T E. destruct (roundtrip0 true o n y m K T E) as [[Wa W] R]. destruct (Wa eq_refl) as [m1 ->]. exists m1. split; [done|]. intros S l P.
  exists (reverse l). split; [by apply (copy_eq m1)|]. intros fuel L. apply R; [|done]. destruct W as [[N1 N2] _]. cbn. split; [|split].
  - by rewrite reverse_Permutation, P.
  - by rewrite reverse_Permutation, P.
  - intros p Hp. rewrite elem_of_reverse. by rewrite P.
Qed.
(** Missing above: the export may end in an exception. It always does when a bus/breaker level has switches, none with an identifier made
    only of capital letters: the buses of each switch are looked up under its code (VoltageLevelXml.cpp:180-181). *)
Theorem C40_switch o n s x : net_valid true (o_ver o) n -> s ∈ n_subs n -> x ∈ s_vls s -> v_nb x = false -> v_switches x <> [] ->
  (forall l, l ∈ v_switches x -> exists c, c ∈ to_str (l_id l) /\ ~ (65 <= nat_of_ascii c <= 90)) ->
  forall y m, write_network o true n <> Ok (y, m).
Proof. rewrite ?net_iff.
  intros K Hs Hx Nb Ne C y m E. pose proof (write_network_capitals o n y m K E) as F. rewrite Forall_forall in F. specialize (F s Hs). rewrite Forall_forall in F.
  specialize (F x Hx Nb). destruct (v_switches x) as [|l0 ls]; [done|]. destruct (F l0 ltac:(by left)) as (l & Hl & Cl). destruct (C l Hl) as (c & Hc & Nc).
  unfold capitals in Cl. rewrite Forall_forall in Cl. specialize (Cl c Hc). unfold letter in Cl. lia.
Qed.
Theorem C40_switch_refuted : exists o n, net_valid false (o_ver o) n /\ (exists y, write_network o false n = Ok (y, None)) /\ forall y m, write_network o true n <> Ok (y, m).
Proof.
  exists (x_opts V1_5 true), (x_net true [x_sw] ∅). destruct (C38_case V1_5 true) as (K & S & _); [by right|]. split; [exact K|]. split; [destruct (C38_roundtrip (x_opts V1_5 true) _ K S) as (y & E & _); by exists y|].
  intros y m. by vm_compute.
Qed.
(** What an anonymized file says of the identifiers, names, aliases and tags: nothing but which are equal. The same file is written for any
    other network that differs by an injective renaming of those. Not covered, because written as they are: the identifier of the network,
    the identifiers of the converter stations of HVDC lines, properties, types of aliases, names of temporary limits, UCTE codes. The renaming has to list the
    aliases of an object in the same order, and bus/breaker levels to have no switch. *)
Theorem C40_hidden_partial f o n y m : (forall s t, f s = f t -> s = t) -> f "" = "" -> net_valid true (o_ver o) n ->
  (forall l, l ∈ net_leaves n -> keeps_order f l) -> (forall l, l ∈ n_hvdcs n -> forall s, leaf_refers l s -> f s = s) ->
  (forall s x, s ∈ n_subs n -> x ∈ s_vls s -> v_nb x = false -> v_switches x = []) ->
  write_network o true n = Ok (y, m) -> exists m', write_network o true (rename f n) = Ok (y, m').
Proof. rewrite ?net_iff.
  intros Hf H0 K Ho Hh Hs E. apply (write_network_sim f Hf H0 o n y m); [|apply Ho; by left| |done].
  - apply Forall_forall. intros l Hl. destruct (net_leaf_ok true (o_ver o) n l K Hl) as [Kl Kh]. split; [done|]. split; [apply Ho; by right|]. intros C s Hs'. apply (Hh l (Kh C)). by apply leaf_refers_iff.
  - apply Forall_forall. intros s Hs'. apply Forall_forall. intros x Hx. unfold no_bus_switch. by apply (Hs s).
Qed.
(** Those that are written as they are. *)
Fixpoint attr_values (x : xml) : list string := match x with Elem _ a _ cs => map snd a ++ mjoin (map attr_values cs) | _ => [] end.
Theorem C40_leak_refuted : exists o n y m, net_valid true (o_ver o) n /\ write_network o true n = Ok (y, m) /\
  exists l, l ∈ net_leaves n /\ l_cls l = CVsc /\ l_id l ∈ attr_values y.
Proof.
  destruct (write_network (x_opts V1_5 true) true (x_net true [] ∅)) as [[y m]| | |] eqn:E; [|by vm_compute in E..].
  exists (x_opts V1_5 true), (x_net true [] ∅), y, m. split; [apply x_ok; by left|]. split; [done|]. exists (x_cs "CS 1" [VOpt None; VOpt None; VOpt (Some "B2")]). split; [|split; [done|]].
  - apply (elem_of_list_lookup_2 _ 9). reflexivity.
  - assert (R : match write_network (x_opts V1_5 true) true (x_net true [] ∅) with Ok (y, _) => bool_decide ("CS 1" ∈ attr_values y) | _ => false end = true) by (vm_compute; reflexivity).
    rewrite E in R. by apply bool_decide_eq_true in R.
Qed.
(** A renaming that changes every identifier but those of the converter stations; the network meets the hypotheses of the theorems above. *)
Definition x_f (s : string) : string := if bool_decide (s ∈ [""; "CS 1"; "CS 2"]) then s else String "x" s.
Lemma x_f_inj s t : x_f s = x_f t -> s = t.
Proof.
  unfold x_f. destruct (bool_decide (s ∈ _)) eqn:S, (bool_decide (t ∈ _)) eqn:T; intros E; try done; try congruence; subst.
  - rewrite !bool_decide_eq_true, !elem_of_cons in S. destruct S as [S|[S|[S|S]]]; try discriminate S. by apply elem_of_nil in S.
  - rewrite !bool_decide_eq_true, !elem_of_cons in T. destruct T as [T|[T|[T|T]]]; try discriminate T. by apply elem_of_nil in T.
Qed.
Global Instance keeps_order_dec f l : Decision (keeps_order f l).
Proof. unfold keeps_order. apply _. Defined.
Example C40_case : let n := x_net true [] ∅ in net_valid true V1_5 n /\ (exists y m, write_network (x_opts V1_5 true) true n = Ok (y, m)) /\
  (forall l, l ∈ net_leaves n -> keeps_order x_f l) /\ (forall l, l ∈ n_hvdcs n -> forall s, leaf_refers l s -> x_f s = s) /\
  (forall s x, s ∈ n_subs n -> x ∈ s_vls s -> v_nb x = false -> v_switches x = []) /\
  map l_id (net_leaves (rename x_f n)) =
    ["net"; "xS1"; "xVL1"; "xB1"; "xB2"; "xLD"; "xSH1"; "xDL"; "xSVC"; "CS 1"; "xVL2"; "xBBS"; "xBRK"; "xG1"; "xSH2"; "CS 2"; "xT2"; "xT3"; "xL1"; "xTL"; "xH1"].
Proof.
  intros n. split; [apply x_ok; by left|]. split.
  { destruct (write_network (x_opts V1_5 true) true n) as [[y m]| | |] eqn:E; [by exists y, m|by vm_compute in E..]. }
  split; [|split; [|split; [|vm_compute; reflexivity]]].
  - refine (proj1 (all_iff _ _) _). apply (bool_decide_unpack _). vm_compute. exact I.
  - intros l ->%elem_of_list_singleton s Hs. apply leaf_refers_iff, elem_of_list_In in Hs. cbn in Hs. destruct Hs as [<-|[<-|[]]]; reflexivity.
  - intros s x ->%elem_of_list_singleton Hx. apply elem_of_list_In in Hx. cbn [In s_vls] in Hx. destruct Hx as [<-|[<-|[]]]; done.
Qed.
Print Assumptions C40_roundtrip_partial.
Print Assumptions C40_switch.
Print Assumptions C40_switch_refuted.
Print Assumptions C40_hidden_partial.
Print Assumptions C40_leak_refuted.

(** * C53. *)
(** A bus without properties and aliases is read back as it was written (part of C38_roundtrip: [bus_valid]). With one, the end of the bus is
    not recognised: the next element of the file, whatever it is, ends the import in an exception (BusXml.cpp:41-43). [fits]: the bus is
    new to the network read. *)
Theorem C53_bus o l x idx n attrs e rest fuel : leaf_valid false CBus l -> write_leaf o l None = Ok (x, None) ->
  l_props l <> ∅ \/ (3 <= number (o_ver o) /\ l_aliases l <> ∅) -> fits (names o l) (leaf_refs l) idx -> n <> "alias" -> n <> "property" ->
  length (events x) < fuel -> read_leaf fuel (o_ver o) None CBus idx (events x ++ EStart n attrs e :: rest) = Throw "Unknown element name".
Proof. rewrite ?leaf_iff.
  intros K E Hx Fi N1 N2 L. eapply (bus_unreadable false o l None x None None); try done. destruct Hx as [Hx|[V Hx]]; [by left|right]. split; [|done]. unfold older. by apply Nat.ltb_ge.
Qed.
(** In a whole network: written without complaint, in every version, and unreadable. *)
Theorem C53_bus_refuted v : exists n y, write_network (x_opts v true) false n = Ok (y, None) /\ forall m, read_network (length (events y)) None (events y) <> Ok m.
Proof.
  set (n := x_net false [] {["p" := "q"]}). exists n. destruct (write_network (x_opts v true) false n) as [[y m]| | |] eqn:E; [|by destruct v; vm_compute in E..].
  exists y. assert (Em : match write_network (x_opts v true) false n with Ok (_, m) => bool_decide (m = None) | _ => false end = true) by (destruct v; vm_compute; reflexivity). rewrite E in Em. apply bool_decide_eq_true in Em as ->.
  split; [done|]. intros n'.
  assert (R : match write_network (x_opts v true) false n with Ok (y, _) => match read_network (length (events y)) None (events y) with Ok _ => true | _ => false end | _ => true end = false) by (destruct v; vm_compute; reflexivity).
  rewrite E in R. intros E'. by rewrite E' in R.
Qed.
Example C53_case : let l := x_bus "B1" None {["p" := "q"]} in leaf_valid false CBus l /\ l_props l <> ∅ /\ fits (names (x_opts V1_5 true) l) (leaf_refs l) ∅.
Proof.
  split; [apply (bool_decide_unpack _); vm_compute; exact I|]. split; [intros E; apply (f_equal (fun m : gmap string string => m !! "p")) in E; vm_compute in E; discriminate|]. split; [|split].
  - apply (bool_decide_unpack _). vm_compute. exact I.
  - intros n _. apply not_elem_of_empty.
  - intros r Hr. by apply elem_of_list_In in Hr.
Qed.
Print Assumptions C53_bus.
Print Assumptions C53_bus_refuted.
