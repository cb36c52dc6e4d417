(** C56: extensions in the XML file. *)
From Verif Require Import Xml XmlSpec Anonymizer AnonymizerProofs NetXml NetXmlSpec NetXmlProofs NetXmlShape NetXmlShapeProofs NetXmlProps ExtXml ExtXmlSpec ExtXmlProofs ExtXmlAll ExtXmlExport.

(** The extensions asked for at export and import whose serializers are loaded at import come back, on the same objects, equal (but for the names in
    merged nodes); no other does; the network is what it would be without them. An extension to import whose serializer is not loaded makes the import
    throw if asked to, and is passed over otherwise. *)
Theorem C56_roundtrip a o sg reg reg' x i n xs y m mf fuel :
  net_valid a (o_ver o) n -> o_throwing o = true \/ readable (o_ver o) n -> exts_ok sg x n xs -> write_all reg x o a n xs = Ok (y, m) -> available m mf -> length (events y) <= fuel ->
  (i_throw i = true /\ unknown reg' x i n xs -> exists t, read_all fuel sg reg' i mf (events y) = Throw t) /\
  (~ (i_throw i = true /\ unknown reg' x i n xs) -> exists xs', read_all fuel sg reg' i mf (events y) = Ok (degrade o n, xs') /\
     forall id name e, ext_of xs' id name = Some e <-> comes_back reg' x i n xs id name e).
Proof. rewrite ?net_iff. apply exts_roundtrip. Qed.
(** When the export succeeds; otherwise it throws. *)
Theorem C56_export a o reg x n xs : named_exts xs -> (exists ym, write_network o a n = Ok ym) ->
  ((exists ym, write_all reg x o a n xs = Ok ym) <-> exportable reg x (o_ver o) n xs) /\ ((exists ym, write_all reg x o a n xs = Ok ym) \/ exists t, write_all reg x o a n xs = Throw t).
Proof.
  intros Nx W. destruct (export_iff a o reg x n xs Nx W) as [H1 H2]. split; [exact H1|].
  destruct (write_all reg x o a n xs) as [ym| t | |] eqn:E; [left; by eexists|right; by eexists|exfalso..]; (destruct H2 as [t Et]; [intros [ym Ey]; congruence|congruence]).
Qed.
(** With all the serializers loaded on both sides and no restriction, everything comes back. *)
Theorem C56_complete a o sg reg t n xs y m mf fuel l name e :
  net_valid a (o_ver o) n -> o_throwing o = true \/ readable (o_ver o) n -> exts_ok sg (Export ∅ t ∅) n xs -> write_all reg (Export ∅ t ∅) o a n xs = Ok (y, m) -> available m mf -> length (events y) <= fuel ->
  l ∈ objects n -> ext_of xs (l_id l) name = Some e -> exists xs', read_all fuel sg reg (Import ∅ true) mf (events y) = Ok (degrade o n, xs') /\ ext_of xs' (l_id l) name = Some (as_read e).
Proof.
  intros K Hr Xo E Hm L Hl He. destruct (C56_roundtrip a o sg reg reg (Export ∅ t ∅) (Import ∅ true) n xs y m mf fuel K Hr Xo E Hm L) as [_ H].
  assert (Ew : exists ym, write_network o a n = Ok ym).
  { unfold write_all in E. destruct (namespaces _ _ _ _ _ _) as [ns| | |]; try done. cbn [result_bind] in E. destruct (write_network o a n) as [ym| | |]; try done. by eexists. }
  destruct (proj1 (C56_export a o reg (Export ∅ t ∅) n xs (proj1 Xo) Ew)) as [H1 _]. destruct H1 as [H1 _]; [by eexists|].
  destruct H as (xs' & R & C). { intros [_ (l0 & n0 & e0 & Hl0 & He0 & A & _ & N)]. by destruct (H1 l0 n0 e0 Hl0 He0 A). }
  exists xs'. split; [done|]. apply C. exists l, e. destruct (H1 l name e Hl He ltac:(by left)) as [Ld _]. repeat (split; [done || by left|]). done.
Qed.
(** Extensions of the network itself do not come back. *)
Theorem C56_network_refuted a o sg reg reg' x i n xs y m mf fuel n' xs' name :
  net_valid a (o_ver o) n -> o_throwing o = true \/ readable (o_ver o) n -> exts_ok sg x n xs -> write_all reg x o a n xs = Ok (y, m) -> available m mf -> length (events y) <= fuel ->
  read_all fuel sg reg' i mf (events y) = Ok (n', xs') -> ext_of xs' (l_id (n_leaf n)) name = None.
Proof.
  intros K Hr Xo E Hm L R. destruct (C56_roundtrip a o sg reg reg' x i n xs y m mf fuel K Hr Xo E Hm L) as [H1 H2].
  destruct (ext_of xs' (l_id (n_leaf n)) name) as [e|] eqn:X; [|done]. exfalso.
  assert (N : ~ (i_throw i = true /\ unknown reg' x i n xs)) by (intros U; destruct (H1 U) as [t Et]; congruence). destruct (H2 N) as (xs2 & R2 & C). rewrite R in R2. injection R2 as _ <-.
  apply C in X as (l & e0 & Hl & Ei & _). destruct K as (_ & _ & _ & _ & Nd & _). change (net_leaves n) with (n_leaf n :: objects n) in Nd. change (mjoin (leaf_names <$> ?y :: ?ls)) with (leaf_names y ++ mjoin (leaf_names <$> ls)) in Nd.
  apply NoDup_app in Nd as (_ & D & _). apply (D (l_id (n_leaf n))); [left|]. apply in_mjoin. exists l. split; [done|]. rewrite <- Ei. left.
Qed.

(** * A network with all the extensions of the libraries. *)
Definition xn : network := x_net true [x_sw] ∅.
Definition x_signs : signs := Signs (String.prefix "-") (String.prefix "2").
Definition all_serializers : gset string := list_to_set (kind_name <$> known).
Definition build (fs : list (string * ext)) : exts := foldr (fun p s => <[p.1 := <[kind_name (e_kind p.2) := p.2]> (default ∅ (s !! p.1))]> s) ∅ fs.
Definition feeder_of (n name order dir : string) : child := Child n [VText name; VText order; VText dir] ∅.
Definition x_facts : list (string * ext) :=
  [("LD", Ext KDetail (nums ["1"; "2"; "3"; "4"]) "" []); ("LD", Ext KPosition [] "" [feeder_of "feeder" "LD" "10" "TOP"]);
   ("VL1", Ext KSlack [VOpt (Some "LD"); VText ""] "" []); ("VL2", Ext KSlack [VOpt (Some "L1"); VText "TWO"] "" []); ("BBS", Ext KBusbar [VText "1"; VText "2"] "" []);
   ("L1", Ext KStatus [] "PLANNED_OUTAGE" []); ("L1", Ext KPosition [] "" [feeder_of "feeder1" "L1" "10" "TOP"; feeder_of "feeder2" "L1" "20" "BOTTOM"]); ("G1", Ext KCoordinated (nums ["40"]) "" []);
   ("L1", Ext KMeasurements [] "" [Child "measurement" [VText "m1"; VText "ACTIVE_POWER"; VText "ONE"; VNum (Some "4"); VNum (Some "0.1"); VBool true] {["source" := "SCADA"]};
                                   Child "measurement" [VText ""; VText "OTHER"; VText ""; VNum None; VNum None; VBool false] ∅]);
   ("T3", Ext KClock3 [VOpt (Some "3"); VOpt None] "" []); ("H1", Ext KRange [VNum (Some "100"); VNum None] "" []); ("SVC", Ext KSlope (nums ["0.2"]) "" []); ("G1", Ext KActive [VBool true; VNum (Some "4")] "" []);
   ("H1", Ext KDroop [VNum (Some "200"); VNum (Some "0.9"); VBool true] "" []);
   ("T2", Ext KDiscrete [] "" [Child "discreteMeasurement" [VText "d1"; VText "TAP_POSITION"; VText "RATIO_TAP_CHANGER"; VText "INT"; VText "15"; VBool true] {["source" := "SCADA"]}]);
   ("BRK", Ext KDiscrete [] "" [Child "discreteMeasurement" [VText ""; VText "SWITCH_POSITION"; VText ""; VText "BOOLEAN"; VText "true"; VBool true] ∅]);
   ("T2", Ext KClock2 [VOpt (Some "11")] "" []); ("S1", Ext KArea [] "FR" []); ("DL", Ext KXnode [VText "XNODE"] "" []);
   ("TL", Ext KMerged (nums ["0.5"; "0.5"; "1"; "2"; "3"; "4"] ++ [VText "XN"; VText "TL1"; VText "TL2"]) "" [])].
Definition x_exts : exts := build x_facts.
Lemma build_in fs id name e : ext_of (build fs) id name = Some e -> (id, e) ∈ fs /\ kind_name (e_kind e) = name.
Proof.
  induction fs as [|[id0 e0] fs IH]; [by unfold ext_of; cbn; rewrite lookup_empty|]. unfold ext_of in *. cbn [build foldr fst snd]. fold (build fs). intros H. destruct (decide (id0 = id)) as [->|N].
  - rewrite lookup_insert in H. cbn in H. destruct (decide (kind_name (e_kind e0) = name)) as [<-|N].
    + rewrite lookup_insert in H. injection H as ->. split; [left|done].
    + rewrite lookup_insert_ne in H by done. destruct (build fs !! id) as [es|]; cbn in *; [|by rewrite lookup_empty in H]. destruct (IH H). split; [by right|done].
  - rewrite lookup_insert_ne in H by done. destruct (IH H). split; [by right|done].
Qed.
Definition x_table : list (string * cls) :=
  [("LD", CLoad); ("VL1", CVoltageLevel); ("VL2", CVoltageLevel); ("BBS", CBusbarSection); ("L1", CLine); ("G1", CGenerator); ("T3", CThreeWt); ("H1", CHvdcLine); ("SVC", CSvc); ("T2", CTwoWt); ("BRK", CNodeSwitch); ("S1", CSubstation); ("DL", CDanglingLine); ("TL", CTieLine)].
Lemma x_table_ok : forallb (fun p => forallb (fun l => implb (String.eqb (l_id l) p.1) (bool_decide (l_cls l = p.2))) (objects xn)) x_table = true.
Proof. vm_compute. reflexivity. Qed.
Lemma x_class l id c : snd <$> list_find (fun p => p.1 = id) x_table = Some (id, c) -> l ∈ objects xn -> l_id l = id -> l_cls l = c.
Proof.
  intros F Hl <-. apply fmap_Some in F as ([j p] & F & E). cbn in E. subst p. apply list_find_Some in F as (F & _). apply elem_of_list_lookup_2, elem_of_list_In in F.
  pose proof x_table_ok as H. rewrite forallb_forall in H. apply H in F. rewrite forallb_forall in F. apply elem_of_list_In, F in Hl. cbn [fst snd] in Hl. rewrite String.eqb_refl in Hl. by apply bool_decide_eq_true in Hl.
Qed.
Ltac known_class := match goal with Hl : ?l ∈ objects xn, E : l_id ?l = ?id |- _ => pose proof (x_class l id _ (eq_refl _) Hl E) as C end.
Ltac by_computation := apply (bool_decide_eq_true_1 _); vm_compute; reflexivity.
Lemma nonneg_ok t : String.prefix "-" t = false -> nonneg x_signs (Some t). Proof. by intros H ? [= <-]. Qed.
Lemma xn_terminals : terminal_in xn "LD" "" "VL1" /\ terminal_in xn "L1" "TWO" "VL2".
Proof.
  split.
  - refine (in_injection xn (Sub x_sub [x_vl1 true [x_sw] ∅; x_vl2 true] [x_twt (Some "90") {["ratioTapChanger" := x_ratio (Some "3") false; "phaseTapChanger" := x_phase]}] [x_thwt true]) (x_vl1 true [x_sw] ∅) (x_load true) _ _ _); left.
  - refine (in_side xn (x_line {["currentLimits2" := Part PLimits [VNum (Some "500")] []]}) "2" "TWO" 13 "VL2" _ _ _ _); [|right; left|cbn; do 6 right; left|reflexivity].
    unfold net_leaves. right. apply elem_of_app. right. left.
Qed.
Lemma x_exts_eq : x_exts = build x_facts. Proof. reflexivity. Qed.
Lemma x_in id name e : ext_of x_exts id name = Some e -> (id, e) ∈ x_facts /\ kind_name (e_kind e) = name.
Proof. rewrite x_exts_eq. apply build_in. Qed.
Lemma x_exts_ok x : exts_ok x_signs x xn x_exts.
Proof.
  split; [intros id name e H; exact (proj2 (x_in _ _ _ H))|]. intros l name e Hl H _. apply x_in in H as [H _]. unfold x_facts in H. destruct xn_terminals as [T1 T2].
  repeat (apply elem_of_cons in H as [H|H]; [assert (E := f_equal fst H); apply (f_equal snd) in H; cbn [fst snd] in E, H; subst e; known_class|]); [..|by apply elem_of_nil in H].
  - by constructor.
  - constructor; [rewrite C; by_computation| |by_computation]. repeat constructor. do 3 eexists. split; [reflexivity|]. repeat (split; [done|]). by_computation.
  - constructor; [done|]. by rewrite E.
  - constructor; [done|]. by rewrite E.
  - by constructor.
  - constructor; [rewrite C|]; by_computation.
  - constructor; [rewrite C; by_computation| |by_computation]. repeat constructor; do 3 eexists; (split; [reflexivity|]); repeat (split; [done|]); by_computation.
  - by constructor.
  - constructor.
    + rewrite C. repeat constructor; do 6 eexists; (split; [reflexivity|]); (split; [reflexivity|]); (split; [by_computation|]); (split; [right; split; [by_computation|]|]); [left; by_computation|split; done|right; done|split; done].
    + intros j k c d id Hj Hk Fc Fd N. clear -Hj Hk Fc Fd N. destruct j as [|[|j]], k as [|[|k]]; try done; cbn in *; repeat match goal with H : Some _ = Some _ |- _ => injection H as <- end; cbn in *; congruence.
  - constructor; [done| |by left]. right. eexists. split; [reflexivity|]. by_computation.
  - constructor; [done|by apply nonneg_ok|done].
  - constructor; [done|by apply nonneg_ok].
  - constructor; [by left].
  - by constructor.
  - constructor.
    + rewrite C. repeat constructor. do 6 eexists. split; [reflexivity|]. split; [reflexivity|]. split; [by_computation|]. split; [done|]. split; [done|]. split; [right; left; split; [done|by_computation]|]. split; [|done]. right. left. done.
    + intros j k c d id Hj Hk. destruct j as [|j], k as [|k]; try done.
  - constructor.
    + rewrite C. repeat constructor. do 6 eexists. split; [reflexivity|]. split; [reflexivity|]. split; [by_computation|]. split; [by right|]. split; [done|]. split; [by left|]. split; [|done]. left. split; [done|by left].
    + intros j k c d id Hj Hk. destruct j as [|j], k as [|k]; try done.
  - constructor; [done|]. right. eexists. split; [reflexivity|]. by_computation.
  - constructor; [done|]. by_computation.
  - by constructor.
  - constructor; [by right|by apply nonneg_ok|by apply nonneg_ok|done..].
Qed.
(** Written in 1.3 to 1.5, anonymized or not, and read back; in 1.5, the 20 extensions are there. *)
Definition x_trip (a : bool) (v : ver) : bool :=
  match write_all all_serializers (Export ∅ true ∅) (x_opts v false) a (x_net true [] ∅) (build (take 6 x_facts)) with
  | Ok (y, m) => match read_all (length (events y)) x_signs all_serializers (Import ∅ true) m (events y) with
                 | Ok (_, xs') => forallb (fun p => bool_decide (ext_of xs' p.1 (kind_name (e_kind p.2)) = Some p.2)) (take 6 x_facts)
                 | _ => false
                 end
  | _ => false
  end.
Example C56_case : forallb (fun v => x_trip true v && x_trip false v) [V1_3; V1_4; V1_5] = true.
Proof. vm_compute. reflexivity. Qed.
Example C56_case_ok a v : net_valid a v (x_net true [] ∅).
Proof. apply x_ok. by left. Qed.
Example C56_case_all : match write_all all_serializers (Export ∅ true ∅) (x_opts V1_5 true) false xn x_exts with
  | Ok (y, m) => match read_all (length (events y)) x_signs all_serializers (Import ∅ true) None (events y) with
                 | Ok (_, xs') => forallb (fun p => bool_decide (ext_of xs' p.1 (kind_name (e_kind p.2)) = Some (as_read p.2))) x_facts
                 | _ => false
                 end
  | _ => false
  end = true.
Proof. vm_compute. reflexivity. Qed.
(** Only some of them asked for at import; a serializer not loaded. *)
Example C56_case_some : match write_all all_serializers (Export ∅ true ∅) (x_opts V1_5 true) false xn x_exts with
  | Ok (y, m) => match read_all (length (events y)) x_signs (all_serializers ∖ {["xnode"]}) (Import {["xnode"; "detail"]} false) None (events y),
                       read_all (length (events y)) x_signs (all_serializers ∖ {["xnode"]}) (Import {["xnode"; "detail"]} true) None (events y) with
                 | Ok (_, xs'), Throw _ => bool_decide (omap (fun p => ext_of xs' p.1 (kind_name (e_kind p.2))) x_facts = [Ext KDetail (nums ["1"; "2"; "3"; "4"]) "" []])
                 | _, _ => false
                 end
  | _ => false
  end = true.
Proof. vm_compute. reflexivity. Qed.
(** * What does not come back. *)
Definition x_merged : ext := Ext KMerged (nums ["0.5"; "0.5"; "1"; "2"; "3"; "4"] ++ [VText "XN"; VText "TL1"; VText "TL2"]) "" [].
Lemma x_merged_ok : ext_of x_exts (l_id (x_tie true)) "mergedXnode" = Some x_merged.
Proof. apply (bool_decide_eq_true_1 _). vm_compute. reflexivity. Qed.
(** The names of the lines of a merged node. *)
Lemma merged_loses o sg reg n xs y m l e : net_valid false (o_ver o) n -> o_throwing o = true -> readable (o_ver o) n -> exts_ok sg (Export ∅ true ∅) n xs -> m = None ->
  write_all reg (Export ∅ true ∅) o false n xs = Ok (y, m) -> l ∈ objects n -> ext_of xs (l_id l) "mergedXnode" = Some e -> e_fields e <> e_fields (as_read e) ->
  exists xs' e', read_all (length (events y)) sg reg (Import ∅ true) m (events y) = Ok (degrade o n, xs') /\ ext_of xs' (l_id l) "mergedXnode" = Some e' /\ e_fields e <> e_fields e'.
Proof.
  intros K T Hr Xo -> E Hl He N. destruct (C56_complete false o sg reg true n xs y None None (length (events y)) l "mergedXnode" e K ltac:(by left) Xo E ltac:(done) ltac:(done) Hl He) as (xs' & R & C).
  exists xs', (as_read e). done.
Qed.
Theorem C56_merged_refuted : exists o sg reg x i n xs y m xs' l e e', net_valid false (o_ver o) n /\ readable (o_ver o) n /\ exts_ok sg x n xs /\ write_all reg x o false n xs = Ok (y, m) /\
  read_all (length (events y)) sg reg i m (events y) = Ok (degrade o n, xs') /\ l ∈ objects n /\ ext_of xs (l_id l) "mergedXnode" = Some e /\ ext_of xs' (l_id l) "mergedXnode" = Some e' /\ e_fields e <> e_fields e'.
Proof.
  assert (Hl : x_tie true ∈ objects xn) by (unfold objects; rewrite !elem_of_app; right; left; right; left). assert (K : net_valid false V1_5 xn) by (apply x_ok; by right).
  assert (Hr : readable V1_5 xn) by (split; [intros H; discriminate H|intros l _ H; discriminate H]).
  assert (N : e_fields x_merged <> e_fields (as_read x_merged)) by (intros N; vm_compute in N; discriminate N).
  assert (Hb : match write_all all_serializers (Export ∅ true ∅) (x_opts V1_5 true) false xn x_exts with Ok (_, None) => true | _ => false end = true) by (vm_compute; reflexivity).
  destruct (write_all all_serializers (Export ∅ true ∅) (x_opts V1_5 true) false xn x_exts) as [[y m]| | |] eqn:E; [|discriminate Hb..].
  assert (Em : m = None) by (destruct m; [discriminate Hb|reflexivity]).
  destruct (merged_loses (x_opts V1_5 true) x_signs all_serializers xn x_exts y m (x_tie true) x_merged K eq_refl Hr (x_exts_ok _) Em E Hl x_merged_ok N) as (xs' & e' & R & C & D).
  exists (x_opts V1_5 true), x_signs, all_serializers, (Export ∅ true ∅), (Import ∅ true), xn, x_exts, y, m, xs', (x_tie true), x_merged, e'.
  exact (conj K (conj Hr (conj (x_exts_ok _) (conj E (conj R (conj Hl (conj x_merged_ok (conj C D)))))))).
Qed.
(** An extension of the network is lost without a word: the export and the import succeed. *)
Example C56_network_case : let xs := build [("net", Ext KStatus [] "IN_OPERATION" [])] in
  match write_all all_serializers (Export ∅ true ∅) (x_opts V1_5 true) false xn xs with
  | Ok (y, m) => match read_all (length (events y)) x_signs all_serializers (Import ∅ true) None (events y) with Ok (_, xs') => bool_decide (xs' = ∅) | _ => false end
  | _ => false
  end = true.
Proof. vm_compute. reflexivity. Qed.
(** Extensions the library holds, that are exported without a word and that the import refuses: a droop that is not a number; a measurement whose value
    has been set to NaN, or that has been made valid without a value; a feeder whose name has been made empty; an empty text as a measurement; a slack terminal
    without terminal, when missing serializers are reported. *)
Definition x_refused : list (string * ext) :=
  [("G1", Ext KActive [VBool true; VNum None] "" []);
   ("LD", Ext KMeasurements [] "" [Child "measurement" [VText ""; VText "ACTIVE_POWER"; VText ""; VNum None; VNum None; VBool true] ∅]);
   ("LD", Ext KPosition [] "" [feeder_of "feeder" "" "10" "TOP"]);
   ("LD", Ext KDiscrete [] "" [Child "discreteMeasurement" [VText ""; VText "OTHER"; VText ""; VText "STRING"; VText ""; VBool false] ∅]);
   ("VL1", Ext KSlack [VOpt None; VText ""] "" [])].
Theorem C56_readable_refuted : forall p, p ∈ x_refused -> exists n y m t, net_valid false V1_5 n /\ write_all all_serializers (Export ∅ true ∅) (x_opts V1_5 true) false n (build [p]) = Ok (y, m) /\
  read_all (length (events y)) x_signs all_serializers (Import ∅ true) m (events y) = Throw t.
Proof.
  assert (K : net_valid false V1_5 xn) by (apply x_ok; by right).
  assert (H : forallb (fun p => match write_all all_serializers (Export ∅ true ∅) (x_opts V1_5 true) false xn (build [p]) with
    | Ok (y, m) => match read_all (length (events y)) x_signs all_serializers (Import ∅ true) m (events y) with Throw _ => true | _ => false end
    | _ => false end) x_refused = true) by (vm_compute; reflexivity).
  intros p Hp. rewrite forallb_forall in H. apply elem_of_list_In, H in Hp. destruct (write_all _ _ _ _ _ _) as [[y m]| | |] eqn:E; [|discriminate Hp..].
  destruct (read_all _ _ _ _ _ _) as [| t | |] eqn:F; [discriminate Hp| |discriminate Hp..]. exists xn, y, m, t. exact (conj K (conj E F)).
Qed.
(** A slack terminal cannot be exported before 1.3, whatever the options on unsupported features. *)
Theorem C56_slack_refuted a o reg x n xs l e : ver_lt (o_ver o) V1_3 = true -> named_exts xs -> (exists ym, write_network o a n = Ok ym) ->
  l ∈ objects n -> ext_of xs (l_id l) "slackTerminal" = Some e -> asked (x_only x) "slackTerminal" -> exists t, write_all reg x o a n xs = Throw t.
Proof.
  intros V Nx W Hl He A. destruct (C56_export a o reg x n xs Nx W) as [H1 [H2|H2]]; [|done]. exfalso. apply H1 in H2 as [E1 E2]. destruct (E1 l "slackTerminal" e Hl He A) as (Ld & _).
  destruct (E2 l e ltac:(by right) He A Ld) as (w & Hw & _). rewrite !elem_of_cons in Hw. destruct Hw as [[= Hv _]|[[= Hv _]|[[= Hv _]|Hw%elem_of_nil]]]; [rewrite Hv in V; vm_compute in V; discriminate V..|done].
Qed.
Example C56_slack_case : (exists ym, write_network (x_opts V1_2 false) false (x_net false [x_sw] ∅) = Ok ym) /\ ext_of x_exts "VL1" "slackTerminal" = Some (Ext KSlack [VOpt (Some "LD"); VText ""] "" []).
Proof. split; [|apply (bool_decide_eq_true_1 _); vm_compute; reflexivity]. destruct (write_network _ _ _) as [ym| | |] eqn:E; [by eexists|vm_compute in E; discriminate E..]. Qed.
Print Assumptions C56_roundtrip.
Print Assumptions C56_export.
Print Assumptions C56_complete.
Print Assumptions C56_network_refuted.
Print Assumptions C56_merged_refuted.
Print Assumptions C56_readable_refuted.
Print Assumptions C56_slack_refuted.
