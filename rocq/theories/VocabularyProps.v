(** Property C82: the names in the XML documents of each version. *)
From Verif Require Import Xml NetXml NetXmlSpec NetXmlMore NetXmlDec NetXmlShape NetXmlShapeProofs NetXmlProps VocabularySpec VocabularyProofs.

(** ** A network where each object has a value for each of its attributes, each of its parts, an alias and a property *)
Definition fill (k : kind) : fval :=
  match k with
  | Number | MaybeNumber => VNum (Some "1") | Flag => VBool true | Word | FilledWord => VText "w" | MaybeWord => VOpt (Some "true")
  | Ref | MaybeRef => VOpt (Some "B1") | Tags => VTags ["t"]
  end.
Definition full_part (k : pkind) : part := Part k (fill <$> part_attributes k) (map (fun e => (e.1, fill <$> e.2)) (part_elements k)).
Definition full_fields (c : cls) : list fval :=
  let fs := fill <$> attributes c in
  match c with
  | CBusSwitch => <[0 := VText "BREAKER"]> fs
  | CTieLine => <[14 := VText "name"]> (<[23 := VText "name"]> fs)
  | _ => fs
  end.
Definition full_leaf (c : cls) (id : string) (fs : list fval) (ps : list (string * pkind)) : leaf :=
  Leaf c id "name" true {[id +:+ " alias" := "type"]} {["key" := "value"]} fs (list_to_map (map (fun e => (e.1, full_part e.2)) ps)).
Definition plain (c : cls) (id : string) : leaf := full_leaf c id (full_fields c) (parts c).
Definition other (c : cls) (id : string) : leaf := full_leaf c id (full_fields c) (reverse (parts c)).
Definition full_bus : leaf := Leaf CBus "B1" "name" true ∅ ∅ (fill <$> attributes CBus) ∅.
Definition full_level : vlevel := VLevel (plain CVoltageLevel "VL1") false [full_bus] [] [plain CBusSwitch "SW1"] []
  [plain CGenerator "G1"; other CGenerator "G2"; plain CBattery "BA1"; other CBattery "BA2"; plain CLoad "LD";
   full_leaf CShunt "SH1" (full_fields CShunt) [("regulatingTerminal", PTerminal)]; full_leaf CShunt "SH2" ([VNum None; VNum None; VText ""] ++ drop 3 (full_fields CShunt)) (parts CShunt);
   plain CDanglingLine "DL1"; other CDanglingLine "DL2"; plain CSvc "SVC"; plain CVsc "VSC1"; other CVsc "VSC2"; plain CLcc "LCC"].
Definition node_level : vlevel := VLevel (plain CVoltageLevel "VL2") true [] [plain CBusbarSection "BBS"] [plain CNodeSwitch "SW2"] [("0", "1")] [].
Definition full_net : network := Net (plain CNetwork "net") [Sub (plain CSubstation "S") [full_level; node_level] [plain CTwoWt "T2"] [plain CThreeWt "T3"]] [plain CLine "L"; plain CTieLine "TL"] [plain CHvdcLine "H"].
Lemma full_valid v : net_valid false v full_net.
Proof. rewrite net_iff. apply (bool_decide_unpack _). destruct v; vm_compute; exact I. Qed.
Definition full_doc (v : ver) : xml := match write_network (x_opts v false) false full_net with Ok (y, _) => y | _ => Other end.
Lemma full_doc_ok v : write_network (x_opts v false) false full_net = Ok (full_doc v, None).
Proof. destruct v; vm_compute; reflexivity. Qed.
Definition all_present : bool :=
  forallb (fun v => let y := full_doc v in
    forallb (fun r => implb ((r.1.2.1 <=? number v) && (number v <=? r.1.2.2)) (forallb (fun a => find_attr r.1.1 a y) r.2)) attribute_rows &&
    forallb (fun r => implb ((r.1.2.1 <=? number v) && (number v <=? r.1.2.2)) (forallb (fun a => find_child r.1.1 a y) r.2)) child_rows) all_vers.
Lemma all_present_ok : all_present = true.
Proof. vm_compute. reflexivity. Qed.

(** A document written in a version has only the names of that version, if the export throws on what the version does not support, or if there is nothing that the
    reader of the version refuses. *)
Theorem C82_written_partial o a n y m : net_valid a (o_ver o) n -> o_throwing o = true \/ readable (o_ver o) n -> write_network o a n = Ok (y, m) ->
  conforms (o_ver o) y /\ exists attrs e cs, y = Elem "network" attrs e cs /\ ("xmlns:iidm", namespace_uri (o_ver o)) ∈ attrs.
Proof.
  intros Hn H E. assert (readable (o_ver o) n) as Hr.
  { destruct H as [H|H]; [|done]. apply supported_readable_net. eapply throwing_supported; [by apply net_iff|done|exact E]. }
  destruct (network_conforms _ _ _ _ _ Hn Hr E) as [C (at' & e & cs & ->)]. split; [done|]. do 3 eexists. split; [done|].
  revert E. unfold write_network. destruct (write_fields _ _ _ _) as [fs m1]. destruct (_ && _); [done|]. destruct (wmap _ _ m1) as [als m2].
  destruct (wmapr _ _ m2) as [[ss m3]| | |]; try done. cbn [result_bind]. destruct (wmapr _ _ m3) as [[ls m4]| | |]; try done. cbn [result_bind]. destruct (wmapr _ _ m4) as [[hs m5]| | |]; try done.
  cbn [result_bind]. unfold elem. intros [= <- _ _ _]. left.
Qed.
(** Each name of the tables is used: some network is written with it. *)
Theorem C82_attributes v e a : attribute v e a -> exists o n y, o_ver o = v /\ net_valid false v n /\ write_network o false n = Ok (y, None) /\
  exists attrs b cs t, occurs (Elem e attrs b cs) y /\ (a, t) ∈ attrs.
Proof.
  intros (lo & hi & l & Hin & [H1 H2] & Ha). exists (x_opts v false), full_net, (full_doc v). split; [done|]. split; [apply full_valid|]. split; [apply full_doc_ok|]. apply find_attr_sound.
  pose proof all_present_ok as H. unfold all_present in H. rewrite forallb_forall in H. specialize (H v (proj1 (elem_of_list_In _ _) (in_vers v))). apply andb_true_iff in H as [H _].
  rewrite forallb_forall in H. specialize (H _ (proj1 (elem_of_list_In _ _) Hin)). cbn [fst snd] in H. apply Nat.leb_le in H1, H2. rewrite H1, H2 in H. cbn [andb implb] in H.
  rewrite forallb_forall in H. exact (H a (proj1 (elem_of_list_In _ _) Ha)).
Qed.
Theorem C82_elements v e x : child v e x -> exists o n y, o_ver o = v /\ net_valid false v n /\ write_network o false n = Ok (y, None) /\
  exists attrs b cs attrs' b' cs', occurs (Elem e attrs b cs) y /\ Elem x attrs' b' cs' ∈ cs.
Proof.
  intros (lo & hi & l & Hin & [H1 H2] & Ha). exists (x_opts v false), full_net, (full_doc v). split; [done|]. split; [apply full_valid|]. split; [apply full_doc_ok|]. apply find_child_sound.
  pose proof all_present_ok as H. unfold all_present in H. rewrite forallb_forall in H. specialize (H v (proj1 (elem_of_list_In _ _) (in_vers v))). apply andb_true_iff in H as [_ H].
  rewrite forallb_forall in H. specialize (H _ (proj1 (elem_of_list_In _ _) Hin)). cbn [fst snd] in H. apply Nat.leb_le in H1, H2. rewrite H1, H2 in H. cbn [andb implb] in H.
  rewrite forallb_forall in H. exact (H x (proj1 (elem_of_list_In _ _) Ha)).
Qed.
(** What is false: an export that only logs errors writes elements that the version does not have. *)
Lemma conforms_occurs v x y : conforms v y -> occurs x y -> conforms v x.
Proof. intros C O. revert C. induction O as [|n a e cs c Hc O IH]; [done|]. intros C. inversion C as [? ? ? ? _ H _ _| |]; subst. by apply IH, H. Qed.
Theorem C82_logged_refuted : exists o n y, net_valid false (o_ver o) n /\ write_network o false n = Ok (y, None) /\ ~ conforms (o_ver o) y.
Proof.
  exists (x_opts V1_0 false), full_net, (full_doc V1_0). split; [apply full_valid|]. split; [apply full_doc_ok|]. intros C.
  destruct (find_child_sound "staticVarCompensator" "regulatingTerminal" (full_doc V1_0)) as (at' & b & cs & at1 & b1 & cs1 & O & H); [vm_compute; reflexivity|].
  pose proof (conforms_occurs _ _ _ C O) as C'. inversion C' as [? ? ? ? _ _ Hc _| |]; subst. apply Hc, listedb_spec in H. vm_compute in H. discriminate H.
Qed.
(** Names that changed: the set points of static var compensators and the section count of shunt compensators. *)
Theorem C82_renamed o a n y m : net_valid a (o_ver o) n -> o_throwing o = true \/ readable (o_ver o) n -> write_network o a n = Ok (y, m) ->
  forall e attrs b cs x t, occurs (Elem e attrs b cs) y -> (x, t) ∈ attrs ->
    (e = "staticVarCompensator" -> x = "voltageSetPoint" \/ x = "reactivePowerSetPoint" -> number (o_ver o) <= 2) /\
    (e = "staticVarCompensator" -> x = "voltageSetpoint" \/ x = "reactivePowerSetpoint" -> 3 <= number (o_ver o)) /\
    (e = "shunt" -> x = "currentSectionCount" -> number (o_ver o) <= 2) /\ (e = "shunt" -> x = "sectionCount" -> 3 <= number (o_ver o)).
Proof.
  intros Hn H E e attrs b cs x t O Hx. destruct (C82_written_partial o a n y m Hn H E) as [C _]. pose proof (conforms_occurs _ _ _ C O) as C'. inversion C' as [? ? ? ? Ha _ _ _| |]; subst.
  specialize (Ha _ Hx). cbn [fst] in Ha. apply listedb_spec in Ha. clear -Ha.
  repeat split; intros ->; [intros [-> | ->]|intros [-> | ->]|intros ->|intros ->]; destruct (o_ver o); cbn [number]; try lia; vm_compute in Ha; discriminate Ha.
Qed.
(** The reference documents of the tests use the tables. *)
Example C82_case : forallb (fun r => forallb (fun v => implb (existsb (Nat.eqb (number v)) r.1.2) (forallb (attributeb v r.1.1) r.2)) all_vers) attested = true /\
  net_valid false V1_5 full_net /\ net_supported V1_5 full_net /\ conforms V1_5 (full_doc V1_5).
Proof.
  split; [vm_compute; reflexivity|]. split; [apply full_valid|]. assert (net_supported V1_5 full_net) as S by (apply (bool_decide_unpack _); vm_compute; exact I). split; [exact S|].
  destruct (C82_written_partial (x_opts V1_5 false) false full_net (full_doc V1_5) None) as [C _]; [apply full_valid|right; by apply supported_readable_net|apply full_doc_ok|exact C].
Qed.
Print Assumptions C82_written_partial.
Print Assumptions C82_attributes.
Print Assumptions C82_elements.
Print Assumptions C82_logged_refuted.
Print Assumptions C82_renamed.
