(** Property C83: the names, namespaces and values of the extensions in the XML documents. *)
From Verif Require Import Xml NetXml NetXmlSpec NetXmlMore NetXmlDec NetXmlShape NetXmlShapeProofs NetXmlProps VocabularySpec VocabularyProofs VocabularyProps ColumnsSpec ColumnsProofs ExtXml ExtXmlSpec ExtXmlAll ExtXmlExport ExtXmlProps ExtVocabSpec ExtVocabProofs.

(** Each extension exported is in the element [extension] of its object, by its name, with its values each under its own name; its namespace is declared. *)
Theorem C83_extension o sg reg x n xs y m l name e : net_valid false (o_ver o) n -> exts_ok sg x n xs -> write_all reg x o false n xs = Ok (y, m) ->
  l ∈ objects n -> ext_of xs (l_id l) name = Some e -> asked (x_only x) name ->
  exists ats b cs zs attrs b' kids p u, y = Elem "network" ats b cs /\ Elem "extension" [("id", l_id l)] false zs ∈ cs /\ Elem name attrs b' kids ∈ zs /\ extension_told name e attrs kids /\
    namespace_in (o_ver o) name p u /\ ("xmlns:" +:+ p, u) ∈ ats.
Proof.
  intros Hn Hx E Hl He A. destruct (all_exts _ _ _ _ _ _ _ _ Hn Hx E) as (first & ns & al & e' & cs & es & b & _ & -> & N1 & _ & O1 & _). destruct Hx as [Nx _]. pose proof (Nx _ _ _ He) as En.
  destruct (O1 l e Hl) as (Hf & zs & attrs & b' & kids & H1 & H2 & H3); [apply chosen_in; [done|]; unfold nm; by rewrite En|]. unfold nm in *. rewrite En in *.
  destruct (N1 name) as (p & u & R & Hin); [apply ext_names_in; exists l, e; split; [by right|done]|done|done|].
  exists (first :: ns ++ al), b, (cs ++ es), zs, attrs, b', kids, p, u. split; [done|]. split; [apply elem_of_app; by right|]. split; [done|]. split; [done|]. split; [done|]. right. apply elem_of_app. by left.
Qed.
(** Nothing else is under [extension], no other namespace is declared. *)
Theorem C83_only o sg reg x n xs y m : net_valid false (o_ver o) n -> o_throwing o = true \/ readable (o_ver o) n -> exts_ok sg x n xs -> write_all reg x o false n xs = Ok (y, m) ->
  exists ats b cs, y = Elem "network" ats b cs /\
  (forall attrs b' zs, Elem "extension" attrs b' zs ∈ cs -> exists l, l ∈ objects n /\ attrs = [("id", l_id l)] /\
     forall w, w ∈ zs -> exists name e attrs' b'' kids, w = Elem name attrs' b'' kids /\ ext_of xs (l_id l) name = Some e /\ asked (x_only x) name) /\
  (forall p u, ("xmlns:" +:+ p, u) ∈ ats -> p = "iidm" \/ exists l name e, l ∈ n_leaf n :: objects n /\ ext_of xs (l_id l) name = Some e /\ asked (x_only x) name /\ namespace_in (o_ver o) name p u).
Proof.
  intros Hn Hr Hx E. destruct (all_exts _ _ _ _ _ _ _ _ Hn Hx E) as (first & ns & al & e' & cs & es & b & Ew & -> & _ & N2 & _ & O2). destruct Hx as [Nx _].
  destruct (C82_written_partial _ _ _ _ _ Hn Hr Ew) as [Cf _]. inversion Cf as [n0 a0 e0 cs0 Ha Hc Hch Ht| |]; subst. exists (first :: ns ++ al), b, (cs ++ es). split; [done|]. split.
  - intros attrs b' zs [H|H]%elem_of_app.
    + exfalso. specialize (Hch _ _ _ _ H). destruct Hch as (lo & hi & l & Hin & _ & Hl).
      assert (forallb (fun r => implb (String.eqb r.1.1 "network") (negb (bool_decide ("extension" ∈ r.2)))) child_rows = true) as K by (vm_compute; reflexivity).
      rewrite forallb_forall in K. apply elem_of_list_In in Hin. specialize (K _ Hin). cbn [fst snd] in K. rewrite String.eqb_refl in K. cbn [implb] in K. apply negb_true_iff, bool_decide_eq_false in K. done.
    + destruct (O2 _ H) as (l & zs' & Hl & [= -> -> ->] & Hw). exists l. split; [done|]. split; [done|]. intros w Hz. destruct (Hw w Hz) as (e & a' & b'' & kids & He & ->). apply chosen_in in He as [He A]; [|done].
      exists (nm e), e, a', b'', kids. done.
  - assert (forall p u, ("xmlns:" +:+ p, u) ∈ first :: al -> p = "iidm") as F.
    { intros p u H. specialize (Ha _ H). destruct Ha as (lo & hi & l & Hin & _ & Hl). cbn [fst] in Hl.
      assert (forallb (fun r => implb (String.eqb r.1.1 "network") (forallb (fun a => implb (String.prefix "xmlns:" a) (String.eqb a "xmlns:iidm")) r.2)) attribute_rows = true) as K by (vm_compute; reflexivity).
      rewrite forallb_forall in K. apply elem_of_list_In in Hin. specialize (K _ Hin). cbn [fst snd] in K. rewrite String.eqb_refl in K. cbn [implb] in K. rewrite forallb_forall in K. apply elem_of_list_In in Hl. specialize (K _ Hl).
      assert (String.prefix "xmlns:" ("xmlns:" +:+ p) = true) as X by (cbn; by destruct p). rewrite X in K. cbn [implb] in K. apply String.eqb_eq in K. by injection K. }
    intros p u [H|[H|H]%elem_of_app]%elem_of_cons.
    + left. apply (F p u). rewrite H. left.
    + right. destruct (N2 _ H) as (name & p' & u' & Hin & A & R & [= X Y]). subst p' u'. apply ext_names_in in Hin as (l & e & Hl & He). exists l, name, e. done.
    + left. apply (F p u). by right.
Qed.
(** Names determine: no two columns of an extension share one, no two extensions share a prefix or a namespace. *)
Theorem C83_distinct v : (forall name, distinct V1_5 (extension_columns name) /\ distinct V1_5 (sub_columns name)) /\
  (forall n1 n2 p1 p2 u1 u2, namespace_in v n1 p1 u1 -> namespace_in v n2 p2 u2 -> (p1 = p2 \/ u1 = u2 <-> n1 = n2) /\ (n1 = n2 -> p1 = p2 /\ u1 = u2) /\ p1 <> "iidm").
Proof.
  split.
  - intros name. split; apply distinctb_spec.
    + unfold extension_columns. repeat (match goal with |- context [String.eqb name ?s] => destruct (String.eqb name s); [vm_compute; reflexivity|] end). vm_compute. reflexivity.
    + unfold sub_columns. repeat (match goal with |- context [String.eqb name ?s] => destruct (String.eqb name s); [vm_compute; reflexivity|] end). vm_compute. reflexivity.
  - intros n1 n2 p1 p2 u1 u2 (lo1 & hi1 & H1 & V1) (lo2 & hi2 & H2 & V2).
    assert (forallb (fun w => forallb (fun r1 => forallb (fun r2 =>
      implb ((r1.1.1.2.1 <=? number w) && (number w <=? r1.1.1.2.2) && (r2.1.1.2.1 <=? number w) && (number w <=? r2.1.1.2.2))
        (if String.eqb r1.1.1.1 r2.1.1.1 then String.eqb r1.1.2 r2.1.2 && String.eqb r1.2 r2.2 && negb (String.eqb r1.1.2 "iidm") else negb (String.eqb r1.1.2 r2.1.2) && negb (String.eqb r1.2 r2.2) && negb (String.eqb r1.1.2 "iidm")))
      namespace_rows) namespace_rows) all_vers = true) as K by (vm_compute; reflexivity).
    rewrite forallb_forall in K. specialize (K v (proj1 (elem_of_list_In _ _) (in_vers v))). rewrite forallb_forall in K. apply elem_of_list_In in H1, H2. specialize (K _ H1). rewrite forallb_forall in K. specialize (K _ H2). cbn [fst snd] in K.
    destruct V1 as [L1 L2], V2 as [L3 L4]. apply Nat.leb_le in L1, L2, L3, L4. rewrite L1, L2, L3, L4 in K. cbn [andb implb] in K.
    destruct (String.eqb_spec n1 n2) as [->|N].
    + apply andb_true_iff in K as [[K1%String.eqb_eq K2%String.eqb_eq]%andb_true_iff K3%negb_true_iff%String.eqb_neq]. subst. tauto.
    + apply andb_true_iff in K as [[K1%negb_true_iff%String.eqb_neq K2%negb_true_iff%String.eqb_neq]%andb_true_iff K3%negb_true_iff%String.eqb_neq]. tauto.
Qed.
(** The reference documents of the tests have these names. *)
Theorem C83_attested : forall name p u attrs subs, (name, (p, u), attrs, subs) ∈ attested_ext ->
  namespace_in V1_5 name p u /\ (forall a, a ∈ attrs <-> exists c, c ∈ extension_columns name /\ exists lo hi, (lo, hi, a) ∈ c) /\ (forall a, a ∈ subs <-> exists c, c ∈ sub_columns name /\ exists lo hi, (lo, hi, a) ∈ c).
Proof.
  intros name p u attrs subs H%elem_of_list_In.
  assert (forallb (fun r => existsb (fun s => String.eqb s.1.1.1 r.1.1.1 && (s.1.1.2.1 <=? 5) && (5 <=? s.1.1.2.2) && String.eqb s.1.2 r.1.1.2.1 && String.eqb s.2 r.1.1.2.2) namespace_rows &&
    bool_decide (Forall (fun a => a ∈ (mjoin (extension_columns r.1.1.1)).*2) r.1.2) && bool_decide (Forall (fun a => a ∈ r.1.2) (mjoin (extension_columns r.1.1.1)).*2) &&
    bool_decide (Forall (fun a => a ∈ (mjoin (sub_columns r.1.1.1)).*2) r.2) && bool_decide (Forall (fun a => a ∈ r.2) (mjoin (sub_columns r.1.1.1)).*2)) attested_ext = true) as K by (vm_compute; reflexivity).
  rewrite forallb_forall in K. specialize (K _ H). cbn [fst snd] in K. rewrite !andb_true_iff, !bool_decide_eq_true, !Forall_forall in K. destruct K as ((((K1 & K2) & K3) & K4) & K5).
  assert (forall (cs : list column) a, a ∈ (mjoin cs).*2 <-> exists c, c ∈ cs /\ exists lo hi, (lo, hi, a) ∈ c) as M.
  { intros cs a. rewrite elem_of_list_fmap. split.
    - intros ([[lo hi] a'] & -> & Hin). apply elem_of_list_join in Hin as (c & Hin & Hc). eauto.
    - intros (c & Hc & lo & hi & Hin). exists (lo, hi, a). split; [done|]. apply elem_of_list_join. eauto. }
  split; [|split].
  - apply existsb_exists in K1 as ([[[n' [lo hi]] p'] u'] & Hin & HH). cbn [fst snd] in HH. rewrite !andb_true_iff in HH. destruct HH as ((((E1 & L1) & L2) & E2) & E3). apply String.eqb_eq in E1, E2, E3. subst. apply Nat.leb_le in L1, L2.
    exists lo, hi. split; [by apply elem_of_list_In|done].
  - intros a. rewrite <- M. split; auto.
  - intros a. rewrite <- M. split; auto.
Qed.
(** The extensions of [x_exts], of all classes, exported in 1.5. *)
Example C83_case : net_valid false V1_5 xn /\ exts_ok x_signs (Export ∅ true ∅) xn x_exts /\
  (exists y, write_all all_serializers (Export ∅ true ∅) (x_opts V1_5 true) false xn x_exts = Ok (y, None)) /\
  (exists l e, l ∈ objects xn /\ ext_of x_exts (l_id l) "hvdcOperatorActivePowerRange" = Some e /\ e_fields e = [VNum (Some "100"); VNum None]) /\
  tells V1_5 (extension_columns "hvdcOperatorActivePowerRange") [VNum (Some "100"); VNum None] [("fromCS1toCS2", "100")] /\
  ~ tells V1_5 (extension_columns "hvdcOperatorActivePowerRange") [VNum (Some "100"); VNum None] [("fromCS2toCS1", "100")].
Proof.
  split; [apply x_ok; by right|]. split; [apply x_exts_ok|]. split; [|split; [|split]].
  - destruct (write_all all_serializers (Export ∅ true ∅) (x_opts V1_5 true) false xn x_exts) as [[y m]| | |] eqn:E; [|exfalso; clear -E; vm_compute in E; discriminate E..].
    exists y. assert (match write_all all_serializers (Export ∅ true ∅) (x_opts V1_5 true) false xn x_exts with Ok (_, None) => true | _ => false end = true) as H by (vm_compute; reflexivity). rewrite E in H. by destruct m.
  - assert (existsb (fun l => match ext_of x_exts (l_id l) "hvdcOperatorActivePowerRange" with Some e => bool_decide (e_fields e = [VNum (Some "100"); VNum None]) | None => false end) (objects xn) = true) as H by (vm_compute; reflexivity).
    apply existsb_exists in H as (l & Hl%elem_of_list_In & H). destruct (ext_of x_exts (l_id l) "hvdcOperatorActivePowerRange") as [e|] eqn:E; [|done]. apply bool_decide_eq_true in H. exists l, e. done.
  - intros a t [= -> ->]%elem_of_list_singleton. exists 0. do 4 eexists. split; [reflexivity|]. split; [left|]. split; [cbn; lia|]. done.
  - intros T. destruct (T "fromCS2toCS1" "100" ltac:(left)) as (i & c & x & lo & hi & Hc & Hin & _ & Hx & Hs). destruct i as [|[|i]]; cbn in Hc, Hx; [| |done].
    + injection Hc as <-. apply elem_of_list_singleton in Hin. done.
    + injection Hx as <-. done.
Qed.
Print Assumptions C83_extension.
Print Assumptions C83_only.
Print Assumptions C83_distinct.
Print Assumptions C83_attested.
