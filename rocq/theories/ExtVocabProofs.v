From Verif Require Import Xml XmlProofs Anonymizer NetXml NetXmlSpec NetXmlShape NetXmlShapeProofs NetXmlProofs NetXmlMore VocabularySpec VocabularyProofs ColumnsSpec ColumnsProofs ExtXml ExtXmlSpec ExtXmlContent ExtXmlProofs ExtXmlAll ExtXmlExport ExtVocabSpec.

Lemma ext_agree_all : forallb (fun k => agree V1_5 (ext_fields k) (extension_columns (kind_name k)) && forallb (fun n => match child_fields k n with Some ds => agree V1_5 ds (sub_columns (kind_name k)) | None => true end)
  ["feeder"; "feeder1"; "feeder2"; "feeder3"; "measurement"; "discreteMeasurement"]) known = true.
Proof. vm_compute. reflexivity. Qed.
Lemma child_fields_names k n ds : child_fields k n = Some ds -> In n ["feeder"; "feeder1"; "feeder2"; "feeder3"; "measurement"; "discreteMeasurement"].
Proof.
  destruct k; cbn [child_fields]; try done.
  - case_bool_decide as H; [|done]. intros _. unfold feeders in H. revert H. rewrite !elem_of_cons, elem_of_nil. cbn. intuition.
  - destruct (String.eqb_spec n "measurement") as [->|]; [|done]. cbn. auto 10.
  - destruct (String.eqb_spec n "discreteMeasurement") as [->|]; [|done]. cbn. auto 10.
Qed.
Lemma ext_agree k : k ∈ known -> agree V1_5 (ext_fields k) (extension_columns (kind_name k)) = true /\ forall n ds, child_fields k n = Some ds -> agree V1_5 ds (sub_columns (kind_name k)) = true.
Proof.
  intros Hk%elem_of_list_In. pose proof ext_agree_all as H. rewrite forallb_forall in H. specialize (H k Hk). apply andb_true_iff in H as [H1 H2]. split; [done|].
  intros n ds E. rewrite forallb_forall in H2. specialize (H2 n (child_fields_names _ _ _ E)). by rewrite E in H2.
Qed.
Lemma has_text_textual k : k ∈ known -> has_text k = true <-> textual (kind_name k).
Proof.
  intros Hk. unfold textual. destruct k; cbn [has_text kind_name]; (split; [intros H; try discriminate H; auto|]); intros [H|H]; try discriminate H; try reflexivity.
  all: unfold known in Hk; rewrite !elem_of_cons, elem_of_nil in Hk; intuition discriminate.
Qed.
Definition sub_xml (k : ekind) (c : child) : xml :=
  elem (ch_name c) (write_fields V1_5 (default [] (child_fields k (ch_name c))) (ch_fields c) None).1 (if has_props k then map write_prop (map_to_list (ch_props c)) else []).
Lemma write_sub_none k c : write_ext_child k c None = (sub_xml k c, None).
Proof. unfold write_ext_child, sub_xml. destruct (write_fields_none V1_5 (default [] (child_fields k (ch_name c))) (ch_fields c)) as [H _]. destruct (write_fields V1_5 _ (ch_fields c) None) as [a m]. cbn [fst snd] in *. by subst. Qed.
Lemma sub_ok k c : k ∈ known -> child_ok false k c -> sub_told (kind_name k) c (sub_xml k c).
Proof.
  intros Hk (ds & Ed & _ & _ & Hp). unfold sub_xml, elem. rewrite Ed. cbn [default from_option id]. do 3 eexists. split; [done|]. split; [apply fields_tell; by eapply (proj2 (ext_agree k Hk))|]. destruct (has_props k).
  - split.
    + intros key w. rewrite <- elem_of_map_to_list, elem_of_list_fmap. split.
      * intros H. exists (key, w). done.
      * intros ([k' w'] & E & H). unfold write_prop, elem in E. cbn in E. by injection E as -> ->.
    + intros z ([k' w'] & -> & _)%elem_of_list_fmap. by exists k', w'.
  - rewrite (Hp eq_refl). split.
    + intros key w. rewrite lookup_empty, elem_of_nil. done.
    + intros z Hz. by apply elem_of_nil in Hz.
Qed.
Lemma write_ext_none e : content_ok false e -> exists attrs b kids, write_ext e None = (Elem (nm e) attrs b kids, None) /\ extension_told (nm e) e attrs kids.
Proof.
  intros (Hk & _ & C). unfold write_ext. destruct (write_fields_none V1_5 (ext_fields (e_kind e)) (e_fields e)) as [H _]. pose proof (fields_tell V1_5 _ _ (e_fields e) (proj1 (ext_agree _ Hk))) as T.
  destruct (write_fields V1_5 (ext_fields (e_kind e)) (e_fields e) None) as [a m1]. cbn [fst snd] in H, T. subst m1. unfold elem. pose proof (has_text_textual _ Hk) as Ht. destruct (has_text (e_kind e)).
  - destruct C as [B _]. unfold chars. rewrite B. destruct (String.eqb_spec (e_text e) "") as [E|_]; [rewrite E in B; discriminate B|]. do 3 eexists. split; [done|]. split; [done|]. split; [done|]. intros N. exfalso. apply N. by apply Ht.
  - destruct C as (_ & Fc & Np). assert (arrange (e_kind e) (e_children e) = e_children e) as -> by (destruct (e_kind e); try done; by apply Np).
    destruct (wmap_none (write_ext_child (e_kind e)) (e_children e)) as [W1 W2]; [intros c _; by rewrite write_sub_none|]. destruct (wmap _ _ None) as [cs m]. cbn [fst snd] in *. subst m cs.
    do 3 eexists. split; [done|]. split; [done|]. split; [intros X; apply Ht in X; discriminate X|]. intros _. apply Forall2_fmap_r, Forall_Forall2_diag. rewrite Forall_forall in Fc. apply Forall_forall. intros c Hc. cbn beta. unfold compose. rewrite (write_sub_none (e_kind e) c). apply sub_ok; auto.
Qed.
Lemma write_extension_none reg x e y m : content_ok false e -> write_extension reg x e None = Ok (y, m) -> m = None /\ find_provider reg (nm e) <> None /\ exists attrs b kids, y = Elem (nm e) attrs b kids /\ extension_told (nm e) e attrs kids.
Proof.
  intros C. destruct (write_ext_none e C) as (attrs & b & kids & E & T). unfold write_extension, serializer. fold (nm e). destruct (find_provider reg (nm e)) as [k|].
  - destruct (x_throw x); cbn [result_bind].
    + destruct (_ && _); [done|]. rewrite E. intros [= <- <-]. eauto 10.
    + destruct (serializable e); cbn [result_bind]; [|done]. destruct (_ && _); [done|]. rewrite E. intros [= <- <-]. eauto 10.
  - destruct (x_throw x); done.
Qed.
(** What the extensions of an object give. *)
Lemma object_exts_none reg x xs l ys m : (forall e, e ∈ chosen x xs l -> content_ok false e) -> write_object_exts reg x xs l None = Ok (ys, m) ->
  m = None /\ (chosen x xs l = [] -> ys = []) /\
  (chosen x xs l <> [] -> exists es, ys = [Elem "extension" [("id", l_id l)] false es] /\
     (forall e, e ∈ chosen x xs l -> find_provider reg (nm e) <> None /\ exists attrs b kids, Elem (nm e) attrs b kids ∈ es /\ extension_told (nm e) e attrs kids) /\
     (forall z, z ∈ es -> exists e attrs b kids, e ∈ chosen x xs l /\ z = Elem (nm e) attrs b kids)).
Proof.
  intros C. rewrite write_object_chosen. destruct (chosen x xs l) as [|e0 es0] eqn:Ech; [intros [= <- <-]; done|]. cbn [anon].
  destruct (wmapr _ _ None) as [[zs m2]| | |] eqn:E; try done. cbn [result_bind]. intros [= <- <-].
  assert (m2 = None /\ (forall e, e ∈ e0 :: es0 -> find_provider reg (nm e) <> None /\ exists attrs b kids, Elem (nm e) attrs b kids ∈ zs /\ extension_told (nm e) e attrs kids) /\
    (forall z, z ∈ zs -> exists e attrs b kids, e ∈ e0 :: es0 /\ z = Elem (nm e) attrs b kids) /\ length zs = length (e0 :: es0)) as (-> & H1 & H2 & H3).
  { clear Ech. revert zs m2 E C. generalize (e0 :: es0). intros es. induction es as [|e es IH]; cbn [wmapr]; intros zs m2 E C.
    - injection E as <- <-. split; [done|]. split; [intros e He; by apply elem_of_nil in He|]. split; [intros e He; by apply elem_of_nil in He|done].
    - destruct (write_extension reg x e None) as [[z m1]| | |] eqn:Ee; try done. cbn [result_bind] in E. destruct (write_extension_none _ _ _ _ _ (C e (elem_of_list_here _ _)) Ee) as (-> & Hf & attrs & b & kids & -> & T).
      destruct (wmapr _ es None) as [[zs' m3]| | |] eqn:Ew; try done. cbn [result_bind] in E. injection E as <- <-. destruct (IH _ _ eq_refl (fun e' He' => C e' (elem_of_list_further _ _ _ He'))) as (-> & I1 & I2 & I3).
      split; [done|]. split; [|split].
      + intros e' [-> |He']%elem_of_cons; [split; [done|]; exists attrs, b, kids; split; [left|done]|]. destruct (I1 e' He') as (? & a' & b' & k' & Hin & T'). split; [done|]. exists a', b', k'. split; [by right|done].
      + intros z [-> |Hz]%elem_of_cons; [exists e, attrs, b, kids; split; [left|done]|]. destruct (I2 z Hz) as (e' & a' & b' & k' & Hin & ->). exists e', a', b', k'. split; [by right|done].
      + cbn. by rewrite I3. }
  split; [done|]. split; [done|]. intros _. exists zs. split; [|by split]. unfold elem. destruct zs; [discriminate H3|done].
Qed.
(** The namespaces. *)
Lemma namespaces_rows_all : forallb (fun v => forallb (fun k => match k with KSlack => true | _ => existsb (fun r => String.eqb r.1.1.1 (kind_name k) && (r.1.1.2.1 <=? number v) && (number v <=? r.1.1.2.2) && String.eqb r.1.2 (kind_prefix k) && String.eqb r.2 (kind_uri k)) namespace_rows end) known) all_vers = true.
Proof. vm_compute. reflexivity. Qed.
Lemma namespace_row x v k u : k ∈ known -> namespace_of x v k = Ok u -> namespace_in v (kind_name k) (kind_prefix k) u.
Proof.
  intros Hk E. destruct (decide (k = KSlack)) as [->|Nk].
  - unfold namespace_of in E. cbn [versionable kind_name] in E. assert (forall w, slack_versions v = Some [w] -> slack_uri w = Some u -> namespace_in v "slackTerminal" "slt" u) as S.
    { intros w Hw Hu. destruct v; cbn in Hw; try discriminate Hw; injection Hw as <-; vm_compute in Hu; injection Hu as <-.
      - exists 3, 3. split; [apply elem_of_list_In; cbn; tauto|cbn; lia].
      - exists 4, 4. split; [apply elem_of_list_In; cbn; tauto|cbn; lia].
      - exists 5, 5. split; [apply elem_of_list_In; cbn; tauto|cbn; lia]. }
    assert (forall l, slack_versions v = Some l -> exists w, l = [w]) as One by (intros l; destruct v; cbn; intros [=]; subst; eauto).
    destruct (String.eqb _ ""); [|destruct (negb _); [done|]].
    + destruct (slack_versions v) as [l|] eqn:Ev; [|done]. destruct (One l eq_refl) as [w ->]. cbn [last] in E. destruct (slack_uri w) as [u'|] eqn:Eu; [|done]. injection E as ->. by eapply S.
    + destruct (slack_versions v) as [l|] eqn:Ev; [|done]. destruct (One l eq_refl) as [w ->]. case_bool_decide as Hw; [|done]. apply elem_of_list_singleton in Hw as Hw'. destruct (slack_uri _) as [u'|] eqn:Eu; [|done]. injection E as ->. rewrite Hw' in Eu. by eapply S.
  - assert (u = kind_uri k) as -> by (unfold namespace_of in E; destruct k; try congruence; by injection E). pose proof namespaces_rows_all as H. rewrite forallb_forall in H. specialize (H v (proj1 (elem_of_list_In _ _) (in_vers v))).
    rewrite forallb_forall in H. apply elem_of_list_In in Hk. specialize (H k Hk).
    assert (existsb (fun r => String.eqb r.1.1.1 (kind_name k) && (r.1.1.2.1 <=? number v) && (number v <=? r.1.1.2.2) && String.eqb r.1.2 (kind_prefix k) && String.eqb r.2 (kind_uri k)) namespace_rows = true) as H' by (by destruct k).
    apply existsb_exists in H' as ([[[n' [lo hi]] p'] u'] & Hin & HH). cbn [fst snd] in HH. rewrite !andb_true_iff in HH. destruct HH as ((((E1 & L1) & L2) & E2) & E3). apply String.eqb_eq in E1, E2, E3. subst n' p' u'. apply Nat.leb_le in L1, L2.
    exists lo, hi. split; [by apply elem_of_list_In|done].
Qed.
Lemma namespaces_in reg x v names uris ps ns : namespaces reg x v names uris ps = Ok ns -> 
  (forall n, n ∈ names -> asked (x_only x) n -> find_provider reg n <> None -> exists p u, namespace_in v n p u /\ ("xmlns:" +:+ p, u) ∈ ns) /\
  (forall z, z ∈ ns -> exists n p u, n ∈ names /\ asked (x_only x) n /\ namespace_in v n p u /\ z = ("xmlns:" +:+ p, u)).
Proof.
  revert uris ps ns. induction names as [|n names IH]; intros uris ps ns E; cbn [namespaces] in E.
  { injection E as <-. split; [intros n Hn; by apply elem_of_nil in Hn|intros n Hn; by apply elem_of_nil in Hn]. }
  assert (namespaces reg x v names uris ps = Ok ns -> (~ asked (x_only x) n \/ find_provider reg n = None) -> (forall n', n' ∈ n :: names -> asked (x_only x) n' -> find_provider reg n' <> None -> exists p u, namespace_in v n' p u /\ ("xmlns:" +:+ p, u) ∈ ns) /\
    (forall z, z ∈ ns -> exists n' p u, n' ∈ n :: names /\ asked (x_only x) n' /\ namespace_in v n' p u /\ z = ("xmlns:" +:+ p, u))) as Skip.
  { intros E' H. destruct (IH _ _ _ E') as [I1 I2]. split.
    - intros n' [-> |Hn']%elem_of_cons A P; [by destruct H|]. by apply I1.
    - intros z Hz. destruct (I2 z Hz) as (n' & p & u & Hn' & H'). exists n', p, u. split; [by right|done]. }
  destruct (selected (x_only x) n) eqn:Se; cbn [negb] in E; [|apply Skip; [done|left; intros A; apply selected_asked in A; congruence]].
  destruct (find_provider reg n) as [k|] eqn:P; [|apply Skip; [done|by right]]. destruct (provider_name _ _ _ P) as [Hk En].
  destruct (namespace_of x v k) as [u| | |] eqn:Eu; try done. cbn [result_bind] in E. case_bool_decide; [done|]. case_bool_decide; [done|]. destruct (namespaces reg x v names _ _) as [ns'| | |] eqn:E'; try done. cbn [result_bind] in E. injection E as <-.
  destruct (IH _ _ _ E') as [I1 I2]. pose proof (namespace_row _ _ _ _ Hk Eu) as R. rewrite En in R. split.
  - intros n' [-> |Hn']%elem_of_cons A Pn; [exists (kind_prefix k), u; split; [done|left]|]. destruct (I1 n' Hn' A Pn) as (p & u' & R' & Hin). exists p, u'. split; [done|by right].
  - intros z [-> |Hz]%elem_of_cons; [exists n, (kind_prefix k), u; split; [left|]; split; [by apply selected_asked|done]|]. destruct (I2 z Hz) as (n' & p & u' & Hn' & H'). exists n', p, u'. split; [by right|done].
Qed.
Lemma ext_names_in n xs name : name ∈ ext_names n xs <-> exists l e, l ∈ n_leaf n :: objects n /\ ext_of xs (l_id l) name = Some e.
Proof.
  unfold ext_names. rewrite elem_of_elements, elem_of_list_to_set. change (net_leaves n) with (n_leaf n :: objects n). rewrite elem_of_list_join. split.
  - intros (ns & Hn & Hl). apply elem_of_list_fmap in Hl as (l & -> & Hl). apply elem_of_list_fmap in Hn as ([n' e] & -> & H). apply elem_of_map_to_list in H. exists l, e. split; [done|]. unfold ext_of. destruct (xs !! l_id l); [done|]. cbn in H. by rewrite lookup_empty in H.
  - intros (l & e & Hl & He). eexists. split; [|apply elem_of_list_fmap; by exists l]. apply elem_of_list_fmap. exists (name, e). split; [done|]. apply elem_of_map_to_list. unfold ext_of in He. by destruct (xs !! l_id l).
Qed.
Lemma objects_exts reg x xs ls es m : (forall l e, l ∈ ls -> e ∈ chosen x xs l -> content_ok false e) -> wmapr (write_object_exts reg x xs) ls None = Ok (es, m) ->
  m = None /\
  (forall l e, l ∈ ls -> e ∈ chosen x xs l -> find_provider reg (nm e) <> None /\ exists zs attrs b kids, Elem "extension" [("id", l_id l)] false zs ∈ mjoin es /\ Elem (nm e) attrs b kids ∈ zs /\ extension_told (nm e) e attrs kids) /\
  (forall z, z ∈ mjoin es -> exists l zs, l ∈ ls /\ z = Elem "extension" [("id", l_id l)] false zs /\ forall w, w ∈ zs -> exists e attrs b kids, e ∈ chosen x xs l /\ w = Elem (nm e) attrs b kids).
Proof.
  intros C. revert es m. induction ls as [|l ls IH]; cbn [wmapr]; intros es m E.
  - injection E as <- <-. split; [done|]. split; [intros l e Hl; by apply elem_of_nil in Hl|intros z Hz; by apply elem_of_nil in Hz].
  - destruct (write_object_exts reg x xs l None) as [[ys m1]| | |] eqn:El; try done. cbn [result_bind] in E. destruct (object_exts_none _ _ _ _ _ _ (fun e He => C l e (elem_of_list_here _ _) He) El) as (-> & O1 & O2).
    destruct (wmapr _ ls None) as [[ess m2]| | |] eqn:Ew; try done. cbn [result_bind] in E. injection E as <- <-. destruct (IH (fun l' e Hl' => C l' e (elem_of_list_further _ _ _ Hl')) _ _ eq_refl) as (-> & I1 & I2). split; [done|].
    change (mjoin (ys :: ess)) with (ys ++ mjoin ess). split.
    + intros l' e [-> |Hl']%elem_of_cons He.
      * destruct O2 as (zs & -> & H1 & _); [intros X; rewrite X in He; by apply elem_of_nil in He|]. destruct (H1 e He) as (? & a & b & k & Hin & T). split; [done|]. exists zs, a, b, k. split; [left|done].
      * destruct (I1 l' e Hl' He) as (? & zs & a & b & k & Hin & T). split; [done|]. exists zs, a, b, k. split; [by apply elem_of_app; right|done].
    + intros z [Hz|Hz]%elem_of_app.
      * destruct (decide (chosen x xs l = [])) as [X|X]; [rewrite (O1 X) in Hz; by apply elem_of_nil in Hz|]. destruct (O2 X) as (zs & -> & _ & H2). apply elem_of_list_singleton in Hz as ->. exists l, zs. split; [left|]. split; [done|]. exact H2.
      * destruct (I2 z Hz) as (l' & zs & Hl' & H'). exists l', zs. split; [by right|done].
Qed.
Lemma all_exts o sg reg x n xs y m : net_valid false (o_ver o) n -> exts_ok sg x n xs -> write_all reg x o false n xs = Ok (y, m) ->
  exists first ns al e' cs es e, write_network o false n = Ok (Elem "network" (first :: al) e' cs, None) /\ y = Elem "network" (first :: ns ++ al) e (cs ++ es) /\
  (forall name, name ∈ ext_names n xs -> asked (x_only x) name -> find_provider reg name <> None -> exists p u, namespace_in (o_ver o) name p u /\ ("xmlns:" +:+ p, u) ∈ ns) /\
  (forall z, z ∈ ns -> exists name p u, name ∈ ext_names n xs /\ asked (x_only x) name /\ namespace_in (o_ver o) name p u /\ z = ("xmlns:" +:+ p, u)) /\
  (forall l e, l ∈ objects n -> e ∈ chosen x xs l -> find_provider reg (nm e) <> None /\ exists zs attrs b kids, Elem "extension" [("id", l_id l)] false zs ∈ es /\ Elem (nm e) attrs b kids ∈ zs /\ extension_told (nm e) e attrs kids) /\
  (forall z, z ∈ es -> exists l zs, l ∈ objects n /\ z = Elem "extension" [("id", l_id l)] false zs /\ forall w, w ∈ zs -> exists e attrs b kids, e ∈ chosen x xs l /\ w = Elem (nm e) attrs b kids).
Proof.
  intros Hn [Nx Xo]. unfold write_all. destruct (namespaces _ _ _ _ _ _) as [ns| | |] eqn:En; try done. cbn [result_bind]. destruct (write_network o false n) as [[y0 m0]| | |] eqn:Ew; try done. cbn [result_bind].
  destruct (network_said _ _ _ _ Hn Ew) as [-> _]. destruct (wmapr _ _ None) as [[es m1]| | |] eqn:Eo; try done. cbn [result_bind].
  assert (exists first al e' cs, y0 = Elem "network" (first :: al) e' cs) as (first & al & e' & cs & ->).
  { clear -Ew. revert Ew. unfold write_network. destruct (write_fields _ _ _ _) as [fs m1]. destruct (_ && _); [done|]. destruct (wmap _ _ m1) as [als m2]. destruct (wmapr _ _ m2) as [[ss m3]| | |]; try done. cbn [result_bind].
    destruct (wmapr _ _ m3) as [[ls m4]| | |]; try done. cbn [result_bind]. destruct (wmapr _ _ m4) as [[hs m5]| | |]; try done. cbn [result_bind]. unfold elem. intros [= <- _]. eauto 10. }
  intros [= <- <-]. destruct (namespaces_in _ _ _ _ _ _ _ En) as [N1 N2]. change (written n) with (objects n) in Eo.
  destruct (objects_exts reg x xs (objects n) es m1) as (_ & O1 & O2); [|exact Eo|].
  - intros l e Hl He. apply chosen_in in He as [He A]; [|done]. by apply (ext_content false sg n l e), (Xo l (nm e) e).
  - unfold elem. exists first, ns, al, e', cs, (mjoin es). eexists. eauto 10.
Qed.
