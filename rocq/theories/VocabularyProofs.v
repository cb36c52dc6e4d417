(** Proofs about the names in the documents. *)
From Verif Require Import Xml XmlProofs NetXml NetXmlSpec NetXmlShape NetXmlShapeProofs NetXmlProofs NetXmlMore VocabularySpec.

Definition listedb (rows : list (string * (nat * nat) * list string)) (v : ver) (e x : string) : bool :=
  existsb (fun r => String.eqb r.1.1 e && (r.1.2.1 <=? number v) && (number v <=? r.1.2.2) && existsb (String.eqb x) r.2) rows.
Lemma listedb_spec rows v e x : listedb rows v e x = true <-> listed rows v e x.
Proof.
  unfold listedb, listed. rewrite existsb_exists. split.
  - intros ([[e' [lo hi]] l] & Hin & H). cbn in H. apply andb_true_iff in H as [[[He%String.eqb_eq Hlo%Nat.leb_le]%andb_true_iff Hhi%Nat.leb_le]%andb_true_iff H].
    apply existsb_exists in H as (y & Hy & ->%String.eqb_eq). subst e'. exists lo, hi, l. rewrite !elem_of_list_In. auto.
  - intros (lo & hi & l & Hin & [H1 H2] & Hx). exists (e, (lo, hi), l). rewrite !elem_of_list_In in *. split; [done|]. cbn. rewrite String.eqb_refl.
    apply Nat.leb_le in H1, H2. rewrite H1, H2. cbn. apply existsb_exists. exists x. split; [done|apply String.eqb_refl].
Qed.
Definition attributeb : ver -> string -> string -> bool := listedb attribute_rows.
Definition childb : ver -> string -> string -> bool := listedb child_rows.

Definition all_vers : list ver := [V1_0; V1_1; V1_2; V1_3; V1_4; V1_5].
Lemma in_vers v : v ∈ all_vers. Proof. destruct v; repeat constructor. Qed.
Definition all_classes : list cls :=
  [CNetwork; CSubstation; CVoltageLevel; CBus; CBusbarSection; CBusSwitch; CNodeSwitch; CLoad; CGenerator; CBattery; CShunt; CDanglingLine; CSvc; CVsc; CLcc; CLine; CTwoWt; CThreeWt; CTieLine; CHvdcLine].
Lemma in_classes c : c ∈ all_classes. Proof. destruct c; cbv; repeat (left || right). Qed.
Definition names_in (v : ver) (e : string) (ds : list fdesc) : bool :=
  forallb (fun d => match fd_wattr d v with Some a => attributeb v e a | None => true end) ds.
Definition part_in (v : ver) (n : string) (k : pkind) : bool :=
  names_in v n (pschema k) && forallb (fun c => childb v n c.1 && names_in v c.1 (default [] (cschema k c.1))) (part_elements k).
Definition slot_in (v : ver) (c : cls) (s : slot) : bool :=
  forallb (fun e => implb (run_from (sl_run s) v && negb (older v 1 && existsb (String.eqb (sl_key s)) (since_1_1 c))) (childb v (tag c) e.1 && part_in v e.1 e.2)) (sl_kinds s).
Definition is_network (c : cls) : bool := match c with CNetwork => true | _ => false end.
Definition is_bus (c : cls) : bool := match c with CBus => true | _ => false end.
Definition class_in (v : ver) (c : cls) : bool :=
  names_in v (tag c) (schema c) && forallb (slot_in v c) (slots c)
  && (is_network c || (attributeb v (tag c) "id" && attributeb v (tag c) "name" && implb (run_from V1_2 v || is_switch c) (attributeb v (tag c) "fictitious")))
  && (is_bus c || (childb v (tag c) "property" && implb (run_from V1_3 v) (childb v (tag c) "alias"))).
Lemma class_all : forallb (fun v => forallb (class_in v) all_classes) all_vers = true.
Proof. vm_compute. reflexivity. Qed.
Lemma class_ok v c : class_in v c = true.
Proof.
  pose proof class_all as H. rewrite forallb_forall in H. specialize (H v (proj1 (elem_of_list_In _ _) (in_vers v))).
  rewrite forallb_forall in H. exact (H c (proj1 (elem_of_list_In _ _) (in_classes c))).
Qed.
Lemma names_in_spec v e ds d a : names_in v e ds = true -> d ∈ ds -> fd_wattr d v = Some a -> attribute v e a.
Proof. unfold names_in. rewrite forallb_forall. intros H Hd%elem_of_list_In E. specialize (H d Hd). rewrite E in H. by apply listedb_spec. Qed.

(** ** What is written *)
Lemma wmap_in {A B M} (f : A -> M -> B * M) l : forall m ys m', wmap f l m = (ys, m') -> forall y, y ∈ ys -> exists x m1 m2, x ∈ l /\ f x m1 = (y, m2).
Proof.
  induction l as [|x l IH]; intros m ys m' E y Hy; cbn in E; [injection E as <- <-; by apply elem_of_nil in Hy|].
  destruct (f x m) as [z m1] eqn:Ef. destruct (wmap f l m1) as [zs m2] eqn:Ew. injection E as <- <-. apply elem_of_cons in Hy as [-> |Hy].
  - exists x, m, m1. split; [left|done].
  - destruct (IH _ _ _ Ew y Hy) as (x' & m3 & m4 & Hx & H). exists x', m3, m4. split; [by right|done].
Qed.
Lemma wmapr_in {A B M} (f : A -> M -> result (B * M)) l : forall m ys m', wmapr f l m = Ok (ys, m') -> forall y, y ∈ ys -> exists x m1 m2, x ∈ l /\ f x m1 = Ok (y, m2).
Proof.
  induction l as [|x l IH]; intros m ys m' E y Hy; cbn in E; [injection E as <- <-; by apply elem_of_nil in Hy|].
  destruct (f x m) as [[z m1]| | |] eqn:Ef; try discriminate E. cbn in E. destruct (wmapr f l m1) as [[zs m2]| | |] eqn:Ew; try discriminate E. cbn in E. injection E as <- <-.
  apply elem_of_cons in Hy as [-> |Hy].
  - exists x, m, m1. split; [left|done].
  - destruct (IH _ _ _ Ew y Hy) as (x' & m3 & m4 & Hx & H). exists x', m3, m4. split; [by right|done].
Qed.
Lemma write_field_names v xs d x m l m' : write_field v xs d x m = (l, m') -> forall p, p ∈ l -> fd_wattr d v = Some p.1.
Proof.
  unfold write_field. destruct (fd_wattr d v) as [a|]; [|intros [= <- <-] p Hp; by apply elem_of_nil in Hp].
  intros E p Hp. f_equal. destruct (fd_w d), x; repeat (match type of E with context [match ?z with _ => _ end] => destruct z end);
    injection E as <- <-; repeat (match goal with H : _ ∈ _ |- _ => apply elem_of_cons in H as [-> |H] | H : _ ∈ [] |- _ => by apply elem_of_nil in H end); done.
Qed.
Lemma write_fields_names v ds xs m l m' : write_fields v ds xs m = (l, m') -> forall p, p ∈ l -> exists d, d ∈ ds /\ fd_wattr d v = Some p.1.
Proof.
  unfold write_fields. destruct (wmap _ _ m) as [ys m1] eqn:E. intros [= <- <-] p Hp. apply elem_of_list_join in Hp as (y & Hp & Hy).
  destruct (wmap_in _ _ _ _ _ E y Hy) as ([d x] & m2 & m3 & Hin & Ef). exists d. split; [by eapply elem_of_zip_l|]. by eapply write_field_names.
Qed.
Lemma conforms_fields v e ds xs m l m' : names_in v e ds = true -> write_fields v ds xs m = (l, m') -> forall p, p ∈ l -> attribute v e p.1.
Proof. intros H E p Hp. destruct (write_fields_names _ _ _ _ _ _ E p Hp) as (d & Hd & Ea). by eapply names_in_spec. Qed.
Lemma conforms_mk v n a cs : (forall x, x ∈ a -> attribute v n x.1) -> (forall c, c ∈ cs -> conforms v c /\ exists n' a' e' cs', c = Elem n' a' e' cs' /\ child v n n') -> conforms v (elem n a cs).
Proof.
  intros Ha Hc. apply conforms_elem; [done| | |].
  - intros c H. by apply Hc.
  - intros n' a' e' cs' H. destruct (Hc _ H) as (_ & ? & ? & ? & ? & [= <- <- <- <-] & ?). done.
  - intros s H. destruct (Hc _ H) as (_ & ? & ? & ? & ? & [=] & ?).
Qed.
Lemma conforms_leaf0 v n a : (forall x, x ∈ a -> attribute v n x.1) -> conforms v (elem n a []).
Proof. intros H. apply conforms_mk; [done|]. intros c Hc. by apply elem_of_nil in Hc. Qed.
Lemma alias_conforms v p m y m' : write_alias v p m = (y, m') -> conforms v y /\ exists a e cs, y = Elem "alias" a e cs.
Proof.
  unfold write_alias. destruct (anon p.1 m) as [c m1]. intros [= <- <-]. split; [|unfold elem; eauto]. unfold elem.
  apply conforms_elem.
  - intros x Hx. destruct (run_from V1_4 v && negb (String.eqb p.2 "")) eqn:E; [|by apply elem_of_nil in Hx]. apply elem_of_list_singleton in Hx as ->. cbn.
    apply andb_true_iff in E as [E _]. apply listedb_spec. destruct v; try (vm_compute in E; discriminate E); vm_compute; reflexivity.
  - intros z Hz. unfold chars in Hz. destruct (String.eqb c ""); [by apply elem_of_nil in Hz|]. destruct (blank c); apply elem_of_list_singleton in Hz as ->; constructor.
  - intros n' a' e' cs' Hz. unfold chars in Hz. destruct (String.eqb c ""); [by apply elem_of_nil in Hz|]. destruct (blank c); apply elem_of_list_singleton in Hz; discriminate Hz.
  - done.
Qed.
Lemma prop_conforms v p : conforms v (write_prop p) /\ exists a e cs, write_prop p = Elem "property" a e cs.
Proof.
  split; [|unfold write_prop, elem; eauto]. apply conforms_leaf0. intros x Hx. apply listedb_spec. apply elem_of_cons in Hx as [-> |Hx%elem_of_list_singleton]; [|subst x]; cbn [fst]; destruct v; vm_compute; reflexivity.
Qed.
Lemma child_conforms v n k c m y m' : part_in v n k = true -> (exists ks, (c.1, ks) ∈ part_elements k) -> write_child v k c m = (y, m') ->
  conforms v y /\ exists n' a' e' cs', y = Elem n' a' e' cs' /\ child v n n'.
Proof.
  unfold part_in. intros [_ H]%andb_true_iff [ks Hk%elem_of_list_In]. rewrite forallb_forall in H. specialize (H _ Hk). cbn in H. apply andb_true_iff in H as [H1 H2].
  unfold write_child. destruct (write_fields v _ c.2 m) as [a m1] eqn:E. intros [= <- <-]. split.
  - apply conforms_leaf0. by eapply conforms_fields.
  - unfold elem. do 4 eexists. split; [done|]. by apply listedb_spec.
Qed.
Lemma part_conforms v n p m y m' : part_in v n (p_kind p) = true -> (forall c, c ∈ p_children p -> exists ks, (c.1, ks) ∈ part_elements (p_kind p)) -> write_part v n p m = (y, m') ->
  conforms v y /\ exists a e cs, y = Elem n a e cs.
Proof.
  intros H Hc. unfold write_part. destruct (write_fields v _ (p_fields p) m) as [a m1] eqn:E. destruct (wmap _ _ m1) as [cs m2] eqn:Ew. intros [= <- <-].
  split; [|unfold elem; eauto]. apply conforms_mk.
  - apply andb_true_iff in H as [H _]. by eapply conforms_fields.
  - intros c Hin. destruct (wmap_in _ _ _ _ _ Ew c Hin) as (x & m3 & m4 & Hx & Ef). eapply child_conforms; [done| |done]. by apply Hc.
Qed.

Lemma wire_parts_lookup v l key p : wire_parts v l !! key = Some p ->
  (exists p0, l_parts l !! key = Some p0 /\ p_kind p = p_kind p0 /\ p_children p = p_children p0) \/ (l_cls l = CShunt /\ key = "model" /\ p_kind p = PLinear /\ p_children p = []).
Proof.
  assert (forall key p, (wire_part v <$> l_parts l) !! key = Some p -> exists p0, l_parts l !! key = Some p0 /\ p_kind p = p_kind p0 /\ p_children p = p_children p0) as W.
  { intros k q Hq. apply lookup_fmap_Some in Hq as (p0 & <- & H). exists p0. split; [done|]. destruct p0 as [[] [|? [|? [|? ?]]] ?]; done. }
  unfold wire_parts. intros H.
  destruct (l_cls l) eqn:Ec; try (left; by apply W). destruct (l_fields l) as [|b [|g [|mx fs]]]; try (left; by apply W).
  destruct (l_parts l !! "model"); [left; by apply W|]. apply lookup_insert_Some in H as [[<- <-]|[_ H]]; [by right|left; by apply W].
Qed.
Lemma slot_name_in s k n : slot_name s k = Some n -> (n, k) ∈ sl_kinds s.
Proof. unfold slot_name. destruct (list_find _ _) as [[i [n' k']]|] eqn:E; [|done]. cbn. intros [= <-]. apply list_find_Some in E as (E & H & _). cbn in H. subst k'. by eapply elem_of_list_lookup_2. Qed.
Lemma leaf_conforms a o c l m y m' : leaf_valid a c l -> c <> CNetwork -> (c = CBus -> l_props l = ∅ /\ (older (o_ver o) 3 = false -> l_aliases l = ∅)) ->
  (older (o_ver o) 1 = true -> forall key, key ∈ since_1_1 (l_cls l) -> l_parts l !! key = None) ->
  write_leaf o l m = Ok (y, m') -> conforms (o_ver o) y /\ exists at' e cs, y = Elem (tag c) at' e cs.
Proof.
  intros (Ec & _ & _ & _ & _ & Hp) Hn Hb Hr. unfold write_leaf. destruct (_ && _); [done|]. intros [= E]. revert E. unfold write_doc.
  pose proof (class_ok (o_ver o) c) as K. unfold class_in in K. apply andb_true_iff in K as [[[K1 K2]%andb_true_iff K3]%andb_true_iff K4].
  destruct (write_attrs _ _ m) as [at0 m1] eqn:Ea. destruct (write_extras _ _ m1) as [es m2] eqn:Ee. destruct (write_parts _ _ _ m2) as [ps m3] eqn:Ep.
  cbn [wire with_parts with_fields l_cls l_parts] in *. rewrite Ec. intros [= <- <-]. split; [|unfold elem; eauto]. apply conforms_mk.
  - (* attributes *) unfold write_attrs in Ea. destruct (anon _ m) as [id m4].
    destruct (if String.eqb _ "" then _ else _) as [nm m5] eqn:En in Ea. destruct (write_fields _ _ _ m5) as [fs m6] eqn:Ef. injection Ea as <- <-.
    change (l_cls (wire o l)) with (l_cls l) in *. rewrite Ec in Ef. assert (is_network c = false) as Hnb by (by destruct c). rewrite Hnb in K3. cbn [orb] in K3.
    apply andb_true_iff in K3 as [[K5 K6]%andb_true_iff K7].
    intros x Hx. apply elem_of_cons in Hx as [-> |Hx]; [by apply listedb_spec|]. apply elem_of_app in Hx as [Hx|Hx].
    { destruct (String.eqb _ ""); [injection En as <- <-; by apply elem_of_nil in Hx|]. destruct (anon _ m4) as [cc m7]. injection En as <- <-. apply elem_of_list_singleton in Hx as ->. by apply listedb_spec. }
    apply elem_of_app in Hx as [Hx|Hx].
    { destruct (run_from V1_2 (o_ver o)); [|by apply elem_of_nil in Hx]. unfold fict_attr in Hx. destruct (l_fict _); [|by apply elem_of_nil in Hx]. apply elem_of_list_singleton in Hx as ->. by apply listedb_spec. }
    apply elem_of_app in Hx as [Hx|Hx]; [by eapply conforms_fields|].
    change (l_cls (wire o l)) with (l_cls l) in Hx. rewrite Ec in Hx. destruct (is_switch c); cbn [andb] in Hx; [|by apply elem_of_nil in Hx]. rewrite orb_true_r in K7. destruct (run_until V1_1 (o_ver o)); [|by apply elem_of_nil in Hx].
    unfold fict_attr in Hx. destruct (l_fict _); [|by apply elem_of_nil in Hx]. apply elem_of_list_singleton in Hx as ->. by apply listedb_spec.
  - (* elements *) intros x Hx. apply elem_of_app in Hx as [Hx|Hx].
    + unfold write_extras in Ee. cbn [l_aliases l_props] in Ee. destruct (if run_from V1_3 _ then _ else _) as [als m4] eqn:El in Ee. injection Ee as <- <-. apply elem_of_app in Hx as [Hx|Hx].
      * destruct (run_from V1_3 (o_ver o)) eqn:Er; [|injection El as <- <-; by apply elem_of_nil in Hx]. destruct (wmap_in _ _ _ _ _ El x Hx) as (p & m5 & m6 & Hin & Ew).
        destruct (alias_conforms _ _ _ _ _ Ew) as [C (a' & e' & cs' & ->)]. split; [done|]. do 4 eexists. split; [done|].
        destruct (is_bus c) eqn:Eb; [|apply andb_true_iff in K4 as [_ K4]; by apply listedb_spec].
        exfalso. destruct Hb as [_ Hb]; [by destruct c|]. change (l_aliases (wire o l)) with (l_aliases l) in Hin. rewrite Hb in Hin by (destruct (o_ver o); vm_compute in Er; try discriminate; done). rewrite map_to_list_empty in Hin. by apply elem_of_nil in Hin.
      * apply elem_of_list_fmap in Hx as (p & -> & Hin). destruct (prop_conforms (o_ver o) p) as [C (a' & e' & cs' & E')]. split; [done|]. do 4 eexists. split; [exact E'|].
        destruct (is_bus c) eqn:Eb; [|apply andb_true_iff in K4 as [K4 _]; by apply listedb_spec].
        exfalso. destruct Hb as [Hb _]; [by destruct c|]. change (l_props (wire o l)) with (l_props l) in Hin. rewrite Hb, map_to_list_empty in Hin. by apply elem_of_nil in Hin.
    + unfold write_parts in Ep. destruct (wmap _ _ m2) as [ys m4] eqn:Ew. injection Ep as <- <-. apply elem_of_list_join in Hx as (ys0 & Hx & Hy).
      destruct (wmap_in _ _ _ _ _ Ew ys0 Hy) as (s & m5 & m6 & Hs & Es). rewrite Ec in Hs. unfold write_slot in Es. destruct (slot_part _ _ s) as [[n p]|] eqn:Esp; [|injection Es as <- <-; by apply elem_of_nil in Hx].
      destruct (write_part _ n p m5) as [z m7] eqn:Ewp. injection Es as <- <-. apply elem_of_list_singleton in Hx as ->.
      unfold slot_part in Esp. destruct (wire_parts _ l !! sl_key s) as [p'|] eqn:Elk; [|done]. destruct (run_from _ _ && negb (part_empty p')) eqn:Er; [|done].
      destruct (slot_name s (p_kind p')) as [n'|] eqn:Esn; [|done]. injection Esp as <- <-. apply slot_name_in in Esn. apply andb_true_iff in Er as [Er _].
      rewrite forallb_forall in K2. specialize (K2 s (proj1 (elem_of_list_In _ _) Hs)). unfold slot_in in K2. rewrite forallb_forall in K2. specialize (K2 _ (proj1 (elem_of_list_In _ _) Esn)). cbn [fst snd] in K2.
      rewrite Er in K2. cbn [andb] in K2.
      assert (older (o_ver o) 1 && existsb (String.eqb (sl_key s)) (since_1_1 c) = false) as Ho.
      { destruct (older _ 1) eqn:Eo; [|done]. cbn [andb]. apply not_true_iff_false. intros H. apply existsb_exists in H as (key & Hk & <-%String.eqb_eq). apply elem_of_list_In in Hk.
        rewrite Ec in Hr. specialize (Hr eq_refl _ Hk). destruct (wire_parts_lookup _ _ _ _ Elk) as [(p0 & H0 & _)|(H0 & H1 & _)]; [congruence|]. rewrite <- Ec, H0 in Hk. by apply elem_of_nil in Hk. }
      rewrite Ho in K2. cbn [negb implb] in K2. apply andb_true_iff in K2 as [K2 K5].
      destruct (part_conforms (o_ver o) n' p' m5 z m7 K5) as [C (a' & e' & cs' & ->)]; [|done|].
      * intros x Hx. destruct (wire_parts_lookup _ _ _ _ Elk) as [(p0 & H0 & H1 & H2)|(_ & _ & _ & H2)]; [|rewrite H2 in Hx; by apply elem_of_nil in Hx].
        destruct (Hp _ _ H0) as ((_ & Hch & _) & _). rewrite H1. rewrite H2 in Hx. destruct x as [x xs]. destruct (Hch x xs Hx) as (ks & Hks & _). by exists ks.
      * split; [done|]. do 4 eexists. split; [done|]. by apply listedb_spec.
Qed.

Definition good (v : ver) (n : string) (y : xml) : Prop := conforms v y /\ exists n' a' e' cs', y = Elem n' a' e' cs' /\ child v n n'.
Lemma good_tag v n n' y : childb v n n' = true -> conforms v y /\ (exists a e cs, y = Elem n' a e cs) -> good v n y.
Proof. intros H [C (a & e & cs & ->)]. split; [done|]. do 4 eexists. split; [done|]. by apply listedb_spec. Qed.
Lemma childb_all (p q : string) : forallb (fun v => childb v p q) all_vers = true -> forall v, childb v p q = true.
Proof. rewrite forallb_forall. intros H v. apply H, elem_of_list_In, in_vers. Qed.
Ltac always_child := apply childb_all; vm_compute; reflexivity.
Lemma attrs_ok v l m a m' : l_cls l <> CNetwork -> write_attrs v l m = (a, m') -> forall x, x ∈ a -> attribute v (tag (l_cls l)) x.1.
Proof.
  intros Hn. pose proof (class_ok v (l_cls l)) as K. unfold class_in in K. apply andb_true_iff in K as [[[K1 K2]%andb_true_iff K3]%andb_true_iff K4]. unfold write_attrs.
  destruct (anon _ m) as [id m4]. destruct (if String.eqb _ "" then _ else _) as [nm m5] eqn:En. destruct (write_fields _ _ _ m5) as [fs m6] eqn:Ef. intros [= <- <-].
  assert (is_network (l_cls l) = false) as Hnb by (by destruct (l_cls l)). rewrite Hnb in K3. cbn [orb] in K3. apply andb_true_iff in K3 as [[K5 K6]%andb_true_iff K7].
  intros x [-> |[Hx|[Hx|[Hx|Hx]%elem_of_app]%elem_of_app]%elem_of_app]%elem_of_cons.
  - by apply listedb_spec.
  - destruct (String.eqb _ ""); [injection En as <- <-; by apply elem_of_nil in Hx|]. destruct (anon _ m4) as [cc m7]. injection En as <- <-. apply elem_of_list_singleton in Hx as ->. by apply listedb_spec.
  - destruct (run_from V1_2 v); [|by apply elem_of_nil in Hx]. unfold fict_attr in Hx. destruct (l_fict _); [|by apply elem_of_nil in Hx]. apply elem_of_list_singleton in Hx as ->. by apply listedb_spec.
  - by eapply conforms_fields.
  - destruct (is_switch (l_cls l)); cbn [andb] in Hx; [|by apply elem_of_nil in Hx]. rewrite orb_true_r in K7. destruct (run_until V1_1 v); [|by apply elem_of_nil in Hx].
    unfold fict_attr in Hx. destruct (l_fict _); [|by apply elem_of_nil in Hx]. apply elem_of_list_singleton in Hx as ->. by apply listedb_spec.
Qed.
Lemma extras_ok v l m es m' : is_bus (l_cls l) = false -> write_extras v l m = (es, m') -> forall x, x ∈ es -> good v (tag (l_cls l)) x.
Proof.
  intros Hb. pose proof (class_ok v (l_cls l)) as K. unfold class_in in K. apply andb_true_iff in K as [_ K]. rewrite Hb in K. cbn [orb] in K. apply andb_true_iff in K as [K1 K2].
  unfold write_extras. destruct (if run_from V1_3 _ then _ else _) as [als m4] eqn:El. intros [= <- <-] x [Hx|Hx]%elem_of_app.
  - destruct (run_from V1_3 v) eqn:Er; [|injection El as <- <-; by apply elem_of_nil in Hx]. destruct (wmap_in _ _ _ _ _ El x Hx) as (p & m5 & m6 & Hin & Ew).
    eapply good_tag; [exact K2|]. by eapply alias_conforms.
  - apply elem_of_list_fmap in Hx as (p & -> & Hin). eapply good_tag; [exact K1|]. apply prop_conforms.
Qed.
Definition fine_leaf (v : ver) (l : leaf) : Prop := older v 1 = true -> forall key, key ∈ since_1_1 (l_cls l) -> l_parts l !! key = None.
Lemma leaf_good a o c l m y m' n : childb (o_ver o) n (tag c) = true -> leaf_valid a c l -> c <> CNetwork -> (c = CBus -> bus_valid a (o_ver o) l) -> fine_leaf (o_ver o) l -> write_leaf o l m = Ok (y, m') -> good (o_ver o) n y.
Proof.
  intros Hc Hl Hn Hb Hf E. eapply good_tag; [exact Hc|]. eapply leaf_conforms; try done. intros ->. destruct (Hb eq_refl) as (_ & H1 & H2). done.
Qed.
Lemma bus_switch_leaf o all l m y m' : write_bus_switch o all l m = Ok (y, m') -> exists m1, write_leaf o l m1 = Ok (y, m').
Proof. unfold write_bus_switch. destruct (anon _ m) as [c m1]. destruct (existsb _ _); [|done]. eauto. Qed.
Lemma ic_good v p : good v "nodeBreakerTopology" (write_ic p).
Proof.
  eapply (good_tag _ _ "internalConnection"); [always_child|]. split; [|unfold write_ic, elem; eauto]. apply conforms_leaf0.
  intros x Hx. apply listedb_spec. apply elem_of_cons in Hx as [-> |Hx%elem_of_list_singleton]; [|subst x]; cbn [fst]; destruct v; vm_compute; reflexivity.
Qed.
Lemma vl_good a o x m y m' : vl_valid a (o_ver o) x -> (forall l, l ∈ vl_leaves x -> fine_leaf (o_ver o) l) -> write_vl o x m = Ok (y, m') -> good (o_ver o) "substation" y.
Proof.
  intros ((Ecl & _) & Ht & He & _ & _) Hf. unfold write_vl. destruct (write_attrs _ _ m) as [at0 m1] eqn:Ea. destruct (write_extras _ _ m1) as [es m2] eqn:Ee.
  destruct (write_topology o x m2) as [[t m3]| | |] eqn:Et; try done. cbn [result_bind]. destruct (wmapr _ _ m3) as [[qs m4]| | |] eqn:Eq; try done. cbn [result_bind]. intros [= <- <-].
  apply (good_tag _ _ "voltageLevel"); [always_child|]. split; [|unfold elem; eauto]. apply conforms_mk.
  - intros z [Hz|Hz%elem_of_list_singleton]%elem_of_app.
    + pose proof (attrs_ok _ _ _ _ _ (ltac:(rewrite Ecl; done)) Ea z Hz) as H. by rewrite Ecl in H.
    + subst z. apply listedb_spec. destruct (o_ver o); vm_compute; reflexivity.
  - intros z [Hz|[-> |Hz]%elem_of_cons]%elem_of_app.
    + pose proof (extras_ok _ _ _ _ _ (ltac:(rewrite Ecl; done)) Ee z Hz) as H. by rewrite Ecl in H.
    + unfold write_topology in Et. unfold vl_leaves in Hf. destruct (v_nb x).
      * destruct Ht as (_ & Hs & Hw). destruct (wmapr _ _ m2) as [[ss m5]| | |] eqn:E1; try done. cbn [result_bind] in Et. destruct (wmapr _ _ m5) as [[ws m6]| | |] eqn:E2; try done. cbn [result_bind] in Et. injection Et as <- <-.
        apply (good_tag _ _ "nodeBreakerTopology"); [always_child|]. split; [|unfold elem; eauto]. apply conforms_mk; [intros z Hz; by apply elem_of_nil in Hz|].
        intros z [Hz|[Hz|Hz]%elem_of_app]%elem_of_app.
        -- destruct (wmapr_in _ _ _ _ _ E1 z Hz) as (l & m7 & m8 & Hin & El). rewrite Forall_forall in Hs. refine (leaf_good a o CBusbarSection l m7 z m8 _ _ (Hs l Hin) _ _ _ El); [always_child|done|done|].
           apply Hf. right. rewrite !elem_of_app. auto.
        -- destruct (wmapr_in _ _ _ _ _ E2 z Hz) as (l & m7 & m8 & Hin & El). rewrite Forall_forall in Hw. refine (leaf_good a o CNodeSwitch l m7 z m8 _ _ (Hw l Hin) _ _ _ El); [always_child|done|done|].
           apply Hf. right. rewrite !elem_of_app. auto.
        -- apply elem_of_list_fmap in Hz as (p & -> & _). apply ic_good.
      * destruct Ht as (_ & _ & Hs & Hw). destruct (wmapr _ _ m2) as [[ss m5]| | |] eqn:E1; try done. cbn [result_bind] in Et. destruct (wmapr _ _ m5) as [[ws m6]| | |] eqn:E2; try done. cbn [result_bind] in Et. injection Et as <- <-.
        apply (good_tag _ _ "busBreakerTopology"); [always_child|]. split; [|unfold elem; eauto]. apply conforms_mk; [intros z Hz; by apply elem_of_nil in Hz|].
        intros z [Hz|Hz]%elem_of_app.
        -- destruct (wmapr_in _ _ _ _ _ E1 z Hz) as (l & m7 & m8 & Hin & El). rewrite Forall_forall in Hs. refine (leaf_good a o CBus l m7 z m8 _ _ (proj1 (Hs l Hin)) _ (fun _ => Hs l Hin) _ El); [always_child|done|].
           apply Hf. right. rewrite !elem_of_app. auto.
        -- destruct (wmapr_in _ _ _ _ _ E2 z Hz) as (l & m7 & m8 & Hin & [m9 El]%bus_switch_leaf). rewrite Forall_forall in Hw. refine (leaf_good a o CBusSwitch l m9 z m8 _ _ (Hw l Hin) _ _ _ El); [always_child|done|done|].
           apply Hf. right. rewrite !elem_of_app. auto.
    + destruct (wmapr_in _ _ _ _ _ Eq z Hz) as (l & m7 & m8 & Hin & El). apply elem_of_list_join in Hin as (l' & Hin & Hl'). apply elem_of_list_fmap in Hl' as (c & -> & _). apply elem_of_list_filter in Hin as [_ Hin].
      rewrite Forall_forall in He. destruct (He l Hin) as [Hc Hv]. refine (leaf_good a o (l_cls l) l m7 z m8 _ _ Hv _ _ _ El).
      * unfold equipments in Hc. repeat (apply elem_of_cons in Hc as [-> |Hc]; [always_child|]). by apply elem_of_nil in Hc.
      * intros E0. rewrite E0 in Hc. revert Hc. unfold equipments. rewrite !elem_of_cons, elem_of_nil. intuition discriminate.
      * intros E0. rewrite E0 in Hc. revert Hc. unfold equipments. rewrite !elem_of_cons, elem_of_nil. intuition discriminate.
      * apply Hf. unfold vl_leaves. right. rewrite !elem_of_app. auto.
Qed.
Lemma sub_good a o x m y m' : sub_valid a (o_ver o) x -> (forall l, l ∈ sub_leaves x -> fine_leaf (o_ver o) l) -> write_sub o x m = Ok (y, m') -> good (o_ver o) "network" y.
Proof.
  intros ((Ecl & _) & Hv & H2 & H3 & _) Hf. unfold write_sub. destruct (write_attrs _ _ m) as [at0 m1] eqn:Ea. destruct (write_extras _ _ m1) as [es m2] eqn:Ee.
  destruct (wmapr _ _ m2) as [[vs m3]| | |] eqn:E1; try done. cbn [result_bind]. destruct (wmapr _ _ m3) as [[ts m4]| | |] eqn:E2; try done. cbn [result_bind]. destruct (wmapr _ _ m4) as [[us m5]| | |] eqn:E3; try done. cbn [result_bind]. intros [= <- <-].
  apply (good_tag _ _ "substation"); [always_child|]. split; [|unfold elem; eauto]. unfold sub_leaves in Hf. rewrite Forall_forall in Hv. rewrite Forall_forall in H2. rewrite Forall_forall in H3. apply conforms_mk.
  - intros z Hz. pose proof (attrs_ok _ _ _ _ _ (ltac:(rewrite Ecl; done)) Ea z Hz) as H. by rewrite Ecl in H.
  - intros z [Hz|[Hz|[Hz|Hz]%elem_of_app]%elem_of_app]%elem_of_app.
    + pose proof (extras_ok _ _ _ _ _ (ltac:(rewrite Ecl; done)) Ee z Hz) as H. by rewrite Ecl in H.
    + destruct (wmapr_in _ _ _ _ _ E1 z Hz) as (l & m7 & m8 & Hin & El). eapply vl_good; [by apply Hv| |exact El]. intros l' Hl'. apply Hf. right. apply elem_of_app. left. apply elem_of_list_join. exists (vl_leaves l). split; [done|]. by apply elem_of_list_fmap_1.
    + destruct (wmapr_in _ _ _ _ _ E2 z Hz) as (l & m7 & m8 & Hin & El). refine (leaf_good a o CTwoWt l m7 z m8 _ _ (H2 l Hin) _ _ _ El); [always_child|done|done|]. apply Hf. right. rewrite !elem_of_app. auto.
    + destruct (wmapr_in _ _ _ _ _ E3 z Hz) as (l & m7 & m8 & Hin & El). refine (leaf_good a o CThreeWt l m7 z m8 _ _ (H3 l Hin) _ _ _ El); [always_child|done|done|]. apply Hf. right. rewrite !elem_of_app. auto.
Qed.
Lemma network_conforms o a n y m : net_valid a (o_ver o) n -> readable (o_ver o) n -> write_network o a n = Ok (y, m) -> conforms (o_ver o) y /\ exists at' e cs, y = Elem "network" at' e cs.
Proof.
  intros ((Ecl & _) & Hs & Hl & Hh & _) [Ra Rl]. unfold write_network. destruct (write_fields _ _ _ _) as [fs m1] eqn:Ef. destruct (_ && _); [done|].
  destruct (wmap _ _ m1) as [als m2] eqn:Ew. destruct (wmapr _ _ m2) as [[ss m3]| | |] eqn:E1; try done. cbn [result_bind]. destruct (wmapr _ _ m3) as [[ls m4]| | |] eqn:E2; try done. cbn [result_bind].
  destruct (wmapr _ _ m4) as [[hs m5]| | |] eqn:E3; try done. cbn [result_bind]. intros [= <- <-]. split; [|unfold elem; eauto]. rewrite Forall_forall in Hs. rewrite Forall_forall in Hl. rewrite Forall_forall in Hh. apply conforms_mk.
  - intros z [-> |[-> |Hz]%elem_of_cons]%elem_of_cons; [apply listedb_spec; destruct (o_ver o); vm_compute; reflexivity..|].
    eapply conforms_fields; [|exact Ef|done]. pose proof (class_ok (o_ver o) CNetwork) as K. unfold class_in in K. apply andb_true_iff in K as [[[K1 K2]%andb_true_iff K3]%andb_true_iff K4]. exact K1.
  - intros z [Hz|[Hz|[Hz|[Hz|Hz]%elem_of_app]%elem_of_app]%elem_of_app]%elem_of_app.
    + destruct (wmap_in _ _ _ _ _ Ew z Hz) as (p & m7 & m8 & Hin & El). eapply (good_tag _ _ "alias"); [|by eapply alias_conforms].
      destruct (older (o_ver o) 3) eqn:Eo; [rewrite (Ra eq_refl), map_to_list_empty in Hin; by apply elem_of_nil in Hin|]. destruct (o_ver o); try discriminate Eo; vm_compute; reflexivity.
    + apply elem_of_list_fmap in Hz as (p & -> & _). eapply (good_tag _ _ "property"); [always_child|]. apply prop_conforms.
    + destruct (wmapr_in _ _ _ _ _ E1 z Hz) as (l & m7 & m8 & Hin & El). eapply sub_good; [by apply Hs| |exact El]. intros l' Hl' Ho. apply Rl; [|done]. apply elem_of_app. left. apply elem_of_list_join. exists (sub_leaves l). split; [done|]. by apply elem_of_list_fmap_1.
    + destruct (wmapr_in _ _ _ _ _ E2 z Hz) as (l & m7 & m8 & Hin & El). destruct (Hl l Hin) as [Hc Hv]. refine (leaf_good a o (l_cls l) l m7 z m8 _ _ Hv _ _ _ El).
      * apply elem_of_cons in Hc as [-> |Hc%elem_of_list_singleton]; [always_child|]. rewrite Hc. always_child.
      * intros E0. rewrite E0 in Hc. revert Hc. rewrite !elem_of_cons, elem_of_nil. intuition discriminate.
      * intros E0. rewrite E0 in Hc. revert Hc. rewrite !elem_of_cons, elem_of_nil. intuition discriminate.
      * intros Ho. apply Rl; [|done]. rewrite !elem_of_app. auto.
    + destruct (wmapr_in _ _ _ _ _ E3 z Hz) as (l & m7 & m8 & Hin & El). refine (leaf_good a o CHvdcLine l m7 z m8 _ _ (Hh l Hin) _ _ _ El); [always_child|done|done|]. intros Ho. apply Rl; [|done]. rewrite !elem_of_app. auto.
Qed.

(** ** Presence, computed *)
Fixpoint find_attr (e a : string) (y : xml) : bool :=
  match y with
  | Elem n at' _ cs => (String.eqb n e && existsb (fun x => String.eqb x.1 a) at') || existsb (find_attr e a) cs
  | _ => false
  end.
Definition is_elem (n : string) (y : xml) : bool := match y with Elem n' _ _ _ => String.eqb n n' | _ => false end.
Fixpoint find_child (e c : string) (y : xml) : bool :=
  match y with
  | Elem n _ _ cs => (String.eqb n e && existsb (is_elem c) cs) || existsb (find_child e c) cs
  | _ => false
  end.
Lemma find_attr_sound e a y : find_attr e a y = true -> exists at' b cs t, occurs (Elem e at' b cs) y /\ (a, t) ∈ at'.
Proof.
  induction y as [n at' b cs IH|s|] using xml_ind'; [|done|done]. rewrite Forall_forall in IH. cbn [find_attr]. intros [[<-%String.eqb_eq H]%andb_true_iff|H]%orb_true_iff.
  - apply existsb_exists in H as ([a' t] & H & E%String.eqb_eq). cbn in E. subst a'. exists at', b, cs, t. split; [constructor|by apply elem_of_list_In].
  - assert (exists c, c ∈ cs /\ exists at' b cs t, occurs (Elem e at' b cs) c /\ (a, t) ∈ at') as (c & Hc & at1 & b1 & cs1 & t & Ho & Ht).
    { apply existsb_exists in H as (c & Hc%elem_of_list_In & H). exists c. split; [done|]. by apply IH. }
    exists at1, b1, cs1, t. split; [|done]. by eapply occurs_in.
Qed.
Lemma find_child_sound e x y : find_child e x y = true -> exists at' b cs at1 b1 cs1, occurs (Elem e at' b cs) y /\ Elem x at1 b1 cs1 ∈ cs.
Proof.
  induction y as [n at' b cs IH|s|] using xml_ind'; [|done|done]. rewrite Forall_forall in IH. cbn [find_child]. intros [[<-%String.eqb_eq H]%andb_true_iff|H]%orb_true_iff.
  - apply existsb_exists in H as (c & H & Hc). destruct c as [n' a1 b1 cs1|s|]; try done. cbn in Hc. apply String.eqb_eq in Hc as <-. exists at', b, cs, a1, b1, cs1. split; [constructor|by apply elem_of_list_In].
  - assert (exists c, c ∈ cs /\ exists at' b cs at1 b1 cs1, occurs (Elem e at' b cs) c /\ Elem x at1 b1 cs1 ∈ cs) as (c & Hc & at1 & b1 & cs1 & at2 & b2 & cs2 & Ho & Ht).
    { apply existsb_exists in H as (c & Hc%elem_of_list_In & H). exists c. split; [done|]. by apply IH. }
    exists at1, b1, cs1, at2, b2, cs2. split; [|done]. by eapply occurs_in.
Qed.
