From Verif Require Import Xml XmlProofs NetXml NetXmlSpec NetXmlShape NetXmlShapeProofs NetXmlProofs NetXmlMore VocabularySpec VocabularyProofs ColumnsSpec.

Definition col_at (v : ver) (c : column) (a : string) : bool := existsb (fun e => (e.1.1 <=? number v) && (number v <=? e.1.2) && String.eqb e.2 a) c.
Lemma col_at_spec v c a : col_at v c a = true <-> exists lo hi, (lo, hi, a) ∈ c /\ lo <= number v <= hi.
Proof.
  unfold col_at. rewrite existsb_exists. split.
  - intros ([[lo hi] a'] & Hin%elem_of_list_In & [[H1%Nat.leb_le H2%Nat.leb_le]%andb_true_iff H3%String.eqb_eq]%andb_true_iff). cbn in *. subst a'. eauto.
  - intros (lo & hi & Hin%elem_of_list_In & H1 & H2). exists (lo, hi, a). split; [done|]. cbn. apply Nat.leb_le in H1, H2. by rewrite H1, H2, String.eqb_refl.
Qed.
(** A table of attributes and columns agree. *)
Definition agree (v : ver) (ds : list fdesc) (cs : list column) : bool :=
  bool_decide (length ds = length cs) && forallb (fun p => match fd_wattr p.1 v with Some a => col_at v p.2 a | None => true end) (zip ds cs).
Lemma agree_at v ds cs i d a : agree v ds cs = true -> ds !! i = Some d -> fd_wattr d v = Some a -> exists c, cs !! i = Some c /\ col_at v c a = true.
Proof.
  unfold agree. intros [L%bool_decide_eq_true H]%andb_true_iff Hd Ha. destruct (lookup_lt_is_Some_2 cs i) as [c Hc]; [rewrite <- L; by eapply lookup_lt_Some|].
  exists c. split; [done|]. rewrite forallb_forall in H. specialize (H (d, c)). cbn in H. rewrite Ha in H. apply H, elem_of_list_In, elem_of_list_lookup. exists i. apply lookup_zip_with_Some. eauto.
Qed.
Lemma wmap_at {A B M} (f : A -> M -> B * M) l : forall m ys m', wmap f l m = (ys, m') -> forall i y, ys !! i = Some y -> exists x m1 m2, l !! i = Some x /\ f x m1 = (y, m2).
Proof.
  induction l as [|x l IH]; intros m ys m' E i y Hy; cbn in E; [injection E as <- <-; done|].
  destruct (f x m) as [z m1] eqn:Ef. destruct (wmap f l m1) as [zs m2] eqn:Ew. injection E as <- <-. destruct i as [|i]; cbn in Hy.
  - injection Hy as <-. exists x, m, m1. done.
  - exact (IH _ _ _ Ew i y Hy).
Qed.
Lemma wmap_none {A B} (f : A -> option mapping -> B * option mapping) l : (forall x, x ∈ l -> (f x None).2 = None) -> (wmap f l None).2 = None /\ (wmap f l None).1 = map (fun x => (f x None).1) l.
Proof.
  induction l as [|x l IH]; intros H; [done|]. cbn [wmap map]. destruct (f x None) as [z m1] eqn:Ef. assert (m1 = None) as -> by (specialize (H x ltac:(left)); by rewrite Ef in H).
  destruct IH as [I1 I2]; [intros y Hy; apply H; by right|]. destruct (wmap f l None) as [zs m2]. cbn in *. by subst.
Qed.
Lemma wmap_anon l : wmap anon l None = (l, None).
Proof. induction l as [|s l IH]; [done|]. cbn [wmap anon]. by rewrite IH. Qed.
Lemma of_str_app a b : of_str (a ++ b) = of_str a +:+ of_str b.
Proof. induction a as [|c a IH]; [done|]. exact (f_equal (String c) IH). Qed.
Lemma of_to s : of_str (to_str s) = s.
Proof. apply String.string_of_list_ascii_of_string. Qed.
Lemma join_commas l : of_str (join_comma (map to_str l)) = with_commas l.
Proof.
  induction l as [|s [|s' l] IH]; [done|apply of_to|]. cbn [map join_comma with_commas] in *. rewrite of_str_app, of_to. f_equal. exact (f_equal (String ","%char) IH).
Qed.
Lemma write_field_none v xs d x : (write_field v xs d x None).2 = None /\ forall a t, (a, t) ∈ (write_field v xs d x None).1 -> fd_wattr d v = Some a /\ shown x = Some t /\ (fd_w d = WAnonNonEmpty -> t <> "").
Proof.
  unfold write_field. destruct (fd_wattr d v) as [a|]; [|split; [done|]; intros ? ? H; by apply elem_of_nil in H].
  assert (forall (b t a' t' : string), (a', t') ∈ [(b, t)] -> a' = b /\ t' = t) as S1 by (intros b t a' t' H%elem_of_list_singleton; by injection H).
  assert (forall (a' t' : string), (a', t') ∈ @nil (string * string) -> False) as S0 by (intros a' t' H; by apply elem_of_nil in H).
  destruct (fd_w d), x; cbn [anon]; repeat (match goal with |- context [match ?z with Some _ => _ | None => _ end] => is_var z; destruct z end);
    try (split; [done|]; intros a' t' H; cbn [fst] in H; try (by destruct (S0 _ _ H)); apply S1 in H as [-> ->]; done).
  - destruct (Bool.eqb _ _); (split; [done|]); intros a' t' H; cbn [fst] in H; [by destruct (S0 _ _ H)|]. apply S1 in H as [-> ->]. by destruct b.
  - destruct (String.eqb _ _); (split; [done|]); intros a' t' H; cbn [fst] in H; [by destruct (S0 _ _ H)|]. by apply S1 in H as [-> ->].
  - destruct (String.eqb_spec s ""); (split; [done|]); intros a' t' H; cbn [fst] in H; [by destruct (S0 _ _ H)|]. apply S1 in H as [-> ->]. done.
  - destruct l as [|s l]; [split; [done|]; intros a' t' H; by destruct (S0 _ _ H)|]. rewrite wmap_anon. split; [done|]. intros a' t' H. cbn [fst] in H. apply S1 in H as [-> ->]. split; [done|]. split; [by rewrite join_commas|done].
  - destruct (b || _); (split; [done|]); intros a' t' H; cbn [fst] in H; [|by destruct (S0 _ _ H)]. apply S1 in H as [-> ->]. by destruct b.
Qed.
Lemma write_fields_none v ds xs : (write_fields v ds xs None).2 = None /\
  forall a t, (a, t) ∈ (write_fields v ds xs None).1 -> exists i d x, ds !! i = Some d /\ xs !! i = Some x /\ fd_wattr d v = Some a /\ shown x = Some t /\ (fd_w d = WAnonNonEmpty -> t <> "").
Proof.
  unfold write_fields. destruct (wmap_none (fun p m => write_field v xs p.1 p.2 m) (zip ds xs)) as [H1 H2]; [intros p _; apply write_field_none|].
  destruct (wmap _ (zip ds xs) None) as [ys m]. cbn [fst snd] in *. split; [done|]. subst ys. intros a t (l & Ht & Hl)%elem_of_list_join.
  apply elem_of_list_fmap in Hl as ([d x] & -> & Hin). cbn [fst snd] in Ht. apply write_field_none in Ht as [Ha Hs]. apply elem_of_list_lookup in Hin as [i Hi]. apply lookup_zip_with_Some in Hi as (d' & x' & [= <- <-] & Hd & Hx). eauto 10.
Qed.
Lemma fields_tell v ds cs xs : agree v ds cs = true -> tells v cs xs (write_fields v ds xs None).1.
Proof.
  intros H a t Ht. destruct (write_fields_none v ds xs) as [_ W]. destruct (W a t Ht) as (i & d & x & Hd & Hx & Ha & Hs & _). destruct (agree_at _ _ _ _ _ _ H Hd Ha) as (c & Hc & (lo & hi & Hin & Hv)%col_at_spec).
  exists i, c, x, lo, hi. done.
Qed.
Definition all_kinds : list pkind := [PLimits; PCurve; PMinMax; PRatio; PPhase; PTerminal; PLinear; PNonLinear].
Lemma agree_all : forallb (fun v => forallb (fun c => agree v (schema c) (columns c)) VocabularyProofs.all_classes &&
  forallb (fun k => agree v (pschema k) (part_columns k) && forallb (fun e => agree v (default [] (cschema k e.1)) (element_columns k e.1)) (part_elements k)) all_kinds) all_vers = true.
Proof. vm_compute. reflexivity. Qed.
Lemma agree_ok v : (forall c, agree v (schema c) (columns c) = true) /\ forall k, agree v (pschema k) (part_columns k) = true /\ forall e, e ∈ part_elements k -> agree v (default [] (cschema k e.1)) (element_columns k e.1) = true.
Proof.
  pose proof agree_all as H. rewrite forallb_forall in H. specialize (H v (proj1 (elem_of_list_In _ _) (in_vers v))). apply andb_true_iff in H as [H1 H2]. rewrite forallb_forall in H1, H2. split.
  - intros c. apply H1, elem_of_list_In, in_classes.
  - intros k. assert (In k all_kinds) as Hk by (destruct k; cbn; tauto). specialize (H2 k Hk). apply andb_true_iff in H2 as [H2 H3]. split; [done|]. rewrite forallb_forall in H3. intros e He. by apply H3, elem_of_list_In.
Qed.
Definition distinctb (v : ver) (cs : list column) : bool :=
  bool_decide (NoDup (mjoin (map (fun c => map snd (filter (fun e => (e.1.1 <=? number v) && (number v <=? e.1.2) = true) c)) cs))).
Lemma distinctb_spec v cs : distinctb v cs = true -> distinct v cs.
Proof.
  unfold distinctb. rewrite bool_decide_eq_true. revert cs.
  assert (forall c lo hi a, (lo, hi, a) ∈ c -> lo <= number v <= hi -> a ∈ map snd (filter (fun e : nat * nat * string => (e.1.1 <=? number v) && (number v <=? e.1.2) = true) c)) as F.
  { intros c lo hi a Hin [H1%Nat.leb_le H2%Nat.leb_le]. apply elem_of_list_fmap. exists (lo, hi, a). split; [done|]. apply elem_of_list_filter. cbn. by rewrite H1, H2. }
  assert (forall cs i c lo hi a, cs !! i = Some c -> (lo, hi, a) ∈ c -> lo <= number v <= hi -> a ∈ mjoin (map (fun c => map snd (filter (fun e : nat * nat * string => (e.1.1 <=? number v) && (number v <=? e.1.2) = true) c)) cs)) as G.
  { intros cs i c lo hi a Hc Hin Hv. apply elem_of_list_join. eexists. split; [by eapply F|]. apply elem_of_list_fmap. exists c. split; [done|]. by eapply elem_of_list_lookup_2. }
  induction cs as [|c cs IH]; intros N; [by intros i|]. cbn [map mjoin list_join] in N. apply NoDup_app in N as (_ & N1 & N2). specialize (IH N2).
  intros [|i] [|j] c1 d a lo hi lo' hi' Hc Hd Ha Hb Hv Hv'; cbn in Hc, Hd; [done| | |].
  - injection Hc as ->. exfalso. apply (N1 a); [by eapply F|by eapply G].
  - injection Hd as ->. exfalso. apply (N1 a); [by eapply F|by eapply G].
  - f_equal. by eapply IH.
Qed.
Lemma distinct_all : forallb (fun v => forallb (fun c => distinctb v (columns c)) VocabularyProofs.all_classes &&
  forallb (fun k => distinctb v (part_columns k) && forallb (fun e => distinctb v (element_columns k e.1)) (part_elements k)) all_kinds) all_vers = true.
Proof. vm_compute. reflexivity. Qed.

(** ** The element of an object *)
Lemma write_attrs_none v l : write_attrs v l None =
  (("id", l_id l) :: (if String.eqb (l_name l) "" then [] else [("name", l_name l)]) ++ (if run_from V1_2 v then fict_attr (l_fict l) else []) ++ (write_fields v (schema (l_cls l)) (l_fields l) None).1
   ++ (if is_switch (l_cls l) && run_until V1_1 v then fict_attr (l_fict l) else []), None).
Proof.
  unfold write_attrs. cbn [anon]. destruct (write_fields_none v (schema (l_cls l)) (l_fields l)) as [H _].
  destruct (String.eqb (l_name l) ""); destruct (write_fields v (schema (l_cls l)) (l_fields l) None) as [fs m]; cbn [fst snd] in *; by subst m.
Qed.
Lemma write_extras_none v l : (write_extras v l None).2 = None /\ forall x, x ∈ (write_extras v l None).1 -> is_elem "alias" x = true \/ is_elem "property" x = true.
Proof.
  unfold write_extras. assert (forall p, (write_alias v p None).2 = None /\ is_elem "alias" (write_alias v p None).1 = true) as A by done.
  destruct (run_from V1_3 v).
  - destruct (wmap_none (write_alias v) (map_to_list (l_aliases l))) as [H1 H2]; [intros p _; apply A|]. destruct (wmap _ _ None) as [als m]. cbn [fst snd] in *. split; [done|].
    intros x [Hx|Hx]%elem_of_app; [left|right].
    + subst als. apply elem_of_list_fmap in Hx as (p & -> & _). apply A.
    + apply elem_of_list_fmap in Hx as (p & -> & _). done.
  - split; [done|]. cbn [fst]. rewrite app_nil_l. intros x Hx. right. apply elem_of_list_fmap in Hx as (p & -> & _). done.
Qed.
Definition child_xml (v : ver) (k : pkind) (c : string * list fval) : xml := elem c.1 (write_fields v (default [] (cschema k c.1)) c.2 None).1 [].
Definition part_xml (v : ver) (n : string) (p : part) : xml := elem n (write_fields v (pschema (p_kind p)) (p_fields p) None).1 (map (child_xml v (p_kind p)) (p_children p)).
Lemma write_child_none v k c : write_child v k c None = (child_xml v k c, None).
Proof. unfold write_child, child_xml. destruct (write_fields_none v (default [] (cschema k c.1)) c.2) as [H _]. destruct (write_fields v _ c.2 None) as [a m]. cbn [fst snd] in *. by subst. Qed.
Lemma write_part_none v n p : write_part v n p None = (part_xml v n p, None).
Proof.
  unfold write_part, part_xml. destruct (write_fields_none v (pschema (p_kind p)) (p_fields p)) as [H _]. destruct (write_fields v _ (p_fields p) None) as [a m]. cbn [fst snd] in *. subst m.
  destruct (wmap_none (write_child v (p_kind p)) (p_children p)) as [H1 H2]; [intros c _; by rewrite write_child_none|]. destruct (wmap _ _ None) as [cs m]. cbn [fst snd] in *. subst.
  f_equal. f_equal. apply map_ext. intros c. by rewrite write_child_none.
Qed.
Lemma write_parts_none v c ps : (write_parts v c ps None).2 = None /\ forall x, x ∈ (write_parts v c ps None).1 -> exists s p n, s ∈ slots c /\ ps !! sl_key s = Some p /\ (n, p_kind p) ∈ sl_kinds s /\ x = part_xml v n p.
Proof.
  assert (forall s, (write_slot v ps s None).2 = None /\ forall x, x ∈ (write_slot v ps s None).1 -> exists p n, ps !! sl_key s = Some p /\ (n, p_kind p) ∈ sl_kinds s /\ x = part_xml v n p) as S.
  { intros s. unfold write_slot, slot_part. destruct (ps !! sl_key s) as [p|] eqn:E; [|split; [done|]; intros x Hx; by apply elem_of_nil in Hx].
    destruct (_ && _); [|split; [done|]; intros x Hx; by apply elem_of_nil in Hx]. destruct (slot_name s (p_kind p)) as [n|] eqn:En; cbn [fmap option_fmap option_map]; [|split; [done|]; intros x Hx; by apply elem_of_nil in Hx].
    rewrite write_part_none. split; [done|]. intros x Hx%elem_of_list_singleton. exists p, n. split; [done|]. split; [by apply slot_name_in|done]. }
  unfold write_parts. destruct (wmap_none (write_slot v ps) (slots c)) as [H1 H2]; [intros s _; apply S|]. destruct (wmap _ (slots c) None) as [xs m]. cbn [fst snd] in *. subst. split; [done|].
  intros x (l & Hx & Hl)%elem_of_list_join. apply elem_of_list_fmap in Hl as (s & -> & Hs). destruct (S s) as [_ Ss]. destruct (Ss x Hx) as (p & n & H1 & H3 & ->). eauto 10.
Qed.
Lemma write_doc_none v l : write_doc v l None =
  (elem (tag (l_cls l)) (write_attrs v l None).1 ((write_extras v l None).1 ++ (write_parts v (l_cls l) (l_parts l) None).1), None).
Proof.
  unfold write_doc. destruct (write_attrs v l None) as [a m1] eqn:Ea. assert (m1 = None) as -> by (rewrite write_attrs_none in Ea; by injection Ea).
  destruct (write_extras_none v l) as [H _]. destruct (write_extras v l None) as [es m2]. cbn [fst snd] in *. subst m2.
  destruct (write_parts_none v (l_cls l) (l_parts l)) as [H _]. destruct (write_parts v _ _ None) as [ps m3]. cbn [fst snd] in *. by subst.
Qed.

(** ** What is written and what is in memory *)
Lemma wire_half_at fs i x' : wire_half fs !! i = Some x' -> exists x, fs !! i = Some x /\ (x = x' \/ (x' = VText "" /\ i = 1)).
Proof.
  destruct fs as [|[ | |s| | ] [|[ | |s'| | ] fs]]; cbn [wire_half]; eauto. destruct i as [|[|i]]; cbn; intros E; [eauto| |eauto]. destruct (String.eqb s' s); injection E as <-; eauto.
Qed.
Lemma run_until_2 v : run_until V1_2 v = true -> number v < 3.
Proof. destruct v; vm_compute; try discriminate; lia. Qed.
Lemma wire_at o l i x' : wire_fields o l !! i = Some x' -> exists x, l_fields l !! i = Some x /\ (x = x' \/ computed (o_ver o) l i \/ (x' = VText "" /\ l_cls l = CTieLine /\ (i = 14 \/ i = 23))).
Proof.
  unfold wire_fields, computed. destruct (l_cls l) eqn:Ec; eauto.
  - destruct (l_fields l) as [|b [|g [|mx [|n fs]]]] eqn:Ef; eauto. destruct (l_parts l !! "model") as [p|] eqn:Ep; eauto. destruct (run_until V1_2 (o_ver o)) eqn:Er; eauto.
    apply run_until_2 in Er. destruct i as [|[|[|[|i]]]]; cbn; eauto; intros _; eexists; (split; [done|]); right; left; (split; [done|]); left; eauto 10.
  - destruct (l_fields l) as [|p0 [|q0 [|r [|x [|g [|b [|mn [|mx [|on [|tp [|tv [|tq fs]]]]]]]]]]]] eqn:Ef; eauto. destruct on as [| | |[s|]|]; eauto. destruct (run_until V1_2 (o_ver o)) eqn:Er; eauto.
    apply run_until_2 in Er. destruct i as [|[|i]]; [| |cbn; eauto]; intros _; eexists; (split; [reflexivity|]); right; left; (split; [done|]); right; cbn; eauto 10.
  - intros H. apply lookup_app_Some in H as [H|[H1 H]].
    + exists x'. split; [|by left]. destruct (decide (i < 13)); [by rewrite lookup_take in H by done|]. by rewrite lookup_take_ge in H by lia.
    + rewrite take_length in H1, H. apply lookup_app_Some in H as [H|[H2 H]].
      * apply wire_half_at in H as (x & Hx & H). exists x. destruct (decide (i - 13 `min` length (l_fields l) < 9)) as [Hlt|]; [|by rewrite lookup_take_ge in Hx by lia]. rewrite lookup_take in Hx by done.
        rewrite lookup_drop in Hx. pose proof (lookup_lt_Some _ _ _ Hx) as Hl. replace (13 `min` length (l_fields l)) with 13 in * by lia. replace (13 + (i - 13)) with i in Hx by lia. split; [done|].
        destruct H as [-> |[-> H]]; [by left|]. right. right. split; [done|]. split; [done|]. left. lia.
      * apply wire_half_at in H as (x & Hx & H). exists x. rewrite lookup_drop in Hx. pose proof (lookup_lt_Some _ _ _ Hx) as Hl.
        assert (length (wire_half (take 9 (drop 13 (l_fields l)))) = 9 `min` (length (l_fields l) - 13)) as Hw.
        { assert (forall fs, length (wire_half fs) = length fs) as W by (intros [|[ | |s| | ] [|[ | |s'| | ] fs]]; done). by rewrite W, take_length, drop_length. }
        rewrite Hw in *. replace (13 `min` length (l_fields l)) with 13 in * by lia. replace (9 `min` (length (l_fields l) - 13)) with 9 in * by lia.
        replace (22 + (i - 13 - 9)) with i in Hx by lia. split; [done|]. destruct H as [-> |[-> H]]; [by left|]. right. right. split; [done|]. split; [done|]. right. lia.
Qed.
Lemma wire_part_at v p : p_kind (wire_part v p) = p_kind p /\ p_children (wire_part v p) = p_children p /\ forall i x', p_fields (wire_part v p) !! i = Some x' -> exists x, p_fields p !! i = Some x /\ (x = x' \/ x' = VNum None).
Proof.
  unfold wire_part. destruct p as [k fs cs]. destruct k; cbn [p_kind p_fields p_children]; try (split; [done|]; split; [done|]; eauto).
  all: destruct fs as [|low [|tap [|db fs]]]; cbn [p_kind p_fields p_children]; try (split; [done|]; split; [done|]; eauto).
  all: intros i x'; destruct i as [|[|[|i]]]; cbn; eauto; intros [= <-]; eexists; (split; [done|]); destruct (_ && _); auto.
Qed.
Lemma wire_parts_has v l key p : wire_parts v l !! key = Some p -> exists p0, has_part l key p0 /\ p_kind p = p_kind p0 /\ p_children p = p_children p0 /\
  forall i x', p_fields p !! i = Some x' -> exists x, p_fields p0 !! i = Some x /\ (x = x' \/ x' = VNum None).
Proof.
  unfold wire_parts, has_part.
  assert ((wire_part v <$> l_parts l) !! key = Some p -> exists p0, (l_parts l !! key = Some p0 \/ (l_cls l = CShunt /\ l_parts l !! "model" = None /\ key = "model" /\ p0 = Part PLinear (take 3 (l_fields l)) [])) /\ p_kind p = p_kind p0 /\ p_children p = p_children p0 /\
    forall i x', p_fields p !! i = Some x' -> exists x, p_fields p0 !! i = Some x /\ (x = x' \/ x' = VNum None)) as B.
  { rewrite lookup_fmap. destruct (l_parts l !! key) as [p0|] eqn:E; [|done]. intros [= <-]. exists p0. split; [by left|]. apply wire_part_at. }
  destruct (l_cls l) eqn:Ec; try exact B. destruct (l_fields l) as [|b [|g [|mx fs]]] eqn:Ef; try exact B. destruct (l_parts l !! "model") as [p0|] eqn:Ep; [exact B|].
  destruct (decide (key = "model")) as [->|Hn]; [|rewrite lookup_insert_ne by done; exact B]. rewrite lookup_insert. intros [= <-]. eexists. split; [right; eauto|]. cbn. split; [done|]. split; [done|]. intros i x' Hx. eauto.
Qed.
Lemma tells_masked v cs xs ys attrs : (forall i x', ys !! i = Some x' -> exists x, xs !! i = Some x /\ (x = x' \/ x' = VNum None)) -> tells v cs ys attrs -> tells v cs xs attrs.
Proof.
  intros H T a t Ht. destruct (T a t Ht) as (i & c & x' & lo & hi & H1 & H2 & H3 & H4 & H5). destruct (H i x' H4) as (x & Hx & [-> | ->]); [|done]. exists i, c, x', lo, hi. done.
Qed.
Lemma slot_names_all : forallb (fun c => forallb (fun s => forallb (fun e => String.eqb e.1 (element_name (sl_key s) e.2)) (sl_kinds s)) (slots c)) VocabularyProofs.all_classes = true.
Proof. vm_compute. reflexivity. Qed.
Lemma slot_name_element c s n k : s ∈ slots c -> (n, k) ∈ sl_kinds s -> n = element_name (sl_key s) k.
Proof.
  intros Hs%elem_of_list_In Hk%elem_of_list_In. pose proof slot_names_all as H. rewrite forallb_forall in H. specialize (H c (proj1 (elem_of_list_In _ _) (in_classes c))). rewrite forallb_forall in H.
  specialize (H s Hs). rewrite forallb_forall in H. specialize (H _ Hk). by apply String.eqb_eq in H.
Qed.
Definition elements_knownb : bool := forallb (fun v => forallb (fun k => forallb (fun n => agree v (default [] (cschema k n)) (element_columns k n)) (map fst (part_elements k))) all_kinds) all_vers.
Lemma cschema_known k n : is_Some (cschema k n) -> exists e, e ∈ part_elements k /\ e.1 = n.
Proof.
  destruct k; cbn [cschema]; intros [x Hx]; try done;
    repeat (match type of Hx with context [String.eqb n ?s] => destruct (String.eqb_spec n s) as [->|]; [first [eexists; split; [apply elem_of_list_here|done] | eexists; split; [apply elem_of_list_further, elem_of_list_here|done]]|] end); done.
Qed.
Lemma child_told v k c : tells v (element_columns k c.1) c.2 (write_fields v (default [] (cschema k c.1)) c.2 None).1.
Proof.
  destruct (cschema k c.1) as [ds|] eqn:E; [|intros a t H; cbn in H; by apply elem_of_nil in H]. destruct (cschema_known k c.1) as (e & He & En); [eauto|].
  apply fields_tell. destruct (agree_ok v) as [_ K]. destruct (K k) as [_ K2]. specialize (K2 e He). rewrite En in K2. by rewrite E in K2.
Qed.
Lemma tie_fields i d : schema CTieLine !! i = Some d -> i = 14 \/ i = 23 -> fd_w d = WAnonNonEmpty.
Proof. intros H [-> | ->]; vm_compute in H; injection H as <-; done. Qed.
Lemma attrs_told o l : object_told (o_ver o) l (write_attrs (o_ver o) (wire o l) None).1.
Proof.
  rewrite write_attrs_none. change (l_id (wire o l)) with (l_id l). change (l_name (wire o l)) with (l_name l). change (l_fict (wire o l)) with (l_fict l). change (l_cls (wire o l)) with (l_cls l). change (l_fields (wire o l)) with (wire_fields o l).
  cbn [fst]. assert (forall a t, (a, t) ∈ fict_attr (l_fict l) -> a = "fictitious" /\ t = "true" /\ l_fict l = true) as F.
  { intros a t H. unfold fict_attr in H. destruct (l_fict l); [|by apply elem_of_nil in H]. apply elem_of_list_singleton in H. by injection H as -> ->. }
  split; [left|]. intros a t [[= -> ->]|[H|[H|[H|H]%elem_of_app]%elem_of_app]%elem_of_app]%elem_of_cons; [by left| | | |].
  - destruct (String.eqb _ ""); [by apply elem_of_nil in H|]. apply elem_of_list_singleton in H. injection H as -> ->. auto.
  - destruct (run_from _ _); [|by apply elem_of_nil in H]. apply F in H. auto.
  - right. right. right. left. destruct (write_fields_none (o_ver o) (schema (l_cls l)) (wire_fields o l)) as [_ W]. destruct (W a t H) as (i & d & x' & Hd & Hx' & Ha & Hs & Hne).
    destruct (agree_ok (o_ver o)) as [K _]. destruct (agree_at _ _ _ _ _ _ (K (l_cls l)) Hd Ha) as (c & Hc & (lo & hi & Hin & Hv)%col_at_spec).
    destruct (wire_at _ _ _ _ Hx') as (x & Hx & [-> |[Hcomp|(-> & Et & Hi)]]).
    + exists i, c, x', lo, hi. auto 10.
    + exists i, c, x, lo, hi. auto 10.
    + exfalso. rewrite Et in Hd. cbn in Hs. injection Hs as <-. apply Hne; [by eapply tie_fields|done].
  - destruct (_ && _); [|by apply elem_of_nil in H]. apply F in H. auto.
Qed.
Lemma doc_told o l y m : write_leaf o l None = Ok (y, m) -> m = None /\ exists attrs e cs, y = Elem (element (l_cls l)) attrs e cs /\ object_told (o_ver o) l attrs /\ parts_told (o_ver o) l cs.
Proof.
  unfold write_leaf. destruct (_ && _); [done|]. rewrite write_doc_none. intros [= <- <-]. split; [done|]. unfold elem. change (l_cls (wire o l)) with (l_cls l). do 3 eexists. split; [f_equal; by destruct (l_cls l)|]. split; [apply attrs_told|].
  intros n attrs e es [H|H]%elem_of_app.
  - destruct (write_extras_none (o_ver o) (wire o l)) as [_ W]. destruct (W _ H) as [E%String.eqb_eq|E%String.eqb_eq]; auto.
  - right. right. destruct (write_parts_none (o_ver o) (l_cls l) (l_parts (wire o l))) as [_ W]. destruct (W _ H) as (s & p & n' & Hs & Hp & Hk & E). unfold part_xml, elem in E. injection E as -> -> -> ->.
    change (l_parts (wire o l)) with (wire_parts (o_ver o) l) in Hp. destruct (wire_parts_has _ _ _ _ Hp) as (p0 & Hp0 & Ek & Ech & Hf). exists (sl_key s), p0. rewrite <- Ek, <- Ech. split; [done|].
    split; [by eapply slot_name_element|]. split.
    + eapply tells_masked; [exact Hf|]. apply fields_tell. by apply agree_ok.
    + apply Forall2_fmap_r, Forall_Forall2_diag, Forall_forall. intros c _. unfold child_xml, elem. do 2 eexists. split; [done|]. apply child_told.
Qed.
Lemma wmapr_none {A B} (f : A -> option mapping -> result (B * option mapping)) l : (forall x y m, f x None = Ok (y, m) -> m = None) -> forall ys m, wmapr f l None = Ok (ys, m) -> m = None /\ forall x, x ∈ l -> exists y, y ∈ ys /\ f x None = Ok (y, None).
Proof.
  intros F. induction l as [|x l IH]; cbn [wmapr]; intros ys m E.
  - injection E as <- <-. split; [done|]. intros x Hx. by apply elem_of_nil in Hx.
  - destruct (f x None) as [[y m1]| | |] eqn:Ef; try done. cbn [result_bind] in E. rewrite (F _ _ _ Ef) in E. destruct (wmapr f l None) as [[zs m2]| | |] eqn:Ew; try done. cbn [result_bind] in E. injection E as <- <-.
    destruct (IH _ _ eq_refl) as [-> I]. split; [done|]. intros z [-> |Hz]%elem_of_cons.
    + exists y. rewrite (F _ _ _ Ef) in Ef. split; [left|done].
    + destruct (I z Hz) as (w & Hw & Ez). exists w. split; [by right|done].
Qed.
Lemma said_in v l n a e cs c : c ∈ cs -> said v l c -> said v l (Elem n a e cs).
Proof. intros Hc (a' & e' & cs' & Ho & H). exists a', e', cs'. split; [by eapply occurs_in|done]. Qed.
Lemma leaf_said o l y m : write_leaf o l None = Ok (y, m) -> m = None /\ said (o_ver o) l y.
Proof. intros E. destruct (doc_told _ _ _ _ E) as [Hm (a & e & cs & -> & H1 & H2)]. split; [done|]. exists a, e, cs. split; [constructor|]. auto. Qed.
Lemma leaves_said o ls ys m : wmapr (write_leaf o) ls None = Ok (ys, m) -> m = None /\ forall l, l ∈ ls -> exists y, y ∈ ys /\ said (o_ver o) l y.
Proof.
  intros E. destruct (wmapr_none (write_leaf o) ls (fun x y m H => proj1 (leaf_said _ _ _ _ H)) _ _ E) as [-> I]. split; [done|]. intros l Hl. destruct (I l Hl) as (y & Hy & Ey). exists y. split; [done|]. by apply (leaf_said _ _ _ _ Ey).
Qed.
Lemma head_said o l : l_cls l = CSubstation \/ l_cls l = CVoltageLevel -> forall extra e cs, (forall x, x ∈ extra -> x.1 = "topologyKind" /\ l_cls l = CVoltageLevel) ->
  said (o_ver o) l (Elem (element (l_cls l)) ((write_attrs (o_ver o) l None).1 ++ extra) e cs).
Proof.
  intros Hc extra e cs Hx. do 3 eexists. split; [constructor|]. split; [|intros H1 H2; by destruct Hc].
  assert (write_attrs (o_ver o) l None = write_attrs (o_ver o) (wire o l) None) as ->.
  { rewrite !write_attrs_none. change (l_fields (wire o l)) with (wire_fields o l). unfold wire_fields. change (l_cls (wire o l)) with (l_cls l). by destruct Hc as [-> | ->]. }
  destruct (attrs_told o l) as [A1 A2]. split; [apply elem_of_app; by left|]. intros a t [H|H]%elem_of_app; [by apply A2|]. destruct (Hx _ H) as [E1 E2]. cbn in E1. auto 10.
Qed.
Lemma vl_said o x y m a : vl_valid a (o_ver o) x -> write_vl o x None = Ok (y, m) -> m = None /\ forall l, l ∈ vl_leaves x -> said (o_ver o) l y.
Proof.
  intros ((Ecl & _) & Ht & He & _ & _). unfold write_vl. destruct (write_attrs _ _ None) as [at0 m1] eqn:Ea. assert (m1 = None) as -> by (rewrite write_attrs_none in Ea; by injection Ea).
  destruct (write_extras_none (o_ver o) (v_leaf x)) as [Hes _]. destruct (write_extras _ _ None) as [es m2]. cbn [snd] in Hes. subst m2.
  destruct (write_topology o x None) as [[t m3]| | |] eqn:Et; try done. cbn [result_bind].
  assert (m3 = None /\ forall l, l ∈ (v_buses x ++ v_sections x ++ v_switches x) -> said (o_ver o) l t) as [-> T].
  { unfold write_topology in Et. destruct (v_nb x).
    - destruct (wmapr _ _ None) as [[ss m5]| | |] eqn:E1; try done. cbn [result_bind] in Et. destruct (leaves_said _ _ _ _ E1) as [-> S1]. destruct (wmapr _ (v_switches x) None) as [[ws m6]| | |] eqn:E2; try done. cbn [result_bind] in Et. injection Et as <- <-.
      destruct (leaves_said _ _ _ _ E2) as [-> S2]. split; [done|]. destruct Ht as (Hb & _). rewrite Hb. cbn [app]. intros l [Hl|Hl]%elem_of_app.
      + destruct (S1 l Hl) as (z & Hz & S). eapply said_in; [|exact S]. rewrite !elem_of_app. auto.
      + destruct (S2 l Hl) as (z & Hz & S). eapply said_in; [|exact S]. rewrite !elem_of_app. auto.
    - destruct (wmapr _ _ None) as [[ss m5]| | |] eqn:E1; try done. cbn [result_bind] in Et. destruct (leaves_said _ _ _ _ E1) as [-> S1]. destruct (wmapr _ (v_switches x) None) as [[ws m6]| | |] eqn:E2; try done. cbn [result_bind] in Et. injection Et as <- <-.
      assert (forall l z m, write_bus_switch o (v_switches x) l None = Ok (z, m) -> m = None /\ said (o_ver o) l z) as B.
      { intros l z m0. unfold write_bus_switch. cbn [anon]. destruct (existsb _ _); [|done]. apply leaf_said. }
      destruct (wmapr_none _ _ (fun l z m H => proj1 (B l z m H)) _ _ E2) as [-> S2]. split; [done|]. destruct Ht as (Hb & Hic & _). rewrite Hb. cbn [app]. intros l [Hl|Hl]%elem_of_app.
      + destruct (S1 l Hl) as (z & Hz & S). eapply said_in; [|exact S]. rewrite !elem_of_app. auto.
      + destruct (S2 l Hl) as (z & Hz & S%B). eapply said_in; [|exact (proj2 S)]. rewrite !elem_of_app. auto. }
  destruct (wmapr _ _ None) as [[qs m4]| | |] eqn:Eq; try done. cbn [result_bind]. intros [= <- <-]. destruct (leaves_said _ _ _ _ Eq) as [-> Q]. split; [done|].
  intros l [-> |Hl]%elem_of_cons.
  - unfold elem. pose proof (head_said o (v_leaf x) (or_intror Ecl)) as H. rewrite Ea in H. rewrite Ecl in H. apply H. intros z Hz%elem_of_list_singleton. subst z. done.
  - unfold elem. rewrite !app_assoc in Hl. apply elem_of_app in Hl as [Hl|Hl].
    + eapply said_in; [|apply T; by rewrite !app_assoc]. rewrite elem_of_app. right. left.
    + destruct (Q l) as (z & Hz & S).
      * rewrite Forall_forall in He. destruct (He l Hl) as [Hc _]. apply elem_of_list_join. exists (filter (fun l0 => l_cls l0 = l_cls l) (v_eqs x)). split; [by apply elem_of_list_filter|].
        apply elem_of_list_fmap. exists (l_cls l). split; [done|]. unfold equipments in Hc. unfold eq_classes. revert Hc. rewrite !elem_of_cons. tauto.
      * eapply said_in; [|exact S]. rewrite elem_of_app. right. by right.
Qed.
Lemma sub_said o x y m a : sub_valid a (o_ver o) x -> write_sub o x None = Ok (y, m) -> m = None /\ forall l, l ∈ sub_leaves x -> said (o_ver o) l y.
Proof.
  intros ((Ecl & _) & Hv & _). rewrite Forall_forall in Hv. unfold write_sub. destruct (write_attrs _ _ None) as [at0 m1] eqn:Ea. assert (m1 = None) as -> by (rewrite write_attrs_none in Ea; by injection Ea).
  destruct (write_extras_none (o_ver o) (s_leaf x)) as [Hes _]. destruct (write_extras _ _ None) as [es m2]. cbn [snd] in Hes. subst m2.
  destruct (wmapr _ _ None) as [[vs m3]| | |] eqn:E1; try done. cbn [result_bind].
  assert (m3 = None /\ forall z, z ∈ s_vls x -> exists w, w ∈ vs /\ write_vl o z None = Ok (w, None)) as [-> V].
  { clear -E1 Hv. revert vs m3 E1. induction (s_vls x) as [|z zs IH]; cbn [wmapr]; intros vs m3 E1; [injection E1 as <- <-; split; [done|]; intros z Hz; by apply elem_of_nil in Hz|].
    destruct (write_vl o z None) as [[w m1]| | |] eqn:Ez; try done. cbn [result_bind] in E1. destruct (vl_said _ _ _ _ _ (Hv z (elem_of_list_here _ _)) Ez) as [-> _].
    destruct (wmapr _ zs None) as [[ws m2]| | |] eqn:Ew; try done. cbn [result_bind] in E1. injection E1 as <- <-. destruct (IH (fun z' Hz' => Hv z' (elem_of_list_further _ _ _ Hz')) _ _ eq_refl) as [-> I]. split; [done|].
    intros z' [-> |Hz']%elem_of_cons; [exists w; split; [left|done]|]. destruct (I z' Hz') as (w' & Hw' & E'). exists w'. split; [by right|done]. }
  destruct (wmapr _ (s_twts x) None) as [[ts m4]| | |] eqn:E2; try done. cbn [result_bind]. destruct (leaves_said _ _ _ _ E2) as [-> T]. destruct (wmapr _ (s_thwts x) None) as [[us m5]| | |] eqn:E3; try done. cbn [result_bind]. intros [= <- <-].
  destruct (leaves_said _ _ _ _ E3) as [-> U]. split; [done|]. unfold sub_leaves. intros l [-> |[Hl|[Hl|Hl]%elem_of_app]%elem_of_app]%elem_of_cons; unfold elem.
  - pose proof (head_said o (s_leaf x) (or_introl Ecl) []) as H. rewrite Ea, app_nil_r in H. rewrite Ecl in H. apply H. intros z Hz. by apply elem_of_nil in Hz.
  - apply elem_of_list_join in Hl as (ls & Hl & Hls). apply elem_of_list_fmap in Hls as (z & -> & Hz). destruct (V z Hz) as (w & Hw & Ew). destruct (vl_said _ _ _ _ _ (Hv z Hz) Ew) as [_ S]. eapply said_in; [|exact (S l Hl)]. rewrite !elem_of_app. auto.
  - destruct (T l Hl) as (z & Hz & S). eapply said_in; [|exact S]. rewrite !elem_of_app. auto.
  - destruct (U l Hl) as (z & Hz & S). eapply said_in; [|exact S]. rewrite !elem_of_app. auto.
Qed.
Lemma network_said o n y m : net_valid false (o_ver o) n -> write_network o false n = Ok (y, m) -> m = None /\ forall l, l ∈ mjoin (sub_leaves <$> n_subs n) ++ n_lines n ++ n_hvdcs n -> said (o_ver o) l y.
Proof.
  intros (_ & Hs & _). rewrite Forall_forall in Hs. unfold write_network. destruct (write_fields_none (o_ver o) (schema CNetwork) (l_fields (n_leaf n))) as [Hf _]. destruct (write_fields _ _ _ _) as [fs m1]. cbn [snd] in Hf. subst m1. destruct (_ && _); [done|].
  destruct (wmap_none (write_alias (o_ver o)) (map_to_list (l_aliases (n_leaf n)))) as [Ha _]; [done|]. destruct (wmap _ _ None) as [als m2]. cbn [snd] in Ha. subst m2.
  destruct (wmapr _ _ None) as [[ss m3]| | |] eqn:E1; try done. cbn [result_bind].
  assert (m3 = None /\ forall z, z ∈ n_subs n -> exists w, w ∈ ss /\ write_sub o z None = Ok (w, None)) as [-> V].
  { clear -E1 Hs. revert ss m3 E1. induction (n_subs n) as [|z zs IH]; cbn [wmapr]; intros vs m3 E1; [injection E1 as <- <-; split; [done|]; intros z Hz; by apply elem_of_nil in Hz|].
    destruct (write_sub o z None) as [[w m1]| | |] eqn:Ez; try done. cbn [result_bind] in E1. destruct (sub_said _ _ _ _ _ (Hs z (elem_of_list_here _ _)) Ez) as [-> _].
    destruct (wmapr _ zs None) as [[ws m2]| | |] eqn:Ew; try done. cbn [result_bind] in E1. injection E1 as <- <-. destruct (IH (fun z' Hz' => Hs z' (elem_of_list_further _ _ _ Hz')) _ _ eq_refl) as [-> I]. split; [done|].
    intros z' [-> |Hz']%elem_of_cons; [exists w; split; [left|done]|]. destruct (I z' Hz') as (w' & Hw' & E'). exists w'. split; [by right|done]. }
  destruct (wmapr _ (n_lines n) None) as [[ls m4]| | |] eqn:E2; try done. cbn [result_bind]. destruct (leaves_said _ _ _ _ E2) as [-> T]. destruct (wmapr _ (n_hvdcs n) None) as [[hs m5]| | |] eqn:E3; try done. cbn [result_bind]. intros [= <- <-].
  destruct (leaves_said _ _ _ _ E3) as [-> U]. split; [done|]. intros l [Hl|[Hl|Hl]%elem_of_app]%elem_of_app; unfold elem.
  - apply elem_of_list_join in Hl as (l' & Hl & Hls). apply elem_of_list_fmap in Hls as (z & -> & Hz). destruct (V z Hz) as (w & Hw & Ew). destruct (sub_said _ _ _ _ _ (Hs z Hz) Ew) as [_ S]. eapply said_in; [|exact (S l Hl)]. rewrite !elem_of_app. auto.
  - destruct (T l Hl) as (z & Hz & S). eapply said_in; [|exact S]. rewrite !elem_of_app. auto.
  - destruct (U l Hl) as (z & Hz & S). eapply said_in; [|exact S]. rewrite !elem_of_app. auto.
Qed.
