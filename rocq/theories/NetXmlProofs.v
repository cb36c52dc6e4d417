From Verif Require Import Xml XmlSpec XmlProofs Anonymizer AnonymizerProofs NetXml NetXmlSpec NetXmlFields NetXmlParts NetXmlLeaf.

Section anonymized.
Context (a : bool) (o : opts).
Notation v := (o_ver o).
Notation winv := (winv a).
Notation grows := (grows a).
(** * Objects. *)
Definition names (l : leaf) : list string := l_id l :: (map_to_list (degrade_aliases v l)).*1.
Definition fits (N R : list string) (idx : gset string) : Prop := NoDup N /\ (forall n, n ∈ N -> n ∉ idx) /\ (forall r, r ∈ R -> r ∈ idx).
(** Either the export throws or nothing the reader refuses is written. *)
Definition mild (l : leaf) : Prop := o_throwing o = true \/ leaf_readable o l.
Definition leaf_ok' (k : cls) (l : leaf) : Prop :=
  leaf_ok a k l /\ mild l /\ (k = CBus -> l_props l = ∅ /\ (older v 3 = false -> l_aliases l = ∅)).
Lemma bus_extras l m es m' : l_props l = ∅ -> (older v 3 = false -> l_aliases l = ∅) -> write_extras v l m = (es, m') -> es = [].
Proof.
  intros P A E. unfold write_extras in E. rewrite P, map_to_list_empty, run_from_older in E. change (number V1_3) with 3 in E. destruct (older v 3); cbn in E; [by injection E as <- <-|].
  rewrite (A eq_refl), map_to_list_empty in E. cbn in E. by injection E as <- <-.
Qed.
Lemma names_set l idx : list_to_set (map_to_list (degrade_aliases v l)).*1 ∪ ({[l_id l]} ∪ idx) = list_to_set (names l) ∪ idx :> gset string.
Proof. unfold names. cbn [list_to_set]. generalize (list_to_set (map_to_list (degrade_aliases v l)).*1 : gset string). intros X. clear. set_solver. Qed.
Lemma fits_id l R idx : fits (names l) R idx -> l_id l ∉ idx.
Proof. intros (_ & F & _). apply F. left. Qed.
Lemma fits_aliases l R idx : fits (names l) R idx -> forall s, s ∈ (map_to_list (degrade_aliases v l)).*1 -> s ∉ ({[l_id l]} ∪ idx : gset string).
Proof.
  intros (N & F & _) s Hs. apply NoDup_cons in N as [N _]. rewrite not_elem_of_union, not_elem_of_singleton. split; [|apply F; by right]. intros ->. by apply N.
Qed.
Lemma events_children n al cs : length (mjoin (events <$> cs)) <= length (events (elem n al cs)).
Proof. unfold elem. destruct cs as [|c cs]; [cbn; lia|]. rewrite events_elem. cbn [length]. rewrite app_length. cbn. lia. Qed.
Lemma mjoin_events_app xs ys : length (mjoin (events <$> xs ++ ys)) = length (mjoin (events <$> xs)) + length (mjoin (events <$> ys)).
Proof. by rewrite fmap_app, mjoin_app, app_length. Qed.
Lemma eats_all_embed {S1 S2 : Type} (emb : S1 -> S2) h1 h2 name cs s s' : Forall extra_name cs ->
  (forall c s rest, extra_name c -> h2 (emb s) (events c ++ rest) = letp! (s', c') := h1 s (events c ++ rest) in Ok (emb s', c')) ->
  eats_all h1 name s cs s' -> eats_all h2 name (emb s) cs (emb s').
Proof. intros F H. apply eats_embed. intros c s0 rest Hc. apply H. rewrite Forall_forall in F. by apply F. Qed.
Lemma wire_doc_ok k l : leaf_ok a k l -> doc_ok a v k (wire o l).
Proof. intros K. destruct (back a o k l K) as (F & _). destruct K as (Ek & Ni & _ & B & U & _). split; [done|]. split; [done|]. split; [done|]. split; [exact B|exact U]. Qed.
Lemma wire_parts_ok k l : leaf_ok a k l -> forall key p, wire_parts v l !! key = Some p -> part_ok a p.
Proof.
  intros K key p Hp. pose proof (proj1 K) as Ek.
  assert (W : forall q, part_ok a q -> part_ok a (wire_part v q)).
  { intros [kd fs cs] (Kf & Kc & D). unfold wire_part. cbn [p_kind p_fields p_children] in *. destruct kd; try done; (destruct fs as [|? [|? [|db ?]]]; try done); (split; [|by split]); cbn [p_kind p_fields].
    all: do 2 (apply Forall2_cons_1 in Kf as [? Kf]; constructor; [done|]); apply Forall2_cons_1 in Kf as [? Kf]; constructor; [by destruct (_ && _)|done]. }
  assert (Q : wire_parts v l !! key = wire_part v <$> l_parts l !! key -> part_ok a p).
  { intros E. rewrite E in Hp. destruct (l_parts l !! key) as [q|] eqn:Eq; [|done]. injection Hp as <-. apply W. destruct K as (_ & _ & _ & _ & _ & Kp). by destruct (Kp key q Eq) as [? _]. }
  destruct (decide (l_cls l = CShunt /\ key = "model")) as [[Ec ->]|N]; cycle 1.
  { apply Q, wire_parts_lookup. left. intros Ec Ek'. by apply N. }
  rewrite Ek in Ec. subst k. destruct (l_parts l !! "model") as [q|] eqn:Eq; [apply Q; rewrite <- Eq; apply wire_parts_lookup; right; by rewrite Eq|]. clear Q.
  rewrite Ec in K. destruct (shunt_fields a l K) as (b & g & mx & n & on & tv & td & fs & Ef & T & M). rewrite Eq in M. unfold wire_parts in Hp. rewrite Ec, Ef, Eq, lookup_insert in Hp. injection Hp as <-.
  split; [exact M|]. split; [by intros ? ? ?%elem_of_nil|done].
Qed.
Lemma assert_table k key : key ∈ since_1_1 k -> exists s, s ∈ slots k /\ sl_key s = key /\ sl_assert s = V1_1.
Proof.
  assert (H : forallb (fun k => forallb (fun key => existsb (fun s => bool_decide (sl_key s = key /\ sl_assert s = V1_1)) (slots k)) (since_1_1 k)) all_classes = true) by (vm_compute; reflexivity).
  intros Hk. apply (forallb_elem _ _ k) in H; [|apply all_cls]. apply (forallb_elem _ _ key) in H; [|done]. apply existsb_exists in H as (s & Hs & E). apply bool_decide_eq_true in E as [? ?]. exists s. split; [by apply elem_of_list_In|done].
Qed.
Lemma supported_readable l : unsupported v l = false -> leaf_readable o l.
Proof.
  intros U O1 key Hk. apply orb_false_iff in U as [U _]. destruct (assert_table _ _ Hk) as (s & Hs & <- & Ha). destruct (l_parts l !! sl_key s) as [p|] eqn:E; [|done]. exfalso.
  assert (X : existsb (fun s => ver_lt v (sl_assert s) && bool_decide (is_Some (l_parts l !! sl_key s))) (slots (l_cls l)) = true); [|by rewrite X in U].
  apply existsb_exists. exists s. split; [by apply elem_of_list_In|]. rewrite Ha, ver_lt_older. change (number V1_1) with 1. rewrite O1, E. done.
Qed.
Definition reads_leaf (mf : option mapping) (k : cls) (l : leaf) (x : xml) : Prop :=
  named (tag k) x /\ forall fuel idx rest, fits (names l) (leaf_refs l) idx -> length (events x) <= fuel ->
  read_leaf fuel v mf k idx (events x ++ rest) = Ok (degrade_leaf o l, list_to_set (names l) ∪ idx, end_of x :: rest).
Lemma sub_element_extra fuel mf k y l idx rest : l_cls l = k -> extra_name y -> read_sub_element fuel v mf (l, idx) (events y ++ rest) = read_extra v mf (l, idx) (events y ++ rest).
Proof.
  intros El (n & al & e & cs & -> & Hn). unfold read_sub_element. rewrite (local_named n) by (do 3 eexists; done). cbn [result_bind fst]. rewrite El. destruct (slots_tbl k) as (_ & _ & Z1 & Z2).
  by destruct Hn as [-> | ->]; rewrite ?Z1, ?Z2.
Qed.
(** Extras keep the class. *)
Lemma read_extra_cls mf l idx c l' idx' c' : read_extra v mf (l, idx) c = Ok (l', idx', c') -> l_cls l' = l_cls l.
Proof.
  unfold read_extra. destruct (local_name c); try done. cbn [result_bind]. destruct (String.eqb _ "property").
  - unfold read_prop. destruct (attr_value c "name"); try done. cbn [result_bind]. destruct (attr_value c "value"); try done. cbn [result_bind fst snd]. by intros [= <- <- <-].
  - destruct (String.eqb _ "alias"); [|done]. unfold read_alias. destruct (ver_lt v V1_3); [done|]. destruct (if run_from V1_4 v then _ else _); try done. cbn [result_bind]. destruct (read_characters c) as [[]| | |]; try done. cbn [result_bind].
    destruct (dean mf _); try done. cbn [result_bind fst snd]. unfold add_alias. destruct (_ && _); [done|]. destruct (bool_decide _); [destruct (_ || _); [|done]|]; cbn [result_bind]; by intros [= <- <- <-].
Qed.
Lemma extras_sub fuel mf k name s cs s' : Forall extra_name cs -> l_cls s.1 = k -> eats_all (read_extra v mf) name s cs s' -> eats_all (read_sub_element fuel v mf) name s cs s'.
Proof.
  intros F El H. induction H as [|s c s1 cs s2 [E Hc] _ IH]; [constructor|]. inversion_clear F as [|? ? Nc F']. destruct s as [l idx]. cbn [fst] in El.
  assert (Hc' : forall rest, exists pre e l', events c = pre ++ e :: l' /\ quiet name l' /\ read_sub_element fuel v mf (l, idx) (events c ++ rest) = Ok (s1, e :: l' ++ rest)).
  { intros rest. destruct (Hc rest) as (pre & e & l' & ? & ? & Hh). exists pre, e, l'. split; [done|]. split; [done|]. by rewrite (sub_element_extra fuel mf k). }
  econstructor; [by split|]. apply IH; [done|]. destruct (Hc []) as (pre & e & l' & _ & _ & Hh). destruct s1 as [l1 idx1]. cbn [fst]. by rewrite (read_extra_cls _ _ _ _ _ _ _ Hh).
Qed.
Lemma write_leaf_ok k l m x m' : leaf_ok' k l -> winv m -> write_leaf o l m = Ok (x, m') -> grows m m' /\ forall mf, available m' mf -> reads_leaf mf k l x.
Proof.
  intros (K & Ml & Kb) W E. unfold write_leaf in E. destruct (o_throwing o && unsupported v l) eqn:U; [done|].
  assert (Rd : leaf_readable o l). { destruct Ml as [Ht|Ml]; [|done]. rewrite Ht in U. by apply supported_readable. } clear U Ml.
  injection E as E. unfold write_doc in E. pose proof (wire_doc_ok k l K) as D. pose proof (proj1 K) as Ek.
  destruct (write_attrs v (wire o l) m) as [al m1] eqn:E1. destruct (write_extras v (wire o l) m1) as [es m2] eqn:E2.
  destruct (write_parts v (l_cls (wire o l)) (l_parts (wire o l)) m2) as [ps m3] eqn:E3. injection E as <- <-. cbn [wire with_parts with_fields l_cls l_parts] in E3. rewrite Ek in E3.
  destruct (attrs_ok a v k _ m al m1 D W E1) as [G1 R1]. destruct (extras_ok a v k _ m1 es m2 D (proj1 G1) E2) as [G2 R2].
  destruct (write_parts_ok a v k _ m2 ps m3 (wire_parts_ok k l K) (proj1 G2) E3) as [G3 R3].
  split; [eapply grows_trans; [exact G1|eapply grows_trans; [exact G2|exact G3]]|]. intros mf Hm3. assert (Hm2 : available m2 mf) by (by apply G3). assert (Hm1 : available m1 mf) by (by apply G2).
  destruct (R2 mf Hm2) as [Nx R2']. specialize (R3 mf Hm3). change (l_cls (wire o l)) with (l_cls l). rewrite Ek.
  split; [do 3 eexists; done|]. intros fuel idx rest Fi L. unfold read_leaf.
  assert (exists e more, events (elem (tag k) al (es ++ ps)) ++ rest = EStart (tag k) al e :: more) as (e & more & Ev) by (unfold elem; destruct (es ++ ps); do 2 eexists; reflexivity).
  destruct (back a o k l K) as (_ & Rf & _).
  rewrite Ev. destruct (R1 mf Hm1 (tag k) e [] more idx) as [R _]; [by intros q ?%elem_of_nil|unfold doc_refs; change (l_cls (wire o l)) with (l_cls l); rewrite Ek, Rf; apply Fi|by eapply fits_id|].
  rewrite app_nil_r in R. rewrite R. cbn [result_bind]. rewrite <- Ev. change (l_id (wire o l)) with (l_id l).
  specialize (R2' (until_name k) ({[l_id l]} ∪ idx)). change (degrade_aliases v (wire o l)) with (degrade_aliases v l) in R2'. rewrite names_set in R2'.
  specialize (R3 fuel (until_name k) (doc_head v (wire o l)) (list_to_set (names l) ∪ idx) Ek eq_refl (slots_readable a o k l K Rd)).
  pose proof (events_children (tag k) al (es ++ ps)) as L'. rewrite mjoin_events_app in L'.
  assert (SS : eats_all (read_sub_element fuel v mf) (until_name k) (head_of v (wire o l), {[l_id l]} ∪ idx) (es ++ ps) (doc_leaf o (wire o l), list_to_set (names l) ∪ idx)).
  { eapply eats_app; [apply (extras_sub fuel mf k); [done|exact Ek|apply R2'; [by destruct k|by eapply fits_aliases]]|]. unfold doc_leaf. change (l_cls (wire o l)) with (l_cls l). rewrite Ek. apply R3. lia. }
  destruct (decide (k = CBus)) as [Z|Z].
  - destruct (Kb Z) as [Pb Ab]. assert (es = []) as -> by (by eapply bus_extras; [..|exact E2]). assert (ps = []) as -> by (rewrite Z in E3; cbn in E3; by injection E3 as <- <-). cbn [app elem] in *.
    apply eats_nil_inv in SS. unfold elem. rewrite read_until_empty. cbn [result_bind]. rewrite SS. cbn [fst snd]. rewrite (unwire_ok a o k l K). done.
  - assert (Eu : until_name k = tag k) by (by destruct k). rewrite Eu in *. destruct (read_until_eats _ (tag k) al _ _ _ rest fuel SS) as [text T]; [lia|]. rewrite T. cbn [result_bind fst snd]. by rewrite (unwire_ok a o k l K).
Qed.
(** Voltage levels and substations have no parts. *)
Lemma plain_head k l : leaf_ok a k l -> special k = false -> slots k = [] -> doc_ok a v k l /\ doc_head v l = degrade_leaf o l /\ doc_refs v l = leaf_refs l.
Proof.
  intros K S Z. pose proof (fields_typed a k l K ltac:(by intros ->)) as T. destruct K as (Ek & Ni & _ & B & U & Kp).
  assert (Ed : doc_fields v l = l_fields l). { unfold doc_fields. rewrite Ek. apply full_doc; [by apply plain_full|by eapply Forall2_length]. }
  assert (Ep : degrade_parts v l = ∅). { apply map_eq. intros key. rewrite lookup_empty. apply degrade_parts_none. destruct (l_parts l !! key) as [p|] eqn:E; [|done]. destruct (Kp key p E) as (_ & s & Hs & _). rewrite Z in Hs. by apply elem_of_nil in Hs. }
  assert (Eg : degrade_fields o l = l_fields l) by (unfold degrade_fields; rewrite Ek; by destruct k).
  split; [split; [done|]; split; [done|]; split; [by apply typed_doc|by split]|]. split; [unfold doc_head, degrade_leaf; by rewrite Ed, Ep, Eg|]. unfold doc_refs. by rewrite Ed.
Qed.

(** * Sequences of objects. *)
Lemma swap_union (A B C : gset string) : A ∪ B ∪ C = B ∪ (A ∪ C).
Proof. set_solver. Qed.
Section seq.
  Context {A S : Type} (h : S * gset string -> cursor -> result ((S * gset string) * cursor)) (name : string) (fuel : nat) (N R : A -> list string) (add : S -> A -> S).
  Definition reads (x : A) (y : xml) : Prop := forall s idx, fits (N x) (R x) idx -> length (events y) <= fuel -> eats h name (s, idx) y (add s x, list_to_set (N x) ∪ idx).
  Lemma seq_read l ys : Forall2 reads l ys -> forall s idx, fits (mjoin (N <$> l)) (mjoin (R <$> l)) idx -> length (mjoin (events <$> ys)) <= fuel ->
    eats_all h name (s, idx) ys (foldl add s l, list_to_set (mjoin (N <$> l)) ∪ idx).
  Proof.
    induction 1 as [|x y l ys H F IH]; intros s idx (Nd & Fr & Rf) L.
    - cbn. rewrite (left_id_L ∅ _). constructor.
    - change (mjoin (events <$> y :: ys)) with (events y ++ mjoin (events <$> ys)) in L. rewrite app_length in L.
      change (mjoin (N <$> x :: l)) with (N x ++ mjoin (N <$> l)) in *. change (mjoin (R <$> x :: l)) with (R x ++ mjoin (R <$> l)) in *.
      apply NoDup_app in Nd as (N1 & N2 & N3). eapply eats_cons; [apply H; [split; [done|split]|lia]|].
      + intros n Hn. apply Fr. apply elem_of_app. by left.
      + intros r Hr. apply Rf. apply elem_of_app. by left.
      + cbn [foldl]. rewrite list_to_set_app_L, swap_union. apply IH; [split; [done|split]|lia].
        * intros n Hn. rewrite not_elem_of_union, elem_of_list_to_set. split; [intros X; by apply (N2 n)|]. apply Fr. apply elem_of_app. by right.
        * intros r Hr. apply elem_of_union_r. apply Rf. apply elem_of_app. by right.
  Qed.
End seq.
Lemma rot_union (A B C D : gset string) : A ∪ (B ∪ C) ∪ D = C ∪ (B ∪ (A ∪ D)).
Proof. set_solver. Qed.
Lemma rot4 (A B C D E : gset string) : A ∪ (B ∪ (C ∪ D)) ∪ E = D ∪ (C ∪ (B ∪ (A ∪ E))).
Proof. set_solver. Qed.
(** Reading objects into a voltage level. *)
Lemma reads_into mf k l x add h name fuel : reads_leaf mf k l x ->
  (forall s rest, h s (events x ++ rest) = read_into add fuel v mf k s (events x ++ rest)) ->
  reads h name fuel (names) leaf_refs (fun s l => add s (degrade_leaf o l)) l x.
Proof.
  intros [(al & e & cs & ->) R] H s idx Fi L. apply eats_whole; [done|]. intros rest. rewrite H. unfold read_into. cbn [fst snd]. rewrite (R fuel idx rest Fi L). done.
Qed.

(** * Voltage levels. *)
Definition refers (d : fdesc) : bool := match fd_r d with RRef | RAnon | RAnonOpt => true | _ => false end.
Lemma no_refs k l : l_cls l = k -> forallb (fun d => negb (refers d)) (schema k) = true -> leaf_refs l = [].
Proof.
  intros <-. unfold leaf_refs, refs. generalize (l_fields l). induction (schema (l_cls l)) as [|d ds IH]; intros [|x xs] H; try done.
  cbn [forallb] in H. apply andb_true_iff in H as [H1 H2]. cbn [zip_with]. change (mjoin (field_ref d x :: zip_with field_ref ds xs)) with (field_ref d x ++ mjoin (zip_with field_ref ds xs)).
  rewrite IH by done. unfold field_ref, refers in *. by destruct (fd_r d).
Qed.
Lemma no_refs_all k ls : Forall (fun l => l_cls l = k) ls -> forallb (fun d => negb (refers d)) (schema k) = true -> mjoin (leaf_refs <$> ls) = [].
Proof.
  intros F H. induction F as [|l ls Hl F IH]; [done|]. change (mjoin (leaf_refs <$> l :: ls)) with (leaf_refs l ++ mjoin (leaf_refs <$> ls)).
  by rewrite IH, (no_refs k l).
Qed.
Lemma in_mjoin {A B} (f : A -> list B) (ls : list A) y : y ∈ mjoin (f <$> ls) <-> exists x, x ∈ ls /\ y ∈ f x.
Proof.
  rewrite elem_of_list_join. split.
  - intros (l & Hy & Hl). apply elem_of_list_fmap in Hl as (x & -> & Hx). by exists x.
  - intros (x & Hx & Hy). exists (f x). split; [done|]. by apply elem_of_list_fmap_1.
Qed.
Lemma ids_in_names ls : forall r, r ∈ map l_id ls -> r ∈ mjoin (names <$> ls).
Proof. intros r Hr. apply in_mjoin. apply elem_of_list_fmap in Hr as (l & -> & Hl). exists l. split; [done|]. left. Qed.
Lemma fits_app N1 N2 R1 R2 idx : fits (N1 ++ N2) R1 idx -> (forall r, r ∈ R2 -> r ∈ N1) -> fits N1 R1 idx /\ fits N2 R2 (list_to_set N1 ∪ idx).
Proof.
  intros (Nd & Fr & Rf) H. apply NoDup_app in Nd as (D1 & D2 & D3). split; (split; [done|split]).
  - intros n Hn. apply Fr. apply elem_of_app. by left.
  - done.
  - intros n Hn. rewrite not_elem_of_union, elem_of_list_to_set. split; [intros X; by apply (D2 n)|]. apply Fr. apply elem_of_app. by right.
  - intros r Hr. apply elem_of_union_l, elem_of_list_to_set. by apply H.
Qed.
Lemma fits_more N R R' idx : fits N R idx -> (forall r, r ∈ R' -> r ∈ idx) -> fits N R' idx.
Proof. intros (H1 & H2 & _) H. split; [done|]. by split. Qed.
Lemma fold_buses ls s : foldl (fun s l => add_bus s (degrade_leaf o l)) s ls = VLevel (v_leaf s) (v_nb s) (v_buses s ++ (degrade_leaf o <$> ls)) (v_sections s) (v_switches s) (v_ics s) (v_eqs s).
Proof. revert s. induction ls as [|l ls IH]; intros s; cbn [foldl]; [destruct s; cbn; by rewrite app_nil_r|]. rewrite IH. cbn. by rewrite <- app_assoc. Qed.
Lemma fold_sections ls s : foldl (fun s l => add_section s (degrade_leaf o l)) s ls = VLevel (v_leaf s) (v_nb s) (v_buses s) (v_sections s ++ (degrade_leaf o <$> ls)) (v_switches s) (v_ics s) (v_eqs s).
Proof. revert s. induction ls as [|l ls IH]; intros s; cbn [foldl]; [destruct s; cbn; by rewrite app_nil_r|]. rewrite IH. cbn. by rewrite <- app_assoc. Qed.
Lemma fold_switches ls s : foldl (fun s l => add_switch s (degrade_leaf o l)) s ls = VLevel (v_leaf s) (v_nb s) (v_buses s) (v_sections s) (v_switches s ++ (degrade_leaf o <$> ls)) (v_ics s) (v_eqs s).
Proof. revert s. induction ls as [|l ls IH]; intros s; cbn [foldl]; [destruct s; cbn; by rewrite app_nil_r|]. rewrite IH. cbn. by rewrite <- app_assoc. Qed.
Lemma fold_eqs ls s : foldl (fun s l => add_eq s (degrade_leaf o l)) s ls = VLevel (v_leaf s) (v_nb s) (v_buses s) (v_sections s) (v_switches s) (v_ics s) (v_eqs s ++ (degrade_leaf o <$> ls)).
Proof. revert s. induction ls as [|l ls IH]; intros s; cbn [foldl]; [destruct s; cbn; by rewrite app_nil_r|]. rewrite IH. cbn. by rewrite <- app_assoc. Qed.
Lemma fold_ics ps s : foldl add_ic s ps = VLevel (v_leaf s) (v_nb s) (v_buses s) (v_sections s) (v_switches s) (v_ics s ++ ps) (v_eqs s).
Proof. revert s. induction ps as [|p ps IH]; intros s; cbn [foldl]; [destruct s; cbn; by rewrite app_nil_r|]. rewrite IH. cbn. by rewrite <- app_assoc. Qed.
Lemma ics_read fuel mf name ps s idx : eats_all (node_topology_handler fuel v mf) name (s, idx) (map write_ic ps) (foldl add_ic s ps, idx).
Proof.
  revert s. induction ps as [|[n1 n2] ps IH]; intros s; [constructor|]. cbn [map foldl]. eapply eats_cons; [|apply IH]. apply eats_whole; done.
Qed.
Lemma leaf_ok_plain k l : k <> CBus -> mild l -> leaf_ok a k l -> leaf_ok' k l. Proof. intros N M K. split; [done|]. by split. Qed.
Lemma leaves_ok_plain k ls : k <> CBus -> (forall l, l ∈ ls -> mild l) -> Forall (leaf_ok a k) ls -> Forall (leaf_ok' k) ls.
Proof. intros N M K. rewrite Forall_forall in *. intros l Hl. apply leaf_ok_plain; [done|by apply M|by apply K]. Qed.
Lemma write_leaves_ok k ls m xs m' : Forall (leaf_ok' k) ls -> winv m -> wmapr (write_leaf o) ls m = Ok (xs, m') ->
  grows m m' /\ forall mf, available m' mf -> Forall2 (reads_leaf mf k) ls xs.
Proof. apply (wmapr_ok a (leaf_ok' k) (fun mf => reads_leaf mf k)). intros. by eapply write_leaf_ok. Qed.
Lemma write_bus_switches_ok all ls m xs m' : Forall (leaf_ok' CBusSwitch) ls -> winv m -> wmapr (write_bus_switch o all) ls m = Ok (xs, m') ->
  grows m m' /\ forall mf, available m' mf -> Forall2 (reads_leaf mf CBusSwitch) ls xs.
Proof.
  apply (wmapr_ok a (leaf_ok' CBusSwitch) (fun mf => reads_leaf mf CBusSwitch)). intros l m0 y m1 K W E. unfold write_bus_switch in E. destruct (anon (l_id l) m0) as [c m2] eqn:A.
  destruct (anon_ok a _ _ _ _ W A) as (G & _). destruct (existsb _ all); [|done]. destruct (write_leaf_ok _ l m2 y m1 K (proj1 G) E) as [G2 R]. split; [by eapply grows_trans|done].
Qed.
Definition topology_names (x : vlevel) : list string := mjoin (names <$> v_buses x ++ v_sections x ++ v_switches x).
Definition topology_tag (nb : bool) : string := if nb then "nodeBreakerTopology" else "busBreakerTopology".
Lemma reads_leaves mf k ls xs add h name fuel : Forall2 (reads_leaf mf k) ls xs ->
  (forall x s rest, named (tag k) x -> h s (events x ++ rest) = read_into add fuel v mf k s (events x ++ rest)) ->
  Forall2 (reads h name fuel (names) leaf_refs (fun s l => add s (degrade_leaf o l))) ls xs.
Proof. intros F H. induction F as [|l x ls xs Hl F IH]; constructor; [|done]. eapply reads_into; [done|]. intros s rest. apply H. by destruct Hl. Qed.
Definition vl_mild (x : vlevel) : Prop := forall l, l ∈ vl_leaves x -> mild l.
Lemma vl_parts_mild x : vl_mild x -> (forall l, l ∈ v_buses x -> mild l) /\ (forall l, l ∈ v_sections x -> mild l) /\ (forall l, l ∈ v_switches x -> mild l) /\ (forall l, l ∈ v_eqs x -> mild l).
Proof. intros H. unfold vl_mild, vl_leaves in H. repeat split; intros l Hl; apply H; right; rewrite !elem_of_app; tauto. Qed.
Lemma topology_ok x m t m' : vl_ok a v x -> vl_mild x -> winv m -> write_topology o x m = Ok (t, m') ->
  grows m m' /\ forall mf, available m' mf -> named (topology_tag (v_nb x)) t /\ forall fuel idx l name, fits (topology_names x) [] idx -> length (events t) <= fuel ->
  eats (vl_handler fuel v mf) name (VLevel l (v_nb x) [] [] [] [] [], idx) t
    (VLevel l (v_nb x) (degrade_leaf o <$> v_buses x) (degrade_leaf o <$> v_sections x) (degrade_leaf o <$> v_switches x) (v_ics x) [], list_to_set (topology_names x) ∪ idx).
Proof.
  intros (_ & K & _ & _ & Rf) Ml W E. destruct (vl_parts_mild x Ml) as (Mb & Ms & Mw & _). unfold write_topology in E. destruct (v_nb x) eqn:Nb.
  - destruct K as (Eb & Ks & Kw). destruct (wmapr (write_leaf o) (v_sections x) m) as [[xs m1]| | |] eqn:E1; try done. cbn [result_bind] in E. destruct (wmapr (write_leaf o) (v_switches x) m1) as [[ys m2]| | |] eqn:E2; try done. cbn [result_bind] in E. injection E as <- <-.
    destruct (write_leaves_ok CBusbarSection _ _ _ _ (leaves_ok_plain CBusbarSection _ ltac:(done) Ms Ks) W E1) as [G1 R1].
    destruct (write_leaves_ok CNodeSwitch _ _ _ _ (leaves_ok_plain CNodeSwitch _ ltac:(done) Mw Kw) (proj1 G1) E2) as [G2 R2].
    split; [by eapply grows_trans|]. intros mf Hm. specialize (R1 mf (proj2 G2 mf Hm)). specialize (R2 mf Hm). split; [do 3 eexists; done|].
    intros fuel idx l name Fi L. pose proof (events_children "nodeBreakerTopology" [] (xs ++ ys ++ map write_ic (v_ics x))) as L'. rewrite !mjoin_events_app in L'.
    apply eats_whole; [done|]. intros rest. unfold vl_handler. rewrite (local_named "nodeBreakerTopology") by (do 3 eexists; done). cbn [result_bind]. rewrite String.eqb_refl. cbn [fst v_nb].
    unfold topology_names in *. rewrite Eb in *. cbn [app] in *. rewrite fmap_app, mjoin_app in *.
    assert (Z1 : mjoin (leaf_refs <$> v_sections x) = []) by (apply (no_refs_all CBusbarSection); [|done]; eapply Forall_impl; [exact Ks|by intros ? [? _]]).
    assert (Z2 : mjoin (leaf_refs <$> v_switches x) = []) by (apply (no_refs_all CNodeSwitch); [|done]; eapply Forall_impl; [exact Kw|by intros ? [? _]]).
    destruct (fits_app _ _ _ [] idx Fi) as [F1 F2]; [by intros r ?%elem_of_nil|]. rewrite <- Z1 in F1. rewrite <- Z2 in F2.
    assert (H1 : Forall2 (reads (node_topology_handler fuel v mf) "nodeBreakerTopology" fuel (names) leaf_refs (fun s l => add_section s (degrade_leaf o l))) (v_sections x) xs).
    { eapply reads_leaves; [exact R1|]. intros y s rest' Hy. unfold node_topology_handler. rewrite (local_named _ _ _ Hy). done. }
    assert (H2 : Forall2 (reads (node_topology_handler fuel v mf) "nodeBreakerTopology" fuel (names) leaf_refs (fun s l => add_switch s (degrade_leaf o l))) (v_switches x) ys).
    { eapply reads_leaves; [exact R2|]. intros y s rest' Hy. unfold node_topology_handler. rewrite (local_named _ _ _ Hy). done. }
    pose proof (seq_read _ _ _ _ _ _ _ _ H1 (VLevel l true [] [] [] [] []) idx F1 ltac:(lia)) as S1. rewrite fold_sections in S1. cbn in S1.
    match type of S1 with eats_all _ _ _ _ (?s, _) => pose proof (seq_read _ _ _ _ _ _ _ _ H2 s _ F2 ltac:(lia)) as S2 end. rewrite fold_switches in S2. cbn in S2.
    match type of S2 with eats_all _ _ _ _ (?s, ?i) => pose proof (ics_read fuel mf "nodeBreakerTopology" (v_ics x) s i) as S3 end. rewrite fold_ics in S3. cbn in S3.
    pose proof (eats_app _ _ _ _ _ _ _ S1 (eats_app _ _ _ _ _ _ _ S2 S3)) as SS.
    destruct (read_until_eats _ "nodeBreakerTopology" [] _ _ _ rest fuel SS) as [text T]; [lia|]. rewrite T. cbn [result_bind]. rewrite list_to_set_app_L, swap_union. done.
  - destruct K as (Es & Ei & Kb & Kw). destruct (wmapr (write_leaf o) (v_buses x) m) as [[xs m1]| | |] eqn:E1; try done. cbn [result_bind] in E. destruct (wmapr (write_bus_switch o (v_switches x)) (v_switches x) m1) as [[ys m2]| | |] eqn:E2; try done. injection E as <- <-.
    assert (Kb' : Forall (leaf_ok' CBus) (v_buses x)) by (rewrite Forall_forall in *; intros l Hl; destruct (Kb l Hl) as (? & ? & ?); split; [done|]; split; [by apply Mb|done]).
    destruct (write_leaves_ok CBus _ _ _ _ Kb' W E1) as [G1 R1].
    destruct (write_bus_switches_ok _ _ _ _ _ (leaves_ok_plain CBusSwitch _ ltac:(done) Mw Kw) (proj1 G1) E2) as [G2 R2].
    split; [by eapply grows_trans|]. intros mf Hm. specialize (R1 mf (proj2 G2 mf Hm)). specialize (R2 mf Hm). split; [do 3 eexists; done|].
    intros fuel idx l name Fi L. pose proof (events_children "busBreakerTopology" [] (xs ++ ys)) as L'. rewrite !mjoin_events_app in L'.
    apply eats_whole; [done|]. intros rest. unfold vl_handler. rewrite (local_named "busBreakerTopology") by (do 3 eexists; done). cbn [result_bind].
    change (String.eqb "busBreakerTopology" "nodeBreakerTopology") with false. rewrite String.eqb_refl. cbn [fst v_nb].
    unfold topology_names in *. rewrite Es, Ei in *. cbn [app] in *. rewrite fmap_app, mjoin_app in *.
    assert (Z1 : mjoin (leaf_refs <$> v_buses x) = []) by (apply (no_refs_all CBus); [|done]; eapply Forall_impl; [exact Kb|by intros ? [[? _] _]]).
    destruct (fits_app _ _ _ (mjoin (leaf_refs <$> v_switches x)) idx Fi) as [F1 F2].
    { intros r Hr. apply in_mjoin in Hr as (w & Hw & Hr). apply ids_in_names. apply (Rf w r); [|done]. apply elem_of_app. by left. } rewrite <- Z1 in F1.
    assert (H1 : Forall2 (reads (bus_topology_handler fuel v mf) "busBreakerTopology" fuel (names) leaf_refs (fun s l => add_bus s (degrade_leaf o l))) (v_buses x) xs).
    { eapply reads_leaves; [exact R1|]. intros y s rest' Hy. unfold bus_topology_handler. rewrite (local_named _ _ _ Hy). done. }
    assert (H2 : Forall2 (reads (bus_topology_handler fuel v mf) "busBreakerTopology" fuel (names) leaf_refs (fun s l => add_switch s (degrade_leaf o l))) (v_switches x) ys).
    { eapply reads_leaves; [exact R2|]. intros y s rest' Hy. unfold bus_topology_handler. rewrite (local_named _ _ _ Hy). done. }
    pose proof (seq_read _ _ _ _ _ _ _ _ H1 (VLevel l false [] [] [] [] []) idx F1 ltac:(lia)) as S1. rewrite fold_buses in S1. cbn in S1.
    match type of S1 with eats_all _ _ _ _ (?s, _) => pose proof (seq_read _ _ _ _ _ _ _ _ H2 s _ F2 ltac:(lia)) as S2 end. rewrite fold_switches in S2. cbn in S2.
    pose proof (eats_app _ _ _ _ _ _ _ S1 S2) as SS.
    destruct (read_until_eats _ "busBreakerTopology" [] _ _ _ rest fuel SS) as [text T]; [lia|]. rewrite T. cbn [result_bind]. rewrite list_to_set_app_L, swap_union. done.
Qed.
Lemma eq_dispatch k : k ∈ eq_classes -> list_find (fun k' => tag k' = tag k) eq_classes = Some (match k with CGenerator => 0 | CBattery => 1 | CLoad => 2 | CShunt => 3 | CDanglingLine => 4 | CSvc => 5 | CVsc => 6 | _ => 7 end, k).
Proof. intros H. unfold eq_classes in H. rewrite !elem_of_cons in H. destruct H as [->|[->|[->|[->|[->|[->|[->|[->|H]]]]]]]]; try (vm_compute; reflexivity). by apply elem_of_nil in H. Qed.
Lemma eq_not_bus k : k ∈ eq_classes -> k <> CBus.
Proof. intros H ->. by apply (bool_decide_eq_true_2 _) in H. Qed.
Lemma vl_handler_eq fuel mf k y s rest : k ∈ eq_classes -> named (tag k) y -> vl_handler fuel v mf s (events y ++ rest) = read_into add_eq fuel v mf k s (events y ++ rest).
Proof.
  intros Hk Hy. unfold vl_handler. rewrite (local_named _ _ _ Hy). cbn [result_bind]. rewrite (eq_dispatch k Hk).
  assert (String.eqb (tag k) "nodeBreakerTopology" = false) as -> by (by destruct k). assert (String.eqb (tag k) "busBreakerTopology" = false) as -> by (by destruct k). done.
Qed.
Lemma vl_handler_extra fuel mf y x s rest : extra_name y -> vl_handler fuel v mf (set_leaf x s.1, s.2) (events y ++ rest) =
  letp! (s', c') := read_extra v mf s (events y ++ rest) in Ok ((set_leaf x s'.1, s'.2), c').
Proof.
  intros (n & al & e & cs & -> & Hn). unfold vl_handler. rewrite (local_named n) by (do 3 eexists; done). cbn [result_bind]. destruct s as [l i].
  destruct Hn as [-> | ->]; cbn -[events read_extra]; destruct (read_extra v mf (l, i) _) as [[[] ]| | |]; done.
Qed.
Definition vl_names (x : vlevel) : list string := mjoin (names <$> vl_leaves x).
Lemma vl_names_split x : vl_names x = names (v_leaf x) ++ topology_names x ++ mjoin (names <$> v_eqs x).
Proof. unfold vl_names, vl_leaves, topology_names. change (mjoin (names <$> v_leaf x :: ?l)) with (names (v_leaf x) ++ mjoin (names <$> l)). rewrite !fmap_app, !mjoin_app, <- !app_assoc. done. Qed.
Definition reads_vl (mf : option mapping) (x : vlevel) (y : xml) : Prop :=
  named "voltageLevel" y /\ forall fuel idx rest, fits (vl_names x) [] idx -> length (events y) <= fuel ->
  read_vl fuel v mf idx (events y ++ rest) = Ok (degrade_vl o x, list_to_set (vl_names x) ∪ idx, end_of y :: rest).
Lemma write_eqs_ok (ks : list cls) ls m xs m' : (forall k, k ∈ ks -> k <> CBus) -> (forall l, l ∈ ls -> mild l) -> Forall (fun l => l_cls l ∈ ks /\ leaf_ok a (l_cls l) l) ls -> winv m -> wmapr (write_leaf o) ls m = Ok (xs, m') ->
  grows m m' /\ forall mf, available m' mf -> Forall2 (fun l x => l_cls l ∈ ks /\ reads_leaf mf (l_cls l) l x) ls xs.
Proof.
  intros Nb Ml Kl. assert (Kl' : Forall (fun l => l_cls l ∈ ks /\ leaf_ok' (l_cls l) l) ls).
  { rewrite Forall_forall in *. intros l Hl. destruct (Kl l Hl). split; [done|]. apply leaf_ok_plain; [by apply Nb|by apply Ml|done]. }
  revert Kl'. apply (wmapr_ok a (fun l => l_cls l ∈ ks /\ leaf_ok' (l_cls l) l) (fun mf l x => l_cls l ∈ ks /\ reads_leaf mf (l_cls l) l x)).
  intros l m0 y m1 [Hc K] W E. destruct (write_leaf_ok (l_cls l) l m0 y m1 K W E) as [G R]. split; [done|]. intros mf Hm. split; [done|]. by apply R.
Qed.
Lemma write_vl_ok x m y m' : vl_ok a v x /\ vl_mild x -> winv m -> write_vl o x m = Ok (y, m') -> grows m m' /\ forall mf, available m' mf -> reads_vl mf x y.
Proof.
  intros [K Ml] W E. pose proof K as (Kl & _ & Ke & Eo & Rf). destruct (vl_parts_mild x Ml) as (_ & _ & _ & Me). destruct (plain_head CVoltageLevel _ Kl eq_refl eq_refl) as (Kd & Eh & Er). unfold write_vl in E. rewrite <- Eo in E.
  destruct (write_attrs v (v_leaf x) m) as [al m1] eqn:E1. destruct (write_extras v (v_leaf x) m1) as [es m2] eqn:E2.
  destruct (write_topology o x m2) as [[t m3]| | |] eqn:E3; try done. cbn [result_bind] in E. destruct (wmapr (write_leaf o) (v_eqs x) m3) as [[qs m4]| | |] eqn:E4; try done. cbn [result_bind] in E. injection E as <- <-.
  destruct (attrs_ok a v CVoltageLevel _ m al m1 Kd W E1) as [G1 R1]. destruct (extras_ok a v CVoltageLevel _ m1 es m2 Kd (proj1 G1) E2) as [G2 R2].
  destruct (topology_ok x m2 t m3 K Ml (proj1 G2) E3) as [G3 R3]. destruct (write_eqs_ok eq_classes _ m3 qs m4 eq_not_bus Me Ke (proj1 G3) E4) as [G4 R4].
  split; [eapply grows_trans; [exact G1|eapply grows_trans; [exact G2|eapply grows_trans; [exact G3|exact G4]]]|]. intros mf Hm4.
  assert (Hm3 : available m3 mf) by (by apply G4). assert (Hm2 : available m2 mf) by (by apply G3). assert (Hm1 : available m1 mf) by (by apply G2).
  destruct (R2 mf Hm2) as [Nx R2']. destruct (R3 mf Hm3) as [Nt R3']. specialize (R4 mf Hm4). clear R2 R3.
  split; [do 3 eexists; done|]. intros fuel idx rest Fi L. rewrite vl_names_split in *.
  set (al' := al ++ [("topologyKind", topology_text (v_nb x))]) in *.
  pose proof (events_children "voltageLevel" al' (es ++ t :: qs)) as L'. rewrite mjoin_events_app in L'. change (mjoin (events <$> t :: qs)) with (events t ++ mjoin (events <$> qs)) in L'. rewrite app_length in L'.
  assert (exists e more, events (elem "voltageLevel" al' (es ++ t :: qs)) ++ rest = EStart "voltageLevel" al' e :: more) as (e & more & Ev) by (unfold elem; destruct es; do 2 eexists; reflexivity).
  unfold read_vl. rewrite Ev.
  assert (Zr : leaf_refs (v_leaf x) = []) by (apply (no_refs CVoltageLevel); [by destruct Kl|done]).
  destruct (fits_app _ _ _ [] idx Fi) as [F1 F2]; [by intros r ?%elem_of_nil|].
  destruct (R1 mf Hm1 "voltageLevel" e [("topologyKind", topology_text (v_nb x))] more idx) as [R [R'|R']]; [by intros q ?%elem_of_list_singleton|by rewrite Er, Zr; intros r ?%elem_of_nil|by eapply fits_id|done|].
  fold al' in R, R'. rewrite R. cbn [result_bind]. unfold attr_value. rewrite attr_find, R', find_one. cbn [result_bind].
  assert (Hk : (if String.eqb (topology_text (v_nb x)) "NODE_BREAKER" then Ok true else if String.eqb (topology_text (v_nb x)) "BUS_BREAKER" then Ok false else Throw "Unexpected TopologyKind") = Ok (v_nb x)) by (by destruct (v_nb x)).
  rewrite Hk. cbn [result_bind]. rewrite <- Ev.
  destruct (fits_app _ _ _ (mjoin (leaf_refs <$> v_eqs x)) _ F2) as [F3 F4].
  { intros r Hr. apply in_mjoin in Hr as (w & Hw & Hr). unfold topology_names. rewrite fmap_app, mjoin_app. apply elem_of_app. left. apply ids_in_names. apply (Rf w r); [|done]. apply elem_of_app. by right. }
  set (x0 := VLevel (head_of v (v_leaf x)) (v_nb x) [] [] [] [] []).
  pose proof (R2' "voltageLevel" ({[l_id (v_leaf x)]} ∪ idx) ltac:(done) (fits_aliases _ _ idx F1)) as S1. rewrite names_set, Eh in S1.
  apply (eats_all_embed (fun s => (set_leaf x0 s.1, s.2)) _ (vl_handler fuel v mf) _ _ _ _ Nx) in S1; [|intros; by apply vl_handler_extra]. cbn [fst snd] in S1.
  pose proof (R3' fuel _ (degrade_leaf o (v_leaf x)) "voltageLevel" F3 ltac:(lia)) as S2.
  assert (H4 : Forall2 (reads (vl_handler fuel v mf) "voltageLevel" fuel (names) leaf_refs (fun s l => add_eq s (degrade_leaf o l))) (v_eqs x) qs).
  { clear -R4. induction R4 as [|l y ls ys [Hc Hr] F IH]; constructor; [|done]. eapply reads_into; [exact Hr|]. intros s rest. apply vl_handler_eq; [done|]. by destruct Hr. }
  match type of S2 with eats _ _ _ _ (?s, _) => pose proof (seq_read _ _ _ _ _ _ _ _ H4 s _ F4 ltac:(lia)) as S3 end. rewrite fold_eqs in S3. cbn [v_leaf v_nb v_buses v_sections v_switches v_ics v_eqs app] in S3.
  pose proof (eats_app _ _ _ _ _ _ _ S1 (eats_cons _ _ _ _ _ _ _ S2 S3)) as SS.
  destruct (read_until_eats _ "voltageLevel" al' _ _ _ rest fuel SS) as [text T]; [lia|].
  change (set_leaf x0 (head_of v (v_leaf x))) with x0 in T. rewrite T. cbn [result_bind]. rewrite !list_to_set_app_L.
  by rewrite rot_union.
Qed.

(** * Substations. *)
Definition sub_names (x : substation) : list string := mjoin (names <$> sub_leaves x).
Lemma mjoin_fmap {A B C} (f : B -> list C) (g : A -> list B) (l : list A) : mjoin (f <$> mjoin (g <$> l)) = mjoin ((fun x => mjoin (f <$> g x)) <$> l).
Proof. induction l as [|x l IH]; [done|]. change (mjoin (g <$> x :: l)) with (g x ++ mjoin (g <$> l)). rewrite fmap_app, mjoin_app, IH. done. Qed.
Lemma sub_names_split x : sub_names x = names (s_leaf x) ++ mjoin (vl_names <$> s_vls x) ++ mjoin (names <$> s_twts x) ++ mjoin (names <$> s_thwts x).
Proof. unfold sub_names, sub_leaves. change (mjoin (names <$> s_leaf x :: ?l)) with (names (s_leaf x) ++ mjoin (names <$> l)). by rewrite !fmap_app, !mjoin_app, mjoin_fmap. Qed.
Definition reads_sub (mf : option mapping) (x : substation) (y : xml) : Prop :=
  named "substation" y /\ forall fuel idx rest, fits (sub_names x) [] idx -> length (events y) <= fuel ->
  read_sub fuel v mf idx (events y ++ rest) = Ok (degrade_sub o x, list_to_set (sub_names x) ∪ idx, end_of y :: rest).
Lemma sub_handler_extra fuel mf y x s rest : extra_name y -> sub_handler fuel v mf (Sub s.1 (s_vls x) (s_twts x) (s_thwts x), s.2) (events y ++ rest) =
  letp! (s', c') := read_extra v mf s (events y ++ rest) in Ok ((Sub s'.1 (s_vls x) (s_twts x) (s_thwts x), s'.2), c').
Proof.
  intros (n & al & e & cs & -> & Hn). unfold sub_handler. rewrite (local_named n) by (do 3 eexists; done). cbn [result_bind]. destruct s as [l i].
  destruct Hn as [-> | ->]; cbn -[events read_extra]; destruct (read_extra v mf (l, i) _) as [[[] ]| | |]; done.
Qed.
Lemma fold_vls xs s : foldl (fun s x => Sub (s_leaf s) (s_vls s ++ [degrade_vl o x]) (s_twts s) (s_thwts s)) s xs = Sub (s_leaf s) (s_vls s ++ (degrade_vl o <$> xs)) (s_twts s) (s_thwts s).
Proof. revert s. induction xs as [|x xs IH]; intros s; cbn [foldl]; [destruct s; cbn; by rewrite app_nil_r|]. rewrite IH. cbn. by rewrite <- app_assoc. Qed.
Lemma fold_twts xs s : foldl (fun s x => Sub (s_leaf s) (s_vls s) (s_twts s ++ [degrade_leaf o x]) (s_thwts s)) s xs = Sub (s_leaf s) (s_vls s) (s_twts s ++ (degrade_leaf o <$> xs)) (s_thwts s).
Proof. revert s. induction xs as [|x xs IH]; intros s; cbn [foldl]; [destruct s; cbn; by rewrite app_nil_r|]. rewrite IH. cbn. by rewrite <- app_assoc. Qed.
Lemma fold_thwts xs s : foldl (fun s x => Sub (s_leaf s) (s_vls s) (s_twts s) (s_thwts s ++ [degrade_leaf o x])) s xs = Sub (s_leaf s) (s_vls s) (s_twts s) (s_thwts s ++ (degrade_leaf o <$> xs)).
Proof. revert s. induction xs as [|x xs IH]; intros s; cbn [foldl]; [destruct s; cbn; by rewrite app_nil_r|]. rewrite IH. cbn. by rewrite <- app_assoc. Qed.
Definition sub_mild (x : substation) : Prop := forall l, l ∈ sub_leaves x -> mild l.
Lemma sub_handler_leaf fuel mf k (add : substation -> leaf -> substation) name l x :
  (forall s idx y rest, named (tag k) y -> sub_handler fuel v mf (s, idx) (events y ++ rest) = letp! (l, idx', c') := read_leaf fuel v mf k idx (events y ++ rest) in Ok ((add s l, idx'), c')) ->
  reads_leaf mf k l x -> reads (sub_handler fuel v mf) name fuel names leaf_refs (fun s l => add s (degrade_leaf o l)) l x.
Proof.
  intros H [Hn R] s idx Fi L. pose proof Hn as (al & e & cs & ->). apply eats_whole; [done|]. intros rest. rewrite H by done. rewrite (R fuel idx rest Fi L). done.
Qed.
Lemma Forall2_reads {A B} (P Q : A -> B -> Prop) l ys : (forall x y, P x y -> Q x y) -> Forall2 P l ys -> Forall2 Q l ys.
Proof. intros H F. induction F; constructor; auto. Qed.
Lemma ids_vls xs r : r ∈ map l_id (mjoin (vl_leaves <$> xs)) -> r ∈ mjoin (vl_names <$> xs).
Proof. intros H. apply ids_in_names in H. by rewrite mjoin_fmap in H. Qed.
Lemma nil_refs {A} (xs : list A) : mjoin ((fun _ => []) <$> xs) = [] :> list string.
Proof. induction xs as [|x xs IH]; [done|]. exact IH. Qed.
Lemma write_sub_ok x m y m' : sub_ok a v x /\ sub_mild x -> winv m -> write_sub o x m = Ok (y, m') -> grows m m' /\ forall mf, available m' mf -> reads_sub mf x y.
Proof.
  intros [(Kl & Kv & Kt & Ku & Rf) Ml] W E. unfold write_sub in E. destruct (plain_head CSubstation _ Kl eq_refl eq_refl) as (Kd & Eh & Er).
  assert (Kv' : Forall (fun x => vl_ok a v x /\ vl_mild x) (s_vls x)).
  { rewrite Forall_forall in *. intros z Hz. split; [by apply Kv|]. intros l Hl. apply Ml. right. rewrite elem_of_app. left. apply in_mjoin. by exists z. }
  assert (Mt : forall l, l ∈ s_twts x -> mild l) by (intros l Hl; apply Ml; right; rewrite !elem_of_app; tauto).
  assert (Mu : forall l, l ∈ s_thwts x -> mild l) by (intros l Hl; apply Ml; right; rewrite !elem_of_app; tauto).
  destruct (write_attrs v (s_leaf x) m) as [al m1] eqn:E1. destruct (write_extras v (s_leaf x) m1) as [es m2] eqn:E2.
  destruct (wmapr (write_vl o) (s_vls x) m2) as [[vs m3]| | |] eqn:E3; try done. cbn [result_bind] in E.
  destruct (wmapr (write_leaf o) (s_twts x) m3) as [[ts m4]| | |] eqn:E4; try done. cbn [result_bind] in E.
  destruct (wmapr (write_leaf o) (s_thwts x) m4) as [[us m5]| | |] eqn:E5; try done. injection E as <- <-.
  destruct (attrs_ok a v CSubstation _ m al m1 Kd W E1) as [G1 R1]. destruct (extras_ok a v CSubstation _ m1 es m2 Kd (proj1 G1) E2) as [G2 R2].
  destruct (wmapr_ok a (fun x => vl_ok a v x /\ vl_mild x) reads_vl (write_vl o)) with (l := s_vls x) (m := m2) (ys := vs) (m' := m3) as [G3 R3]; [intros; by eapply write_vl_ok|done|apply G2|done|].
  destruct (write_leaves_ok CTwoWt _ m3 ts m4 (leaves_ok_plain CTwoWt _ ltac:(done) Mt Kt) (proj1 G3) E4) as [G4 R4].
  destruct (write_leaves_ok CThreeWt _ m4 us m5 (leaves_ok_plain CThreeWt _ ltac:(done) Mu Ku) (proj1 G4) E5) as [G5 R5].
  split; [eapply grows_trans; [exact G1|eapply grows_trans; [exact G2|eapply grows_trans; [exact G3|eapply grows_trans; [exact G4|exact G5]]]]|]. intros mf Hm5.
  assert (Hm4 : available m4 mf) by (by apply G5). assert (Hm3 : available m3 mf) by (by apply G4). assert (Hm2 : available m2 mf) by (by apply G3). assert (Hm1 : available m1 mf) by (by apply G2).
  destruct (R2 mf Hm2) as [Nx R2']. specialize (R3 mf Hm3). specialize (R4 mf Hm4). specialize (R5 mf Hm5). split; [do 3 eexists; done|]. intros fuel idx rest Fi L. rewrite sub_names_split in *.
  pose proof (events_children "substation" al (es ++ vs ++ ts ++ us)) as L'. rewrite !mjoin_events_app in L'.
  assert (exists e more, events (elem "substation" al (es ++ vs ++ ts ++ us)) ++ rest = EStart "substation" al e :: more) as (e & more & Ev) by (unfold elem; destruct (es ++ vs ++ ts ++ us); do 2 eexists; reflexivity).
  unfold read_sub. rewrite Ev. assert (Zr : leaf_refs (s_leaf x) = []) by (apply (no_refs CSubstation); [by destruct Kl|done]).
  destruct (fits_app _ _ _ [] idx Fi) as [F1 F2]; [by intros r ?%elem_of_nil|].
  destruct (R1 mf Hm1 "substation" e [] more idx) as [R _]; [by intros q ?%elem_of_nil|by rewrite Er, Zr; intros r ?%elem_of_nil|by eapply fits_id|]. rewrite app_nil_r in R. rewrite R. cbn [result_bind]. rewrite <- Ev.
  pose proof (R2' "substation" ({[l_id (s_leaf x)]} ∪ idx) ltac:(done) (fits_aliases _ _ idx F1)) as S1. rewrite names_set, Eh in S1.
  apply (eats_all_embed (fun s => (Sub s.1 (s_vls (Sub (s_leaf x) [] [] [])) (s_twts (Sub (s_leaf x) [] [] [])) (s_thwts (Sub (s_leaf x) [] [] [])), s.2)) _ (sub_handler fuel v mf) _ _ _ _ Nx) in S1; [|intros; by apply sub_handler_extra]. cbn [fst snd s_vls s_twts s_thwts] in S1.
  assert (Hvl : forall l r, l ∈ s_twts x ++ s_thwts x -> r ∈ leaf_refs l -> r ∈ mjoin (vl_names <$> s_vls x)) by (intros l r Hl Hr; apply ids_vls; by apply (Rf l)).
  destruct (fits_app _ _ _ (mjoin (leaf_refs <$> s_twts x)) _ F2) as [F3 F45].
  { intros r Hr. apply in_mjoin in Hr as (l & Hl & Hr). apply (Hvl l); [apply elem_of_app; by left|done]. }
  destruct (fits_app _ _ _ [] _ F45) as [F4 F5]; [by intros r ?%elem_of_nil|].
  assert (F5' : fits (mjoin (names <$> s_thwts x)) (mjoin (leaf_refs <$> s_thwts x)) (list_to_set (mjoin (names <$> s_twts x)) ∪ (list_to_set (mjoin (vl_names <$> s_vls x)) ∪ (list_to_set (names (s_leaf x)) ∪ idx)))).
  { eapply fits_more; [exact F5|]. intros r Hr. apply in_mjoin in Hr as (l & Hl & Hr). apply elem_of_union_r, elem_of_union_l, elem_of_list_to_set. apply (Hvl l); [apply elem_of_app; by right|done]. }
  assert (H2 : Forall2 (reads (sub_handler fuel v mf) "substation" fuel vl_names (fun _ => []) (fun s x => Sub (s_leaf s) (s_vls s ++ [degrade_vl o x]) (s_twts s) (s_thwts s))) (s_vls x) vs).
  { clear -R3. induction R3 as [|l y ls ys Hr F IH]; constructor; [|done]. intros s idx Fi L. destruct Hr as [Hn Hr]. destruct Hn as (al & e & cs & ->). apply eats_whole; [done|]. intros rest. unfold sub_handler. rewrite (local_named "voltageLevel") by (do 3 eexists; done).
    cbn [result_bind]. rewrite String.eqb_refl. cbn [fst snd]. rewrite (Hr fuel idx rest Fi L). done. }
  pose proof (seq_read _ _ _ _ _ _ _ _ H2 (Sub (degrade_leaf o (s_leaf x)) [] [] []) (list_to_set (names (s_leaf x)) ∪ idx)) as S2. rewrite nil_refs in S2. specialize (S2 F3 ltac:(lia)). rewrite fold_vls in S2. cbn [s_leaf s_vls s_twts s_thwts app] in S2.
  assert (H3 : Forall2 (reads (sub_handler fuel v mf) "substation" fuel names leaf_refs (fun s x => Sub (s_leaf s) (s_vls s) (s_twts s ++ [degrade_leaf o x]) (s_thwts s))) (s_twts x) ts).
  { eapply Forall2_reads; [|exact R4]. intros z y' Hr. apply (sub_handler_leaf fuel mf CTwoWt (fun s x => Sub (s_leaf s) (s_vls s) (s_twts s ++ [x]) (s_thwts s))); [|done].
    intros s idx' y2 rest' Hn. unfold sub_handler. rewrite (local_named _ _ _ Hn). done. }
  match type of S2 with eats_all _ _ _ _ (?s, _) => pose proof (seq_read _ _ _ _ _ _ _ _ H3 s _ F4 ltac:(lia)) as S3 end. rewrite fold_twts in S3. cbn [s_leaf s_vls s_twts s_thwts app] in S3.
  assert (H4 : Forall2 (reads (sub_handler fuel v mf) "substation" fuel names leaf_refs (fun s x => Sub (s_leaf s) (s_vls s) (s_twts s) (s_thwts s ++ [degrade_leaf o x]))) (s_thwts x) us).
  { eapply Forall2_reads; [|exact R5]. intros z y' Hr. apply (sub_handler_leaf fuel mf CThreeWt (fun s x => Sub (s_leaf s) (s_vls s) (s_twts s) (s_thwts s ++ [x]))); [|done].
    intros s idx' y2 rest' Hn. unfold sub_handler. rewrite (local_named _ _ _ Hn). done. }
  match type of S3 with eats_all _ _ _ _ (?s, _) => pose proof (seq_read _ _ _ _ _ _ _ _ H4 s _ F5' ltac:(lia)) as S4 end. rewrite fold_thwts in S4. cbn [s_leaf s_vls s_twts s_thwts app] in S4.
  pose proof (eats_app _ _ _ _ _ _ _ S1 (eats_app _ _ _ _ _ _ _ S2 (eats_app _ _ _ _ _ _ _ S3 S4))) as SS.
  destruct (read_until_eats _ "substation" al _ _ _ rest fuel SS) as [text T]; [lia|]. rewrite T. cbn [result_bind]. rewrite !list_to_set_app_L, rot4. done.
Qed.


(** * Networks. *)
Lemma uri_round v : from_uri (namespace_uri v) = Ok v.
Proof. destruct v; vm_compute; reflexivity. Qed.
Lemma root_fields xs m : typed false (schema CNetwork) xs -> exists fs, write_fields v (schema CNetwork) xs m = (fs, m) /\ write_fields v (schema CNetwork) xs None = (fs, None).
Proof.
  intros F. apply Forall2_cons_inv_l in F as (x1 & xs1 & H1 & F & ->). apply Forall2_cons_inv_l in F as (x2 & xs2 & H2 & F & ->). apply Forall2_cons_inv_l in F as (x3 & xs3 & H3 & F & ->).
  apply Forall2_nil_inv_l in F as ->. destruct x1; try done. destruct x2; try done. destruct x3; try done. eexists. split; reflexivity.
Qed.
Lemma degrade_names l : names l ⊆+ leaf_names l.
Proof.
  unfold names, leaf_names, degrade_aliases. apply submseteq_skip. destruct (older v 3); [rewrite map_to_list_empty; apply submseteq_nil_l|]. destruct (older v 4); [|done].
  rewrite map_to_list_fmap, <- list_fmap_compose. done.
Qed.
Lemma degrade_names_all ls : mjoin (names <$> ls) ⊆+ mjoin (leaf_names <$> ls).
Proof. induction ls as [|l ls IH]; [done|]. apply (submseteq_app (names l) (leaf_names l)); [apply degrade_names|exact IH]. Qed.
Lemma submseteq_NoDup {A} (l1 l2 : list A) : l1 ⊆+ l2 -> NoDup l2 -> NoDup l1.
Proof. intros H N. apply submseteq_Permutation in H as [k P]. rewrite P in N. by apply NoDup_app in N as (N & _ & _). Qed.
Lemma net_handler_extra fuel mf y x s rest : extra_name y -> net_handler fuel v mf (Net s.1 (n_subs x) (n_lines x) (n_hvdcs x), s.2) (events y ++ rest) =
  letp! (s', c') := read_extra v mf s (events y ++ rest) in Ok ((Net s'.1 (n_subs x) (n_lines x) (n_hvdcs x), s'.2), c').
Proof.
  intros (n & al & e & cs & -> & Hn). unfold net_handler, read_extra. rewrite (local_named n) by (do 3 eexists; done). cbn [result_bind]. destruct s as [l i].
  destruct Hn as [-> | ->]; cbn -[events read_alias read_prop].
  - destruct (read_alias v mf (l, i) _) as [[[] ]| | |]; done.
  - destruct (read_prop (l, i) _) as [[[] ]| | |]; done.
Qed.
Lemma fold_subs xs s : foldl (fun s x => Net (n_leaf s) (n_subs s ++ [degrade_sub o x]) (n_lines s) (n_hvdcs s)) s xs = Net (n_leaf s) (n_subs s ++ (degrade_sub o <$> xs)) (n_lines s) (n_hvdcs s).
Proof. revert s. induction xs as [|x xs IH]; intros s; cbn [foldl]; [destruct s; cbn; by rewrite app_nil_r|]. rewrite IH. cbn. by rewrite <- app_assoc. Qed.
Lemma fold_lines xs s : foldl (fun s x => Net (n_leaf s) (n_subs s) (n_lines s ++ [degrade_leaf o x]) (n_hvdcs s)) s xs = Net (n_leaf s) (n_subs s) (n_lines s ++ (degrade_leaf o <$> xs)) (n_hvdcs s).
Proof. revert s. induction xs as [|x xs IH]; intros s; cbn [foldl]; [destruct s; cbn; by rewrite app_nil_r|]. rewrite IH. cbn. by rewrite <- app_assoc. Qed.
Lemma fold_hvdcs xs s : foldl (fun s x => Net (n_leaf s) (n_subs s) (n_lines s) (n_hvdcs s ++ [degrade_leaf o x])) s xs = Net (n_leaf s) (n_subs s) (n_lines s) (n_hvdcs s ++ (degrade_leaf o <$> xs)).
Proof. revert s. induction xs as [|x xs IH]; intros s; cbn [foldl]; [destruct s; cbn; by rewrite app_nil_r|]. rewrite IH. cbn. by rewrite <- app_assoc. Qed.
Lemma net_names_split n : mjoin (names <$> net_leaves n) = names (n_leaf n) ++ mjoin (sub_names <$> n_subs n) ++ mjoin (names <$> n_lines n) ++ mjoin (names <$> n_hvdcs n).
Proof. unfold net_leaves. change (mjoin (names <$> n_leaf n :: ?l)) with (names (n_leaf n) ++ mjoin (names <$> l)). rewrite !fmap_app, !mjoin_app, mjoin_fmap. done. Qed.
(** The part of the aliases of the network. *)
Lemma root_aliases_ok l m als m' : winv m -> leaf_ok false CNetwork l -> (older v 3 = true -> l_aliases l = ∅) -> wmap (write_alias v) (map_to_list (l_aliases l)) m = (als, m') ->
  grows m m' /\ forall mf, available m' mf -> Forall extra_name als /\ forall name h idx, l_aliases h = ∅ -> name <> "alias" -> (forall s, s ∈ (map_to_list (degrade_aliases v l)).*1 -> s ∉ idx) ->
  eats_all (read_extra v mf) name (h, idx) als (with_aliases h (degrade_aliases v l), list_to_set (map_to_list (degrade_aliases v l)).*1 ∪ idx).
Proof.
  intros W (_ & _ & _ & B & U & _) Hv A. pose proof (run_from_older v V1_3) as V. pose proof (run_from_older v V1_4) as V4. change (number V1_3) with 3 in V. change (number V1_4) with 4 in V4. unfold degrade_aliases. destruct (older v 3) eqn:O3.
  - rewrite (Hv eq_refl), map_to_list_empty in A. injection A as <- <-. split; [by apply grows_refl|]. intros mf _. split; [constructor|]. intros name h idx Eh _ _.
    rewrite map_to_list_empty. cbn. rewrite (left_id_L ∅ _). destruct h. cbn in Eh. subst. constructor.
  - destruct (map_aliases_ok a v _ _ _ _ V B U W A) as [G R]. split; [done|]. intros mf Hm. destruct (R mf Hm) as [Nx R']. split; [done|]. intros name h idx Eh Nn Fr.
    set (A' := if older v 4 then (λ _ : string, "") <$> l_aliases l else l_aliases l) in *.
    assert (Ea : A' = alias_type v <$> l_aliases l). { unfold A', alias_type. rewrite V4. destruct (older v 4); cbn [negb]; [done|]. by rewrite <- (map_fmap_id (l_aliases l)) at 1. }
    assert (Ek : list_to_set (map_to_list A').*1 = list_to_set (map_to_list (l_aliases l)).*1 :> gset string).
    { rewrite Ea, map_to_list_fmap, <- list_fmap_compose. f_equal. }
    assert (Fr' : forall s, s ∈ (map_to_list (l_aliases l)).*1 -> s ∉ idx).
    { intros s Hs. apply Fr. apply (elem_of_list_to_set (C := gset string)). rewrite Ek. by apply elem_of_list_to_set. }
    specialize (R' name h idx Nn Eh Fr'). rewrite Ek, Ea. done.
Qed.
Lemma net_handler_leaf fuel mf k (add : network -> leaf -> network) name l x :
  (forall s idx y rest, named (tag k) y -> net_handler fuel v mf (s, idx) (events y ++ rest) = letp! (l, idx', c') := read_leaf fuel v mf k idx (events y ++ rest) in Ok ((add s l, idx'), c')) ->
  reads_leaf mf k l x -> reads (net_handler fuel v mf) name fuel (names) leaf_refs (fun s l => add s (degrade_leaf o l)) l x.
Proof.
  intros H [Hn R] s idx Fi L. pose proof Hn as (al & e & cs & ->). apply eats_whole; [done|]. intros rest. rewrite H by done. rewrite (R fuel idx rest Fi L). done.
Qed.
(** Regulating terminals. *)
Lemma part_refs_degrade p : part_refs (degrade_part v p) = part_refs p.
Proof. destruct p as [k fs cs]. destruct k; try done; (destruct fs as [|? [|? [|? [|? [|? ?]]]]]; try done); unfold degrade_part; by destruct (older v 2). Qed.
Lemma leaf_part_refs_degrade l : leaf_part_refs (degrade_leaf o l) ⊆ leaf_part_refs l.
Proof.
  intros r Hr. unfold leaf_part_refs in *. apply in_mjoin in Hr as (p & Hp & Hr). apply elem_of_list_fmap in Hp as ([key p'] & Ep & Hp). cbn in Ep. subst p'. apply elem_of_map_to_list in Hp.
  cbn [degrade_leaf l_parts] in Hp. unfold degrade_parts in Hp. rewrite map_lookup_imap in Hp. destruct (l_parts l !! key) as [q|] eqn:E; [|done]. cbn in Hp. destruct (lost _ _ _ _); [done|]. injection Hp as <-. rewrite part_refs_degrade in Hr.
  apply in_mjoin. exists q. split; [|done]. apply elem_of_list_fmap. exists (key, q). split; [done|]. by apply elem_of_map_to_list.
Qed.
Lemma vl_leaves_degrade x : vl_leaves (degrade_vl o x) = degrade_leaf o <$> vl_leaves x.
Proof. unfold vl_leaves, degrade_vl. cbn [v_leaf v_buses v_sections v_switches v_eqs]. by rewrite fmap_cons, !fmap_app. Qed.
Lemma mjoin_fmap_fmap {A B C D} (f : A -> B) (g : B -> list D) (h : A -> list C) (k : C -> D) (ls : list A) : (forall x, g (f x) = k <$> h x) -> mjoin (g <$> (f <$> ls)) = k <$> mjoin (h <$> ls).
Proof. intros H. induction ls as [|x ls IH]; [done|]. rewrite !fmap_cons. change (mjoin (g (f x) :: ?l)) with (g (f x) ++ mjoin l). change (mjoin (h x :: ?l)) with (h x ++ mjoin l). by rewrite fmap_app, H, IH. Qed.
Lemma sub_leaves_degrade x : sub_leaves (degrade_sub o x) = degrade_leaf o <$> sub_leaves x.
Proof. unfold sub_leaves, degrade_sub. cbn [s_leaf s_vls s_twts s_thwts]. rewrite fmap_cons, !fmap_app. do 2 f_equal. apply mjoin_fmap_fmap, vl_leaves_degrade. Qed.
Lemma net_leaves_degrade n : net_leaves (degrade o n) = degrade_root o (n_leaf n) :: (degrade_leaf o <$> mjoin (sub_leaves <$> n_subs n) ++ n_lines n ++ n_hvdcs n).
Proof. unfold net_leaves, degrade. cbn [n_leaf n_subs n_lines n_hvdcs]. rewrite !fmap_app. do 2 f_equal. apply mjoin_fmap_fmap, sub_leaves_degrade. Qed.
Lemma net_part_refs_degrade n r : r ∈ net_part_refs (degrade o n) -> exists l, l ∈ net_leaves n /\ r ∈ leaf_part_refs l.
Proof.
  unfold net_part_refs. rewrite net_leaves_degrade. rewrite fmap_cons. change (mjoin (?x :: ?l)) with (x ++ mjoin l). rewrite elem_of_app. intros [H|H].
  - unfold leaf_part_refs, degrade_root in H. cbn [l_parts] in H. rewrite map_to_list_empty in H. by apply elem_of_nil in H.
  - apply in_mjoin in H as (l' & Hl & Hr). apply elem_of_list_fmap in Hl as (l & -> & Hl). exists l. split; [by right|]. by apply leaf_part_refs_degrade.
Qed.
(** The document of a network: its attributes, and its children as the handler of the network reads them. *)
Lemma roundtrip1 n y m : net_ok a v n -> o_throwing o = true \/ readable v n -> write_network o a n = Ok (y, m) -> winv m /\
  exists fs cs, y = elem "network" (("xmlns:iidm", namespace_uri v) :: ("id", l_id (n_leaf n)) :: fs) cs /\
  (forall nm al e rest, (forall k, k ∈ keys v (schema CNetwork) -> find k al = find k fs) -> read_fields v None (schema CNetwork) (EStart nm al e :: rest) = Ok (l_fields (n_leaf n))) /\
  forall mf fuel, available m mf -> length (events y) <= fuel -> exists idx,
    eats_all (net_handler fuel v mf) "network" (Net (Leaf CNetwork (l_id (n_leaf n)) "" false ∅ ∅ (l_fields (n_leaf n)) ∅) [] [] [], {[l_id (n_leaf n)]} ∪ ∅) cs (degrade o n, idx) /\
    forallb (fun r => bool_decide (r ∈ idx)) (net_part_refs (degrade o n)) = true.
Proof.
  intros (Kr & Ks & Kl & Kh & Nd & Rf & Pf) Hr E. unfold write_network in E.
  set (m0 := if a then Some [] else None : option mapping) in *. assert (W0 : winv m0) by (unfold m0, NetXmlFields.winv; destruct a; [split; [by eauto|split; [by split; constructor|by intros ? ? ?%elem_of_nil]]|done]).
  pose proof (fields_typed false CNetwork _ Kr ltac:(done)) as Tr.
  destruct (root_fields (l_fields (n_leaf n)) m0) as (fs & E1 & E1'); [done|]. rewrite E1 in E.
  destruct (o_throwing o && ver_lt v V1_3 && negb (bool_decide (l_aliases (n_leaf n) = ∅))) eqn:Ea; [done|].
  assert (Ka : older v 3 = true -> l_aliases (n_leaf n) = ∅).
  { intros O3. destruct Hr as [Ht|[Ha _]]; [|by apply Ha]. rewrite Ht, ver_lt_older in Ea. change (number V1_3) with 3 in Ea. rewrite O3 in Ea. destruct (decide (l_aliases (n_leaf n) = ∅)) as [|N]; [done|]. by rewrite (bool_decide_eq_false_2 _ N) in Ea. }
  assert (Ml : forall l, l ∈ mjoin (sub_leaves <$> n_subs n) ++ n_lines n ++ n_hvdcs n -> mild l).
  { intros l Hl. destruct Hr as [Ht|[_ Hr]]; [by left|]. right. intros O1. by apply Hr. }
  clear Hr Ea.
  destruct (wmap (write_alias v) (map_to_list (l_aliases (n_leaf n))) m0) as [als m2] eqn:E2.
  destruct (wmapr (write_sub o) (n_subs n) m2) as [[ss m3]| | |] eqn:E3; try done. cbn [result_bind] in E.
  destruct (wmapr (write_leaf o) (n_lines n) m3) as [[ls m4]| | |] eqn:E4; try done. cbn [result_bind] in E. destruct (wmapr (write_leaf o) (n_hvdcs n) m4) as [[hs m5]| | |] eqn:E5; try done. injection E as <- <-.
  destruct (write_fields_ok false v (schema CNetwork) _ None fs None (schema_table _ _) (typed_doc _ _ _ _ Tr) ltac:(done) E1') as [_ R1]. destruct (R1 None ltac:(done)) as [K1 R1']. clear R1.
  rewrite (full_doc v) in R1' by (first [by apply plain_full | by eapply Forall2_length]).
  destruct (root_aliases_ok _ m0 als m2 W0 Kr Ka E2) as [G2 R2].
  assert (Ks' : Forall (fun x => sub_ok a v x /\ sub_mild x) (n_subs n)).
  { rewrite Forall_forall in *. intros z Hz. split; [by apply Ks|]. intros l Hl. apply Ml. rewrite elem_of_app. left. apply in_mjoin. by exists z. }
  assert (Ml1 : forall l, l ∈ n_lines n -> mild l) by (intros l Hl; apply Ml; rewrite !elem_of_app; tauto).
  assert (Ml2 : forall l, l ∈ n_hvdcs n -> mild l) by (intros l Hl; apply Ml; rewrite !elem_of_app; tauto).
  destruct (wmapr_ok a (fun x => sub_ok a v x /\ sub_mild x) reads_sub (write_sub o)) with (l := n_subs n) (m := m2) (ys := ss) (m' := m3) as [G3 R3]; [intros; by eapply write_sub_ok|done|apply G2|done|].
  destruct (write_eqs_ok [CLine; CTieLine] _ m3 ls m4 ltac:(intros k Hk ->; by apply (bool_decide_eq_true_2 _) in Hk) Ml1 Kl (proj1 G3) E4) as [G4 R4].
  destruct (write_leaves_ok CHvdcLine _ m4 hs m5 (leaves_ok_plain CHvdcLine _ ltac:(done) Ml2 Kh) (proj1 G4) E5) as [G5 R5].
  split; [apply G5|]. exists fs, (als ++ map write_prop (map_to_list (l_props (n_leaf n))) ++ ss ++ ls ++ hs). split; [done|]. split; [exact R1'|]. intros mf fuel Hm5 L.
  assert (Hm4 : available m4 mf) by (by apply G5). assert (Hm3 : available m3 mf) by (by apply G4). assert (Hm2 : available m2 mf) by (by apply G3).
  destruct (R2 mf Hm2) as [Nx R2']. specialize (R3 mf Hm3). specialize (R4 mf Hm4). specialize (R5 mf Hm5). clear R2.
  set (al := ("xmlns:iidm", namespace_uri v) :: ("id", l_id (n_leaf n)) :: fs) in *. set (cs := als ++ map write_prop (map_to_list (l_props (n_leaf n))) ++ ss ++ ls ++ hs) in *.
  assert (Fall : fits (mjoin (names <$> net_leaves n)) [] ∅).
  { split; [by eapply submseteq_NoDup; [apply degrade_names_all|]|]. split; [intros ? _; apply not_elem_of_empty|by intros r ?%elem_of_nil]. }
  rewrite net_names_split in Fall. destruct (fits_app _ _ _ [] ∅ Fall) as [F1 F']; [by intros r ?%elem_of_nil|]. clear Fall.
  assert (Hsub : forall l r, l ∈ n_lines n ++ n_hvdcs n -> r ∈ leaf_refs l -> r ∈ mjoin (sub_names <$> n_subs n)).
  { intros l r Hl Hr. pose proof (ids_in_names _ r (Rf l r Hl Hr)) as X. rewrite mjoin_fmap in X. exact X. }
  destruct (fits_app _ _ _ (mjoin (leaf_refs <$> n_lines n)) _ F') as [F2 F34].
  { intros r Hr. apply in_mjoin in Hr as (l & Hl & Hr). apply (Hsub l); [apply elem_of_app; by left|done]. }
  destruct (fits_app _ _ _ [] _ F34) as [F3 F4]; [by intros r ?%elem_of_nil|].
  assert (F4' : fits (mjoin (names <$> n_hvdcs n)) (mjoin (leaf_refs <$> n_hvdcs n)) (list_to_set (mjoin (names <$> n_lines n)) ∪ (list_to_set (mjoin (sub_names <$> n_subs n)) ∪ (list_to_set (names (n_leaf n)) ∪ ∅)))).
  { eapply fits_more; [exact F4|]. intros r Hr. apply in_mjoin in Hr as (l & Hl & Hr). apply elem_of_union_r, elem_of_union_l, elem_of_list_to_set. apply (Hsub l); [apply elem_of_app; by right|done]. }
  pose proof (events_children "network" al cs) as L'. unfold cs at 1 in L'. rewrite !mjoin_events_app in L'.
  set (h0 := Leaf CNetwork (l_id (n_leaf n)) "" false ∅ ∅ (l_fields (n_leaf n)) ∅).
  pose proof (R2' "network" h0 ({[l_id (n_leaf n)]} ∪ ∅) eq_refl ltac:(done) (fits_aliases _ _ ∅ F1)) as S1. rewrite names_set in S1.
  pose proof (props_read v mf "network" (map_to_list (l_props (n_leaf n))) (with_aliases h0 (degrade_aliases v (n_leaf n))) (list_to_set (names (n_leaf n)) ∪ ∅) (NoDup_fst_map_to_list _)) as S1'.
  rewrite list_to_map_to_list in S1'. cbn [with_aliases h0 l_props] in S1'. rewrite (right_id_L ∅ (∪) (l_props (n_leaf n))) in S1'.
  pose proof (eats_app _ _ _ _ _ _ _ S1 S1') as S0.
  apply (eats_all_embed (fun s => (Net s.1 (n_subs (Net h0 [] [] [])) (n_lines (Net h0 [] [] [])) (n_hvdcs (Net h0 [] [] [])), s.2)) _ (net_handler fuel v mf)) in S0; [|apply Forall_app; split; [done|apply prop_names]|intros; by apply net_handler_extra].
  cbn [fst snd n_subs n_lines n_hvdcs] in S0.
  change (with_props (Leaf CNetwork (l_id h0) (l_name h0) (l_fict h0) (degrade_aliases v (n_leaf n)) (l_props h0) (l_fields h0) (l_parts h0)) (l_props (n_leaf n))) with (degrade_root o (n_leaf n)) in S0.
  assert (H2 : Forall2 (reads (net_handler fuel v mf) "network" fuel (sub_names) (fun _ => []) (fun s x => Net (n_leaf s) (n_subs s ++ [degrade_sub o x]) (n_lines s) (n_hvdcs s))) (n_subs n) ss).
  { eapply Forall2_reads; [|exact R3]. intros x y' [Hn Hr] s idx Fx Lx. pose proof Hn as (al1 & e1 & cs1 & ->). apply eats_whole; [done|]. intros rest. unfold net_handler. rewrite (local_named "substation") by done. cbn -[events read_sub]. by rewrite (Hr fuel idx rest Fx Lx). }
  pose proof (seq_read _ _ _ _ _ _ _ _ H2 (Net (degrade_root o (n_leaf n)) [] [] []) (list_to_set (names (n_leaf n)) ∪ ∅)) as S2. rewrite nil_refs in S2. specialize (S2 F2 ltac:(lia)). rewrite fold_subs in S2. cbn [n_leaf n_subs n_lines n_hvdcs app] in S2.
  assert (H3 : Forall2 (reads (net_handler fuel v mf) "network" fuel (names) leaf_refs (fun s x => Net (n_leaf s) (n_subs s) (n_lines s ++ [degrade_leaf o x]) (n_hvdcs s))) (n_lines n) ls).
  { eapply Forall2_reads; [|exact R4]. intros x y' [Hc Hr]. apply (net_handler_leaf fuel mf (l_cls x) (fun s x => Net (n_leaf s) (n_subs s) (n_lines s ++ [x]) (n_hvdcs s))); [|done].
    intros s idx y2 rest Hn. unfold net_handler. rewrite (local_named _ _ _ Hn). rewrite !elem_of_cons in Hc. destruct Hc as [Hc|[Hc|Hc%elem_of_nil]]; [..|done]; by rewrite Hc. }
  match type of S2 with eats_all _ _ _ _ (?s, _) => pose proof (seq_read _ _ _ _ _ _ _ _ H3 s _ F3 ltac:(lia)) as S3 end. rewrite fold_lines in S3. cbn [n_leaf n_subs n_lines n_hvdcs app] in S3.
  assert (H4 : Forall2 (reads (net_handler fuel v mf) "network" fuel (names) leaf_refs (fun s x => Net (n_leaf s) (n_subs s) (n_lines s) (n_hvdcs s ++ [degrade_leaf o x]))) (n_hvdcs n) hs).
  { eapply Forall2_reads; [|exact R5]. intros x y' Hr. apply (net_handler_leaf fuel mf CHvdcLine (fun s x => Net (n_leaf s) (n_subs s) (n_lines s) (n_hvdcs s ++ [x]))); [|done].
    intros s idx y2 rest Hn. unfold net_handler. rewrite (local_named _ _ _ Hn). done. }
  match type of S3 with eats_all _ _ _ _ (?s, _) => pose proof (seq_read _ _ _ _ _ _ _ _ H4 s _ F4' ltac:(lia)) as S4 end. rewrite fold_hvdcs in S4. cbn [n_leaf n_subs n_lines n_hvdcs app] in S4.
  pose proof (eats_app _ _ _ _ _ _ _ S0 (eats_app _ _ _ _ _ _ _ S2 (eats_app _ _ _ _ _ _ _ S3 S4))) as SS. rewrite <- app_assoc in SS.
  eexists. split; [exact SS|].
  apply forallb_forall. intros r Hr. apply elem_of_list_In in Hr. apply bool_decide_eq_true_2.
  assert (X : exists l, l ∈ net_leaves n /\ r ∈ leaf_part_refs l) by (by apply net_part_refs_degrade). destruct X as (l & Hl & X). apply (Pf l r Hl) in X. apply ids_in_names in X. rewrite net_names_split in X.
  rewrite !elem_of_app in X. rewrite !elem_of_union, !elem_of_list_to_set. tauto.
Qed.
Lemma root_find n fs (ns : list (string * string)) : Forall (fun q => q ∉ "id" :: "xmlns:iidm" :: keys v (schema CNetwork)) ns.*1 -> let al := ("xmlns:iidm", namespace_uri v) :: ns ++ ("id", l_id (n_leaf n)) :: fs in
  find "xmlns:iidm" al = Some (namespace_uri v) /\ find "id" al = Some (l_id (n_leaf n)) /\ forall k, k ∈ keys v (schema CNetwork) -> find k al = find k fs.
Proof.
  intros F al. rewrite Forall_forall in F. unfold al. split; [by rewrite find_cons, decide_True|]. split.
  - rewrite find_cons, decide_False by done. rewrite find_app_r by (intros X; apply (F _ X); left). by rewrite find_cons, decide_True.
  - intros q Hq. assert (Nq : q ∉ reserved) by (intros X; by apply (notin_keys CNetwork v q X)). unfold reserved in Nq. rewrite !not_elem_of_cons in Nq. destruct Nq as (N1 & N2 & _).
    rewrite find_cons, decide_False by done. rewrite find_app_r by (intros X; apply (F _ X); right; by right). by rewrite find_cons, decide_False by done.
Qed.
Lemma roundtrip0 n y m : net_ok a v n -> o_throwing o = true \/ readable v n -> write_network o a n = Ok (y, m) -> winv m /\ forall mf fuel, available m mf -> length (events y) <= fuel ->
  read_network fuel mf (events y) = Ok (degrade o n).
Proof.
  intros K Hr E. destruct (roundtrip1 n y m K Hr E) as (W & fs & cs & -> & R & H). split; [done|]. intros mf fuel Hm L. destruct (H mf fuel Hm L) as (idx & SS & Eb).
  set (al := ("xmlns:iidm", namespace_uri v) :: ("id", l_id (n_leaf n)) :: fs) in *. destruct (root_find n fs [] ltac:(constructor)) as (Fu & Fi & Ff). cbn [app] in Fu, Fi, Ff. fold al in Fu, Fi, Ff.
  assert (exists e more, events (elem "network" al cs) = EStart "network" al e :: more) as (e & more & Ev) by (unfold elem; destruct cs; do 2 eexists; reflexivity).
  unfold read_network. rewrite Ev. unfold attr_value. rewrite !attr_find. rewrite Fu, Fi. cbn [result_bind]. rewrite uri_round. cbn [result_bind]. rewrite (R _ _ _ _ Ff).
  cbn [result_bind]. unfold add_object. destruct (String.eqb_spec (l_id (n_leaf n)) "") as [Z|_]; [by destruct K as ((_ & ? & _) & _)|].
  rewrite bool_decide_eq_false_2 by (apply not_elem_of_empty). cbn [result_bind]. rewrite <- Ev.
  destruct (read_until_eats _ "network" al _ _ _ [] fuel SS) as [text T]; [lia|]. rewrite app_nil_r in T. rewrite T. cbn [result_bind fst snd]. by rewrite Eb.
Qed.
End anonymized.
