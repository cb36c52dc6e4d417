From Verif Require Import Xml XmlSpec XmlProofs Anonymizer AnonymizerProofs NetXml NetXmlSpec NetXmlFields NetXmlParts.

(** * Versions. *)
Lemma run_until_1_1 v : run_until V1_1 v = older v 2. Proof. by destruct v. Qed.
Lemma run_until_1_2 v : run_until V1_2 v = older v 3. Proof. by destruct v. Qed.
Lemma ver_lt_older v w : ver_lt v w = older v (number w). Proof. by destruct v, w. Qed.
Lemma run_from_older v w : run_from w v = negb (older v (number w)). Proof. by destruct v, w. Qed.

(** * Tap changers. *)
Lemma wire_part_kind v p : p_kind (wire_part v p) = p_kind p.
Proof. destruct p as [k fs cs]. unfold wire_part. cbn. destruct k; try done; by destruct fs as [|? [|? [|? ?]]]. Qed.
Lemma deadband_ok db reg : (if bool_decide ((if is_zero db then VNum None else db) = VNum None /\ reg = VBool true) then VNum (Some "0") else if is_zero db then VNum None else db) = degrade_deadband db reg.
Proof.
  unfold degrade_deadband, is_zero. destruct (decide (db ∈ [VNum (Some "0"); VNum (Some "-0")])) as [Z|Z].
  - rewrite (bool_decide_eq_true_2 _ Z), (bool_decide_eq_true_2 (db ∈ VNum None :: _)) by (by right). destruct (decide (reg = VBool true)) as [R|R].
    + by rewrite !bool_decide_eq_true_2.
    + rewrite !bool_decide_eq_false_2; [done|done|tauto].
  - rewrite (bool_decide_eq_false_2 _ Z). destruct (decide (db = VNum None)) as [->|N].
    + rewrite (bool_decide_eq_true_2 (VNum None ∈ VNum None :: _)) by left. destruct (decide (reg = VBool true)) as [R|R].
      * by rewrite !bool_decide_eq_true_2.
      * rewrite !bool_decide_eq_false_2; [done|done|tauto].
    + rewrite (bool_decide_eq_false_2 (db ∈ VNum None :: _)) by (rewrite elem_of_cons; tauto). rewrite bool_decide_eq_false_2; [done|tauto].
Qed.
Lemma unwire_wire_part a v p : part_ok a p -> unwire_part v (wire_part v p) = degrade_part v p.
Proof.
  intros (K & _ & _). destruct p as [k fs cs]. cbn [p_kind p_fields] in K. destruct k; try done.
  all: do 6 apply Forall2_cons_inv_l in K as (? & ? & ? & K & ->); apply Forall2_nil_inv_l in K as ->; unfold wire_part, unwire_part, degrade_part; cbn [p_kind p_fields p_children].
  all: rewrite run_until_1_1; destruct (older v 2); [|done]; cbn [andb]; by rewrite deadband_ok.
Qed.
Lemma part_empty_wire v p : part_empty (wire_part v p) = bool_decide (p = Part PLimits [VNum None] []).
Proof.
  unfold part_empty. destruct p as [k fs cs]. unfold wire_part. cbn. destruct k; try done; destruct fs as [|? [|? [|? ?]]]; try done; by rewrite !bool_decide_eq_false_2.
Qed.

(** * The tables of the parts that are lost. *)
Definition lost_key (v : ver) (c : cls) (key : string) : bool :=
  (older v 5 && bool_decide (key ∈ power_limits)) || (older v 3 && bool_decide (c = CShunt /\ key = "model")) ||
  (older v 2 && bool_decide (c = CShunt /\ key = "regulatingTerminal")) || (older v 3 && bool_decide (c = CDanglingLine /\ key = "reactiveLimits")).
Lemma run_table v k s : s ∈ slots k -> run_from (sl_run s) v = negb (lost_key v k (sl_key s)).
Proof.
  assert (H : forallb (fun v => forallb (fun k => forallb (fun s => Bool.eqb (run_from (sl_run s) v) (negb (lost_key v k (sl_key s)))) (slots k)) all_classes) all_versions = true) by (vm_compute; reflexivity).
  intros Hs. apply (forallb_elem _ _ v) in H; [|apply all_ver]. apply (forallb_elem _ _ k) in H; [|apply all_cls]. apply (forallb_elem _ _ s) in H; [|done]. by apply Bool.eqb_prop in H.
Qed.
Lemma rassert_table v k s : s ∈ slots k -> run_from (sl_run s) v = true -> ver_lt v (sl_rassert s) = true -> older v 1 = true /\ sl_key s ∈ since_1_1 k.
Proof.
  assert (H : forallb (fun v => forallb (fun k => forallb (fun s => negb (run_from (sl_run s) v) || negb (ver_lt v (sl_rassert s)) || (older v 1 && bool_decide (sl_key s ∈ since_1_1 k))) (slots k)) all_classes) all_versions = true) by (vm_compute; reflexivity).
  intros Hs H1 H2. apply (forallb_elem _ _ v) in H; [|apply all_ver]. apply (forallb_elem _ _ k) in H; [|apply all_cls]. apply (forallb_elem _ _ s) in H; [|done]. cbn beta in H. rewrite H1, H2 in H. cbn in H.
  apply andb_true_iff in H as [H3 H4]. by apply bool_decide_eq_true in H4.
Qed.
Lemma slot_of_key k s key : s ∈ slots k -> sl_key s = key -> snd <$> list_find (fun s => sl_key s = key) (slots k) = Some s.
Proof.
  intros Hs <-. destruct (list_find_elem_of (fun s' => sl_key s' = sl_key s) (slots k) s Hs eq_refl) as [[i s'] E]. rewrite E. cbn. f_equal.
  apply list_find_Some in E as (E & Ek & _). apply elem_of_list_lookup in Hs as [j Hj]. destruct (slots_tbl k) as (_ & N & _).
  assert (i = j) as ->; [|by rewrite E in Hj; injection Hj]. eapply NoDup_lookup; [exact N|by rewrite list_lookup_fmap, E|by rewrite list_lookup_fmap, Hj; cbn; rewrite Ek].
Qed.

Section leaf.
Context (a : bool) (o : opts).
Notation v := (o_ver o).
Lemma wire_parts_lookup l key : (l_cls l = CShunt -> key <> "model") \/ is_Some (l_parts l !! key) -> wire_parts v l !! key = wire_part v <$> l_parts l !! key.
Proof.
  intros H. unfold wire_parts. destruct (l_cls l); try (by rewrite lookup_fmap). destruct (l_fields l) as [|? [|? [|? ?]]]; try (by rewrite lookup_fmap).
  destruct (l_parts l !! "model") eqn:E; [by rewrite lookup_fmap|]. destruct (decide (key = "model")) as [->|N]; [|by rewrite lookup_insert_ne, lookup_fmap].
  rewrite E in H. destruct H as [H|[? H]]; [by destruct H|done].
Qed.
Lemma parts_read_back k l key : leaf_ok a k l -> (l_cls l = CShunt -> key <> "model") \/ is_Some (l_parts l !! key) ->
  unwire_part v <$> doc_parts v k (wire_parts v l) !! key = degrade_parts v l !! key.
Proof.
  intros (Ek & _ & _ & _ & _ & Kp) H. rewrite doc_parts_lookup. unfold degrade_parts. rewrite map_lookup_imap. pose proof (wire_parts_lookup l key H) as E.
  destruct (l_parts l !! key) as [p|] eqn:Ep; cbn [option_fmap option_map fmap option_bind mbind] in *.
  - destruct (Kp key p Ep) as (K & s & Hs & Hk & Hkd). rewrite (slot_of_key k s key Hs Hk). cbn [from_option]. unfold slot_part. rewrite Hk, E, part_empty_wire, wire_part_kind, (run_table v k s Hs), Hk.
    destruct (slot_name_some _ _ Hkd) as [n ->]. unfold lost. rewrite Ek. fold (lost_key v k key). destruct (lost_key v k key); [done|]. cbn [negb andb orb].
    destruct (bool_decide (p = _)); cbn; [done|]. by rewrite (unwire_wire_part a).
  - destruct (list_find _ (slots k)) as [[i s]|] eqn:F; [|done]. apply list_find_Some in F as (_ & <- & _). cbn. unfold slot_part. by rewrite E.
Qed.
Lemma degrade_parts_none l key : l_parts l !! key = None -> degrade_parts v l !! key = None.
Proof. intros E. unfold degrade_parts. rewrite map_lookup_imap, E. done. Qed.
Lemma parts_back k l : leaf_ok a k l -> (k = CShunt -> is_Some (l_parts l !! "model")) -> unwire_part v <$> doc_parts v k (wire_parts v l) = degrade_parts v l.
Proof.
  intros K H. apply map_eq. intros key. rewrite lookup_fmap. apply (parts_read_back _ _ _ K). destruct K as [Ek _]. rewrite Ek.
  destruct (decide (key = "model")) as [->|N]; [|by left]. destruct (decide (k = CShunt)); [right; by apply H|by left].
Qed.
(** The model of a shunt compensator. *)
Lemma shunt_back l b g mx fs : leaf_ok a CShunt l -> l_fields l = b :: g :: mx :: fs -> l_parts l !! "model" = None ->
  doc_parts v CShunt (wire_parts v l) !! "model" = (if older v 3 then None else Some (Part PLinear [b; g; mx] [])) /\
  delete "model" (unwire_part v <$> doc_parts v CShunt (wire_parts v l)) = degrade_parts v l.
Proof.
  intros K Ef Em. pose proof (proj1 K) as Ek. split.
  - rewrite doc_parts_lookup. cbn [list_find slots sl_key snd fst fmap option_fmap option_map]. rewrite decide_True by done. cbn. unfold slot_part. cbn [sl_key sl_run].
    unfold wire_parts. rewrite Ek, Ef, Em, lookup_insert. by destruct v.
  - apply map_eq. intros key. destruct (decide (key = "model")) as [->|N].
    + rewrite lookup_delete. by rewrite degrade_parts_none.
    + rewrite lookup_delete_ne by done. rewrite lookup_fmap. apply (parts_read_back _ _ _ K). by left.
Qed.

(** * Attributes. *)
Ltac get_fields K := repeat (apply Forall2_cons_inv_l in K as (? & ? & ? & K & ->)).
Definition special (k : cls) : bool := bool_decide (k ∈ [CShunt; CBusSwitch; CDanglingLine; CTwoWt; CThreeWt; CTieLine]).
Lemma plain_full k : special k = false -> Forall full (schema k).
Proof.
  intros S. assert (H : forallb (fun k => special k || fullb (schema k)) all_classes = true) by (vm_compute; reflexivity).
  apply (forallb_elem _ _ k) in H; [|apply all_cls]. cbn beta in H. rewrite S in H. apply Forall_forall. intros d Hd w. apply (forallb_elem _ _ w) in H; [|apply all_ver]. apply (forallb_elem _ _ d) in H; [|done].
  cbn beta in H. destruct (fd_wattr d w), (fd_rattr d w); try discriminate H; by split.
Qed.
Lemma tail_full ds : fullb ds = true -> Forall full ds.
Proof. intros H. apply Forall_forall. intros d Hd w. apply (forallb_elem _ _ w) in H; [|apply all_ver]. apply (forallb_elem _ _ d) in H; [|done]. cbn beta in H. destruct (fd_wattr d w), (fd_rattr d w); try discriminate H; by split. Qed.
Lemma fields_typed k l : leaf_ok a k l -> k <> CShunt -> typed a (schema k) (l_fields l).
Proof. intros (Ek & _ & F & _) N. unfold fields_ok in F. rewrite Ek in F. destruct k; try done; by destruct F. Qed.
(** What is known of an object from its attributes. *)
Definition fields_back (k : cls) (l : leaf) : Prop :=
  Forall2 (doc_ok1 a v) (schema k) (wire_fields o l) /\ refs (schema k) (doc_fields v (wire o l)) = leaf_refs l /\
  (k <> CShunt -> forall l', l_cls l' = k -> l_fields l' = doc_fields v (wire o l) -> unwire v l' = Ok (with_parts (with_fields l' (degrade_fields o l)) (unwire_part v <$> l_parts l'))).
Lemma plain_back k l : leaf_ok a k l -> special k = false -> fields_back k l.
Proof.
  intros K S. assert (N : k <> CShunt) by (by intros ->). pose proof (fields_typed k l K N) as T. pose proof (proj1 K) as Ek.
  assert (Ew : wire_fields o l = l_fields l) by (unfold wire_fields; rewrite Ek; by destruct k).
  assert (Ed : doc_fields v (wire o l) = l_fields l). { unfold doc_fields. cbn [wire with_parts with_fields l_cls l_fields]. rewrite Ek, Ew. apply full_doc; [by apply plain_full|by eapply Forall2_length]. }
  split; [rewrite Ew; by apply typed_doc|]. split; [rewrite Ed; unfold leaf_refs; by rewrite Ek|]. intros _ l' Ec Ef. unfold unwire, degrade_fields. cbn [with_parts l_cls l_fields]. rewrite Ek, Ec, Ef, Ed.
  assert (El : with_parts l' (unwire_part v <$> l_parts l') = with_parts (with_fields l' (l_fields l)) (unwire_part v <$> l_parts l')) by (rewrite <- Ed, <- Ef; by destruct l').
  destruct k; try discriminate S; by rewrite El.
Qed.
Lemma tail_doc ds xs : fullb ds = true -> typed a ds xs -> zip_with (doc_field v) ds xs = xs.
Proof. intros H K. apply full_doc; [by apply tail_full|by eapply Forall2_length]. Qed.
Lemma back_intro k l ds fs : l_cls l = k -> Forall2 (doc_ok1 a v) (schema k) (wire_fields o l) -> zip_with (doc_field v) (schema k) (wire_fields o l) = ds ->
  refs (schema k) ds = refs (schema k) (l_fields l) -> degrade_fields o l = fs ->
  (k <> CShunt -> forall l', l_cls l' = k -> l_fields l' = ds -> unwire v l' = Ok (with_parts (with_fields l' fs) (unwire_part v <$> l_parts l'))) -> fields_back k l.
Proof.
  intros Ek F <- R <- U. assert (Ed : doc_fields v (wire o l) = zip_with (doc_field v) (schema k) (wire_fields o l)) by (unfold doc_fields, wire; cbn; by rewrite Ek).
  split; [done|]. split; [rewrite Ed; unfold leaf_refs; by rewrite Ek|]. rewrite Ed. exact U.
Qed.
Lemma unwire_same l' fs ps : l_fields l' = fs -> with_parts l' ps = with_parts (with_fields l' fs) ps.
Proof. intros <-. by destruct l'. Qed.
Lemma switch_back l : leaf_ok a CBusSwitch l -> fields_back CBusSwitch l.
Proof.
  intros K. pose proof (fields_typed _ l K ltac:(done)) as T. destruct K as (Ek & _ & F & _). unfold fields_ok in F. rewrite Ek in F. destruct F as [_ F].
  assert (Ew : wire_fields o l = l_fields l) by (unfold wire_fields; by rewrite Ek). assert (Eg : degrade_fields o l = l_fields l) by (unfold degrade_fields; by rewrite Ek).
  eapply back_intro; [done|rewrite Ew; by apply typed_doc| |reflexivity|exact Eg|].
  - rewrite Ew. revert F T. destruct (l_fields l) as [|k [|r fs]]; intros F T; try discriminate F. injection F as -> ->. apply Forall2_cons_inv_l in T as (? & ? & _ & T & [= <- <-]).
    apply Forall2_cons_inv_l in T as (? & ? & _ & T & [= <- <-]). do 3 apply Forall2_cons_inv_l in T as (? & ? & ? & T & ->). by apply Forall2_nil_inv_l in T as ->.
  - intros _ l' Ec Ef. unfold unwire. cbn [with_parts l_cls]. rewrite Ec. cbn match. f_equal. by apply unwire_same.
Qed.
Lemma twt_back l : leaf_ok a CTwoWt l -> fields_back CTwoWt l.
Proof.
  intros K. pose proof (fields_typed _ l K ltac:(done)) as T. destruct K as (Ek & _). assert (Ew : wire_fields o l = l_fields l) by (unfold wire_fields; by rewrite Ek).
  pose proof T as T0. remember (l_fields l) as fs eqn:Efs. do 7 apply Forall2_cons_inv_l in T as (? & ? & ? & T & ->).
  eapply back_intro; [done|rewrite Ew; by apply typed_doc| | | |].
  - rewrite Ew. cbn [schema app zip_with]. match goal with |- context [zip_with (doc_field v) ?ds ?xs] => assert (E : zip_with (doc_field v) ds xs = xs) by (by apply tail_doc); rewrite E end. reflexivity.
  - rewrite <- Efs. by destruct v.
  - unfold degrade_fields. rewrite Ek, <- Efs. reflexivity.
  - intros _ l' Ec Ef. unfold unwire. cbn [with_parts l_cls]. rewrite Ec. cbn match. f_equal. apply unwire_same. rewrite Ef. by destruct v.
Qed.
Lemma thwt_back l : leaf_ok a CThreeWt l -> fields_back CThreeWt l.
Proof.
  intros K. pose proof (fields_typed _ l K ltac:(done)) as T. destruct K as (Ek & _). assert (Ew : wire_fields o l = l_fields l) by (unfold wire_fields; by rewrite Ek).
  pose proof T as T0. remember (l_fields l) as fs eqn:Efs. do 18 apply Forall2_cons_inv_l in T as (? & ? & ? & T & ->). apply Forall2_cons_inv_l in T as (u0 & ? & Ku & T & ->).
  eapply back_intro; [done|rewrite Ew; by apply typed_doc| | | |].
  - rewrite Ew. cbn [schema app zip_with]. match goal with |- context [zip_with (doc_field v) ?ds ?xs] => assert (E : zip_with (doc_field v) ds xs = xs) by (by apply tail_doc); rewrite E end. reflexivity.
  - rewrite <- Efs. by destruct v.
  - unfold degrade_fields. rewrite Ek, <- Efs. reflexivity.
  - intros _ l' Ec Ef. unfold unwire. cbn [with_parts l_cls l_fields]. rewrite Ec, Ef. cbn match. f_equal. assert (N : u0 <> VNum None) by (destruct u0 as [[]|?|?|?|?]; done).
    destruct l'. destruct v; cbn; rewrite ?(bool_decide_eq_false_2 _ N); done.
Qed.
Lemma minus_same x y : minus o x y = minus_opt o x y. Proof. done. Qed.
Lemma dangling_back l : leaf_ok a CDanglingLine l -> fields_back CDanglingLine l.
Proof.
  intros K. pose proof (fields_typed _ l K ltac:(done)) as T. destruct K as (Ek & _ & F & _). unfold fields_ok in F. rewrite Ek in F. destruct F as [_ F].
  pose proof T as T0. remember (l_fields l) as fs eqn:Efs. do 13 apply Forall2_cons_inv_l in T as (? & ? & ? & T & ->). cbn match in F.
  match type of T0 with typed _ _ (?p0 :: ?q0 :: ?r :: ?x :: ?g :: ?b :: ?mn :: ?mx :: ?on :: ?tp :: ?tv :: ?tq :: ?fs) =>
  assert (Ew : wire_fields o l = (if older v 3 && negb (bool_decide (on = VOpt None)) then minus_opt o p0 tp else p0) :: (if older v 3 && negb (bool_decide (on = VOpt None)) then minus_opt o q0 tq else q0) :: r :: x :: g :: b :: mn :: mx :: on :: tp :: tv :: tq :: fs) end.
  { unfold wire_fields. rewrite Ek, <- Efs, run_until_1_2. destruct F as [(-> & _)|[-> | ->]]; [by rewrite andb_false_r|..]; destruct (older v 3); done. }
  eapply back_intro; [done|rewrite Ew| | | |].
  - apply (typed_doc a v) in T0. apply Forall2_cons_1 in T0 as [Hp T0]. apply Forall2_cons_1 in T0 as [Hq T0]. constructor; [|constructor; [|exact T0]]; (destruct (older v 3 && _); [|done]).
    all: unfold doc_ok1 in *; cbn [num_field fd_wattr fd_rattr always fd_r] in *; unfold minus_opt.
    + match type of Hp with value_ok a RNum ?x => destruct x as [[]|?|?|?|?]; try done end; by repeat case_match.
    + match type of Hq with value_ok a RNum ?x => destruct x as [[]|?|?|?|?]; try done end; by repeat case_match.
  - rewrite Ew. cbn [schema app zip_with]. match goal with |- context [zip_with (doc_field v) ?ds ?xs] => assert (E : zip_with (doc_field v) ds xs = xs) by (by apply tail_doc); rewrite E end. reflexivity.
  - rewrite <- Efs. by destruct v.
  - unfold degrade_fields. rewrite Ek, <- Efs. reflexivity.
  - intros _ l' Ec Ef. unfold unwire. cbn [with_parts l_cls l_fields]. rewrite Ec, Ef. cbn match. destruct F as [(-> & -> & -> & -> & -> & -> & _)|[-> | ->]]; destruct l'; destruct v; done.
Qed.
Lemma tie_back l : leaf_ok a CTieLine l -> fields_back CTieLine l.
Proof.
  intros K. pose proof (fields_typed _ l K ltac:(done)) as T. destruct K as (Ek & _). pose proof T as T0. remember (l_fields l) as fs eqn:Efs.
  do 13 apply Forall2_cons_inv_l in T as (? & ? & ? & T & ->). apply Forall2_cons_inv_l in T as (i1 & ? & I1 & T & ->). apply Forall2_cons_inv_l in T as (n1 & ? & N1 & T & ->).
  do 7 apply Forall2_cons_inv_l in T as (? & ? & ? & T & ->). apply Forall2_cons_inv_l in T as (i2 & ? & I2 & T & ->). apply Forall2_cons_inv_l in T as (n2 & ? & N2 & T & ->).
  do 7 apply Forall2_cons_inv_l in T as (? & ? & ? & T & ->). apply Forall2_nil_inv_l in T as ->.
  destruct i1 as [|?|i1|?|?]; try done. destruct n1 as [|?|n1|?|?]; try done. destruct i2 as [|?|i2|?|?]; try done. destruct n2 as [|?|n2|?|?]; try done.
  assert (Ew : exists fs, wire_fields o l = fs /\ fs = fs) by (by eexists). clear Ew.
  eapply back_intro; [done| | | | |].
  - unfold wire_fields. rewrite Ek, <- Efs. cbn [take drop wire_half app]. apply (typed_doc a v) in T0. 
    do 14 (apply Forall2_cons_1 in T0 as [? T0]; constructor; [done|]). apply Forall2_cons_1 in T0 as [? T0]; constructor; [by destruct v|].
    do 8 (apply Forall2_cons_1 in T0 as [? T0]; constructor; [done|]). apply Forall2_cons_1 in T0 as [? T0]; constructor; [by destruct v|]. done.
  - unfold wire_fields. rewrite Ek, <- Efs. cbn [take drop wire_half app]. reflexivity.
  - rewrite <- Efs. by destruct v.
  - unfold degrade_fields. rewrite Ek, <- Efs. cbn [take drop degrade_half app]. reflexivity.
  - intros _ l' Ec Ef. unfold unwire. cbn [with_parts l_cls]. rewrite Ec. cbn match. f_equal. apply unwire_same. rewrite Ef. by destruct v.
Qed.
Lemma shunt_fields l : leaf_ok a CShunt l -> exists b g mx n on tv td fs, l_fields l = b :: g :: mx :: n :: on :: tv :: td :: fs /\
  typed a (drop 3 (schema CShunt)) (n :: on :: tv :: td :: fs) /\
  match l_parts l !! "model" with
  | None => typed a [num_field "bPerSection"; opt_num_field "gPerSection"; nat_field "maximumSectionCount"] [b; g; mx]
  | Some p => p_kind p = PNonLinear /\ b = VNum None /\ g = VNum None /\ mx = VText ""
  end.
Proof.
  intros (Ek & _ & F & _). unfold fields_ok in F. rewrite Ek in F. destruct (l_fields l) as [|b [|g [|mx fs]]]; try done. destruct F as [T M]. pose proof T as T0.
  do 4 apply Forall2_cons_inv_l in T as (? & ? & ? & T & ->). do 8 eexists. split; [done|]. by split.
Qed.
Lemma shunt_attrs l b g mx n on tv td fs : leaf_ok a CShunt l -> l_fields l = b :: g :: mx :: n :: on :: tv :: td :: fs ->
  Forall2 (doc_ok1 a v) (schema CShunt) (wire_fields o l) /\
  doc_fields v (wire o l) =
    (if older v 3 then match l_parts l !! "model" with Some p => VNum (Some (o_b o p n)) | None => b end else VNum None) :: VNum None ::
    (if older v 3 then match l_parts l !! "model" with Some p => VText "1" | None => mx end else VText "") ::
    (match l_parts l !! "model" with Some p => if older v 3 then VText "1" else n | None => n end) ::
    (if older v 2 then VBool false else on) :: (if older v 2 then VNum None else tv) :: (if older v 2 then VNum None else td) :: fs.
Proof.
  intros K Ef. pose proof (proj1 K) as Ek. destruct (shunt_fields l K) as (b' & g' & mx' & n' & on' & tv' & td' & fs' & Ef' & T & M). rewrite Ef in Ef'. injection Ef' as <- <- <- <- <- <- <- <-.
  pose proof T as T0. do 4 apply Forall2_cons_1 in T as [? T].
  assert (Ew : wire_fields o l = match l_parts l !! "model" with Some p => if older v 3 then VNum (Some (o_b o p n)) :: g :: VText "1" :: VText "1" :: on :: tv :: td :: fs else b :: g :: mx :: n :: on :: tv :: td :: fs | None => b :: g :: mx :: n :: on :: tv :: td :: fs end).
  { unfold wire_fields. by rewrite Ek, Ef, run_until_1_2. }
  split.
  - rewrite Ew. apply (typed_doc a v) in T0. destruct (l_parts l !! "model") as [p|].
    + destruct M as (_ & -> & -> & ->). apply Forall2_cons_1 in T0 as [? T0]. destruct v; cbn [older number Nat.ltb Nat.leb]; (constructor; [done|]; constructor; [done|]; constructor; [done|]; constructor; done).
    + do 3 apply Forall2_cons_1 in M as [? M]. constructor; [by destruct v|]. constructor; [by destruct v|]. constructor; [by destruct v|]. done.
  - unfold doc_fields, wire. cbn [with_parts with_fields l_cls l_fields]. rewrite Ek, Ew.
    assert (E : zip_with (doc_field v) (connection_fields ++ pq_fields "") fs = fs) by (by apply tail_doc).
    destruct (l_parts l !! "model") as [p|]; destruct v; cbn [older number Nat.ltb Nat.leb schema app zip_with]; rewrite E; done.
Qed.
Lemma back k l : leaf_ok a k l -> fields_back k l.
Proof.
  intros K. destruct (special k) eqn:S; [|by apply plain_back]. destruct k; try discriminate S; [by apply switch_back| |by apply dangling_back|by apply twt_back|by apply thwt_back|by apply tie_back].
  destruct (shunt_fields l K) as (b & g & mx & n & on & tv & td & fs & Ef & T & M). destruct (shunt_attrs _ _ _ _ _ _ _ _ _ K Ef) as [F E]. split; [done|]. split; [|done].
  rewrite E. unfold leaf_refs. rewrite (proj1 K), Ef. done.
Qed.
Definition doc_leaf (l : leaf) : leaf := with_parts (doc_head v l) (doc_parts v (l_cls l) (l_parts l)).
Lemma unwire_ok k l : leaf_ok a k l -> unwire v (doc_leaf (wire o l)) = Ok (degrade_leaf o l).
Proof.
  intros K. pose proof (proj1 K) as Ek. destruct (decide (k = CShunt)) as [->|N].
  - destruct (shunt_fields l K) as (b & g & mx & n & on & tv & td & fs & Ef & T & M). destruct (shunt_attrs _ _ _ _ _ _ _ _ _ K Ef) as [F E].
    unfold unwire, doc_leaf, doc_head. cbn [with_parts l_cls l_fields l_parts]. rewrite E. cbn [wire with_parts with_fields l_cls l_parts]. rewrite Ek. cbn match. rewrite run_until_1_2.
    unfold degrade_leaf. assert (Eg : degrade_fields o l = let reg := if older v 2 then [VBool false; VNum None; VNum None] else [on; tv; td] in
      match l_parts l !! "model" with
      | Some p => if older v 3 then VNum (Some (o_b o p n)) :: VNum None :: VText "1" :: VText "1" :: reg ++ fs else b :: g :: mx :: n :: reg ++ fs
      | None => b :: (if older v 3 then VNum None else g) :: mx :: n :: reg ++ fs
      end) by (unfold degrade_fields; by rewrite Ek, Ef).
    rewrite Eg, Ek. destruct (l_parts l !! "model") as [p|] eqn:Em.
    + rewrite (parts_back CShunt l K) by (by rewrite Em). destruct M as (Kp & -> & -> & ->). destruct (older v 3) eqn:O3.
      * destruct (older v 2); reflexivity.
      * destruct (degrade_parts v l !! "model") as [q|] eqn:Q.
        -- unfold degrade_parts in Q. rewrite map_lookup_imap, Em in Q. cbn in Q. destruct (lost v (l_cls l) "model" p); [done|]. injection Q as <-.
           assert (Z : degrade_part v p = p) by (destruct p as [k' ? ?]; cbn in Kp; by subst k'). rewrite Z. destruct p as [k' ? ?]; cbn in Kp; subst k'.
           destruct (older v 2); reflexivity.
        -- exfalso. unfold degrade_parts in Q. rewrite map_lookup_imap, Em in Q. cbn in Q. unfold lost in Q. rewrite Ek, O3 in Q.
           destruct p as [k' ? ?]; cbn in Kp; subst k'. destruct v; try discriminate O3; done.
    + destruct (shunt_back l _ _ _ _ K Ef Em) as [Q1 Q2]. destruct (older v 3) eqn:O3.
      * rewrite <- Q2, delete_notin by (by rewrite lookup_fmap, Q1). destruct (older v 2); reflexivity.
      * rewrite lookup_fmap, Q1. cbn [option_fmap option_map fmap unwire_part p_kind]. rewrite Q2. destruct (older v 2); reflexivity.
  - destruct (back k l K) as (_ & _ & U). rewrite (U N); [|done|done]. unfold doc_leaf. cbn [with_parts l_parts with_fields]. cbn [wire with_parts with_fields l_cls l_parts]. rewrite Ek, (parts_back k l K) by done.
    done.
Qed.
(** The sub-elements the reader refuses. *)
Definition leaf_readable (l : leaf) : Prop := older v 1 = true -> forall key, key ∈ since_1_1 (l_cls l) -> l_parts l !! key = None.
Lemma slots_readable k l : leaf_ok a k l -> leaf_readable l -> Forall (slot_readable v (doc_head v (wire o l)) (wire_parts v l)) (slots k).
Proof.
  intros K Rd. pose proof (proj1 K) as Ek. apply Forall_forall. intros s Hs [[n p] Hp]. unfold slot_part in Hp. destruct (wire_parts v l !! sl_key s) as [q|] eqn:Eq; [|done].
  destruct (run_from (sl_run s) v) eqn:R; [|done].
  assert (Hk : ver_lt v (sl_rassert s) = false).
  { apply not_true_is_false. intros V. destruct (rassert_table v k s Hs R V) as [O1 Hin]. assert (Z : l_parts l !! sl_key s = None) by (apply Rd; [done|by rewrite Ek]).
    assert (N : l_cls l = CShunt -> sl_key s <> "model") by (intros E _; rewrite Ek in E; rewrite E in Hin; by apply elem_of_nil in Hin). rewrite wire_parts_lookup, Z in Eq by (by left). done. }
  split; [done|]. unfold settable. cbn [doc_head wire with_parts with_fields l_cls l_fields]. rewrite Ek. destruct (decide (k = CDanglingLine)) as [->|N]; [|by destruct k].
  assert (T := fields_typed _ l K ltac:(done)). destruct K as (_ & _ & F & _). unfold fields_ok in F. rewrite Ek in F. destruct F as [_ F].
  destruct (String.eqb_spec (sl_key s) "reactiveLimits") as [Z|Z]; [|by destruct (doc_fields v (wire o l)) as [|? [|? [|? [|? [|? [|? [|? [|? [|? ?]]]]]]]]]].
  rewrite (run_table v _ s Hs), Z in R. assert (O3 : older v 3 = false) by (destruct v; try done; by vm_compute in R).
  assert (Eq' : is_Some (l_parts l !! "reactiveLimits")). { rewrite wire_parts_lookup in Eq by (left; by rewrite Ek). rewrite Z in Eq. by destruct (l_parts l !! "reactiveLimits"). }
  remember (l_fields l) as fs eqn:Efs. do 12 apply Forall2_cons_inv_l in T as (? & ? & ? & T & ->). cbn match in F. destruct F as [(-> & _ & _ & _ & _ & _ & X)|F]; [by rewrite X in Eq'; destruct Eq'|].
  unfold doc_fields, wire, wire_fields. cbn [with_parts with_fields l_cls l_fields]. rewrite Ek, <- Efs, run_until_1_2, O3.
  destruct F as [-> | ->]; destruct v; try discriminate O3; done.
Qed.
End leaf.
