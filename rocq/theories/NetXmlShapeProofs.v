(** The networks of NetXmlShape.v are those for which the proofs on the converter are made. *)
From Verif Require Export NetXmlShape.
From Verif Require Import NetXmlDec.

Definition kind_of (r : rkind) : kind :=
  match r with
  | RNum => Number | RNumOpt => MaybeNumber | RBool | RBoolOr _ => Flag | RText | RNat | RAnonMand | RAnonText => Word
  | RTextOr d => if String.eqb d "" then Word else FilledWord
  | ROpt => MaybeWord | RRef | RAnon => Ref | RAnonOpt => MaybeRef | RTags => Tags
  end.
Definition kinds (ds : list fdesc) : list kind := (fun d => kind_of (fd_r d)) <$> ds.
Lemma value_iff a r x : value_valid a (kind_of r) x <-> value_ok a r x.
Proof.
  destruct r; cbn [kind_of]; try (destruct x as [[]|?|?|[]|?]; cbn; (naive_solver || done)).
  destruct (String.eqb_spec d ""); destruct x; cbn; naive_solver.
Qed.
Lemma valid_iff a ds xs : valid a (kinds ds) xs <-> typed a ds xs.
Proof. unfold valid, typed, kinds. rewrite Forall2_fmap_l. split; intros H; (eapply Forall2_impl; [exact H|]); intros d x; apply value_iff. Qed.
Lemma attributes_eq c : attributes c = kinds (schema c). Proof. destruct c; reflexivity. Qed.
Lemma part_attributes_eq k : part_attributes k = kinds (pschema k). Proof. destruct k; reflexivity. Qed.
Lemma elements_iff k n ks : (n, ks) ∈ part_elements k <-> exists ds, cschema k n = Some ds /\ ks = kinds ds.
Proof.
  destruct k; cbn [part_elements cschema]; rewrite ?elem_of_cons, ?elem_of_nil;
    repeat match goal with |- context [String.eqb n ?t] => destruct (String.eqb_spec n t) as [->|?] end;
    (split; [intros H; (decompose [or] H || idtac); try done; repeat match goal with H : (_, _) = _ |- _ => injection H as ?; subst end; try done; by eexists|
             intros (ds & E & ->); try done; injection E as <-; try (by left); (by right; left)]).
Qed.
Lemma parts_iff k key q : (key, q) ∈ parts k <-> q <> PLinear /\ exists s, s ∈ slots k /\ sl_key s = key /\ q ∈ (sl_kinds s).*2.
Proof.
  assert (E : parts k = filter (fun p => p.2 <> PLinear) (mjoin ((fun s => (fun q => (sl_key s, q)) <$> (sl_kinds s).*2) <$> slots k))) by (destruct k; reflexivity).
  rewrite E, elem_of_list_filter. cbn [snd]. apply and_iff_compat_l. rewrite elem_of_list_join. split.
  - intros (l & H & Hl). apply elem_of_list_fmap in Hl as (s & -> & Hs). apply elem_of_list_fmap in H as (q' & [= -> ->] & Hq). by exists s.
  - intros (s & Hs & <- & Hq). eexists. split; [|apply elem_of_list_fmap; exists s; split; [reflexivity|done]]. apply elem_of_list_fmap. by exists q.
Qed.
Lemma part_iff a p : part_valid a p <-> part_ok a p.
Proof.
  unfold part_valid, part_ok. rewrite part_attributes_eq, valid_iff. apply and_iff_compat_l. split.
  - intros (H & L & C). split; [|destruct (p_kind p); naive_solver]. intros n xs Hc. destruct (H n xs Hc) as (ks & Hk & V). apply elements_iff in Hk as (ds & E & ->). exists ds. split; [done|by apply valid_iff].
  - intros (H & L). split; [|destruct (p_kind p); naive_solver]. intros n xs Hc. destruct (H n xs Hc) as (ds & E & V). exists (kinds ds). split; [apply elements_iff; by eexists|by apply valid_iff].
Qed.
Lemma fields_iff a l : (forall p, l_cls l = CShunt -> l_parts l !! "model" = Some p -> p_kind p = PNonLinear) -> fields_valid a l <-> fields_ok a l.
Proof.
  intros N. unfold fields_valid, fields_ok. rewrite ?attributes_eq, ?valid_iff. destruct (l_cls l) eqn:C; rewrite ?attributes_eq, ?valid_iff; try done.
  - change (drop 3 (kinds (schema CShunt))) with (kinds (drop 3 (schema CShunt))). destruct (l_parts l !! "model") as [p|] eqn:E.
    + split.
      * intros (fs & -> & V). rewrite valid_iff in V. split; [done|]. split; [by apply N|done].
      * destruct (l_fields l) as [|b [|g [|mx fs]]]; try done. intros (T & _ & -> & -> & ->). exists fs. by rewrite valid_iff.
    + rewrite valid_iff. unfold typed. split.
      * intros V. cbn [schema app] in V. do 3 (apply Forall2_cons_inv_l in V as (? & ? & ? & V & ->)). split; [exact V|]. repeat (constructor; [done|]). constructor.
      * destruct (l_fields l) as [|b [|g [|mx fs]]]; try done. intros (T & M). do 3 (apply Forall2_cons_1 in M as [? M]). cbn [schema app]. do 3 (constructor; [done|]). exact T.
  - assert (X : forall P Q R : Prop, (P -> Q <-> R) -> P /\ Q <-> P /\ R) by naive_solver. apply X. clear X. generalize (l_fields l) as fs. intros fs T.
    cbn [schema app] in T. unfold typed in T. do 12 (apply Forall2_cons_inv_l in T as (? & ? & _ & T & ->)). cbn. naive_solver.
Qed.
Lemma leaf_iff a k l : leaf_valid a k l <-> leaf_ok a k l.
Proof.
  unfold leaf_valid, leaf_ok. split.
  - intros (C & I & F & B & U & P). split; [done|]. split; [done|]. split.
    { apply fields_iff; [|done]. intros p Es E. destruct (P _ _ E) as [_ H]. rewrite <- C, Es in H. cbn in H. rewrite !elem_of_cons, elem_of_nil in H. naive_solver. }
    split; [done|]. split; [done|]. intros key p E. destruct (P key p E) as [V H]. split; [by apply part_iff|]. by apply parts_iff in H as [_ H].
  - intros (C & I & F & B & U & P). assert (N : forall p, l_cls l = CShunt -> l_parts l !! "model" = Some p -> p_kind p = PNonLinear).
    { intros p Es E. unfold fields_ok in F. rewrite Es, E in F. destruct (l_fields l) as [|? [|? [|? ?]]]; try done. apply F. }
    split; [done|]. split; [done|]. split; [by apply fields_iff|]. split; [done|]. split; [done|]. intros key p E. destruct (P key p E) as [V H]. split; [by apply part_iff|]. apply parts_iff.
    split; [|done]. intros Ep. destruct H as (s & Hs & <- & Hq). rewrite Ep in Hq.
    assert (Hm : k = CShunt /\ sl_key s = "model").
    { clear -Hs Hq. assert (D : bool_decide (Forall (fun s => PLinear ∈ (sl_kinds s).*2 -> k = CShunt /\ sl_key s = "model") (slots k)) = true) by (destruct k; reflexivity).
      apply bool_decide_eq_true in D. rewrite Forall_forall in D. by apply D. }
    destruct Hm as [-> Hm]. rewrite Hm in E. rewrite (N p C E) in Ep. done.
Qed.
Lemma leaves_iff a k ls : Forall (leaf_valid a k) ls <-> Forall (leaf_ok a k) ls. Proof. apply Forall_iff. intros l. apply leaf_iff. Qed.
Lemma refers_iff ds xs r : refers (kinds ds) xs r <-> r ∈ refs ds xs.
Proof.
  unfold refers, refs, kinds. rewrite elem_of_list_join. setoid_rewrite list_lookup_fmap. split.
  - intros (i & k & x & Hk & Hx & R). apply fmap_Some in Hk as (d & Hd & ->). exists (field_ref d x). split.
    + unfold field_ref. destruct (fd_r d); try (by destruct x as [|?|?|[]|?]); cbn in R; try (destruct x as [|?|?|[]|?]; cbn in R; try done; injection R as ->; left).
      destruct (String.eqb _ _); by destruct x.
    + apply elem_of_list_lookup. exists i. rewrite lookup_zip_with, Hd. cbn. by rewrite Hx.
  - intros (l & Hr & Hl). apply elem_of_list_lookup in Hl as (i & Hi). apply lookup_zip_with_Some in Hi as (d & x & -> & Hd & Hx). exists i, (kind_of (fd_r d)), x. rewrite Hd. split; [done|]. split; [done|].
    unfold field_ref in Hr. destruct (fd_r d); try (by apply elem_of_nil in Hr); destruct x as [|?|?|[]|?]; cbn in Hr; try (by apply elem_of_nil in Hr); apply elem_of_list_singleton in Hr as ->; done.
Qed.
Lemma leaf_refers_iff l r : leaf_refers l r <-> r ∈ leaf_refs l. Proof. unfold leaf_refers. rewrite attributes_eq. apply refers_iff. Qed.
Lemma part_refers_iff l r : part_refers l r <-> r ∈ leaf_part_refs l.
Proof.
  unfold part_refers, leaf_part_refs. rewrite elem_of_list_join. split.
  - intros (key & p & E & H). exists (part_refs p). split; [|apply elem_of_list_fmap; exists p; split; [done|]; apply elem_of_list_fmap; exists (key, p); split; [done|]; by apply elem_of_map_to_list].
    unfold part_refs. apply elem_of_app. destruct H as [H|(n & xs & ks & Hc & Hk & H)]; [left; rewrite part_attributes_eq in H; by apply refers_iff|right].
    apply elements_iff in Hk as (ds & Ed & ->). apply elem_of_list_join. eexists. split; [|apply elem_of_list_fmap; exists (n, xs); split; [reflexivity|done]]. cbn. rewrite Ed. by apply refers_iff.
  - intros (rs & Hr & Hp). apply elem_of_list_fmap in Hp as (p & -> & Hp). apply elem_of_list_fmap in Hp as ([key p'] & -> & Hp). apply elem_of_map_to_list in Hp. exists key, p'. split; [done|].
    cbn in Hr. unfold part_refs in Hr. apply elem_of_app in Hr as [Hr|Hr]; [left; rewrite part_attributes_eq; by apply refers_iff|right].
    apply elem_of_list_join in Hr as (rs & Hr & Hc). apply elem_of_list_fmap in Hc as ([n xs] & -> & Hc). cbn in Hr. destruct (cschema (p_kind p') n) as [ds|] eqn:Ed; [|by apply elem_of_nil in Hr].
    exists n, xs, (kinds ds). split; [done|]. split; [apply elements_iff; by eexists|by apply refers_iff].
Qed.
Lemma bus_iff a v l : bus_valid a v l <-> bus_ok a v l. Proof. unfold bus_valid, bus_ok. by rewrite leaf_iff. Qed.
Lemma vl_iff a v x : vl_valid a v x <-> vl_ok a v x.
Proof.
  unfold vl_valid, vl_ok. change equipments with eq_classes. rewrite leaf_iff.
  assert (E1 : Forall (bus_valid a v) (v_buses x) <-> Forall (bus_ok a v) (v_buses x)) by (apply Forall_iff; intros l; apply bus_iff).
  assert (E2 : Forall (fun l => l_cls l ∈ eq_classes /\ leaf_valid a (l_cls l) l) (v_eqs x) <-> Forall (fun l => l_cls l ∈ eq_classes /\ leaf_ok a (l_cls l) l) (v_eqs x)) by (apply Forall_iff; intros l; by rewrite leaf_iff). rewrite E2. destruct (v_nb x); rewrite !leaves_iff, ?E1;
  setoid_rewrite leaf_refers_iff; done.
Qed.
Lemma sub_iff a v x : sub_valid a v x <-> sub_ok a v x.
Proof.
  unfold sub_valid, sub_ok. rewrite leaf_iff, !leaves_iff. assert (E1 : Forall (vl_valid a v) (s_vls x) <-> Forall (vl_ok a v) (s_vls x)) by (apply Forall_iff; intros y; apply vl_iff). rewrite E1.
  setoid_rewrite leaf_refers_iff. done.
Qed.
Lemma net_iff a v n : net_valid a v n <-> net_ok a v n.
Proof.
  unfold net_valid, net_ok. rewrite leaf_iff, leaves_iff. assert (E1 : Forall (sub_valid a v) (n_subs n) <-> Forall (sub_ok a v) (n_subs n)) by (apply Forall_iff; intros y; apply sub_iff). rewrite E1.
  assert (E2 : Forall (fun l => l_cls l ∈ [CLine; CTieLine] /\ leaf_valid a (l_cls l) l) (n_lines n) <-> Forall (fun l => l_cls l ∈ [CLine; CTieLine] /\ leaf_ok a (l_cls l) l) (n_lines n)) by (apply Forall_iff; intros l; by rewrite leaf_iff). rewrite E2.
  setoid_rewrite leaf_refers_iff. setoid_rewrite part_refers_iff. done.
Qed.
#[global] Instance net_valid_dec a v n : Decision (net_valid a v n). Proof. eapply dec_iff; [symmetry; apply net_iff|]. apply _. Defined.
#[global] Instance leaf_valid_dec a k l : Decision (leaf_valid a k l). Proof. eapply dec_iff; [symmetry; apply leaf_iff|]. apply _. Defined.
