(** The extensions of a network: written and read back. *)
From Verif Require Import Xml XmlSpec XmlProofs Anonymizer AnonymizerProofs NetXml NetXmlSpec NetXmlFields NetXmlParts NetXmlProofs ExtXml ExtXmlSpec ExtXmlContent.

(** * Options and serializers. *)
Lemma selected_asked only n : selected only n = true <-> asked only n. Proof. apply bool_decide_eq_true. Qed.
Lemma names_inj k1 k2 : k1 ∈ known -> k2 ∈ known -> kind_name k1 = kind_name k2 -> k1 = k2.
Proof.
  assert (H : forallb (fun k1 => forallb (fun k2 => bool_decide (kind_name k1 = kind_name k2 -> k1 = k2)) known) known = true) by (vm_compute; reflexivity).
  rewrite forallb_forall in H. intros H1%elem_of_list_In H2%elem_of_list_In. specialize (H _ H1). rewrite forallb_forall in H. specialize (H _ H2). by apply bool_decide_eq_true in H.
Qed.
Lemma provider_known reg k : k ∈ known -> find_provider reg (kind_name k) = if bool_decide (kind_name k ∈ reg) then Some k else None.
Proof.
  intros H. unfold find_provider. case_bool_decide; [|done]. destruct (list_find_elem_of (fun k' => kind_name k' = kind_name k) known k H eq_refl) as [[i k'] E]. rewrite E. cbn.
  apply list_find_Some in E as (E1 & E2 & _). apply elem_of_list_lookup_2 in E1. f_equal. by apply names_inj.
Qed.
Lemma provider_loaded reg n : is_Some (find_provider reg n) <-> loaded reg n.
Proof.
  unfold find_provider, loaded, library. case_bool_decide as H; [|split; [by intros []|tauto]]. rewrite elem_of_list_fmap. split.
  - intros [k E]. apply fmap_Some in E as ([i k'] & E & ->). apply list_find_Some in E as (E1 & E2 & _). split; [done|]. exists k'. split; [done|]. by apply elem_of_list_lookup_2 in E1.
  - intros (_ & k & -> & Hk). destruct (list_find_elem_of (fun k' => kind_name k' = kind_name k) known k Hk eq_refl) as [p E]. rewrite E. by eexists.
Qed.

(** * Objects and terminals of the network read back. *)
Lemma in_mjoin_unique {A B} (f : A -> list B) (ls : list A) x y z : NoDup (mjoin (f <$> ls)) -> x ∈ ls -> y ∈ ls -> z ∈ f x -> z ∈ f y -> x = y.
Proof.
  induction ls as [|w ls IH]; intros N Hx Hy Zx Zy; [by apply elem_of_nil in Hx|]. change (mjoin (f <$> w :: ls)) with (f w ++ mjoin (f <$> ls)) in N. apply NoDup_app in N as (_ & D & N).
  apply elem_of_cons in Hx as [->|Hx], Hy as [->|Hy]; [done| | |by apply IH].
  - exfalso. apply (D z Zx). apply in_mjoin. by exists y.
  - exfalso. apply (D z Zy). apply in_mjoin. by exists x.
Qed.
Lemma NoDup_mjoin_in {A B} (f : A -> list B) (ls : list A) x : NoDup (mjoin (f <$> ls)) -> x ∈ ls -> NoDup (f x).
Proof.
  induction ls as [|w ls IH]; intros N Hx; [by apply elem_of_nil in Hx|]. change (mjoin (f <$> w :: ls)) with (f w ++ mjoin (f <$> ls)) in N. apply NoDup_app in N as (N1 & _ & N).
  apply elem_of_cons in Hx as [->|Hx]; [done|]. by apply IH.
Qed.
Lemma find_object_ok n l : NoDup (mjoin (leaf_names <$> net_leaves n)) -> l ∈ net_leaves n -> find_object n (l_id l) = Some l.
Proof.
  intros N H. unfold find_object. destruct (list_find_elem_of (fun l0 => l_id l = l_id l0 \/ is_Some (l_aliases l0 !! l_id l)) (net_leaves n) l H) as [[i l'] E]; [by left|]. rewrite E. cbn.
  apply list_find_Some in E as (E1 & E2 & _). apply elem_of_list_lookup_2 in E1. f_equal. apply (in_mjoin_unique leaf_names (net_leaves n) l' l (l_id l)); [done..| |left].
  unfold leaf_names. destruct E2 as [->|[t E2]]; [left|]. right. apply elem_of_list_fmap. exists (l_id l, t). split; [done|]. by apply elem_of_map_to_list.
Qed.
Lemma kept_field o l c d i y : (c, d, i) ∈ side_table -> l_cls l = c -> l_fields l !! i = Some y -> degrade_fields o l !! i = Some y /\ fst <$> list_find (fun f => fd_wattr f V1_5 = Some ("voltageLevelId" +:+ d)) (schema c) = Some i.
Proof.
  intros H C F. unfold side_table in H. rewrite !elem_of_cons in H. unfold degrade_fields. rewrite C. set (fs := l_fields l) in *. clearbody fs.
  repeat (destruct H as [[= -> -> ->]|H]; [split; [|vm_compute; reflexivity]|]); [..|by apply elem_of_nil in H].
  all: first [exact F | do 7 (destruct fs as [|? fs]; [done|]); exact F | do 19 (destruct fs as [|? fs]; [done|]); exact F | rewrite lookup_app_l by (rewrite take_length; apply lookup_lt_Some in F; lia); rewrite lookup_take by lia; exact F].
Qed.

Section anonymized.
Context (a : bool) (o : opts).
Notation v := (o_ver o).
Notation winv := (winv a).
Notation grows := (grows a).
Lemma names_degraded n : net_ok a v n -> NoDup (mjoin (leaf_names <$> net_leaves (degrade o n))).
Proof.
  intros (_ & _ & _ & _ & N & _). rewrite net_leaves_degrade. apply (submseteq_NoDup _ _ (degrade_names_all o (net_leaves n))) in N.
  replace (mjoin (leaf_names <$> degrade_root o (n_leaf n) :: (degrade_leaf o <$> mjoin (sub_leaves <$> n_subs n) ++ n_lines n ++ n_hvdcs n))) with (mjoin (names o <$> net_leaves n)); [done|].
  unfold net_leaves. change (mjoin (?f <$> ?x :: ?ls)) with (f x ++ mjoin (f <$> ls)). f_equal. rewrite <- list_fmap_compose. done.
Qed.
Lemma degraded_in n l : l ∈ objects n -> degrade_leaf o l ∈ net_leaves (degrade o n).
Proof. intros H. rewrite net_leaves_degrade. right. by apply elem_of_list_fmap_1. Qed.
Lemma find_degraded n l : net_ok a v n -> l ∈ objects n -> find_object (degrade o n) (l_id l) = Some (degrade_leaf o l).
Proof. intros K H. change (l_id l) with (l_id (degrade_leaf o l)). apply find_object_ok; [by apply names_degraded|by apply degraded_in]. Qed.
Lemma level_leaves n s x l : s ∈ n_subs n -> x ∈ s_vls s -> l ∈ v_sections x ++ v_eqs x -> l ∈ objects n.
Proof.
  intros Hs Hx Hl. unfold objects. apply elem_of_app. left. apply in_mjoin. exists s. split; [done|]. unfold sub_leaves. right. apply elem_of_app. left. apply in_mjoin. exists x. split; [done|].
  unfold vl_leaves. right. rewrite elem_of_app in Hl. rewrite !elem_of_app. tauto.
Qed.
Lemma in_leaf_names l : l_id l ∈ leaf_names l. Proof. left. Qed.
Lemma level_unique n s x s' x' l l' : net_ok a v n -> s ∈ n_subs n -> x ∈ s_vls s -> l ∈ v_sections x ++ v_eqs x -> s' ∈ n_subs n -> x' ∈ s_vls s' -> l' ∈ v_sections x' ++ v_eqs x' -> l_id l = l_id l' -> x = x'.
Proof.
  intros (_ & _ & _ & _ & N & _) Hs Hx Hl Hs' Hx' Hl' E. unfold net_leaves in N. change (mjoin (leaf_names <$> ?y :: ?ls)) with (leaf_names y ++ mjoin (leaf_names <$> ls)) in N.
  apply NoDup_app in N as (_ & _ & N). rewrite fmap_app, mjoin_app in N. apply NoDup_app in N as (N & _ & _). rewrite mjoin_fmap in N.
  assert (Inv : forall x l, l ∈ v_sections x ++ v_eqs x -> l_id l ∈ mjoin (leaf_names <$> vl_leaves x)).
  { clear. intros x l Hl. apply in_mjoin. exists l. split; [|left]. unfold vl_leaves. right. rewrite elem_of_app in Hl. rewrite !elem_of_app. tauto. }
  assert (Ins : forall s x l, x ∈ s_vls s -> l ∈ v_sections x ++ v_eqs x -> l_id l ∈ mjoin (leaf_names <$> sub_leaves s)).
  { intros s0 x0 l0 Hx0 Hl0. unfold sub_leaves. change (mjoin (leaf_names <$> ?y :: ?ls)) with (leaf_names y ++ mjoin (leaf_names <$> ls)). apply elem_of_app. right. rewrite fmap_app, mjoin_app. apply elem_of_app. left.
    rewrite mjoin_fmap. apply (in_mjoin (fun x => mjoin (leaf_names <$> vl_leaves x))). exists x0. split; [done|]. by apply Inv. }
  assert (s = s') as <-.
  { eapply (in_mjoin_unique (fun s => mjoin (leaf_names <$> sub_leaves s))); [exact N|done|done|by eapply Ins|rewrite E; by eapply Ins]. }
  apply (NoDup_mjoin_in (fun s => mjoin (leaf_names <$> sub_leaves s)) _ s) in N; [|done]. unfold sub_leaves in N. change (mjoin (leaf_names <$> ?y :: ?ls)) with (leaf_names y ++ mjoin (leaf_names <$> ls)) in N.
  apply NoDup_app in N as (_ & _ & N). rewrite fmap_app, mjoin_app in N. apply NoDup_app in N as (N & _ & _). rewrite mjoin_fmap in N.
  eapply (in_mjoin_unique (fun x => mjoin (leaf_names <$> vl_leaves x))); [exact N|done|done|by apply Inv|rewrite E; by apply Inv].
Qed.
Lemma injection_cls n s x l : net_ok a v n -> s ∈ n_subs n -> x ∈ s_vls s -> l ∈ v_sections x ++ v_eqs x -> is_injection (l_cls l) = true.
Proof.
  intros (_ & Fs & _) Hs Hx Hl. rewrite Forall_forall in Fs. destruct (Fs s Hs) as (_ & Fv & _). rewrite Forall_forall in Fv. destruct (Fv x Hx) as (_ & T & Fe & _). apply elem_of_app in Hl as [Hl|Hl].
  - destruct (v_nb x).
    + destruct T as (_ & T & _). rewrite Forall_forall in T. destruct (T l Hl) as [-> _]. done.
    + destruct T as (T & _). rewrite T in Hl. by apply elem_of_nil in Hl.
  - rewrite Forall_forall in Fe. destruct (Fe l Hl) as [C _]. unfold eq_classes in C. rewrite !elem_of_cons in C. repeat destruct C as [->|C]; try done. by apply elem_of_nil in C.
Qed.
Lemma levels_degrade n : levels (degrade o n) = degrade_vl o <$> levels n.
Proof. unfold levels. cbn [n_subs degrade]. by apply mjoin_fmap_fmap. Qed.
Lemma terminal_ok n id side vl : net_ok a v n -> terminal_in n id side vl -> terminal_level (degrade o n) id side = Some vl.
Proof.
  intros K H. destruct H as [s x l Hs Hx Hl|l d side i vl Hl Hd Hi Hf]; unfold terminal_level.
  - rewrite (find_degraded n l K) by (by eapply level_leaves). cbn [mbind option_bind]. change (l_cls (degrade_leaf o l)) with (l_cls l). rewrite (injection_cls n s x l) by done. change (l_id (degrade_leaf o l)) with (l_id l).
    assert (Lx : degrade_vl o x ∈ levels (degrade o n)). { rewrite levels_degrade. apply elem_of_list_fmap_1. apply in_mjoin. by exists s. }
    assert (Ids : forall x, map l_id (v_sections (degrade_vl o x) ++ v_eqs (degrade_vl o x)) = l_id <$> v_sections x ++ v_eqs x).
    { intros x0. cbn [degrade_vl v_sections v_eqs]. rewrite <- fmap_app. change (map l_id ?z) with (l_id <$> z). rewrite <- list_fmap_compose. done. }
    destruct (list_find_elem_of (fun x => l_id l ∈ map l_id (v_sections x ++ v_eqs x)) (levels (degrade o n)) (degrade_vl o x) Lx) as [[j y] E].
    { rewrite Ids. by apply elem_of_list_fmap_1. }
    rewrite E. cbn. apply list_find_Some in E as (E1 & E2 & _). apply elem_of_list_lookup_2 in E1. rewrite levels_degrade in E1. apply elem_of_list_fmap in E1 as (x' & -> & Hx').
    apply in_mjoin in Hx' as (s' & Hs' & Hx'). rewrite Ids in E2. apply elem_of_list_fmap in E2 as (l' & E2 & Hl'). f_equal. cbn. by rewrite (level_unique n s x s' x' l l').
  - assert (Ho : l ∈ objects n).
    { unfold net_leaves in Hl. apply elem_of_cons in Hl as [->|Hl]; [|done]. exfalso. destruct K as ((C & _) & _). rewrite C in Hi.
      unfold side_table in Hi. repeat (apply elem_of_cons in Hi as [Hi|Hi]; [discriminate Hi|]). by apply elem_of_nil in Hi. }
    rewrite (find_degraded n l K Ho). cbn [mbind option_bind]. pose proof Hi as T. destruct (kept_field o l _ d i _ T eq_refl Hf) as [F L].
    assert (Lv : level_field (degrade_leaf o l) d = Some vl).
    { unfold level_field, field_value. cbn [degrade_leaf l_cls l_fields]. destruct (list_find _ (schema (l_cls l))) as [[i' f]|]; [|done]. cbn in L. injection L as ->. cbn. by rewrite F. }
    cbn [degrade_leaf l_cls]. unfold side_table in T. rewrite !elem_of_cons in T. rewrite !elem_of_cons in Hd. destruct Hd as [[= -> ->]|[[= -> ->]|[[= -> ->]|Hd%elem_of_nil]]]; [..|done].
    all: repeat (destruct T as [T|T]; [first [discriminate T|injection T as T _; rewrite T; cbn; by rewrite Lv]|]); by apply elem_of_nil in T.
Qed.
(** The checks of the readers pass. *)
Lemma connectable c : c ∈ injections ++ others -> is_connectable c = true.
Proof. assert (H : forallb is_connectable (injections ++ others) = true) by done. rewrite forallb_forall in H. intros X%elem_of_list_In. by apply H. Qed.
Lemma clock_hour x : hour x -> clock x = true.
Proof. intros [->|(t & -> & H)]; [done|]. cbn. by apply bool_decide_eq_true_2. Qed.
Lemma not_negative_ok sg x : nonneg sg x -> not_negative sg (VNum x) = true.
Proof. intros H. destruct x as [t|]; [|done]. cbn. by rewrite (H t eq_refl). Qed.
Lemma divider_ok sg t : nonneg sg (Some t) -> above_one sg t = false -> divider sg (VNum (Some t)) = true.
Proof. intros H A. cbn. by rewrite (H t eq_refl), A. Qed.
Lemma child_ids_cons c cs : child_ids (c :: cs) = match match ch_fields c !! 0 with Some (VText id) => if String.eqb id "" then None else Some id | _ => None end with Some y => y :: child_ids cs | None => child_ids cs end.
Proof. done. Qed.
Lemma ids_nodup cs : unique_ids cs -> NoDup (child_ids cs).
Proof.
  induction cs as [|c cs IH]; intros U; [constructor|].
  assert (U' : unique_ids cs) by (intros i j x y id Hi Hj F1 F2 N; specialize (U (S i) (S j) x y id Hi Hj F1 F2 N); by injection U).
  specialize (IH U'). rewrite child_ids_cons. destruct (ch_fields c !! 0) as [f|] eqn:F; [|done]. destruct f as [| |id| |]; try done. destruct (String.eqb_spec id "") as [_|N]; [done|]. constructor; [|done].
  intros X. apply elem_of_list_omap in X as (d & Hd & X). apply elem_of_list_lookup_1 in Hd as [j Hj]. destruct (ch_fields d !! 0) as [f|] eqn:F'; [|done]. destruct f as [| |id'| |]; try done. destruct (String.eqb_spec id' ""); [done|]. injection X as ->.
  specialize (U 0 (S j) c d id eq_refl Hj F F' N). done.
Qed.
Lemma discrete_accept k c : discrete k c -> discrete_ok k c = true.
Proof.
  intros (id & ty & tap & vt & x & valid & _ & E & Ty & Sw & Tap & Tc & Vt & P). unfold discrete_ok. rewrite E. unfold props_ok. rewrite (bool_decide_eq_true_2 (ch_props c !! "" = None)) by done.
  rewrite (bool_decide_eq_true_2 (ty ∈ discrete_types)) by done.
  assert (Hx : x <> "") by (destruct Vt as [(_ & [-> | ->])|[[_ ?]|[_ ?]]]; done). apply String.eqb_neq in Hx. rewrite Hx.
  assert (Hvt : vt ∈ ["BOOLEAN"; "INT"; "STRING"]) by (destruct Vt as [[-> _]|[[-> _]|[-> _]]]; by apply (bool_decide_eq_true_1 _); vm_compute). rewrite (bool_decide_eq_true_2 _ Hvt).
  assert (Hs : String.eqb ty "SWITCH_POSITION" && negb (is_switch k) = false). { destruct (String.eqb_spec ty "SWITCH_POSITION") as [->|_]; [|done]. by destruct (Sw eq_refl) as [-> | ->]. }
  rewrite Hs. clear Hs Hx Hvt Vt Sw. destruct (String.eqb_spec ty "TAP_POSITION") as [Et|_].
  - specialize (Tap Et). destruct Tc as [->|[[-> Tc]|[-> Tc]]]; [done| |].
    + rewrite !elem_of_cons in Tc. destruct Tc as [->|[->|Tc%elem_of_nil]]; done.
    + rewrite !elem_of_cons in Tc. destruct Tc as [->|[->|[->|[->|[->|[->|Tc%elem_of_nil]]]]]]; done.
  - destruct Tc as [->|[[-> Tc]|[-> Tc]]]; [done| |].
    + rewrite !elem_of_cons in Tc. destruct Tc as [->|[->|Tc%elem_of_nil]]; done.
    + rewrite !elem_of_cons in Tc. destruct Tc as [->|[->|[->|[->|[->|[->|Tc%elem_of_nil]]]]]]; done.
Qed.
Lemma measurement_accept k c : measurement k c -> measurement_ok k c = true.
Proof.
  intros (id & ty & side & x & d & valid & _ & E & Ty & Sd & V & P). unfold measurement_ok. rewrite E. unfold props_ok. rewrite (bool_decide_eq_true_2 (ch_props c !! "" = None)) by done.
  rewrite (bool_decide_eq_true_2 (ty ∈ measurement_types)) by done.
  assert (Hv : valid && bool_decide (x = None) = false). { destruct valid; [|done]. cbn. apply bool_decide_eq_false_2. by apply V. } rewrite Hv.
  assert (Hi : forall k, k ∈ injections -> is_injection k = true /\ is_connectable k = true).
  { assert (H : forallb (fun k => is_injection k && is_connectable k) injections = true) by done. rewrite forallb_forall in H. intros k0 X%elem_of_list_In. by apply andb_prop, H. }
  assert (Ho : forall k, k ∈ others -> is_injection k = false /\ is_connectable k = true).
  { assert (H : forallb (fun k => negb (is_injection k) && is_connectable k) others = true) by done. rewrite forallb_forall in H. intros k0 X%elem_of_list_In. apply H, andb_prop in X as [X Y]. by destruct (is_injection k0). }
  destruct Sd as [[K ->]|[K Sd]].
  - destruct (Hi k K) as [-> ->]. by destruct (String.eqb ty "OTHER").
  - destruct (Ho k K) as [-> ->]. destruct Sd as [Sd|[-> ->]]; [|done]. rewrite !elem_of_cons in Sd. destruct Sd as [->|[->|[->|Sd%elem_of_nil]]]; done.
Qed.
Lemma feeder_accept c : feeder c -> feeder_ok c = true.
Proof. intros (n & od & d & E & _ & Nn & D). unfold feeder_ok. rewrite E. apply String.eqb_neq in Nn. rewrite Nn. by apply bool_decide_eq_true_2. Qed.
Lemma forallb_Forall_ok {A} (P : A -> Prop) (f : A -> bool) ls : (forall x, P x -> f x = true) -> Forall P ls -> forallb f ls = true.
Proof. intros H. induction 1 as [|x ls Px _ IH]; [done|]. cbn. by rewrite H. Qed.
Lemma accepted sg n l e : net_ok a v n -> ext_ok sg n l e -> accept sg (degrade o n) (degrade_leaf o l) (as_read e) = true.
Proof.
  intros K H. destruct H; unfold accept; cbn [as_read e_kind e_fields e_text e_children degrade_leaf l_cls l_id].
  - by apply bool_decide_eq_true_2.
  - apply bool_decide_eq_true_2. split; [done|]. by apply terminal_ok.
  - by apply bool_decide_eq_true_2.
  - rewrite connectable by done. by apply bool_decide_eq_true_2.
  - by apply bool_decide_eq_true_2.
  - rewrite connectable by done. rewrite (forallb_Forall_ok feeder feeder_ok _ feeder_accept) by done. rewrite !elem_of_cons in H1. destruct H1 as [->|[->|[->|[->|E%elem_of_nil]]]]; done.
  - by apply bool_decide_eq_true_2.
  - rewrite (forallb_Forall_ok _ _ _ (measurement_accept (l_cls l))) by done. by apply bool_decide_eq_true_2, ids_nodup.
  - rewrite (forallb_Forall_ok _ _ _ (discrete_accept (l_cls l))) by done. by apply bool_decide_eq_true_2, ids_nodup.
  - rewrite bool_decide_eq_true_2 by done. by rewrite !clock_hour.
  - rewrite bool_decide_eq_true_2 by done. by rewrite clock_hour.
  - rewrite bool_decide_eq_true_2 by done. by rewrite !not_negative_ok.
  - rewrite bool_decide_eq_true_2 by done. by rewrite not_negative_ok.
  - by apply bool_decide_eq_true_2.
  - by apply bool_decide_eq_true_2.
  - rewrite bool_decide_eq_true_2 by done. by apply negb_true_iff, String.eqb_neq.
  - rewrite bool_decide_eq_true_2 by done. rewrite !divider_ok by done. by apply negb_true_iff, String.eqb_neq.
Qed.
End anonymized.
