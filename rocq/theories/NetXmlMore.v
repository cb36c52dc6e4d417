(** More about writing a network: when it succeeds, what an anonymized file depends on. *)
From Verif Require Import Xml XmlSpec XmlProofs Anonymizer AnonymizerProofs NetXml NetXmlSpec NetXmlFields NetXmlParts NetXmlLeaf NetXmlProofs.

(** * Writing without anonymization succeeds. *)
Definition stays {B} (w : option mapping -> B * option mapping) : Prop := (w None).2 = None.
Lemma wmap_stays {A B} (f : A -> option mapping -> B * option mapping) l : (forall x, stays (f x)) -> stays (wmap f l).
Proof.
  intros H. unfold stays. induction l as [|x l IH]; [done|]. cbn [wmap]. specialize (H x). unfold stays in H. destruct (f x None) as [y m1]. cbn in H. subst m1.
  destruct (wmap f l None) as [ys m2]. done.
Qed.
Lemma write_field_stays v xs d x : stays (write_field v xs d x).
Proof.
  unfold stays, write_field. destruct (fd_wattr d v) as [k|]; [|done]. destruct (fd_w d), x as [[t|]|b|u|[u|]|l]; try done.
  - by destruct (String.eqb u "").
  - destruct l as [|t l]; [done|]. pose proof (wmap_stays anon (t :: l) (fun _ => eq_refl)) as X. unfold stays in X. by destruct (wmap anon (t :: l) None).
Qed.
Lemma write_fields_stays v ds xs : stays (write_fields v ds xs).
Proof.
  unfold stays, write_fields. pose proof (wmap_stays (fun p m => write_field v xs p.1 p.2 m) (zip ds xs) (fun p => write_field_stays v xs p.1 p.2)) as H. unfold stays in H.
  by destruct (wmap _ _ None).
Qed.
Lemma write_attrs_stays v l : stays (write_attrs v l).
Proof.
  unfold stays, write_attrs. cbn [anon]. pose proof (write_fields_stays v (schema (l_cls l)) (l_fields l)) as H. unfold stays in H.
  destruct (String.eqb (l_name l) ""); cbn; destruct (write_fields _ _ _ None); done.
Qed.
Lemma write_alias_stays v p : stays (write_alias v p). Proof. done. Qed.
Lemma stays_eq {B} (w : option mapping -> B * option mapping) : stays w -> exists y, w None = (y, None).
Proof. unfold stays. destruct (w None) as [y m]. intros H. cbn in H. subst m. by exists y. Qed.
Lemma write_part_stays v n p : stays (write_part v n p).
Proof.
  unfold stays, write_part. destruct (stays_eq _ (write_fields_stays v (pschema (p_kind p)) (p_fields p))) as [al ->].
  destruct (stays_eq _ (wmap_stays (write_child v (p_kind p)) (p_children p) ltac:(intros c; unfold stays, write_child; by destruct (stays_eq _ (write_fields_stays v (default [] (cschema (p_kind p) c.1)) c.2)) as [? ->]))) as [cs ->]. done.
Qed.
Lemma write_parts_stays v k parts : stays (write_parts v k parts).
Proof.
  unfold stays, write_parts. destruct (stays_eq _ (wmap_stays (write_slot v parts) (slots k) ltac:(intros c; unfold stays, write_slot; destruct (slot_part v parts c) as [[n p]|]; [|done]; by destruct (stays_eq _ (write_part_stays v n p)) as [? ->]))) as [cs ->]. done.
Qed.
Lemma write_extras_stays v l : stays (write_extras v l).
Proof.
  unfold stays, write_extras. destruct (run_from V1_3 v); [|done]. pose proof (wmap_stays (write_alias v) (map_to_list (l_aliases l)) (write_alias_stays v)) as H. unfold stays in H.
  by destruct (wmap _ _ None).
Qed.
Lemma write_doc_stays v l : stays (write_doc v l).
Proof.
  unfold stays, write_doc. destruct (stays_eq _ (write_attrs_stays v l)) as [al ->]. destruct (stays_eq _ (write_extras_stays v l)) as [es ->]. by destruct (stays_eq _ (write_parts_stays v (l_cls l) (l_parts l))) as [ps ->].
Qed.
Definition succeeds {B} (w : option mapping -> result (B * option mapping)) : Prop := exists y, w None = Ok (y, None).
Lemma wmapr_succeeds {A B} (f : A -> option mapping -> result (B * option mapping)) l : (forall x, x ∈ l -> succeeds (f x)) -> succeeds (wmapr f l).
Proof.
  induction l as [|x l IH]; intros H; [by eexists|]. destruct (H x) as [y Hy]; [left|]. destruct IH as [ys Hys]; [intros; apply H; by right|].
  exists (y :: ys). cbn [wmapr]. rewrite Hy. cbn [result_bind]. by rewrite Hys.
Qed.
(** An object is refused or not whatever has been written before. *)
Definition accepted (o : opts) (l : leaf) : Prop := o_throwing o && unsupported (o_ver o) l = false.
Lemma write_leaf_succeeds o l : accepted o l -> succeeds (write_leaf o l).
Proof. intros H. unfold succeeds, write_leaf. rewrite H. destruct (stays_eq _ (write_doc_stays (o_ver o) (wire o l))) as [y ->]. by exists y. Qed.
Lemma write_leaf_accepted o l m r : write_leaf o l m = Ok r -> accepted o l.
Proof. unfold write_leaf, accepted. by destruct (_ && _). Qed.
Lemma write_leaves_succeeds o ls : (forall l, l ∈ ls -> accepted o l) -> succeeds (wmapr (write_leaf o) ls).
Proof. intros H. apply wmapr_succeeds. intros l Hl. by apply write_leaf_succeeds, H. Qed.
Lemma wmapr_each {A B M} (g : A -> M -> result (B * M)) l m r : wmapr g l m = Ok r -> forall x, x ∈ l -> exists m r, g x m = Ok r.
Proof.
  revert m r. induction l as [|y l IH]; intros m r E x Hx; [by apply elem_of_nil in Hx|]. cbn [wmapr] in E. destruct (g y m) as [[z m1]| | |] eqn:Ey; try done. cbn [result_bind] in E. destruct (wmapr g l m1) as [[zs m2]| | |] eqn:El; try done.
  apply elem_of_cons in Hx as [->|Hx]; [by eauto|]. by eapply IH.
Qed.
Lemma write_leaves_accepted o ls m r : wmapr (write_leaf o) ls m = Ok r -> forall l, l ∈ ls -> accepted o l.
Proof. intros E l Hl. destruct (wmapr_each _ _ _ _ E l Hl) as (m' & r' & H). by eapply write_leaf_accepted. Qed.
(** The objects that are written in a voltage level. *)
Definition vl_written (x : vlevel) : list leaf := (if v_nb x then v_sections x else v_buses x) ++ v_switches x ++ mjoin (map (fun c => filter (fun l => l_cls l = c) (v_eqs x)) eq_classes).
Lemma write_topology_succeeds o x : (forall l, l ∈ vl_written x -> accepted o l) -> succeeds (write_topology o x).
Proof.
  intros H. unfold vl_written in H. unfold succeeds, write_topology. destruct (v_nb x).
  - destruct (write_leaves_succeeds o (v_sections x)) as [ys ->]; [intros; apply H; rewrite !elem_of_app; tauto|]. cbn [result_bind]. destruct (write_leaves_succeeds o (v_switches x)) as [zs ->]; [intros; apply H; rewrite !elem_of_app; tauto|]. by eexists.
  - destruct (write_leaves_succeeds o (v_buses x)) as [ys ->]; [intros; apply H; rewrite !elem_of_app; tauto|]. cbn [result_bind].
    destruct (wmapr_succeeds (write_bus_switch o (v_switches x)) (v_switches x)) as [zs ->]; [|by eexists].
    intros l Hl. unfold succeeds, write_bus_switch. cbn [anon]. assert (existsb (fun sw => String.eqb (l_id sw) (l_id l)) (v_switches x) = true) as ->.
    { apply existsb_exists. exists l. split; [by apply elem_of_list_In|apply String.eqb_refl]. }
    apply write_leaf_succeeds, H. rewrite !elem_of_app. tauto.
Qed.
Lemma write_vl_succeeds o x : (forall l, l ∈ vl_written x -> accepted o l) -> succeeds (write_vl o x).
Proof.
  intros H. unfold succeeds, write_vl. destruct (stays_eq _ (write_attrs_stays (o_ver o) (v_leaf x))) as [al ->]. destruct (stays_eq _ (write_extras_stays (o_ver o) (v_leaf x))) as [es ->].
  destruct (write_topology_succeeds o x H) as [t ->]. cbn [result_bind].
  destruct (write_leaves_succeeds o (mjoin (map (fun c => filter (fun l => l_cls l = c) (v_eqs x)) eq_classes))) as [qs ->]; [|by eexists]. intros l Hl. apply H. unfold vl_written. rewrite !elem_of_app. tauto.
Qed.
Lemma write_vl_accepted o x m r : write_vl o x m = Ok r -> forall l, l ∈ vl_written x -> accepted o l.
Proof.
  intros E l Hl. unfold write_vl in E. destruct (write_attrs _ _ _) as [al m1]. destruct (write_extras _ _ _) as [es m2]. destruct (write_topology o x m2) as [[t m3]| | |] eqn:Et; try done. cbn [result_bind] in E.
  destruct (wmapr (write_leaf o) _ m3) as [[qs m4]| | |] eqn:Eq; try done. unfold vl_written in Hl. rewrite !elem_of_app in Hl. destruct Hl as [Hl|[Hl|Hl]]; [| |by eapply (write_leaves_accepted o _ _ _ Eq)].
  all: unfold write_topology in Et; destruct (v_nb x).
  - destruct (wmapr (write_leaf o) (v_sections x) m2) as [[]| | |] eqn:E1; try done. exact (write_leaves_accepted o _ _ _ E1 l Hl).
  - destruct (wmapr (write_leaf o) (v_buses x) m2) as [[]| | |] eqn:E1; try done. exact (write_leaves_accepted o _ _ _ E1 l Hl).
  - destruct (wmapr (write_leaf o) (v_sections x) m2) as [[]| | |] eqn:E1; try done. cbn [result_bind] in Et. destruct (wmapr (write_leaf o) (v_switches x) _) as [[]| | |] eqn:E2; try done. exact (write_leaves_accepted o _ _ _ E2 l Hl).
  - destruct (wmapr (write_leaf o) (v_buses x) m2) as [[]| | |] eqn:E1; try done. cbn [result_bind] in Et. destruct (wmapr (write_bus_switch o _) (v_switches x) _) as [[]| | |] eqn:E2; try done.
    destruct (wmapr_each _ _ _ _ E2 l Hl) as (m' & r' & H). unfold write_bus_switch in H. destruct (anon _ _). destruct (existsb _ _); [|done]. by eapply write_leaf_accepted.
Qed.
Definition sub_written (x : substation) : list leaf := mjoin (vl_written <$> s_vls x) ++ s_twts x ++ s_thwts x.
Lemma write_sub_succeeds o x : (forall l, l ∈ sub_written x -> accepted o l) -> succeeds (write_sub o x).
Proof.
  intros H. unfold sub_written in H. unfold succeeds, write_sub. destruct (stays_eq _ (write_attrs_stays (o_ver o) (s_leaf x))) as [al ->]. destruct (stays_eq _ (write_extras_stays (o_ver o) (s_leaf x))) as [es ->].
  destruct (wmapr_succeeds (write_vl o) (s_vls x)) as [vs ->]; [intros y Hy; apply write_vl_succeeds; intros l Hl; apply H; rewrite elem_of_app; left; apply in_mjoin; by exists y|]. cbn [result_bind].
  destruct (write_leaves_succeeds o (s_twts x)) as [ts ->]; [intros; apply H; rewrite !elem_of_app; tauto|]. cbn [result_bind]. destruct (write_leaves_succeeds o (s_thwts x)) as [us ->]; [intros; apply H; rewrite !elem_of_app; tauto|]. by eexists.
Qed.
Lemma write_sub_accepted o x m r : write_sub o x m = Ok r -> forall l, l ∈ sub_written x -> accepted o l.
Proof.
  intros E l Hl. unfold write_sub in E. destruct (write_attrs _ _ _) as [al m1]. destruct (write_extras _ _ _) as [es m2]. destruct (wmapr (write_vl o) (s_vls x) m2) as [[vs m3]| | |] eqn:E1; try done. cbn [result_bind] in E.
  destruct (wmapr (write_leaf o) (s_twts x) m3) as [[ts m4]| | |] eqn:E2; try done. cbn [result_bind] in E. destruct (wmapr (write_leaf o) (s_thwts x) m4) as [[us m5]| | |] eqn:E3; try done.
  unfold sub_written in Hl. rewrite !elem_of_app in Hl. destruct Hl as [Hl|[Hl|Hl]]; [|by eapply (write_leaves_accepted o _ _ _ E2)|by eapply (write_leaves_accepted o _ _ _ E3)].
  apply in_mjoin in Hl as (y & Hy & Hl). destruct (wmapr_each _ _ _ _ E1 y Hy) as (m' & r' & H). by eapply write_vl_accepted.
Qed.
Definition net_written (n : network) : list leaf := mjoin (sub_written <$> n_subs n) ++ n_lines n ++ n_hvdcs n.
Lemma write_network_succeeds o n : o_throwing o = false \/ older (o_ver o) 3 = false \/ l_aliases (n_leaf n) = ∅ -> (forall l, l ∈ net_written n -> accepted o l) -> exists y, write_network o false n = Ok (y, None).
Proof.
  intros Hr H. unfold net_written in H. unfold write_network. destruct (stays_eq _ (write_fields_stays (o_ver o) (schema CNetwork) (l_fields (n_leaf n)))) as [fs ->].
  assert (o_throwing o && ver_lt (o_ver o) V1_3 && negb (bool_decide (l_aliases (n_leaf n) = ∅)) = false) as ->.
  { rewrite ver_lt_older. change (number V1_3) with 3. destruct Hr as [-> |[-> | E]]; [done|by rewrite andb_false_r|rewrite bool_decide_eq_true_2 by done; by rewrite andb_false_r]. }
  destruct (stays_eq _ (wmap_stays (write_alias (o_ver o)) (map_to_list (l_aliases (n_leaf n))) (write_alias_stays (o_ver o)))) as [als ->].
  destruct (wmapr_succeeds (write_sub o) (n_subs n)) as [ss ->]; [intros y Hy; apply write_sub_succeeds; intros l Hl; apply H; rewrite elem_of_app; left; apply in_mjoin; by exists y|]. cbn [result_bind].
  destruct (write_leaves_succeeds o (n_lines n)) as [ls ->]; [intros; apply H; rewrite !elem_of_app; tauto|]. cbn [result_bind]. destruct (write_leaves_succeeds o (n_hvdcs n)) as [hs ->]; [intros; apply H; rewrite !elem_of_app; tauto|]. by eexists.
Qed.
Lemma write_network_accepted o a n r : write_network o a n = Ok r -> (o_throwing o = true -> older (o_ver o) 3 = true -> l_aliases (n_leaf n) = ∅) /\ forall l, l ∈ net_written n -> accepted o l.
Proof.
  intros E. unfold write_network in E. destruct (write_fields _ _ _ _) as [fs m1]. destruct (o_throwing o && ver_lt (o_ver o) V1_3 && negb (bool_decide (l_aliases (n_leaf n) = ∅))) eqn:Er; [done|]. split.
  { intros Ht O3. rewrite Ht, ver_lt_older in Er. change (number V1_3) with 3 in Er. rewrite O3 in Er. destruct (decide (l_aliases (n_leaf n) = ∅)) as [|N]; [done|]. by rewrite (bool_decide_eq_false_2 _ N) in Er. }
  intros l Hl. destruct (wmap _ _ _) as [als m2]. destruct (wmapr (write_sub o) (n_subs n) m2) as [[vs m3]| | |] eqn:E1; try done. cbn [result_bind] in E.
  destruct (wmapr (write_leaf o) (n_lines n) m3) as [[ts m4]| | |] eqn:E2; try done. cbn [result_bind] in E. destruct (wmapr (write_leaf o) (n_hvdcs n) m4) as [[us m5]| | |] eqn:E3; try done.
  unfold net_written in Hl. rewrite !elem_of_app in Hl. destruct Hl as [Hl|[Hl|Hl]]; [|by eapply (write_leaves_accepted o _ _ _ E2)|by eapply (write_leaves_accepted o _ _ _ E3)].
  apply in_mjoin in Hl as (y & Hy & Hl). destruct (wmapr_each _ _ _ _ E1 y Hy) as (m' & r' & H). by eapply write_sub_accepted.
Qed.
(** * The objects of a network the library can hold. *)
Definition net_objects (n : network) : list leaf := mjoin (sub_leaves <$> n_subs n) ++ n_lines n ++ n_hvdcs n.
Lemma vl_leaf_ok a v x l : vl_ok a v x -> l ∈ vl_leaves x -> leaf_ok a (l_cls l) l /\ l_cls l <> CHvdcLine.
Proof.
  intros (Kl & K & Ke & _) Hl. assert (X : forall k l, k <> CHvdcLine -> leaf_ok a k l -> leaf_ok a (l_cls l) l /\ l_cls l <> CHvdcLine) by (intros k l0 N0 K0; by rewrite (proj1 K0)).
  unfold vl_leaves in Hl. rewrite elem_of_cons, !elem_of_app in Hl. rewrite Forall_forall in Ke. destruct Hl as [->|Hl]; [by apply (X CVoltageLevel)|]. destruct (v_nb x).
  - destruct K as (Eb & Ks & Kw). rewrite Eb in Hl. rewrite Forall_forall in Ks, Kw. destruct Hl as [Hl|[Hl|[Hl|Hl]]]; [by apply elem_of_nil in Hl|by eapply (X CBusbarSection); [|apply Ks]|by eapply (X CNodeSwitch); [|apply Kw]|].
    destruct (Ke l Hl) as [Hc Kl']. apply (X (l_cls l)); [|done]. intros E. rewrite E in Hc. by apply (bool_decide_eq_true_2 _) in Hc.
  - destruct K as (Es & _ & Kb & Kw). rewrite Es in Hl. rewrite Forall_forall in Kb, Kw. destruct Hl as [Hl|[Hl|[Hl|Hl]]]; [by eapply (X CBus); [|apply Kb]|by apply elem_of_nil in Hl|by eapply (X CBusSwitch); [|apply Kw]|].
    destruct (Ke l Hl) as [Hc Kl']. apply (X (l_cls l)); [|done]. intros E. rewrite E in Hc. by apply (bool_decide_eq_true_2 _) in Hc.
Qed.
Lemma sub_leaf_ok a v x l : sub_ok a v x -> l ∈ sub_leaves x -> leaf_ok a (l_cls l) l /\ l_cls l <> CHvdcLine.
Proof.
  intros (Kl & Kv & Kt & Ku & _) Hl. assert (X : forall k l, k <> CHvdcLine -> leaf_ok a k l -> leaf_ok a (l_cls l) l /\ l_cls l <> CHvdcLine) by (intros k l0 N0 K0; by rewrite (proj1 K0)).
  rewrite Forall_forall in Kv. rewrite Forall_forall in Kt. rewrite Forall_forall in Ku. unfold sub_leaves in Hl. rewrite elem_of_cons, !elem_of_app in Hl. destruct Hl as [->|[Hl|[Hl|Hl]]]; [by apply (X CSubstation)| |by eapply (X CTwoWt); [|apply Kt]|by eapply (X CThreeWt); [|apply Ku]].
  apply in_mjoin in Hl as (y & Hy & Hl). by apply (vl_leaf_ok a v y); [apply Kv|].
Qed.
Lemma net_leaf_ok a v n l : net_ok a v n -> l ∈ net_objects n -> leaf_ok a (l_cls l) l /\ (l_cls l = CHvdcLine -> l ∈ n_hvdcs n).
Proof.
  intros (_ & Ks & Kl & Kh & _) Hl. rewrite Forall_forall in Ks. rewrite Forall_forall in Kl. rewrite Forall_forall in Kh. unfold net_objects in Hl. rewrite !elem_of_app in Hl. destruct Hl as [Hl|[Hl|Hl]].
  - apply in_mjoin in Hl as (y & Hy & Hl). destruct (sub_leaf_ok a v y l) as [? ?]; [by apply Ks|done|]. by split.
  - destruct (Kl l Hl) as [Hc K]. split; [done|]. intros E. rewrite E in Hc. by apply (bool_decide_eq_true_2 _) in Hc.
  - pose proof (Kh l Hl) as K. by rewrite (proj1 K).
Qed.
(** The objects that are written by write_leaf are all those that may be refused. *)
Lemma vl_written_iff a v x : vl_ok a v x -> forall l, l ∈ vl_leaves x <-> l = v_leaf x \/ l ∈ vl_written x.
Proof.
  intros (_ & K & _ & Eo & _) l. unfold vl_leaves, vl_written. rewrite <- Eo, elem_of_cons, !elem_of_app. destruct (v_nb x).
  - destruct K as (-> & _). rewrite elem_of_nil. tauto.
  - destruct K as (-> & _). rewrite elem_of_nil. tauto.
Qed.
Lemma sub_written_iff a v x : sub_ok a v x -> forall l, l ∈ sub_leaves x <-> l = s_leaf x \/ (exists y, y ∈ s_vls x /\ l = v_leaf y) \/ l ∈ sub_written x.
Proof.
  intros (_ & Kv & _) l. rewrite Forall_forall in Kv. unfold sub_leaves, sub_written. rewrite elem_of_cons, !elem_of_app, !in_mjoin. split.
  - intros [H|[(y & Hy & Hl)|H]]; [tauto| |tauto]. apply (vl_written_iff a v y (Kv y Hy)) in Hl as [Hl|Hl]; [right; left; by exists y|right; right; left; by exists y].
  - intros [H|[(y & Hy & Hl)|[(y & Hy & Hl)|H]]]; [tauto| |  |tauto]; right; left; exists y; (split; [done|]); apply (vl_written_iff a v y (Kv y Hy)); tauto.
Qed.
(** * What throwing exports refuse. *)
Lemma is_zero_iff x : is_zero x = true <-> zero x.
Proof. unfold is_zero, zero. rewrite bool_decide_eq_true, !elem_of_cons, elem_of_nil. tauto. Qed.
Lemma slot_asserts k s : s ∈ slots k -> sl_assert s = V1_0 \/ (sl_assert s = V1_5 /\ sl_key s ∈ power_limits) \/ (sl_assert s = V1_1 /\ sl_key s ∈ since_1_1 k) \/ (sl_assert s = V1_2 /\ k = CShunt /\ sl_key s = "regulatingTerminal").
Proof.
  assert (H : forallb (fun k => forallb (fun s => bool_decide (sl_assert s = V1_0 \/ (sl_assert s = V1_5 /\ sl_key s ∈ power_limits) \/ (sl_assert s = V1_1 /\ sl_key s ∈ since_1_1 k) \/ (sl_assert s = V1_2 /\ k = CShunt /\ sl_key s = "regulatingTerminal"))) (slots k)) all_classes = true) by (vm_compute; reflexivity).
  intros Hs. apply (forallb_elem _ _ k) in H; [|apply all_cls]. apply (forallb_elem _ _ s) in H; [|done]. by apply bool_decide_eq_true in H.
Qed.
Lemma slot_of_name k s : s ∈ slots k -> (sl_key s ∈ power_limits -> sl_assert s = V1_5) /\ (sl_key s ∈ since_1_1 k -> sl_assert s = V1_1) /\ (k = CShunt -> sl_key s = "regulatingTerminal" -> sl_assert s = V1_2).
Proof.
  assert (H : forallb (fun k => forallb (fun s => bool_decide ((sl_key s ∈ power_limits -> sl_assert s = V1_5) /\ (sl_key s ∈ since_1_1 k -> sl_assert s = V1_1) /\ (k = CShunt -> sl_key s = "regulatingTerminal" -> sl_assert s = V1_2))) (slots k)) all_classes = true) by (vm_compute; reflexivity).
  intros Hs. apply (forallb_elem _ _ k) in H; [|apply all_cls]. apply (forallb_elem _ _ s) in H; [|done]. by apply bool_decide_eq_true in H.
Qed.
Lemma slots_supported a v l : leaf_ok a (l_cls l) l ->
  existsb (fun s => ver_lt v (sl_assert s) && bool_decide (is_Some (l_parts l !! sl_key s))) (slots (l_cls l)) = false <->
  (older v 5 = true -> forall key, key ∈ power_limits -> l_parts l !! key = None) /\ (older v 1 = true -> forall key, key ∈ since_1_1 (l_cls l) -> l_parts l !! key = None) /\
  (l_cls l = CShunt -> older v 2 = true -> l_parts l !! "regulatingTerminal" = None).
Proof.
  intros K. assert (Kp : forall key p, l_parts l !! key = Some p -> exists s, s ∈ slots (l_cls l) /\ sl_key s = key). { intros key p Hp. destruct K as (_ & _ & _ & _ & _ & Kp). destruct (Kp key p Hp) as (_ & s & ? & ? & _). by exists s. }
  transitivity (forall s, s ∈ slots (l_cls l) -> older v (number (sl_assert s)) = true -> l_parts l !! sl_key s = None).
  { split.
    - intros E s Hs O. destruct (l_parts l !! sl_key s) as [p|] eqn:Ep; [|done]. exfalso. assert (X : existsb (fun s => ver_lt v (sl_assert s) && bool_decide (is_Some (l_parts l !! sl_key s))) (slots (l_cls l)) = true); [|by rewrite X in E].
      apply existsb_exists. exists s. split; [by apply elem_of_list_In|]. by rewrite ver_lt_older, O, Ep.
    - intros H. apply not_true_is_false. intros X. apply existsb_exists in X as (s & Hs & X). apply elem_of_list_In in Hs. rewrite ver_lt_older in X. apply andb_true_iff in X as [O X]. apply bool_decide_eq_true in X. rewrite (H s Hs O) in X. by apply is_Some_None in X. }
  split.
  - intros H. split; [|split].
    + intros O key Hk. destruct (l_parts l !! key) as [p|] eqn:Ep; [|done]. destruct (Kp key p Ep) as (s & Hs & <-). rewrite <- Ep. apply H; [done|]. by rewrite (proj1 (slot_of_name _ s Hs) Hk).
    + intros O key Hk. destruct (l_parts l !! key) as [p|] eqn:Ep; [|done]. destruct (Kp key p Ep) as (s & Hs & <-). rewrite <- Ep. apply H; [done|]. by rewrite (proj1 (proj2 (slot_of_name _ s Hs)) Hk).
    + intros Ec O. destruct (l_parts l !! "regulatingTerminal") as [p|] eqn:Ep; [|done]. destruct (Kp _ p Ep) as (s & Hs & Es). rewrite <- Ep, <- Es. apply H; [done|]. by rewrite (proj2 (proj2 (slot_of_name _ s Hs)) Ec Es).
  - intros (H5 & H1 & H2) s Hs O. destruct (slot_asserts _ s Hs) as [E|[[E Hk]|[[E Hk]|(E & Ec & Hk)]]]; rewrite E in O.
    + by destruct v.
    + by apply H5.
    + by apply H1.
    + rewrite Hk. by apply H2.
Qed.
Lemma shunt_iff (b1 b2 : bool) (P Q : Prop) `{Decision P} `{Decision Q} : (b1 && bool_decide P) || (b2 && negb (bool_decide Q)) = false <-> (b1 = true -> ~ P) /\ (b2 = true -> Q).
Proof. rewrite orb_false_iff, !andb_false_iff, negb_false_iff, bool_decide_eq_true, bool_decide_eq_false. destruct b1, b2; intuition congruence. Qed.
Lemma unsupported_iff a v l : leaf_ok a (l_cls l) l -> unsupported v l = false <-> supported v l.
Proof.
  intros K. unfold unsupported, supported. rewrite orb_false_iff, (slots_supported a v l K). destruct (decide (l_cls l = CShunt)) as [Ec|Nc].
  - rewrite Ec in *. destruct (shunt_fields a l K) as (b & g & mx & n & on & tv & td & fs & -> & _). rewrite !ver_lt_older. change (number V1_3) with 3. change (number V1_2) with 2.
    rewrite shunt_iff. rewrite <- eq_None_not_Some. tauto.
  - assert (X : (l_cls l = CShunt -> older v 2 = true -> l_parts l !! "regulatingTerminal" = None) <-> True) by tauto. rewrite X. clear X.
    destruct (decide (l_cls l = CDanglingLine)) as [Ed|Nd]; [|destruct (decide (l_cls l = CThreeWt)) as [Et|Nt]].
    + rewrite Ed in *. pose proof (fields_typed a _ _ K ltac:(done)) as T. do 9 (apply Forall2_cons_inv_l in T as (? & ? & _ & T & ->)). rewrite ver_lt_older. change (number V1_3) with 3.
      match goal with |- context [bool_decide (?x = VOpt None)] => destruct (decide (x = VOpt None)) as [E|E]; [rewrite (bool_decide_eq_true_2 _ E)|rewrite (bool_decide_eq_false_2 _ E)] end; destruct (older v 3); cbn; intuition congruence.
    + rewrite Et in *. pose proof (fields_typed a _ _ K ltac:(done)) as T. do 19 (apply Forall2_cons_inv_l in T as (? & ? & _ & T & ->)). rewrite ver_lt_older. change (number V1_1) with 1.
      rewrite <- !is_zero_iff, andb_false_iff, negb_false_iff, !andb_true_iff, bool_decide_eq_true. destruct (older v 1); intuition congruence.
    + destruct (l_cls l); try done; tauto.
Qed.
(** A throwing export without anonymization succeeds exactly if everything is supported. *)
Lemma supported_plain a v k l : leaf_ok a k l -> k = CSubstation \/ k = CVoltageLevel -> supported v l.
Proof.
  intros K Hk. assert (E : forall key, l_parts l !! key = None). { intros key. destruct (l_parts l !! key) as [p|] eqn:E; [|done]. destruct K as (_ & _ & _ & _ & _ & Kp). destruct (Kp key p E) as (_ & s & Hs & _). destruct Hk as [-> | ->]; by apply elem_of_nil in Hs. }
  unfold supported. rewrite (proj1 K). split; [intros _ key _; apply E|]. split; [intros _ key _; apply E|]. by destruct Hk as [-> | ->].
Qed.
Lemma net_written_iff a v n : net_ok a v n -> (forall l, l ∈ net_objects n -> supported v l) <-> (forall l, l ∈ net_written n -> supported v l).
Proof.
  intros (_ & Ks & _). rewrite Forall_forall in Ks. unfold net_objects, net_written. split; intros H l Hl; rewrite !elem_of_app, in_mjoin in Hl.
  - apply H. rewrite !elem_of_app, in_mjoin. destruct Hl as [(y & Hy & Hl)|Hl]; [|tauto]. left. exists y. split; [done|]. apply (sub_written_iff a v y (Ks y Hy)). tauto.
  - destruct Hl as [(y & Hy & Hl)|Hl]; [|apply H; rewrite !elem_of_app; tauto]. destruct (Ks y Hy) as (Kl & Kv & _). rewrite Forall_forall in Kv. apply (sub_written_iff a v y (Ks y Hy)) in Hl as [->|[(z & Hz & ->)|Hl]].
    + by apply (supported_plain a v CSubstation); [|left].
    + apply (supported_plain a v CVoltageLevel); [|by right]. by destruct (Kv z Hz) as (? & _).
    + apply H. rewrite !elem_of_app, in_mjoin. left. by exists y.
Qed.
Lemma written_object a v n l : net_ok a v n -> l ∈ net_written n -> l ∈ net_objects n.
Proof.
  intros (_ & Ks & _) Hl. rewrite Forall_forall in Ks. unfold net_objects, net_written in *. rewrite !elem_of_app, in_mjoin in *. destruct Hl as [(y & Hy & Hl)|Hl]; [|tauto]. left. exists y. split; [done|]. apply (sub_written_iff a v y (Ks y Hy)). tauto.
Qed.
Lemma throwing_supported o a n r : net_ok a (o_ver o) n -> o_throwing o = true -> write_network o a n = Ok r -> net_supported (o_ver o) n.
Proof.
  intros K Ht E. destruct (write_network_accepted o a n r E) as [Hr Ha]. split; [by apply Hr|]. apply (net_written_iff a _ n K). intros l Hl. apply (unsupported_iff a); [by eapply net_leaf_ok, written_object|].
  specialize (Ha l Hl). unfold accepted in Ha. by rewrite Ht in Ha.
Qed.
Lemma supported_throwing o n : net_ok false (o_ver o) n -> net_supported (o_ver o) n -> exists y, write_network o false n = Ok (y, None).
Proof.
  intros K [Hr Hs]. apply write_network_succeeds; [destruct (older (o_ver o) 3) eqn:E; [right; right; by apply Hr|right; by left]|].
  intros l Hl. unfold accepted. apply andb_false_iff. right. apply (unsupported_iff false); [by eapply net_leaf_ok, written_object|]. apply Hs. by apply (written_object false (o_ver o)).
Qed.

(** * Anonymized files do not depend on the strings that are anonymized. *)
Section renaming.
  Context (f : string -> string) (Hf : forall s t, f s = f t -> s = t) (H0 : f "" = "").
  Definition fm (m : mapping) : mapping := (fun p => (to_str (f (of_str p.1)), p.2)) <$> m.
  Lemma f_nil s : String.eqb (f s) "" = String.eqb s "".
  Proof. destruct (String.eqb_spec s "") as [->|N]; [by rewrite H0|]. destruct (String.eqb_spec (f s) "") as [X|]; [|done]. destruct N. apply Hf. by rewrite H0. Qed.
  Lemma to_str_inj s t : to_str s = to_str t -> s = t.
  Proof. intros E. by rewrite <- (of_to s), E, of_to. Qed.
  Lemma bm_left_fm m s : bm_left (fm m) (to_str (f s)) = bm_left m (to_str s).
  Proof.
    unfold bm_left, fm. rewrite list_find_fmap. rewrite (list_find_ext _ (fun p => p.1 = to_str s)).
    - destruct (list_find _ m) as [[i []]|]; done.
    - intros p. unfold compose. cbn. split; [|intros ->; by rewrite of_to]. intros E. apply to_str_inj, Hf in E. by rewrite <- E, to_of.
  Qed.
  Lemma bm_right_fm m c : bm_right (fm m) c = (fun s => to_str (f (of_str s))) <$> bm_right m c.
  Proof.
    unfold bm_right, fm. rewrite list_find_fmap. rewrite (list_find_ext _ (fun p : str * str => p.2 = c)) by done. destruct (list_find _ m) as [[i []]|]; done.
  Qed.
  Lemma anonymize_fm s m : anonymize (to_str (f s)) (fm m) = ((anonymize (to_str s) m).1, fm (anonymize (to_str s) m).2).
  Proof.
    unfold anonymize. assert (E : bool_decide (to_str (f s) = []) = bool_decide (to_str s = [])).
    { pose proof (f_nil s) as N. apply bool_decide_ext. rewrite !to_str_nil. destruct (String.eqb_spec (f s) ""), (String.eqb_spec s ""); done. }
    rewrite E. destruct (bool_decide (to_str s = [])); [done|]. rewrite bm_left_fm. destruct (bm_left m (to_str s)) eqn:L; [done|]. cbn [fst snd]. unfold bm_insert.
    assert (Len : length (fm m) = length m) by (unfold fm; by rewrite fmap_length). rewrite bm_left_fm, bm_right_fm, L, Len. destruct (bm_right m (get_alpha (length m + 1))); [done|]. cbn [fmap option_fmap option_map]. unfold fm. rewrite fmap_cons. cbn [fst snd]. by rewrite of_to.
  Qed.
  Definition sim {B} (w w' : option mapping -> B * option mapping) : Prop := forall m, exists y m1, w (Some m) = (y, Some m1) /\ w' (Some (fm m)) = (y, Some (fm m1)).
  Definition simr {B} (w w' : option mapping -> result (B * option mapping)) : Prop := forall m y m1, w (Some m) = Ok (y, m1) -> exists m2, m1 = Some m2 /\ w' (Some (fm m)) = Ok (y, Some (fm m2)).
  Lemma anon_sim s : sim (anon s) (anon (f s)).
  Proof. intros m. unfold anon. rewrite anonymize_fm. destruct (anonymize (to_str s) m) as [c m1]. by exists (of_str c), m1. Qed.
  Lemma sim_same {B} (y : B) : sim (fun m => (y, m)) (fun m => (y, m)).
  Proof. intros m. by exists y, m. Qed.
  Lemma wmap_sim {A B} (g g' : A -> option mapping -> B * option mapping) l l' : Forall2 (fun x x' => sim (g x) (g' x')) l l' -> sim (wmap g l) (wmap g' l').
  Proof.
    induction 1 as [|x x' l l' H F IH]; [apply sim_same|]. intros m. cbn [wmap]. destruct (H m) as (y & m1 & -> & ->). destruct (IH m1) as (ys & m2 & -> & ->). by exists (y :: ys), m2.
  Qed.
  Lemma wmapr_sim {A B} (g g' : A -> option mapping -> result (B * option mapping)) l l' : Forall2 (fun x x' => simr (g x) (g' x')) l l' -> simr (wmapr g l) (wmapr g' l').
  Proof.
    induction 1 as [|x x' l l' H F IH]; [intros m y m1 [= <- <-]; by exists m|]. intros m y m1 E. cbn [wmapr] in *. destruct (g x (Some m)) as [[z m2]| | |] eqn:Eg; try done. cbn [result_bind] in E. destruct (H m _ _ Eg) as (m3 & -> & ->).
    destruct (wmapr g l (Some m3)) as [[zs m4]| | |] eqn:El; try done. cbn [result_bind] in *. destruct (IH m3 _ _ El) as (m5 & -> & ->). injection E as <- <-. by eexists.
  Qed.
  Lemma Forall2_fmap_self {A B} (P : A -> B -> Prop) (g : A -> B) l : Forall (fun x => P x (g x)) l -> Forall2 P l (g <$> l).
  Proof. induction 1; [constructor|]. by constructor. Qed.
  (** Fields. *)
  Definition renamed (r : rkind) : bool := match r with RRef | RAnon | RAnonOpt | RAnonText | RAnonMand | RTags => true | _ => false end.
  Definition field_like (ds : list fdesc) (d : fdesc) : bool :=
    match fd_w d, fd_r d with
    | WAnonOpt, RAnon | WAnonOpt, RAnonOpt | WAnonText, RAnonMand | WAnonNonEmpty, RAnonText | WTags, RTags | WOpt, RRef => true
    | WAnonOpt, _ | WAnonText, _ | WAnonNonEmpty, _ | WTags, _ => false
    | WBoolIf i, r => negb (renamed r) && match ds !! i with Some d' => negb (renamed (fd_r d')) | None => false end
    | _, r => negb (renamed r)
    end.
  Definition keeps_field (d : fdesc) (x : fval) : Prop := match fd_r d, x with RRef, VOpt (Some s) => f s = s | _, _ => True end.
  Lemma rename_plain d x : renamed (fd_r d) = false -> rename_field f d x = x.
  Proof. unfold rename_field. by destruct (fd_r d), x as [|b|u|[u|]|l]. Qed.
  Lemma rename_plain_all ds xs : forallb (fun d => negb (renamed (fd_r d))) ds = true -> length ds = length xs -> rename_fields f ds xs = xs.
  Proof.
    revert xs. induction ds as [|d ds IH]; intros [|x xs] H L; try done. cbn [forallb] in H. apply andb_true_iff in H as [H1 H2]. unfold rename_fields in *. cbn [zip_with]. rewrite IH by (try done; by injection L). by rewrite rename_plain by (by apply negb_true_iff).
  Qed.
  Lemma flagged_rename ds xs i : match ds !! i with Some d' => negb (renamed (fd_r d')) | None => false end = true -> flagged (rename_fields f ds xs) i = flagged xs i.
  Proof.
    intros H. unfold flagged, rename_fields. rewrite lookup_zip_with. destruct (ds !! i) as [d|]; [|done]. cbn. destruct (xs !! i) as [x|]; [|done]. cbn. by rewrite rename_plain by (by apply negb_true_iff).
  Qed.
  Lemma write_field_sim v ds xs d x : field_like ds d = true -> keeps_field d x -> sim (write_field v xs d x) (write_field v (rename_fields f ds xs) d (rename_field f d x)).
  Proof.
    intros L K m. unfold write_field. destruct (fd_wattr d v) as [k|]; [|apply sim_same]. unfold field_like in L.
    assert (P : negb (renamed (fd_r d)) = true -> rename_field f d x = x) by (intros X; apply rename_plain; by apply negb_true_iff).
    destruct (fd_w d) eqn:Ew; try (rewrite P by (clear P; by destruct (fd_r d)); repeat case_match; first [done|by eexists _, m]).
    - destruct (fd_r d) eqn:Er; try (rewrite P by done; repeat case_match; first [done|by eexists _, m]). unfold rename_field, keeps_field in *. rewrite Er in *. destruct x as [|b|u|[u|]|l]; try apply sim_same.
      rewrite K. apply sim_same.
    - unfold rename_field. destruct (fd_r d); try discriminate L; destruct x as [|b|u|[u|]|l]; try apply sim_same; destruct (anon_sim u m) as (c & m1 & -> & ->); by eexists _, m1.
    - unfold rename_field. destruct (fd_r d); try discriminate L; destruct x as [|b|u|[u|]|l]; try apply sim_same; destruct (anon_sim u m) as (c & m1 & -> & ->); by eexists _, m1.
    - unfold rename_field. destruct (fd_r d); try discriminate L; destruct x as [|b|u|[u|]|l]; try apply sim_same. rewrite f_nil. destruct (String.eqb u ""); [apply sim_same|]. destruct (anon_sim u m) as (c & m1 & -> & ->). by eexists _, m1.
    - unfold rename_field. destruct (fd_r d); try discriminate L; destruct x as [|b|u|[u|]|l]; try apply sim_same. destruct l as [|t l]; [apply sim_same|]. rewrite fmap_cons. rewrite <- fmap_cons.
      destruct (wmap_sim anon anon (t :: l) (f <$> t :: l) (Forall2_fmap_self _ _ _ (Forall_true _ _ (fun s => anon_sim s))) m) as (cs & m1 & -> & E).
      rewrite fmap_cons in E. rewrite fmap_cons. rewrite E. by eexists _, m1.
    - apply andb_true_iff in L as [L1 L2]. rewrite P by done. rewrite (flagged_rename ds xs _ L2). repeat case_match; first [done|by eexists _, m].
  Qed.
  Definition fields_like (ds : list fdesc) : bool := forallb (field_like ds) ds.
  Lemma schema_like k : fields_like (schema k) = true.
  Proof. destruct k; vm_compute; reflexivity. Qed.
  Definition keeps_fields (ds : list fdesc) (xs : list fval) : Prop := Forall (fun p => keeps_field p.1 p.2) (zip ds xs).
  Lemma write_fields_sim v ds xs : fields_like ds = true -> keeps_fields ds xs -> sim (write_fields v ds xs) (write_fields v ds (rename_fields f ds xs)).
  Proof.
    intros L K m. unfold write_fields. destruct (wmap_sim (fun p m => write_field v xs p.1 p.2 m) (fun p m => write_field v (rename_fields f ds xs) p.1 p.2 m) (zip ds xs) (zip ds (rename_fields f ds xs))) with (m := m) as (y & m1 & E1 & E2).
    - assert (G : forall d x, keeps_field d x -> field_like ds d = true -> sim (write_field v xs d x) (write_field v (rename_fields f ds xs) d (rename_field f d x))) by (intros; by apply write_field_sim).
      unfold fields_like in L. revert G L. generalize (rename_fields f ds xs) at 1 2 as ys. generalize (field_like ds) as P. generalize xs at 1 2 as zs. intros zs P ys G L. unfold rename_fields.
      revert xs K. induction ds as [|d ds IH]; intros [|x xs] K; [constructor..|]. cbn [zip_with]. cbn [forallb] in L. apply andb_true_iff in L as [L1 L2]. inversion_clear K as [|? ? K1 K2].
      constructor; [by apply G|by apply IH].
    - rewrite E1, E2. by eexists _, m1.
  Qed.
  Lemma keeps_leaf l : keeps_stations f l -> keeps_fields (schema (l_cls l)) (l_fields l).
  Proof.
    intros K. unfold keeps_fields. destruct (decide (l_cls l = CHvdcLine)) as [E|N].
    - specialize (K E). unfold leaf_refs, refs in K. clear E. revert K. generalize (l_fields l). induction (schema (l_cls l)) as [|d ds IH]; intros [|x xs] K; [constructor..|].
      cbn [zip_with] in *. change (mjoin (field_ref d x :: zip_with field_ref ds xs)) with (field_ref d x ++ mjoin (zip_with field_ref ds xs)) in K. constructor.
      + unfold keeps_field, field_ref in *. cbn [fst snd]. destruct (fd_r d), x as [|b|u|[u|]|l']; try done. apply K. left.
      + apply IH. intros s Hs. apply K. apply elem_of_app. by right.
    - assert (H : forallb (fun d => match fd_r d with RRef => false | _ => true end) (schema (l_cls l)) = true) by (destruct (l_cls l); try done; vm_compute; reflexivity).
      revert H. generalize (l_fields l). induction (schema (l_cls l)) as [|d ds IH]; intros [|x xs] H; [constructor..|]. cbn [forallb] in H. apply andb_true_iff in H as [H1 H2].
      cbn [zip_with]. constructor; [|by apply IH]. unfold keeps_field. cbn [fst snd]. by destruct (fd_r d).
  Qed.
  Lemma write_attrs_sim v l : keeps_stations f l -> sim (write_attrs v l) (write_attrs v (rename_leaf f l)).
  Proof.
    intros K m. unfold write_attrs. cbn [rename_leaf l_id l_name l_cls l_fields l_fict]. destruct (anon_sim (l_id l) m) as (c & m1 & -> & ->). rewrite f_nil.
    destruct (String.eqb (l_name l) "").
    - destruct (write_fields_sim v (schema (l_cls l)) (l_fields l) (schema_like _) (keeps_leaf l K) m1) as (fs & m2 & -> & ->). by eexists _, m2.
    - destruct (anon_sim (l_name l) m1) as (c2 & m2 & -> & ->). destruct (write_fields_sim v (schema (l_cls l)) (l_fields l) (schema_like _) (keeps_leaf l K) m2) as (fs & m3 & -> & ->). by eexists _, m3.
  Qed.
  Lemma write_aliases_sim v (A : gmap string string) : map_to_list (kmap f A : gmap string string) = prod_map f id <$> map_to_list A ->
    sim (wmap (write_alias v) (map_to_list A)) (wmap (write_alias v) (map_to_list (kmap f A : gmap string string))).
  Proof.
    intros E. rewrite E. apply wmap_sim, Forall2_fmap_self, Forall_true. intros [s t] m. unfold write_alias. cbn [fst snd prod_map id]. destruct (anon_sim s m) as (c & m1 & -> & ->). by eexists _, m1.
  Qed.
  Lemma write_extras_sim v l : keeps_order f l -> sim (write_extras v l) (write_extras v (rename_leaf f l)).
  Proof.
    intros K m. unfold write_extras. cbn [rename_leaf l_aliases l_props]. destruct (run_from V1_3 v); [|apply sim_same]. destruct (write_aliases_sim v (l_aliases l) K m) as (als & m1 & -> & ->). by eexists _, m1.
  Qed.
  Definition keeps (l : leaf) : Prop := keeps_order f l /\ keeps_stations f l.
  (** Parts. *)
  Definition no_ref (ds : list fdesc) : bool := forallb (fun d => match fd_r d with RRef => false | _ => true end) ds.
  Lemma no_ref_keeps ds xs : no_ref ds = true -> keeps_fields ds xs.
  Proof.
    revert xs. induction ds as [|d ds IH]; intros [|x xs] H; [constructor..|]. cbn [no_ref forallb] in H. apply andb_true_iff in H as [H1 H2]. constructor; [|by apply IH]. unfold keeps_field. cbn [fst snd]. by destruct (fd_r d).
  Qed.
  Lemma pschema_like k : fields_like (pschema k) && no_ref (pschema k) = true.
  Proof. destruct k; vm_compute; reflexivity. Qed.
  Lemma cschema_like k n : fields_like (default [] (cschema k n)) && no_ref (default [] (cschema k n)) = true.
  Proof. destruct k; cbn [cschema]; repeat match goal with |- context [if ?b then _ else _] => destruct b end; vm_compute; reflexivity. Qed.
  Lemma write_part_sim v n p : sim (write_part v n p) (write_part v n (rename_part f p)).
  Proof.
    intros m. unfold write_part. cbn [rename_part p_kind p_fields p_children]. pose proof (pschema_like (p_kind p)) as L. apply andb_true_iff in L as [L1 L2].
    destruct (write_fields_sim v _ (p_fields p) L1 (no_ref_keeps _ _ L2) m) as (al & m1 & -> & ->).
    destruct (wmap_sim (write_child v (p_kind p)) (write_child v (p_kind p)) (p_children p) ((fun c => (c.1, rename_fields f (default [] (cschema (p_kind p) c.1)) c.2)) <$> p_children p)) with (m := m1) as (cs & m2 & -> & ->); [|by eexists _, m2].
    apply Forall2_fmap_self, Forall_true. intros [c xs] m0. unfold write_child. cbn [fst snd]. pose proof (cschema_like (p_kind p) c) as Lc. apply andb_true_iff in Lc as [Lc1 Lc2].
    destruct (write_fields_sim v _ xs Lc1 (no_ref_keeps _ _ Lc2) m0) as (al' & m3 & -> & ->). by eexists _, m3.
  Qed.
  Lemma part_empty_rename a p : part_ok a p -> part_empty (rename_part f p) = part_empty p.
  Proof.
    intros (T & _). unfold part_empty. apply bool_decide_ext. destruct p as [k fs cs]. unfold rename_part. cbn [p_kind p_fields p_children] in *. split.
    - intros [= -> Ef Ec]. rewrite rename_plain_all in Ef by (try done; by eapply Forall2_length). apply fmap_nil_inv in Ec. by subst.
    - by intros [= -> -> ->].
  Qed.
  Lemma write_slot_sim v parts s : (forall key p, parts !! key = Some p -> part_ok true p) -> sim (write_slot v parts s) (write_slot v (rename_part f <$> parts) s).
  Proof.
    intros K m. unfold write_slot, slot_part. rewrite lookup_fmap. destruct (parts !! sl_key s) as [p|] eqn:E; cbn [fmap option_fmap option_map]; [|apply sim_same]. rewrite (part_empty_rename true) by (by eapply K). change (p_kind (rename_part f p)) with (p_kind p).
    destruct (_ && _); [|apply sim_same]. destruct (slot_name s (p_kind p)) as [n|]; cbn [fmap option_fmap option_map]; [|apply sim_same]. destruct (write_part_sim v n p m) as (x & m1 & -> & ->). by eexists _, m1.
  Qed.
  Lemma write_parts_sim v k parts : (forall key p, parts !! key = Some p -> part_ok true p) -> sim (write_parts v k parts) (write_parts v k (rename_part f <$> parts)).
  Proof.
    intros K m. unfold write_parts. destruct (wmap_sim (write_slot v parts) (write_slot v (rename_part f <$> parts)) (slots k) (slots k)) with (m := m) as (xs & m1 & -> & ->); [|by eexists _, m1].
    induction (slots k); constructor; [by apply write_slot_sim|done].
  Qed.
  Lemma write_doc_sim v l : keeps l -> (forall key p, l_parts l !! key = Some p -> part_ok true p) -> sim (write_doc v l) (write_doc v (rename_leaf f l)).
  Proof.
    intros [K1 K2] Kp m. unfold write_doc. destruct (write_attrs_sim v l K2 m) as (al & m1 & -> & ->). destruct (write_extras_sim v l K1 m1) as (es & m2 & -> & ->).
    change (l_parts (rename_leaf f l)) with (rename_part f <$> l_parts l). change (l_cls (rename_leaf f l)) with (l_cls l). destruct (write_parts_sim v (l_cls l) _ Kp m2) as (ps & m3 & -> & ->). by eexists _, m3.
  Qed.
  (** What is computed before writing does not depend on the names. *)
  Lemma wire_part_rename v p : wire_part v (rename_part f p) = rename_part f (wire_part v p).
  Proof. destruct p as [k fs cs]. destruct k; try done; by destruct fs as [|? [|? [|? fs]]]. Qed.
  Lemma rename_non_linear a p : part_ok a p -> p_kind p = PNonLinear -> rename_part f p = p.
  Proof.
    destruct p as [k fs cs]. cbn [p_kind]. intros (T & Tc & _) ->. cbn [p_kind p_fields p_children] in *. unfold rename_part. cbn [p_kind p_fields p_children]. f_equal; [by apply Forall2_nil_inv_l in T as ->|].
    induction cs as [|[n xs] cs IH]; [done|]. rewrite fmap_cons. f_equal; [|apply IH; intros; apply Tc; by right]. destruct (Tc n xs ltac:(by left)) as (ds & E & Tx). cbn [fst snd]. f_equal. rewrite E. cbn. apply rename_plain_all; [|by eapply Forall2_length].
    cbn in E. destruct (String.eqb n "section"); [|done]. by injection E as <-.
  Qed.
  Lemma half_rename i fs : wire_half (rename_fields f (half_fields i) fs) = rename_fields f (half_fields i) (wire_half fs).
  Proof.
    destruct fs as [|[]]; try done. destruct fs as [|[]]; try done. cbn. do 2 f_equal. destruct (String.eqb_spec s0 s) as [->|N]; [by rewrite String.eqb_refl, H0|]. destruct (String.eqb_spec (f s0) (f s)) as [E|]; [by destruct N; apply Hf|done].
  Qed.
  Lemma wire_fields_rename o l : leaf_ok true (l_cls l) l -> wire_fields o (rename_leaf f l) = rename_fields f (schema (l_cls l)) (wire_fields o l).
  Proof.
    intros K. unfold wire_fields. change (l_cls (rename_leaf f l)) with (l_cls l). change (l_fields (rename_leaf f l)) with (rename_fields f (schema (l_cls l)) (l_fields l)). change (l_parts (rename_leaf f l)) with (rename_part f <$> l_parts l).
    destruct (l_cls l) eqn:Ek; try done.
    - destruct (shunt_fields true l K) as (b & g & mx & n & on & tv & td & fs & -> & _ & M). cbn [schema rename_fields zip_with app]. rewrite lookup_fmap. destruct (l_parts l !! "model") as [p|] eqn:Ep; cbn [fmap option_fmap option_map]; [|done].
      rewrite (rename_non_linear true p); [|by destruct K as (_ & _ & _ & _ & _ & Kp); destruct (Kp "model" p Ep)|by destruct M]. by destruct (run_until V1_2 (o_ver o)).
    - pose proof (fields_typed true _ _ K ltac:(done)) as T. do 12 (apply Forall2_cons_inv_l in T as (? & ? & ? & T & ->)). destruct x7 as [|?|?|[?|]|?]; try done. cbn [schema rename_fields zip_with app]. cbn [rename_field fd_r num_field opt_num_from].
      destruct (run_until V1_2 (o_ver o)); [|done]. reflexivity.
    - pose proof (fields_typed true _ _ K ltac:(done)) as T. apply Forall2_length in T. revert T. generalize (l_fields l) as xs. intros xs T.
      change (schema CTieLine) with (take 13 (schema CTieLine) ++ half_fields "1" ++ half_fields "2"). rewrite <- (take_drop 13 xs). rewrite <- (take_drop 9 (drop 13 xs)). rewrite drop_drop. change (13 + 9) with 22.
      assert (length (take 13 xs) = 13) as L1 by (rewrite take_length, <- T; done). assert (length (take 9 (drop 13 xs)) = 9) as L2 by (rewrite take_length, drop_length, <- T; done).
      revert L1 L2. generalize (take 13 xs) as p, (take 9 (drop 13 xs)) as h, (drop 22 xs) as g. intros p h g L1 L2.
      assert (Split : forall p' h' g', length p' = 13 -> length h' = 9 -> take 13 (p' ++ h' ++ g') ++ wire_half (take 9 (drop 13 (p' ++ h' ++ g'))) ++ wire_half (drop 22 (p' ++ h' ++ g')) = p' ++ wire_half h' ++ wire_half g').
      { intros p' h' g' E1 E2. rewrite take_app_alt by done. rewrite drop_app_alt by done. rewrite take_app_alt by done. replace (drop 22 (p' ++ h' ++ g')) with g'; [done|].
        rewrite app_assoc, drop_app_alt; [done|]. rewrite app_length. lia. }
      assert (Hw : length (wire_half h) = 9) by (by destruct h as [|[] [|[] h]]).
      assert (R : forall g' h' p', length p' = 13 -> length h' = 9 -> rename_fields f (take 13 (schema CTieLine) ++ half_fields "1" ++ half_fields "2") (p' ++ h' ++ g') =
        rename_fields f (take 13 (schema CTieLine)) p' ++ rename_fields f (half_fields "1") h' ++ rename_fields f (half_fields "2") g').
      { intros g' h' p' E1 E2. unfold rename_fields. by rewrite !zip_with_app by (rewrite ?E1, ?E2; done). }
      rewrite (R g h p L1 L2), !Split by (unfold rename_fields; rewrite ?zip_with_length; rewrite ?L1, ?L2; done). rewrite R by done. by rewrite !half_rename.
  Qed.
  Lemma wire_parts_rename v l : leaf_ok true (l_cls l) l -> wire_parts v (rename_leaf f l) = rename_part f <$> wire_parts v l.
  Proof.
    intros K. unfold wire_parts. change (l_cls (rename_leaf f l)) with (l_cls l). change (l_fields (rename_leaf f l)) with (rename_fields f (schema (l_cls l)) (l_fields l)). change (l_parts (rename_leaf f l)) with (rename_part f <$> l_parts l).
    assert (E : wire_part v <$> (rename_part f <$> l_parts l) = rename_part f <$> (wire_part v <$> l_parts l)).
    { rewrite <- !map_fmap_compose. apply map_fmap_ext. intros ? p _. apply wire_part_rename. }
    destruct (l_cls l) eqn:Ek; try done. destruct (shunt_fields true l K) as (b & g & mx & n & on & tv & td & fs & -> & _ & M). cbn [schema rename_fields zip_with app]. rewrite lookup_fmap. destruct (l_parts l !! "model") as [p|] eqn:Ep; cbn [fmap option_fmap option_map]; [done|].
    rewrite fmap_insert, <- E. by destruct b, g, mx.
  Qed.
  Lemma wire_rename o l : leaf_ok true (l_cls l) l -> wire o (rename_leaf f l) = rename_leaf f (wire o l).
  Proof. intros K. unfold wire. rewrite wire_fields_rename, wire_parts_rename by done. reflexivity. Qed.
  Lemma is_some_rename (ps : gmap string part) k : bool_decide (is_Some ((rename_part f <$> ps) !! k)) = bool_decide (is_Some (ps !! k)).
  Proof. apply bool_decide_ext. rewrite lookup_fmap. apply fmap_is_Some. Qed.
  Lemma existsb_same {A} (g h : A -> bool) l : (forall x, g x = h x) -> existsb g l = existsb h l.
  Proof. intros E. induction l as [|x l IH]; [done|]. cbn. by rewrite E, IH. Qed.
  Lemma unsupported_rename v l : unsupported v (rename_leaf f l) = unsupported v l.
  Proof.
    unfold unsupported. f_equal.
    - change (l_cls (rename_leaf f l)) with (l_cls l). apply existsb_same. intros s. cbn [rename_leaf l_parts]. by rewrite is_some_rename.
    - change (l_cls (rename_leaf f l)) with (l_cls l). change (l_fields (rename_leaf f l)) with (rename_fields f (schema (l_cls l)) (l_fields l)). change (l_parts (rename_leaf f l)) with (rename_part f <$> l_parts l). rewrite is_some_rename.
      generalize (l_fields l) as xs. intros xs. destruct (l_cls l); try done.
      + do 7 (destruct xs as [|? xs]; [done|]). cbn [schema rename_fields zip_with app]. by rewrite !rename_plain.
      + do 9 (destruct xs as [|? xs]; [done|]). cbn [schema rename_fields zip_with app]. by rewrite !rename_plain.
      + do 19 (destruct xs as [|? xs]; [done|]). cbn [schema rename_fields zip_with app]. by rewrite !rename_plain.
  Qed.
  Lemma wire_keeps o l : keeps l -> keeps (wire o l).
  Proof.
    intros [K1 K2]. split; [exact K1|]. intros E. change (l_cls (wire o l)) with (l_cls l) in E. replace (leaf_refs (wire o l)) with (leaf_refs l); [by apply K2|].
    unfold leaf_refs. change (l_cls (wire o l)) with (l_cls l). change (l_fields (wire o l)) with (wire_fields o l). unfold wire_fields. by rewrite E.
  Qed.
  Definition good (l : leaf) : Prop := leaf_ok true (l_cls l) l /\ keeps l.
  Lemma write_leaf_sim o l : good l -> simr (write_leaf o l) (write_leaf o (rename_leaf f l)).
  Proof.
    intros [K Kl] m y m1 E. unfold write_leaf in *. rewrite unsupported_rename. destruct (o_throwing o && unsupported (o_ver o) l); [done|]. rewrite wire_rename by done.
    destruct (write_doc_sim (o_ver o) (wire o l) (wire_keeps o l Kl)) with (m := m) as (x & m2 & Ex & ->).
    - exact (wire_parts_ok true o _ l K).
    - rewrite Ex in E. injection E as <- <-. by eexists.
  Qed.
  Lemma write_leaves_sim o ls : Forall good ls -> simr (wmapr (write_leaf o) ls) (wmapr (write_leaf o) (rename_leaf f <$> ls)).
  Proof. intros F. apply wmapr_sim, Forall2_fmap_self. eapply Forall_impl; [exact F|]. intros l. apply write_leaf_sim. Qed.
  Lemma write_topology_sim o x : Forall good (vl_leaves x) -> no_bus_switch x -> simr (write_topology o x) (write_topology o (rename_vl f x)).
  Proof.
    intros F N m y m1 E. unfold vl_leaves in F. apply Forall_cons in F as [_ F]. rewrite !Forall_app in F. destruct F as (Fb & Fs & Fw & _).
    unfold write_topology in *. cbn [rename_vl v_nb v_sections v_switches v_buses v_ics]. destruct (v_nb x) eqn:Nb.
    - destruct (wmapr (write_leaf o) (v_sections x) (Some m)) as [[a1 m2]| | |] eqn:Ea; try done. destruct (write_leaves_sim o _ Fs m _ _ Ea) as (m3 & -> & ->). cbn [result_bind] in *.
      destruct (wmapr (write_leaf o) (v_switches x) (Some m3)) as [[b1 m4]| | |] eqn:Eb; try done. destruct (write_leaves_sim o _ Fw m3 _ _ Eb) as (m5 & -> & ->). cbn [result_bind] in *. injection E as <- <-. by eexists.
    - destruct (wmapr (write_leaf o) (v_buses x) (Some m)) as [[a1 m2]| | |] eqn:Ea; try done. destruct (write_leaves_sim o _ Fb m _ _ Ea) as (m3 & -> & ->). rewrite (N Nb) in *. cbn in *. injection E as <- <-. by eexists.
  Qed.
  Lemma filter_rename c (ls : list leaf) : filter (fun l => l_cls l = c) (rename_leaf f <$> ls) = rename_leaf f <$> filter (fun l => l_cls l = c) ls.
  Proof.
    induction ls as [|l ls IH]; [done|]. rewrite fmap_cons, !filter_cons. cbn [rename_leaf l_cls]. destruct (decide (l_cls l = c)); [rewrite fmap_cons|]; by rewrite IH.
  Qed.
  Lemma eqs_rename (ls : list leaf) cs : mjoin (map (fun c => filter (fun l => l_cls l = c) (rename_leaf f <$> ls)) cs) = rename_leaf f <$> mjoin (map (fun c => filter (fun l => l_cls l = c) ls) cs).
  Proof.
    induction cs as [|c cs IH]; [done|]. cbn [map]. change (mjoin (?a :: ?b)) with (a ++ mjoin b) at 1. rewrite IH, filter_rename.
    change (mjoin (filter (fun l => l_cls l = c) ls :: ?b)) with (filter (fun l => l_cls l = c) ls ++ mjoin b). by rewrite fmap_app.
  Qed.
  Lemma eqs_good (ls : list leaf) cs : Forall good ls -> Forall good (mjoin (map (fun c => filter (fun l => l_cls l = c) ls) cs)).
  Proof. intros F. induction cs as [|c cs IH]; [constructor|]. apply (Forall_app_2 _ (filter (fun l => l_cls l = c) ls)); [|exact IH]. apply Forall_forall. intros l Hl. apply elem_of_list_filter in Hl as [_ Hl]. rewrite Forall_forall in F. by apply F. Qed.
  Lemma write_vl_sim o x : Forall good (vl_leaves x) -> no_bus_switch x -> simr (write_vl o x) (write_vl o (rename_vl f x)).
  Proof.
    intros F N m y m0 E. unfold write_vl in *. pose proof F as F'. unfold vl_leaves in F'. apply Forall_cons in F' as [[_ [K1 K2]] F']. rewrite !Forall_app in F'. destruct F' as (_ & _ & _ & Fe).
    change (v_leaf (rename_vl f x)) with (rename_leaf f (v_leaf x)). destruct (write_attrs_sim (o_ver o) _ K2 m) as (al & m1 & Ea & ->). destruct (write_extras_sim (o_ver o) _ K1 m1) as (es & m2 & Ee & ->). rewrite Ea, Ee in E.
    destruct (write_topology o x (Some m2)) as [[t m3]| | |] eqn:Et; try done. destruct (write_topology_sim o x F N m2 _ _ Et) as (m3' & -> & ->). cbn [result_bind] in *. cbn [rename_vl v_eqs v_nb]. rewrite eqs_rename.
    destruct (wmapr (write_leaf o) (mjoin (map (fun c => filter (fun l => l_cls l = c) (v_eqs x)) eq_classes)) (Some m3')) as [[qs m4]| | |] eqn:Eq; try done.
    destruct (write_leaves_sim o _ (eqs_good _ eq_classes Fe) m3' _ _ Eq) as (m5 & -> & ->). cbn [result_bind] in *. injection E as <- <-. by eexists.
  Qed.
  Lemma write_sub_sim o x : Forall good (sub_leaves x) -> Forall no_bus_switch (s_vls x) -> simr (write_sub o x) (write_sub o (rename_sub f x)).
  Proof.
    intros F N m y m0 E. unfold write_sub in *. unfold sub_leaves in F. apply Forall_cons in F as [[_ [K1 K2]] F]. rewrite !Forall_app in F. destruct F as (Fv & Ft & Fu).
    change (s_leaf (rename_sub f x)) with (rename_leaf f (s_leaf x)). destruct (write_attrs_sim (o_ver o) _ K2 m) as (al & m1 & Ea & ->). destruct (write_extras_sim (o_ver o) _ K1 m1) as (es & m2 & Ee & ->). rewrite Ea, Ee in E.
    cbn [rename_sub s_vls s_twts s_thwts]. destruct (wmapr (write_vl o) (s_vls x) (Some m2)) as [[vs m3]| | |] eqn:Ev; try done.
    destruct (wmapr_sim (write_vl o) (write_vl o) (s_vls x) (rename_vl f <$> s_vls x)) with (m := m2) (y := vs) (m1 := m3) as (m3' & -> & ->); [|done|].
    { apply Forall2_fmap_self. clear -Fv N H0 Hf. induction (s_vls x) as [|y ys IH]; [constructor|]. inversion_clear N as [|? ? N1 N2]. apply (Forall_app _ (vl_leaves y)) in Fv as [F1 F2]. constructor; [by apply write_vl_sim|by apply IH]. }
    cbn [result_bind] in *.
    destruct (wmapr (write_leaf o) (s_twts x) (Some m3')) as [[ts m4]| | |] eqn:Et; try done. destruct (write_leaves_sim o _ Ft m3' _ _ Et) as (m4' & -> & ->). cbn [result_bind] in *.
    destruct (wmapr (write_leaf o) (s_thwts x) (Some m4')) as [[us m5]| | |] eqn:Eu; try done. destruct (write_leaves_sim o _ Fu m4' _ _ Eu) as (m5' & -> & ->). cbn [result_bind] in *. injection E as <- <-. by eexists.
  Qed.
  Lemma write_network_sim o n y m : Forall good (mjoin (sub_leaves <$> n_subs n) ++ n_lines n ++ n_hvdcs n) -> keeps_order f (n_leaf n) ->
    Forall (fun s => Forall no_bus_switch (s_vls s)) (n_subs n) -> write_network o true n = Ok (y, m) -> exists m', write_network o true (rename f n) = Ok (y, m').
  Proof.
    intros F K N E. rewrite !Forall_app in F. destruct F as (F1 & F2 & F3). unfold write_network in *. cbn [rename n_leaf rename_root l_fields l_aliases l_props l_id n_subs n_lines n_hvdcs].
    assert (exists fs, write_fields (o_ver o) (schema CNetwork) (l_fields (n_leaf n)) (Some []) = (fs, Some [])) as [fs Efs].
    { unfold write_fields. destruct (l_fields (n_leaf n)) as [|x1 [|x2 [|x3 xs]]]; try (eexists; reflexivity); destruct x1; try (eexists; reflexivity); destruct x2; try (eexists; reflexivity); destruct x3; eexists; reflexivity. }
    rewrite Efs in *. assert (Ek : bool_decide (kmap f (l_aliases (n_leaf n)) = (∅ : gmap string string)) = bool_decide (l_aliases (n_leaf n) = ∅)).
    { apply bool_decide_ext. unfold keeps_order in K. split; intros X.
      - rewrite X, map_to_list_empty in K. apply map_to_list_empty_iff. by destruct (map_to_list (l_aliases (n_leaf n))).
      - rewrite X in K |- *. rewrite map_to_list_empty in K. apply map_to_list_empty_iff. exact K. }
    rewrite Ek. destruct (o_throwing o && ver_lt (o_ver o) V1_3 && negb (bool_decide (l_aliases (n_leaf n) = ∅))); [done|].
    destruct (write_aliases_sim (o_ver o) (l_aliases (n_leaf n)) K []) as (als & m1 & Ea & Ea'). rewrite Ea in E. change (Some (fm [])) with (Some [] : option mapping) in Ea'. rewrite Ea'.
    destruct (wmapr (write_sub o) (n_subs n) (Some m1)) as [[ss m2]| | |] eqn:Es; try done.
    destruct (wmapr_sim (write_sub o) (write_sub o) (n_subs n) (rename_sub f <$> n_subs n)) with (m := m1) (y := ss) (m1 := m2) as (m2' & -> & Es'); [|done|].
    { apply Forall2_fmap_self. clear -F1 N H0 Hf. induction (n_subs n) as [|x xs IH]; [constructor|]. inversion_clear N as [|? ? N1 N2]. apply (Forall_app _ (sub_leaves x)) in F1 as [F1 F2]. constructor; [by apply write_sub_sim|by apply IH]. }
    rewrite Es'. cbn [result_bind] in *.
    destruct (wmapr (write_leaf o) (n_lines n) (Some m2')) as [[ls m3]| | |] eqn:El; try done. destruct (write_leaves_sim o _ F2 m2' _ _ El) as (m3' & -> & ->). cbn [result_bind] in *.
    destruct (wmapr (write_leaf o) (n_hvdcs n) (Some m3')) as [[hs m4]| | |] eqn:Eh; try done. destruct (write_leaves_sim o _ F3 m3' _ _ Eh) as (m4' & -> & ->). cbn [result_bind] in *. injection E as <- <-. by eexists.
  Qed.
End renaming.

(** * Anonymization and the switches of bus/breaker levels. *)
Lemma available_self m : winv true m -> available m m.
Proof. intros [W N]. destruct m as [m|]; [|by destruct (W eq_refl)]. destruct N as [[N1 N2] _]. done. Qed.
Definition capitals (s : string) : Prop := Forall letter (to_str s).
Definition switch_capitals (x : vlevel) : Prop := v_nb x = false -> forall l, l ∈ v_switches x -> exists sw, sw ∈ v_switches x /\ capitals (l_id sw).
Notation grows' := (grows true).
Lemma wmapr_grows {A B} (P C : A -> Prop) (f : A -> option mapping -> result (B * option mapping)) l m ys m' :
  (forall x m y m', P x -> winv true m -> f x m = Ok (y, m') -> grows' m m' /\ C x) -> Forall P l -> winv true m -> wmapr f l m = Ok (ys, m') -> grows' m m' /\ Forall C l.
Proof.
  intros H F W E. destruct (wmapr_ok true P (fun _ x _ => C x) f) with (l := l) (m := m) (ys := ys) (m' := m') as [G Q]; [|done..|].
  - intros x m0 y m1 Px W0 E0. destruct (H _ _ _ _ Px W0 E0). by split.
  - split; [done|]. specialize (Q m' (available_self m' (proj1 G))). clear -Q. by induction Q; constructor.
Qed.
Lemma write_leaf_grows o k l m x m' : leaf_ok true k l -> winv true m -> write_leaf o l m = Ok (x, m') -> grows' m m' /\ True.
Proof.
  intros K W E. split; [|done]. unfold write_leaf in E. destruct (o_throwing o && unsupported (o_ver o) l); [done|].
  injection E as E. unfold write_doc in E. pose proof (wire_doc_ok true o k l K) as D. pose proof (proj1 K) as Ek.
  destruct (write_attrs (o_ver o) (wire o l) m) as [al m1] eqn:E1. destruct (write_extras (o_ver o) (wire o l) m1) as [es m2] eqn:E2.
  destruct (write_parts (o_ver o) (l_cls (wire o l)) (l_parts (wire o l)) m2) as [ps m3] eqn:E3. injection E as <- <-. cbn [wire with_parts with_fields l_cls l_parts] in E3. rewrite Ek in E3.
  destruct (attrs_ok true (o_ver o) k _ m al m1 D W E1) as [G1 _]. destruct (extras_ok true (o_ver o) k _ m1 es m2 D (proj1 G1) E2) as [G2 _].
  destruct (write_parts_ok true (o_ver o) k _ m2 ps m3 (wire_parts_ok true o k l K) (proj1 G2) E3) as [G3 _].
  eapply grows_trans; [exact G1|eapply grows_trans; [exact G2|exact G3]].
Qed.
Lemma write_leaves_grows o (P : leaf -> Prop) ls m xs m' : (forall l, P l -> leaf_ok true (l_cls l) l) -> Forall P ls -> winv true m -> wmapr (write_leaf o) ls m = Ok (xs, m') -> grows' m m'.
Proof. intros H F W E. refine (proj1 (wmapr_grows P (fun _ => True) _ _ _ _ _ _ F W E)). intros l m0 y m1 Pl W0 E0. exact (write_leaf_grows o _ l m0 y m1 (H l Pl) W0 E0). Qed.
Lemma leaf_ok_cls a k l : leaf_ok a k l -> leaf_ok a (l_cls l) l.
Proof. intros K. pose proof (proj1 K) as E. by rewrite E. Qed.
Lemma write_topology_capitals o x m t m' : vl_ok true (o_ver o) x -> winv true m -> write_topology o x m = Ok (t, m') -> grows' m m' /\ switch_capitals x.
Proof.
  intros (_ & K & _) W E. unfold write_topology in E. destruct (v_nb x) eqn:Nb.
  - destruct K as (_ & Ks & Kw). split; [|by intros ?; congruence].
    destruct (wmapr (write_leaf o) (v_sections x) m) as [[xs m1]| | |] eqn:E1; try done. cbn [result_bind] in E. destruct (wmapr (write_leaf o) (v_switches x) m1) as [[ys m2]| | |] eqn:E2; try done. injection E as <- <-.
    pose proof (write_leaves_grows o _ _ _ _ _ (leaf_ok_cls true _) Ks W E1) as G1. pose proof (write_leaves_grows o _ _ _ _ _ (leaf_ok_cls true _) Kw (proj1 G1) E2) as G2. by eapply grows_trans.
  - destruct K as (_ & _ & Kb & Kw).
    destruct (wmapr (write_leaf o) (v_buses x) m) as [[xs m1]| | |] eqn:E1; try done. cbn [result_bind] in E. destruct (wmapr (write_bus_switch o (v_switches x)) (v_switches x) m1) as [[ys m2]| | |] eqn:E2; try done. injection E as <- <-.
    pose proof (write_leaves_grows o _ _ _ _ _ (fun l (H : bus_ok true (o_ver o) l) => leaf_ok_cls true _ l (proj1 H)) Kb W E1) as G1.
    destruct (wmapr_grows (leaf_ok true CBusSwitch) (fun _ => exists sw, sw ∈ v_switches x /\ capitals (l_id sw)) (write_bus_switch o (v_switches x)) (v_switches x) m1 ys m2) as [G Q]; [|done|apply G1|done|].
    + intros w m0 y m3 Kl W0 Ew. unfold write_bus_switch in Ew. destruct (anon (l_id w) m0) as [c m4] eqn:A. destruct (anon_ok true _ _ _ _ W0 A) as (G & _ & _ & C).
      destruct (existsb _ (v_switches x)) eqn:X; [|done]. destruct (write_leaf_grows o CBusSwitch w m4 y m3 Kl (proj1 G) Ew) as [G2 _]. split; [by eapply grows_trans|].
      apply existsb_exists in X as (sw & Hsw & Es). apply String.eqb_eq in Es. exists sw. split; [by apply elem_of_list_In|]. rewrite Es. destruct m4 as [m4|]; [exact C|]. destruct G as [[G _] _]. by destruct (G eq_refl).
    + split; [by eapply grows_trans|]. intros _ l Hl. rewrite Forall_forall in Q. by apply (Q l).
Qed.
Lemma write_vl_capitals o x m t m' : vl_ok true (o_ver o) x -> winv true m -> write_vl o x m = Ok (t, m') -> grows' m m' /\ switch_capitals x.
Proof.
  intros K W E. unfold write_vl in E. destruct (write_attrs (o_ver o) (v_leaf x) m) as [al m1] eqn:E1. destruct (write_extras (o_ver o) (v_leaf x) m1) as [es m2] eqn:E2.
  destruct (plain_head true o CVoltageLevel _ (proj1 K) eq_refl eq_refl) as (D & _).
  destruct (attrs_ok true (o_ver o) CVoltageLevel _ m al m1 D W E1) as [G1 _]. destruct (extras_ok true (o_ver o) CVoltageLevel _ m1 es m2 D (proj1 G1) E2) as [G2 _].
  destruct (write_topology o x m2) as [[t' m3]| | |] eqn:E3; try done. cbn [result_bind] in E. destruct (write_topology_capitals o x m2 t' m3 K (proj1 G2) E3) as [G3 Q].
  destruct (wmapr (write_leaf o) (mjoin (map (fun c => filter (fun l => l_cls l = c) (v_eqs x)) eq_classes)) m3) as [[qs m4]| | |] eqn:E4; try done. injection E as <- <-. split; [|done].
  assert (G4 : grows' m3 m4).
  { eapply (write_leaves_grows o (fun l => leaf_ok true (l_cls l) l)); [done| |apply G3|exact E4]. destruct K as (_ & _ & Ke & _). assert (Ke' : Forall (fun l => leaf_ok true (l_cls l) l) (v_eqs x)) by (eapply Forall_impl; [exact Ke|]; by intros l [_ ?]). clear -Ke'. induction eq_classes as [|c cs IH]; [constructor|].
    apply (Forall_app_2 _ (filter (fun l => l_cls l = c) (v_eqs x))); [|exact IH]. apply Forall_forall. intros l Hl. apply elem_of_list_filter in Hl as [_ Hl]. rewrite Forall_forall in Ke'. by apply Ke'. }
  eapply grows_trans; [exact G1|]. eapply grows_trans; [exact G2|]. by eapply grows_trans.
Qed.
Lemma write_sub_capitals o x m t m' : sub_ok true (o_ver o) x -> winv true m -> write_sub o x m = Ok (t, m') -> grows' m m' /\ Forall switch_capitals (s_vls x).
Proof.
  intros (Kl & Kv & Kt & Ku & _) W E. unfold write_sub in E. destruct (write_attrs (o_ver o) (s_leaf x) m) as [al m1] eqn:E1. destruct (write_extras (o_ver o) (s_leaf x) m1) as [es m2] eqn:E2.
  destruct (plain_head true o CSubstation _ Kl eq_refl eq_refl) as (D & _).
  destruct (attrs_ok true (o_ver o) CSubstation _ m al m1 D W E1) as [G1 _]. destruct (extras_ok true (o_ver o) CSubstation _ m1 es m2 D (proj1 G1) E2) as [G2 _].
  destruct (wmapr (write_vl o) (s_vls x) m2) as [[vs m3]| | |] eqn:E3; try done. cbn [result_bind] in E.
  destruct (wmapr_grows (vl_ok true (o_ver o)) switch_capitals (write_vl o) (s_vls x) m2 vs m3) as [G3 Q]; [intros; by eapply write_vl_capitals|done|apply G2|done|].
  destruct (wmapr (write_leaf o) (s_twts x) m3) as [[ts m4]| | |] eqn:E4; try done. cbn [result_bind] in E. destruct (wmapr (write_leaf o) (s_thwts x) m4) as [[us m5]| | |] eqn:E5; try done. injection E as <- <-. split; [|done].
  pose proof (write_leaves_grows o _ _ _ _ _ (leaf_ok_cls true _) Kt (proj1 G3) E4) as G4. pose proof (write_leaves_grows o _ _ _ _ _ (leaf_ok_cls true _) Ku (proj1 G4) E5) as G5.
  eapply grows_trans; [exact G1|]. eapply grows_trans; [exact G2|]. eapply grows_trans; [exact G3|]. by eapply grows_trans.
Qed.
Lemma write_network_capitals o n y m : net_ok true (o_ver o) n -> write_network o true n = Ok (y, m) -> Forall (fun s => Forall switch_capitals (s_vls s)) (n_subs n).
Proof.
  intros (Kr & Ks & _) E. unfold write_network in E. destruct (root_fields o (l_fields (n_leaf n)) (Some [])) as (fs & E1 & _); [by apply (fields_typed false _ _ Kr)|]. rewrite E1 in E.
  destruct (o_throwing o && ver_lt (o_ver o) V1_3 && negb (bool_decide (l_aliases (n_leaf n) = ∅))); [done|].
  destruct (wmap (write_alias (o_ver o)) (map_to_list (l_aliases (n_leaf n))) (Some [])) as [als m2] eqn:E2. destruct (wmapr (write_sub o) (n_subs n) m2) as [[ss m3]| | |] eqn:E3; try done.
  destruct (wmap_ok true (fun p => blank p.1 = false) (fun _ _ _ => True) (write_alias (o_ver o))) with (l := map_to_list (l_aliases (n_leaf n))) (m := Some [] : option mapping) (ys := als) (m' := m2) as [G2 _].
  - intros p m0 z m1 B W Ez. destruct (write_alias_ok true (o_ver o) p m0 z m1 B W Ez) as [G _]. by split.
  - apply Forall_forall. intros [s t] Hp. apply elem_of_map_to_list in Hp. destruct Kr as (_ & _ & _ & B & _). by eapply B.
  - exact (conj (fun _ => mk_is_Some _ _ eq_refl) numbered_nil).
  - done.
  - eapply (wmapr_grows (sub_ok true (o_ver o)) (fun s => Forall switch_capitals (s_vls s)) (write_sub o) (n_subs n) m2 ss m3); [intros; by eapply write_sub_capitals|done|apply G2|done].
Qed.

(** * Buses with a property or an alias. *)
Lemma bus_unreadable a o l m x m' mf fuel idx n al e rest : leaf_ok a CBus l -> winv a m -> write_leaf o l m = Ok (x, m') -> available m' mf ->
  l_props l <> ∅ \/ (older (o_ver o) 3 = false /\ l_aliases l <> ∅) -> fits (names o l) (leaf_refs l) idx -> length (events x) < fuel -> n <> "alias" -> n <> "property" ->
  read_leaf fuel (o_ver o) mf CBus idx (events x ++ EStart n al e :: rest) = Throw "Unknown element name".
Proof.
  intros K W E Hm Ne Fi L N1 N2. set (v := o_ver o) in *. unfold write_leaf in E. fold v in E. destruct (o_throwing o && unsupported v l); [done|]. injection E as E.
  destruct (plain_head a o CBus l K eq_refl eq_refl) as (D & Eh & Er). fold v in D, Eh, Er. pose proof (proj1 K) as Ek.
  assert (Z : l_parts l = ∅). { destruct K as (_ & _ & _ & _ & _ & Kp). apply map_eq. intros key. rewrite lookup_empty. destruct (l_parts l !! key) as [p|] eqn:Ep; [|done]. destruct (Kp key p Ep) as (_ & s & Hs & _). by apply elem_of_nil in Hs. }
  assert (Ew : wire o l = l). { unfold wire, wire_fields, wire_parts. rewrite Ek, Z, fmap_empty. destruct l. cbn in *. by subst. }
  rewrite Ew in E. unfold write_doc in E. destruct (write_attrs v l m) as [at1 m1] eqn:E1. destruct (write_extras v l m1) as [es m2] eqn:E2. rewrite Ek, Z in E. change (write_parts v CBus ∅ m2) with (@nil xml, m2) in E. cbn [app] in E. rewrite app_nil_r in E. injection E as <- <-.
  destruct (attrs_ok a v CBus l m at1 m1 D W E1) as [G1 R1]. destruct (extras_ok a v CBus l m1 es m2 D (proj1 G1) E2) as [G2 R2]. destruct (R2 mf Hm) as [_ R2']. assert (Hm1 : available m1 mf) by (by apply G2).
  assert (Ees : es <> []).
  { unfold write_extras in E2. destruct (if run_from V1_3 v then _ else _) as [als m3] eqn:A. injection E2 as <- <-. destruct Ne as [Ne|[V Ne]].
    - destruct (map_to_list (l_props l)) as [|p ps] eqn:P; [by apply map_to_list_empty_iff in P|]. by destruct als.
    - pose proof (run_from_older v V1_3) as V3. change (number V1_3) with 3 in V3. rewrite V3, V in A. cbn [negb] in A. destruct (map_to_list (l_aliases l)) as [|p ps] eqn:P; [by apply map_to_list_empty_iff in P|]. cbn [wmap] in A. destruct (write_alias v p m1) as [y m4]. destruct (wmap _ ps m4). injection A as <- <-. done. }
  unfold read_leaf. destruct es as [|c es]; [done|]. unfold elem in *. rewrite events_elem in *. cbn [app] in *.
  destruct (R1 mf Hm1 (tag CBus) false [] ((mjoin (events <$> c :: es) ++ [EEnd (tag CBus)]) ++ EStart n al e :: rest) idx) as [R _]; [by intros q ?%elem_of_nil|rewrite Er; apply Fi|by eapply fits_id|]. rewrite app_nil_r in R. change (tag CBus) with "bus" in R. rewrite R. cbn [result_bind].
  cbn [read_until xread tl until_name]. rewrite <- app_assoc.
  pose proof (extras_sub o fuel mf CBus "substation" (head_of v l, {[l_id l]} ∪ idx) (c :: es) _ (proj1 (R2 mf Hm)) Ek (R2' "substation" ({[l_id l]} ∪ idx) ltac:(done) (fits_aliases o l _ idx Fi))) as S. fold v in S.
  cbn [length] in L. rewrite app_length in L. cbn [length] in L.
  destruct (until_eats _ "substation" _ _ _ S "" ([EEnd "bus"] ++ EStart n al e :: rest) (fuel - length (mjoin (events <$> c :: es)))) as (t' & fuel' & G & U).
  replace (length (mjoin (events <$> c :: es)) + (fuel - length (mjoin (events <$> c :: es)))) with fuel in U by lia.
  rewrite U. destruct fuel' as [|[|fuel']]; [lia..|]. cbn [app until_loop]. change (String.eqb "bus" "substation") with false. cbn [xread tl].
  unfold read_sub_element. cbn [local_name result_bind fst]. change (l_cls (doc_head v l)) with (l_cls l). rewrite Ek. cbn [slots find_slot].
  unfold read_extra. cbn [local_name result_bind]. destruct (String.eqb_spec n "property"); [done|]. destruct (String.eqb_spec n "alias"); [done|]. done.
Qed.

(** * When nothing is lost. *)
Lemma kept_deadband v p : (older v 2 = true -> forall k low tap db x reg fs cs, p = Part k (low :: tap :: db :: x :: reg :: fs) cs -> match reg with VBool true => db <> VNum None /\ db <> VNum (Some "-0") | _ => ~ zero db end) -> degrade_part v p = p.
Proof.
  intros K. destruct p as [k fs cs]. unfold degrade_part. destruct (older v 2) eqn:V; [|by destruct k; try done; destruct fs as [|? [|? [|? [|? [|? ?]]]]]].
  assert (H : forall low tap db x reg fs', fs = low :: tap :: db :: x :: reg :: fs' -> degrade_deadband db reg = db).
  { intros low tap db x reg fs' ->. specialize (K eq_refl k low tap db x reg fs' cs eq_refl). unfold degrade_deadband. case_bool_decide as D; [|done]. rewrite !elem_of_cons in D. case_bool_decide as R.
    - subst reg. destruct K as [K1 K2]. destruct D as [D|[D|[D|D]]]; [done..|by apply elem_of_nil in D].
    - destruct D as [D|[D|[D|D]]]; [done|..]; try by apply elem_of_nil in D.
      all: assert (~ zero db) as N by (destruct reg as [| [] | | |]; done); destruct N; unfold zero; auto. }
  destruct k; try done; destruct fs as [|low [|tap [|db [|x [|reg fs]]]]]; try done; by rewrite (H low tap db x reg fs eq_refl).
Qed.
Lemma kept_parts a v l : leaf_ok a (l_cls l) l -> supported v l -> kept v l -> degrade_parts v l = l_parts l.
Proof.
  intros K (S1 & S2 & S3) (_ & _ & _ & K4 & K5 & _). apply map_eq. intros key. unfold degrade_parts. rewrite map_lookup_imap. destruct (l_parts l !! key) as [p|] eqn:E; [|done]. cbn [mbind option_bind].
  assert (lost v (l_cls l) key p = false) as ->.
  { unfold lost. rewrite !orb_false_iff, !andb_false_iff, !bool_decide_eq_false. repeat split.
    - destruct (older v 5); [|by left]. right. intros Hk. specialize (S1 eq_refl key Hk). congruence.
    - destruct (older v 3) eqn:V; [|by left]. right. intros [C ->]. rewrite C in *. destruct (shunt_fields a l K) as (b & g & mx & n & on & tv & td & fs & Ef & _). rewrite Ef in S3. destruct S3 as [S3 _]. specialize (S3 eq_refl). congruence.
    - destruct (older v 2) eqn:V; [|by left]. right. intros [C ->]. rewrite C in *. destruct (shunt_fields a l K) as (b & g & mx & n & on & tv & td & fs & Ef & _). rewrite Ef in S3. destruct S3 as [_ S3]. destruct (S3 eq_refl) as (_ & _ & _ & ?). congruence.
    - destruct (older v 3) eqn:V; [|by left]. right. intros [C ->]. destruct K as (_ & _ & Kf & _). unfold fields_ok in Kf. rewrite C in *. destruct Kf as [_ Kf]. revert Kf S3. generalize (l_fields l) as xs. intros xs Kf S3.
      do 12 (destruct xs as [|? xs]; [done|]). specialize (S3 eq_refl). subst. destruct Kf as [Kf|[Kf|Kf]]; [|done..]. destruct Kf as (_ & _ & _ & _ & _ & _ & Kf). congruence.
    - by apply (K4 key). }
  f_equal. apply kept_deadband. intros V k low tap db x reg fs cs ->. by apply (K5 V key k low tap db x reg fs cs).
Qed.
Lemma kept_half v i n (r x g1 b1 g2 b2 f : fval) : i <> n -> (older v 3 = true -> f = VBool false) -> degrade_half v [i; n; r; x; g1; b1; g2; b2; f] = [i; n; r; x; g1; b1; g2; b2; f].
Proof.
  intros N F. unfold degrade_half. destruct i; try done. destruct n; try done. destruct (String.eqb_spec s0 s) as [->|_]; [done|]. destruct (older v 3); [|done]. by rewrite (F eq_refl).
Qed.
Lemma kept_fields a o l : leaf_ok a (l_cls l) l -> supported (o_ver o) l -> kept (o_ver o) l -> degrade_fields o l = l_fields l.
Proof.
  intros K (_ & _ & S) (_ & _ & _ & _ & _ & Kf). unfold degrade_fields. destruct (l_cls l) eqn:C; try done.
  - destruct (shunt_fields a l K) as (b & g & mx & n & on & tv & td & fs & Ef & _). rewrite Ef in *. destruct S as [S1 S2]. destruct (older (o_ver o) 3) eqn:V3.
    + rewrite (S1 eq_refl), (Kf eq_refl). destruct (older (o_ver o) 2); [|done]. by destruct (S2 eq_refl) as (-> & -> & -> & _).
    + assert (older (o_ver o) 2 = false) as -> by (unfold older in *; apply Nat.ltb_ge; apply Nat.ltb_ge in V3; lia). by destruct (l_parts l !! "model").
  - destruct K as (_ & _ & Ko & _). unfold fields_ok in Ko. rewrite C in Ko. destruct Ko as [_ Ko]. revert Ko S. generalize (l_fields l) as xs. intros xs Ko S. do 12 (destruct xs as [|? xs]; [done|]). destruct (older (o_ver o) 3); [|done].
    specialize (S eq_refl). subst. destruct Ko as [Ko|[Ko|Ko]]; [|done..]. by destruct Ko as (_ & -> & -> & -> & -> & -> & _).
  - revert Kf. generalize (l_fields l) as xs. intros xs Kf. do 7 (destruct xs as [|? xs]; [done|]). destruct (older (o_ver o) 2); [|done]. by rewrite (Kf eq_refl).
  - revert Kf S. generalize (l_fields l) as xs. intros xs Kf S. do 19 (destruct xs as [|? xs]; [done|]). destruct Kf as [K1 K2]. cbn zeta. destruct (older (o_ver o) 1) eqn:V1.
    + assert (older (o_ver o) 2 = true) as V2 by (unfold older in *; apply Nat.ltb_lt; apply Nat.ltb_lt in V1; lia). rewrite V2 in *. destruct (K1 eq_refl) as (-> & -> & ->). destruct (S eq_refl) as (Z1 & Z2 & Z3 & Z4 & ->).
      specialize (K2 eq_refl). rewrite !Forall_cons in K2. destruct K2 as (N1 & N2 & N3 & N4 & _). destruct Z1 as [->|]; [|done]. destruct Z2 as [->|]; [|done]. destruct Z3 as [->|]; [|done]. by destruct Z4 as [->|].
    + destruct (older (o_ver o) 2); [|done]. by destruct (K1 eq_refl) as (-> & -> & ->).
  - pose proof (fields_typed a _ _ K ltac:(done)) as T. destruct (Kf 13 21 ltac:(left) eq_refl) as [N1 F1]. destruct (Kf 22 30 ltac:(right; left) eq_refl) as [N2 F2]. clear Kf S.
    do 31 (apply Forall2_cons_inv_l in T as (? & ? & ? & T & Ex); rewrite Ex in *; clear Ex). apply Forall2_nil_inv_l in T as ->. cbn [lookup list_lookup] in *. cbn [take drop].
    rewrite !kept_half; [done|..]; intros; try (intros ->; done); first [by injection (F1 ltac:(done))|by injection (F2 ltac:(done))].
Qed.
Lemma kept_same a o l : leaf_ok a (l_cls l) l -> supported (o_ver o) l -> kept (o_ver o) l -> degrade_leaf o l = l.
Proof.
  intros K S Kp. unfold degrade_leaf. rewrite (kept_fields a o l K S Kp), (kept_parts a _ l K S Kp). destruct Kp as (K1 & K2 & K3 & _).
  assert (degrade_fict (o_ver o) l = l_fict l) as ->.
  { unfold degrade_fict. destruct (older (o_ver o) 2); [|done]. destruct (is_switch (l_cls l)); [done|]. cbn. by rewrite K1. }
  assert (degrade_aliases (o_ver o) l = l_aliases l) as ->; [|by destruct l].
  unfold degrade_aliases. destruct (older (o_ver o) 3); [by rewrite K2|]. destruct (older (o_ver o) 4); [|done]. apply map_eq. intros s. rewrite lookup_fmap. destruct (l_aliases l !! s) as [t|] eqn:E; [|done]. cbn. by rewrite (K3 eq_refl s t E).
Qed.
Lemma kept_network a o n : net_ok a (o_ver o) n -> net_supported (o_ver o) n -> root_kept (o_ver o) (n_leaf n) -> (forall l, l ∈ mjoin (sub_leaves <$> n_subs n) ++ n_lines n ++ n_hvdcs n -> kept (o_ver o) l) -> degrade o n = n.
Proof.
  intros K [S0 S] (R1 & R2 & R3 & R4) Kp.
  assert (H : forall l, l ∈ mjoin (sub_leaves <$> n_subs n) ++ n_lines n ++ n_hvdcs n -> degrade_leaf o l = l).
  { intros l Hl. apply (kept_same a); [|by apply S|by apply Kp]. by apply (net_leaf_ok a (o_ver o) n l K). }
  destruct n as [l ss ls hs]. unfold degrade. cbn [n_leaf n_subs n_lines n_hvdcs] in *.
  assert (L : forall xs : list leaf, (forall l, l ∈ xs -> degrade_leaf o l = l) -> degrade_leaf o <$> xs = xs).
  { intros xs. induction xs as [|x xs IH]; [done|]. intros Hx. rewrite fmap_cons, (Hx x) by left. f_equal. apply IH. intros y Hy. apply Hx. by right. }
  f_equal.
  - unfold degrade_root. destruct K as (K & _). cbn [n_leaf] in K. assert (degrade_aliases (o_ver o) l = l_aliases l) as ->.
    { unfold degrade_aliases. destruct (older (o_ver o) 3); [by rewrite R3|]. destruct (older (o_ver o) 4); [|done]. apply map_eq. intros s. rewrite lookup_fmap. destruct (l_aliases l !! s) as [t|] eqn:E; [|done]. cbn. by rewrite (R4 eq_refl s t E). }
    assert (l_parts l = ∅). { destruct K as (_ & _ & _ & _ & _ & Kp'). apply map_eq. intros key. rewrite lookup_empty. destruct (l_parts l !! key) as [p|] eqn:Ep; [|done]. destruct (Kp' key p Ep) as (_ & s & Hs & _). by apply elem_of_nil in Hs. }
    destruct K as (K & _). destruct l. cbn in *. by subst.
  - assert (Hs : forall l, l ∈ mjoin (sub_leaves <$> ss) -> degrade_leaf o l = l) by (intros; apply H, elem_of_app; by left). clear -Hs L. induction ss as [|s ss IH]; [done|]. rewrite fmap_cons. rewrite fmap_cons in Hs.
    change (mjoin (sub_leaves s :: (sub_leaves <$> ss))) with (sub_leaves s ++ mjoin (sub_leaves <$> ss)) in Hs. f_equal; [|apply IH; intros; apply Hs, elem_of_app; by right].
    assert (Hx : forall l, l ∈ sub_leaves s -> degrade_leaf o l = l) by (intros; apply Hs, elem_of_app; by left). clear Hs IH. destruct s as [sl vs ts us]. unfold sub_leaves in Hx. cbn [s_leaf s_vls s_twts s_thwts] in Hx. unfold degrade_sub. cbn [s_leaf s_vls s_twts s_thwts].
    rewrite (Hx sl) by left. rewrite !L by (intros; apply Hx; right; rewrite !elem_of_app; auto). f_equal.
    assert (Hv : forall l, l ∈ mjoin (vl_leaves <$> vs) -> degrade_leaf o l = l) by (intros; apply Hx; right; rewrite !elem_of_app; auto). clear Hx. induction vs as [|x vs IH]; [done|]. rewrite fmap_cons. rewrite fmap_cons in Hv.
    change (mjoin (vl_leaves x :: (vl_leaves <$> vs))) with (vl_leaves x ++ mjoin (vl_leaves <$> vs)) in Hv. f_equal; [|apply IH; intros; apply Hv, elem_of_app; by right].
    assert (Hy : forall l, l ∈ vl_leaves x -> degrade_leaf o l = l) by (intros; apply Hv, elem_of_app; by left). destruct x as [vl nb bs cs ws ics es]. unfold vl_leaves in Hy. cbn [v_leaf v_buses v_sections v_switches v_eqs] in Hy. unfold degrade_vl. cbn [v_leaf v_nb v_buses v_sections v_switches v_ics v_eqs].
    rewrite (Hy vl) by left. rewrite !L by (intros; apply Hy; right; rewrite !elem_of_app; auto). done.
  - apply L. intros. apply H. rewrite !elem_of_app. auto.
  - apply L. intros. apply H. rewrite !elem_of_app. auto.
Qed.
Lemma supported_readable_net v n : net_supported v n -> readable v n.
Proof. intros [S0 S]. split; [done|]. intros l Hl V key Hk. destruct (S l Hl) as (_ & S2 & _). by apply S2. Qed.

