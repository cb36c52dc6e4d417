From stdpp Require Import gmap relations.
From Verif Require Import Base Equip Components ComponentsProofs CompNetSpec CompNetProofs CompNetLinks CompNetInv.

Lemma filter_ext_in {A} (P Q : A -> Prop) `{forall x, Decision (P x)} `{forall x, Decision (Q x)} (l : list A) :
  (forall x, x ∈ l -> P x <-> Q x) -> filter P l = filter Q l.
Proof.
  induction l as [|y l IH]; intros HPQ; [done|]. rewrite !filter_cons, IH by (intros; apply HPQ; by right).
  pose proof (HPQ y ltac:(left)). destruct (decide (P y)), (decide (Q y)); tauto.
Qed.
Lemma vl_view_ext s v s' v' bs : (forall a b, a ∈ bs -> b ∈ bs -> cjoined s v a b <-> cjoined s' v' a b) ->
  (forall e i k b, b ∈ bs -> on_bus s v e i k b <-> on_bus s' v' e i k b) -> (forall b, b ∈ bs -> b ∈ cs_node s <-> b ∈ cs_node s') -> vl_view s v bs = vl_view s' v' bs.
Proof.
  intros Hj Ho Hn. unfold vl_view. rewrite (classes_ext (eqv s v bs) (eqv s' v' bs)).
  - apply filter_ext_in. intros c (b & _ & ->)%classes_in. rewrite (valid_ext s v s' v'); [done| |].
    + intros e i k x [_ Hx]%elem_of_list_filter. by apply Ho.
    + intros x [_ Hx]%elem_of_list_filter. by apply Hn.
  - apply eqv_ext. intros a b. split; intros (H & Ha & Hb); split_and!; try done; by apply Hj.
Qed.
Lemma vl_view_drop s v bs x : (forall a b, cjoined s v a b -> a <> x /\ b <> x) -> (forall e i k, ~ on_bus s v e i k x) ->
  vl_view s v (filter (fun b => b <> x) bs) = vl_view s v bs.
Proof.
  intros Hj Ho. unfold vl_view.
  assert (forall b, b <> x -> eqv s v bs x b = false) as Hx.
  { intros b Hb. apply not_true_iff_false. rewrite eqv_spec. intros H. apply Hb. clear Hb. revert b H. apply rtc_ind_r; [done|].
    intros y z _ [[H _]|[H _]] ->; apply Hj in H; tauto. }
  rewrite (classes_ext (eqv s v (filter (fun b => b <> x) bs)) (eqv s v bs)).
  - apply (classes_drop (eqv s v bs)); [apply eqv_sym|done|]. apply not_true_iff_false. intros (e & i & k & b & [Hb _]%elem_of_list_filter & Hob)%valid_some.
    destruct (decide (b = x)) as [->|Hne]; [by eapply Ho|]. by rewrite Hx in Hb.
  - apply eqv_ext. intros a b. rewrite !elem_of_list_filter. naive_solver.
Qed.
Lemma joined_known s v a b : cwf s -> cjoined s v a b -> bus_known s a /\ bus_known s b.
Proof.
  intros W H. assert (exists p, p ∈ cs_vls s /\ a ∈ p.2 /\ b ∈ p.2) as (p & Hp & Ha & Hb).
  { destruct H as [(id & H & _)|H]; [by eapply (w_sw _ W)|by apply (w_ic _ W)]. }
  split; apply Exists_exists; eauto.
Qed.
Lemma on_known s v e i k b : cwf s -> on_bus s v e i k b -> bus_known s b.
Proof. intros W (bs & He & Hi & _). apply (w_eq _ W) in He as [_ He]. apply He. by eapply elem_of_list_lookup_2. Qed.
Lemma vl_of_spec s vl bs b : cwf s -> (vl, bs) ∈ cs_vls s -> b ∈ bs -> vl_of s b = Some vl.
Proof.
  intros W Hin Hb. unfold vl_of. destruct (list_find_elem_of (fun p : string * list string => b ∈ p.2) (cs_vls s) (vl, bs) Hin Hb) as [[i p] E]. rewrite E. cbn.
  apply list_find_Some in E as (Hi & Hp & _). apply elem_of_list_lookup_2 in Hi. by rewrite (w_once _ W p (vl, bs) b Hi Hin Hp Hb).
Qed.

Section step.
  Context (order : nat * list nat * list (option nat) -> list nat) (sorted : forall r, sorted_components r (order r)).
  Notation cinv := (cinv order).

  Lemma compute_ext hv s v s' v' W : cs_eq s' = cs_eq s -> cv_conn v' = cv_conn v -> (hv = true -> cs_hv s' = cs_hv s) ->
    compute order hv s' v' W = compute order hv s v W.
  Proof.
    intros E1 E2 E3. rewrite <- (compute_same order hv s' v' (mkCV (cv_open v') (cv_conn v) (cv_view v') (cv_cc v') (cv_ccn v') (cv_sc v') (cv_scn v'))) by (by split).
    unfold compute, all_links. rewrite E1. assert (forall l, hv_links s' (mkCV (cv_open v') (cv_conn v) (cv_view v') (cv_cc v') (cv_ccn v') (cv_sc v') (cv_scn v')) W l = hv_links s v W l) as ->.
    { induction l as [|x l IH]; [done|]. cbn. rewrite IH. unfold station_bus. by rewrite E1. }
    destruct hv; [rewrite E3 by done|]; done.
  Qed.
  Lemma cinv_shift m s v s' v' : cinv m s v ->
    (forall vl x, cv_view v' !! vl = Some x -> cv_view v !! vl = Some x /\ forall bs, (vl, bs) ∈ cs_vls s -> exists bs', (vl, bs') ∈ cs_vls s' /\ vl_view s' v' bs' = vl_view s v bs) ->
    (forall hv, m hv -> comps hv v' <> [] -> comps hv v' = comps hv v /\ (forall num sz, compute order hv s v (bview s v) = Ok (num, sz) -> nums hv v = number_buses (slot s) (bview s v) num -> nums hv v' = nums hv v) /\
       bview s' v' = bview s v /\ compute order hv s' v' (bview s v) = compute order hv s v (bview s v) /\ forall i b, holds (bview s v) i b -> slot s' b = slot s b) ->
    cinv m s' v'.
  Proof.
    intros I H1 H2. split.
    - intros vl x Hx. destruct (H1 _ _ Hx) as [Hx' Hb]. destruct (i_view _ _ _ _ I _ _ Hx') as (bs & Hin & ->). destruct (Hb _ Hin) as (bs' & Hin' & E). by exists bs'.
    - intros hv Hm Hc. destruct (H2 hv Hm Hc) as (E1 & E2 & E3 & E4 & E5). rewrite E1 in Hc |- *. destruct (i_mgr _ _ _ _ I hv Hm Hc) as (num & A & B).
      exists num. rewrite E3, E4. split; [done|]. rewrite (E2 _ _ A B), B. symmetry. by apply number_buses_ext.
  Qed.
  Lemma cinv_nocache m s v : nocache v -> cinv m s v.
  Proof. intros (H1 & H2 & H3). split; [rewrite H1; intros; by rewrite lookup_empty in *|]. intros [] _ Hc; exfalso; by apply Hc. Qed.

  (** ** Queries *)
  Definition pres {A} (m : bool -> Prop) (s : csh) (f : cvar -> result A * cvar) : Prop := forall v, cinv m s v -> cinv m s (f v).2 /\ vsame v (f v).2.
  Lemma vsame_trans a b c : vsame a b -> vsame b c -> vsame a c.
  Proof. intros [? ?] [? ?]. split; congruence. Qed.
  Lemma update_pres m hv s : cwf s -> pres m s (update order hv s).
  Proof.
    intros W v I. destruct (comps hv v) eqn:Hc.
    - assert (cinv (fun h => m h \/ h = hv) s v) as I'.
      { split; [apply I|]. intros h [Hm| ->] Hne; [by apply I|]. done. }
      destruct (update_ok order sorted (fun h => m h \/ h = hv) hv s v ltac:(by right) I' W) as (v' & num & sz & E & I'' & S & _). rewrite E. split; [|done].
      split; [apply I''|]. intros h Hm. apply I''. by left.
    - unfold update. by rewrite Hc.
  Qed.
  Lemma bus_pres m hv s b : cwf s -> pres m s (bus_component order hv s b).
  Proof.
    intros W v I. pose proof (update_pres m hv s W v I) as H. unfold bus_component. by destruct (update order hv s v) as [[[]| | |] v'].
  Qed.
  Lemma merged_pres m hv s c : cwf s -> pres m s (merged_component order hv s c).
  Proof.
    intros W. induction c as [|b c IH]; intros v I; [done|]. pose proof (bus_pres m hv s b W v I) as [I' S']. cbn.
    destruct (bus_component order hv s b v) as [[[k|]| | |] v']; cbn in *; try done. destruct (IH v' I') as [? ?]. split; [done|]. by eapply vsame_trans.
  Qed.
  Lemma view_pres m hv s c : cwf s -> pres m s (view_component order hv s c).
  Proof.
    intros W v I. unfold view_component. destruct (node_class s c); [|by apply merged_pres]. unfold calculated_component.
    destruct (list_find _ c) as [[i b]|]; [by apply bus_pres|]. pose proof (update_pres m hv s W v I) as H. by destruct (update order hv s v) as [[[]| | |] v'].
  Qed.
  Lemma terminal_pres m hv s t b : cwf s -> pres m s (terminal_component order hv s t b).
  Proof.
    intros W v I. destruct (force_ok order m s (cs_vls s) v I W) as (I' & S & _ & F); [done|]. unfold terminal_component. cbv zeta.
    set (f := force s v (cs_vls s)) in *. destruct (term_bus f.1 f.2 t b) as [i|]; [|done]. destruct (f.2 !! i) as [c|]; [|done].
    destruct (view_pres m hv s c W f.1 I') as [? ?]. split; [done|]. by eapply vsame_trans.
  Qed.
  Lemma buses_pres m hv s k : cwf s -> pres m s (component_buses order hv s k).
  Proof.
    intros W v I. destruct (force_ok order m s (cs_vls s) v I W) as (I' & S & _ & F); [done|]. unfold component_buses. cbv zeta.
    set (f := force s v (cs_vls s)) in *. assert (forall l, pres m s (buses_of order hv s k l)) as H.
    { induction l as [|c l IH]; intros w Iw; [done|]. cbn. destruct (view_pres m hv s c W w Iw) as [? ?].
      destruct (view_component order hv s c w) as [[o| | |] w']; try done. cbn in *. destruct (IH w') as [? ?]; [done|]. split; [done|]. by eapply vsame_trans. }
    destruct (H f.2 f.1 I') as [? ?]. split; [done|]. by eapply vsame_trans.
  Qed.

  (** ** Each operation keeps the shape of the network *)
  Lemma known_elem s b : bus_known s b <-> exists p, p ∈ cs_vls s /\ b ∈ p.2.
  Proof. apply Exists_exists. Qed.
  Lemma wf_add_vl s id nb : cwf s -> id ∉ map fst (cs_vls s) -> (forall x, x <> id -> x ∈ nb <-> x ∈ cs_nb s) -> cwf (mkCS (cs_vls s ++ [(id, [])]) nb (cs_node s) (cs_ic s) (cs_sw s) (cs_eq s) (cs_hv s) (cs_at s)).
  Proof.
    intros W Hid Hnb. assert (forall b, bus_known s b -> bus_known (mkCS (cs_vls s ++ [(id, [])]) nb (cs_node s) (cs_ic s) (cs_sw s) (cs_eq s) (cs_hv s) (cs_at s)) b) as Hk.
    { intros b. rewrite !known_elem. intros (p & Hp & Hb). exists p. split; [|done]. cbn. apply elem_of_app. by left. }
    destruct W as [W1 W2 Wk Wi W3 W4 W5 W6 W7]. split; cbn; try done.
    - rewrite map_app. apply NoDup_app. split_and!; [done| |apply NoDup_singleton]. intros x Hx ->%elem_of_list_singleton. done.
    - intros p q b Hp Hq Hbp Hbq. apply elem_of_app in Hp as [Hp|Hp], Hq as [Hq|Hq]; [by eapply W2| | |];
        try (apply elem_of_list_singleton in Hq as ->; by apply elem_of_nil in Hbq); apply elem_of_list_singleton in Hp as ->; by apply elem_of_nil in Hbp.
    - intros p b [Hp|Hp]%elem_of_app Hb; [|apply elem_of_list_singleton in Hp as ->; by apply elem_of_nil in Hb]. rewrite Hnb; [by apply Wk|].
      intros <-. apply Hid. by apply elem_of_list_fmap_1.
    - intros a b (p & Hp & ? & ?)%Wi. exists p. split; [|done]. apply elem_of_app. by left.
    - intros i a b (p & Hp & ? & ?)%W3. exists p. split; [|done]. apply elem_of_app. by left.
    - intros e k bs [? He]%W4. split; [done|]. intros b Hb. by apply Hk, He.
  Qed.
  Lemma wf_map_vls s (g : string * list string -> string * list string) nodes : cwf s -> (forall p, (g p).1 = p.1) ->
    (forall p q b, p ∈ cs_vls s -> q ∈ cs_vls s -> b ∈ (g p).2 -> b ∈ (g q).2 -> p = q) ->
    (forall p b, p ∈ cs_vls s -> b ∈ (g p).2 -> b ∈ nodes <-> p.1 ∈ cs_nb s) ->
    (forall p b, p ∈ cs_vls s -> b ∈ p.2 -> bus_used s b -> b ∈ (g p).2) ->
    cwf (mkCS (map g (cs_vls s)) (cs_nb s) nodes (cs_ic s) (cs_sw s) (cs_eq s) (cs_hv s) (cs_at s)).
  Proof.
    intros [W1 W2 Wk Wi W3 W4 W5 W6 W7] G1 G2 Gk G3.
    assert (forall id a b, cs_sw s !! id = Some (a, b) -> bus_used s a /\ bus_used s b) as U1.
    { intros id a b H. split; right; left; apply Exists_exists; exists (id, (a, b)); (split; [by apply elem_of_map_to_list|]); cbn; auto. }
    assert (forall a b, (a, b) ∈ cs_ic s -> bus_used s a /\ bus_used s b) as U2.
    { intros a b H. split; right; right; apply Exists_exists; exists (a, b); cbn; auto. }
    split; cbn; try done.
    - rewrite map_map. erewrite map_ext; [exact W1|]. done.
    - intros p q b (p' & -> & Hp)%elem_of_list_fmap (q' & -> & Hq)%elem_of_list_fmap Hbp Hbq. f_equal. by eapply G2.
    - intros p b (p' & -> & Hp)%elem_of_list_fmap Hb. rewrite G1. by apply Gk.
    - intros a b H. destruct (U2 _ _ H). destruct (Wi _ _ H) as (p & Hp & Ha & Hb). exists (g p). split; [by apply elem_of_list_fmap_1|]. split; by apply G3.
    - intros id a b H. destruct (U1 _ _ _ H). destruct (W3 _ _ _ H) as (p & Hp & Ha & Hb). exists (g p). split; [by apply elem_of_list_fmap_1|]. split; by apply G3.
    - intros e k bs H. destruct (W4 _ _ _ H) as [Hne Hk]. split; [done|]. intros b Hb. apply Hk in Hb as Hb'. apply known_elem in Hb' as (p & Hp & Hbp).
      apply known_elem. exists (g p). split; [by apply elem_of_list_fmap_1|]. apply G3; [done|done|]. left. apply Exists_exists. exists (e, (k, bs)). split; [by apply elem_of_map_to_list|done].
  Qed.
  Lemma bview_map s v (g : string * list string -> string * list string) nodes : let s' := mkCS (map g (cs_vls s)) (cs_nb s) nodes (cs_ic s) (cs_sw s) (cs_eq s) (cs_hv s) (cs_at s) in
    (forall p, p ∈ cs_vls s -> vl_view s' v (g p).2 = vl_view s v p.2) -> bview s' v = bview s v.
  Proof.
    intros s' H. unfold bview. cbn. rewrite map_map. f_equal. apply map_ext_in. intros p Hp%elem_of_list_In. by apply H.
  Qed.
  Lemma bview_holds_known s v i b : holds (bview s v) i b -> bus_known s b.
  Proof. intros (c & Hc & Hb). apply elem_of_list_lookup_2, bview_in in Hc as (p & Hp & Hc). apply known_elem. exists p. split; [done|]. by eapply class_sub. Qed.

  Definition good (m : bool -> Prop) (st : cst) : Prop := cwf (e_sh st) /\ everywhere (cinv m) st.
  Lemma good_on_var {A} m (f : cvar -> result A * cvar) st : good m st -> (forall v, cworking st v -> cinv m (e_sh st) v -> cinv m (e_sh st) (f v).2) -> good m (on_var f st).2.
  Proof.
    intros [W E] H. unfold on_var. destruct (e_cur st) as [i|] eqn:Hi; [|done]. destruct (e_vars st !! i) as [v|] eqn:Hv; [|done]. split; [done|].
    intros j w. cbn. intros [[<- <-]|[_ Hw]]%lookup_insert_Some; [|by eapply E]. apply H; [by exists i|]. by eapply E.
  Qed.
  Lemma add_vl_good m id nb st : good m st -> good m (cop_call order (CAddVl id nb) st).2.
  Proof.
    intros [W E]. cbn. case_bool_decide as Hid; [done|]. split; [apply wf_add_vl; [done|done|]; intros x Hx; destruct nb; set_solver|]. intros i v Hv. cbn in Hv. apply E in Hv. eapply cinv_shift; [exact Hv| |].
    - intros vl x Hx. split; [done|]. intros bs Hb. exists bs. split; [|done]. cbn. apply elem_of_app. by left.
    - intros hv _ _. split; [done|]. split; [done|]. split; [|split; [by apply compute_ext|done]]. unfold bview. cbn. rewrite map_app, concat_app. cbn. by rewrite app_nil_r.
  Qed.
  Lemma slot_ext s s' b : cs_eq s' = cs_eq s -> (b ∈ cs_node s' <-> b ∈ cs_node s) -> slot s' b = slot s b.
  Proof. intros E H. unfold slot. rewrite E. apply bool_decide_ext. tauto. Qed.
  Lemma rebus_good m s v v' (g : string * list string -> string * list string) x nodes : cwf s -> cinv m s v -> (forall p, (g p).1 = p.1) ->
    (forall p, p ∈ cs_vls s -> filter (fun b => b <> x) (g p).2 = filter (fun b => b <> x) p.2) ->
    (forall e i k, ~ on_bus s v e i k x) -> (forall a b, cjoined s v a b -> a <> x /\ b <> x) -> (forall b, bus_known s b -> b ∈ nodes <-> b ∈ cs_node s) ->
    vsame v v' -> cv_view v' = cv_view v -> (forall hv, comps hv v' = comps hv v) -> (forall hv, nums hv v' = nums hv v \/ nums hv v' = delete x (nums hv v) /\ ~ bus_known s x) ->
    cinv m (mkCS (map g (cs_vls s)) (cs_nb s) nodes (cs_ic s) (cs_sw s) (cs_eq s) (cs_hv s) (cs_at s)) v'.
  Proof.
    intros W I G1 G2 Ho Hj Hnd S Ev Hc Hn. set (s' := mkCS _ _ _ _ _ _ _ _).
    assert (forall p, p ∈ cs_vls s -> vl_view s' v (g p).2 = vl_view s v p.2) as HV.
    { intros p Hp. rewrite <- (vl_view_drop s' v (g p).2 x), <- (vl_view_drop s v p.2 x) by done. rewrite G2 by done. apply vl_view_ext; [done|done|].
      intros b [_ Hb]%elem_of_list_filter. cbn. apply Hnd, known_elem. eauto. }
    eapply cinv_shift; [exact I| |].
    - intros vl y Hy. rewrite Ev in Hy. split; [done|]. intros bs Hb. exists (g (vl, bs)).2. split.
      + apply elem_of_list_fmap. exists (vl, bs). split; [|done]. rewrite <- (G1 (vl, bs)) at 1. by rewrite <- surjective_pairing.
      + rewrite (vl_view_same s' v v') by done. by apply (HV (vl, bs)).
    - intros hv _ _. split; [by apply Hc|]. split; [|split; [|split]].
      + intros num sz E En. destruct (Hn hv) as [?|[-> Hk]]; [done|]. apply delete_notin. rewrite En.
        destruct (compute_ok order sorted hv s v W) as (num' & sz' & E' & R). rewrite E in E'. injection E' as <- <-.
        destruct (number_buses (slot s) (bview s v) num !! x) as [k|] eqn:Ek; [|done]. exfalso.
        apply (number_buses_spec (slot s) (bview s v) num (bview_disjoint s v W) (r_len _ _ _ _ _ R)) in Ek as (_ & i & Hi & _). by apply Hk, (bview_holds_known s v i).
      + rewrite (bview_same s' v v') by done. by apply bview_map.
      + apply compute_ext; [done|apply S|done].
      + intros i b Hb. apply slot_ext; [done|]. cbn. apply Hnd. by eapply bview_holds_known.
  Qed.
  Lemma add_bus_good m vl id st : good m st -> good m (cop_call order (CAddBus vl id) st).2.
  Proof.
    intros [W E]. cbn. case_bool_decide as H; [|done]. destruct H as [Hvl Hid]. set (g := fun p : string * list string => if bool_decide (p.1 = vl) then (p.1, id :: p.2) else p).
    assert (forall p, (g p).1 = p.1) as G1 by (intros p; unfold g; by case_bool_decide).
    assert (forall p b, b ∈ (g p).2 -> b ∈ p.2 \/ b = id /\ p.1 = vl) as G2.
    { intros p b. unfold g. case_bool_decide; cbn; [|auto]. rewrite elem_of_cons. naive_solver. }
    set (nodes := if bool_decide (vl ∈ cs_nb (e_sh st)) then {[id]} ∪ cs_node (e_sh st) else cs_node (e_sh st) ∖ {[id]}).
    assert (forall b, b <> id -> b ∈ nodes <-> b ∈ cs_node (e_sh st)) as Hnd by (intros b Hb; subst nodes; case_bool_decide; set_solver).
    assert (id ∈ nodes <-> vl ∈ cs_nb (e_sh st)) as Hndi by (subst nodes; case_bool_decide; set_solver).
    split.
    - apply (wf_map_vls _ g nodes W G1).
      + intros p q b Hp Hq [Hb| [-> Ep]]%G2 [Hb'|[E2 Eq]]%G2.
        * by eapply (w_once _ W).
        * subst b. exfalso. apply Hid, known_elem. eauto.
        * exfalso. apply Hid, known_elem. eauto.
        * apply elem_of_list_lookup in Hp as [i Hi], Hq as [j Hj]. assert (i = j) as <-; [|congruence].
          eapply NoDup_lookup; [exact (w_vls _ W)| |]; rewrite list_lookup_fmap, ?Hi, ?Hj; cbn; f_equal; congruence.
      + intros p b Hp [Hb| [-> Ep]]%G2; [|by rewrite Hndi, Ep]. rewrite Hnd; [by apply (w_kind _ W)|]. intros ->. apply Hid, known_elem. eauto.
      + intros p b _ Hb _. unfold g. case_bool_decide; [by right|done].
    - intros i v. cbn. rewrite lookup_fmap. intros (w & Hw & ->)%fmap_Some. apply E in Hw. apply (rebus_good m (e_sh st) w _ g id nodes W Hw G1).
      + intros p Hp. unfold g. case_bool_decide; [|done]. cbn [snd]. rewrite filter_cons. by rewrite decide_False by (intros ?; done).
      + intros e j k Ho. by apply Hid, (on_known _ _ _ _ _ _ W Ho).
      + intros a b [Ha Hb]%joined_known; [|done]. split; intros ->; done.
      + intros b Hb. apply Hnd. intros ->. done.
      + done.
      + done.
      + by intros [].
      + intros []; right; done.
  Qed.
  Lemma remove_bus_good m id st : good m st -> good m (cop_call order (CRemoveBus id) st).2.
  Proof.
    intros [W E]. cbn. case_bool_decide as H; [|done]. destruct H as [Hk Hu]. set (g := fun p : string * list string => (p.1, filter (fun b => b <> id) p.2)).
    assert (forall e k bs, cs_eq (e_sh st) !! e = Some (k, bs) -> id ∉ bs) as He.
    { intros e k bs H Hin. apply Hu. left. apply Exists_exists. exists (e, (k, bs)). split; [by apply elem_of_map_to_list|done]. }
    assert (forall i a b, cs_sw (e_sh st) !! i = Some (a, b) -> a <> id /\ b <> id) as Hs.
    { intros i a b H. split; intros ->; apply Hu; right; left; apply Exists_exists; eexists (i, (_, _)); (split; [by apply elem_of_map_to_list|cbn; auto]). }
    assert (forall a b, (a, b) ∈ cs_ic (e_sh st) -> a <> id /\ b <> id) as Hi.
    { intros a b H. split; intros ->; apply Hu; right; right; apply Exists_exists; eexists (_, _); (split; [exact H|cbn; auto]). }
    split.
    - apply (wf_map_vls _ g _ W); [done| | |].
      + intros p q b Hp Hq [_ Hb]%elem_of_list_filter [_ Hb']%elem_of_list_filter. by eapply (w_once _ W).
      + intros p b Hp [_ Hb]%elem_of_list_filter. by apply (w_kind _ W).
      + intros p b _ Hb Hor. apply elem_of_list_filter. split; [|done]. intros ->. done.
    - intros i v Hv. cbn in Hv. apply E in Hv. apply (rebus_good m (e_sh st) v v g id _ W Hv); try done.
      + intros p Hp. cbn. rewrite list_filter_filter. apply list_filter_iff. tauto.
      + intros e j k (bs & H & Hin & _). eapply He; [exact H|]. by eapply elem_of_list_lookup_2.
      + intros a b [(j & H & _)|H]; [by eapply Hs|by apply Hi].
      + auto.
  Qed.

  Lemma bview_ext s v s' v' : cs_vls s' = cs_vls s -> (forall p, p ∈ cs_vls s -> vl_view s' v' p.2 = vl_view s v p.2) -> bview s' v' = bview s v.
  Proof. intros E H. unfold bview. rewrite E. f_equal. apply map_ext_in. intros p Hp%elem_of_list_In. by apply H. Qed.
  Lemma add_switch_good m id open b1 b2 st strict : good m st -> csafe strict st (ECall (CAddSwitch id open b1 b2)) -> good m (cop_call order (CAddSwitch id open b1 b2) st).2.
  Proof.
    intros [W E] Sf. cbn. case_bool_decide as H; [|done]. destruct H as [Hid Hb].
    set (s' := mkCS (cs_vls (e_sh st)) (cs_nb (e_sh st)) (cs_node (e_sh st)) (cs_ic (e_sh st)) (<[id := (b1, b2)]> (cs_sw (e_sh st))) (cs_eq (e_sh st)) (cs_hv (e_sh st)) (cs_at (e_sh st))). split.
    - destruct W as [W1 W2 Wk Wi W3 W4 W5 W6 W7]. split; try done. cbn. intros i a b [[<- [= <- <-]]|[_ H]]%lookup_insert_Some; [|by eapply W3].
      apply Exists_exists in Hb as (p & ? & ? & ?). eauto.
    - intros i v'. cbn. rewrite lookup_fmap. intros (v & Hv & ->)%fmap_Some. set (v' := mkCV _ _ _ _ _ _ _).
      destruct Sf as [-> |Hn].
      + assert (forall bs, vl_view s' v' bs = vl_view (e_sh st) v bs) as HV.
        { intros bs. apply vl_view_ext; [|done|done]. intros a b _ _. unfold cjoined, s', v'. cbn. split; (intros [(j & H1 & H2)|?]; [|by right]); left; exists j.
          - apply lookup_insert_Some in H1 as [[<- _]|[Hne H1]]; [by rewrite lookup_insert in H2|]. by rewrite lookup_insert_ne in H2.
          - rewrite !lookup_insert_ne by (intros <-; congruence). done. }
        apply E in Hv. eapply cinv_shift; [exact Hv| |].
        * intros vl x Hx. split; [done|]. intros bs Hin. exists bs. split; [done|]. apply HV.
        * intros hv _ _. split; [by destruct hv|]. split; [by destruct hv|]. split; [|split; [by apply compute_ext|done]]. apply bview_ext; [done|]. intros p _. apply HV.
      + apply Hn in Hv. by apply cinv_nocache.
  Qed.
  Lemma remove_switch_good m id st strict : good m st -> csafe strict st (ECall (CRemoveSwitch id)) -> good m (cop_call order (CRemoveSwitch id) st).2.
  Proof.
    intros [W E] Sf. cbn. case_bool_decide as H; [|done].
    set (s' := mkCS (cs_vls (e_sh st)) (cs_nb (e_sh st)) (cs_node (e_sh st)) (cs_ic (e_sh st)) (delete id (cs_sw (e_sh st))) (cs_eq (e_sh st)) (cs_hv (e_sh st)) (cs_at (e_sh st))). split.
    - destruct W as [W1 W2 Wk Wi W3 W4 W5 W6 W7]. split; try done. cbn. intros i a b [_ H']%lookup_delete_Some. by eapply W3.
    - intros i v Hv. cbn in Hv. destruct (Sf _ _ Hv) as [Ho|Hn]; [|by apply cinv_nocache].
      assert (forall bs, vl_view s' v bs = vl_view (e_sh st) v bs) as HV.
      { intros bs. apply vl_view_ext; [|done|done]. intros a b _ _. unfold cjoined, s'. cbn. split; (intros [(j & H1 & H2)|?]; [|by right]); left; exists j.
        - by apply lookup_delete_Some in H1 as [_ H1].
        - rewrite lookup_delete_ne by (intros <-; congruence). done. }
      apply E in Hv. eapply cinv_shift; [exact Hv| |].
      * intros vl x Hx. split; [done|]. intros bs Hin. exists bs. split; [done|]. apply HV.
      * intros hv _ _. split; [by destruct hv|]. split; [by destruct hv|]. split; [|split; [by apply compute_ext|done]]. apply bview_ext; [done|]. intros p _. apply HV.
  Qed.
  Lemma inval_view vls v vl x : cv_view (inval_all vls v) !! vl = Some x -> cv_view v !! vl = Some x /\ Some vl ∉ vls.
  Proof.
    induction vls as [|o vls IH]; cbn; [intros H; split; [done|apply not_elem_of_nil]|]. destruct o as [y|].
    - intros [Hne H]%lookup_delete_Some. apply IH in H as [? ?]. split; [done|]. rewrite elem_of_cons. naive_solver.
    - intros H. apply IH in H as [? ?]. split; [done|]. rewrite elem_of_cons. naive_solver.
  Qed.
  Lemma inval_comps vls v hv : vls <> [] -> comps hv (inval_all vls v) = [].
  Proof. destruct vls; [done|]. by destruct hv. Qed.
  Lemma inval_same vls v : vsame v (inval_all vls v).
  Proof. induction vls as [|o vls IH]; [done|]. destruct IH as [? ?]. split; done. Qed.
  (** An operation that invalidates the voltage levels it touches. *)
  Lemma touch_good m s v s' v1 vls : cwf s -> cinv m s v -> vls <> [] -> cs_vls s' = cs_vls s -> cs_node s' = cs_node s -> cv_view v1 = cv_view v ->
    (forall vl bs, (vl, bs) ∈ cs_vls s -> Some vl ∉ vls -> (forall a b, a ∈ bs -> b ∈ bs -> cjoined s' v1 a b <-> cjoined s v a b) /\
       forall e i k b, b ∈ bs -> on_bus s' v1 e i k b <-> on_bus s v e i k b) ->
    cinv m s' (inval_all vls v1).
  Proof.
    intros W I Hne Ev En Ew H. eapply cinv_shift; [exact I| |].
    - intros vl x [Hx Hvl]%inval_view. rewrite Ew in Hx. split; [done|]. intros bs Hin. exists bs. split; [by rewrite Ev|].
      rewrite (vl_view_same s' v1) by apply inval_same. destruct (H vl bs Hin Hvl) as [H1 H2]. apply vl_view_ext; [done|done|]. intros b _. by rewrite En.
    - intros hv _ Hc. exfalso. apply Hc. by apply inval_comps.
  Qed.
  Lemma set_open_good m id b st : good m st -> good m (cop_call order (CSetOpen id b) st).2.
  Proof.
    intros G. cbn. destruct (cs_sw (e_sh st) !! id) as [[b1 b2]|] eqn:Hs; [|done]. destruct G as [W E]. apply good_on_var; [by split|].
    intros v _ I. cbn. case_bool_decide; [done|]. set (v1 := mkCV _ _ _ _ _ _ _).
    apply (touch_good m (e_sh st) v (e_sh st) v1 [vl_of (e_sh st) b1] W I); try done.
    intros vl bs Hin Hvl. split; [|done]. intros x y Hx Hy. unfold cjoined, v1. cbn.
    assert (forall j, cs_sw (e_sh st) !! j = Some (x, y) -> j <> id) as Hj.
    { intros j Hj ->. rewrite Hs in Hj. injection Hj as -> ->. apply Hvl. apply elem_of_list_singleton. symmetry. by eapply vl_of_spec. }
    split; (intros [(j & H1 & H2)|?]; [|by right]); left; exists j; (split; [done|]); specialize (Hj j H1); [by rewrite lookup_insert_ne in H2|by rewrite lookup_insert_ne].
  Qed.
  Lemma touch_op_good m id st : good m st -> good m (cop_call order (CTouch id) st).2.
  Proof.
    intros G. cbn. destruct (cs_sw (e_sh st) !! id) as [[b1 b2]|] eqn:Hs; [|done]. destruct G as [W E]. apply good_on_var; [by split|].
    intros v _ I. cbn. by apply (touch_good m (e_sh st) v (e_sh st) v [vl_of (e_sh st) b1] W I).
  Qed.
  Lemma internal_good m st ic b1 : good m st -> (forall i v, e_vars st !! i = Some v -> e_cur st <> Some i -> nocache v) -> e_cur st <> None ->
    (forall a b, (a, b) ∈ ic -> exists p, p ∈ cs_vls (e_sh st) /\ a ∈ p.2 /\ b ∈ p.2) ->
    (forall vl bs, (vl, bs) ∈ cs_vls (e_sh st) -> vl_of (e_sh st) b1 <> Some vl -> forall a b, a ∈ bs -> b ∈ bs -> (a, b) ∈ ic <-> (a, b) ∈ cs_ic (e_sh st)) ->
    good m (on_var (fun v => (Ok tt, inval (vl_of (e_sh st) b1) v))
      (set_shared (mkCS (cs_vls (e_sh st)) (cs_nb (e_sh st)) (cs_node (e_sh st)) ic (cs_sw (e_sh st)) (cs_eq (e_sh st)) (cs_hv (e_sh st)) (cs_at (e_sh st))) st)).2.
  Proof.
    intros [W E] Hn Hc Hic Hsame. set (s' := mkCS _ _ _ _ _ _ _ _). assert (cwf s') as W' by (destruct W; split; done).
    unfold on_var. cbn [e_cur e_vars e_sh set_shared]. destruct (e_cur st) as [i|] eqn:Hi; [|done]. destruct (e_vars st !! i) as [v|] eqn:Hv.
    2:{ split; [done|]. intros j w Hw. cbn in Hw. apply cinv_nocache. eapply (Hn j); [done|]. intros [= ->]. congruence. }
    split; [done|]. intros j w. cbn. intros [[<- <-]|[Hne Hw]]%lookup_insert_Some.
    - apply (touch_good m (e_sh st) v s' v [vl_of (e_sh st) b1] W (E _ _ Hv)); try done. intros vl bs Hin Hvl. split; [|done]. intros a b Ha Hb.
      assert (vl_of (e_sh st) b1 <> Some vl) as Hvl' by (intros H; apply Hvl; apply elem_of_list_singleton; done).
      unfold cjoined. cbn. by rewrite (Hsame vl bs Hin Hvl' a b Ha Hb).
    - apply cinv_nocache. eapply (Hn j); [done|]. intros [= ->]. done.
  Qed.
  Lemma add_internal_good m b1 b2 st strict : good m st -> csafe strict st (ECall (CAddInternal b1 b2)) -> good m (cop_call order (CAddInternal b1 b2) st).2.
  Proof.
    intros G Sf. cbn. case_bool_decide as H; [|done]. destruct H as (Hc & Hn & Hb). pose proof G as [W _]. apply internal_good; [done|exact Sf|done| |].
    - intros a b [[= -> ->]|Hin]%elem_of_cons; [by apply Exists_exists in Hb|by apply (w_ic _ W)].
    - intros vl bs Hin Hvl a b Ha _. rewrite elem_of_cons. split; [|auto]. intros [[= -> ->]|?]; [|done]. exfalso. apply Hvl. by eapply vl_of_spec.
  Qed.
  Lemma remove_internal_good m b1 b2 st strict : good m st -> csafe strict st (ECall (CRemoveInternal b1 b2)) -> good m (cop_call order (CRemoveInternal b1 b2) st).2.
  Proof.
    intros G Sf. cbn. case_bool_decide as H; [|done]. destruct H as (Hc & Hb). pose proof G as [W _]. apply internal_good; [done|exact Sf|done| |].
    - intros a b [_ Hin]%elem_of_list_filter. by apply (w_ic _ W).
    - intros vl bs Hin Hvl a b Ha Hb'. rewrite elem_of_list_filter. split; [naive_solver|]. intros Hab. split; [|done].
      split; intros [= -> ->]; apply Hvl; by eapply vl_of_spec.
  Qed.
  Lemma connect_good m t c st : good m st -> good m (cop_call order (CConnect t c) st).2.
  Proof.
    intros G. cbn. destruct (cs_eq (e_sh st) !! t.1 ≫= (fun x => x.2 !! t.2)) as [b|] eqn:Hs; [|done]. case_bool_decide as Hnode; [done|]. destruct G as [W E]. apply good_on_var; [by split|].
    intros v _ I. cbn. case_bool_decide; [done|]. set (v1 := mkCV _ _ _ _ _ _ _).
    apply (touch_good m (e_sh st) v (e_sh st) v1 [vl_of (e_sh st) b] W I); try done.
    intros vl bs Hin Hvl. split; [done|]. intros e i k x Hx. unfold on_bus, v1. cbn.
    assert (forall l, cs_eq (e_sh st) !! e = Some (k, l) -> l !! i = Some x -> t <> (e, i)) as Hj.
    { intros l Hl Hi ->. cbn in Hs. rewrite Hl in Hs. cbn in Hs. rewrite Hi in Hs. injection Hs as ->. apply Hvl. apply elem_of_list_singleton. symmetry. by eapply vl_of_spec. }
    split; intros (l & H1 & H2 & H3); exists l; (split; [done|]); (split; [done|]); specialize (Hj l H1 H2); [by rewrite lookup_insert_ne in H3|by rewrite lookup_insert_ne].
  Qed.
  Lemma add_eq_good m id k ts st : good m st -> good m (cop_call order (CAddEq id k ts) st).2.
  Proof.
    intros [W E]. cbn. case_bool_decide as H; [|done]. destruct H as (_ & Hid & Hts & _ & _ & _ & Hlen).
    assert (ts <> []) as Hne by (intros ->; cbn in Hlen; naive_solver lia).
    set (s' := mkCS _ _ _ _ _ (<[id := _]> _) _ _).
    assert (id ∉ cs_at (e_sh st)) as Hat by (intros Hin; apply (w_at _ W) in Hin as [bs Hin]; congruence). split.
    - destruct W as [W1 W2 Wk Wi W3 W4 W5 W6 W7]. split; try done; cbn.
      + intros e k' bs [[<- [= <- <-]]|[_ H]]%lookup_insert_Some; [|by eapply W4]. split; [by destruct ts|]. intros b (x & -> & Hx)%elem_of_list_fmap.
        rewrite Forall_forall in Hts. by apply Hts.
      + intros i s1 s2 H. apply W5 in H as [? ?]. split; apply elem_of_difference; (split; [done|]); rewrite elem_of_singleton; intros ->; done.
      + intros x [Hx Hxi]%elem_of_difference. rewrite elem_of_singleton in Hxi. apply W6 in Hx as [bs Hx]. exists bs. by rewrite lookup_insert_ne.
    - intros i v'. cbn. rewrite lookup_fmap. intros (v & Hv & ->)%fmap_Some. apply E in Hv.
      eapply (touch_good m (e_sh st) v s' _ _ W Hv); [by destruct ts|done|done|done|]. intros vl bs Hin Hvl. split; [done|]. intros e j k' b Hb. unfold on_bus. cbn.
      destruct (decide (e = id)) as [->|Hne'].
      + split; intros (l & H1 & H2 & H3); [|congruence]. exfalso. rewrite lookup_insert in H1. injection H1 as <- <-. apply Hvl.
        apply list_lookup_fmap_inv in H2 as (x & -> & Hx). apply elem_of_list_fmap. exists x. split; [symmetry; by eapply vl_of_spec|]. by eapply elem_of_list_lookup_2.
      + assert ((list_to_map (imap (fun i (x : string * bool) => ((id, i), x.2 || bool_decide (x.1 ∈ cs_node (e_sh st)))) ts) ∪ cv_conn v : gmap cterm bool) !! (e, j) = cv_conn v !! (e, j)) as Ec.
        { apply lookup_union_r. apply not_elem_of_list_to_map_1. intros ([y z] & Ey & Hy)%elem_of_list_fmap. apply elem_of_lookup_imap in Hy as (n & x & [= -> ->] & _). cbn in Ey. congruence. }
        rewrite lookup_insert_ne by done. by setoid_rewrite Ec.
  Qed.
  Lemma remove_eq_good m id st : good m st -> good m (cop_call order (CRemoveEq id) st).2.
  Proof.
    intros [W E]. cbn. destruct (cs_eq (e_sh st) !! id) as [[k bs]|] eqn:Hid; [|done]. case_bool_decide as H; [done|].
    assert (id ∉ cs_at (e_sh st)) as Hat by tauto. destruct (w_eq _ W _ _ _ Hid) as [Hne Hk]. split.
    - destruct W as [W1 W2 Wk Wi W3 W4 W5 W6 W7]. split; try done; cbn.
      + intros e k' l [_ He]%lookup_delete_Some. by eapply W4.
      + intros x Hx. destruct (W6 x Hx) as [l Hl]. exists l. rewrite lookup_delete_ne; [done|]. by intros <-.
    - intros i v'. cbn. rewrite lookup_fmap. intros (v & Hv & ->)%fmap_Some. apply E in Hv.
      eapply (touch_good m (e_sh st) v _ v _ W Hv); [by destruct bs|done|done|done|]. intros vl l Hin Hvl. split; [done|]. intros e j k' b Hb. unfold on_bus. cbn.
      split; intros (l' & H1 & H2 & H3).
      + apply lookup_delete_Some in H1 as [_ H1]. eauto.
      + exists l'. split; [|done]. rewrite lookup_delete_ne; [done|]. intros <-. rewrite Hid in H1. injection H1 as <- <-. apply Hvl.
        apply elem_of_list_fmap. exists b. split; [symmetry; by eapply vl_of_spec|]. by eapply elem_of_list_lookup_2.
  Qed.
  Definition covers (strict hv : bool) : Prop := hv = false \/ strict = true.
  Lemma hvdc_good strict s v h a : cinv (covers strict) s v -> (strict = true -> cv_cc v = []) -> cinv (covers strict) (mkCS (cs_vls s) (cs_nb s) (cs_node s) (cs_ic s) (cs_sw s) (cs_eq s) h a) v.
  Proof.
    intros I Hs. eapply cinv_shift; [exact I| |].
    - intros vl x Hx. split; [done|]. intros bs Hin. by exists bs.
    - intros hv Hm Hc. split; [done|]. split; [done|]. split; [done|]. split; [|done]. apply compute_ext; [done|done|]. intros ->. exfalso. apply Hc. destruct Hm as [?|Hm]; [done|]. by apply Hs.
  Qed.
  Lemma add_hvdc_good strict id s1 s2 st : good (covers strict) st -> csafe strict st (ECall (CAddHvdc id s1 s2)) -> good (covers strict) (cop_call order (CAddHvdc id s1 s2) st).2.
  Proof.
    intros [W E] (H1 & H2 & Hs). cbn. case_bool_decide as H; [|done]. destruct H as (Hid & E1 & E2). split.
    - destruct W as [W1 W2 Wk Wi W3 W4 W5 W6 W7]. split; try done; cbn.
      + intros i a b [[<- [= <- <-]]|[_ H]]%lookup_insert_Some; [set_solver|]. apply W5 in H as [? ?]. split; apply elem_of_union; by right.
      + intros x [Hx|Hx]%elem_of_union; [|by apply W6]. 
        apply elem_of_union in Hx as [->%elem_of_singleton| ->%elem_of_singleton]; [apply fmap_Some in E1 as ([k l] & -> & ->)|apply fmap_Some in E2 as ([k l] & -> & ->)]; eauto.
      + intros i i' a b c d. rewrite !lookup_insert_Some. intros [[<- [= <- <-]]|[Hi Ha]] [[<- [= <- <-]]|[Hi' Hb]] Hne; try done.
        * apply W5 in Hb as [? ?]. split_and!; intros ->; done.
        * apply W5 in Ha as [? ?]. split_and!; intros ->; done.
        * by eapply W7.
    - intros i v Hv. cbn in Hv. apply hvdc_good; [by eapply E|]. intros Ht. by eapply Hs.
  Qed.
  Lemma remove_hvdc_good strict id st : good (covers strict) st -> csafe strict st (ECall (CRemoveHvdc id)) -> good (covers strict) (cop_call order (CRemoveHvdc id) st).2.
  Proof.
    intros [W E] Hs. cbn. destruct (cs_hv (e_sh st) !! id) as [[s1 s2]|] eqn:Hid; [|done]. split.
    - destruct W as [W1 W2 Wk Wi W3 W4 W5 W6 W7]. split; try done; cbn.
      + intros i a b [Hne H]%lookup_delete_Some. destruct (W7 _ _ _ _ _ _ H Hid ltac:(congruence)) as (? & ? & ? & ?). apply W5 in H as [? ?]. set_solver.
      + intros x Hx. apply W6. set_solver.
      + intros i i' a b c d [_ Ha]%lookup_delete_Some [_ Hb]%lookup_delete_Some. by eapply W7.
    - intros i v Hv. cbn in Hv. apply hvdc_good; [by eapply E|]. intros Ht. by eapply Hs.
  Qed.
  Lemma query_good {A} m (f : cvar -> result A * cvar) st : good m st -> pres m (e_sh st) f -> good m (quiet_res (on_var f st)).2.
  Proof. intros G H. cbn. apply good_on_var; [done|]. intros v _ I. by apply H. Qed.

  Lemma step_good strict st o : good (covers strict) st -> csafe strict st o -> good (covers strict) (cstep order st o).2.
  Proof.
    intros G Hs. destruct o as [c|src tgt ow|id|id].
    - change (good (covers strict) (cop_call order c st).2).
      destruct c; [apply add_vl_good|apply add_bus_good|apply remove_bus_good|eapply add_switch_good|eapply remove_switch_good|apply set_open_good|apply touch_op_good|eapply add_internal_good|eapply remove_internal_good|apply add_eq_good|apply remove_eq_good
        |apply connect_good|apply add_hvdc_good|apply remove_hvdc_good| | |]; try done.
      + apply (query_good (covers strict) _ st G). apply bus_pres, G.
      + cbn [cop_call]. destruct (cs_eq (e_sh st) !! t.1 ≫= (fun x => x.2 !! t.2)) as [b|]; [|done]. apply (query_good (covers strict) _ st G). apply terminal_pres, G.
      + apply (query_good (covers strict) _ st G). apply buses_pres, G.
    - cbn. destruct G as [W E]. destruct (e_vars st !! src) as [v|] eqn:Hv; [|done]. destruct (_ && _); [done|]. split; [done|].
      intros i w. cbn. intros [[<- <-]|[_ Hw]]%lookup_insert_Some; [|by eapply E]. by apply cinv_nocache.
    - cbn. destruct G as [W E]. case_bool_decide; [done|]. destruct (e_vars st !! id) as [v|] eqn:Hv; [|done]. split; [done|].
      intros i w. cbn. intros [_ Hw]%lookup_delete_Some. by eapply E.
    - cbn. destruct G as [W E]. destruct (e_vars st !! id) as [v|] eqn:Hv; [|done]. split; done.
  Qed.
  Lemma reach_good strict st : creach order (csafe strict) st -> good (covers strict) st.
  Proof.
    induction 1 as [|st o _ IH Hs]; [|by apply step_good]. split.
    - split; cbn.
      + constructor.
      + intros p q b Hp. by apply elem_of_nil in Hp.
      + intros p b Hp. by apply elem_of_nil in Hp.
      + intros a b Hp. by apply elem_of_nil in Hp.
      + intros ? ? ?. by rewrite lookup_empty.
      + intros ? ? ?. by rewrite lookup_empty.
      + intros ? ? ?. by rewrite lookup_empty.
      + intros x Hx. by apply elem_of_empty in Hx.
      + intros ? ? ? ? ? ?. by rewrite lookup_empty.
    - intros i v Hv. unfold cnet_new, enew in Hv. cbn in Hv. apply lookup_singleton_Some in Hv as [_ <-]. by apply cinv_nocache.
  Qed.
End step.
