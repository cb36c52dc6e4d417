(** Proofs about [Terminal::traverse]. *)
From stdpp Require Import gmap sets relations list fin_sets.
From Verif Require Import Base Graph GraphSpec GraphProofs GraphTraverse GraphMore Traverse TraverseSpec.

Lemma elem_gone_through c u : u ∈ gone_through c <-> (u, true) ∈ c.
Proof.
  unfold gone_through. rewrite elem_of_list_fmap. setoid_rewrite elem_of_list_filter. split.
  - intros ([u' b] & -> & E & H). simpl in *. by subst.
  - intros H. exists (u, true). done.
Qed.
Lemma gone_through_app a b : gone_through (a ++ b) = gone_through a ++ gone_through b.
Proof. unfold gone_through. by rewrite filter_app, map_app. Qed.

Section proofs.
  Context (n : tnet) (tr : traverser) (order : gset nat -> list nat).
  Hypothesis Hwf : tnet_wf n.
  Hypothesis Hord : visits order.

  Lemma accepted_ask u : is_Some (tn_terms n !! u) -> accepted n tr u <-> t_ask n tr u = true.
  Proof using Hwf.
    intros [i Hi]. unfold accepted, asked_connected, t_ask, t_flag. rewrite Hi.
    destruct (wf_level n Hwf _ _ Hi) as [l Hl]. split.
    - intros (c & (i' & [= <-] & Hc) & Ht). rewrite Hl in *. destruct l; by subst.
    - intros Ht. rewrite Hl in Ht. destruct l.
      + exists true. split; [|done]. exists i. by rewrite Hl.
      + exists (ti_connected i). split; [|done]. exists i. by rewrite Hl.
  Qed.

  Lemma omap_cons {A B} (f : A -> option B) x l :
    omap f (x :: l) = match f x with Some y => y :: omap f l | None => omap f l end.
  Proof using. done. Qed.

  (** ** Effects of a log of callbacks *)
  Section log.
    Context (swok : nat -> bool) (rep : nat -> option nat).
    Definition asked (c : nat * nat * nat) : option (nat * bool) :=
      if swok c.1.2 then (fun u => (u, t_ask n tr u)) <$> rep c.2 else None.
    Lemma effect_log log : forall s,
      let s' := foldl (fun s c => cb_effect n tr swok rep s c.1.1 c.1.2 c.2) s log in
      let new := omap asked log in
      ls_calls s' = ls_calls s ++ new /\
      ls_done s' = list_to_set (gone_through new) ∪ ls_done s /\
      (forall w, w ∈ ls_next s' <-> w ∈ ls_next s \/ exists u, (u, true) ∈ new /\ w ∈ t_next n u).
    Proof using.
      clear Hwf Hord.
      induction log as [|c log IH]; intros s; cbn zeta.
      - simpl. rewrite app_nil_r. split; [done|]. split; [set_solver|]. intros w. split; [auto|].
        intros [?|(u & Hu & _)]; [done|]. by apply elem_of_nil in Hu.
      - cbn [foldl]. destruct (IH (cb_effect n tr swok rep s c.1.1 c.1.2 c.2)) as (H1 & H2 & H3). clear IH.
        cbn zeta in *. rewrite H1, H2. rewrite omap_cons.
        assert (E : asked c = if swok c.1.2 then (fun u => (u, t_ask n tr u)) <$> rep c.2 else None) by done.
        unfold cb_effect in *. destruct (swok c.1.2).
        2: { rewrite E. split; [done|]. split; [done|]. exact H3. }
        destruct (rep c.2) as [u|]; rewrite E; cbn [fmap option_fmap option_map].
        2: { split; [done|]. split; [done|]. exact H3. }
        destruct (t_ask n tr u) eqn:Ea; cbn [ls_calls ls_done ls_next] in *.
        + split; [by rewrite <- app_assoc|]. split.
          * unfold gone_through. rewrite filter_cons_True by done. cbn [map fst list_to_set]. clear.
            rewrite !(assoc_L (∪)). f_equal. apply (comm_L (∪)).
          * intros w. rewrite (H3 w). clear. rewrite elem_of_union, elem_of_list_to_set. split.
            -- intros [[?|?]|(u' & ? & ?)]; [right; exists u|by left|right; exists u']; split; try done; set_solver.
            -- intros [?|(u' & Hu & ?)]; [auto|]. apply elem_of_cons in Hu as [[= ->]|Hu]; [auto|]. right. eauto.
        + split; [by rewrite <- app_assoc|]. split.
          * unfold gone_through. rewrite filter_cons_False by done. done.
          * intros w. rewrite (H3 w). split.
            -- intros [?|(u' & ? & ?)]; [auto|]. right. exists u'. split; [|done]. by right.
            -- intros [?|(u' & Hu & ?)]; [auto|]. apply elem_of_cons in Hu as [[=]|Hu]. right. eauto.
    Qed.

    Lemma gone_asked log :
      gone_through (omap asked log) =
      omap rep (map snd (filter (fun c => cb_continue n tr swok rep c.1.1 c.1.2 c.2 = true) log)).
    Proof using.
      clear Hwf Hord. induction log as [|c log IH]; [done|].
      rewrite omap_cons.
      assert (E1 : asked c = if swok c.1.2 then (fun u => (u, t_ask n tr u)) <$> rep c.2 else None) by done.
      assert (E2 : cb_continue n tr swok rep c.1.1 c.1.2 c.2 =
                   (swok c.1.2 && match rep c.2 with Some u => t_ask n tr u | None => true end)) by done.
      destruct (swok c.1.2); cbn [andb] in E2.
      2: { rewrite E1, filter_cons_False by (by rewrite E2). done. }
      destruct (rep c.2) as [u|] eqn:Er; cbn [fmap option_fmap option_map] in E1; rewrite E1.
      - destruct (t_ask n tr u) eqn:Ea.
        + rewrite (filter_cons_True _ c log) by (by rewrite E2). unfold gone_through at 1. rewrite filter_cons_True by done. cbn [map fst snd].
          rewrite omap_cons, Er. f_equal. exact IH.
        + rewrite (filter_cons_False _ c log) by (by rewrite E2). unfold gone_through at 1. rewrite filter_cons_False by done. exact IH.
      - rewrite (filter_cons_True _ c log) by (by rewrite E2). cbn [map]. rewrite omap_cons, Er. exact IH.
    Qed.
  End log.

  Lemma NoDup_omap_inj {A B} (f : A -> option B) l :
    (forall x y z, f x = Some z -> f y = Some z -> x = y) -> NoDup l -> NoDup (omap f l).
  Proof using.
    clear. intros Hf. induction 1 as [|x l Hx Hl IH]; [constructor|]. cbn. destruct (f x) as [z|] eqn:E; [|done].
    constructor; [|done]. intros (y & Hy & E')%elem_of_list_omap. by rewrite (Hf _ _ _ E E') in Hx.
  Qed.

  (** ** Accessors against the abstraction of the graph *)
  Lemma vobj_abs {V E} (g : graph V E) v o : s_vertices (abs g) !! v = Some o -> g_vertex_object g v = Ok o.
  Proof using.
    clear. rewrite abs_vertices. unfold g_vertex_object, g_check_vertex.
    destruct (g_vertices g !! v) as [[o'|]|]; cbn; by intros [= ->].
  Qed.
  Lemma vobj_abs_None {V E} (g : graph V E) v r : g_vertex_object g v = Ok r -> s_vertices (abs g) !! v = Some r.
  Proof using.
    clear. rewrite abs_vertices. unfold g_vertex_object, g_check_vertex.
    destruct (g_vertices g !! v) as [[o'|]|]; cbn; by intros [= ->].
  Qed.
  Lemma eobj_abs {V E} (g : graph V E) e a b ob : s_edges (abs g) !! e = Some (a, b, ob) -> g_edge_object g e = Ok ob.
  Proof using.
    clear. rewrite abs_edges. unfold g_edge_object, g_check_edge.
    destruct (g_edges g !! e) as [[o'|]|]; cbn; by intros [= <- <- <-].
  Qed.
  Lemma joins_eobj {V E} (g : graph V E) e a b ob : sjoins (abs g) a e b ob -> g_edge_object g e = Ok ob.
  Proof using. clear. intros [H|H]; by eapply eobj_abs. Qed.

  Lemma nb_swok_joins g a e b ob : sjoins (abs g) a e b ob ->
    nb_swok tr g e = true <-> (forall w, ob = Some w -> tr_switch tr w = true).
  Proof using.
    clear. intros H. unfold nb_swok. rewrite (joins_eobj _ _ _ _ _ H). destruct ob as [w|].
    - split; [by intros ? ? [= <-]|eauto].
    - done.
  Qed.
  Lemma bb_swok_joins g a e b ob : sjoins (abs g) a e b ob ->
    bb_swok tr g e = true <-> (forall w, ob = Some w -> tr_switch tr w = true).
  Proof using.
    clear. intros H. unfold bb_swok. rewrite (joins_eobj _ _ _ _ _ H). destruct ob as [w|].
    - split; [by intros ? ? [= <-]|eauto].
    - done.
  Qed.

  Lemma nb_go k g a b : tn_levels n !! k = Some (NodeBreaker g) ->
    sgo (abs g) (cb_continue n tr (nb_swok tr g) (nb_rep g)) a b <-> node_step n tr g a b.
  Proof using Hwf.
    intros Hk. unfold sgo, node_step, cb_continue.
    assert (Hrep : (match nb_rep g b with Some u => t_ask n tr u | None => true end) = true <->
                   (forall u, s_vertices (abs g) !! b = Some (Some u) -> accepted n tr u)).
    { unfold nb_rep. destruct (s_vertices (abs g) !! b) as [o|] eqn:E.
      - rewrite (vobj_abs _ _ _ E). destruct o as [u|].
        + destruct (wf_node_back n Hwf _ _ _ _ Hk E) as (i & Hi & _). rewrite <- accepted_ask by eauto.
          split; [by intros ? ? [= <-]|eauto].
        + done.
      - destruct (g_vertex_object g b) as [o| | |] eqn:E2; try done.
        apply vobj_abs_None in E2. congruence. }
    split.
    - intros (e & ob & Hj & Hc). apply andb_true_iff in Hc as [Hs Hr]. exists e, ob. split; [done|].
      split; [by eapply nb_swok_joins|by apply Hrep].
    - intros (e & ob & Hj & Hs & Hr). exists e, ob. split; [done|].
      apply andb_true_iff. split; [by eapply nb_swok_joins|by apply Hrep].
  Qed.
  Lemma bb_go g a b : sgo (abs g) (cb_continue n tr (bb_swok tr g) (bb_rep g)) a b -> bus_step tr g a b.
  Proof using.
    clear. intros (e & ob & Hj & Hc). apply andb_true_iff in Hc as [Hs _]. exists e, ob. split; [done|].
    by eapply bb_swok_joins.
  Qed.

  Lemma rtc_iff {A} (R R' : relation A) : (forall a b, R a b -> R' a b) -> forall a b, rtc R a b -> rtc R' a b.
  Proof using. clear. intros H a b. induction 1; [done|]. eapply rtc_l; eauto. Qed.

  Lemma nb_rep_term k g v u : tn_levels n !! k = Some (NodeBreaker g) -> nb_rep g v = Some u ->
    exists i, tn_terms n !! u = Some i /\ ti_level i = k /\ ti_vertex i = v.
  Proof using Hwf.
    unfold nb_rep. intros Hk. destruct (g_vertex_object g v) as [o| | |] eqn:E; try done. intros ->.
    apply vobj_abs_None in E. by eapply wf_node_back.
  Qed.
  Lemma bb_terminals_term k g v u : tn_levels n !! k = Some (BusBreaker g) -> u ∈ bb_terminals g v ->
    exists i, tn_terms n !! u = Some i /\ ti_level i = k /\ ti_vertex i = v.
  Proof using Hwf.
    unfold bb_terminals. intros Hk. destruct (g_vertex_object g v) as [[l|]| | |] eqn:E; try by intros ?%elem_of_nil.
    intros Hu. apply vobj_abs_None in E. by eapply wf_bus_back.
  Qed.
  Lemma bb_rep_in g v u : bb_rep g v = Some u -> u ∈ bb_terminals g v.
  Proof using. clear. unfold bb_rep. destruct (bb_terminals g v); [done|]. intros [= ->]. by left. Qed.

  (** ** The other terminals of the bus *)
  Lemma same_bus_ok t l : forall s,
    let s' := bb_same_bus n tr t l s in
    exists new, ls_calls s' = ls_calls s ++ new /\ ls_done s' = ls_done s /\
      (forall w, w ∈ ls_next s' <-> w ∈ ls_next s \/ exists u, (u, true) ∈ new /\ w ∈ t_next n u) /\
      (forall u b, (u, b) ∈ new <-> u ∈ l /\ u <> t /\ b = t_ask n tr u).
  Proof using.
    clear. induction l as [|x l IH]; intros s; cbn zeta; cbn [bb_same_bus].
    - exists []. rewrite app_nil_r. split; [done|]. split; [done|]. split.
      + intros w. split; [auto|]. intros [?|(u & Hu & _)]; [done|]. by apply elem_of_nil in Hu.
      + intros u b. split; [by intros ?%elem_of_nil|]. by intros [?%elem_of_nil _].
    - destruct (Nat.eqb_spec x t) as [->|Hne].
      + destruct (IH s) as (new & H1 & H2 & H3 & H4). exists new. split; [done|]. split; [done|]. split; [done|].
        intros u b. rewrite (H4 u b), elem_of_cons. clear. split; [naive_solver|]. intros ([->|?] & ? & ?); done.
      + destruct (t_ask n tr x) eqn:Ea.
        * destruct (IH (mkLstate (ls_done s) (list_to_set (t_next n x) ∪ ls_next s) (ls_calls s ++ [(x, true)])))
            as (new & H1 & H2 & H3 & H4). cbn [ls_calls ls_done ls_next] in *.
          exists ((x, true) :: new). split; [by rewrite H1, <- app_assoc|]. split; [done|]. split.
          -- intros w. rewrite (H3 w), elem_of_union, elem_of_list_to_set. clear. split.
             ++ intros [[?|?]|(u' & ? & ?)]; [right; exists x|by left|right; exists u']; split; try done; set_solver.
             ++ intros [?|(u' & Hu & ?)]; [auto|]. apply elem_of_cons in Hu as [[= ->]|Hu]; [auto|]. right. eauto.
          -- intros u b. rewrite !elem_of_cons, (H4 u b). split.
             ++ intros [[= -> ->]|(? & ? & ?)]; auto.
             ++ intros ([->|?] & ? & ->); [left; by rewrite Ea|auto].
        * destruct (IH (mkLstate (ls_done s) (ls_next s) (ls_calls s ++ [(x, false)])))
            as (new & H1 & H2 & H3 & H4). cbn [ls_calls ls_done ls_next] in *.
          exists ((x, false) :: new). split; [by rewrite H1, <- app_assoc|]. split; [done|]. split.
          -- intros w. rewrite (H3 w). split.
             ++ intros [?|(u' & ? & ?)]; [auto|]. right. exists u'. split; [by right|done].
             ++ intros [?|(u' & Hu & ?)]; [auto|]. apply elem_of_cons in Hu as [[=]|Hu]. right. eauto.
          -- intros u b. rewrite !elem_of_cons, (H4 u b). split.
             ++ intros [[= -> ->]|(? & ? & ?)]; auto.
             ++ intros ([->|?] & ? & ->); [left; by rewrite Ea|auto].
  Qed.

  (** ** Inside the level *)
  Definition inside_post (t : nat) (s : tstate) (ls : lstate) (new : list (nat * bool)) : Prop :=
    ls_calls ls = ts_calls s ++ new /\ (t, true) ∈ new /\
    (forall u b, (u, b) ∈ new -> b = t_ask n tr u /\ is_Some (tn_terms n !! u) /\ (b = true -> same_area n tr t u)) /\
    (forall w, w ∈ ls_next ls <-> exists u, (u, true) ∈ new /\ w ∈ t_next n u) /\
    {[t]} ∪ ts_done s ⊆ ls_done ls /\
    (forall u, u ∈ ls_done ls -> u ∈ ts_done s \/ (u, true) ∈ new) /\
    (buses_apart n tr -> forall w, same_area n tr t w -> accepted n tr w -> (w, true) ∈ new) /\
    (node_breaker_only n -> ls_done ls = list_to_set (gone_through new) ∪ ts_done s /\ NoDup (gone_through new)).

  Lemma inside_ok t s i : tn_terms n !! t = Some i -> t_ask n tr t = true ->
    exists ls new, t_inside n tr t s = Ok ls /\ inside_post t s ls new.
  Proof using Hwf.
    intros Hi Ha. unfold t_inside. rewrite Hi. destruct (wf_level n Hwf _ _ Hi) as [l Hl]. rewrite Hl.
    destruct l as [g|g].
    - pose proof (wf_node n Hwf _ _ _ Hi Hl) as Hv.
      set (swok := nb_swok tr g). set (rep := nb_rep g).
      set (s0 := mkLstate ({[t]} ∪ ts_done s) (list_to_set (t_next n t)) (ts_calls s ++ [(t, true)])).
      destruct (traverse_ok g (cb_continue n tr swok rep) (cb_effect n tr swok rep) (ti_vertex i) s0
                  (g_reachable_inv g (wf_nb n Hwf _ _ Hl)) ltac:(eauto)) as (enc & log & E & _ & _ & Hlog & Hnd & Hacc & _).
      rewrite E. cbn [result_map snd].
      destruct (effect_log swok rep log s0) as (E1 & E2 & E3). cbn zeta in *.
      set (s1 := foldl _ s0 log) in *. set (new := omap (asked swok rep) log) in *.
      assert (Hgo : forall a b, rtc (sgo (abs g) (cb_continue n tr swok rep)) a b <-> rtc (node_step n tr g) a b).
      { intros a b. split; apply rtc_iff; intros a' b' H; by eapply nb_go. }
      pose proof (gone_asked swok rep log) as Hgone. fold new in Hgone.
      assert (Hrept : rep (ti_vertex i) = Some t) by (unfold rep, nb_rep; by rewrite (vobj_abs _ _ _ Hv)).
      assert (Hnew : forall u, (u, true) ∈ new <-> exists w, rep w = Some u /\ w <> ti_vertex i /\ rtc (node_step n tr g) (ti_vertex i) w).
      { intros u. rewrite <- elem_gone_through, Hgone, elem_of_list_omap. setoid_rewrite Hacc. setoid_rewrite Hgo. naive_solver. }
      exists s1, ((t, true) :: new). split; [done|].
      split; [rewrite E1; cbn [ls_calls s0]; by rewrite <- app_assoc|].
      split; [by left|]. split; [|split; [|split; [|split; [|split]]]].
      + intros u b [[= -> ->]|Hu]%elem_of_cons.
        * split; [done|]. split; [eauto|]. intros _. exists i, i. rewrite Hl. done.
        * pose proof Hu as Hu'. unfold new in Hu. apply elem_of_list_omap in Hu as ([[a e] w] & _ & Hu).
          unfold asked in Hu. cbn [fst snd] in Hu. destruct (swok e); [|done].
          destruct (rep w) as [u'|] eqn:Er; [|done]. cbn in Hu. injection Hu as -> Hb. split; [done|].
          destruct (nb_rep_term _ _ _ _ Hl Er) as (j & Hj & Hjl & Hjv). split; [eauto|].
          intros ->. apply Hnew in Hu' as (w' & Hr' & _ & Hreach).
          destruct (nb_rep_term _ _ _ _ Hl Hr') as (j' & Hj' & Hjl' & Hjv').
          exists i, j'. rewrite Hl. split; [done|]. split; [done|]. split; [done|]. by rewrite Hjv'.
      + intros w. rewrite (E3 w). cbn [ls_next s0]. rewrite elem_of_list_to_set. split.
        * intros [?|(u & ? & ?)]; [exists t|exists u]; split; try done; [by left|by right].
        * intros (u & [[= ->]|Hu]%elem_of_cons & Hw); [by left|right; eauto].
      + rewrite E2. cbn [ls_done s0]. apply union_subseteq_r.
      + rewrite E2. cbn [ls_done s0]. intros u [Hu|[Hu|Hu]%elem_of_union]%elem_of_union; [|apply elem_of_singleton in Hu as ->|auto].
        * right. right. apply elem_of_list_to_set in Hu. by apply elem_gone_through.
        * right. by left.
      + intros _ w (i' & j & Hi' & Hj & Hij & Hr) Hw. replace i' with i in * by congruence. rewrite Hl in Hr.
        destruct (decide (w = t)) as [->|Hne]; [by left|]. right. apply Hnew.
        rewrite Hij in Hl. pose proof (wf_node n Hwf _ _ _ Hj Hl) as Hvj.
        exists (ti_vertex j). split; [unfold rep, nb_rep; by rewrite (vobj_abs _ _ _ Hvj)|]. split; [|done].
        intros Hc. rewrite Hc, Hv in Hvj. congruence.
      + intros _. rewrite E2. cbn [ls_done s0]. split.
        * unfold gone_through. rewrite filter_cons_True by done. cbn [map fst list_to_set]. clear.
          rewrite !(assoc_L (∪)). f_equal. apply (comm_L (∪)).
        * unfold gone_through. rewrite filter_cons_True by done. cbn [map fst]. constructor.
          -- change (t ∉ gone_through new). rewrite elem_gone_through, Hnew. intros (w & Hr & Hne & _).
             destruct (nb_rep_term _ _ _ _ Hl Hr) as (j & Hj & _ & Hjv). congruence.
          -- change (NoDup (gone_through new)). rewrite Hgone. apply NoDup_omap_inj; [|done].
             intros x y z Hx Hy. destruct (nb_rep_term _ _ _ _ Hl Hx) as (j & Hj & _ & Hjv).
             destruct (nb_rep_term _ _ _ _ Hl Hy) as (j' & Hj' & _ & Hjv'). congruence.
    - destruct (wf_bus n Hwf _ _ _ Hi Hl) as (tl & Hv & Htl & _).
      assert (Htl' : bb_terminals g (ti_vertex i) = tl) by (unfold bb_terminals; by rewrite (vobj_abs _ _ _ Hv)).
      set (swok := bb_swok tr g). set (rep := bb_rep g).
      set (s00 := mkLstate ({[t]} ∪ ts_done s) (list_to_set (t_next n t)) (ts_calls s ++ [(t, true)])).
      rewrite Htl'. destruct (same_bus_ok t tl s00) as (same & B1 & B2 & B3 & B4). cbn zeta in *.
      set (s0 := bb_same_bus n tr t tl s00) in *.
      destruct (traverse_ok g (cb_continue n tr swok rep) (cb_effect n tr swok rep) (ti_vertex i) s0
                  (g_reachable_inv g (wf_bb n Hwf _ _ Hl)) ltac:(eauto)) as (enc & log & E & _ & _ & Hlog & Hnd & Hacc & _).
      rewrite E. cbn [result_map snd].
      destruct (effect_log swok rep log s0) as (E1 & E2 & E3). cbn zeta in *.
      set (s1 := foldl _ s0 log) in *. set (new := omap (asked swok rep) log) in *.
      pose proof (gone_asked swok rep log) as Hgone. fold new in Hgone.
      assert (Hnew : forall u, (u, true) ∈ new -> exists w, rep w = Some u /\ rtc (bus_step tr g) (ti_vertex i) w).
      { intros u. rewrite <- elem_gone_through, Hgone, elem_of_list_omap. setoid_rewrite Hacc.
        intros (w & (_ & Hw) & Hr). exists w. split; [done|]. revert Hw. apply rtc_iff, bb_go. }
      exists s1, ((t, true) :: same ++ new). split; [done|].
      split; [rewrite E1, B1; cbn [ls_calls s00]; by rewrite <- !app_assoc|].
      split; [by left|]. split; [|split; [|split; [|split; [|split]]]].
      + intros u b [[= -> ->]|[Hu|Hu]%elem_of_app]%elem_of_cons.
        * split; [done|]. split; [eauto|]. intros _. exists i, i. by rewrite Hl.
        * apply B4 in Hu as (Hu & _ & ->). split; [done|]. rewrite <- Htl' in Hu.
          destruct (bb_terminals_term _ _ _ _ Hl Hu) as (j & Hj & Hjl & Hjv). split; [eauto|].
          intros _. exists i, j. rewrite Hl, Hjv. done.
        * pose proof Hu as Hu'. unfold new in Hu. apply elem_of_list_omap in Hu as ([[a e] w] & _ & Hu).
          unfold asked in Hu. cbn [fst snd] in Hu. destruct (swok e); [|done].
          destruct (rep w) as [u'|] eqn:Er; [|done]. cbn in Hu. injection Hu as -> Hb. split; [done|].
          destruct (bb_terminals_term _ _ _ _ Hl (bb_rep_in _ _ _ Er)) as (j & Hj & Hjl & Hjv). split; [eauto|].
          intros ->. apply Hnew in Hu' as (w' & Hr' & Hreach).
          destruct (bb_terminals_term _ _ _ _ Hl (bb_rep_in _ _ _ Hr')) as (j' & Hj' & Hjl' & Hjv').
          exists i, j'. rewrite Hl, Hjv'. done.
      + intros w. rewrite (E3 w), (B3 w). cbn [ls_next s00]. rewrite elem_of_list_to_set. split.
        * intros [[?|(u & ? & ?)]|(u & ? & ?)]; [exists t|exists u|exists u]; split; try done; [by left| |];
            right; apply elem_of_app; auto.
        * intros (u & [[= ->]|[Hu|Hu]%elem_of_app]%elem_of_cons & Hw); eauto.
      + rewrite E2, B2. cbn [ls_done s00]. apply union_subseteq_r.
      + rewrite E2, B2. cbn [ls_done s00]. intros u [Hu|[Hu|Hu]%elem_of_union]%elem_of_union; [|apply elem_of_singleton in Hu as ->|auto].
        * right. right. apply elem_of_app. right. apply elem_of_list_to_set in Hu. by apply elem_gone_through.
        * right. by left.
      + intros Hap w (i' & j & Hi' & Hj & Hij & Hr) Hw. replace i' with i in * by congruence. rewrite Hl in Hr.
        assert (Hvv : ti_vertex i = ti_vertex j). { inversion Hr as [|? y ? Hs]; subst; [done|]. by destruct (Hap _ _ _ _ Hl Hs). }
        destruct (decide (w = t)) as [->|Hne]; [by left|]. right. apply elem_of_app. left. apply B4.
        rewrite Hij in Hl. destruct (wf_bus n Hwf _ _ _ Hj Hl) as (l & Hv' & Hin & _).
        rewrite <- Hvv, Hv in Hv'. injection Hv' as <-. split; [done|]. split; [done|].
        symmetry. apply accepted_ask; eauto.
      + intros Hnb. destruct (Hnb _ _ Hl) as (? & ?). done.
  Qed.

  (** ** The whole traversal *)
  Lemma same_area_trans a b c : same_area n tr a b -> same_area n tr b c -> same_area n tr a c.
  Proof using.
    clear. intros (i & j & Hi & Hj & Hij & H1) (j' & k & Hj' & Hk & Hjk & H2).
    replace j' with j in * by congruence. exists i, k. split; [done|]. split; [done|]. split; [congruence|].
    rewrite <- Hij in H2. destruct (tn_levels n !! ti_level i) as [[g|g]|]; [by etrans|by etrans|done].
  Qed.

  Definition tinv (s : tstate) : Prop :=
    ts_done s ⊆ dom (tn_terms n) /\ forall u, u ∈ ts_done s -> (u, true) ∈ ts_calls s.
  Definition link (a b : nat) : Prop := linked n tr a b /\ accepted n tr b.

  (** Effect of visiting the terminals [ts] one after the other. *)
  Definition tpost (ts : list nat) (s s' : tstate) : Prop :=
    tinv s' /\ ts_done s ⊆ ts_done s' /\ (exists new, ts_calls s' = ts_calls s ++ new) /\
    (forall t, t ∈ ts -> accepted n tr t -> (t, true) ∈ ts_calls s') /\
    (forall u, (u, true) ∈ ts_calls s' -> (u, true) ∈ ts_calls s \/
       exists t, t ∈ ts /\ accepted n tr t /\ rtc link t u) /\
    (forall u, (u, false) ∈ ts_calls s' -> (u, false) ∈ ts_calls s \/ (is_Some (tn_terms n !! u) /\ t_ask n tr u = false)) /\
    (buses_apart n tr -> forall u w, (u, true) ∈ ts_calls s' -> (u, true) ∉ ts_calls s ->
       link u w -> (w, true) ∈ ts_calls s').

  Lemma tpost_nil s : tinv s -> tpost [] s s.
  Proof using.
    clear. intros H. split; [done|]. split; [done|]. split; [exists []; by rewrite app_nil_r|].
    split; [by intros ? ?%elem_of_nil|]. split; [auto|]. split; [auto|]. done.
  Qed.
  Lemma tpost_app l1 l2 s s1 s2 : tpost l1 s s1 -> tpost l2 s1 s2 -> tpost (l1 ++ l2) s s2.
  Proof using Hwf.
    intros (A1 & A2 & (x & A3) & A4 & A5 & A6 & A7) (B1 & B2 & (y & B3) & B4 & B5 & B6 & B7).
    assert (Hmono : forall c, c ∈ ts_calls s1 -> c ∈ ts_calls s2) by (intros c Hc; rewrite B3; apply elem_of_app; auto).
    split; [done|]. split; [by etrans|]. split; [exists (x ++ y); by rewrite B3, A3, app_assoc|].
    split; [|split; [|split]].
    - intros t [Ht|Ht]%elem_of_app Hacc; eauto.
    - intros u Hu. apply B5 in Hu as [Hu|(t & Ht & Hr)].
      + apply A5 in Hu as [Hu|(t & Ht & Hr)]; [auto|]. right. exists t. split; [|done]. apply elem_of_app; auto.
      + right. exists t. split; [|done]. apply elem_of_app; auto.
    - intros u Hu. apply B6 in Hu as [Hu|Hu]; auto.
    - intros Hap u w Hu Hnu Hl. destruct (decide ((u, true) ∈ ts_calls s1)) as [Hc|Hc].
      + apply Hmono. by eapply A7.
      + by eapply B7.
  Qed.

  Lemma t_next_equipment t u : u ∈ t_next n t -> is_Some (tn_terms n !! u) /\ same_equipment n t u.
  Proof using Hwf.
    unfold t_next. destruct (tn_terms n !! t) as [i|] eqn:Hi; cbn; [|by intros ?%elem_of_nil].
    intros H. split; [by eapply wf_next|]. by exists i.
  Qed.

  Lemma traverse_fuel fuel : forall t s,
    size (dom (tn_terms n) ∖ ts_done s) < fuel -> is_Some (tn_terms n !! t) -> tinv s ->
    exists s', t_traverse n tr order fuel t s = Ok s' /\ tpost [t] s s'.
  Proof using Hwf Hord.
    induction fuel as [|fuel IH]; intros t s Hf [i Hi] Hinv; [lia|]. cbn [t_traverse].
    destruct (decide (t ∈ ts_done s)) as [Hd|Hd].
    { exists s. split; [done|]. destruct (tpost_nil s Hinv) as (A1 & A2 & A3 & _ & A5 & A6 & A7).
      split; [done|]. split; [done|]. split; [done|]. split; [intros t' ->%elem_of_list_singleton _; by apply Hinv|].
      split; [auto|]. split; [auto|]. done. }
    destruct (t_ask n tr t) eqn:Ha.
    2: { eexists. split; [done|]. split; [|split; [|split; [|split; [|split; [|split]]]]]; cbn [ts_done ts_calls].
      - split; [apply Hinv|]. intros u Hu. apply elem_of_app. left. by apply Hinv.
      - done.
      - by eexists.
      - intros t' ->%elem_of_list_singleton Hacc. apply accepted_ask in Hacc; [congruence|eauto].
      - intros u [Hu|[=]%elem_of_list_singleton]%elem_of_app. auto.
      - intros u [Hu|[= ->]%elem_of_list_singleton]%elem_of_app; [auto|]. right. eauto.
      - intros _ u w [Hu|[=]%elem_of_list_singleton]%elem_of_app Hn _. done. }
    destruct (inside_ok t s i Hi Ha) as (ls & new & -> & I1 & I2 & I3 & I4 & I5 & I6 & I7 & _).
    set (s0 := mkTstate (ls_done ls) (ls_calls ls)).
    assert (Hinv0 : tinv s0).
    { split; cbn [ts_done ts_calls s0].
      - intros u Hu. apply I6 in Hu as [Hu|Hu]; [by apply Hinv|]. apply elem_of_dom. by apply I3 in Hu as (_ & ? & _).
      - intros u Hu. rewrite I1. apply elem_of_app. apply I6 in Hu as [Hu|Hu]; [left; by apply Hinv|by right]. }
    assert (Hf0 : size (dom (tn_terms n) ∖ ts_done s0) < fuel).
    { enough (size (dom (tn_terms n) ∖ ts_done s0) < size (dom (tn_terms n) ∖ ts_done s)) by lia.
      apply subset_size. cbn [ts_done s0]. split; [clear -I5; set_solver|]. intros Hsub.
      assert (t ∈ dom (tn_terms n) ∖ ts_done s) by (apply elem_of_difference; split; [by eapply elem_of_dom_2|done]).
      assert (t ∈ ls_done ls) by (apply I5, elem_of_union; left; by apply elem_of_singleton). clear -Hsub H H0. set_solver. }
    set (loop := fix loop (l : list nat) (s : tstate) : result tstate :=
             match l with
             | [] => Ok s
             | u :: l' => match t_traverse n tr order fuel u s with Ok s' => loop l' s' | r => r end
             end).
    assert (Hloop : forall l s, size (dom (tn_terms n) ∖ ts_done s) < fuel -> tinv s ->
              (forall u, u ∈ l -> is_Some (tn_terms n !! u)) -> exists s', loop l s = Ok s' /\ tpost l s s').
    { clear -IH Hwf. induction l as [|u l IHl]; intros s Hf Hinv Hl.
      - exists s. split; [done|]. by apply tpost_nil.
      - cbn [loop]. fold loop. destruct (IH u s Hf (Hl u ltac:(by left)) Hinv) as (s1 & -> & P1).
        pose proof P1 as (Hinv1 & Hsub & _).
        destruct (IHl s1) as (s2 & -> & P2); [|done|intros w Hw; apply Hl; by right|].
        + enough (size (dom (tn_terms n) ∖ ts_done s1) <= size (dom (tn_terms n) ∖ ts_done s)) by lia.
          apply subseteq_size. clear -Hsub. set_solver.
        + exists s2. split; [done|]. exact (tpost_app [u] l s s1 s2 P1 P2). }
    assert (Hel : forall u, u ∈ order (ls_next ls) <-> u ∈ ls_next ls).
    { intros u. rewrite (Hord (ls_next ls)). apply elem_of_elements. }
    destruct (Hloop (order (ls_next ls)) s0 Hf0 Hinv0) as (s' & E & P1 & P2 & (x & P3) & P4 & P5 & P6 & P7).
    { intros u Hu. apply Hel, I4 in Hu as (v & _ & Hu). by apply t_next_equipment in Hu as [? _]. }
    exists s'. split; [exact E|]. cbn [ts_calls ts_done s0] in *.
    assert (Hacc : accepted n tr t) by (apply accepted_ask; eauto).
    assert (Hlink : forall u, (u, true) ∈ new -> link t u).
    { intros u Hu. apply I3 in Hu as (Hu & Hs & Har). split; [right; auto|]. apply accepted_ask; auto. }
    split; [done|]. split; [clear -I5 P2; set_solver|]. split; [exists (new ++ x); by rewrite P3, I1, app_assoc|].
    split; [|split; [|split]].
    - intros t' ->%elem_of_list_singleton _. rewrite P3, I1. clear -I2. set_solver.
    - intros u Hu. apply P5 in Hu as [Hu|(v & Hv & Hva & Hr)].
      + rewrite I1 in Hu. apply elem_of_app in Hu as [Hu|Hu]; [auto|]. right. exists t. split; [by left|]. split; [done|].
        apply rtc_once. auto.
      + right. exists t. split; [by left|]. split; [done|].
        apply Hel, I4 in Hv as (v' & Hv' & Hv). apply t_next_equipment in Hv as [_ Hv].
        eapply rtc_l; [by apply Hlink|]. eapply rtc_l; [|exact Hr]. split; [by left|done].
    - intros u Hu. apply P6 in Hu as [Hu|Hu]; [|auto]. rewrite I1 in Hu. apply elem_of_app in Hu as [Hu|Hu]; [auto|].
      right. apply I3 in Hu as (Hu & Hs & _). auto.
    - intros Hap u w Hu Hnu Hl. destruct (decide ((u, true) ∈ ls_calls ls)) as [Hc|Hc]; [|by eapply P7].
      rewrite I1 in Hc. apply elem_of_app in Hc as [Hc|Hc]; [done|].
      destruct Hl as [[Heq|Har] Hw].
      + destruct Heq as (j & Hj & Hwj). apply P4; [|done]. apply Hel, I4. exists u. split; [done|].
        unfold t_next. by rewrite Hj.
      + rewrite P3, I1. apply elem_of_app. left. apply elem_of_app. right. apply I7; [done| |done].
        eapply same_area_trans; [|exact Har]. by apply I3 in Hc as (_ & _ & ?); auto.
  Qed.

  (** ** Node/breaker levels only: nobody is visited twice *)
  Lemma node_step_sym k g a b : tn_levels n !! k = Some (NodeBreaker g) ->
    (forall u, s_vertices (abs g) !! a = Some (Some u) -> accepted n tr u) ->
    node_step n tr g a b -> node_step n tr g b a.
  Proof using.
    clear. intros Hk Ha (e & ob & Hj & Hs & Hb). exists e, ob. split; [|done]. destruct Hj; [by right|by left].
  Qed.
  Lemma node_rtc_sym k g a b : tn_levels n !! k = Some (NodeBreaker g) ->
    (forall u, s_vertices (abs g) !! a = Some (Some u) -> accepted n tr u) ->
    rtc (node_step n tr g) a b -> rtc (node_step n tr g) b a.
  Proof using.
    clear. intros Hk Ha Hr. induction Hr as [|a c b Hs Hr IH]; [done|].
    eapply rtc_r; [apply IH|]; [by destruct Hs as (_ & _ & _ & _ & ?)|]. by eapply node_step_sym.
  Qed.
  Lemma same_area_sym a b : node_breaker_only n -> accepted n tr a -> same_area n tr a b -> same_area n tr b a.
  Proof using Hwf.
    intros Hnb Ha (i & j & Hi & Hj & Hij & Hr). exists j, i. split; [done|]. split; [done|]. split; [done|].
    rewrite <- Hij. destruct (tn_levels n !! ti_level i) as [[g|g]|] eqn:Hl; [| |done].
    - eapply node_rtc_sym; [exact Hl| |exact Hr]. intros u Hu. rewrite (wf_node n Hwf _ _ _ Hi Hl) in Hu. by injection Hu as <-.
    - by destruct (Hnb _ _ Hl).
  Qed.

  Definition ninv (s : tstate) : Prop :=
    NoDup (gone_through (ts_calls s)) /\ (forall u : nat, u ∈ ts_done s <-> (u, true) ∈ ts_calls s) /\
    (forall u w, u ∈ ts_done s -> same_area n tr u w -> accepted n tr w -> w ∈ ts_done s) /\
    (forall u, u ∈ ts_done s -> accepted n tr u).

  Lemma traverse_nodup : node_breaker_only n -> forall fuel t s s',
    is_Some (tn_terms n !! t) -> ninv s -> t_traverse n tr order fuel t s = Ok s' -> ninv s'.
  Proof using Hwf Hord.
    intros Hnb fuel. induction fuel as [|fuel IH]; intros t s s' [i Hi] Hinv E; [done|]. cbn [t_traverse] in E.
    destruct (decide (t ∈ ts_done s)) as [Hd|Hd]; [by injection E as <-|].
    destruct (t_ask n tr t) eqn:Ha.
    2: { injection E as <-. destruct Hinv as (H1 & H2 & H3 & H4). split; [|split; [|done]]; cbn [ts_done ts_calls].
      - rewrite gone_through_app. unfold gone_through at 2. rewrite filter_cons_False by done. cbn. by rewrite app_nil_r.
      - intros u. rewrite (H2 u), elem_of_app. split; [auto|]. by intros [?|[=]%elem_of_list_singleton]. }
    destruct (inside_ok t s i Hi Ha) as (ls & new & El & I1 & I2 & I3 & I4 & I5 & I6 & I7 & I8).
    rewrite El in E. destruct (I8 Hnb) as [J1 J2]. clear I8.
    assert (Hap : buses_apart n tr). { intros k g a b Hk. by destruct (Hnb _ _ Hk). }
    assert (Hacc : accepted n tr t) by (apply accepted_ask; eauto).
    assert (Hinv0 : ninv (mkTstate (ls_done ls) (ls_calls ls))).
    { destruct Hinv as (H1 & H2 & H3 & H4). split; [|split; [|split]]; cbn [ts_done ts_calls].
      - rewrite I1, gone_through_app. apply NoDup_app. split; [done|]. split; [|done].
        intros u Hu Hu'. apply elem_gone_through in Hu, Hu'. apply H2 in Hu. apply Hd. apply (H3 u t Hu); [|done].
        apply same_area_sym; [done|done|]. by apply I3 in Hu' as (_ & _ & ?); auto.
      - intros u. rewrite J1, I1, elem_of_union, elem_of_app, elem_of_list_to_set, elem_gone_through, (H2 u). tauto.
      - intros u w Hu Hr Hw. rewrite J1 in *. apply elem_of_union in Hu as [Hu|Hu]; apply elem_of_union; [left|right; eauto].
        apply elem_of_list_to_set, elem_gone_through in Hu. apply elem_of_list_to_set, elem_gone_through, (I7 Hap); [|done].
        eapply same_area_trans; [|exact Hr]. by apply I3 in Hu as (_ & _ & ?); auto.
      - intros u Hu. apply I6 in Hu as [Hu|Hu]; [auto|]. apply I3 in Hu as (? & ? & _). by apply accepted_ask. }
    assert (Hel : forall u, u ∈ order (ls_next ls) -> is_Some (tn_terms n !! u)).
    { intros u Hu. rewrite (Hord (ls_next ls)), elem_of_elements in Hu. apply I4 in Hu as (v & _ & Hu).
      by apply t_next_equipment in Hu as [? _]. }
    revert Hel Hinv0 E. generalize (order (ls_next ls)). generalize (mkTstate (ls_done ls) (ls_calls ls)).
    clear -IH. intros s l. revert s. induction l as [|u l IHl]; intros s Hel Hinv E; [by injection E as <-|].
    cbn in E. destruct (t_traverse n tr order fuel u s) as [s1| | |] eqn:Eu; try done.
    eapply (IHl s1); [|eapply IH; [|exact Hinv|exact Eu]; apply Hel; by left|exact E]. intros w Hw. apply Hel. by right.
  Qed.
End proofs.
