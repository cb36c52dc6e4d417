(** Correctness of the computation of the calculated buses. *)
From stdpp Require Import gmap pretty.
From Verif Require Import Base Graph GraphSpec GraphProofs GraphTraverse GraphPaths GraphMore Equip NodeTopo NodeTopoSpec.

Lemma rtc_sym {A} (R : A -> A -> Prop) : (forall x y, R x y -> R y x) -> forall x y, rtc R x y -> rtc R y x.
Proof. intros HR x y. induction 1 as [|x y z Hxy _ IH]; [done|]. eapply rtc_r; [exact IH|]. by apply HR. Qed.

Section enc.
  Context {V E St : Type}.
  Implicit Types g : graph V E.

  (** traverse from a marking closed under the visitor's relation. *)
  Lemma traverse_enc_ok g (f : nat -> nat -> nat -> bool) (upd : St -> nat -> nat -> nat -> St) v enc s :
    ginv g -> is_Some (s_vertices (abs g) !! v) -> length enc = length (g_vertices g) ->
    (forall x y, enc !! x = Some true -> sgo (abs g) f x y -> enc !! y = Some true) ->
    exists r log,
      (g_traverse_enc (ptrav f upd) g v enc s).2 = Ok (r, foldl (fun s c => upd s c.1.1 c.1.2 c.2) s log) /\
      (g_traverse_enc (ptrav f upd) g v enc s).1 = (g_adjacency g).1 /\
      length r = length enc /\
      (forall w, r !! w = Some true <-> enc !! w = Some true \/ rtc (sgo (abs g) f) v w) /\
      (forall c, c ∈ log -> exists ob, sjoins (abs g) c.1.1 c.1.2 c.2 ob) /\
      NoDup (map snd (filter (fun c => f c.1.1 c.1.2 c.2 = true) log)) /\
      (forall w, w ∈ map snd (filter (fun c => f c.1.1 c.1.2 c.2 = true) log) <->
                 (enc !! w = Some true \/ rtc (sgo (abs g) f) v w) /\ w <> v /\ enc !! w <> Some true) /\
      (forall a e b ob, r !! a = Some true -> enc !! a <> Some true -> sjoins (abs g) a e b ob -> r !! b <> Some true -> (a, e, b) ∈ log) /\
      (forall a e b, (a, e, b) ∈ log -> r !! a = Some true /\ b <> v).
  Proof.
    intros I Hv Hl Hcl. apply vertex_live_abs in Hv. pose proof Hv as [o0 Ho0].
    assert (v < length (g_vertices g)) as Hlt by (by apply lookup_lt_Some in Ho0).
    destruct (g_check_live g v Hv) as [o Ho].
    unfold g_traverse_enc. rewrite Ho.
    destruct (g_adjacency_ok g I) as (H1 & H2 & H3 & _). destruct (g_adjacency g) as [g' r]. cbn [fst snd] in *. subst r.
    rewrite H2, H3. destruct (adj_facts g I) as (F1 & F2 & F3 & F4).
    rewrite resize_all_alt by done.
    destruct (trav_closed f upd (g_vertices g) (g_edges g)
       (map (incid 0 (g_edges g)) (seq 0 (length (g_vertices g)))) F1 F2 F3 (inv_edges g I)
       v enc s) as (r & s' & log & Er & P & Hm & Hask); [done|done| |].
    { intros x y Hx Hgo. eapply Hcl; [exact Hx|]. by apply go_sgo. }
    assert (forall x y, rtc (go f (g_edges g)) x y <-> rtc (sgo (abs g) f) x y) as Hrtc.
    { intros x y. split; intros Hxy; (eapply rtc_subrel; [|exact Hxy]; intros ? ?; by apply go_sgo). }
    exists r, log. split. { rewrite Er. by rewrite (p_state _ _ _ _ _ _ _ _ _ P). }
    split; [done|]. split. { rewrite (p_len _ _ _ _ _ _ _ _ _ P). by rewrite insert_length. }
    split. { intros w. rewrite <- Hrtc. apply Hm. }
    split.
    { intros [[a e] b] Hc. destruct (p_calls _ _ _ _ _ _ _ _ _ P _ Hc) as (Hj & _). simpl in *.
      destruct Hj as (ed & He & Hj). exists (e_obj ed).
      unfold sjoins. rewrite abs_edges, He. simpl. unfold ends. destruct Hj as [[<- <-]|[<- <-]]; auto. }
    split; [apply (p_nodup _ _ _ _ _ _ _ _ _ P)|].
    split; [|split; [intros a e b ob Ha Hn Hj Hb; apply Hask; [done|done|by eapply sjoins_joins|done]|]].
    2:{ intros a e b Hc. destruct (p_calls _ _ _ _ _ _ _ _ _ P _ Hc) as (_ & Ha & _ & Hb). cbn [fst snd] in *. split; [done|].
        intros ->. apply Hb. unfold marked. apply list_lookup_insert. lia. }
    intros w. rewrite <- Hrtc, (p_targets _ _ _ _ _ _ _ _ _ P w). rewrite Hm. unfold marked.
    rewrite lookup_insert_cases by lia. case_decide; naive_solver.
  Qed.
End enc.

Section compute.
  Context (vw : view) (vl : string) (sw : gmap string (bool * bool)).
  Notation G := (graph nterm string).

  (** Every switch of the graph is alive. *)
  Definition sw_alive (g : G) : Prop :=
    forall e a b id, s_edges (abs g) !! e = Some (a, b, Some id) -> is_Some (sw !! id).

  Lemma terminate_conducts open ret : terminate vw (open, ret) = false <-> conducts vw open ret.
  Proof. unfold terminate, conducts. destruct vw, open, ret; simpl; naive_solver. Qed.

  Lemma edge_passes_some g e a b ob : sw_alive g -> sjoins (abs g) a e b ob -> exists p, edge_passes vw sw (g_edges g) e = Some p.
  Proof.
    intros HA Hj. unfold edge_passes. destruct Hj as [Hj|Hj]; pose proof Hj as Hj'; rewrite abs_edges in Hj;
    destruct (g_edges g !! e) as [[ed|]|] eqn:He; simpl in Hj; try discriminate; unfold ends in Hj; simplify_eq;
    (destruct (e_obj ed) as [id|] eqn:Ho; [|eauto]); apply HA in Hj' as [p Hp]; rewrite Hp; eauto.
  Qed.

  Lemma sgo_link g a b : sgo (abs g) (tv_go vw sw (g_edges g)) a b <-> link vw (abs g) sw a b.
  Proof.
    unfold sgo, link.
    assert (forall a e b ob, sjoins (abs g) a e b ob -> tv_go vw sw (g_edges g) a e b = true <->
      match ob with None => True | Some id => exists open retained, sw !! id = Some (open, retained) /\ conducts vw open retained end) as H.
    { intros a0 e b0 ob Hj. unfold tv_go, edge_passes. unfold sjoins in Hj. rewrite abs_edges in Hj.
      destruct (g_edges g !! e) as [[ed|]|]; simpl in Hj; [|naive_solver|naive_solver].
      assert (e_obj ed = ob) as -> by (unfold ends in Hj; naive_solver).
      destruct ob as [id|]; [|done]. destruct (sw !! id) as [[o r]|]; simpl; [|naive_solver].
      unfold compose. pose proof (terminate_conducts o r) as T. destruct (terminate vw (o, r)); simpl; naive_solver. }
    split; intros (e & ob & Hj & Hc); exists e, ob; (split; [done|]); by apply (H a e b ob).
  Qed.

  Lemma link_sym s a b : link vw s sw a b -> link vw s sw b a.
  Proof. intros (e & ob & [Hj|Hj] & Hc); exists e, ob; (split; [|done]); [by right|by left]. Qed.
  Lemma same_node_sym s a b : same_node vw s sw a b -> same_node vw s sw b a.
  Proof. apply rtc_sym. intros ? ?. apply link_sym. Qed.
  Lemma same_node_trans s a b c : same_node vw s sw a b -> same_node vw s sw b c -> same_node vw s sw a c.
  Proof. apply rtc_transitive. Qed.
  Lemma link_on_edge s a b : link vw s sw a b -> on_edge s a /\ on_edge s b.
  Proof.
    intros (e & ob & Hj & _). split; [by exists e, b, ob|]. exists e, a, ob. unfold sjoins in *. tauto.
  Qed.
  Lemma same_node_on_edge s a b : same_node vw s sw a b -> on_edge s a -> on_edge s b.
  Proof. induction 1 as [|x y z Hxy _ IH]; [done|]. intros _. apply IH. by eapply link_on_edge. Qed.

  Lemma on_edge_live g n : ginv g -> on_edge (abs g) n -> is_Some (s_vertices (abs g) !! n).
  Proof.
    intros I (e & b & ob & Hj). unfold sjoins in Hj. rewrite !abs_edges in Hj.
    destruct (g_edges g !! e) as [[ed|]|] eqn:He; simpl in Hj; [|naive_solver|naive_solver].
    destruct (inv_edges g I e ed He) as [[o1 H1] [o2 H2]]. unfold ends in Hj. rewrite abs_vertices.
    destruct Hj as [Hj|Hj]; simplify_eq; rewrite ?H1, ?H2; simpl; eauto.
  Qed.

  Lemma is_least_unique (P : nat -> Prop) a b : is_least P a -> is_least P b -> a = b.
  Proof. intros [H1 H2] [H3 H4]. apply Nat.le_antisymm; auto. Qed.
  Lemma bus_name_same s n n' k : same_node vw s sw n n' -> bus_name vw s sw vl n k -> bus_name vw s sw vl n' k.
  Proof.
    intros Hn (m & [Hm Hl] & ->). exists m. split; [|done]. split.
    - eapply same_node_trans; [by apply same_node_sym|done].
    - intros x Hx. apply Hl. exact (same_node_trans _ _ _ _ Hn Hx).
  Qed.
  Lemma name_inj m m' : vl +:+ "_" +:+ pretty (N.of_nat m) = vl +:+ "_" +:+ pretty (N.of_nat m') -> m = m'.
  Proof. intros H. apply (inj (String.append vl)) in H. apply (inj (String.append "_")) in H. apply (inj pretty) in H. lia. Qed.
  Lemma bus_name_fun s n k k' : bus_name vw s sw vl n k -> bus_name vw s sw vl n k' -> k = k'.
  Proof. intros (m & Hm & ->) (m' & Hm' & ->). by rewrite (is_least_unique _ _ _ Hm Hm'). Qed.
  Lemma bus_name_inj s n n' k : bus_name vw s sw vl n k -> bus_name vw s sw vl n' k -> same_node vw s sw n n'.
  Proof.
    intros (m & [Hm _] & ->) (m' & [Hm' _] & E). apply name_inj in E as ->. eapply same_node_trans; [done|by apply same_node_sym].
  Qed.
  Lemma valid_same s n n' : same_node vw s sw n n' -> valid_group vw s sw n -> valid_group vw s sw n'.
  Proof.
    intros Hn. unfold valid_group. destruct vw; [|done]. assert (forall x, same_node BusView s sw n x -> same_node BusView s sw n' x) as H.
    { intros x Hx. eapply rtc_transitive; [|exact Hx]. revert Hn. apply rtc_sym. intros ? ? (e & ob & [Hj|Hj] & Hc); exists e, ob; (split; [|done]); [by right|by left]. }
    intros [(a & b & ta & tb & ?)|(a & b & ta & tb & ?)]; [left|right]; exists a, b, ta, tb; naive_solver.
  Qed.
  Lemma bus_of_same s n n' b : same_node vw s sw n n' -> bus_of vw s sw vl n b -> bus_of vw s sw vl n' b.
  Proof.
    intros Hn [H1 (nodes & H2 & H3 & H4)]. split; [by eapply bus_name_same|]. exists nodes. split; [done|]. split; [|done].
    intros m. rewrite H3. split; intros Hm; [eapply same_node_trans; [by apply same_node_sym|done]|exact (same_node_trans _ _ _ _ Hn Hm)].
  Qed.

  (** *** The parts of add_bus *)
  Lemma min_least (l : list nat) n : is_least (fun m => m ∈ n :: l) (foldl Nat.min n l).
  Proof.
    revert n. induction l as [|x l IH]; intros n; simpl.
    - split; [set_solver|]. intros m Hm. assert (m = n) as -> by set_solver. done.
    - destruct (IH (n `min` x)) as [H1 H2]. split.
      + apply elem_of_cons in H1 as [->|H1]; [|set_solver]. destruct (Nat.min_spec n x) as [[_ ->]|[_ ->]]; set_solver.
      + intros m Hm. apply elem_of_cons in Hm as [->|Hm].
        * trans (n `min` x); [apply H2; set_solver|lia].
        * apply elem_of_cons in Hm as [->|Hm]; [|apply H2; set_solver]. trans (n `min` x); [apply H2; set_solver|lia].
  Qed.

  Lemma collect_terms_ok (g : G) vs : (forall v, v ∈ vs -> is_Some (s_vertices (abs g) !! v)) ->
    collect_terms g vs = Ok (omap (fun m => mjoin (s_vertices (abs g) !! m)) vs).
  Proof.
    induction vs as [|v vs IH]; intros H; [done|]. cbn [collect_terms]. unfold g_vertex_object.
    destruct (H v) as [o Ho]; [set_solver|]. pose proof Ho as Ho'. rewrite abs_vertices in Ho. unfold g_check_vertex.
    destruct (g_vertices g !! v) as [[o'|]|]; simpl in Ho; simplify_eq. cbn [result_bind].
    rewrite IH by set_solver. cbn [result_bind omap list_omap]. rewrite Ho'. simpl. by destruct o.
  Qed.

  Lemma set_nodes_ok k vs l : (forall v, v ∈ vs -> v < length l) ->
    exists l', set_nodes k vs l = Ok l' /\ length l' = length l /\
      forall n, l' !! n = if decide (n ∈ vs) then Some (Some k) else l !! n.
  Proof.
    revert l. induction vs as [|v vs IH]; intros l H; cbn [set_nodes].
    - exists l. split; [done|]. split; [done|]. intros n. rewrite decide_False by set_solver. done.
    - rewrite vset_lt by (apply H; set_solver). cbn [result_bind].
      destruct (IH (<[v:=Some k]> l)) as (l' & E & Hl & Hn). { intros w Hw. rewrite insert_length. apply H. set_solver. }
      exists l'. split; [done|]. split; [by rewrite Hl, insert_length|]. intros n. rewrite Hn.
      destruct (decide (n ∈ vs)) as [|Hn']; [rewrite decide_True by set_solver; done|].
      destruct (decide (n = v)) as [->|Hne].
      + rewrite decide_True by set_solver. rewrite list_lookup_insert; [done|]. apply H. set_solver.
      + rewrite decide_False by set_solver. by rewrite list_lookup_insert_ne.
  Qed.

  (** The counters of isBusValid. *)
  Definition cnt (P : nterm -> bool) (l : list nterm) : nat := length (filter (fun t => P t = true) l).
  Definition bfeeder t := bool_decide (is_feeder t).
  Definition bbranch t := bool_decide (nt_type t ∈ [LINE; TWO_WINDINGS_TRANSFORMER; THREE_WINDINGS_TRANSFORMER; HVDC_CONVERTER_STATION; DANGLING_LINE]).
  Definition bsection t := bool_decide (nt_type t = BUSBAR_SECTION).
  Lemma count_terms_ok l a b c : foldl count_term (a, b, c) l = (a + cnt bfeeder l, b + cnt bbranch l, c + cnt bsection l).
  Proof.
    revert a b c. induction l as [|t l IH]; intros a b c; [unfold cnt; simpl; repeat f_equal; lia|].
    unfold cnt in *. rewrite !filter_cons. destruct t as [i sd ty]. cbn [foldl].
    destruct ty; cbn [count_term nt_type]; rewrite IH; simpl; repeat f_equal; lia.
  Qed.
  Lemma cnt_pos P l : 1 <= cnt P l <-> exists t, t ∈ l /\ P t = true.
  Proof.
    unfold cnt. split.
    - intros H. destruct (filter (fun t => P t = true) l) as [|t l'] eqn:E; [simpl in H; lia|].
      assert (t ∈ filter (fun t => P t = true) l) as Hin by (rewrite E; set_solver).
      apply elem_of_list_filter in Hin as [? ?]. eauto.
    - intros (t & Hin & Hp). destruct (filter (fun t => P t = true) l) as [|t' l'] eqn:E; [|simpl; lia].
      assert (t ∈ filter (fun t => P t = true) l) as Hin' by (by apply elem_of_list_filter). rewrite E in Hin'. set_solver.
  Qed.

  Lemma cnt_omap P (f : nat -> option nterm) vs :
    cnt P (omap f vs) = length (filter (fun m => match f m with Some t => P t | None => false end = true) vs).
  Proof.
    unfold cnt. induction vs as [|v vs IH]; [done|]. cbn [omap list_omap]. rewrite (filter_cons _ v).
    destruct (f v) as [t|] eqn:E.
    - change (list_omap nat nterm f vs) with (omap f vs). rewrite filter_cons. destruct (decide (P t = true)); simpl; by rewrite IH.
    - rewrite decide_False by done. exact IH.
  Qed.
  Lemma length2 (l : list nat) : NoDup l -> 2 <= length l <-> exists a b, a <> b /\ a ∈ l /\ b ∈ l.
  Proof.
    intros Hnd. split.
    - destruct l as [|a [|b l]]; simpl; [lia|lia|]. intros _. exists a, b. apply NoDup_cons in Hnd as [Hn _]. set_solver.
    - intros (a & b & Hne & Ha & Hb). destruct l as [|x [|y l]]; simpl; [set_solver| |lia].
      exfalso. apply Hne. set_solver.
  Qed.

  Lemma is_bus_valid_ok (s : sgraph nterm string) n vs : NoDup vs -> (forall m, m ∈ vs <-> same_node vw s sw n m) ->
    is_bus_valid vw vs (omap (fun m => mjoin (s_vertices s !! m)) vs) = true <-> valid_group vw s sw n.
  Proof.
    intros Hnd Hvs. unfold is_bus_valid, valid_group. destruct vw.
    2:{ split; [done|]. intros _. assert (n ∈ vs) as Hn by (apply Hvs, rtc_refl). destruct vs; [set_solver|done]. }
    rewrite count_terms_ok. cbn [Nat.add]. cbv beta iota zeta. set (f := fun m => mjoin (s_vertices s !! m)).
    assert (forall m t, f m = Some t <-> term_at s m t) as Hf.
    { intros m t. unfold f, term_at. destruct (s_vertices s !! m) as [[]|]; simpl; naive_solver. }
    assert (forall P, 1 <= cnt P (omap f vs) <-> exists m t, same_node BusView s sw n m /\ term_at s m t /\ P t = true) as H1.
    { intros P. rewrite cnt_pos. split.
      - intros (t & Ht & HP). apply elem_of_list_omap in Ht as (m & Hm & Hmt). exists m, t. rewrite <- Hvs, <- Hf. done.
      - intros (m & t & Hm & Ht & HP). exists t. split; [|done]. apply elem_of_list_omap. exists m. rewrite Hvs, Hf. done. }
    assert (2 <= cnt bfeeder (omap f vs) <-> exists a b ta tb, a <> b /\ same_node BusView s sw n a /\ same_node BusView s sw n b /\
      term_at s a ta /\ term_at s b tb /\ is_feeder ta /\ is_feeder tb) as H2.
    { rewrite cnt_omap, length2 by (by apply NoDup_filter). split.
      - intros (a & b & Hne & Ha & Hb). apply elem_of_list_filter in Ha as [Pa Ha], Hb as [Pb Hb].
        destruct (f a) as [ta|] eqn:Ea, (f b) as [tb|] eqn:Eb; try done. apply Hf in Ea, Eb. apply Hvs in Ha, Hb.
        unfold bfeeder in Pa, Pb. apply bool_decide_eq_true in Pa, Pb. exists a, b, ta, tb. done.
      - intros (a & b & ta & tb & Hne & Ha & Hb & Ea & Eb & Fa & Fb). apply Hf in Ea, Eb. apply Hvs in Ha, Hb.
        exists a, b. split; [done|]. rewrite !elem_of_list_filter, Ea, Eb. unfold bfeeder. by rewrite !bool_decide_eq_true. }
    rewrite orb_true_iff, !andb_true_iff, !Nat.leb_le, !H1, H2. unfold bsection, bfeeder, bbranch.
    setoid_rewrite bool_decide_eq_true. split.
    - intros [[(a & ta & Ha & Ta & Sa) (b & tb & Hb & Tb & Fb)]|[(a & ta & Ha & Ta & Ba) (x & y & tx & ty & Hne & Hx & Hy & Tx & Ty & Fx & Fy)]].
      + left. exists a, b, ta, tb. done.
      + right. destruct (decide (a = x)) as [->|Hax].
        * exists x, y, ta, ty. done.
        * exists a, x, ta, tx. done.
    - intros [(a & b & ta & tb & Ha & Hb & Ta & Tb & Sa & Fb)|(a & b & ta & tb & Hne & Ha & Hb & Ta & Tb & Ba & Fb)].
      + left. split; [exists a, ta|exists b, tb]; done.
      + right. split; [exists a, ta; done|]. exists a, b, ta, tb. split; [done|]. split; [done|]. split; [done|]. split; [done|].
        split; [done|]. split; [|done]. intros E. unfold is_branch in Ba. rewrite E in Ba. set_solver.
  Qed.

  (** *** Invariant of the loop of updateCache *)
  Record tinv (g : G) (enc : list bool) (c : bcache) : Prop := {
    ti_len : length enc = length (g_vertices g);
    ti_node_len : length (bc_node c) = length (g_vertices g);
    ti_closed : forall x y, enc !! x = Some true -> link vw (abs g) sw x y -> enc !! y = Some true;
    ti_edge : forall x, enc !! x = Some true -> on_edge (abs g) x;
    ti_node : forall n k, bc_node c !! n = Some (Some k) <->
                enc !! n = Some true /\ valid_group vw (abs g) sw n /\ bus_name vw (abs g) sw vl n k;
    ti_id : forall k b, bc_id c !! k = Some b -> cb_id b = k /\
                exists n, enc !! n = Some true /\ valid_group vw (abs g) sw n /\ bus_of vw (abs g) sw vl n b;
    ti_has : forall n k, enc !! n = Some true -> valid_group vw (abs g) sw n -> bus_name vw (abs g) sw vl n k ->
                is_Some (bc_id c !! k)
  }.

  (** Graphs equal up to the adjacency cache. *)
  Definition same_graph (g g' : G) : Prop :=
    g_vertices g' = g_vertices g /\ g_edges g' = g_edges g /\ abs g' = abs g /\ ginv g' /\ g_avail g' = g_avail g /\ g_removed g' = g_removed g.
  Lemma tinv_same g g' enc c : same_graph g g' -> tinv g enc c -> tinv g' enc c.
  Proof. intros (Hv & He & Ha & _) [H1 H2 H3 H4 H5 H6 H7]. split; rewrite ?Hv, ?Ha; done. Qed.
  Lemma same_graph_refl g : ginv g -> same_graph g g.
  Proof. done. Qed.
  Lemma same_graph_trans g g' g'' : same_graph g g' -> same_graph g' g'' -> same_graph g g''.
  Proof. intros (? & ? & ? & ? & ? & ?) (? & ? & ? & I & ? & ?). unfold same_graph. split_and!; [congruence|congruence|congruence|exact I|congruence|congruence]. Qed.
  Lemma same_graph_adj g : ginv g -> same_graph g (g_adjacency g).1.
  Proof.
    intros I. destruct (g_adjacency_ok g I) as (_ & H2 & H3 & H4 & H5). unfold same_graph. do 4 (split; [done|]).
    unfold g_adjacency. case_decide; [done|]. by destruct (adj_fill _ _ _).
  Qed.

  Lemma replay_visit (g : G) (log : list (nat * nat * nat)) l : sw_alive g ->
    (forall c, c ∈ log -> exists ob, sjoins (abs g) c.1.1 c.1.2 c.2 ob) ->
    foldl (fun s c => tv_upd vw sw (g_edges g) s c.1.1 c.1.2 c.2) (Ok l) log =
      Ok (l ++ map snd (filter (fun c => tv_go vw sw (g_edges g) c.1.1 c.1.2 c.2 = true) log)).
  Proof.
    intros HA. revert l. induction log as [|[[a e] b] log IH]; intros l H; [simpl; by rewrite app_nil_r|].
    cbn [foldl]. rewrite filter_cons. cbn [fst snd]. destruct (H (a, e, b)) as [ob Hj]; [set_solver|]. simpl in Hj.
    destruct (edge_passes_some g e a b ob HA Hj) as [p Hp]. assert (tv_upd vw sw (g_edges g) (Ok l) a e b = if p then Ok (l ++ [b]) else Ok l) as -> by (unfold tv_upd; rewrite Hp; by destruct p).
    assert (tv_go vw sw (g_edges g) a e b = p) as Hg by (unfold tv_go; rewrite Hp; by destruct p).
    destruct p.
    - rewrite decide_True by done. rewrite IH by set_solver. simpl. by rewrite <- app_assoc.
    - rewrite decide_False by (rewrite Hg; done). rewrite IH by set_solver. done.
  Qed.

  Lemma tt_traverse_ok g v enc c : ginv g -> sw_alive g -> tinv g enc c -> on_edge (abs g) v ->
    exists g' enc' c', tt_traverse vw vl sw g v (enc, c) = (g', Ok (enc', c')) /\ same_graph g g' /\ tinv g' enc' c' /\
      enc' !! v = Some true /\ (forall x, enc !! x = Some true -> enc' !! x = Some true).
  Proof.
    intros I HA J Hv. pose proof (on_edge_live g v I Hv) as Hlive.
    assert (v < length enc) as Hlt.
    { rewrite (ti_len _ _ _ J). destruct Hlive as [o Ho]. rewrite abs_vertices in Ho.
      apply (lookup_lt_is_Some (g_vertices g)). destruct (g_vertices g !! v); [eauto|done]. }
    unfold tt_traverse. cbn [fst snd]. apply lookup_lt_is_Some in Hlt as [m Hm]. rewrite Hm. destruct m.
    { exists g, enc, c. split; [done|]. split; [by apply same_graph_refl|]. done. }
    assert (forall x y, sgo (abs g) (tv_go vw sw (g_edges g)) x y <-> link vw (abs g) sw x y) as HL by (intros; apply sgo_link).
    assert (forall x y, rtc (sgo (abs g) (tv_go vw sw (g_edges g))) x y <-> same_node vw (abs g) sw x y) as HR.
    { intros x y. split; intros H; (eapply rtc_subrel; [|exact H]; intros ? ?; by apply HL). }
    destruct (traverse_enc_ok g (tv_go vw sw (g_edges g)) (tv_upd vw sw (g_edges g)) v enc (Ok [v]) I Hlive (ti_len _ _ _ J))
      as (r & log & E1 & E2 & Hlr & Hr & Hlog & Hnd & Htg & _).
    { intros x y Hx Hxy. apply HL in Hxy. by eapply (ti_closed _ _ _ J). }
    change (tv_visit vw sw (g_edges g)) with (ptrav (tv_go vw sw (g_edges g)) (tv_upd vw sw (g_edges g))).
    destruct (g_traverse_enc (ptrav (tv_go vw sw (g_edges g)) (tv_upd vw sw (g_edges g))) g v enc (Ok [v])) as [g' rr] eqn:ET.
    cbn [fst snd] in E1, E2. subst rr. rewrite (replay_visit g log [v] HA Hlog).
    set (vs := [v] ++ map snd (filter (fun c => tv_go vw sw (g_edges g) c.1.1 c.1.2 c.2 = true) log)).
    pose proof (same_graph_adj g I) as SG. rewrite <- E2 in SG.
    assert (forall w, same_node vw (abs g) sw v w -> enc !! w <> Some true) as Hout.
    { intros w Hw He. assert (enc !! v = Some true); [|congruence].
      apply same_node_sym in Hw. clear -Hw He J. induction Hw as [|x y z Hxy _ IH]; [done|]. apply IH. by eapply (ti_closed _ _ _ J). }
    assert (forall w, w ∈ vs <-> same_node vw (abs g) sw v w) as Hvs.
    { intros w. unfold vs. simpl. rewrite elem_of_cons, Htg, HR. split.
      - intros [->|[[H|H] [_ ?]]]; [apply rtc_refl|done|done].
      - intros H. destruct (decide (w = v)) as [->|]; [by left|right]. split; [by right|]. split; [done|]. by apply Hout. }
    assert (NoDup vs) as Hvnd.
    { unfold vs. simpl. apply NoDup_cons. split; [|done]. rewrite Htg. naive_solver. }
    destruct SG as (Gv & Ge & Ga & Gi & Gr). cbn [result_bind fst snd].
    assert (forall w, w ∈ vs -> is_Some (s_vertices (abs g) !! w)) as Hvl.
    { intros w Hw. apply Hvs in Hw. apply on_edge_live; [done|]. by eapply same_node_on_edge. }
    assert (exists m, is_least (same_node vw (abs g) sw v) m /\ bus_id vl vs = Ok (vl +:+ "_" +:+ pretty (N.of_nat m))) as (m & Hm' & Hid).
    { unfold bus_id, vs. cbn [app]. eexists. split; [|reflexivity].
      match goal with |- is_least _ (foldl _ _ ?l) => destruct (min_least l v) as [M1 M2] end.
      split; [apply Hvs; exact M1|]. intros x Hx. apply M2. apply Hvs in Hx. exact Hx. }
    set (k := vl +:+ "_" +:+ pretty (N.of_nat m)) in *.
    assert (bus_name vw (abs g) sw vl v k) as Hname by (by exists m).
    unfold add_bus. rewrite Hid. cbn [result_bind]. rewrite collect_terms_ok by (rewrite Ga; exact Hvl). cbn [result_bind]. rewrite Ga.
    pose proof (is_bus_valid_ok (abs g) v vs Hvnd Hvs) as Hval.
    assert (forall x, r !! x = Some true <-> enc !! x = Some true \/ x ∈ vs) as Hrx.
    { intros x. rewrite Hr, HR, Hvs. done. }
    assert (forall x y, r !! x = Some true -> link vw (abs g) sw x y -> r !! y = Some true) as Hrcl.
    { intros x y. rewrite !Hrx, !Hvs. intros [Hx|Hx] Hxy; [left; by eapply (ti_closed _ _ _ J)|right].
      eapply same_node_trans; [exact Hx|]. by apply rtc_once. }
    assert (forall x, r !! x = Some true -> on_edge (abs g) x) as Hre.
    { intros x. rewrite Hrx, Hvs. intros [Hx|Hx]; [by eapply (ti_edge _ _ _ J)|]. by eapply same_node_on_edge. }
    assert (r !! v = Some true) as Hrv. { apply Hrx. right. apply Hvs, rtc_refl. }
    assert (forall x, enc !! x = Some true -> r !! x = Some true) as Hmono. { intros x Hx. apply Hrx. by left. }
    destruct (is_bus_valid vw vs (omap (fun m => mjoin (s_vertices (abs g) !! m)) vs)) eqn:Hb.
    - assert (valid_group vw (abs g) sw v) as Hvalid by (by apply Hval).
      destruct (set_nodes_ok k vs (bc_node c)) as (l & El & Hll & Hl).
      { intros w Hw. rewrite (ti_node_len _ _ _ J). apply Hvl in Hw as [o Ho]. rewrite abs_vertices in Ho.
        apply (lookup_lt_is_Some (g_vertices g)). destruct (g_vertices g !! w); [eauto|done]. }
      rewrite El. cbn [result_bind].
      assert (bc_id c !! k = None) as Hnone.
      { destruct (bc_id c !! k) as [b|] eqn:Eb; [|done]. exfalso. destruct (ti_id _ _ _ J k b Eb) as (Ek & n & Hn & _ & [Hbn _]).
        rewrite Ek in Hbn. apply (Hout n); [|done]. eapply bus_name_inj; [exact Hname|exact Hbn]. }
      rewrite Hnone. eexists g', r, _. split; [reflexivity|]. split; [done|]. split; [|done]. split; cbn [bc_node bc_id]; rewrite ?Gv, ?Ga.
      + by rewrite Hlr, (ti_len _ _ _ J).
      + by rewrite Hll, (ti_node_len _ _ _ J).
      + done.
      + done.
      + intros n k'. rewrite Hl, Hrx. case_decide as Hn.
        * apply Hvs in Hn as Hs. split.
          -- intros [= <-]. split; [by right|]. split; [by eapply valid_same|by eapply bus_name_same].
          -- intros (_ & _ & Hk'). f_equal. f_equal. eapply bus_name_fun; [|exact Hk']. by eapply bus_name_same.
        * rewrite (ti_node _ _ _ J). naive_solver.
      + intros k' b [[<- <-]|[Hne Hb']]%lookup_insert_Some.
        * split; [done|]. exists v. split; [done|]. split; [done|]. split; [done|]. exists vs. done.
        * destruct (ti_id _ _ _ J k' b Hb') as (? & n & Hn & ?). split; [done|]. exists n. auto.
      + intros n k' Hn Hvn Hk'. destruct (decide (k' = k)) as [->|Hne]; [rewrite lookup_insert; eauto|].
        rewrite lookup_insert_ne by done. apply Hrx in Hn as [Hn|Hn]; [by eapply (ti_has _ _ _ J)|].
        exfalso. apply Hne. eapply bus_name_fun; [exact Hk'|]. eapply bus_name_same; [by apply Hvs|done].
    - assert (~ valid_group vw (abs g) sw v) as Hinv. { intros H. apply Hval in H. congruence. }
      assert (forall n, n ∈ vs -> ~ valid_group vw (abs g) sw n) as Hinv'.
      { intros n Hn H. apply Hinv. eapply valid_same; [|exact H]. apply same_node_sym. by apply Hvs. }
      eexists g', r, c. split; [reflexivity|]. split; [done|]. split; [|done]. split; rewrite ?Gv, ?Ga.
      + by rewrite Hlr, (ti_len _ _ _ J).
      + apply J.
      + done.
      + done.
      + intros n k'. rewrite (ti_node _ _ _ J), Hrx. split; [naive_solver|]. intros ([?|Hn] & Hvn & ?); [done|]. by apply Hinv' in Hn.
      + intros k' b Hb'. destruct (ti_id _ _ _ J k' b Hb') as (? & n & Hn & ?). split; [done|]. exists n. auto.
      + intros n k' Hn Hvn Hk'. apply Hrx in Hn as [Hn|Hn]; [by eapply (ti_has _ _ _ J)|]. by apply Hinv' in Hn.
  Qed.

  Lemma tt_edges_ok l g enc c : ginv g -> sw_alive g -> tinv g enc c ->
    (forall e, e ∈ l -> is_Some (s_edges (abs g) !! e)) ->
    exists g' enc' c', tt_edges vw vl sw l g (enc, c) = (g', Ok (enc', c')) /\ same_graph g g' /\ tinv g' enc' c' /\
      (forall x, enc !! x = Some true -> enc' !! x = Some true) /\
      (forall e a b ob, e ∈ l -> s_edges (abs g) !! e = Some (a, b, ob) -> enc' !! a = Some true /\ enc' !! b = Some true).
  Proof.
    revert g enc c. induction l as [|e l IH]; intros g enc c I HA J Hl.
    { exists g, enc, c. split; [done|]. split; [by apply same_graph_refl|]. split; [done|]. split; [done|]. set_solver. }
    destruct (Hl e) as [[[a b] ob] He]; [set_solver|]. cbn [tt_edges].
    assert (forall g1, abs g1 = abs g -> g_vertex1 g1 e = Ok a /\ g_vertex2 g1 e = Ok b) as HV.
    { intros g1 Hg1. rewrite <- Hg1, abs_edges in He. unfold g_vertex1, g_vertex2, g_check_edge.
      destruct (g_edges g1 !! e) as [[ed|]|]; simpl in He; [|done|done]. unfold ends in He. simplify_eq. done. }
    destruct (HV g eq_refl) as [-> _].
    destruct (tt_traverse_ok g a enc c I HA J) as (g1 & enc1 & c1 & E1 & S1 & J1 & M1 & Mo1). { exists e, b, ob. by left. }
    rewrite E1. pose proof S1 as (Gv1 & Ge1 & Ga1 & Gi1 & _). destruct (HV g1 Ga1) as [_ ->].
    assert (sw_alive g1) as HA1. { unfold sw_alive. by rewrite Ga1. }
    destruct (tt_traverse_ok g1 b enc1 c1 Gi1 HA1 J1) as (g2 & enc2 & c2 & E2 & S2 & J2 & M2 & Mo2).
    { rewrite Ga1. exists e, a, ob. by right. }
    rewrite E2. pose proof S2 as (Gv2 & Ge2 & Ga2 & Gi2 & _).
    assert (sw_alive g2) as HA2. { unfold sw_alive. by rewrite Ga2. }
    destruct (IH g2 enc2 c2 Gi2 HA2 J2) as (g' & enc' & c' & E & S & J' & Mo & Hin).
    { intros e' He'. rewrite Ga2, Ga1. apply Hl. set_solver. }
    exists g', enc', c'. split; [done|]. split.
    { eapply same_graph_trans; [exact S1|]. eapply same_graph_trans; [exact S2|done]. }
    split; [done|]. split; [auto|]. intros e' a' b' ob' [->|He']%elem_of_cons Hee.
    - simplify_eq. auto.
    - apply (Hin e' a' b' ob'); [done|]. by rewrite Ga2, Ga1.
  Qed.

  (** The result of updateCache on a well formed graph. *)
  Record cache_ok (s : sgraph nterm string) (cap : nat) (c : bcache) : Prop := {
    ck_len : length (bc_node c) = cap;
    ck_node : forall n k, bc_node c !! n = Some (Some k) <-> in_bus vw s sw n /\ bus_name vw s sw vl n k;
    ck_id : forall k b, bc_id c !! k = Some b -> cb_id b = k /\ exists n, in_bus vw s sw n /\ bus_of vw s sw vl n b;
    ck_has : forall n k, in_bus vw s sw n -> bus_name vw s sw vl n k -> is_Some (bc_id c !! k)
  }.

  Lemma compute_cache_ok g : ginv g -> sw_alive g ->
    exists g' c, compute_cache vw vl sw g = (g', Ok c) /\ same_graph g g' /\ cache_ok (abs g) (length (g_vertices g)) c.
  Proof.
    intros I HA. unfold compute_cache. set (n := length (g_vertices g)).
    destruct (tt_edges_ok (g_get_edges g) g (replicate n false) (mkBC (replicate n None) ∅) I HA) as (g' & enc & c & E & S & J & _ & Hin).
    - split; cbn [bc_node bc_id].
      + by rewrite replicate_length.
      + by rewrite replicate_length.
      + intros x y Hx. apply lookup_replicate in Hx as [? _]. done.
      + intros x Hx. apply lookup_replicate in Hx as [? _]. done.
      + intros x k. split; [intros Hx; apply lookup_replicate in Hx as [? _]; done|].
        intros [Hx _]. apply lookup_replicate in Hx as [? _]. done.
      + intros k b. by rewrite lookup_empty.
      + intros x k Hx. apply lookup_replicate in Hx as [? _]. done.
    - intros e He. by apply g_get_edges_spec.
    - rewrite E. exists g', c. split; [done|]. split; [done|]. destruct S as (Gv & Ge & Ga & _).
      assert (forall x, enc !! x = Some true <-> on_edge (abs g) x) as Hx.
      { intros x. split; [rewrite <- Ga; by apply (ti_edge _ _ _ J)|]. intros (e & b & ob & [Hj|Hj]).
        - eapply (Hin e x b ob); [|exact Hj]. apply g_get_edges_spec. eauto.
        - eapply (Hin e b x ob); [|exact Hj]. apply g_get_edges_spec. eauto. }
      destruct J as [J1 J2 J3 J4 J5 J6 J7]. rewrite Gv, Ga in *. split.
      + done.
      + intros x k. rewrite J5, Hx. unfold in_bus. tauto.
      + intros k b Hb. destruct (J6 k b Hb) as (? & x & H1 & H2 & H3). split; [done|]. exists x. split; [|done]. split; [by apply Hx|done].
      + intros x k [H1 H2] Hk. apply (J7 x k); [by apply Hx|done|done].
  Qed.
End compute.
