(** The level that an import builds from the buses, switches and terminals of a file. *)
From stdpp Require Import gmap pretty sorting.
From Verif Require Import Base Graph GraphSpec GraphProofs GraphMore Equip NodeTopo NodeTopoSpec NodeTopoProofs NodeTopoInv
  BusTopo BusTopoSpec BusTopoProofs BusTopoInv BusTopoView TopoExport TopoExportSpec.

(** What has been read so far: buses, switches, terminals (connected?, bus). *)
Record built (ids : gset string) (B : list string) (W : list (string * bool * string * string)) (T : list (nterm * bool * string))
    (st : bbst) (v : bbvar) : Prop := {
  bd_reach : bb_reach bb_safe st;
  bd_cur : e_cur st = Some initial_variant;
  bd_var : e_vars st = {[initial_variant := v]};
  bd_cache : bv_cache v = None;
  bd_num : forall x, is_Some (s_vertices (abs (bb_graph (e_sh st))) !! x) -> is_Some (s_vertices (abs (bb_graph (e_sh st))) !! 0);
  bd_ids : forall k, k ∈ bb_ids (e_sh st) <-> k ∈ ids \/ k ∈ B \/ exists o b1 b2, (k, o, b1, b2) ∈ W;
  bd_bus : forall k, is_bus (e_sh st) k <-> k ∈ B;
  bd_open : forall id o, bv_open v !! id = Some o <-> exists b1 b2, (id, o, b1, b2) ∈ W;
  bd_between : forall id b1 b2, lies_between (e_sh st) id b1 b2 <-> exists o, (id, o, b1, b2) ∈ W;
  bd_conn : forall t c b, bv_conn v !! t = Some (c, b) <-> (t, c, b) ∈ T;
  bd_hangs : forall b t, hangs (e_sh st) v b t <-> exists c, (t, c, b) ∈ T
}.

Lemma built_blank vl ids : built ids [] [] [] (bb_blank vl ids) (mkBV ∅ ∅ ∅ None).
Proof.
  unfold bb_blank, bb_new. split; cbn [e_sh e_vars e_cur bb_id bb_graph bb_buses bb_sw bb_live bb_next bb_ids bv_open bv_terms bv_conn bv_cache].
  - apply (br_new bb_safe vl ids {[initial_variant]} (Some initial_variant)); [set_solver|]. intros i [= <-]. set_solver.
  - done.
  - apply map_eq. intros i. apply option_eq. intros w. rewrite lookup_set_to_map by done. rewrite lookup_singleton_Some. split.
    + intros (j & Hj & [= <- <-]). apply elem_of_singleton in Hj as ->. done.
    + intros [<- <-]. exists initial_variant. split; [set_solver|done].
  - done.
  - intros x [o Hx]. by vm_compute in Hx.
  - intros k. split; [by left|]. intros [H|[H|(o & b1 & b2 & H)]]; [done|by apply elem_of_nil in H..].
  - intros k. split; [|intros H; by apply elem_of_nil in H]. intros [u Hu]. cbn in Hu. by rewrite lookup_empty in Hu.
  - intros id o. rewrite lookup_empty. split; [done|]. intros (b1 & b2 & H). by apply elem_of_nil in H.
  - intros id b1 b2. split; [|intros (o & H); by apply elem_of_nil in H]. intros (e & x1 & x2 & u1 & u2 & _ & _ & _ & H & _). cbn in H. by rewrite lookup_empty in H.
  - intros t c b. rewrite lookup_empty. split; [done|]. intros H. by apply elem_of_nil in H.
  - intros b t. split; [|intros (c & H); by apply elem_of_nil in H]. intros (u & l & H & _). cbn in H. by rewrite lookup_empty in H.
Qed.

Lemma built_lookup ids B W T st v : built ids B W T st v -> e_vars st !! initial_variant = Some v.
Proof. intros H. rewrite (bd_var _ _ _ _ _ _ H). by rewrite lookup_singleton. Qed.
Lemma built_numbered ids B W T st v : built ids B W T st v -> well_numbered st.
Proof.
  intros H x Hx Hl. pose proof (bd_num _ _ _ _ _ _ H x Hx) as H0. specialize (Hl 0 H0). assert (x = 0) as -> by lia.
  destruct H0 as [o H0]. destruct (decide (size (s_vertices (abs (bb_graph (e_sh st)))) = 0)) as [E|]; [|lia].
  apply map_size_empty_inv in E. rewrite E in H0. by rewrite lookup_empty in H0.
Qed.
Lemma no_merged_built ids B W T st v : built ids B W T st v -> no_merged st.
Proof.
  intros H i w Hw. rewrite (bd_var _ _ _ _ _ _ H) in Hw. apply lookup_singleton_Some in Hw as [<- <-]. apply H.
Qed.

Lemma built_perm ids B B' W W' T T' st v : (forall k, k ∈ B <-> k ∈ B') -> (forall k, k ∈ W <-> k ∈ W') -> (forall k, k ∈ T <-> k ∈ T') ->
  built ids B W T st v -> built ids B' W' T' st v.
Proof.
  intros HB HW HT [K1 K2 K3 K4 K5 K6 K7 K8 K9 K10 K11]. split; try done.
  - intros k. rewrite K6, HB. setoid_rewrite HW. done.
  - intros k. by rewrite K7, HB.
  - intros id o. rewrite K8. by setoid_rewrite HW.
  - intros id b1 b2. rewrite K9. by setoid_rewrite HW.
  - intros t c b. by rewrite K10, HT.
  - intros b t. rewrite K11. by setoid_rewrite HT.
Qed.

(** *** Buses *)
Lemma add_bus_least st id : shok (e_sh st) -> let s := e_sh st in id <> "" -> id ∉ bb_ids s ->
  exists g' x, ginv g' /\ GraphSpec.fresh (s_vertices (abs (bb_graph s))) x /\
     abs g' = mkS (<[x := Some (bb_next s)]> (s_vertices (abs (bb_graph s)))) (s_edges (abs (bb_graph s))) /\
     bb_add_bus id st = (Ok tt, mkE (add_bus_sh s id g' x) (add_bus_var (bb_next s) <$> e_vars st) (e_cur st)).
Proof.
  intros S s Hid Hin. unfold bb_add_bus.
  assert (bb_check_id id st = (Ok tt, st)) as Ec.
  { unfold bb_check_id, abind, ashared. fold s. rewrite !bool_decide_eq_false_2 by done. done. }
  destruct (g_add_vertex_ok (bb_graph s) (sk_g _ S)) as [I1 (x & Hf & Hr & A1)]. destruct (g_add_vertex (bb_graph s)) as [g1 r] eqn:E1. cbn [fst snd] in *.
  destruct r as [y|?| |]; simpl in Hr; simplify_eq. cbn [abs] in A1.
  destruct (set_object_eq g1 x (Some (bb_next s)) I1) as (g2 & E2 & I2 & A2); [rewrite A1; cbn; rewrite lookup_insert; eauto|].
  exists g2, x. split; [done|]. split; [done|]. rewrite A1 in A2. cbn [s_vertices s_edges] in A2. rewrite insert_insert in A2. split; [done|].
  rewrite (abind_Ok _ _ _ _ _ Ec). erewrite abind_Ok; [|reflexivity]. cbv zeta. rewrite (abind_Ok ashared _ _ _ _ eq_refl).
  erewrite abind_Ok; [|unfold bgact; cbn [e_sh bb_graph]; fold s; rewrite E1; reflexivity]. cbn [e_sh bb_next].
  fold s. replace (Datatypes.S (bb_next s) - 1) with (bb_next s) by lia.
  erewrite abind_Ok; [|unfold bgact; cbn [e_sh bb_graph bb_set_graph]; rewrite E2; reflexivity].
  cbn [e_sh e_vars e_cur bb_set_graph bb_buses bb_id bb_graph bb_sw bb_live bb_next bb_ids].
  assert (bb_buses s !! id = None) as ->; [|done].
  destruct (bb_buses s !! id) as [y|] eqn:Ey; [|done]. destruct (sk_bus _ S id y Ey) as (u & _ & Hu). by destruct (sk_live _ S u id Hu) as (_ & _ & ? & _).
Qed.

Lemma built_bus ids B W T st v k : built ids B W T st v -> k <> "" -> k ∉ ids -> k ∉ B -> (forall o b1 b2, (k, o, b1, b2) ∉ W) ->
  exists st' v', bb_add_bus k st = (Ok tt, st') /\ built ids (k :: B) W T st' v'.
Proof.
  intros H Hne Hi HB HW. pose proof (reach_binv _ (bd_reach _ _ _ _ _ _ H)) as I. pose proof (bi_sh _ I) as S. set (s := e_sh st) in *.
  assert (k ∉ bb_ids s) as Hk. { intros K. apply (bd_ids _ _ _ _ _ _ H) in K as [K|[K|(o & b1 & b2 & K)]]; [done|done|by eapply HW]. }
  destruct (add_bus_least st k S Hne Hk) as (g' & x & G' & Hf & A & E). fold s in E, A, Hf.
  assert (forall u, bb_live s !! u <> None -> u <> bb_next s) as Hlt.
  { intros u Hu ->. destruct (bb_live s !! bb_next s) as [b|] eqn:Eb; [|done]. destruct (sk_live _ S _ b Eb) as (_ & ? & _). lia. }
  assert (bb_live s !! bb_next s = None) as Hnone. { destruct (bb_live s !! bb_next s) eqn:Eb; [|done]. exfalso. eapply Hlt; [|done]. by rewrite Eb. }
  pose proof (built_lookup _ _ _ _ _ _ H) as Hv0.
  pose proof (proj1 (bi_vars _ I) _ _ Hv0) as V. fold s in V.
  subst s. eexists _, (add_bus_var (bb_next (e_sh st)) v). split; [exact E|]. split; cbn [e_sh e_vars e_cur add_bus_sh add_bus_var bb_id bb_graph bb_buses bb_sw bb_live bb_next bb_ids bv_open bv_terms bv_conn bv_cache].
  - pose proof (br_step bb_safe st (ECall (BAddBus k)) (bd_reach _ _ _ _ _ _ H) Logic.I) as R. cbn [bb_step estep bb_call] in R. by rewrite E in R.
  - apply H.
  - rewrite (bd_var _ _ _ _ _ _ H). by rewrite map_fmap_singleton.
  - apply H.
  - rewrite A. cbn [s_vertices]. intros y Hy. destruct (decide (x = 0)) as [->|Hx0]; [rewrite lookup_insert; eauto|].
    rewrite lookup_insert_ne by done. destruct Hf as [_ Hf]. apply Hf. lia.
  - intros k'. rewrite elem_of_union, elem_of_singleton, elem_of_cons, (bd_ids _ _ _ _ _ _ H). tauto.
  - intros k'. rewrite elem_of_cons, <- (bd_bus _ _ _ _ _ _ H). unfold is_bus. cbn [add_bus_sh bb_live]. split.
    + intros [u Hu]. apply lookup_insert_Some in Hu as [[_ <-]|[_ Hu]]; [by left|right; by exists u].
    + intros [->|[u Hu]]; [exists (bb_next (e_sh st)); by rewrite lookup_insert|]. exists u. rewrite lookup_insert_ne; [done|].
      intros <-. congruence.
  - apply H.
  - intros id b1 b2. rewrite <- (bd_between _ _ _ _ _ _ H). unfold lies_between, on_vertex. cbn [add_bus_sh bb_graph bb_live]. rewrite A. cbn [s_vertices s_edges]. split.
    + intros (e & x1 & x2 & u1 & u2 & He & H1 & H2 & L1 & L2). destruct (edge_live (bb_graph (e_sh st)) e x1 x2 (Some id) (sk_g _ S) He) as [[o1 V1] [o2 V2]].
      destruct Hf as [Hf _]. assert (x1 <> x) as N1 by congruence. assert (x2 <> x) as N2 by congruence.
      rewrite lookup_insert_ne in H1 by done. rewrite lookup_insert_ne in H2 by done.
      destruct (sk_obj _ S x1 _ H1) as (w1 & c1 & [= <-] & Lw1 & _). destruct (sk_obj _ S x2 _ H2) as (w2 & c2 & [= <-] & Lw2 & _).
      rewrite lookup_insert_ne in L1 by (intros K; rewrite K in Hnone; congruence). rewrite lookup_insert_ne in L2 by (intros K; rewrite K in Hnone; congruence). eauto 15.
    + intros (e & x1 & x2 & u1 & u2 & He & H1 & H2 & L1 & L2). exists e, x1, x2, u1, u2. destruct Hf as [Hf _].
      unfold on_vertex in H1, H2. rewrite !lookup_insert_ne; [done| | | |]; intros <-; congruence.
  - apply H.
  - intros b t. rewrite <- (bd_hangs _ _ _ _ _ _ H). unfold hangs. cbn [add_bus_sh add_bus_var bb_live bv_terms]. split.
    + intros (u & l & Hu & Hl & Ht). apply lookup_insert_Some in Hl as [[<- <-]|[Hne' Hl]]; [by apply elem_of_nil in Ht|].
      rewrite lookup_insert_ne in Hu by done. by exists u, l.
    + intros (u & l & Hu & Hl & Ht). exists u, l. rewrite !lookup_insert_ne; [done| |]; intros <-; congruence.
Qed.

(** *** Switches *)
Lemma bus_vertex st b : shok (e_sh st) -> is_bus (e_sh st) b ->
  exists x u, bb_vertex b st = (Ok x, st) /\ on_vertex (e_sh st) u x /\ bb_live (e_sh st) !! u = Some b.
Proof.
  intros S [u Hu]. destruct (sk_live _ S u b Hu) as ((x & Hx & Hbx) & _ & _ & Hne). exists x, u. split; [|done].
  unfold bb_vertex, abind, ashared. rewrite bool_decide_eq_false_2 by done. by rewrite Hbx.
Qed.
Lemma built_switch ids B W T st v id o b1 b2 : built ids B W T st v -> b1 ∈ B -> b2 ∈ B -> id <> "" -> id ∉ ids -> id ∉ B -> (forall o b1 b2, (id, o, b1, b2) ∉ W) ->
  exists st' v', bb_add_switch id o b1 b2 st = (Ok tt, st') /\ built ids B ((id, o, b1, b2) :: W) T st' v'.
Proof.
  intros H H1 H2 Hne Hi HB HW. pose proof (reach_binv _ (bd_reach _ _ _ _ _ _ H)) as I. pose proof (bi_sh _ I) as S.
  assert (id ∉ bb_ids (e_sh st)) as Hk. { intros K. apply (bd_ids _ _ _ _ _ _ H) in K as [K|[K|(o' & c1 & c2 & K)]]; [done|done|by eapply HW]. }
  destruct (bus_vertex st b1 S) as (x1 & u1 & E1 & V1 & L1); [by apply (bd_bus _ _ _ _ _ _ H)|].
  destruct (bus_vertex st b2 S) as (x2 & u2 & E2 & V2 & L2); [by apply (bd_bus _ _ _ _ _ _ H)|].
  destruct (add_edge_eq (bb_graph (e_sh st)) x1 x2 (Some id) (sk_g _ S)) as (g' & e & Eg & I' & Hfr & A); [unfold on_vertex in *; eauto..|].
  assert (bb_sw (e_sh st) !! id = None) as Hsw.
  { destruct (bb_sw (e_sh st) !! id) as [z|] eqn:E; [|done]. by destruct (sk_sw _ S id z E) as (_ & ? & _). }
  assert (bb_add_switch id o b1 b2 st = (Ok tt, mkE
     (mkBB (bb_id (e_sh st)) g' (bb_buses (e_sh st)) (<[id := e]> (bb_sw (e_sh st))) (bb_live (e_sh st)) (bb_next (e_sh st)) ({[id]} ∪ bb_ids (e_sh st)))
     ((fun v => mkBV (<[id := o]> (bv_open v)) (bv_terms v) (bv_conn v) (bv_cache v)) <$> e_vars st) (e_cur st))) as E.
  { unfold bb_add_switch. rewrite (abind_Ok _ _ _ _ _ E1), (abind_Ok _ _ _ _ _ E2).
    assert (bb_check_id id st = (Ok tt, st)) as Ec by (unfold bb_check_id, abind, ashared; by rewrite !bool_decide_eq_false_2).
    rewrite (abind_Ok _ _ _ _ _ Ec). erewrite abind_Ok; [|reflexivity]. cbv zeta. erewrite abind_Ok; [|unfold bgact; cbn [e_sh bb_graph]; rewrite Eg; reflexivity].
    cbn [e_sh e_vars e_cur bb_set_graph bb_buses bb_id bb_graph bb_sw bb_live bb_next bb_ids]. by rewrite Hsw. }
  eexists _, (mkBV (<[id := o]> (bv_open v)) (bv_terms v) (bv_conn v) (bv_cache v)). split; [exact E|].
  split; cbn [e_sh e_vars e_cur bb_id bb_graph bb_buses bb_sw bb_live bb_next bb_ids bv_open bv_terms bv_conn bv_cache].
  - pose proof (br_step bb_safe st (ECall (BAddSwitch id o b1 b2)) (bd_reach _ _ _ _ _ _ H) (no_merged_built _ _ _ _ _ _ H)) as R.
    cbn [bb_step estep bb_call] in R. by rewrite E in R.
  - apply H.
  - rewrite (bd_var _ _ _ _ _ _ H). by rewrite map_fmap_singleton.
  - apply H.
  - rewrite A. cbn [s_vertices]. apply H.
  - intros k. rewrite elem_of_union, elem_of_singleton, (bd_ids _ _ _ _ _ _ H). split.
    + intros [->|[K|[K|(o' & c1 & c2 & K)]]]; [right; right; exists o, b1, b2; by left|by left|right; by left|right; right; exists o', c1, c2; by right].
    + intros [K|[K|(o' & c1 & c2 & K)]]; [right; by left|right; right; by left|]. apply elem_of_cons in K as [[= -> -> -> ->]|K]; [by left|]. right; right; right. eauto.
  - apply H.
  - intros id' o'. destruct (decide (id = id')) as [<-|Hn].
    + rewrite lookup_insert. split; [intros [= <-]; exists b1, b2; by left|]. intros (c1 & c2 & K). apply elem_of_cons in K as [[= -> -> ->]|K]; [done|by destruct (HW _ _ _ K)].
    + rewrite lookup_insert_ne by done. rewrite (bd_open _ _ _ _ _ _ H). split; intros (c1 & c2 & K); exists c1, c2; [by right|].
      apply elem_of_cons in K as [[= -> -> -> ->]|K]; [done|done].
  - intros id' c1 c2. trans (lies_between (e_sh st) id' c1 c2 \/ (id' = id /\ c1 = b1 /\ c2 = b2)).
    + unfold lies_between, on_vertex. cbn [add_bus_sh bb_graph bb_live]. rewrite A. cbn [s_vertices s_edges]. split.
      * intros (e' & y1 & y2 & w1 & w2 & He & Y1 & Y2 & M1 & M2). apply lookup_insert_Some in He as [[<- [= <- <- <-]]|[_ He]]; [right|left; eauto 15].
        unfold on_vertex in V1, V2. rewrite V1 in Y1. rewrite V2 in Y2. simplify_eq. done.
      * intros [(e' & y1 & y2 & w1 & w2 & He & R)|(-> & -> & ->)].
        -- exists e', y1, y2, w1, w2. rewrite lookup_insert_ne; [done|]. intros <-. congruence.
        -- exists e, x1, x2, u1, u2. rewrite lookup_insert. done.
    + rewrite (bd_between _ _ _ _ _ _ H). split.
      * intros [[o' K]|(-> & -> & ->)]; [exists o'; by right|exists o; by left].
      * intros [o' K]. apply elem_of_cons in K as [[= -> -> -> ->]|K]; [by right|left; eauto].
  - apply H.
  - intros b t. rewrite <- (bd_hangs _ _ _ _ _ _ H). done.
Qed.

(** *** Terminals *)
Lemma built_term ids B W T st v t c b : built ids B W T st v -> b ∈ B -> nt_type t <> BUSBAR_SECTION -> (forall c b, (t, c, b) ∉ T) ->
  exists st' v', bb_new_terminal t b c st = (Ok tt, st') /\ built ids B W ((t, c, b) :: T) st' v'.
Proof.
  intros H Hb Hty HT. pose proof (reach_binv _ (bd_reach _ _ _ _ _ _ H)) as I. pose proof (bi_sh _ I) as S.
  pose proof (built_lookup _ _ _ _ _ _ H) as Hv0. pose proof (proj1 (bi_vars _ I) _ _ Hv0) as V.
  assert (is_bus (e_sh st) b) as Hbus by by apply (bd_bus _ _ _ _ _ _ H).
  assert (bv_conn v !! t = None) as Hfr. { destruct (bv_conn v !! t) as [[c' b']|] eqn:E; [|done]. apply (bd_conn _ _ _ _ _ _ H) in E. by apply HT in E. }
  assert (b <> "") as Hne. { destruct Hbus as [u Hu]. by destruct (sk_live _ S u b Hu) as (_ & _ & _ & ?). }
  set (f := fun v => mkBV (bv_open v) (bv_terms v) (<[t := (c, b)]> (bv_conn v)) (bv_cache v)).
  assert (exists st', bb_new_terminal t b c st = (Ok tt, st') /\ exists u, bb_live (e_sh st) !! u = Some b /\
            st' = mkE (e_sh st) {[initial_variant := attach_var u t (f v)]} (e_cur st)) as (st' & E & u & Hu & Es).
  { unfold bb_new_terminal. rewrite (abind_Ok _ _ st tt (mkE (e_sh st) (f <$> e_vars st) (e_cur st))); swap 1 2.
    { rewrite bool_decide_eq_false_2; [by rewrite !bool_decide_eq_false_2|]. intros (i & w & Hw & K). rewrite (bd_var _ _ _ _ _ _ H) in Hw.
      apply lookup_singleton_Some in Hw as [_ <-]. rewrite Hfr in K. by destruct K. }
    unfold bb_attach. rewrite (abind_Ok _ _ _ _ _ (bt_get_eq (mkE (e_sh st) (f <$> e_vars st) (e_cur st)) initial_variant (f v) t (c, b) (bd_cur _ _ _ _ _ _ H)
        ltac:(cbn [e_vars]; by rewrite lookup_fmap, Hv0) ltac:(unfold f; cbn; by rewrite lookup_insert))). cbn [snd].
    destruct (configured_eq (mkE (e_sh st) (f <$> e_vars st) (e_cur st)) b S) as [(u & y & E & HL & _)|(m & _ & Hn)]; [|done].
    eexists. split; [|exists u; split; [exact HL|]].
    - rewrite bool_decide_eq_false_2 by done. rewrite (abind_Ok _ _ _ _ _ E). rewrite (abind_Ok _ _ _ _ _ E).
      apply (aforeach_ok _ (attach_var u t) (fun w => is_Some (bv_terms w !! u)) _ initial_variant); [apply H| |].
      + intros j w Hw. cbn [e_vars] in Hw. rewrite (bd_var _ _ _ _ _ _ H), map_fmap_singleton in Hw. apply lookup_singleton_Some in Hw as [_ <-]. cbn.
        apply (vk_terms _ _ V). eauto.
      + intros st' j w Hs Hc' Hw [l Hl]. unfold attach_var. rewrite Hl. unfold bus_add_terminal.
        erewrite abind_Ok; swap 1 2.
        { rewrite (abind_Ok _ _ _ _ _ (aget_eq _ _ _ Hc' Hw)), Hl. by apply (aput_eq _ j w). }
        rewrite (invalidate_eq _ j (mkBV (bv_open w) (<[u := l ++ [t]]> (bv_terms w)) (bv_conn w) (bv_cache w))); [|done|apply put_lookup].
        by rewrite put_put.
    - cbn [e_sh e_vars e_cur]. by rewrite (bd_var _ _ _ _ _ _ H), !map_fmap_singleton. }
  exists st', (attach_var u t (f v)). split; [done|]. rewrite Es.
  destruct (proj2 (vk_terms _ _ V u)) as [l Hl]; [eauto|].
  assert (bv_terms (attach_var u t (f v)) = <[u := l ++ [t]]> (bv_terms v)) as ET by (cbn; by rewrite Hl).
  split; cbn [e_sh e_vars e_cur]; try apply H.
  - pose proof (br_step bb_safe st (ECall (BNewTerminal t b c)) (bd_reach _ _ _ _ _ _ H) Logic.I) as R.
    cbn [bb_step estep bb_call] in R. rewrite E in R. by rewrite <- Es.
  - done.
  - done.
  - intros t' c' b'. cbn. destruct (decide (t = t')) as [<-|Hn].
    + rewrite lookup_insert. split; [intros [= <- <-]; by left|]. intros K. apply elem_of_cons in K as [[= -> ->]|K]; [done|by destruct (HT _ _ K)].
    + rewrite lookup_insert_ne by done. rewrite (bd_conn _ _ _ _ _ _ H), elem_of_cons. split; [by right|]. intros [[= -> -> ->]|K]; done.
  - intros b' t'. trans (hangs (e_sh st) v b' t' \/ (t' = t /\ b' = b)).
    + unfold hangs. rewrite ET. split.
      * intros (w & lw & Lw & [[<- <-]|[Hne' Hw]]%lookup_insert_Some & Htw); [|left; eauto].
        apply elem_of_app in Htw as [Htw|Htw%elem_of_list_singleton]; [left; eauto|]. right. split; [done|]. congruence.
      * intros [(w & lw & Lw & Hw & Htw)|[-> ->]].
        -- destruct (decide (u = w)) as [<-|Hne'].
           ++ exists u, (l ++ [t]). rewrite lookup_insert. split; [done|]. split; [done|]. apply elem_of_app. left. congruence.
           ++ exists w, lw. by rewrite lookup_insert_ne.
        -- exists u, (l ++ [t]). rewrite lookup_insert. split; [done|]. split; [done|]. apply elem_of_app. right. by apply elem_of_list_singleton.
    + rewrite (bd_hangs _ _ _ _ _ _ H). split.
      * intros [[c' K]|[-> ->]]; [exists c'; by right|exists c; by left].
      * intros [c' K]. apply elem_of_cons in K as [[= -> -> ->]|K]; [by right|left; eauto].
Qed.

(** *** The whole file *)
Definition doc_term (x : nterm * option string * option string) (t : nterm) (c : bool) (b : string) : Prop :=
  x.1.1 = t /\ x.2 = Some b /\ ((c = true /\ x.1.2 = Some b) \/ (c = false /\ x.1.2 = None)).
(** The files that an import reads without exception. *)
Record doc_ok (ids : gset string) (x : xlevel) : Prop := {
  dk_buses : NoDup (x_buses x);
  dk_new : forall k, k ∈ x_buses x -> k <> "" /\ k ∉ ids;
  dk_sws : NoDup (map (fun w => w.1.1.1) (x_sws x));
  dk_sw : forall id o b1 b2, (id, o, b1, b2) ∈ x_sws x -> id <> "" /\ id ∉ ids /\ id ∉ x_buses x /\ b1 ∈ x_buses x /\ b2 ∈ x_buses x;
  dk_terms : NoDup (map (fun w => w.1.1) (x_terms x));
  dk_term : forall y, y ∈ x_terms x -> nt_type y.1.1 <> BUSBAR_SECTION /\ exists c b, doc_term y y.1.1 c b /\ b ∈ x_buses x
}.
Definition doc_conn (y : nterm * option string * option string) : nterm * bool * string :=
  (y.1.1, bool_decide (is_Some y.1.2), default "" y.2).

Lemma each_buses ids : forall l B st v, built ids B [] [] st v -> NoDup l -> (forall k, k ∈ l -> k <> "" /\ k ∉ ids /\ k ∉ B) ->
  exists st' v', bb_each bb_add_bus l st = (Ok tt, st') /\ built ids (rev l ++ B) [] [] st' v'.
Proof.
  induction l as [|k l IH]; intros B st v H Hnd Hl; cbn [bb_each].
  - by exists st, v.
  - apply NoDup_cons in Hnd as [Hk Hnd]. destruct (Hl k ltac:(by left)) as (H1 & H2 & H3).
    destruct (built_bus _ _ _ _ _ _ k H H1 H2 H3) as (st1 & v1 & E1 & B1); [intros ??? K; by apply elem_of_nil in K|].
    rewrite (abind_Ok _ _ _ _ _ E1). destruct (IH (k :: B) st1 v1 B1 Hnd) as (st' & v' & E' & B').
    + intros k' Hk'. destruct (Hl k' ltac:(by right)) as (? & ? & ?). split; [done|]. split; [done|]. intros [->|?]%elem_of_cons; done.
    + exists st', v'. split; [done|]. cbn [rev]. by rewrite <- (assoc_L (++)).
Qed.
Lemma each_switches ids B : forall l W st v, built ids B W [] st v -> NoDup (map (fun w => w.1.1.1) (l ++ W)) ->
  (forall id o b1 b2, (id, o, b1, b2) ∈ l -> id <> "" /\ id ∉ ids /\ id ∉ B /\ b1 ∈ B /\ b2 ∈ B) ->
  exists st' v', bb_each (fun s => bb_add_switch s.1.1.1 s.1.1.2 s.1.2 s.2) l st = (Ok tt, st') /\ built ids B (rev l ++ W) [] st' v'.
Proof.
  induction l as [|[[[id o] b1] b2] l IH]; intros W st v H Hnd Hl; cbn [bb_each].
  - by exists st, v.
  - cbn [map app fst snd] in *. apply NoDup_cons in Hnd as [Hk Hnd]. destruct (Hl id o b1 b2 ltac:(by left)) as (H1 & H2 & H3 & H4 & H5).
    destruct (built_switch _ _ _ _ _ _ id o b1 b2 H H4 H5 H1 H2 H3) as (st1 & v1 & E1 & B1).
    { intros o' c1 c2 K. apply Hk. apply elem_of_list_fmap. exists (id, o', c1, c2). split; [done|]. apply elem_of_app. by right. }
    rewrite (abind_Ok _ _ _ _ _ E1). destruct (IH ((id, o, b1, b2) :: W) st1 v1 B1) as (st' & v' & E' & B').
    + eapply NoDup_Permutation_proper; [|exact (proj2 (NoDup_cons _ _) (conj Hk Hnd))]. rewrite !map_app. cbn [map fst snd]. symmetry. apply Permutation_middle.
    + intros. apply (Hl id0 o0). by right.
    + exists st', v'. split; [done|]. cbn [rev]. by rewrite <- (assoc_L (++)).
Qed.
Lemma each_terms ids B W : forall l T st v, (forall k, k ∈ B -> k <> "") -> built ids B W T st v -> NoDup (map (fun y => y.1.1) l) -> (forall y c b, y ∈ l -> (y.1.1, c, b) ∉ T) ->
  (forall y, y ∈ l -> nt_type y.1.1 <> BUSBAR_SECTION /\ exists c b, doc_term y y.1.1 c b /\ b ∈ B) ->
  exists st' v', bb_each import_term l st = (Ok tt, st') /\ built ids B W (rev (map doc_conn l) ++ T) st' v'.
Proof.
  induction l as [|y l IH]; intros T st v HB H Hnd Hnew Hl; cbn [bb_each].
  - by exists st, v.
  - cbn [map] in *. apply NoDup_cons in Hnd as [Hk Hnd]. destruct (Hl y ltac:(by left)) as (H1 & c & b & (_ & Hb & Hc) & Hin).
    assert (b <> "") as Hne by by apply HB.
    destruct (built_term _ _ _ _ _ _ y.1.1 c b H Hin H1) as (st1 & v1 & E1 & B1); [intros c' b'; apply Hnew; by left|].
    assert (import_term y st = (Ok tt, st1)) as E0.
    { unfold import_term. rewrite Hb. cbn [default]. destruct Hc as [[-> ->]|[-> ->]]; cbn [default from_option].
      - unfold connection_bus. rewrite bool_decide_eq_false_2 by done. rewrite (bool_decide_eq_true_2 (b = b)) by done. cbn [negb andb].
        rewrite (abind_Ok _ _ st b st eq_refl). done.
      - unfold connection_bus. rewrite bool_decide_eq_true_2 by done. rewrite (abind_Ok _ _ st b st eq_refl). done. }
    rewrite (abind_Ok _ _ _ _ _ E0). assert (doc_conn y = (y.1.1, c, b)) as Ed.
    { unfold doc_conn. rewrite Hb. destruct Hc as [[-> ->]|[-> ->]]; [by rewrite bool_decide_eq_true_2 by eauto|by rewrite bool_decide_eq_false_2 by (intros []; done)]. }
    destruct (IH ((y.1.1, c, b) :: T) st1 v1 HB B1 Hnd) as (st' & v' & E' & B').
    + intros y' c' b' Hy' K. apply elem_of_cons in K as [[= K _ _]|K]; [|by eapply Hnew; [right|]]. apply Hk. rewrite <- K. apply elem_of_list_fmap. eauto.
    + intros y' Hy'. apply Hl. by right.
    + exists st', v'. split; [done|]. cbn [rev]. rewrite Ed. by rewrite <- (assoc_L (++)).
Qed.

Lemma import_ok vl ids x : doc_ok ids x -> exists st v, bb_import x (bb_blank vl ids) = (Ok tt, st) /\
  built ids (x_buses x) (x_sws x) (map doc_conn (x_terms x)) st v.
Proof.
  intros [K1 K2 K3 K4 K5 K6]. unfold bb_import.
  destruct (each_buses ids (x_buses x) [] _ _ (built_blank vl ids) K1) as (st1 & v1 & E1 & B1).
  { intros k Hk. destruct (K2 k Hk). split; [done|]. split; [done|]. apply not_elem_of_nil. }
  rewrite (abind_Ok _ _ _ _ _ E1). rewrite app_nil_r in B1.
  destruct (each_switches ids _ (x_sws x) [] _ _ B1) as (st2 & v2 & E2 & B2).
  { by rewrite app_nil_r. }
  { intros id o b1 b2 K. rewrite !elem_of_list_In, <- !in_rev, <- !elem_of_list_In. by eapply K4. }
  rewrite (abind_Ok _ _ _ _ _ E2). rewrite app_nil_r in B2.
  assert (forall k, k ∈ rev (x_buses x) -> k <> "") as Hne.
  { intros k Hk. rewrite elem_of_list_In, <- in_rev, <- elem_of_list_In in Hk. by apply K2. }
  destruct (each_terms ids _ _ (x_terms x) [] _ _ Hne B2 K5) as (st3 & v3 & E3 & B3).
  { intros. apply not_elem_of_nil. }
  { intros y Hy. destruct (K6 y Hy) as (? & c & b & ? & ?). split; [done|]. exists c, b. rewrite elem_of_list_In, <- in_rev, <- elem_of_list_In. done. }
  rewrite app_nil_r in B3. exists st3, v3. split; [done|]. eapply built_perm; [..|exact B3]; intros; by rewrite elem_of_list_In, <- in_rev, <- elem_of_list_In.
Qed.
