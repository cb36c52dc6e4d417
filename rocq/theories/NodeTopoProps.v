(** C30, C31, C32: calculated buses, their caches, connect and disconnect of node-breaker voltage levels. *)
From stdpp Require Import gmap pretty sorting.
From Verif Require Import Base Graph GraphSpec Equip NodeTopo NodeTopoSpec NodeTopoProofs NodeTopoInv NodeTopoConn.

(** ** C30: calculated buses are the electrical nodes *)
(** In the states reached by any history, a view asked about a live node while it holds no cache answers the bus of the electrical
    node ([answers_right]: the group of the node, if valid, its terminals, its name; nothing otherwise) and changes nothing else. *)
Theorem C30_bus_of_node : forall vw st n,
  nb_reach any_safe st -> is_Some (e_cur st) -> is_Some (s_vertices (nbg st) !! n) ->
  (forall i v, e_cur st = Some i -> e_vars st !! i = Some v -> nv_cache vw v = None) ->
  exists ob st', nb_bus_of_node vw n st = (Ok ob, st') /\ answers_right vw st n ob /\
    nbg st' = nbg st /\ e_cur st' = e_cur st /\ forall id, pos st' id = pos st id.
Proof.
  intros vw st n H Hc Hn Hno. apply reach_any in H. destruct (right_answer vw n st) as (ob & st' & E & S & R); [by right|done|done|].
  exists ob, st'. split; [done|]. split; [done|]. split; [by apply sbc_graph|]. split; [by apply sbc_cur|]. intros id. by apply sbc_pos.
Qed.
Print Assumptions C30_bus_of_node.

(** getBuses: exactly the buses of the valid groups, one per group. *)
Theorem C30_buses : forall vw st i v,
  nb_reach fresh_safe st -> e_cur st = Some i -> e_vars st !! i = Some v ->
  exists m st', nb_buses vw st = (Ok m, st') /\
    (forall k b, m !! k = Some b -> cb_id b = k /\
       exists n, in_bus vw (nbg st) (nv_sw v) n /\ bus_of vw (nbg st) (nv_sw v) (nb_id (e_sh st)) n b) /\
    (forall n, in_bus vw (nbg st) (nv_sw v) n -> exists k b, m !! k = Some b /\ bus_of vw (nbg st) (nv_sw v) (nb_id (e_sh st)) n b).
Proof.
  intros vw st i v H Hc Hi. apply reach_fresh in H. destruct (buses_answer vw st i v H Hc Hi) as (m & st' & E & _ & H1 & H2). eauto 10.
Qed.
Print Assumptions C30_buses.

(** Two nodes have the same bus iff they are the same electrical node. *)
Theorem C30_same_bus : forall vw st n n' b b' st1 st2,
  nb_reach fresh_safe st -> is_Some (s_vertices (nbg st) !! n) -> is_Some (s_vertices (nbg st) !! n') ->
  nb_bus_of_node vw n st = (Ok (Some b), st1) -> nb_bus_of_node vw n' st1 = (Ok (Some b'), st2) ->
  cb_id b = cb_id b' <-> linked vw st n n'.
Proof.
  intros vw st n n' b b' st1 st2 H Hn Hn' E1 E2. pose proof (reach_fresh _ H) as I.
  assert (nb_reach fresh_safe (nb_step st (ECall (NQueryNode vw n))).2) as H' by (by apply nr_step).
  assert ((nb_step st (ECall (NQueryNode vw n))).2 = st1) as Es.
  { cbn [nb_step estep nb_call]. unfold amap. by rewrite (abind_Ok _ _ _ _ _ E1). }
  rewrite Es in H'. pose proof (reach_fresh _ H') as I'.
  assert (is_Some (e_cur st)) as Hc.
  { destruct (e_cur st) eqn:Ec; [eauto|]. destruct (nb_update_eq vw st true I) as [(_ & m & Em)|(? & ? & ? & _)]; [|congruence].
    exfalso. unfold nb_bus_of_node, nb_cache in E1. rewrite (abind_Throw _ _ _ _ _ (abind_Throw _ _ _ _ _ Em)) in E1. done. }
  destruct (right_answer vw n st (or_introl I) Hc Hn) as (ob & x & F1 & S1 & R1). rewrite E1 in F1. injection F1 as <- <-.
  destruct (right_answer vw n' st1 (or_introl I')) as (ob & x & F2 & S2 & R2).
  { by rewrite (sbc_cur _ _ S1). } { by rewrite (proj1 (sbc_graph _ _ S1)). }
  rewrite E2 in F2. injection F2 as <- <-.
  destruct R1 as (i & v & Hci & Hi & _ & B1 & _), R2 as (i' & v' & Hci' & Hi' & _ & B2 & _).
  rewrite (sbc_cur _ _ S1) in Hci'. assert (i' = i) as -> by congruence.
  destruct (sbc_cur_var _ _ i v S1 Hi) as (w & Hw & Hsw). assert (w = v') as -> by congruence.
  destruct (sbc_graph _ _ S1) as [HG _]. rewrite HG, Hsw in B2.
  assert (nb_id (e_sh st1) = nb_id (e_sh st)) as Eid by apply S1. rewrite Eid in B2. split.
  - intros E. exists i, v. split; [done|]. split; [done|]. eapply bus_name_inj; [exact B1|]. by rewrite E.
  - intros (i' & v'' & Hci'' & Hi'' & HL). assert (i' = i) as -> by congruence. assert (v'' = v) as -> by congruence.
    eapply bus_name_fun; [|exact B2]. by eapply bus_name_same.
Qed.
Print Assumptions C30_same_bus.

(** Every terminal of the electrical node is a terminal of the bus, and the bus has no other terminal. *)
Theorem C30_terminals : forall vw s sw vl n b t,
  bus_of vw s sw vl n b -> t ∈ cb_terms b <-> exists m, same_node vw s sw n m /\ term_at s m t.
Proof.
  intros vw s sw vl n b t (_ & l & _ & Hl & ->). rewrite elem_of_list_omap. unfold term_at. split.
  - intros (m & Hm & E). exists m. split; [by apply Hl|]. by destruct (s_vertices s !! m) as [[?|]|]; simpl in E; simplify_eq.
  - intros (m & Hm & E). exists m. split; [by apply Hl|]. by rewrite E.
Qed.
Print Assumptions C30_terminals.

(** ** C31: bus views reflect the current topology *)
(** The full statement is C30_bus_of_node without the hypothesis on the cache.  It holds for the histories of [fresh_safe]: switches
    are added and removed while no variant holds a cache, internal connections while no other variant than the working one does,
    terminals are attached with a working variant set. *)
Theorem C31_fresh_partial : forall vw st n,
  nb_reach fresh_safe st -> is_Some (e_cur st) -> is_Some (s_vertices (nbg st) !! n) ->
  exists ob st', nb_bus_of_node vw n st = (Ok ob, st') /\ answers_right vw st n ob.
Proof.
  intros vw st n H Hc Hn. apply reach_fresh in H. destruct (right_answer vw n st (or_introl H) Hc Hn) as (ob & st' & E & _ & R). eauto.
Qed.
Print Assumptions C31_fresh_partial.

(** No call has undefined behaviour, whatever the history. *)
Theorem C31_memory_safe : forall st o, nb_reach any_safe st -> any_safe st o ->
  (nb_step st o).1 <> UB /\ (nb_step st o).1 <> OutOfFuel.
Proof. intros st o H Ho. apply reach_any in H. by apply (nb_step_inv false o st). Qed.
Print Assumptions C31_memory_safe.

(** Concrete voltage levels. *)
Definition shorter (p q : list nat) : Prop := length p <= length q.
#[global] Instance shorter_dec p q : Decision (shorter p q).
Proof. unfold shorter. apply _. Defined.
Definition srt0 : list (list nat) -> list (list nat) := merge_sort shorter.
Lemma srt0_sorts : sorts srt0.
Proof.
  intros l. split; [symmetry; apply merge_sort_Permutation|]. unfold sorted_by_length, srt0. apply Sorted_StronglySorted.
  - intros a b c. lia.
  - apply Sorted_merge_sort. intros a b. lia.
Qed.
Fixpoint nb_run (st : nbst) (ops : list (eop nbop)) : nbst := match ops with [] => st | o :: l => nb_run (nb_step st o).2 l end.
Lemma nb_run_reach ops st : Forall (fun o => forall st, any_safe st o) ops -> nb_reach any_safe st -> nb_reach any_safe (nb_run st ops).
Proof. intros F. revert st. induction F as [|o ops Ho F IH]; intros st H; [done|]. simpl. apply IH. by apply nr_step. Qed.
Lemma nb_new_reach safe : nb_reach safe (nb_new "VL" {["VL"]} {[initial_variant]} (Some initial_variant)).
Proof. apply nr_new; [set_solver|]. intros i [= <-]. set_solver. Qed.
Definition nb0 : nbst := nb_new "VL" {["VL"]} {[initial_variant]} (Some initial_variant).
Definition sec (id : string) : nterm := mkNT id 0 BUSBAR_SECTION.
Definition load (id : string) : nterm := mkNT id 0 LOAD.
Definition line (id : string) : nterm := mkNT id 0 LINE.
Ltac safe_ops := repeat constructor; try apply srt0_sorts.

(** A busbar section (node 0), a closed breaker to a load (node 1), an open one to a line (node 2). *)
Definition ops1 : list (eop nbop) :=
  [ECall (NAttach 0 (sec "S")); ECall (NAttach 1 (load "D")); ECall (NAttach 2 (line "L"));
   ECall (NAddSwitch "B1" BREAKER (false, false) 0 1); ECall (NAddSwitch "B2" BREAKER (true, false) 0 2)].
Definition nb1 : nbst := nb_run nb0 ops1.
Lemma nb1_reach : nb_reach any_safe nb1.
Proof. apply nb_run_reach; [safe_ops|apply nb_new_reach]. Qed.
Example C30_case : nb_reach any_safe nb1 /\ is_Some (e_cur nb1) /\ is_Some (s_vertices (nbg nb1) !! 0) /\
  (nb_bus_of_node BusView 0 nb1).1 = Ok (Some (mkCB "VL_0" [sec "S"; load "D"])) /\
  (nb_bus_of_node BusView 1 nb1).1 = Ok (Some (mkCB "VL_0" [sec "S"; load "D"])) /\
  (nb_bus_of_node BusView 2 nb1).1 = Ok None /\
  (nb_bus_of_node BusBreakerView 2 nb1).1 = Ok (Some (mkCB "VL_2" [line "L"])).
Proof. split; [apply nb1_reach|]. split; [by exists initial_variant|]. split; [vm_compute; eauto|]. vm_compute. done. Qed.

Lemma fresh_run st ops : nb_reach fresh_safe st -> (fix go st ops := match ops with [] => True | o :: l => fresh_safe st o /\ go (nb_step st o).2 l end) st ops ->
  nb_reach fresh_safe (nb_run st ops).
Proof.
  revert st. induction ops as [|o ops IH]; intros st H HS; [done|]. destruct HS as [H1 H2]. simpl. apply IH; [by apply nr_step|done].
Qed.
Lemma no_caches_dec st : bool_decide (map_Forall (fun _ v => nv_bus v = None /\ nv_bb v = None) (e_vars st)) = true -> no_caches st.
Proof. intros H%bool_decide_eq_true i v Hv. exact (H i v Hv). Qed.
(** The same voltage level is reached safely: the switches come before the queries; then a switch is operated. *)
Definition nb1q : nbst := nb_run nb1 [ECall (NQueryNode BusView 0); ECall (NSetOpen "B2" false)].
Example C31_case : nb_reach fresh_safe nb1 /\ nb_reach fresh_safe nb1q /\
  (nb_bus_of_node BusView 2 nb1q).1 = Ok (Some (mkCB "VL_0" [sec "S"; load "D"; line "L"])).
Proof.
  assert (nb_reach fresh_safe nb1) as H.
  { apply fresh_run; [apply nb_new_reach|]. split; [left; vm_compute; eauto|]. split; [left; vm_compute; eauto|]. split; [left; vm_compute; eauto|].
    split; [apply no_caches_dec; vm_compute; reflexivity|]. split; [apply no_caches_dec; vm_compute; reflexivity|]. done. }
  split; [done|]. split.
  - apply fresh_run; [done|]. done.
  - vm_compute. done.
Qed.

(** Removing a switch leaves the caches: the load is still on the bus. *)
Definition nb2 : nbst := nb_run nb1 [ECall (NQueryNode BusView 0); ECall (NRemoveSwitch "B1")].
Theorem C31_remove_switch_refuted : exists st n b,
  nb_reach any_safe st /\ is_Some (e_cur st) /\ is_Some (s_vertices (nbg st) !! n) /\
  (nb_bus_of_node BusView n st).1 = Ok (Some b) /\ ~ answers_right BusView st n (Some b).
Proof.
  assert (nb_reach any_safe nb2) as H by (apply nb_run_reach; [safe_ops|apply nb1_reach]).
  exists nb2, 1, (mkCB "VL_0" [sec "S"; load "D"]). split; [done|]. split; [by exists initial_variant|].
  assert (is_Some (s_vertices (nbg nb2) !! 1)) as Hn by (vm_compute; eauto). split; [done|]. split; [vm_compute; reflexivity|].
  apply stale_answer; [by apply reach_any|by exists initial_variant|done|]. vm_compute. by intros ob' [= <-].
Qed.
Print Assumptions C31_remove_switch_refuted.

(** Adding a switch leaves the caches too: a bus is missing, and the view throws out_of_range for a node created by the switch. *)
Definition nb3 : nbst := nb_run nb1 [ECall (NQueryNode BusView 0); ECall (NAddSwitch "B3" BREAKER (false, false) 2 1)].
Definition nb4 : nbst := nb_run nb1 [ECall (NQueryNode BusView 0); ECall (NAddSwitch "B3" BREAKER (false, false) 0 7)].
Theorem C31_add_switch_refuted :
  (exists st n, nb_reach any_safe st /\ is_Some (e_cur st) /\ is_Some (s_vertices (nbg st) !! n) /\
     (nb_bus_of_node BusView n st).1 = Ok None /\ ~ answers_right BusView st n None) /\
  (exists st n m, nb_reach any_safe st /\ is_Some (e_cur st) /\ is_Some (s_vertices (nbg st) !! n) /\
     (nb_bus_of_node BusView n st).1 = Throw m).
Proof.
  split.
  - assert (nb_reach any_safe nb3) as H by (apply nb_run_reach; [safe_ops|apply nb1_reach]).
    exists nb3, 2. split; [done|]. split; [by exists initial_variant|].
    assert (is_Some (s_vertices (nbg nb3) !! 2)) as Hn by (vm_compute; eauto). split; [done|]. split; [vm_compute; reflexivity|].
    apply stale_answer; [by apply reach_any|by exists initial_variant|done|]. vm_compute. by intros ob' [= <-].
  - exists nb4, 7, "out_of_range". split; [apply nb_run_reach; [safe_ops|apply nb1_reach]|]. split; [by exists initial_variant|].
    split; [vm_compute; eauto|]. vm_compute. done.
Qed.
Print Assumptions C31_add_switch_refuted.

(** Internal connections are not per variant, but only the caches of the working variant are dropped. *)
Definition nb5 : nbst := nb_run nb1
  [ECall (NQueryNode BusView 0); EClone initial_variant "V2" false; EWork "V2"; ECall (NAddInternal 0 2); EWork initial_variant].
Theorem C31_internal_connection_refuted : exists st n,
  nb_reach any_safe st /\ is_Some (e_cur st) /\ is_Some (s_vertices (nbg st) !! n) /\
  (nb_bus_of_node BusView n st).1 = Ok None /\ ~ answers_right BusView st n None.
Proof.
  assert (nb_reach any_safe nb5) as H by (apply nb_run_reach; [safe_ops|apply nb1_reach]).
  exists nb5, 2. split; [done|]. split; [by exists initial_variant|].
  assert (is_Some (s_vertices (nbg nb5) !! 2)) as Hn by (vm_compute; eauto). split; [done|]. split; [vm_compute; reflexivity|].
  apply stale_answer; [by apply reach_any|by exists initial_variant|done|]. vm_compute. by intros ob' [= <-].
Qed.
Print Assumptions C31_internal_connection_refuted.

(** Without a working variant, attaching an equipment throws but leaves it attached, and the caches of all the variants stale. *)
Definition nb6 : nbst := nb_run nb1
  [ECall (NQueryNode BusView 0); EClone initial_variant "V2" false; EWork "V2"; ERemove "V2"].
Theorem C31_attach_unset_refuted : exists st n t m i n' b,
  nb_reach any_safe st /\ (nb_step st (ECall (NAttach n t))).1 = Throw m /\
  ~ term_at (nbg st) n t /\ term_at (nbg (nb_step st (ECall (NAttach n t))).2) n t /\
  let st' := (nb_step (nb_step st (ECall (NAttach n t))).2 (EWork i)).2 in
  (nb_bus_of_node BusBreakerView n' st').1 = Throw b.
Proof.
  exists (nb_run nb6 [EWork initial_variant; ECall (NQueryNode BusBreakerView 0); EClone initial_variant "V2" false; EWork "V2"; ERemove "V2"]),
    5, (load "D5"), "Variant index not set", initial_variant, 5, "out_of_range".
  split; [apply nb_run_reach; [safe_ops|]; apply nb_run_reach; [safe_ops|apply nb1_reach]|].
  split; [vm_compute; done|]. split; [vm_compute; done|]. split; [vm_compute; done|]. vm_compute. done.
Qed.
Print Assumptions C31_attach_unset_refuted.

(** ** C32: connect and disconnect *)
(** Both operate breakers only: connect closes, disconnect opens, the other switches and the other variants do not move; when
    connect does not answer true, nothing moves. *)
Theorem C32_only_breakers : forall srt st n, sorts srt -> nb_reach any_safe st -> is_Some (s_vertices (nbg st) !! n) ->
  let c := nb_connect srt n st in let d := nb_disconnect srt n st in
  (forall id, changed st c.2 id -> nb_kind (e_sh st) !! id = Some BREAKER /\ exists r, pos st id = Some (true, r) /\ pos c.2 id = Some (false, r)) /\
  (forall id, changed st d.2 id -> nb_kind (e_sh st) !! id = Some BREAKER /\ exists r, pos st id = Some (false, r) /\ pos d.2 id = Some (true, r)) /\
  (c.1 = Ok true <-> exists id, changed st c.2 id) /\
  (forall j, e_cur st <> Some j -> e_vars c.2 !! j = e_vars st !! j /\ e_vars d.2 !! j = e_vars st !! j) /\
  nbg c.2 = nbg st /\ nbg d.2 = nbg st.
Proof.
  intros srt st n Hs H Hn c d. apply reach_any in H.
  destruct (nb_connect_ok false srt n st Hs H Hn) as (r & st1 & E1 & _ & M1 & _ & _ & N1 & T1).
  destruct (nb_disconnect_ok false srt n st Hs H Hn) as (r' & st2 & E2 & _ & M2 & _).
  unfold c, d. rewrite E1, E2. cbn [fst snd].
  assert (forall x st', moved x st st' -> forall id, changed st st' id -> nb_kind (e_sh st) !! id = Some BREAKER /\ exists r, pos st id = Some (negb x, r) /\ pos st' id = Some (x, r)) as HM.
  { intros x st' M id Hch. destruct (moved_pos _ _ _ id M) as [?|(r0 & ? & ? & ?)]; [done|]. eauto. }
  assert (forall x st', moved x st st' -> forall j, e_cur st <> Some j -> e_vars st' !! j = e_vars st !! j) as HO.
  { intros x st' (_ & _ & HH) j Hj. destruct (HH j) as [(v & v' & E3 & E4 & E5 & _)|[E3 E4]]; [|congruence]. rewrite E3, E4, E5; congruence. }
  split; [exact (HM false st1 M1)|]. split; [exact (HM true st2 M2)|]. split.
  { split; [intros Hr; by apply T1|]. intros [id Hch]. destruct r as [[]|m| |]; [done| | | |]; exfalso; by eapply N1. }
  split; [intros j Hj; split; by eapply HO|]. split; by eapply moved_graph.
Qed.
Print Assumptions C32_only_breakers.

(** connect follows a shortest route to a busbar section and closes exactly the open breakers on it. *)
Theorem C32_connect_route : forall srt st n st', sorts srt -> nb_reach any_safe st -> is_Some (s_vertices (nbg st) !! n) ->
  nb_connect srt n st = (Ok true, st') ->
  exists p, route st n p /\ (forall q, route st n q -> length p <= length q) /\
    forall id, changed st st' id <-> exists e r, e ∈ p /\ breaker_edge st e id /\ pos st id = Some (true, r).
Proof.
  intros srt st n st' Hs H Hn E. apply reach_any in H.
  destruct (nb_connect_ok false srt n st Hs H Hn) as (r & st1 & E1 & _ & M1 & _ & _ & _ & T1). rewrite E in E1. injection E1 as <- <-.
  destruct (T1 eq_refl) as (_ & p & Hp & Hmin & Hch & Hcl). exists p. split; [done|]. split; [done|]. intros id. split.
  - intros Hc. destruct (Hch id Hc) as (e & He & Hb). destruct (moved_pos _ _ _ id M1) as [?|(r0 & _ & ? & _)]; [done|]. eauto.
  - intros (e & r & He & Hb & Hpos) Heq. destruct (Hcl e id He Hb) as [r' Hr']. congruence.
Qed.
Print Assumptions C32_connect_route.

(** The full statement: after connect answered true the terminal is linked to a busbar section by closed switches.  It holds if no
    load break switch is open. *)
Theorem C32_connect_partial : forall srt st n st', sorts srt -> nb_reach any_safe st -> is_Some (s_vertices (nbg st) !! n) ->
  (forall id, nb_kind (e_sh st) !! id = Some LOAD_BREAK_SWITCH -> exists r, pos st id = Some (false, r)) ->
  nb_connect srt n st = (Ok true, st') -> exists w, section_at st' w /\ w <> n /\ linked BusView st' n w.
Proof. intros srt st n st' Hs H Hn Hl E. apply reach_any in H. by eapply connect_links. Qed.
Print Assumptions C32_connect_partial.
(** Then isConnected answers true. *)
Theorem C32_connect_connected_partial : forall srt st n t st', sorts srt -> nb_reach fresh_safe st -> term_at (nbg st) n t -> is_feeder t ->
  (forall id, nb_kind (e_sh st) !! id = Some LOAD_BREAK_SWITCH -> exists r, pos st id = Some (false, r)) ->
  nb_connect srt n st = (Ok true, st') -> exists st'', nb_is_connected n st' = (Ok true, st'').
Proof.
  intros srt st n t st' Hs H Ht Hf Hl E. apply reach_fresh in H.
  assert (is_Some (s_vertices (nbg st) !! n)) as Hn by (unfold term_at in Ht; rewrite Ht; eauto).
  destruct (connect_links true srt n st st' Hs H Hn Hl E) as (I' & w & Hw & Hne & HL).
  destruct (nb_connect_ok true srt n st Hs H Hn) as (r & st1 & E1 & _ & M1 & _). rewrite E in E1. injection E1 as <- <-.
  eapply linked_connected; [done| |done|done|done|done]. destruct (moved_graph _ _ _ M1) as [-> _]. done.
Qed.
Print Assumptions C32_connect_connected_partial.

(** disconnect answering true leaves the terminal linked to no (other) busbar section. *)
Theorem C32_disconnect : forall srt st n st', sorts srt -> nb_reach any_safe st -> is_Some (s_vertices (nbg st) !! n) ->
  nb_disconnect srt n st = (Ok true, st') -> forall w, section_at st' w -> w <> n -> ~ linked BusView st' n w.
Proof. intros srt st n st' Hs H Hn E. apply reach_any in H. by eapply disconnect_unlinks. Qed.
Print Assumptions C32_disconnect.

(** In [nb1] the line is connected by closing B2; the load is disconnected by opening B1. *)
Example C32_case : (nb_connect srt0 2 nb1).1 = Ok true /\ pos (nb_connect srt0 2 nb1).2 "B2" = Some (false, false) /\
  (nb_is_connected 2 (nb_connect srt0 2 nb1).2).1 = Ok true /\
  (nb_disconnect srt0 1 nb1).1 = Ok true /\ pos (nb_disconnect srt0 1 nb1).2 "B1" = Some (true, false) /\
  (nb_is_connected 1 (nb_disconnect srt0 1 nb1).2).1 = Ok false /\
  map_Forall (fun _ k => k <> LOAD_BREAK_SWITCH) (nb_kind (e_sh nb1)).
Proof.
  do 6 (split; [vm_compute; reflexivity|]). apply (bool_decide_unpack _). vm_compute. exact I.
Qed.

(** An open load break switch on the route: connect answers true, the terminal is not connected. *)
Definition nb7 : nbst := nb_run nb0
  [ECall (NAttach 0 (sec "S")); ECall (NAttach 2 (load "D"));
   ECall (NAddSwitch "B" BREAKER (true, false) 0 1); ECall (NAddSwitch "LB" LOAD_BREAK_SWITCH (true, false) 1 2)].
Lemma connect_isolated st n t st' i :
  nb_reach any_safe st -> term_at (nbg st) n t -> is_feeder t -> nb_connect srt0 n st = (Ok true, st') -> e_cur st' = Some i ->
  nv_bus <$> e_vars st' !! i = Some None -> (nb_bus_of_node BusView n st').1 = Ok None -> forall w, section_at st' w -> ~ linked BusView st' n w.
Proof.
  intros H Ht Hf E Hcur Hnc HN w (tw & Hw & Hsec) HL.
  assert (is_Some (s_vertices (nbg st) !! n)) as Hn by (unfold term_at in Ht; rewrite Ht; eauto).
  destruct (nb_connect_ok false srt0 n st srt0_sorts (reach_any _ H) Hn) as (r & st1 & E1 & I1 & M1 & _). rewrite E in E1. injection E1 as <- <-.
  destruct (moved_graph _ _ _ M1) as [HG _].
  assert (answers_right BusView st' n None) as (j & v & Hc & Hi & Hno).
  { destruct (right_answer BusView n st') as (ob & st'' & E2 & _ & R).
    - right. split; [done|]. intros j v Hj Hv. assert (j = i) as -> by congruence. rewrite Hv in Hnc. by injection Hnc.
    - by exists i.
    - by rewrite HG.
    - rewrite E2 in HN. injection HN as ->. done. }
  apply Hno. destruct HL as (i' & v' & Hc' & Hi' & HL). assert (i' = j) as -> by congruence. assert (v' = v) as -> by congruence. split.
  - destruct HL as [|x y z Hxy _]; [|exact (proj1 (link_on_edge _ _ _ _ _ Hxy))].
    rewrite HG in Hw. unfold term_at in Ht, Hw. assert (tw = t) as -> by congruence. done.
  - left. exists w, n, tw, t. split; [done|]. split; [apply rtc_refl|]. split; [done|]. split; [by rewrite HG|done].
Qed.
Theorem C32_connect_refuted : exists srt st n t st',
  sorts srt /\ nb_reach any_safe st /\ term_at (nbg st) n t /\ is_feeder t /\
  nb_connect srt n st = (Ok true, st') /\ (forall w, section_at st' w -> ~ linked BusView st' n w) /\
  (nb_is_connected n st').1 = Ok false.
Proof.
  exists srt0, nb7, 2, (load "D"). destruct (nb_connect srt0 2 nb7) as [r st'] eqn:E. exists st'.
  assert (r = (nb_connect srt0 2 nb7).1) as Er by (by rewrite E). assert (st' = (nb_connect srt0 2 nb7).2) as Es by (by rewrite E).
  assert (r = Ok true) as -> by (rewrite Er; vm_compute; reflexivity).
  assert (e_cur st' = Some initial_variant) as Hc by (rewrite Es; vm_compute; reflexivity).
  assert (nv_bus <$> e_vars st' !! initial_variant = Some None) as Hv by (rewrite Es; vm_compute; reflexivity).
  assert ((nb_bus_of_node BusView 2 st').1 = Ok None) as HN by (rewrite Es; vm_compute; reflexivity).
  assert ((nb_is_connected 2 st').1 = Ok false) as HI by (rewrite Es; vm_compute; reflexivity).
  assert (nb_reach any_safe nb7) as H by (apply nb_run_reach; [safe_ops|apply nb_new_reach]).
  assert (term_at (nbg nb7) 2 (load "D")) as Ht by (vm_compute; done).
  clear Er Es. split; [apply srt0_sorts|]. split; [exact H|]. split; [exact Ht|]. split; [done|]. split; [reflexivity|]. split; [|exact HI].
  refine (connect_isolated nb7 2 (load "D") st' initial_variant H Ht _ E Hc Hv HN). done.
Qed.
Print Assumptions C32_connect_refuted.

(** disconnect answers true and isConnected still answers true: two lines joined away from the busbar section. *)
Definition nb8 : nbst := nb_run nb0
  [ECall (NAttach 0 (sec "S")); ECall (NAttach 2 (line "L1")); ECall (NAttach 3 (line "L2"));
   ECall (NAddSwitch "B" BREAKER (false, false) 0 1); ECall (NAddInternal 1 2); ECall (NAddInternal 1 3)].
Theorem C32_disconnect_connected_refuted : exists srt st n,
  sorts srt /\ nb_reach any_safe st /\ (nb_disconnect srt n st).1 = Ok true /\ (nb_is_connected n (nb_disconnect srt n st).2).1 = Ok true.
Proof.
  exists srt0, nb8, 2. split; [apply srt0_sorts|]. split; [apply nb_run_reach; [safe_ops|apply nb_new_reach]|]. vm_compute. done.
Qed.
Print Assumptions C32_disconnect_connected_refuted.

(** disconnect answers false after having opened a breaker: the second route has no breaker. *)
Definition nb9 : nbst := nb_run nb0
  [ECall (NAttach 0 (sec "S1")); ECall (NAttach 1 (sec "S2")); ECall (NAttach 2 (load "D")); ECall (NAttach 4 (load "D2"));
   ECall (NAddSwitch "B" BREAKER (false, false) 0 2); ECall (NAddSwitch "DA" DISCONNECTOR (false, false) 1 3);
   ECall (NAddSwitch "DB" DISCONNECTOR (false, false) 3 2)].
Theorem C32_disconnect_false_refuted : exists srt st n id,
  sorts srt /\ nb_reach any_safe st /\ (nb_disconnect srt n st).1 = Ok false /\ changed st (nb_disconnect srt n st).2 id.
Proof.
  exists srt0, nb9, 2, "B". split; [apply srt0_sorts|]. split; [apply nb_run_reach; [safe_ops|apply nb_new_reach]|].
  split; [vm_compute; reflexivity|]. unfold changed. vm_compute. done.
Qed.
Print Assumptions C32_disconnect_false_refuted.
