(** C57: the nodes of each bus, and the terminal that stands for a node, of a node-breaker voltage level. *)
From stdpp Require Import gmap pretty.
From Verif Require Import Base Graph GraphSpec Equip NodeTopo NodeTopoSpec NodeTopoInv NodeTopoConn NodeTopoProps NodeGroups NodeGroupsSpec NodeGroupsProofs.

(** Networks::getEquivalentTerminal(n), after any history: a terminal nearest to [n] through closed switches and internal
    connections if there is one, none otherwise.  It changes no position and no topology. *)
Theorem C57_equivalent : forall st n i v,
  nb_reach any_safe st -> e_cur st = Some i -> e_vars st !! i = Some v -> is_Some (s_vertices (nbg st) !! n) ->
  exists r st', nb_equivalent n st = (Ok r, st') /\ nbg st' = nbg st /\ e_vars st' = e_vars st /\
    match r with Some m => nearest (nbg st) (nv_sw v) n m | None => ~ exists m, nearest (nbg st) (nv_sw v) n m end.
Proof.
  intros st n i v H Hc Hi Hn. apply reach_any in H. destruct (nb_equivalent_ok false n st i v H Hc Hi Hn) as (r & st' & E & _ & S & Ev & R).
  exists r, st'. split; [done|]. split; [by apply sbc_graph|]. done.
Qed.
Print Assumptions C57_equivalent.

(** There is none exactly when no other node of the electrical node has a terminal. *)
Theorem C57_equivalent_exists : forall st n i v,
  nb_reach any_safe st -> e_cur st = Some i -> e_vars st !! i = Some v -> is_Some (s_vertices (nbg st) !! n) ->
  (nb_equivalent n st).1 = Ok None <->
  forall m t, same_node BusView (nbg st) (nv_sw v) n m -> term_at (nbg st) m t -> m = n.
Proof.
  intros st n i v H Hc Hi Hn. apply reach_any in H. destruct (nb_equivalent_ok false n st i v H Hc Hi Hn) as (r & st' & E & _ & S & Ev & R).
  rewrite E. cbn [fst]. split.
  - intros [= ->] m t Hm Ht. destruct (decide (m = n)) as [|Hne]; [done|]. destruct R.
    apply (nearest_exists (nb_graph (e_sh st)) v n m); [done|done|by exists t].
  - intros HN. destruct r as [m|]; [|done]. exfalso. pose proof (nearest_same (nb_graph (e_sh st)) v _ _ R) as Hs. destruct R as (Hne & [t Ht] & _).
    apply Hne. by apply (HN m t).
Qed.
Print Assumptions C57_equivalent_exists.

(** Networks::getNodesByBus: for each bus of the bus view exactly the nodes of its electrical node, with or without equipment, under
    the id of the bus; nothing else.  Histories as for C31: switches change while no cache is held. *)
Theorem C57_nodes_by_bus_partial : forall st i v,
  nb_reach fresh_safe st -> e_cur st = Some i -> e_vars st !! i = Some v ->
  exists m st', nb_nodes_by_bus st = (Ok m, st') /\ nbg st' = nbg st /\ (forall id, pos st' id = pos st id) /\
    (forall k, is_Some (m !! k) <-> exists n, in_bus BusView (nbg st) (nv_sw v) n /\ bus_name BusView (nbg st) (nv_sw v) (nb_id (e_sh st)) n k) /\
    (forall k N n, m !! k = Some N ->
       n ∈ N <-> in_bus BusView (nbg st) (nv_sw v) n /\ bus_name BusView (nbg st) (nv_sw v) (nb_id (e_sh st)) n k).
Proof.
  intros st i v H Hc Hi. apply reach_fresh in H. destruct (nodes_by_bus_ok st i v H Hc Hi) as (m & st' & E & S & Hne & R).
  exists m, st'. split; [done|]. split; [by apply sbc_graph|]. split; [intros id; by apply sbc_pos|]. split.
  - intros k. split.
    + intros [N HN]. destruct (set_choose_L N (Hne k N HN)) as [n Hn]. exists n. apply (R k n). by exists N.
    + intros (n & Hn1 & Hn2). destruct (proj2 (R k n) (conj Hn1 Hn2)) as (N & HN & _). eauto.
  - intros k N n HN. split.
    + intros Hn. apply (R k n). by exists N.
    + intros Hn. destruct (proj2 (R k n) Hn) as (N' & HN' & Hin). by simplify_eq.
Qed.
Print Assumptions C57_nodes_by_bus_partial.

(** Two nodes are listed together iff they are electrically the same node. *)
Theorem C57_together_partial : forall st i v k k' N N' n n' m st',
  nb_reach fresh_safe st -> e_cur st = Some i -> e_vars st !! i = Some v -> nb_nodes_by_bus st = (Ok m, st') ->
  m !! k = Some N -> m !! k' = Some N' -> n ∈ N -> n' ∈ N' -> k = k' <-> same_node BusView (nbg st) (nv_sw v) n n'.
Proof.
  intros st i v k k' N N' n n' m st' H Hc Hi E HN HN' Hn Hn'.
  destruct (C57_nodes_by_bus_partial st i v H Hc Hi) as (m1 & st1 & E1 & _ & _ & _ & R). rewrite E in E1. injection E1 as <- <-.
  apply (R k N n HN) in Hn as [_ Hn]. apply (R k' N' n' HN') in Hn' as [_ Hn']. split.
  - intros <-. by eapply NodeTopoProofs.bus_name_inj.
  - intros Hs. eapply NodeTopoProofs.bus_name_fun; [|exact Hn']. by eapply NodeTopoProofs.bus_name_same.
Qed.
Print Assumptions C57_together_partial.

(** A busbar section (node 0), a load (node 1) behind two closed breakers with a node without equipment in between (node 3), a node
    without equipment behind an open breaker (node 4), an isolated internal connection (nodes 5 and 6). *)
Definition ops57 : list (eop nbop) :=
  [ECall (NAttach 0 (sec "S")); ECall (NAttach 1 (load "D"));
   ECall (NAddSwitch "B1" BREAKER (false, false) 0 3); ECall (NAddSwitch "B2" BREAKER (false, true) 3 1);
   ECall (NAddSwitch "B3" BREAKER (true, false) 0 4); ECall (NAddInternal 5 6)].
Definition nb57 : nbst := nb_run nb0 ops57.
Example C57_case : nb_reach fresh_safe nb57 /\ e_cur nb57 = Some initial_variant /\
  (nb_equivalent 3 nb57).1 = Ok (Some 1) /\ (nb_equivalent 0 nb57).1 = Ok (Some 1) /\ (nb_equivalent 4 nb57).1 = Ok None /\ (nb_equivalent 5 nb57).1 = Ok None /\
  match (nb_nodes_by_bus nb57).1 with Ok m => elements <$> m !! "VL_0" = Some [0; 1; 3] /\ size m = 1 | _ => False end.
Proof.
  split.
  { apply fresh_run; [apply nb_new_reach|]. split; [left; vm_compute; eauto|]. split; [left; vm_compute; eauto|].
    split; [apply no_caches_dec; vm_compute; reflexivity|]. split; [apply no_caches_dec; vm_compute; reflexivity|].
    split; [apply no_caches_dec; vm_compute; reflexivity|]. split; [|done]. intros i v Hv _. revert i v Hv. apply no_caches_dec. vm_compute. reflexivity. }
  split; [reflexivity|]. do 4 (split; [vm_compute; reflexivity|]). vm_compute. done.
Qed.

Definition lists (k : string) (n : nat) (r : result (gmap string (gset nat))) : bool :=
  match r with Ok m => match m !! k with Some N => bool_decide (n ∈ N) | None => false end | _ => false end.
Lemma lists_ok k n r : lists k n r = true -> exists m N, r = Ok m /\ m !! k = Some N /\ n ∈ N.
Proof.
  unfold lists. destruct r as [m| | |]; try discriminate. destruct (m !! k) as [N|] eqn:EN; [|discriminate].
  intros HB. apply bool_decide_eq_true in HB. eauto.
Qed.
Lemma pair_eq_1 {A B} (p : A * B) a : p.1 = a -> p = (a, p.2).
Proof. destruct p as [x y]. intros H. cbn in H. rewrite H. reflexivity. Qed.
Lemma lists_nb2 : lists "VL_0" 1 (nb_nodes_by_bus nb2).1 = true.
Proof. vm_compute. reflexivity. Qed.
Lemma nb2_edges : ~ on_edge (nbg nb2) 1.
Proof.
  intros (e & b & ob & Hj). unfold sjoins in Hj.
  assert (map_Forall (fun _ x => x.1.1 <> 1 /\ x.1.2 <> 1) (s_edges (nbg nb2))) as HF.
  { apply (bool_decide_unpack _). vm_compute. exact I. }
  destruct Hj as [Hj|Hj]; apply (HF e) in Hj; cbn [fst snd] in Hj; destruct Hj as [H1 H2]; [exact (H1 eq_refl)|exact (H2 eq_refl)].
Qed.
Lemma nb2_vertex : is_Some (s_vertices (nbg nb2) !! 1).
Proof. vm_compute. eauto. Qed.
Lemma nb2_reach : nb_reach any_safe nb2.
Proof. apply nb_run_reach; [safe_ops|apply nb1_reach]. Qed.
Lemma nb2_cur : e_cur nb2 = Some initial_variant.
Proof. reflexivity. Qed.
Lemma nb2_var : is_Some (e_vars nb2 !! initial_variant).
Proof. vm_compute. eauto. Qed.

(** Without the condition on the history the answer may be stale: the load is listed on the bus it has been cut from. *)
Theorem C57_stale_refuted : exists st i v m st' N n,
  nb_reach any_safe st /\ e_cur st = Some i /\ e_vars st !! i = Some v /\ nb_nodes_by_bus st = (Ok m, st') /\
  m !! "VL_0" = Some N /\ n ∈ N /\ is_Some (s_vertices (nbg st) !! n) /\ ~ on_edge (nbg st) n.
Proof.
  destruct nb2_var as [v Ev]. destruct (lists_ok _ _ _ lists_nb2) as (m & N & Em & HN & Hn).
  exists nb2, initial_variant, v, m, (nb_nodes_by_bus nb2).2, N, 1.
  exact (conj nb2_reach (conj nb2_cur (conj Ev (conj (pair_eq_1 _ _ Em) (conj HN (conj Hn (conj nb2_vertex nb2_edges))))))).
Qed.
Print Assumptions C57_stale_refuted.
