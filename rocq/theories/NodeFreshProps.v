(** C30, C31: the buses of a node-breaker level asked while the working variant holds no cache, after any history, stale caches included. *)
From stdpp Require Import gmap pretty.
From Verif Require Import Base Graph GraphSpec Equip NodeTopo NodeTopoSpec NodeTopoProofs NodeTopoInv NodeTopoConn NodeTopoProps NodeFreshProofs.

(** getBuses: exactly the buses of the valid groups. *)
Theorem C30_uncached_buses : forall vw st i v,
  nb_reach any_safe st -> e_cur st = Some i -> e_vars st !! i = Some v -> nv_cache vw v = None ->
  exists m st', nb_buses vw st = (Ok m, st') /\
    (forall k b, m !! k = Some b -> cb_id b = k /\
       exists n, in_bus vw (nbg st) (nv_sw v) n /\ bus_of vw (nbg st) (nv_sw v) (nb_id (e_sh st)) n b) /\
    (forall n, in_bus vw (nbg st) (nv_sw v) n -> exists k b, m !! k = Some b /\ bus_of vw (nbg st) (nv_sw v) (nb_id (e_sh st)) n b).
Proof.
  intros vw st i v R Hc Hi Hn. destruct (unc_buses vw st i v (reach_any _ R) Hc Hi Hn) as (m & st' & E & _ & H1 & H2). eauto 10.
Qed.
(** Two nodes asked in a row have the same bus iff they are the same electrical node. *)
Theorem C30_uncached_same : forall vw st i v n n' b b' st1 st2,
  nb_reach any_safe st -> e_cur st = Some i -> e_vars st !! i = Some v -> nv_cache vw v = None ->
  nb_bus_of_node vw n st = (Ok (Some b), st1) -> nb_bus_of_node vw n' st1 = (Ok (Some b'), st2) ->
  cb_id b = cb_id b' <-> linked vw st n n'.
Proof. intros vw st i v n n' b b' st1 st2 R Hc Hi Hn E1 E2. by eapply unc_same; [apply reach_any|..]. Qed.

(** The calls that move a switch in the working variant, change its retained attribute there, or change internal connections or terminals. *)
Definition refreshing (st : nbst) (c : nbop) : Prop :=
  match c with
  | NSetOpen id b => exists r, pos st id = Some (negb b, r)
  | NSetRetained id b => exists x, pos st id = Some (x, negb b)
  | NAddInternal _ _ | NRemoveInternal _ _ | NAttach _ _ | NDetach _ => True
  | _ => False
  end.
(** After such a call both views answer right about every node of the working variant, even if what they answered before was stale. *)
Theorem C31_refreshed : forall vw st c st' n,
  nb_reach any_safe st -> refreshing st c -> nb_step st (ECall c) = (Ok tt, st') -> is_Some (s_vertices (nbg st') !! n) ->
  exists ob st'', nb_bus_of_node vw n st' = (Ok ob, st'') /\ answers_right vw st' n ob.
Proof.
  intros vw st c st' n R H E Hn. assert (uncached vw st') as [Hc U].
  { cbn [nb_step estep] in E. destruct c; cbn [refreshing nb_call] in H, E; try done.
    - by eapply add_internal_clears.
    - by eapply remove_internal_clears.
    - by eapply attach_clears.
    - by eapply detach_clears.
    - destruct H as [r H]. by eapply set_open_clears.
    - destruct H as [x H]. by eapply set_retained_clears. }
  assert (nb_reach any_safe st') as R'. { assert (st' = (nb_step st (ECall c)).2) as -> by (by rewrite E). apply nr_step; [done|]. by destruct c. }
  destruct (C30_bus_of_node vw st' n R' Hc Hn U) as (ob & st'' & E' & A & _). eauto.
Qed.
(** connect and disconnect, whenever they moved a switch. *)
Theorem C31_connect_refreshed : forall vw st c st' id n,
  nb_reach any_safe st -> (exists srt x, sorts srt /\ (c = NConnect srt x \/ c = NDisconnect srt x)) -> nb_step st (ECall c) = (Ok tt, st') -> changed st st' id ->
  is_Some (s_vertices (nbg st') !! n) ->
  exists ob st'', nb_bus_of_node vw n st' = (Ok ob, st'') /\ answers_right vw st' n ob.
Proof.
  intros vw st c st' id n R (srt & x & Hs & H) E M Hn.
  assert (nb_reach any_safe st') as R'. { assert (st' = (nb_step st (ECall c)).2) as -> by (by rewrite E). apply nr_step; [done|]. by destruct H as [-> | ->]. }
  assert (uncached vw st') as [Hc U].
  { cbn [nb_step estep] in E. destruct H as [-> | ->]; cbn [nb_call] in E; unfold amap in E; apply bind_last in E as (r & st1 & E & [= <-]);
      apply bind_last in E as (s & st2 & [= <- <-] & E); destruct (g_vertex_object (nb_graph (e_sh st)) x) as [[t|]|e| |]; try done.
    - exact (connect_moves _ _ _ _ _ _ vw (reach_any _ R) E M).
    - exact (disconnect_moves _ _ _ _ _ _ vw (reach_any _ R) E M). }
  destruct (C30_bus_of_node vw st' n R' Hc Hn U) as (ob & st'' & E' & A & _). eauto.
Qed.
(** A variant just cloned answers right, whatever its source answers. *)
Theorem C31_clone_refreshed : forall vw st src tgt ow st1 st2 n,
  nb_reach any_safe st -> nb_step st (EClone src tgt ow) = (Ok tt, st1) -> nb_step st1 (EWork tgt) = (Ok tt, st2) -> is_Some (s_vertices (nbg st2) !! n) ->
  exists ob st', nb_bus_of_node vw n st2 = (Ok ob, st') /\ answers_right vw st2 n ob.
Proof.
  intros vw st src tgt ow st1 st2 n R E1 E2 Hn.
  assert (nb_reach any_safe st2) as R'.
  { assert (st2 = (nb_step (nb_step st (EClone src tgt ow)).2 (EWork tgt)).2) as -> by (rewrite E1; cbn [snd]; by rewrite E2). apply nr_step; [by apply nr_step|done]. }
  assert (uncached vw st2) as [Hc U].
  { cbn [nb_step] in E1. destruct (e_vars st !! src) as [v|]; [|done]. destruct (bool_decide _ && negb ow); [done|]. injection E1 as <-.
    cbn [nb_step estep e_vars] in E2. rewrite lookup_insert in E2. injection E2 as <-. split; [eauto|]. cbn [e_cur e_vars]. intros i w [= <-]. rewrite lookup_insert. intros [= <-]. by destruct vw. }
  destruct (C30_bus_of_node vw st2 n R' Hc Hn U) as (ob & st'' & E' & A & _). eauto.
Qed.

(** The voltage level of C31_remove_switch_refuted, whose view still shows the switch removed: a clone of the variant, and the variant itself
    once a switch was moved, answer right. *)
Definition nb2m : nbst := (nb_step nb2 (ECall (NSetOpen "B2" false))).2.
Definition nb2c : nbst := nb_run nb2 [EClone initial_variant "other" false; EWork "other"].
Example C31_refreshed_case : nb_reach any_safe nb2 /\ refreshing nb2 (NSetOpen "B2" false) /\ (nb_step nb2 (ECall (NSetOpen "B2" false))).1 = Ok tt /\
  (nb_bus_of_node BusView 1 nb2).1 = Ok (Some (mkCB "VL_0" [sec "S"; load "D"])) /\ (nb_bus_of_node BusView 1 nb2m).1 = Ok None /\
  (nb_bus_of_node BusView 0 nb2m).1 = Ok (Some (mkCB "VL_0" [sec "S"; line "L"])) /\ (nb_bus_of_node BusView 1 nb2c).1 = Ok None.
Proof.
  split; [apply nb_run_reach; [safe_ops|apply nb1_reach]|]. split; [exists false; vm_compute; reflexivity|]. split; [vm_compute; reflexivity|].
  split; [vm_compute; reflexivity|]. split; [vm_compute; reflexivity|]. split; vm_compute; reflexivity.
Qed.
(** The line of node 2 is connected: the breaker B2 closes, and the switch removed is gone from the answers. *)
Definition nb2k : nbst := (nb_step nb2 (ECall (NConnect srt0 2))).2.
Example C31_connect_case : nb_reach any_safe nb2 /\ sorts srt0 /\ (nb_step nb2 (ECall (NConnect srt0 2))).1 = Ok tt /\ changed nb2 nb2k "B2" /\
  (nb_bus_of_node BusView 1 nb2k).1 = Ok None /\ (nb_bus_of_node BusView 2 nb2k).1 = Ok (Some (mkCB "VL_0" [sec "S"; line "L"])).
Proof.
  split; [apply nb_run_reach; [safe_ops|apply nb1_reach]|]. split; [apply srt0_sorts|]. split; [vm_compute; reflexivity|]. split; [vm_compute; discriminate|].
  split; vm_compute; reflexivity.
Qed.
Print Assumptions C30_uncached_buses.
Print Assumptions C30_uncached_same.
Print Assumptions C31_refreshed.
Print Assumptions C31_clone_refreshed.
Print Assumptions C31_connect_refreshed.
