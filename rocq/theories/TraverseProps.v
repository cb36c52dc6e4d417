(** C55: which terminals [Terminal::traverse] goes through. *)
From stdpp Require Import gmap sets relations.
From Verif Require Import Base Graph GraphSpec Traverse TraverseSpec TraverseProofs.

(** The traversal ends without error and goes only through terminals within reach; a terminal is
    refused only by the traverser. *)
Theorem C55_sound n tr order t :
  tnet_wf n -> visits order -> is_Some (tn_terms n !! t) ->
  exists s, traverse n tr order t = Ok s /\
    (forall u, u ∈ gone_through (ts_calls s) -> within_reach n tr t u) /\
    (forall u, (u, false) ∈ ts_calls s -> ~ accepted n tr u) /\
    (accepted n tr t -> t ∈ gone_through (ts_calls s)).
Proof.
  intros Hwf Hord Ht.
  destruct (traverse_fuel n tr order Hwf Hord (S (size (tn_terms n))) t (mkTstate ∅ [])) as (s & E & P).
  { cbn [ts_done]. rewrite difference_empty_L, size_dom. lia. }
  { done. }
  { split; cbn; [set_solver|]. by intros u ?%elem_of_empty. }
  destruct P as (_ & _ & _ & P4 & P5 & P6 & _). exists s. split; [exact E|]. split; [|split].
  - intros u Hu. apply elem_gone_through, P5 in Hu as [Hu|(t' & ->%elem_of_list_singleton & Ha & Hr)]; [by apply elem_of_nil in Hu|].
    split; [done|]. exact Hr.
  - intros u Hu. apply P6 in Hu as [Hu|[Hs Hu]]; [by apply elem_of_nil in Hu|].
    intros Ha. apply accepted_ask in Ha; [congruence|done|done].
  - intros Ha. apply elem_gone_through, P4; [by left|done].
Qed.
Print Assumptions C55_sound.

(** With no accepted switch in the bus/breaker levels (there may be none at all), the terminals gone
    through are exactly those within reach. *)
Theorem C55_exact n tr order t :
  tnet_wf n -> visits order -> is_Some (tn_terms n !! t) -> buses_apart n tr ->
  exists s, traverse n tr order t = Ok s /\
    (forall u, u ∈ gone_through (ts_calls s) <-> within_reach n tr t u).
Proof.
  intros Hwf Hord Ht Hap.
  destruct (traverse_fuel n tr order Hwf Hord (S (size (tn_terms n))) t (mkTstate ∅ [])) as (s & E & P).
  { cbn [ts_done]. rewrite difference_empty_L, size_dom. lia. }
  { done. }
  { split; cbn; [set_solver|]. by intros u ?%elem_of_empty. }
  destruct P as (_ & _ & _ & P4 & P5 & _ & P7). exists s. split; [exact E|]. intros u. split.
  - intros Hu. apply elem_gone_through, P5 in Hu as [Hu|(t' & ->%elem_of_list_singleton & Ha & Hr)]; [by apply elem_of_nil in Hu|].
    split; [done|]. exact Hr.
  - intros [Ha Hr]. apply elem_gone_through.
    assert (H0 : (t, true) ∈ ts_calls s) by (apply P4; [by left|done]). clear P4 P5 Ha Ht E.
    induction Hr as [t|t v u Hs Hr IH]; [done|]. apply IH.
    exact (P7 Hap t v H0 (not_elem_of_nil _) Hs).
Qed.
Print Assumptions C55_exact.

(** In a network whose levels are all node/breaker, moreover, no terminal is gone through twice, and
    the set does not depend on the order of the addresses. *)
Theorem C55_node_breaker n tr order t :
  tnet_wf n -> visits order -> is_Some (tn_terms n !! t) -> node_breaker_only n ->
  exists s, traverse n tr order t = Ok s /\ NoDup (gone_through (ts_calls s)) /\
    (forall u, u ∈ gone_through (ts_calls s) <-> within_reach n tr t u) /\
    (forall u, u ∈ ts_done s <-> within_reach n tr t u).
Proof.
  intros Hwf Hord Ht Hnb.
  assert (Hap : buses_apart n tr). { intros k g a b Hk. by destruct (Hnb _ _ Hk). }
  destruct (C55_exact n tr order t Hwf Hord Ht Hap) as (s & E & H). exists s. split; [done|].
  destruct (traverse_nodup n tr order Hwf Hord Hnb (S (size (tn_terms n))) t (mkTstate ∅ []) s Ht) as (H1 & H2 & _); [|exact E|].
  { split; [constructor|]. cbn. split; [|split]; [|by intros ? ? ?%elem_of_empty|by intros ? ?%elem_of_empty].
    intros u. split; [by intros ?%elem_of_empty|by intros ?%elem_of_nil]. }
  split; [done|]. split; [done|]. intros u. rewrite (H2 u), <- elem_gone_through. apply H.
Qed.
Print Assumptions C55_node_breaker.

(** ** A network: level 0 is node/breaker (terminal 0 at node 0, terminal 1 at node 2, terminal 4 at
    node 3; node 1 is empty; switch 0 between nodes 0 and 1, an internal connection between 1 and 2,
    switch 1 between 2 and 3); level 1 is node/breaker (terminals 2 and 3 linked by switch 2).  A line
    joins terminals 1 and 2. *)
Definition ex_nb0 : graph nat nat := g_run
  [OpAddVertex; OpAddVertex; OpAddVertex; OpAddVertex; OpSetVertexObject 0 (Some 0); OpSetVertexObject 2 (Some 1);
   OpSetVertexObject 3 (Some 4); OpAddEdge 0 1 (Some 0); OpAddEdge 1 2 None; OpAddEdge 2 3 (Some 1)] g_init.
Definition ex_nb1 : graph nat nat := g_run
  [OpAddVertex; OpAddVertex; OpSetVertexObject 0 (Some 2); OpSetVertexObject 1 (Some 3); OpAddEdge 0 1 (Some 2)] g_init.
Definition ex_net : tnet := mkTnet [NodeBreaker ex_nb0; NodeBreaker ex_nb1]
  {[ 0 := mkTinfo 0 0 true []; 1 := mkTinfo 0 2 true [2]; 2 := mkTinfo 1 0 true [1]; 3 := mkTinfo 1 1 true [];
     4 := mkTinfo 0 3 true [] ]}.
Lemma ex_net_wf : tnet_wf ex_net /\ node_breaker_only ex_net.
Proof.
  assert (Hterm : forall t i, tn_terms ex_net !! t = Some i ->
    (t, i) ∈ [(0, mkTinfo 0 0 true []); (1, mkTinfo 0 2 true [2]); (2, mkTinfo 1 0 true [1]); (3, mkTinfo 1 1 true []);
     (4, mkTinfo 0 3 true [])]).
  { intros t i H. apply elem_of_map_to_list in H. revert H.
    assert (E : map_to_list (tn_terms ex_net) ≡ₚ
      [(0, mkTinfo 0 0 true []); (1, mkTinfo 0 2 true [2]); (2, mkTinfo 1 0 true [1]); (3, mkTinfo 1 1 true []);
     (4, mkTinfo 0 3 true [])]); [|by rewrite E].
    unfold ex_net. cbn [tn_terms]. rewrite !map_to_list_insert by done. by rewrite map_to_list_singleton. }
  assert (Hv0 : forall v o, s_vertices (abs ex_nb0) !! v = Some o -> (v, o) ∈ [(0, Some 0); (1, None); (2, Some 1); (3, Some 4)]).
  { intros v o. do 4 (destruct v as [|v]; [intros H; vm_compute in H; injection H as <-; rewrite !elem_of_cons; auto 6|]).
    rewrite GraphProofs.abs_vertices. by vm_compute. }
  assert (Hv1 : forall v o, s_vertices (abs ex_nb1) !! v = Some o -> (v, o) ∈ [(0, Some 2); (1, Some 3)]).
  { intros v o. do 2 (destruct v as [|v]; [intros H; vm_compute in H; injection H as <-; rewrite !elem_of_cons; auto 6|]).
    rewrite GraphProofs.abs_vertices. by vm_compute. }
  assert (Hk : forall k l, tn_levels ex_net !! k = Some l -> (k = 0 /\ l = NodeBreaker ex_nb0) \/ (k = 1 /\ l = NodeBreaker ex_nb1)).
  { intros [|[|[|k]]] l; cbn; intros [= <-]; auto. }
  split; [constructor|].
  - intros k g H. apply Hk in H as [[_ [= ->]]|[_ [= ->]]]; by eexists.
  - intros k g H. by apply Hk in H as [[_ [=]]|[_ [=]]].
  - intros t i H. apply Hterm in H. repeat (apply elem_of_cons in H as [[= -> ->]|H]; [by eexists|]). by apply elem_of_nil in H.
  - intros t i g H E. apply Hterm in H.
    repeat (apply elem_of_cons in H as [[= -> ->]|H]; [cbn in E; injection E as <-; vm_compute; reflexivity|]). by apply elem_of_nil in H.
  - intros t i g H E. apply Hterm in H.
    repeat (apply elem_of_cons in H as [[= -> ->]|H]; [by cbn in E|]). by apply elem_of_nil in H.
  - intros k g v t H E. apply Hk in H as [[-> [= ->]]|[-> [= ->]]]; [apply Hv0 in E|apply Hv1 in E];
      repeat (apply elem_of_cons in E as [E1|E]; [first [discriminate E1|injection E1 as -> ->; eexists; split; [vm_compute; reflexivity|done]]|]);
      by apply elem_of_nil in E.
  - intros k g v l t H. by apply Hk in H as [[_ [=]]|[_ [=]]].
  - intros k g v o H. by apply Hk in H as [[_ [=]]|[_ [=]]].
  - intros t i u H Hu. apply Hterm in H.
    repeat (apply elem_of_cons in H as [[= -> ->]|H]; [cbn in Hu; try (by apply elem_of_nil in Hu); apply elem_of_list_singleton in Hu as ->; by eexists|]).
    by apply elem_of_nil in H.
  - intros k l H. apply Hk in H as [[_ ->]|[_ ->]]; eauto.
Qed.
(** The traverser refuses switch 1 only: terminal 4 is not reached. *)
Example C55_case :
  tnet_wf ex_net /\ node_breaker_only ex_net /\ visits elements /\ is_Some (tn_terms ex_net !! 0) /\
  exists s, traverse ex_net (mkTraverser (fun _ _ => true) (fun w => negb (w =? 1))) elements 0 = Ok s /\
    ts_calls s = [(0, true); (1, true); (2, true); (3, true)].
Proof.
  split; [apply ex_net_wf|]. split; [apply ex_net_wf|]. split; [by intros X|]. split; [by eexists|].
  eexists. split; [vm_compute; reflexivity|]. reflexivity.
Qed.

(** ** Bus/breaker levels: what goes wrong *)
(** Level 0: terminal 0 on bus 0, terminals 1 and 2 on bus 1, switch 0 between the buses. *)
Definition ex_bb : graph (list nat) nat := g_run
  [OpAddVertex; OpAddVertex; OpSetVertexObject 0 (Some [0]); OpSetVertexObject 1 (Some [1; 2]); OpAddEdge 0 1 (Some 0)] g_init.
Definition ex_bus_net : tnet := mkTnet [BusBreaker ex_bb]
  {[ 0 := mkTinfo 0 0 true []; 1 := mkTinfo 0 1 true []; 2 := mkTinfo 0 1 true [] ]}.
(** Two lines between bus 0 of level 0 (terminals 0 and 2) and bus 0 of level 1 (terminals 1 and 3). *)
Definition ex_par0 : graph (list nat) nat := g_run [OpAddVertex; OpSetVertexObject 0 (Some [0; 2])] g_init.
Definition ex_par1 : graph (list nat) nat := g_run [OpAddVertex; OpSetVertexObject 0 (Some [1; 3])] g_init.
Definition ex_par_net : tnet := mkTnet [BusBreaker ex_par0; BusBreaker ex_par1]
  {[ 0 := mkTinfo 0 0 true [1]; 1 := mkTinfo 1 0 true [0]; 2 := mkTinfo 0 0 true [3]; 3 := mkTinfo 1 0 true [2] ]}.
Definition accept_all : traverser := mkTraverser (fun _ _ => true) (fun _ => true).

Lemma ex_bus_net_wf : tnet_wf ex_bus_net.
Proof.
  assert (Hterm : forall t i, tn_terms ex_bus_net !! t = Some i ->
    (t, i) ∈ [(0, mkTinfo 0 0 true []); (1, mkTinfo 0 1 true []); (2, mkTinfo 0 1 true [])]).
  { intros t i H. apply elem_of_map_to_list in H. revert H.
    assert (E : map_to_list (tn_terms ex_bus_net) ≡ₚ
      [(0, mkTinfo 0 0 true []); (1, mkTinfo 0 1 true []); (2, mkTinfo 0 1 true [])]); [|by rewrite E].
    unfold ex_bus_net. cbn [tn_terms]. rewrite !map_to_list_insert by done. by rewrite map_to_list_singleton. }
  assert (Hv0 : forall v o, s_vertices (abs ex_bb) !! v = Some o -> (v, o) ∈ [(0, Some [0]); (1, Some [1; 2])]).
  { intros v o. do 2 (destruct v as [|v]; [intros H; vm_compute in H; injection H as <-; rewrite !elem_of_cons; auto 6|]).
    rewrite GraphProofs.abs_vertices. by vm_compute. }
  assert (Hk : forall k l, tn_levels ex_bus_net !! k = Some l -> k = 0 /\ l = BusBreaker ex_bb).
  { intros [|[|k]] l; cbn; intros [= <-]; auto. }
  constructor.
  - intros k g H. by apply Hk in H as [_ [=]].
  - intros k g H. apply Hk in H as [_ [= ->]]. by eexists.
  - intros t i H. apply Hterm in H. repeat (apply elem_of_cons in H as [[= -> ->]|H]; [by eexists|]). by apply elem_of_nil in H.
  - intros t i g H E. apply Hk in E as [_ [=]].
  - intros t i g H E. apply Hk in E as [_ [= ->]]. apply Hterm in H.
    repeat (apply elem_of_cons in H as [[= -> ->]|H]; [eexists; split; [vm_compute; reflexivity|];
      split; [rewrite !elem_of_cons; auto|apply (bool_decide_unpack _); vm_compute; exact I]|]). by apply elem_of_nil in H.
  - intros k g v t H. by apply Hk in H as [_ [=]].
  - intros k g v l t H E Ht. apply Hk in H as [-> [= ->]]. apply Hv0 in E.
    repeat (apply elem_of_cons in E as [[= -> ->]|E];
      [repeat (apply elem_of_cons in Ht as [->|Ht]; [eexists; split; [vm_compute; reflexivity|done]|]); by apply elem_of_nil in Ht|]).
    by apply elem_of_nil in E.
  - intros k g v o H E. apply Hk in H as [-> [= ->]]. apply Hv0 in E.
    repeat (apply elem_of_cons in E as [[= -> ->]|E]; [by eexists|]). by apply elem_of_nil in E.
  - intros t i u H Hu. apply Hterm in H.
    repeat (apply elem_of_cons in H as [[= -> ->]|H]; [by apply elem_of_nil in Hu|]). by apply elem_of_nil in H.
Qed.
Lemma ex_par_net_wf : tnet_wf ex_par_net.
Proof.
  assert (Hterm : forall t i, tn_terms ex_par_net !! t = Some i ->
    (t, i) ∈ [(0, mkTinfo 0 0 true [1]); (1, mkTinfo 1 0 true [0]); (2, mkTinfo 0 0 true [3]); (3, mkTinfo 1 0 true [2])]).
  { intros t i H. apply elem_of_map_to_list in H. revert H.
    assert (E : map_to_list (tn_terms ex_par_net) ≡ₚ
      [(0, mkTinfo 0 0 true [1]); (1, mkTinfo 1 0 true [0]); (2, mkTinfo 0 0 true [3]); (3, mkTinfo 1 0 true [2])]); [|by rewrite E].
    unfold ex_par_net. cbn [tn_terms]. rewrite !map_to_list_insert by done. by rewrite map_to_list_singleton. }
  assert (Hv0 : forall v o, s_vertices (abs ex_par0) !! v = Some o -> v = 0 /\ o = Some [0; 2]).
  { intros [|v] o; [vm_compute; by intros [= <-]|]. rewrite GraphProofs.abs_vertices. by vm_compute. }
  assert (Hv1 : forall v o, s_vertices (abs ex_par1) !! v = Some o -> v = 0 /\ o = Some [1; 3]).
  { intros [|v] o; [vm_compute; by intros [= <-]|]. rewrite GraphProofs.abs_vertices. by vm_compute. }
  assert (Hk : forall k l, tn_levels ex_par_net !! k = Some l -> (k = 0 /\ l = BusBreaker ex_par0) \/ (k = 1 /\ l = BusBreaker ex_par1)).
  { intros [|[|[|k]]] l; cbn; intros [= <-]; auto. }
  constructor.
  - intros k g H. by apply Hk in H as [[_ [=]]|[_ [=]]].
  - intros k g H. apply Hk in H as [[_ [= ->]]|[_ [= ->]]]; by eexists.
  - intros t i H. apply Hterm in H. repeat (apply elem_of_cons in H as [[= -> ->]|H]; [by eexists|]). by apply elem_of_nil in H.
  - intros t i g H E. apply Hk in E as [[_ [=]]|[_ [=]]].
  - intros t i g H E. apply Hterm in H.
    repeat (apply elem_of_cons in H as [[= -> ->]|H]; [cbn in E; injection E as <-; eexists; split; [vm_compute; reflexivity|];
      split; [rewrite !elem_of_cons; auto|apply (bool_decide_unpack _); vm_compute; exact I]|]). by apply elem_of_nil in H.
  - intros k g v t H. by apply Hk in H as [[_ [=]]|[_ [=]]].
  - intros k g v l t H E Ht. apply Hk in H as [[-> [= ->]]|[-> [= ->]]]; [apply Hv0 in E as [-> [= ->]]|apply Hv1 in E as [-> [= ->]]];
      repeat (apply elem_of_cons in Ht as [->|Ht]; [eexists; split; [vm_compute; reflexivity|done]|]); by apply elem_of_nil in Ht.
  - intros k g v o H E. apply Hk in H as [[-> [= ->]]|[-> [= ->]]]; [apply Hv0 in E as [-> ->]|apply Hv1 in E as [-> ->]]; by eexists.
  - intros t i u H Hu. apply Hterm in H.
    repeat (apply elem_of_cons in H as [[= -> ->]|H]; [apply elem_of_list_singleton in Hu as ->; by eexists|]).
    by apply elem_of_nil in H.
Qed.

(** Behind a closed switch of a bus/breaker level, only the first terminal of the bus is gone
    through: some terminals within reach never are. *)
Theorem C55_bus_breaker_refuted :
  exists n tr order t u s, tnet_wf n /\ visits order /\ is_Some (tn_terms n !! t) /\
    traverse n tr order t = Ok s /\ within_reach n tr t u /\ u ∉ map fst (ts_calls s).
Proof.
  exists ex_bus_net, accept_all, elements, 0, 2. eexists. split; [exact ex_bus_net_wf|]. split; [by intros X|].
  split; [by eexists|]. split; [vm_compute; reflexivity|].
  assert (Hacc : forall u, is_Some (tn_terms ex_bus_net !! u) -> accepted ex_bus_net accept_all u).
  { intros u Hu. by apply accepted_ask; [exact ex_bus_net_wf|..]. }
  split.
  - split; [apply Hacc; by eexists|]. apply rtc_once. split; [|apply Hacc; by eexists]. right.
    exists (mkTinfo 0 0 true []), (mkTinfo 0 1 true []). split; [done|]. split; [done|]. split; [done|].
    apply rtc_once. exists 0, (Some 0). split; [|by intros ? [= <-]]. left. vm_compute. reflexivity.
  - cbn [ts_calls map fst]. apply (bool_decide_unpack _). vm_compute. exact I.
Qed.
Print Assumptions C55_bus_breaker_refuted.

(** Even without any switch, a terminal of a bus/breaker level can be gone through twice. *)
Theorem C55_twice_refuted :
  exists n tr order t u s, tnet_wf n /\ visits order /\ is_Some (tn_terms n !! t) /\ buses_apart n tr /\
    traverse n tr order t = Ok s /\ 2 <= length (filter (fun c => c = (u, true)) (ts_calls s)).
Proof.
  exists ex_par_net, accept_all, elements, 0, 2. eexists. split; [exact ex_par_net_wf|]. split; [by intros X|].
  split; [by eexists|]. split.
  - intros [|[|[|k]]] g a b; cbn; intros [= <-] (e & ob & Hj & _); destruct Hj as [Hj|Hj];
      rewrite GraphProofs.abs_edges in Hj; by vm_compute in Hj.
  - split; [vm_compute; reflexivity|]. vm_compute. lia.
Qed.
Print Assumptions C55_twice_refuted.
