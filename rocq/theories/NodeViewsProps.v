(** C84: the views of a node-breaker voltage level show what was built.  [built P st]: the state [st] is reached by a history of calls, each
    made with a working variant set, and [P] is what the user has built: the switches, internal connections and terminals with the nodes
    given, as the calls that returned normally left them. *)
From stdpp Require Import gmap.
From Verif Require Import Base Graph GraphSpec GraphProofs Equip NodeTopo NodeTopoSpec NodeTopoProofs NodeTopoInv NodeTopoConn NodeTopoProps NodeViews NodeViewsSpec NodeViewsProofs.

(** The switches are those built, each once, with the nodes given; an unknown id gives nothing, the empty one throws. *)
Theorem C84_switches : forall P st, built P st ->
  NoDup (nv_switches (e_sh st)) /\ (forall id, id ∈ nv_switches (e_sh st) <-> is_Some (p_sw P !! id)) /\
  nv_switch_count (e_sh st) = size (p_sw P) /\
  (forall id p, p_sw P !! id = Some p ->
     nv_switch (e_sh st) id = Ok (Some id) /\ nv_node1 (e_sh st) id = Ok p.1 /\ nv_node2 (e_sh st) id = Ok p.2) /\
  (forall id, p_sw P !! id = None ->
     (if decide (id = "") then exists m, nv_switch (e_sh st) id = Throw m else nv_switch (e_sh st) id = Ok None) /\
     (exists m, nv_node1 (e_sh st) id = Throw m) /\ exists m, nv_node2 (e_sh st) id = Throw m).
Proof.
  intros P st B. split; [by eapply switches_nodup|]. split; [by eapply switches_elem|]. split; [by apply switch_count_eq|]. split.
  - intros id p Hp. assert (id <> "") as Hn. { intros ->. by rewrite (built_named P st B) in Hp. }
    split; [|by apply (vertex1_eq P st B)]. destruct (sw_edge P st B id p Hp) as (e & He & Hed).
    unfold nv_switch, nb_edge. rewrite bool_decide_false, He by done. cbn [result_bind].
    destruct (edge_object_eq (nb_graph (e_sh st)) e) as [(a & b & o & Eo & Ho)|(m & _ & Ho)]; unfold nbg in Hed; [|congruence].
    rewrite Ho in Hed. injection Hed as _ ->. rewrite Eo. cbn [result_bind]. by rewrite bool_decide_true.
  - intros id Hp. unfold nv_switch, nv_node1, nv_node2, nb_edge. case_decide as Hd.
    + rewrite !bool_decide_true by done. cbn [result_bind]. split; [by eexists|]. split; by eexists.
    + rewrite !bool_decide_false, (sw_none P st B id Hp) by done. cbn [result_bind]. split; [done|]. split; by eexists.
Qed.

(** The internal connections are those built, as often as they were. *)
Theorem C84_internals : forall P st, built P st ->
  nv_internals (e_sh st) ≡ₚ p_ic P /\ nv_internal_count (e_sh st) = length (p_ic P).
Proof.
  intros P st B. assert (nv_internals (e_sh st) ≡ₚ p_ic P) as H. { rewrite internals_perm. apply (d_ic _ _ (proj2 (built_drawn P st B))). }
  split; [done|]. by rewrite internal_count_length, H.
Qed.

(** The nodes are those in use, each once; the maximum node index is the greatest of them, -1 if there is none. *)
Theorem C84_nodes : forall P st, built P st ->
  NoDup (nv_nodes (e_sh st)) /\ (forall n, n ∈ nv_nodes (e_sh st) <-> in_use P n) /\
  (forall n, in_use P n -> (Z.of_nat n <= nv_max_node (e_sh st))%Z) /\
  ((nv_max_node (e_sh st) = (-1)%Z /\ forall n, ~ in_use P n) \/ exists n, in_use P n /\ nv_max_node (e_sh st) = Z.of_nat n).
Proof.
  intros P st B. split; [by apply nodes_nodup|]. split; [by apply nodes_elem|]. split; [by apply max_node_ge|].
  destruct (max_node_used P st B) as [H|(n & H1 & H2)]; [left|eauto]. split; [done|]. intros n Hn. apply (max_node_ge P st B) in Hn. lia.
Qed.

(** The terminal of a node is the one attached there. *)
Theorem C84_terminals : forall P st, built P st ->
  (forall n, nv_optional_terminal (e_sh st) n = Ok (p_tm P !! n)) /\
  (forall n, in_use P n -> nv_terminal (e_sh st) n = Ok (p_tm P !! n)) /\
  (forall n, ~ in_use P n -> exists m, nv_terminal (e_sh st) n = Throw m) /\
  (forall id p, p_sw P !! id = Some p ->
     nv_terminal1 (e_sh st) id = Ok (p_tm P !! p.1) /\ nv_terminal2 (e_sh st) id = Ok (p_tm P !! p.2)) /\
  nv_terminals (e_sh st) ≡ₚ (map_to_list (p_tm P)).*2.
Proof.
  intros P st B. split; [by apply optional_terminal_eq|]. split; [by apply terminal_used|]. split; [by apply terminal_unused|].
  split; [|by apply terminals_perm]. intros id p Hp. assert (id <> "") as Hn. { intros ->. by rewrite (built_named P st B) in Hp. }
  destruct (vertex1_eq P st B id p Hp Hn) as [E1 E2]. unfold nv_terminal1, nv_terminal2. rewrite E1, E2. cbn [result_bind].
  split; apply terminal_used; try done; right; left; exists id, p; (split; [done|]); [by left|by right].
Qed.

(** The bus/breaker view shows the switches built that are retained in the working variant, and throws for the others. *)
Theorem C84_retained : forall P st, built P st -> is_Some (e_cur st) ->
  (exists l, bv_switches st = (Ok l, st) /\ bv_switch_count st = (Ok (length l), st) /\ NoDup l /\
     forall id, id ∈ l <-> is_Some (p_sw P !! id) /\ kept_switch st id) /\
  (forall id, is_Some (p_sw P !! id) -> kept_switch st id -> bv_switch id st = (Ok (Some id), st)) /\
  (forall id, ~ (is_Some (p_sw P !! id) /\ kept_switch st id) ->
     (exists m, bv_switch id st = (Throw m, st)) /\ (exists m, bv_bus1 id st = (Throw m, st)) /\ exists m, bv_bus2 id st = (Throw m, st)).
Proof.
  intros P st B Hc. split_and!.
  - eexists. split; [by apply (bv_switches_eq P)|]. split; [by apply (bv_switch_count_eq P)|]. split.
    + apply NoDup_ListNoDup, List.NoDup_filter, NoDup_ListNoDup. by eapply switches_nodup.
    + intros id. rewrite elem_of_list_In, List.filter_In, <- elem_of_list_In, keptb_spec. by rewrite (switches_elem P st B).
  - intros id [p Hp] Hk. pose proof (bv_switch_eq P st B Hc id) as H. rewrite Hp in H. apply keptb_spec in Hk. by rewrite Hk in H.
  - intros id Hn. assert (p_sw P !! id = None \/ keptb st id = false) as Ho.
    { destruct (p_sw P !! id) as [p|]; [right|by left]. destruct (keptb st id) eqn:Hk; [|done]. apply keptb_spec in Hk. exfalso. apply Hn. eauto. }
    split; [|by apply (bv_bus_throws P)]. pose proof (bv_switch_eq P st B Hc id) as H.
    destruct (p_sw P !! id) as [p|]; [|done]. destruct Ho as [Ho|Ho]; [done|]. by rewrite Ho in H.
Qed.

(** The buses at the ends of a retained switch are those of the nodes given, for the histories whose caches are up to date (C31). *)
Theorem C84_bus_ends : forall P st id a b, built P st -> nb_reach fresh_safe st -> is_Some (e_cur st) ->
  p_sw P !! id = Some (a, b) -> kept_switch st id ->
  (exists ob st', bv_bus1 id st = (Ok ob, st') /\ answers_right BusBreakerView st a ob) /\
  (exists ob st', bv_bus2 id st = (Ok ob, st') /\ answers_right BusBreakerView st b ob).
Proof.
  intros P st id a b B F Hc Hp Hk. apply keptb_spec in Hk. destruct (bv_bus_eq P st B Hc id _ Hp Hk) as [-> ->]. cbn [fst snd].
  assert (in_use P a /\ in_use P b) as [Ha Hb]. { split; right; left; exists id, (a, b); (split; [done|]); [by left|by right]. }
  split; apply C31_fresh_partial; try done; by apply (node_live P st B).
Qed.

(** The merged bus of a busbar section is that of its node. *)
Theorem C84_merged_bus : forall P st id, built P st -> nb_reach fresh_safe st -> is_Some (e_cur st) ->
  (exists n t, p_tm P !! n = Some t /\ nt_id t = id /\ nt_type t = BUSBAR_SECTION) ->
  exists n t ob st', p_tm P !! n = Some t /\ nt_id t = id /\ nt_type t = BUSBAR_SECTION /\
    nv_merged_bus id st = (Ok ob, st') /\ answers_right BusView st n ob.
Proof.
  intros P st id B F Hc (n0 & t0 & Ht & Hid & Hty). pose proof (d_tm _ _ (proj2 (built_drawn P st B))) as HT.
  pose proof (section_node_spec (e_sh st) id) as H. unfold nv_merged_bus. rewrite (abind_Ok ashared _ st (e_sh st) st eq_refl).
  destruct (nv_section_node (e_sh st) id) as [n|].
  - destruct H as (t & Hn & H1 & H2). apply HT in Hn.
    destruct (C31_fresh_partial BusView st n F Hc) as (ob & st' & E & R); [apply (node_live P st B); left; eauto|]. exists n, t, ob, st'. done.
  - exfalso. eapply H; [by apply HT|done|done].
Qed.
Theorem C84_merged_bus_unknown : forall P st id, built P st ->
  (forall n t, p_tm P !! n = Some t -> nt_id t = id -> nt_type t <> BUSBAR_SECTION) -> exists m, nv_merged_bus id st = (Throw m, st).
Proof.
  intros P st id B Hno. pose proof (d_tm _ _ (proj2 (built_drawn P st B))) as HT.
  pose proof (section_node_spec (e_sh st) id) as H. unfold nv_merged_bus. rewrite (abind_Ok ashared _ st (e_sh st) st eq_refl).
  destruct (nv_section_node (e_sh st) id) as [n|]; [|by eexists]. destruct H as (t & Hn & H1 & H2). apply HT in Hn. exfalso. by eapply Hno.
Qed.

(** Concrete voltage level: a section at node 0, a load at node 3, a retained breaker 0-1, a disconnector 1-3, internal connections 3-5
    (twice, once reversed; then removed and one 5-6 added). *)
Fixpoint plan_run (P : plan) (st : nbst) (ops : list (eop nbop)) : plan :=
  match ops with [] => P | o :: l => plan_run (draw P o (nb_step st o).1) (nb_step st o).2 l end.
Lemma built_run ops : forall P st, built P st ->
  (fix go st ops := match ops with [] => True | o :: l => any_safe st o /\ is_Some (e_cur st) /\ go (nb_step st o).2 l end) st ops ->
  built (plan_run P st ops) (nb_run st ops).
Proof.
  induction ops as [|o ops IH]; intros P st B H; [done|]. destruct H as (H1 & H2 & H3). simpl. apply IH; [|done]. by apply built_step.
Qed.
Lemma others_dec st : bool_decide (map_Forall (fun _ v => nv_bus v = None /\ nv_bb v = None) (e_vars st)) = true -> no_other_caches st.
Proof. intros H%no_caches_dec i v Hv _. by eapply H. Qed.
Definition vops : list (eop nbop) :=
  [ECall (NAttach 0 (sec "S")); ECall (NAttach 3 (load "D")); ECall (NAddSwitch "B1" BREAKER (false, true) 0 1);
   ECall (NAddSwitch "D1" DISCONNECTOR (false, false) 1 3); ECall (NAddInternal 3 5); ECall (NAddInternal 5 3);
   ECall (NRemoveInternal 3 5); ECall (NAddInternal 5 6); ECall (NAddSwitch "B1" BREAKER (false, false) 4 9)].
Definition vplan : plan := plan_run blank nb0 vops.
Definition vst : nbst := nb_run nb0 vops.
Lemma v_built : built vplan vst.
Proof.
  apply built_run.
  - apply built_new; [set_solver|]. intros i [= <-]. set_solver.
  - repeat (split; [exact Logic.I|]; split; [vm_compute; eauto|]). done.
Qed.
Example C84_case : built vplan vst /\ nb_reach fresh_safe vst /\ is_Some (e_cur vst) /\ p_sw vplan !! "B1" = Some (0, 1) /\ p_sw vplan !! "D1" = Some (1, 3) /\
  p_ic vplan = [(5, 6)] /\ p_tm vplan !! 3 = Some (load "D") /\ nv_nodes (e_sh vst) = [0; 1; 3; 5; 6] /\ nv_max_node (e_sh vst) = 6%Z /\
  nv_switches (e_sh vst) = ["B1"; "D1"] /\ kept_switch vst "B1" /\ ~ kept_switch vst "D1" /\ (bv_switches vst).1 = Ok ["B1"] /\
  (bv_bus1 "B1" vst).1 = Ok (Some (mkCB "VL_0" [sec "S"])) /\ (bv_bus2 "B1" vst).1 = Ok (Some (mkCB "VL_1" [load "D"])) /\
  (nv_merged_bus "S" vst).1 = Ok (Some (mkCB "VL_0" [sec "S"; load "D"])).
Proof.
  split; [apply v_built|]. split.
  { apply fresh_run; [apply nb_new_reach|]. split; [left; vm_compute; eauto|]. split; [left; vm_compute; eauto|]. split; [apply no_caches_dec; vm_compute; reflexivity|]. split; [apply no_caches_dec; vm_compute; reflexivity|]. 
    split; [apply others_dec; vm_compute; reflexivity|]. split; [apply others_dec; vm_compute; reflexivity|]. split; [apply others_dec; vm_compute; reflexivity|]. split; [apply others_dec; vm_compute; reflexivity|]. split; [apply no_caches_dec; vm_compute; reflexivity|]. done. }
  split; [by exists initial_variant|]. repeat (split; [by vm_compute|]).
  split; [exists false; by vm_compute|]. split; [intros [x Hx]; by vm_compute in Hx|]. by vm_compute.
Qed.

(** hasAttachedEquipment does not tell whether equipment is attached: node 1 above is only the end of a switch.  Full statement: it
    answers [true] iff a terminal is attached to the node. *)
Theorem C84_has_equipment_refuted : exists P st n, built P st /\ nv_has_equipment (e_sh st) n = true /\ p_tm P !! n = None /\ nv_terminal (e_sh st) n = Ok None.
Proof. exists vplan, vst, 1. split; [apply v_built|]. by vm_compute. Qed.
(** What it does tell: whether the node is in use. *)
Theorem C84_has_equipment_partial : forall P st n, built P st -> nv_has_equipment (e_sh st) n = true <-> in_use P n.
Proof.
  intros P st n B. rewrite <- (nodes_elem P st B). unfold nv_nodes, nv_has_equipment. rewrite g_get_vertices_spec, abs_vertices. unfold g_vertex_exists.
  destruct (g_vertices (nb_graph (e_sh st)) !! n) as [[o|]|]; simpl; split; try done; eauto; by intros [].
Qed.
(** A working variant is needed: without one, addInternalConnection throws and the connection is there. *)
Definition unst : nbst := nb_new "VL" {["VL"]} {[initial_variant]} None.
Theorem C84_unset_refuted : exists st o m, nb_reach any_safe st /\ any_safe st o /\ e_cur st = None /\ nv_internals (e_sh st) = [] /\
  (nb_step st o).1 = Throw m /\ nv_internals (e_sh (nb_step st o).2) = [(0, 1)].
Proof.
  exists unst, (ECall (NAddInternal 0 1)). eexists. split; [apply nr_new; [set_solver|done]|]. split; [done|]. split; [done|]. split; [by vm_compute|].
  split; by vm_compute.
Qed.
Print Assumptions C84_switches.
Print Assumptions C84_internals.
Print Assumptions C84_nodes.
Print Assumptions C84_terminals.
Print Assumptions C84_retained.
Print Assumptions C84_bus_ends.
Print Assumptions C84_merged_bus.
Print Assumptions C84_merged_bus_unknown.
Print Assumptions C84_has_equipment_refuted.
Print Assumptions C84_has_equipment_partial.
Print Assumptions C84_unset_refuted.
