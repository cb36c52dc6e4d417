(** C86: the views of a network list what its voltage levels show.  [network_of Ps ls]: the voltage levels [ls], each with an id of its own, are the
    outcome of histories of calls, and [Ps] tells what was built in each (C84, C85).  [up_to_date]: the buses in the caches of
    the working variant are right or there are none (C31, C33). *)
From stdpp Require Import gmap pretty.
From Verif Require Import Base Graph GraphSpec Equip NodeTopo NodeTopoSpec NodeTopoProps BusTopo BusTopoSpec BusTopoProps
  NodeViews NodeViewsSpec NodeViewsProps BusViews BusViewsSpec BusViewsBlank BusViewsProofs BusViewsProps BusRef NetList NetListSpec NetListProofs.
From Verif Require NetViewsProofs.

(** getBusBreakerView().getSwitches(): each switch a level shows, once; getSwitchCount() is their number; neither changes the network. *)
Theorem C86_switches : forall Ps ls, network_of Ps ls ->
  exists l, net_switches ls = (Ok l, ls) /\ net_switch_count ls = (Ok (length l), ls) /\ NoDup l /\
    forall vl id, (vl, id) ∈ l <-> exists p lv, (vl, p) ∈ Ps /\ (vl, lv) ∈ ls /\ shows_switch p lv id.
Proof.
  intros Ps ls [N F].
  assert (forall vl lv, (vl, lv) ∈ ls -> exists p, (vl, p) ∈ Ps /\ raised vl p lv) as H1.
  { intros vl lv H. apply elem_of_list_lookup in H as [i Hi]. destruct (Forall2_lookup_r _ _ _ _ _ F Hi) as ([v p] & Hp & E & R). cbn in *. subst v.
    exists p. split; [|done]. apply elem_of_list_lookup. eauto. }
  assert (forall vl p lv, (vl, p) ∈ Ps -> (vl, lv) ∈ ls -> raised vl p lv) as H2.
  { intros vl p lv Hp Hl. apply elem_of_list_lookup in Hp as [i Hi]. destruct (Forall2_lookup_l _ _ _ _ _ F Hi) as ([v l] & Hl' & E & R). cbn in *. subst v.
    apply elem_of_list_lookup in Hl as [j Hj]. assert (i = j) as ->. { eapply (NoDup_lookup ls.*1); [done| |]; rewrite list_lookup_fmap; [by rewrite Hl'|by rewrite Hj]. }
    by assert (l = lv) as <- by congruence. }
  assert (Forall (fun p : string * vlevel => exists ks, lv_switches p.2 = (Ok ks, p.2) /\ lv_switch_count p.2 = (Ok (length ks), p.2) /\ NoDup ks) ls) as H3.
  { apply Forall_forall. intros [vl lv] H. destruct (H1 vl lv H) as (p & _ & R). destruct (raised_switches vl p lv R) as (ks & ? & ? & ? & _). eauto. }
  exists (concat ((fun p : string * vlevel => pair p.1 <$> outs lv_switches p.2) <$> ls)). split_and!.
  - unfold net_switches. rewrite flat_eq; [|eapply Forall_impl; [exact H3|]; intros [vl lv] (ks & E & _); exists ks; by rewrite E]. f_equal.
    transitivity (id <$> ls); [|by rewrite list_fmap_id]. apply list_fmap_ext. intros i [vl lv] Hi. rewrite Forall_lookup in H3. destruct (H3 i _ Hi) as (ks & E & _). cbn in *. by rewrite E.
  - unfold net_switch_count. rewrite count_eq; [done|]. eapply Forall_impl; [exact H3|]. intros [vl lv] (ks & E & E2 & _). unfold outs. cbn in *. by rewrite E.
  - apply flat_nodup; [done|]. eapply Forall_impl; [exact H3|]. intros [vl lv] (ks & E & _ & ?). unfold outs. by rewrite E.
  - intros vl id. rewrite flat_elem. split.
    + intros (lv & Hl & Hk). destruct (H1 vl lv Hl) as (p & Hp & R). exists p, lv. split; [done|]. split; [done|].
      destruct (raised_switches vl p lv R) as (ks & E & _ & _ & H). apply H. unfold outs in Hk. by rewrite E in Hk.
    + intros (p & lv & Hp & Hl & Hs). exists lv. split; [done|]. destruct (raised_switches vl p lv (H2 _ _ _ Hp Hl)) as (ks & E & _ & _ & H). unfold outs. rewrite E. by apply H.
Qed.

(** getBuses() of both views: each bus of each level, once, level by level in the order of the levels; only caches of buses change. *)
Theorem C86_buses : forall vw ls, NoDup ls.*1 -> Forall (fun p => up_to_date vw p.2) ls ->
  exists l ls', net_buses vw ls = (Ok l, ls') /\ NoDup l /\
    (forall vl k, (vl, k) ∈ l <-> exists lv, (vl, lv) ∈ ls /\ has_bus vw lv k) /\
    (exists per : list (list string), l = concat (zip_with (fun p ks => pair p.1 <$> ks) ls per) /\ length per = length ls) /\
    Forall2 (fun p p' => p'.1 = p.1 /\ level_alike p.2 p'.2) ls ls'.
Proof.
  intros vw ls N U. rewrite Forall_forall in U.
  assert (forall vl lv, (vl, lv) ∈ ls -> exists ks l', lv_buses vw lv = (Ok ks, l') /\ level_alike lv l' /\ NoDup ks /\ forall k, k ∈ ks <-> has_bus vw lv k) as H.
  { intros vl lv Hl. destruct (level_buses vw lv (U _ Hl)) as (ks & l' & ? & ? & ? & ? & _). eauto 10. }
  exists (concat ((fun p : string * vlevel => pair p.1 <$> outs (lv_buses vw) p.2) <$> ls)), ((fun p => (p.1, (lv_buses vw p.2).2)) <$> ls). split_and!.
  - unfold net_buses. apply flat_eq, Forall_forall. intros [vl lv] Hl. destruct (H vl lv Hl) as (ks & l' & E & _). exists ks. cbn [snd]. by rewrite E.
  - apply flat_nodup; [done|]. apply Forall_forall. intros [vl lv] Hl. destruct (H vl lv Hl) as (ks & l' & E & _ & ? & _). unfold outs. cbn [snd]. by rewrite E.
  - intros vl k. rewrite flat_elem. split; intros (lv & Hl & Hk); exists lv; (split; [done|]); destruct (H vl lv Hl) as (ks & l' & E & _ & _ & Hks); unfold outs in *; rewrite E in *; by apply Hks.
  - exists ((fun p => outs (lv_buses vw) p.2) <$> ls). rewrite fmap_length. split; [|done]. f_equal. clear. induction ls as [|p ls IH]; [done|]. rewrite !fmap_cons. cbn [zip_with]. by rewrite IH.
  - apply Forall2_fmap_r, Forall_Forall2_diag, Forall_forall. intros [vl lv] Hl. destruct (H vl lv Hl) as (ks & l' & E & A & _). unfold compose. cbn [fst snd]. split; [done|]. by rewrite E.
Qed.

(** In the bus view, the ids are distinct throughout the network. *)
Theorem C86_bus_view_ids : forall ls l ls', NoDup ls.*1 -> Forall (fun p => up_to_date BusView p.2) ls ->
  Forall (fun p => match p.2 with VB st => bb_id (e_sh st) | VN st => nb_id (e_sh st) end = p.1) ls ->
  net_buses BusView ls = (Ok l, ls') -> NoDup l.*2.
Proof.
  intros ls l ls' N U HI E. destruct (C86_buses BusView ls N U) as (l0 & ls0 & E0 & N0 & H0 & _). rewrite E in E0. injection E0 as -> ->.
  apply NoDup_fmap_2_strong; [|done]. intros [vl k] [vl' k'] Hp Hp' Hk. cbn in Hk. subst k'. f_equal.
  rewrite Forall_forall in U, HI. apply H0 in Hp as (lv & Hl & Hb), Hp' as (lv' & Hl' & Hb').
  destruct (level_buses BusView lv (U _ Hl)) as (ks & ? & _ & _ & _ & Hks & Hn). apply Hks in Hb. apply Hn in Hb as [n Hn1]; [|done].
  destruct (level_buses BusView lv' (U _ Hl')) as (ks' & ? & _ & _ & _ & Hks' & Hn'). apply Hks' in Hb'. apply Hn' in Hb' as [n' Hn2]; [|done].
  pose proof (HI _ Hl) as E1. pose proof (HI _ Hl') as E2. cbn [fst snd] in E1, E2. rewrite E1 in Hn1. rewrite E2 in Hn2.
  eapply NetViewsProofs.name_level. by rewrite <- Hn1, <- Hn2.
Qed.

(** Two levels: "VL" of C84, and "B" with a configured bus that the user named "VL_0". *)
Definition lb0 : bbst := bb_new "B" {["B"]} {[initial_variant]} (Some initial_variant).
Definition lops : list (eop bbop) :=
  [ECall (BAddBus "VL_0"); ECall (BAddBus "Q"); ECall (BNewTerminal (bline "L") "VL_0" true); ECall (BAddSwitch "S" false "VL_0" "Q")].
Definition lb : bbst := bb_run lb0 lops.
Definition lnet : levels := [("VL", VN vst); ("B", VB lb)].
Lemma lb_reach : bb_reach bb_safe lb.
Proof.
  apply bb_run_reach; [|apply br_new; [set_solver|intros i [= <-]; set_solver]]. do 3 (split; [exact I|]). split; [|exact I].
  cbn [bb_safe]. apply no_merged_test. vm_compute. reflexivity.
Qed.
Lemma lnet_up : NoDup lnet.*1 /\ (forall vw, Forall (fun p => up_to_date vw p.2) lnet) /\
  Forall (fun p => match p.2 with VB st => bb_id (e_sh st) | VN st => nb_id (e_sh st) end = p.1) lnet.
Proof.
  split; [apply NoDup_cons; split; [set_solver|apply NoDup_singleton]|]. split.
  - intros vw. apply Forall_cons. split; [|apply Forall_singleton].
    + cbn [snd up_to_date]. destruct C84_case as (_ & ? & _). exists initial_variant. eexists. split; [vm_compute; reflexivity|]. split; [vm_compute; reflexivity|]. by left.
    + cbn [snd up_to_date]. eexists. split; [exists initial_variant; split; [vm_compute; reflexivity|vm_compute; reflexivity]|]. split; [|left; apply lb_reach].
      intros x _ Hx. assert (size (s_vertices (abs (bb_graph (e_sh lb)))) = 2) as -> by (vm_compute; reflexivity). assert (x <= 0); [|lia]. apply Hx. vm_compute. by eexists.
  - apply Forall_cons. split; [vm_compute; reflexivity|]. apply Forall_singleton. vm_compute. reflexivity.
Qed.
Example C86_case : NoDup lnet.*1 /\ (forall vw, Forall (fun p => up_to_date vw p.2) lnet) /\
  (net_buses BusView lnet).1 = Ok [("VL", "VL_0"); ("B", "B_0")] /\ (net_switches lnet).1 = Ok [("VL", "B1"); ("B", "S")] /\ (net_switch_count lnet).1 = Ok 2.
Proof. split; [apply lnet_up|]. split; [apply lnet_up|]. split; [vm_compute; reflexivity|]. split; vm_compute; reflexivity. Qed.
Lemma wires_run l : forall P st, (wires P st l).2 = bb_run st l.
Proof. induction l as [|o l IH]; intros P st; [done|]. apply IH. Qed.
Example C86_built_case : network_of [("VL", QN vplan); ("B", QB (wires (mkBP ∅ ∅) lb0 lops).1)] lnet.
Proof.
  split; [apply lnet_up|]. apply Forall2_cons. split; [split; [done|]|apply Forall2_cons; split; [split; [done|]|constructor]].
  - apply raised_n; [apply v_built|by exists initial_variant|vm_compute; reflexivity].
  - cbn [fst snd]. assert (lb = (wires (mkBP ∅ ∅) lb0 lops).2) as -> by (symmetry; apply wires_run). apply raised_b; [|vm_compute; reflexivity].
    apply wires_wired; [apply wired_new; [set_solver|intros i [= <-]; set_solver]|]. repeat (split; [exact I|]). exact I.
Qed.

Lemma l_listed : (net_buses BusBreakerView lnet).1 = Ok [("VL", "VL_0"); ("VL", "VL_1"); ("VL", "VL_5"); ("B", "VL_0"); ("B", "Q")].
Proof. vm_compute. reflexivity. Qed.
Lemma fst_of {A B} (p : A * B) a : p.1 = a -> exists b, p = (a, b).
Proof. destruct p as [x y]. intros <-. by exists y. Qed.
(** Not so in the bus/breaker view: the ids of calculated buses are not registered, and a configured bus may have such an id.  Full statement:
    the buses listed have distinct ids, as in the bus view. *)
Theorem C86_bus_breaker_view_ids_refuted : exists ls l ls', NoDup ls.*1 /\ Forall (fun p => up_to_date BusBreakerView p.2) ls /\
  Forall (fun p => match p.2 with VB st => bb_id (e_sh st) | VN st => nb_id (e_sh st) end = p.1) ls /\
  net_buses BusBreakerView ls = (Ok l, ls') /\ ~ NoDup l.*2.
Proof.
  destruct (fst_of _ _ l_listed) as [ls' E]. destruct lnet_up as (H1 & H2 & H3). eexists lnet, _, ls'. split; [exact H1|]. split; [exact (H2 _)|]. split; [exact H3|].
  split; [exact E|]. rewrite !fmap_cons. cbn [snd]. intros N. apply NoDup_cons in N as [N _]. apply N. apply elem_of_list_further, elem_of_list_further, elem_of_list_here.
Qed.
Print Assumptions C86_switches.
Print Assumptions C86_buses.
Print Assumptions C86_bus_view_ids.
Print Assumptions C86_bus_breaker_view_ids_refuted.
