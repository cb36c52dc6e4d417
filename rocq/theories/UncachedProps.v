(** C59, C68, C87: buses asked while the working variant holds no cache, after any history, stale caches included. *)
From stdpp Require Import gmap pretty sorting.
From Verif Require Import Base Graph GraphSpec GraphProofs Equip NodeTopo NodeTopoSpec NodeTopoProofs NodeTopoInv NodeTopoConn NodeTopoProps NodeFreshProofs
  NodeFreshProps BusTopo BusTopoSpec BusTopoProofs BusTopoInv BusTopoView BusTopoProps BusViews BusViewsSpec BusViewsBlank BusViewsProofs BusFreshProofs BusFreshProps BusValues BusValuesSpec
  BusValuesProofs BusValuesProps TopoExport TopoExportProps Visit VisitSpec VisitProofs VisitProps BusLists BusListsSpec BusListsProofs BusListsProps.

Lemma unc_calculated vw st i v n : nb_reach any_safe st -> e_cur st = Some i -> e_vars st !! i = Some v -> nv_cache vw v = None -> one_node (nbg st) ->
  in_bus vw (nbg st) (nv_sw v) n ->
  exists k b st', bus_name vw (nbg st) (nv_sw v) (nb_id (e_sh st)) n k /\ nb_bus_of_id vw k st = (Ok (Some b), st') /\ NoDup (cb_terms b) /\
    forall t, t ∈ cb_terms b <-> exists m, same_node vw (nbg st) (nv_sw v) n m /\ term_at (nbg st) m t.
Proof.
  intros H Hc Hi Hu ON Hn. destruct (C30_uncached_buses vw st i v H Hc Hi Hu) as (m & st' & E & H1 & H2).
  destruct (H2 n Hn) as (k & b & Hk & B). exists k, b, st'. destruct (H1 k b Hk) as [Ek _].
  split; [destruct B as [B _]; by rewrite Ek in B|]. split.
  { unfold nb_buses, abind, aret in E. unfold nb_bus_of_id, abind, aret. destruct (nb_cache vw st) as [[c|?| |] s]; try done.
    injection E as <- <-. by rewrite Hk. }
  split; [|intros t; by eapply C30_terminals].
  destruct B as (_ & nodes & ND & _ & ->). apply NoDup_omap_at; [|done]. intros x y t Hx Hy. apply (ON x y t); unfold term_at;
    [destruct (s_vertices (nbg st) !! x) as [[?|]|]|destruct (s_vertices (nbg st) !! y) as [[?|]|]]; cbn in *; congruence.
Qed.

(** Visits of calculated and merged buses. *)
Theorem C68_uncached_calculated : forall A es (vis : A -> vcall -> result A) a vw st i v n,
  nb_reach any_safe st -> e_cur st = Some i -> e_vars st !! i = Some v -> nv_cache vw v = None -> one_node (nbg st) ->
  (forall m t, term_at (nbg st) m t -> owned es t) -> in_bus vw (nbg st) (nv_sw v) n ->
  exists k r st', bus_name vw (nbg st) (nv_sw v) (nb_id (e_sh st)) n k /\
    calculated_visit_all es vis vw k a st = (r, st') /\ calculated_visit_connected es vis vw k a st = (r, st') /\
    visits_each (fun t => exists m, same_node vw (nbg st) (nv_sw v) n m /\ term_at (nbg st) m t) vis a r.
Proof.
  intros A es vis a vw st i v n H Hc Hi Hu ON Ho Hn. destruct (unc_calculated vw st i v n H Hc Hi Hu ON Hn) as (k & b & st' & Hk & Eb & ND & Ht).
  exists k. eexists. exists st'. split; [done|]. split; [|split].
  - unfold calculated_visit_all. rewrite (abind_Ok _ _ _ _ _ Eb). reflexivity.
  - unfold calculated_visit_connected. rewrite (abind_Ok _ _ _ _ _ Eb). reflexivity.
  - apply visits_list; [done|done|]. intros t (x & _ & Hx). by eapply Ho.
Qed.
Theorem C68_uncached_merged : forall A es (vis : A -> vcall -> result A) a st v b k st1,
  bb_reach bus_safe st -> working st v -> bv_cache v = None -> well_numbered st -> is_bus (e_sh st) b -> bb_merged b st = (Ok (Some k), st1) ->
  (forall b' t, hangs (e_sh st) v b' t -> owned es t) ->
  exists r st2, merged_visit_connected es vis k a st1 = (r, st2) /\
     visits_each (fun t => exists b', same_bus (e_sh st) v b b' /\ hangs (e_sh st) v b' t /\ connected v t) vis a r.
Proof.
  intros A es vis a st v b k st1 H W Hn WN Hb E1 Ho. destruct (C33_uncached_terminals st v b k st1 H W Hn WN Hb E1) as (l & st2 & El & ND & Hl).
  eexists. exists st2. split.
  - unfold merged_visit_connected. rewrite (abind_Ok _ _ _ _ _ El). reflexivity.
  - apply visits_list; [done|done|]. intros t (b' & _ & Ht & _). by apply (Ho b').
Qed.
(** with the equipments only connectable to it. *)
Theorem C68_uncached_merged_all : forall A es (vis : A -> vcall -> result A) a st v b k st1,
  bb_reach bus_safe st -> working st v -> bv_cache v = None -> well_numbered st -> is_bus (e_sh st) b -> bb_merged b st = (Ok (Some k), st1) ->
  (forall b' t, hangs (e_sh st) v b' t -> owned es t) ->
  exists r st2, merged_visit_all es vis k a st1 = (r, st2) /\
     visits_each (fun t => exists b', same_bus (e_sh st) v b b' /\ hangs (e_sh st) v b' t) vis a r.
Proof.
  intros A es vis a st v b k st1 H W Hn WN Hb E1 Ho. destruct (near_blank st v W Hn) as [N W'].
  pose proof (bus_reach_weak st H : binv (blank st)) as I. destruct (near_Ok' _ _ _ _ _ (nearly_merged b) N E1) as (s1 & F1 & N1).
  assert (nearly (merged_visit_all es vis k a)) as NV.
  { unfold merged_visit_all. apply nearly_bind; [apply nearly_by_id|]. intros [us|]; [|near]. revert a. clear. induction us as [|u us IH]; intros a; cbn [merged_loop];
      [near|]. unfold bus_terms. apply nearly_bind; [near|]. intros l. apply nearly_bind; [near|done]. }
  destruct (NV _ _ N1) as [E _]. destruct (merged_visit_all es vis k a st1) as [r st2]. exists r, st2. split; [done|]. cbn [fst] in E.
  destruct (merged_cached (blank st) v b I WN W' Hb) as (c & st' & u & E' & C & L). rewrite F1 in E'. injection E' as Ek <-.
  pose proof C as (_ & _ & CG & _). destruct (good_members (e_sh st) v c u b k (bi_sh _ I) CG L (eq_sym Ek)) as (us & Hus & ND & HM).
  destruct (merged_all_ok es vis a (blank st) v I c s1 k us C Hus) as (r' & ls & Er & -> & ND' & Hls). rewrite Er in E. cbn [fst] in E. subst r.
  apply visits_list; [done|..].
  - intros t. rewrite Hls. split.
    + intros (w & lw & Hw & Hlw & Ht). apply HM in Hw as (b' & Lb & Hs). exists b'. split; [done|]. by exists w, lw.
    + intros (b' & Hs & (w & lw & Lw & Hlw & Ht)). exists w, lw. split; [|done]. apply HM. eauto.
  - intros t (b' & _ & Ht). by apply (Ho b').
Qed.
(** The equipments listed by calculated and merged buses. *)
Theorem C87_uncached_calculated : forall cs g vw st i v n,
  nb_reach any_safe st -> e_cur st = Some i -> e_vars st !! i = Some v -> nv_cache vw v = None -> one_node (nbg st) -> in_bus vw (nbg st) (nv_sw v) n ->
  exists k b st', bus_name vw (nbg st) (nv_sw v) (nb_id (e_sh st)) n k /\ nb_bus_of_id vw k st = (Ok (Some b), st') /\
    lists_each cs g (fun t => exists m, same_node vw (nbg st) (nv_sw v) n m /\ term_at (nbg st) m t) (calculated_list cs g b).
Proof.
  intros cs g vw st i v n H Hc Hi Hu ON Hn. destruct (unc_calculated vw st i v n H Hc Hi Hu ON Hn) as (k & b & st' & Hk & Eb & ND & Ht).
  exists k, b, st'. split; [done|]. split; [done|]. by apply all_lists.
Qed.
Theorem C87_uncached_merged : forall cs g st v b k st1,
  bb_reach bus_safe st -> working st v -> bv_cache v = None -> well_numbered st -> is_bus (e_sh st) b -> bb_merged b st = (Ok (Some k), st1) ->
  exists l st2, merged_list cs g k st1 = (Ok l, st2) /\
    lists_each cs g (fun t => exists b', same_bus (e_sh st) v b b' /\ hangs (e_sh st) v b' t /\ connected v t) l.
Proof.
  intros cs g st v b k st1 H W Hn WN Hb E1. destruct (C33_uncached_terminals st v b k st1 H W Hn WN Hb E1) as (l & st2 & El & ND & Hl).
  eexists. exists st2. split; [|by apply all_lists]. unfold merged_list, amap. rewrite (abind_Ok _ _ _ _ _ El). reflexivity.
Qed.
(** setV on a merged bus. *)
Theorem C59_uncached_merged : forall {A} (neg : A -> bool) st v b k st1 x f,
  bb_reach bus_safe st -> working st v -> bv_cache v = None -> well_numbered st -> is_bus (e_sh st) b -> bb_merged b st = (Ok (Some k), st1) -> acceptable neg x ->
  exists us st2 f', bb_by_id k st1 = (Ok (Some us), st2) /\ merged_set neg us x f = (Ok tt, f') /\ merged_get us f' = x /\
    (forall u b', bb_live (e_sh st) !! u = Some b' -> same_bus (e_sh st) v b b' -> f' u = x) /\
    (forall u b', bb_live (e_sh st) !! u = Some b' -> ~ same_bus (e_sh st) v b b' -> f' u = f u).
Proof.
  intros A neg st v b k st1 x f H W Hn WN Hb E1 Hx.
  destruct (C33_uncached_members st v b k st1 H W Hn WN Hb E1) as (us & st2 & Eu & ND & HM).
  destruct (merged_set_ok neg us x f Hx) as (f' & Ef & F1 & F2). exists us, st2, f'. split; [done|]. split; [done|].
  assert (us <> []) as Hne.
  { destruct Hb as [u Hu]. assert (u ∈ us) as Hin; [apply HM; exists b; split; [done|apply rtc_refl]|]. intros ->. by apply elem_of_nil in Hin. }
  split; [by apply merged_get_all|]. split.
  - intros u b' Hl Hs. apply F1, HM. eauto.
  - intros u b' Hl Hs. apply F2. intros (b2 & Hl' & Hs')%HM. assert (b2 = b') as -> by congruence. done.
Qed.

(** *** Concrete levels *)
(** The node-breaker level of C31_refreshed_case, whose views were stale until a switch moved; the bus-breaker level of C33_uncached_case. *)
Definition es59 : gmap string equipment := {["L" := eq1 "L" LINE; "D" := eq1 "D" LOAD; "S" := eq1 "S" BUSBAR_SECTION]}.
Example C87_uncached_case : nb_reach any_safe nb2m /\ one_node (nbg nb2m) /\
  (exists v, e_cur nb2m = Some initial_variant /\ e_vars nb2m !! initial_variant = Some v /\ nv_cache BusView v = None) /\
  (nb_bus_of_id BusView "VL_0" nb2m).1 = Ok (Some (mkCB "VL_0" [sec "S"; line "L"])) /\
  calculated_list {["L" := Line; "D" := Load; "S" := BusbarSection]} GetLines (mkCB "VL_0" [sec "S"; line "L"]) = ["L"%string] /\
  (calculated_visit_all es59 record BusView "VL_0" [] nb2m).1 = Ok [VBusbarSection "S"; VLine "L" ONE].
Proof.
  split. { apply nr_step; [apply nb_run_reach; [safe_ops|apply nb1_reach]|done]. }
  split; [apply one_node_dec; vm_compute; reflexivity|]. split; [eexists; split; [reflexivity|]; split; [vm_compute; reflexivity|reflexivity]|].
  split; [vm_compute; reflexivity|]. split; vm_compute; reflexivity.
Qed.
Example C59_uncached_case : bb_reach bus_safe bb9 /\ well_numbered bb9 /\ is_bus (e_sh bb9) "B" /\ (exists v, working bb9 v /\ bv_cache v = None) /\
  (bb_merged "B" bb9).1 = Ok (Some "VL_0") /\ (merged_list {["L" := Line; "D" := Load]} GetLoads "VL_0" bb9).1 = Ok ["D"%string] /\
  (merged_visit_connected es59 record "VL_0" [] bb9).1 = Ok [VLine "L" ONE; VLoad "D"] /\ (merged_visit_all es59 record "VL_0" [] bb9).1 = Ok [VLine "L" ONE; VLoad "D"].
Proof.
  destruct C33_uncached_case as (_ & _ & _ & _ & _ & W & B & V & E & _). split; [apply bb9_reach|]. do 4 (split; [done|]).
  split_and!; vm_compute; reflexivity.
Qed.
Print Assumptions C68_uncached_calculated.
Print Assumptions C68_uncached_merged.
Print Assumptions C87_uncached_calculated.
Print Assumptions C87_uncached_merged.
Print Assumptions C59_uncached_merged.
Print Assumptions C68_uncached_merged_all.
