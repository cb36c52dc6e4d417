(** C33, C50, C51: bus-breaker voltage levels whose switches were changed while merged buses were cached. *)
From stdpp Require Import gmap pretty.
From Verif Require Import Base Graph GraphSpec GraphProofs Equip NodeTopo NodeTopoInv BusTopo BusTopoSpec BusTopoProofs BusTopoInv BusTopoView BusTopoProps
  BusViews BusViewsSpec BusViewsBlank BusViewsProofs BusFreshProofs.

(** ** C33: merged buses of a variant without cached merged buses *)
(** The histories are those of [bus_safe]: switches come and go whatever the caches hold.  A configured bus then has a merged bus iff the buses
    linked to it by closed switches carry a connected branch, as long as the working variant has not cached merged buses. *)
Theorem C33_uncached_merged : forall st v b,
  bb_reach bus_safe st -> working st v -> bv_cache v = None -> well_numbered st -> is_bus (e_sh st) b ->
  exists ok st', bb_merged b st = (Ok ok, st') /\ (is_Some ok <-> in_bus_view (e_sh st) v b).
Proof. intros st v b R W Hn WN Hb. by apply unc_merged. Qed.
(** Two configured buses have the same merged bus iff they are linked by closed switches. *)
Theorem C33_uncached_same : forall st v b1 b2 k1 k2 st1 st2,
  bb_reach bus_safe st -> working st v -> bv_cache v = None -> well_numbered st -> is_bus (e_sh st) b1 -> is_bus (e_sh st) b2 ->
  bb_merged b1 st = (Ok (Some k1), st1) -> bb_merged b2 st1 = (Ok (Some k2), st2) ->
  k1 = k2 <-> same_bus (e_sh st) v b1 b2.
Proof. intros st v b1 b2 k1 k2 st1 st2 R W Hn WN H1 H2 E1 E2. by eapply (unc_same st v R W Hn WN b1 b2). Qed.
(** The members of a merged bus: every configured bus linked to it, once each. *)
Theorem C33_uncached_members : forall st v b k st1,
  bb_reach bus_safe st -> working st v -> bv_cache v = None -> well_numbered st -> is_bus (e_sh st) b -> bb_merged b st = (Ok (Some k), st1) ->
  exists us st2, bb_by_id k st1 = (Ok (Some us), st2) /\ NoDup us /\
    forall u, u ∈ us <-> exists b', bb_live (e_sh st) !! u = Some b' /\ same_bus (e_sh st) v b b'.
Proof. intros st v b k st1 R W Hn WN Hb E. by apply (unc_members st v R W Hn WN). Qed.
(** Its connected terminals: those of the linked configured buses, once each. *)
Theorem C33_uncached_terminals : forall st v b k st1,
  bb_reach bus_safe st -> working st v -> bv_cache v = None -> well_numbered st -> is_bus (e_sh st) b -> bb_merged b st = (Ok (Some k), st1) ->
  exists l st2, bb_terminals k st1 = (Ok l, st2) /\ NoDup l /\
    forall t, t ∈ l <-> exists b', same_bus (e_sh st) v b b' /\ hangs (e_sh st) v b' t /\ connected v t.
Proof. intros st v b k st1 R W Hn WN Hb E. by apply (unc_terminals st v R W Hn WN). Qed.

(** The calls that move a switch or connect or disconnect a terminal in the working variant. *)
Definition moves (v : bbvar) (c : bbop) : Prop :=
  match c with
  | BSetOpen id b => bv_open v !! id = Some (negb b)
  | BConnect t => exists b, bv_conn v !! t = Some (false, b)
  | BDisconnect t => exists b, bv_conn v !! t = Some (true, b)
  | _ => False
  end.
(** They end the stale answers: whatever was cached before, the merged buses are right after such a call. *)
Theorem C33_refreshed : forall st v c st' w b,
  bb_reach bus_safe st -> working st v -> moves v c -> bb_step st (ECall c) = (Ok tt, st') -> working st' w -> well_numbered st' -> is_bus (e_sh st') b ->
  exists ok st'', bb_merged b st' = (Ok ok, st'') /\ (is_Some ok <-> in_bus_view (e_sh st') w b).
Proof.
  intros st v c st' w b R W M E W' WN Hb. apply C33_uncached_merged; [|done| |done|done].
  { assert (st' = (bb_step st (ECall c)).2) as -> by (by rewrite E). apply br_step; [done|]. by destruct c. }
  cbn [bb_step estep] in E. destruct c as [| | | | | | | | |t|t|id o| | | |]; try done; cbn [bb_call moves] in E, M.
  - destruct M as [b0 M]. unfold on_bb_terminal in E. destruct (bool_decide _) in E; [|done]. unfold amap, abind in E.
    destruct (bb_connect t st) as [[x|e| |] s] eqn:Ec; try done. injection E as <-. exact (connect_clears st s v t b0 w x W M Ec W').
  - destruct M as [b0 M]. unfold on_bb_terminal in E. destruct (bool_decide _) in E; [|done]. unfold amap, abind in E.
    destruct (bb_disconnect t st) as [[x|e| |] s] eqn:Ec; try done. injection E as <-. exact (disconnect_clears st s v t b0 w x W M Ec W').
  - unfold on_bb_switch in E. rewrite (abind_Ok ashared _ st (e_sh st) st eq_refl) in E. cbv beta in E. destruct (bool_decide _) in E; [|done].
    eapply (set_open_clears st st' v id o (negb o)); [done|done|by destruct o|done|done].
Qed.

(** Calls other than questions about merged buses have defined behaviour in these histories too. *)
Theorem C33_any_cache_memory_safe : forall st c, bb_reach bus_safe st -> bus_safe st (ECall c) -> is_question c = false ->
  (bb_step st (ECall c)).1 <> UB /\ (bb_step st (ECall c)).1 <> OutOfFuel.
Proof.
  intros st c R S Hq. assert (exists P, wired P st) as [P Wd].
  { clear S. induction R as [vl ids vars cur H1 H2|st o _ [P IH] Hs]; [eexists; by apply wired_new|]. eexists. by apply wired_step. }
  destruct (call_weak P st c (proj1 (wired_weak P st Wd)) S (proj2 (wired_weak P st Wd))) as (_ & _ & H). by apply H.
Qed.

(** ** C50, C51 whatever the caches hold *)
Theorem C50_creation_any_cache_partial : forall st i v t b c,
  bb_reach bus_safe st -> e_cur st = Some i -> e_vars st !! i = Some v -> ~ has_term st t -> nt_type t <> BUSBAR_SECTION -> is_bus (e_sh st) b ->
  exists st', bb_step st (ECall (BNewTerminal t b c)) = (Ok tt, st') /\ e_sh st' = e_sh st /\
    forall j w, e_vars st !! j = Some w -> exists w', e_vars st' !! j = Some w' /\ bv_conn w' = <[t := (c, b)]> (bv_conn w) /\
      forall b' t', hangs (e_sh st) w' b' t' <-> hangs (e_sh st) w b' t' \/ (t' = t /\ b' = b).
Proof.
  intros st i v t b c R Hc Hi Hn Hty Hb. pose proof (bus_reach_weak st R) as I.
  destruct (creation_effect (blank st) i (blankv v) t b c I Hc (var_blank _ _ _ Hi)) as (s' & E & Es & H); [|done|done|].
  { intros (j & w' & Hw & Hx). apply blank_var in Hw as (w & Hw & ->). destruct Hn. exists j, w. done. }
  destruct (alike_step st (BNewTerminal t b c) (Ok tt) s' eq_refl E) as (st' & E' & ->). exists st'. split; [done|]. split; [exact Es|].
  intros j w Hw. destruct (H j _ (var_blank _ _ _ Hw)) as (w1 & Hw1 & Hcn & HH). apply blank_var in Hw1 as (w' & Hw' & ->). exists w'. done.
Qed.
Theorem C51_set_connectable_any_cache_partial : forall st i v t c b0 b,
  bb_reach bus_safe st -> e_cur st = Some i -> e_vars st !! i = Some v -> bv_conn v !! t = Some (c, b0) -> hangs (e_sh st) v b0 t -> is_bus (e_sh st) b ->
  exists st', bb_step st (ECall (BSetConnectable t b)) = (Ok tt, st') /\ e_sh st' = e_sh st /\
    forall j w, e_vars st !! j = Some w -> exists w', e_vars st' !! j = Some w' /\
      (forall b' t', hangs (e_sh st) w' b' t' <-> (t' = t /\ b' = b) \/ (t' <> t /\ hangs (e_sh st) w b' t')) /\
      (forall t', t' <> t -> bv_conn w' !! t' = bv_conn w !! t') /\ bv_open w' = bv_open w /\
      (exists cw bw, bv_conn w !! t = Some (cw, bw) /\ bv_conn w' !! t = Some (cw, if bool_decide (j = i) then b else "")).
Proof.
  intros st i v t c b0 b R Hc Hi Hx Hh Hb. pose proof (bus_reach_weak st R) as I.
  destruct (set_connectable_effect (blank st) i (blankv v) t c b0 b I Hc (var_blank _ _ _ Hi) Hx Hh Hb) as (s' & E & _ & Es & _ & H).
  destruct (alike_step st (BSetConnectable t b) (Ok tt) s' eq_refl) as (st' & E' & ->).
  { cbn [bb_call]. unfold on_bb_terminal. rewrite bool_decide_eq_true_2; [done|]. eapply (exists_term (blank st) i (blankv v)); [by apply var_blank|exact Hx]. }
  exists st'. split; [done|]. split; [exact Es|].
  intros j w Hw. destruct (H j _ (var_blank _ _ _ Hw)) as (w1 & Hw1 & HH). apply blank_var in Hw1 as (w' & Hw' & ->). exists w'. done.
Qed.
(** A terminal hangs on at most one bus, the one it names unless its name is lost. *)
Theorem C51_consistent_any_cache : forall st i v t c b b', bb_reach bus_safe st -> e_vars st !! i = Some v -> bv_conn v !! t = Some (c, b) ->
  hangs (e_sh st) v b' t -> b = b' \/ b = "".
Proof.
  intros st i v t c b b' R Hi Hx (u & l & L & Hl & Ht). pose proof (bus_reach_weak st R) as I. pose proof (proj1 (bi_vars _ I) i _ (var_blank _ _ _ Hi)) as IV.
  destruct (vk_conn _ _ IV t c b Hx) as [->|[(w & lw & Lw & Hw & Htw)|Hlo]]; [by right| |by destruct (Hlo u l Hl)].
  left. assert (w = u) as -> by (by eapply (vk_uniq _ _ IV w u)). cbn in Lw. congruence.
Qed.

(** A merged bus is asked for, a switch is added, the answer is stale; the switch S0 opens, the answers are right. *)
Definition bb7 : bbst := bb_run bb0
  [ECall (BAddBus "A"); ECall (BAddBus "B"); ECall (BAddBus "C"); ECall (BNewTerminal (bline "L") "A" true); ECall (BNewTerminal (bload "D") "B" true);
   ECall (BAddSwitch "S0" false "A" "C")].
Definition bb8 : bbst := bb_run bb7 [ECall (BMerged "A"); ECall (BAddSwitch "S" false "A" "B")].
Definition bb9 : bbst := (bb_step bb8 (ECall (BSetOpen "S0" true))).2.
Lemma weak_numbered st : weak st -> match head (g_get_vertices (bb_graph (e_sh st))) with Some x => x <? g_vertex_count (bb_graph (e_sh st)) | None => true end = true ->
  well_numbered st.
Proof. intros I. apply (numbered_test (blank st)), I. Qed.
Lemma bb7_reach : bb_reach bus_safe bb7.
Proof. apply bb_run_reach; [repeat (split; [exact I|]); exact I|apply bb0_reach]. Qed.
Lemma bb8_reach : bb_reach bus_safe bb8.
Proof.
  apply bb_run_reach; [|apply bb7_reach]. split; [|split; [exact I|exact I]].
  apply weak_numbered; [apply bus_reach_weak, bb7_reach|]. vm_compute. reflexivity.
Qed.
Lemma bb9_reach : bb_reach bus_safe bb9. Proof. apply br_step; [apply bb8_reach|exact I]. Qed.
Example C33_uncached_case : bb_reach bus_safe bb8 /\ (exists v, working bb8 v /\ moves v (BSetOpen "S0" true)) /\
  (bb_merged "B" bb8).1 = Ok None /\ (bb_terminals "VL_0" bb8).1 = Ok [bline "L"] /\
  (bb_step bb8 (ECall (BSetOpen "S0" true))).1 = Ok tt /\ well_numbered bb9 /\ is_bus (e_sh bb9) "B" /\ (exists v, working bb9 v /\ bv_cache v = None) /\
  (bb_merged "B" bb9).1 = Ok (Some "VL_0") /\ (bb_merged "C" bb9).1 = Ok None /\ (bb_terminals "VL_0" bb9).1 = Ok [bline "L"; bload "D"].
Proof.
  split; [apply bb8_reach|]. split; [eexists; split; [exists initial_variant; split; [reflexivity|vm_compute; reflexivity]|reflexivity]|].
  split; [vm_compute; reflexivity|]. split; [vm_compute; reflexivity|]. split; [vm_compute; reflexivity|].
  split; [apply weak_numbered; [apply bus_reach_weak, bb9_reach|]; vm_compute; reflexivity|]. split; [exists 1; vm_compute; reflexivity|].
  split; [eexists; split; [exists initial_variant; split; [reflexivity|vm_compute; reflexivity]|reflexivity]|].
  split; [vm_compute; reflexivity|]. split; [vm_compute; reflexivity|]. vm_compute. reflexivity.
Qed.
Example C51_any_cache_case : bb_reach bus_safe bb8 /\ ~ has_term bb8 (bload "F") /\
  (exists v, e_cur bb8 = Some initial_variant /\ e_vars bb8 !! initial_variant = Some v /\ is_Some (bv_cache v) /\ bv_conn v !! bload "D" = Some (true, "B") /\
     hangs (e_sh bb8) v "B" (bload "D")) /\ is_bus (e_sh bb8) "C" /\ (bb_step bb8 (ECall (BSetConnectable (bload "D") "C"))).1 = Ok tt /\
  (bb_step bb8 (ECall (BNewTerminal (bload "F") "C" false))).1 = Ok tt.
Proof.
  split; [apply bb8_reach|]. split.
  { intros (i & v & Hi & Hx). assert (map_Forall (fun _ v => bv_conn v !! bload "F" = None) (e_vars bb8)) as HF.
    { apply (bool_decide_unpack _). vm_compute. exact I. } rewrite (HF i v Hi) in Hx. by destruct Hx. }
  split.
  { eexists. split; [reflexivity|]. split; [vm_compute; reflexivity|]. split; [eexists; reflexivity|]. split; [vm_compute; reflexivity|].
    exists 1, [bload "D"]. split; [vm_compute; reflexivity|]. split; [vm_compute; reflexivity|]. by left. }
  split; [exists 2; vm_compute; reflexivity|]. split; vm_compute; reflexivity.
Qed.
Print Assumptions C33_uncached_merged.
Print Assumptions C33_uncached_same.
Print Assumptions C33_uncached_members.
Print Assumptions C33_uncached_terminals.
Print Assumptions C33_refreshed.
Print Assumptions C33_any_cache_memory_safe.
Print Assumptions C50_creation_any_cache_partial.
Print Assumptions C51_set_connectable_any_cache_partial.
Print Assumptions C51_consistent_any_cache.
