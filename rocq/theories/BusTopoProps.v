(** C33: merged buses of bus-breaker voltage levels.  C31: their caches.  C50, C51: equipment creation, connectable buses. *)
From stdpp Require Import gmap pretty sorting.
From Verif Require Import Base Graph GraphSpec GraphProofs Equip NodeTopo NodeTopoInv BusTopo BusTopoSpec BusTopoProofs BusTopoInv BusTopoView.

(** ** C33: merged buses are the electrical nodes *)
(** A configured bus has a merged bus iff the buses linked to it by closed switches carry a connected branch; asking changes nothing.
    Partial: the histories of [bb_safe]; see the refutations. *)
Theorem C33_merged_partial : forall st v b,
  bb_reach bb_safe st -> working st v -> well_numbered st -> is_bus (e_sh st) b ->
  exists ok st', bb_merged b st = (Ok ok, st') /\ same_but_merged st st' /\ (is_Some ok <-> in_bus_view (e_sh st) v b).
Proof.
  intros st v b H W WN Hb. apply reach_binv in H. destruct (merged_cached st v b H WN W Hb) as (c & st' & u & E & C & L).
  exists (mc_map c !! u), st'. split; [done|]. destruct C as (_ & SB & CG & _). split; [done|]. eapply good_valid; [apply H|done|done].
Qed.
Print Assumptions C33_merged_partial.

(** Two configured buses have the same merged bus iff they are linked by closed switches. *)
Theorem C33_same_partial : forall st v b1 b2 k1 k2 st1 st2,
  bb_reach bb_safe st -> working st v -> well_numbered st -> is_bus (e_sh st) b1 -> is_bus (e_sh st) b2 ->
  bb_merged b1 st = (Ok (Some k1), st1) -> bb_merged b2 st1 = (Ok (Some k2), st2) ->
  k1 = k2 <-> same_bus (e_sh st) v b1 b2.
Proof.
  intros st v b1 b2 k1 k2 st1 st2 H W WN H1 H2 E1 E2. apply reach_binv in H.
  destruct (merged_cached st v b1 H WN W H1) as (c & st' & u & E & C & L). rewrite E1 in E. injection E as Ek <-.
  destruct (merged_again st v c st1 b2 C H2) as (u' & E & L'). rewrite E2 in E. injection E as Ek' _.
  destruct C as (_ & _ & CG & _). eapply good_same; [apply H|exact CG|exact L|done|exact L'|done].
Qed.
Print Assumptions C33_same_partial.

(** The members of a merged bus: every configured bus linked to it, once each. *)
Theorem C33_members_partial : forall st v b k st1,
  bb_reach bb_safe st -> working st v -> well_numbered st -> is_bus (e_sh st) b -> bb_merged b st = (Ok (Some k), st1) ->
  exists us, bb_by_id k st1 = (Ok (Some us), st1) /\ NoDup us /\
    forall u, u ∈ us <-> exists b', bb_live (e_sh st) !! u = Some b' /\ same_bus (e_sh st) v b b'.
Proof.
  intros st v b k st1 H W WN Hb E1. apply reach_binv in H.
  destruct (merged_cached st v b H WN W Hb) as (c & st' & u & E & C & L). rewrite E1 in E. injection E as Ek <-.
  pose proof C as (_ & _ & CG & _). destruct (good_members (e_sh st) v c u b k (bi_sh _ H) CG L (eq_sym Ek)) as (us & Hus & ND & HM).
  exists us. split; [|done]. unfold bb_by_id. rewrite (abind_Ok _ _ _ _ _ (cached_cache _ _ _ _ C)), Hus. done.
Qed.
Print Assumptions C33_members_partial.

(** Its connected terminals: those of the linked configured buses, once each. *)
Theorem C33_terminals_partial : forall st v b k st1,
  bb_reach bb_safe st -> working st v -> well_numbered st -> is_bus (e_sh st) b -> bb_merged b st = (Ok (Some k), st1) ->
  exists l, bb_terminals k st1 = (Ok l, st1) /\ NoDup l /\
    forall t, t ∈ l <-> exists b', same_bus (e_sh st) v b b' /\ hangs (e_sh st) v b' t /\ connected v t.
Proof.
  intros st v b k st1 H W WN Hb E1. apply reach_binv in H.
  destruct (merged_cached st v b H WN W Hb) as (c & st' & u & E & C & L). rewrite E1 in E. injection E as Ek <-.
  pose proof C as (_ & _ & CG & _). destruct (good_members (e_sh st) v c u b k (bi_sh _ H) CG L (eq_sym Ek)) as (us & Hus & _ & HM).
  destruct (terminals_cached st v c st1 k us H C Hus) as (l & El & ND & Hl). exists l. split; [done|]. split; [done|].
  intros t. rewrite Hl. split.
  - intros (w & lw & Hw & Hlw & Ht & Hc). apply HM in Hw as (b' & Lb & Hs). exists b'. split; [done|]. split; [|done]. by exists w, lw.
  - intros (b' & Hs & (w & lw & Lw & Hlw & Ht) & Hc). exists w, lw. split; [|done]. apply HM. eauto.
Qed.
Print Assumptions C33_terminals_partial.

(** getMergedBuses: one merged bus per electrical node of the bus view, numbered from 0 without gap. *)
Theorem C33_ids_partial : forall st v,
  bb_reach bb_safe st -> working st v -> well_numbered st ->
  exists (K : gset string) st' n, bb_merged_ids st = (Ok K, st') /\ same_but_merged st st' /\
    (forall k, k ∈ K <-> exists j, j < n /\ k = bb_id (e_sh st) +:+ "_" +:+ pretty (N.of_nat j)) /\
    (forall k, k ∈ K <-> exists b, is_bus (e_sh st) b /\ (bb_merged b st').1 = Ok (Some k)).
Proof.
  intros st v H W WN. apply reach_binv in H. destruct (query_cached st v H WN W) as (c & st' & E & C). pose proof C as (_ & SB & CG & _).
  destruct (cg_num _ _ _ _ CG) as [n Hn]. exists (dom (mc_id c)), st', n. split; [unfold bb_merged_ids; by rewrite (abind_Ok _ _ _ _ _ E)|].
  split; [done|]. split; [intros k; rewrite elem_of_dom; apply Hn|]. intros k. rewrite elem_of_dom. split.
  - intros [us Hus]. destruct (good_key (e_sh st) v c k us (bi_sh _ H) CG Hus) as (u & b & L & Hk). exists b.
    assert (is_bus (e_sh st) b) as Hb by (by exists u). split; [done|]. destruct (merged_again st v c st' b C Hb) as (u' & -> & L').
    assert (u' = u) as -> by (eapply live_inj; [apply H|done|done]). cbn. by rewrite Hk.
  - intros (b & Hb & Ek). destruct (merged_again st v c st' b C Hb) as (u & Em & L). rewrite Em in Ek. injection Ek as Ek.
    destruct (good_members (e_sh st) v c u b k (bi_sh _ H) CG L Ek) as (us & ? & _). eauto.
Qed.
Print Assumptions C33_ids_partial.

(** A connected branch terminal has a bus, and is one of its terminals. *)
Theorem C33_terminal_bus_partial : forall st v b t,
  bb_reach bb_safe st -> working st v -> well_numbered st -> bv_conn v !! t = Some (true, b) -> hangs (e_sh st) v b t -> is_branch t ->
  exists k st1 l, bb_terminal_bus t st = (Ok (Some k), st1) /\ bb_terminals k st1 = (Ok l, st1) /\ t ∈ l.
Proof.
  intros st v b t H W WN Hx Hh Hbr. assert (is_bus (e_sh st) b) as Hb by (destruct Hh as (u & l & L & _); by exists u).
  assert (connected v t) as Hcn by (by exists b).
  destruct (C33_merged_partial st v b H W WN Hb) as (ok & st1 & E & _ & Hok). destruct (proj2 Hok) as [k ->].
  { exists b, t. split; [apply rtc_refl|]. done. }
  destruct (C33_terminals_partial st v b k st1 H W WN Hb E) as (l & El & _ & Hl). exists k, st1, l. split; [|split; [done|]].
  - destruct W as (i & Hc & Hi). unfold bb_terminal_bus. rewrite (abind_Ok _ _ _ _ _ (bt_get_eq _ _ _ _ _ Hc Hi Hx)). done.
  - apply Hl. exists b. split; [apply rtc_refl|]. done.
Qed.
Print Assumptions C33_terminal_bus_partial.

(** No call of these histories has undefined behaviour. *)
Theorem C33_memory_safe_partial : forall st o, bb_reach bb_safe st -> bb_safe st o -> (bb_step st o).1 <> UB /\ (bb_step st o).1 <> OutOfFuel.
Proof. intros st o H Ho. apply reach_binv in H. destruct (step_fine st o H Ho) as (? & ? & _). done. Qed.
Print Assumptions C33_memory_safe_partial.

(** The condition on the numbers of the vertices is exact. *)
Theorem C33_out_of_bounds : forall st v b, bb_reach bb_safe st -> working st v -> is_bus (e_sh st) b -> bv_cache v = None ->
  (bb_merged b st).1 = UB <-> ~ well_numbered st.
Proof.
  intros st v b H W Hb Ec. split.
  - intros E WN. destruct (C33_merged_partial st v b H W WN Hb) as (ok & st' & E' & _). by rewrite E' in E.
  - intros WN. apply reach_binv in H. destruct W as (i & Hc & Hi). unfold bb_merged.
    destruct (configured_eq st b (bi_sh _ H)) as [(u & x & E & _)|(m & _ & Hn)]; [|done]. rewrite (abind_Ok _ _ _ _ _ E).
    pose proof (cache_oob st i v H WN Hc Hi Ec) as HU. unfold abind. destruct (bb_cache st) as [r st']. cbn in HU. by subst r.
Qed.
Print Assumptions C33_out_of_bounds.

(** *** Concrete voltage levels *)
(** Histories whose calls all have defined behaviour. *)
Definition bb_defined (st : bbst) (o : eop bbop) : Prop := (bb_step st o).1 <> UB.
Fixpoint bb_run (st : bbst) (ops : list (eop bbop)) : bbst := match ops with [] => st | o :: l => bb_run (bb_step st o).2 l end.
Fixpoint bb_all (P : bbst -> eop bbop -> Prop) (st : bbst) (ops : list (eop bbop)) : Prop :=
  match ops with [] => True | o :: l => P st o /\ bb_all P (bb_step st o).2 l end.
Lemma bb_run_reach P ops st : bb_all P st ops -> bb_reach P st -> bb_reach P (bb_run st ops).
Proof. revert st. induction ops as [|o ops IH]; intros st HA H; [done|]. destruct HA as [H1 H2]. simpl. apply IH; [done|]. by apply br_step. Qed.
Definition bb0 : bbst := bb_new "VL" {["VL"]} {[initial_variant]} (Some initial_variant).
Lemma bb0_reach P : bb_reach P bb0.
Proof. apply br_new; [set_solver|]. intros i [= <-]. set_solver. Qed.
Lemma no_merged_test st : bool_decide (map_Forall (fun _ v => bv_cache v = None) (e_vars st)) = true -> no_merged st.
Proof. intros H%bool_decide_eq_true i v Hv. exact (H i v Hv). Qed.
Lemma look {A B} (f : A -> B) (o : option A) x : f <$> o = Some x -> exists v, o = Some v /\ f v = x.
Proof. destruct o as [v|]; [|done]. intros [= <-]. eauto. Qed.
Definition bload (id : string) : nterm := mkNT id 0 LOAD.
Definition bline (id : string) : nterm := mkNT id 0 LINE.
Ltac run_defined := apply bb_run_reach; [vm_compute; repeat (split; [discriminate|]); exact I|apply bb0_reach].

(** Three buses; a closed switch joins A and B, an open one B and C; a line on A, loads on B and C. *)
Definition bops1 : list (eop bbop) :=
  [ECall (BAddBus "A"); ECall (BAddBus "B"); ECall (BAddBus "C"); ECall (BNewTerminal (bline "L") "A" true);
   ECall (BNewTerminal (bload "D") "B" true); ECall (BNewTerminal (bload "E") "C" true);
   ECall (BAddSwitch "S1" false "A" "B"); ECall (BAddSwitch "S2" true "B" "C")].
Definition bb1 : bbst := bb_run bb0 bops1.
Lemma bb1_safe : bb_reach bb_safe bb1.
Proof.
  apply bb_run_reach; [|apply bb0_reach]. do 6 (split; [exact I|]).
  split; [apply no_merged_test; vm_compute; reflexivity|]. split; [apply no_merged_test; vm_compute; reflexivity|]. exact I.
Qed.
Lemma numbered_run st : binv st -> match head (g_get_vertices (bb_graph (e_sh st))) with Some x => x <? g_vertex_count (bb_graph (e_sh st)) | None => true end = true ->
  well_numbered st.
Proof. intros I. apply numbered_test, I. Qed.
Lemma bb1_numbered : well_numbered bb1.
Proof. apply numbered_run; [apply reach_binv, bb1_safe|]. vm_compute. reflexivity. Qed.
Example C33_case : bb_reach bb_safe bb1 /\ well_numbered bb1 /\ (exists v, working bb1 v) /\
  is_bus (e_sh bb1) "A" /\ is_bus (e_sh bb1) "B" /\ is_bus (e_sh bb1) "C" /\
  (bb_merged "A" bb1).1 = Ok (Some "VL_0") /\ (bb_merged "B" bb1).1 = Ok (Some "VL_0") /\ (bb_merged "C" bb1).1 = Ok None /\
  (bb_terminals "VL_0" bb1).1 = Ok [bline "L"; bload "D"] /\ (bb_terminal_bus (bline "L") bb1).1 = Ok (Some "VL_0").
Proof.
  split; [apply bb1_safe|]. split; [apply bb1_numbered|]. split; [eexists; exists initial_variant; split; [reflexivity|vm_compute; reflexivity]|].
  split; [exists 0; vm_compute; reflexivity|]. split; [exists 1; vm_compute; reflexivity|]. split; [exists 2; vm_compute; reflexivity|].
  split; [vm_compute; reflexivity|]. split; [vm_compute; reflexivity|]. split; [vm_compute; reflexivity|]. split; vm_compute; reflexivity.
Qed.

(** Two buses, the first is removed: asking for the merged bus of the other reads outside of a vector. *)
Definition bb2 : bbst := bb_run bb0 [ECall (BAddBus "A"); ECall (BAddBus "B"); ECall (BRemoveBus "A")].
Theorem C33_memory_safe_refuted : exists st b, bb_reach bb_safe st /\ is_bus (e_sh st) b /\ (exists v, working st v) /\ (bb_merged b st).1 = UB.
Proof.
  exists bb2, "B". split; [apply bb_run_reach; [|apply bb0_reach]; repeat (split; [exact I|]); exact I|]. split; [exists 1; vm_compute; reflexivity|].
  split; [eexists; exists initial_variant; split; [reflexivity|vm_compute; reflexivity]|]. vm_compute. reflexivity.
Qed.
Print Assumptions C33_memory_safe_refuted.

(** Two switches are created and removed in the same order, then all the buses: the call throws after having destroyed the buses, and enumerating the
    merged buses afterwards uses a destroyed object. *)
Definition bb3 : bbst :=
  bb_run bb0 [ECall (BAddBus "A"); ECall (BAddBus "B"); ECall (BAddSwitch "S" false "A" "B"); ECall (BAddSwitch "T" false "A" "B");
              ECall (BRemoveSwitch "S"); ECall (BRemoveSwitch "T")].
Theorem C33_remove_all_buses_refuted : exists st st' m,
  bb_reach bb_safe st /\ is_bus (e_sh st) "A" /\ bb_remove_all_buses st = (Throw m, st') /\ (forall b, ~ is_bus (e_sh st') b) /\
  (bb_by_id "VL_0" st').1 = UB.
Proof.
  exists bb3. destruct (bb_remove_all_buses bb3) as [r st'] eqn:E.
  assert (r = (bb_remove_all_buses bb3).1) as Hr by (by rewrite E). assert (st' = (bb_remove_all_buses bb3).2) as Hs by (by rewrite E). clear E.
  subst r st'. do 2 eexists. split.
  { apply bb_run_reach; [|apply bb0_reach]. split; [exact I|]. split; [exact I|].
    do 4 (split; [apply no_merged_test; vm_compute; reflexivity|]). exact I. }
  split; [exists 0; vm_compute; reflexivity|]. split; [apply f_equal2; [vm_compute; reflexivity|reflexivity]|]. split.
  - intros b [u Hu]. assert (map_Forall (fun _ _ => False) (bb_live (e_sh (bb_remove_all_buses bb3).2))) as HF.
    { apply (bool_decide_unpack _). vm_compute. exact I. } exact (HF u b Hu).
  - vm_compute. reflexivity.
Qed.
Print Assumptions C33_remove_all_buses_refuted.

(** A merged bus is queried, its switch and then one of its buses removed: the connected terminals of the merged bus use the
    destroyed bus. *)
Definition bops4 : list (eop bbop) :=
  [ECall (BAddBus "A"); ECall (BAddBus "B"); ECall (BNewTerminal (bline "L") "A" true); ECall (BAddSwitch "S" false "A" "B");
   ECall (BMerged "A"); ECall (BRemoveSwitch "S"); ECall (BRemoveBus "B")].
Definition bb4 : bbst := bb_run bb0 bops4.
Theorem C33_dangling_bus_refuted : exists st k, bb_reach bb_defined st /\ (bb_merged "A" st).1 = Ok (Some k) /\ (bb_terminals k st).1 = UB.
Proof. exists bb4, "VL_0". split; [run_defined|]. split; vm_compute; reflexivity. Qed.
Print Assumptions C33_dangling_bus_refuted.

(** ** C31: the merged buses reflect the current topology *)
(** The full statement is C33_merged_partial, which has no hypothesis on the cache, for all defined histories.  It fails when a switch
    is added or removed after a query. *)
Lemma no_link s v b b' : (forall e, s_edges (abs (bb_graph s)) !! e = None) -> same_bus s v b b' -> b = b'.
Proof.
  intros H. induction 1 as [|x y z Hj _ IH]; [done|]. destruct Hj as (k & e & x1 & x2 & u1 & u2 & [Hj|Hj] & _); by rewrite H in Hj.
Qed.
Definition bb5 : bbst :=
  bb_run bb0 [ECall (BAddBus "A"); ECall (BAddBus "B"); ECall (BNewTerminal (bline "L") "A" true); ECall (BMerged "A");
              ECall (BAddSwitch "S" false "A" "B")].
Lemma working_eq st i v v' : e_cur st = Some i -> e_vars st !! i = Some v -> working st v' -> v' = v.
Proof. intros Hc Hi (j & Hj & Hv). congruence. Qed.
Theorem C31_bus_breaker_add_switch_refuted : exists st b, bb_reach bb_defined st /\ is_bus (e_sh st) b /\ (exists v, working st v) /\
  (bb_merged b st).1 = Ok None /\ forall v, working st v -> in_bus_view (e_sh st) v b.
Proof.
  exists bb5, "B". split; [run_defined|]. split; [exists 1; vm_compute; reflexivity|].
  assert (exists v, e_vars bb5 !! initial_variant = Some v /\ bv_open v !! "S" = Some false /\ bv_terms v !! 0 = Some [bline "L"] /\ bv_conn v !! bline "L" = Some (true, "A")) as (v & Hv & H1 & H2 & H3).
  { eexists. split; [vm_compute; reflexivity|]. split; [vm_compute; reflexivity|]. split; vm_compute; reflexivity. }
  split; [exists v, initial_variant; split; [reflexivity|done]|]. split; [vm_compute; reflexivity|]. intros v' W.
  rewrite (working_eq bb5 initial_variant v v' eq_refl Hv W). exists "A", (bline "L"). split.
  - apply rtc_once. exists "S", 0, 1, 0, 1, 0. split; [right; rewrite abs_edges; vm_compute; reflexivity|]. split; [done|].
    split; [unfold on_vertex; rewrite abs_vertices; vm_compute; reflexivity|]. split; [unfold on_vertex; rewrite abs_vertices; vm_compute; reflexivity|].
    split; vm_compute; reflexivity.
  - split; [exists 0, [bline "L"]; split; [vm_compute; reflexivity|]; split; [done|by left]|]. split; [by exists "A"|]. by left.
Qed.
Print Assumptions C31_bus_breaker_add_switch_refuted.

Definition bb6 : bbst :=
  bb_run bb0 [ECall (BAddBus "A"); ECall (BAddBus "B"); ECall (BNewTerminal (bline "L") "A" true); ECall (BAddSwitch "S" false "A" "B");
              ECall (BMerged "A"); ECall (BRemoveSwitch "S")].
Theorem C31_bus_breaker_remove_switch_refuted : exists st b k, bb_reach bb_defined st /\ is_bus (e_sh st) b /\ (exists v, working st v) /\
  (bb_merged b st).1 = Ok (Some k) /\ forall v, working st v -> ~ in_bus_view (e_sh st) v b.
Proof.
  exists bb6, "B", "VL_0". split; [run_defined|]. split; [exists 1; vm_compute; reflexivity|].
  assert (exists v, e_vars bb6 !! initial_variant = Some v /\ bv_terms v !! 1 = Some []) as (v & Hv & H1).
  { eexists. split; vm_compute; reflexivity. }
  split; [exists v, initial_variant; split; [reflexivity|done]|]. split; [vm_compute; reflexivity|]. intros v' W.
  rewrite (working_eq bb6 initial_variant v v' eq_refl Hv W). intros (b' & t & Hs & (u & l & L & Hl & Ht) & _).
  apply no_link in Hs.
  2:{ intros e. rewrite abs_edges. destruct e as [|e]; [vm_compute; reflexivity|].
      assert (length (g_edges (bb_graph (e_sh bb6))) <= S e) as Hlen by (apply (Nat.le_trans _ 1); [vm_compute; lia|lia]).
      apply lookup_ge_None_2 in Hlen. by rewrite Hlen. }
  subst b'. assert (map_Forall (fun u b => b = "B" -> u = 1) (bb_live (e_sh bb6))) as HF.
  { apply (bool_decide_unpack _). vm_compute. exact I. }
  rewrite (HF u "B" L eq_refl) in Hl. rewrite H1 in Hl. injection Hl as <-. by apply elem_of_nil in Ht.
Qed.
Print Assumptions C31_bus_breaker_remove_switch_refuted.

(** ** C50: a failed creation leaves no trace *)
(** The equipment is registered before its terminal is attached: an unknown bus makes add() throw, but the equipment exists. *)
Theorem C50_failed_creation_refuted : exists st st' t m, bb_reach bb_safe st /\ ~ has_term st t /\
  bb_new_terminal t "unknown" true st = (Throw m, st') /\ has_term st' t /\
  exists m', bb_new_terminal t "A" true st' = (Throw m', st').
Proof.
  set (st := bb_run bb0 [ECall (BAddBus "A")]).
  destruct (bb_new_terminal (bload "D") "unknown" true st) as [r st'] eqn:E.
  assert (r = (bb_new_terminal (bload "D") "unknown" true st).1) as Hr by (by rewrite E).
  assert (st' = (bb_new_terminal (bload "D") "unknown" true st).2) as Hs by (by rewrite E). clear E.
  assert (has_term st' (bload "D")) as HT. { subst st'. exists initial_variant. eexists. split; [vm_compute; reflexivity|]. vm_compute. eauto. }
  exists st, st', (bload "D"). eexists. split; [apply bb_run_reach; [split; exact I|apply bb0_reach]|]. split.
  { intros (i & v & Hi & Hx). assert (map_Forall (fun _ v => bv_conn v !! bload "D" = None) (e_vars st)) as HF.
    { apply (bool_decide_unpack _). vm_compute. exact I. } rewrite (HF i v Hi) in Hx. by destruct Hx. }
  split; [rewrite Hs, (surjective_pairing (bb_new_terminal (bload "D") "unknown" true st)) at 1; apply f_equal2; [vm_compute; reflexivity|reflexivity]|]. split; [done|].
  eexists. unfold bb_new_terminal. erewrite abind_Throw; [reflexivity|]. rewrite bool_decide_eq_true_2 by exact HT. reflexivity.
Qed.
Print Assumptions C50_failed_creation_refuted.

(** What holds: a failed call of another kind, or creation on an existing bus, changes nothing of the model. *)
Theorem C50_creation_partial : forall st i v t b c,
  bb_reach bb_safe st -> e_cur st = Some i -> e_vars st !! i = Some v -> ~ has_term st t -> nt_type t <> BUSBAR_SECTION -> is_bus (e_sh st) b ->
  exists st', bb_new_terminal t b c st = (Ok tt, st') /\ e_sh st' = e_sh st /\
    forall j w, e_vars st !! j = Some w -> exists w', e_vars st' !! j = Some w' /\ bv_conn w' = <[t := (c, b)]> (bv_conn w) /\
      forall b' t', hangs (e_sh st) w' b' t' <-> hangs (e_sh st) w b' t' \/ (t' = t /\ b' = b).
Proof.
  intros st i v t b c H Hc Hi Hn Hty Hb. apply reach_binv in H. unfold bb_new_terminal.
  assert (b <> "") as Hbe. { intros ->. destruct Hb as [u Hu]. by destruct (sk_live _ (bi_sh _ H) u "" Hu) as (_ & _ & _ & ?). }
  set (f := fun v => mkBV (bv_open v) (bv_terms v) (<[t := (c, b)]> (bv_conn v)) (bv_cache v)).
  set (st1 := mkE (e_sh st) (f <$> e_vars st) (e_cur st)).
  rewrite (abind_Ok _ _ st tt st1). 2:{ rewrite !bool_decide_eq_false_2 by done. done. }
  assert (forall j w, e_vars st !! j = Some w -> bv_conn w !! t = None) as Hno.
  { intros j w Hw. destruct (bv_conn w !! t) eqn:E; [|done]. destruct Hn. exists j, w. split; [done|eauto]. }
  assert (forall j w u l t', e_vars st !! j = Some w -> bv_terms w !! u = Some l -> t' ∈ l -> t' <> t) as Hnt.
  { intros j w u l t' Hw Hl Ht ->. destruct (vk_known _ _ (proj1 (bi_vars _ H) j w Hw) u l t Hl Ht) as [[x Hx] _]. by rewrite (Hno j w Hw) in Hx. }
  assert (binv st1) as I1.
  { apply fmap_binv; [done|apply H| |].
    - intros j w Hw. pose proof (proj1 (bi_vars _ H) j w Hw) as [V1 V2 V3 V4 V5 V6 V7]. split; cbn; try done.
      + intros u l t' Hl Ht'. destruct (V3 u l t' Hl Ht') as [K1 K2]. split; [|done]. cbn. rewrite lookup_insert_ne; [done|]. intros <-. by eapply (Hnt j w u l t).
      + intros t' c' b' [[<- [= <- <-]]|[Hne Hx]]%lookup_insert_Some; [|by eapply V6]. right. right. intros u l Hl Ht. by eapply (Hnt j w u l t).
      + intros c0 Hc0. eapply (cache_same _ w); [done|done| |by apply V7]. intros u l t' Hl Ht'. cbn. rewrite lookup_insert_ne; [done|]. intros <-. by eapply (Hnt j w u l t).
    - intros j k w w' Hj Hk. destruct (proj2 (bi_vars _ H) j k w w' Hj Hk) as [A1 A2]. split; [done|]. intros t'. cbn.
      destruct (decide (t = t')) as [<-|]; [rewrite !lookup_insert; split; eauto|by rewrite !lookup_insert_ne]. }
  destruct (attach_ok st1 i (f v) t c b I1 Hc) as (u & L & E).
  { unfold st1. cbn. by rewrite lookup_fmap, Hi. } { cbn. by rewrite lookup_insert. } { done. }
  eexists. split; [exact E|]. split; [done|]. intros j w Hw. cbn [e_vars]. unfold st1. cbn [e_vars]. rewrite !lookup_fmap, Hw. cbn.
  eexists. split; [reflexivity|]. split; [done|]. intros b' t'.
  assert (vok (e_sh st) (f w)) as IW. { apply (proj1 (bi_vars _ I1) j). unfold st1. cbn. by rewrite lookup_fmap, Hw. }
  exact (attach_hangs (e_sh st) (f w) u t b b' t' (bi_sh _ H) IW L).
Qed.
Print Assumptions C50_creation_partial.
Example C50_case : bb_reach bb_safe bb1 /\ ~ has_term bb1 (bload "F") /\ is_bus (e_sh bb1) "C" /\ e_cur bb1 = Some initial_variant /\
  (bb_new_terminal (bload "F") "C" false bb1).1 = Ok tt.
Proof.
  split; [apply bb1_safe|]. split.
  { intros (i & v & Hi & Hx). assert (map_Forall (fun _ v => bv_conn v !! bload "F" = None) (e_vars bb1)) as HF.
    { apply (bool_decide_unpack _). vm_compute. exact I. } rewrite (HF i v Hi) in Hx. by destruct Hx. }
  split; [exists 2; vm_compute; reflexivity|]. split; [reflexivity|]. vm_compute. reflexivity.
Qed.

(** ** C51: setConnectableBus moves the terminal, in the working variant only *)
(** Exact effect.  In the working variant: the terminal leaves its bus for the new one, keeps its connection status, and nothing else
    changes.  In every other variant the terminal is moved too, and its connectable bus id is lost. *)
Theorem C51_set_connectable_partial : forall st i v t c b0 b,
  bb_reach bb_safe st -> e_cur st = Some i -> e_vars st !! i = Some v -> bv_conn v !! t = Some (c, b0) -> hangs (e_sh st) v b0 t -> is_bus (e_sh st) b ->
  exists st', bb_set_connectable t b st = (Ok tt, st') /\ e_sh st' = e_sh st /\
    forall j w, e_vars st !! j = Some w -> exists w', e_vars st' !! j = Some w' /\
      (forall b' t', hangs (e_sh st) w' b' t' <-> (t' = t /\ b' = b) \/ (t' <> t /\ hangs (e_sh st) w b' t')) /\
      (forall t', t' <> t -> bv_conn w' !! t' = bv_conn w !! t') /\ bv_open w' = bv_open w /\
      (exists cw bw, bv_conn w !! t = Some (cw, bw) /\ bv_conn w' !! t = Some (cw, if bool_decide (j = i) then b else "")).
Proof.
  intros st i v t c b0 b H Hc Hi Hx Hh Hb. apply reach_binv in H.
  destruct (set_connectable_effect st i v t c b0 b H Hc Hi Hx Hh Hb) as (st' & E & _ & Es & _ & HE). eauto.
Qed.
Print Assumptions C51_set_connectable_partial.
Example C51_case : bb_reach bb_safe bb1 /\ (exists v, e_cur bb1 = Some initial_variant /\ e_vars bb1 !! initial_variant = Some v /\
    bv_conn v !! bload "D" = Some (true, "B") /\ hangs (e_sh bb1) v "B" (bload "D")) /\ is_bus (e_sh bb1) "C" /\
  (bb_set_connectable (bload "D") "C" bb1).1 = Ok tt.
Proof.
  split; [apply bb1_safe|]. split.
  { destruct (look (fun v => (bv_conn v !! bload "D", bv_terms v !! 1)) (e_vars bb1 !! initial_variant) (Some (true, "B"), Some [bload "D"])) as (v & Hv & [= H1 H2]);
      [vm_compute; reflexivity|].
    exists v. split; [reflexivity|]. split; [exact Hv|]. split; [exact H1|]. exists 1, [bload "D"]. split; [vm_compute; reflexivity|]. split; [exact H2|by left]. }
  split; [exists 2; vm_compute; reflexivity|]. vm_compute. reflexivity.
Qed.

(** The full statement fails: after setConnectableBus in one variant, the terminal cannot be asked for its bus in another. *)
Definition bb7 : bbst := bb_run bb1 [EClone initial_variant "V2" false].
Definition bb8 : bbst := (bb_set_connectable (bload "D") "C" bb7).2.
Definition bb9 : bbst := (bb_step bb8 (EWork "V2")).2.
Lemma pair_snd {A B} (p : A * B) a : p.1 = a -> p = (a, p.2).
Proof. by destruct p; intros <-. Qed.
Theorem C51_other_variant_refuted : exists st st' st2 t v w,
  bb_reach bb_safe st /\ e_vars st !! "V2" = Some v /\ bv_conn v !! t = Some (true, "B") /\
  bb_set_connectable t "C" st = (Ok tt, st') /\ e_cur st' = Some initial_variant /\
  e_vars st' !! "V2" = Some w /\ bv_conn w !! t = Some (true, "") /\ hangs (e_sh st') w "C" t /\
  bb_step st' (EWork "V2") = (Ok tt, st2) /\ exists m, (bb_terminal_bus t st2).1 = Throw m.
Proof.
  destruct (look (fun v => bv_conn v !! bload "D") (e_vars bb7 !! "V2") (Some (true, "B"))) as (v & Hv & H1); [vm_compute; reflexivity|].
  destruct (look (fun v => (bv_conn v !! bload "D", bv_terms v !! 2)) (e_vars bb8 !! "V2") (Some (true, ""), Some [bload "E"; bload "D"])) as (w & Hw & [= H2 H3]);
    [vm_compute; reflexivity|].
  exists bb7, bb8, bb9, (bload "D"), v, w.
  split. { apply bb_run_reach; [split; exact I|apply bb1_safe]. }
  split; [exact Hv|]. split; [exact H1|]. split; [apply (pair_snd (bb_set_connectable (bload "D") "C" bb7)); vm_compute; reflexivity|].
  split; [vm_compute; reflexivity|]. split; [exact Hw|]. split; [exact H2|].
  split. { exists 2, [bload "E"; bload "D"]. split; [vm_compute; reflexivity|]. split; [exact H3|]. right. by left. }
  split; [apply (pair_snd (bb_step bb8 (EWork "V2"))); vm_compute; reflexivity|]. eexists. vm_compute. reflexivity.
Qed.
Print Assumptions C51_other_variant_refuted.

(** A terminal hangs on at most one bus, the one it names unless its name is lost. *)
Theorem C51_consistent : forall st i v t c b b', bb_reach bb_safe st -> e_vars st !! i = Some v -> bv_conn v !! t = Some (c, b) ->
  hangs (e_sh st) v b' t -> b = b' \/ b = "".
Proof.
  intros st i v t c b b' H Hi Hx (u & l & L & Hl & Ht). apply reach_binv in H. pose proof (proj1 (bi_vars _ H) i v Hi) as IV.
  destruct (vk_conn _ _ IV t c b Hx) as [->|[(w & lw & Lw & Hw & Htw)|Hlo]]; [by right| |by destruct (Hlo u l Hl)].
  left. assert (w = u) as -> by (by eapply (vk_uniq _ _ IV w u)). congruence.
Qed.
Print Assumptions C51_consistent.
