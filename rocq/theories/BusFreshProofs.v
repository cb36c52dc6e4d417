(** What a bus-breaker voltage level answers about merged buses depends on the caches of the working variant only. *)
From stdpp Require Import gmap.
From Verif Require Import Base Graph GraphSpec GraphProofs Equip NodeTopo NodeTopoInv BusTopo BusTopoSpec BusTopoProofs BusTopoInv BusTopoView BusViews BusViewsSpec BusViewsBlank BusViewsProofs.

(** The same level, the same contents of the working variant. *)
Definition near (st st' : bbst) : Prop :=
  e_sh st' = e_sh st /\ e_cur st' = e_cur st /\ forall i, e_cur st = Some i -> e_vars st' !! i = e_vars st !! i.
Definition nearly {A} (m : bbact A) : Prop := forall st st', near st st' -> (m st').1 = (m st).1 /\ near (m st).2 (m st').2.
Lemma nearly_bind {A B} (m : bbact A) (f : A -> bbact B) : nearly m -> (forall a, nearly (f a)) -> nearly (abind m f).
Proof.
  intros H1 H2 st st' N. unfold abind. destruct (H1 st st' N) as [E N']. destruct (m st) as [r s1], (m st') as [r' s2]. cbn in E, N'. subst r'.
  destruct r as [a|e| |]; cbn; try done. by apply H2.
Qed.
Lemma nearly_ret {A} (a : A) : nearly (aret a). Proof. done. Qed.
Lemma nearly_throw {A} e : nearly (athrow (A := A) e). Proof. done. Qed.
Lemma nearly_lift {A} (r : result A) : nearly (alift r). Proof. done. Qed.
Lemma nearly_shared : nearly ashared. Proof. intros st st' N. pose proof N as (E & _). unfold ashared. cbn. by rewrite E. Qed.
Lemma nearly_index : nearly aindex. Proof. intros st st' N. pose proof N as (_ & E & _). unfold aindex. rewrite E. by destruct (e_cur st). Qed.
Lemma nearly_get : nearly aget.
Proof.
  intros st st' N. pose proof N as (_ & E & H). unfold aget, abind, aindex. rewrite E. destruct (e_cur st) as [i|] eqn:Ec; [|done]. rewrite (H i eq_refl).
  by destruct (e_vars st !! i).
Qed.
Lemma nearly_put v : nearly (aput v).
Proof.
  intros st st' N. pose proof N as (Es & E & H). unfold aput, abind, aindex. rewrite E. destruct (e_cur st) as [i|] eqn:Ec; [|done]. rewrite (H i eq_refl).
  destruct (e_vars st !! i); [|done]. split; [done|]. split; [done|]. split; [cbn; congruence|]. intros j. cbn. rewrite Ec. intros [= <-]. by rewrite !lookup_insert.
Qed.
Lemma nearly_bgact {A} (f : graph nat string -> graph nat string * result A) : nearly (bgact f).
Proof.
  intros st st' N. pose proof N as (Es & E & H). unfold bgact. rewrite Es. destruct (f (bb_graph (e_sh st))) as [g r]. split; [done|]. split; [done|]. split; [done|]. exact H.
Qed.
Ltac near := repeat first [apply nearly_ret | apply nearly_throw | apply nearly_lift | apply nearly_shared | apply nearly_index | apply nearly_get | apply nearly_put | apply nearly_bgact
  | match goal with |- nearly (match ?x with _ => _ end) => destruct x end | apply nearly_bind; [|intros ?]].
Lemma nearly_cache : nearly bb_cache. Proof. unfold bb_cache, bb_update. near. Qed.
Lemma nearly_merged b : nearly (bb_merged b). Proof. unfold bb_merged, bb_configured, bb_vertex. repeat first [apply nearly_cache|progress near]. Qed.
Lemma nearly_by_id k : nearly (bb_by_id k). Proof. unfold bb_by_id. apply nearly_bind; [apply nearly_cache|]. intros c. near. Qed.
Lemma nearly_merged_ids : nearly bb_merged_ids. Proof. unfold bb_merged_ids. apply nearly_bind; [apply nearly_cache|]. intros c. near. Qed.
Lemma nearly_terminals k : nearly (bb_terminals k). Proof. unfold bb_terminals. apply nearly_bind; [apply nearly_by_id|]. intros [us|]; near. Qed.

Lemma bus_reach_weak st : bb_reach bus_safe st -> weak st.
Proof.
  intros H. assert (exists P, wired P st) as [P W].
  { induction H as [vl ids vars cur H1 H2|st o _ [P IH] Hs]; [eexists; by apply wired_new|]. eexists. by apply wired_step. }
  by apply (wired_weak P).
Qed.
(** A working variant without cache: the state without caches is near. *)
Lemma near_blank st v : working st v -> bv_cache v = None -> near st (blank st) /\ working (blank st) v.
Proof.
  intros (i & Hc & Hi) Hn. assert (blankv v = v) as E by (destruct v; unfold blankv, bv_set_cache; cbn in *; by subst).
  assert (e_vars (blank st) !! i = Some v) as Hb by (cbn; rewrite lookup_fmap, Hi; cbn; by rewrite E).
  split; [|by exists i]. split; [done|]. split; [done|]. intros j Hj. assert (j = i) as -> by congruence. by rewrite Hb, Hi.
Qed.
Lemma near_Ok {A} (m : bbact A) st st' a s1 : nearly m -> near st st' -> m st' = (Ok a, s1) -> exists s2, m st = (Ok a, s2) /\ near s2 s1.
Proof. intros H N E. destruct (H st st' N) as [E1 N1]. rewrite E in E1, N1. cbn in *. destruct (m st) as [r s2]. cbn in *. subst r. eauto. Qed.
Lemma near_Ok' {A} (m : bbact A) st st' a s2 : nearly m -> near st st' -> m st = (Ok a, s2) -> exists s1, m st' = (Ok a, s1) /\ near s2 s1.
Proof. intros H N E. destruct (H st st' N) as [E1 N1]. rewrite E in E1, N1. cbn in *. destruct (m st') as [r s1]. cbn in *. subst r. eauto. Qed.

(** ** The answers of C33, for a state with the invariant *)
Lemma binv_merged st v b : binv st -> working st v -> well_numbered st -> is_bus (e_sh st) b ->
  exists ok st', bb_merged b st = (Ok ok, st') /\ (is_Some ok <-> in_bus_view (e_sh st) v b).
Proof.
  intros H W WN Hb. destruct (merged_cached st v b H WN W Hb) as (c & st' & u & E & C & L).
  exists (mc_map c !! u), st'. split; [done|]. destruct C as (_ & SB & CG & _). eapply good_valid; [apply H|done|done].
Qed.
Lemma binv_same st v b1 b2 k1 k2 st1 st2 : binv st -> working st v -> well_numbered st -> is_bus (e_sh st) b1 -> is_bus (e_sh st) b2 ->
  bb_merged b1 st = (Ok (Some k1), st1) -> bb_merged b2 st1 = (Ok (Some k2), st2) -> k1 = k2 <-> same_bus (e_sh st) v b1 b2.
Proof.
  intros H W WN H1 H2 E1 E2.
  destruct (merged_cached st v b1 H WN W H1) as (c & st' & u & E & C & L). rewrite E1 in E. injection E as Ek <-.
  destruct (merged_again st v c st1 b2 C H2) as (u' & E & L'). rewrite E2 in E. injection E as Ek' _.
  destruct C as (_ & _ & CG & _). eapply good_same; [apply H|exact CG|exact L|done|exact L'|done].
Qed.
Lemma binv_members st v b k st1 : binv st -> working st v -> well_numbered st -> is_bus (e_sh st) b -> bb_merged b st = (Ok (Some k), st1) ->
  exists us, bb_by_id k st1 = (Ok (Some us), st1) /\ NoDup us /\ forall u, u ∈ us <-> exists b', bb_live (e_sh st) !! u = Some b' /\ same_bus (e_sh st) v b b'.
Proof.
  intros H W WN Hb E1.
  destruct (merged_cached st v b H WN W Hb) as (c & st' & u & E & C & L). rewrite E1 in E. injection E as Ek <-.
  pose proof C as (_ & _ & CG & _). destruct (good_members (e_sh st) v c u b k (bi_sh _ H) CG L (eq_sym Ek)) as (us & Hus & ND & HM).
  exists us. split; [|done]. unfold bb_by_id. rewrite (abind_Ok _ _ _ _ _ (cached_cache _ _ _ _ C)), Hus. done.
Qed.
Lemma binv_terminals st v b k st1 : binv st -> working st v -> well_numbered st -> is_bus (e_sh st) b -> bb_merged b st = (Ok (Some k), st1) ->
  exists l, bb_terminals k st1 = (Ok l, st1) /\ NoDup l /\
    forall t, t ∈ l <-> exists b', same_bus (e_sh st) v b b' /\ hangs (e_sh st) v b' t /\ connected v t.
Proof.
  intros H W WN Hb E1.
  destruct (merged_cached st v b H WN W Hb) as (c & st' & u & E & C & L). rewrite E1 in E. injection E as Ek <-.
  pose proof C as (_ & _ & CG & _). destruct (good_members (e_sh st) v c u b k (bi_sh _ H) CG L (eq_sym Ek)) as (us & Hus & _ & HM).
  destruct (terminals_cached st v c st1 k us H C Hus) as (l & El & ND & Hl). exists l. split; [done|]. split; [done|].
  intros t. rewrite Hl. split.
  - intros (w & lw & Hw & Hlw & Ht & Hc). apply HM in Hw as (b' & Lb & Hs). exists b'. split; [done|]. split; [|done]. by exists w, lw.
  - intros (b' & Hs & (w & lw & Lw & Hlw & Ht) & Hc). exists w, lw. split; [|done]. apply HM. eauto.
Qed.
(** ** For a working variant without cache *)
Section uncached.
  Context (st : bbst) (v : bbvar) (R : bb_reach bus_safe st) (W : working st v) (Hn : bv_cache v = None) (WN : well_numbered st).
  Let I : binv (blank st) := bus_reach_weak st R.
  Lemma unc_merged b : is_bus (e_sh st) b -> exists ok st', bb_merged b st = (Ok ok, st') /\ (is_Some ok <-> in_bus_view (e_sh st) v b).
  Proof.
    intros Hb. destruct (near_blank st v W Hn) as [N W']. destruct (binv_merged (blank st) v b I W' WN Hb) as (ok & s1 & E & H).
    destruct (near_Ok _ _ _ _ _ (nearly_merged b) N E) as (s2 & E2 & _). eauto.
  Qed.
  Lemma unc_same b1 b2 k1 k2 st1 st2 : is_bus (e_sh st) b1 -> is_bus (e_sh st) b2 ->
    bb_merged b1 st = (Ok (Some k1), st1) -> bb_merged b2 st1 = (Ok (Some k2), st2) -> k1 = k2 <-> same_bus (e_sh st) v b1 b2.
  Proof.
    intros H1 H2 E1 E2. destruct (near_blank st v W Hn) as [N W']. destruct (near_Ok' _ _ _ _ _ (nearly_merged b1) N E1) as (s1 & F1 & N1).
    destruct (near_Ok' _ _ _ _ _ (nearly_merged b2) N1 E2) as (s2 & F2 & _). exact (binv_same (blank st) v b1 b2 k1 k2 s1 s2 I W' WN H1 H2 F1 F2).
  Qed.
  Lemma unc_members b k st1 : is_bus (e_sh st) b -> bb_merged b st = (Ok (Some k), st1) ->
    exists us st2, bb_by_id k st1 = (Ok (Some us), st2) /\ NoDup us /\ forall u, u ∈ us <-> exists b', bb_live (e_sh st) !! u = Some b' /\ same_bus (e_sh st) v b b'.
  Proof.
    intros Hb E1. destruct (near_blank st v W Hn) as [N W']. destruct (near_Ok' _ _ _ _ _ (nearly_merged b) N E1) as (s1 & F1 & N1).
    destruct (binv_members (blank st) v b k s1 I W' WN Hb F1) as (us & F2 & H). destruct (near_Ok _ _ _ _ _ (nearly_by_id k) N1 F2) as (s2 & E2 & _). eauto.
  Qed.
  Lemma unc_terminals b k st1 : is_bus (e_sh st) b -> bb_merged b st = (Ok (Some k), st1) ->
    exists l st2, bb_terminals k st1 = (Ok l, st2) /\ NoDup l /\
      forall t, t ∈ l <-> exists b', same_bus (e_sh st) v b b' /\ hangs (e_sh st) v b' t /\ connected v t.
  Proof.
    intros Hb E1. destruct (near_blank st v W Hn) as [N W']. destruct (near_Ok' _ _ _ _ _ (nearly_merged b) N E1) as (s1 & F1 & N1).
    destruct (binv_terminals (blank st) v b k s1 I W' WN Hb F1) as (us & F2 & H). destruct (near_Ok _ _ _ _ _ (nearly_terminals k) N1 F2) as (s2 & E2 & _). eauto.
  Qed.
End uncached.

(** ** Creation of equipment and setConnectableBus, for a state with the invariant, then without caches *)
Lemma creation_effect : forall st i v t b c,
  binv st -> e_cur st = Some i -> e_vars st !! i = Some v -> ~ has_term st t -> nt_type t <> BUSBAR_SECTION -> is_bus (e_sh st) b ->
  exists st', bb_new_terminal t b c st = (Ok tt, st') /\ e_sh st' = e_sh st /\
    forall j w, e_vars st !! j = Some w -> exists w', e_vars st' !! j = Some w' /\ bv_conn w' = <[t := (c, b)]> (bv_conn w) /\
      forall b' t', hangs (e_sh st) w' b' t' <-> hangs (e_sh st) w b' t' \/ (t' = t /\ b' = b).
Proof.
  intros st i v t b c H Hc Hi Hn Hty Hb. unfold bb_new_terminal.
  assert (b <> "") as Hbe. { intros ->. destruct Hb as [u Hu]. by destruct (sk_live _ (bi_sh _ H) u "" Hu) as (_ & _ & _ & ?). }
  set (f := fun v => mkBV (bv_open v) (bv_terms v) (<[t := (c, b)]> (bv_conn v)) (bv_cache v)).
  set (st1 := mkE (e_sh st) (f <$> e_vars st) (e_cur st)).
  rewrite (abind_Ok _ _ st tt st1). 2:{ rewrite !bool_decide_eq_false_2 by done. done. }
  assert (forall j w, e_vars st !! j = Some w -> bv_conn w !! t = None) as Hno.
  { intros j w Hw. destruct (bv_conn w !! t) eqn:E; [|done]. destruct Hn. exists j, w. split; [done|eauto]. }
  assert (forall j w u l t', e_vars st !! j = Some w -> bv_terms w !! u = Some l -> t' ∈ l -> t' <> t) as Hnt.
  { intros j w u l t' Hw Hl Ht ->. destruct (vk_known _ _ (proj1 (bi_vars _ H) j w Hw) u l t Hl Ht) as [[x Hx] _]. by rewrite (Hno j w Hw) in Hx. }
  assert (binv st1) as I1.
  { apply fmap_binv; [done|apply H| |].
    - intros j w Hw. pose proof (proj1 (bi_vars _ H) j w Hw) as [V1 V2 V3 V4 V5 V6 V7]. split; cbn; try done.
      + intros u l t' Hl Ht'. destruct (V3 u l t' Hl Ht') as [K1 K2]. split; [|done]. cbn. rewrite lookup_insert_ne; [done|]. intros <-. by eapply (Hnt j w u l t).
      + intros t' c' b' [[<- [= <- <-]]|[Hne Hx]]%lookup_insert_Some; [|by eapply V6]. right. right. intros u l Hl Ht. by eapply (Hnt j w u l t).
      + intros c0 Hc0. eapply (cache_same _ w); [done|done| |by apply V7]. intros u l t' Hl Ht'. cbn. rewrite lookup_insert_ne; [done|]. intros <-. by eapply (Hnt j w u l t).
    - intros j k w w' Hj Hk. destruct (proj2 (bi_vars _ H) j k w w' Hj Hk) as [A1 A2]. split; [done|]. intros t'. cbn.
      destruct (decide (t = t')) as [<-|]; [rewrite !lookup_insert; split; eauto|by rewrite !lookup_insert_ne]. }
  destruct (attach_ok st1 i (f v) t c b I1 Hc) as (u & L & E).
  { unfold st1. cbn. by rewrite lookup_fmap, Hi. } { cbn. by rewrite lookup_insert. } { done. }
  eexists. split; [exact E|]. split; [done|]. intros j w Hw. cbn [e_vars]. unfold st1. cbn [e_vars]. rewrite !lookup_fmap, Hw. cbn.
  eexists. split; [reflexivity|]. split; [done|]. intros b' t'.
  assert (vok (e_sh st) (f w)) as IW. { apply (proj1 (bi_vars _ I1) j). unfold st1. cbn. by rewrite lookup_fmap, Hw. }
  exact (attach_hangs (e_sh st) (f w) u t b b' t' (bi_sh _ H) IW L).
Qed.
Lemma blank_var st j w' : e_vars (blank st) !! j = Some w' -> exists w, e_vars st !! j = Some w /\ w' = blankv w.
Proof. cbn. rewrite lookup_fmap. intros (w & -> & Hw)%fmap_Some. eauto. Qed.
Lemma var_blank st j w : e_vars st !! j = Some w -> e_vars (blank st) !! j = Some (blankv w).
Proof. intros H. cbn. by rewrite lookup_fmap, H. Qed.
Lemma alike_step st c r s' : is_question c = false -> bb_call c (blank st) = (r, s') -> exists st', bb_step st (ECall c) = (r, st') /\ s' = blank st'.
Proof. intros Hq E. rewrite (alike_call c Hq st) in E. injection E as <- <-. exists (bb_call c st).2. split; [|done]. cbn. by destruct (bb_call c st). Qed.
Lemma exists_term (st : bbst) i v t x : e_vars st !! i = Some v -> bv_conn v !! t = Some x -> map_Exists (fun _ v => is_Some (bv_conn v !! t)) (e_vars st).
Proof. intros Hi Hx. exists i, v. split; [done|]. by exists x. Qed.

(** ** The calls that drop the merged buses of the working variant *)
Lemma bt_put_eq st i v t x : e_cur st = Some i -> e_vars st !! i = Some v -> exists v', bt_put t x st = (Ok tt, put st i v').
Proof.
  intros Hc Hi. unfold bt_put. rewrite (abind_Ok _ _ _ _ _ (aget_eq _ _ _ Hc Hi)). eexists. by eapply aput_eq.
Qed.
Lemma cleared (st : bbst) i v' v : e_cur st = Some i -> working (put st i (bv_set_cache None v')) v -> bv_cache v = None.
Proof. intros Hc (j & Hj & Hv). cbn in Hj. rewrite Hc in Hj. injection Hj as <-. cbn in Hv. rewrite lookup_insert in Hv. by injection Hv as <-. Qed.
Lemma set_open_clears st st' v id b o w : working st v -> bv_open v !! id = Some o -> o <> b -> bb_set_open id b st = (Ok tt, st') -> working st' w -> bv_cache w = None.
Proof.
  intros (i & Hc & Hi) Ho Hne E. unfold bb_set_open in E. rewrite (abind_Ok _ _ _ _ _ (aget_eq _ _ _ Hc Hi)) in E. cbv beta in E. rewrite Ho in E.
  rewrite bool_decide_eq_false_2 in E by done. rewrite (put_inv_eq st i v _ Hc Hi) in E. injection E as <-. by apply cleared.
Qed.
Lemma connect_clears st st' v t b w x : working st v -> bv_conn v !! t = Some (false, b) -> bb_connect t st = (Ok x, st') -> working st' w -> bv_cache w = None.
Proof.
  intros (i & Hc & Hi) Hx E. unfold bb_connect in E. rewrite (abind_Ok _ _ _ _ _ (bt_get_eq _ _ _ _ _ Hc Hi Hx)) in E. cbv beta iota in E. cbn [fst] in E.
  destruct (bt_put_eq st i v t (true, b) Hc Hi) as [v' Ep].
  assert (bt_set_connected t true st = (Ok tt, put st i v')) as Es.
  { unfold bt_set_connected. rewrite (abind_Ok _ _ _ _ _ (bt_get_eq _ _ _ _ _ Hc Hi Hx)). exact Ep. }
  rewrite (abind_Ok _ _ _ _ _ Es) in E.
  rewrite (abind_Ok _ _ _ _ _ (invalidate_eq (put st i v') i v' Hc (lookup_insert _ _ _))), put_put in E. injection E as _ <-. by apply cleared.
Qed.
Lemma disconnect_clears st st' v t b w x : working st v -> bv_conn v !! t = Some (true, b) -> bb_disconnect t st = (Ok x, st') -> working st' w -> bv_cache w = None.
Proof.
  intros (i & Hc & Hi) Hx E. unfold bb_disconnect in E. rewrite (abind_Ok _ _ _ _ _ (bt_get_eq _ _ _ _ _ Hc Hi Hx)) in E. cbv beta iota in E. cbn [fst] in E.
  destruct (bt_put_eq st i v t (false, b) Hc Hi) as [v' Ep].
  assert (bt_set_connected t false st = (Ok tt, put st i v')) as Es.
  { unfold bt_set_connected. rewrite (abind_Ok _ _ _ _ _ (bt_get_eq _ _ _ _ _ Hc Hi Hx)). exact Ep. }
  rewrite (abind_Ok _ _ _ _ _ Es) in E.
  rewrite (abind_Ok _ _ _ _ _ (invalidate_eq (put st i v') i v' Hc (lookup_insert _ _ _))), put_put in E. injection E as _ <-. by apply cleared.
Qed.
