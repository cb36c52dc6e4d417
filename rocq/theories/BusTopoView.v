(** From the vertices of the graph to the ids of the configured buses: what the queries of the bus view answer (C33). *)
From stdpp Require Import gmap pretty sorting.
From Verif Require Import Base Graph GraphSpec GraphProofs Equip NodeTopo NodeTopoProofs NodeTopoInv BusTopo BusTopoSpec BusTopoProofs BusTopoInv.

Definition sits (s : bbsh) (b : string) (x : nat) : Prop := exists u, on_vertex s u x /\ bb_live s !! u = Some b.
Lemma sits_fun s b b' x : sits s b x -> sits s b' x -> b = b'.
Proof. intros (u & H1 & H2) (u' & H3 & H4). unfold on_vertex in *. congruence. Qed.
Lemma sits_inj s b x y : shok s -> sits s b x -> sits s b y -> x = y.
Proof.
  intros S (u & H1 & H2) (u' & H3 & H4). assert (u' = u) as -> by (by eapply live_inj). by eapply obj_inj.
Qed.
Lemma vlink_joined s v x y b : shok s -> vlink v (abs (bb_graph s)) x y -> sits s b x -> exists b', sits s b' y /\ joined s v b b'.
Proof.
  intros S (e & k & Hj & Ho) (u & Hx & Hu).
  assert (is_Some (s_vertices (abs (bb_graph s)) !! y)) as [o Hy].
  { destruct Hj as [Hj|Hj]; destruct (edge_live _ _ _ _ _ (sk_g _ S) Hj); done. }
  destruct (sk_obj _ S y o Hy) as (u' & b' & -> & L & _). exists b'. split; [by exists u'|]. exists k, e, x, y, u, u'. done.
Qed.
Lemma joined_vlink s v b b' x : shok s -> joined s v b b' -> sits s b x -> exists y, sits s b' y /\ vlink v (abs (bb_graph s)) x y.
Proof.
  intros S (k & e & x1 & x2 & u1 & u2 & Hj & Ho & H1 & H2 & L1 & L2) Hb.
  assert (x1 = x) as -> by (eapply (sits_inj s b); [done|by exists u1|done]). exists x2. split; [by exists u2|]. by exists e, k.
Qed.
Lemma group_same s v x b y b' : shok s -> sits s b x -> sits s b' y -> rtc (vlink v (abs (bb_graph s))) x y <-> same_bus s v b b'.
Proof.
  intros S Hb Hb'. split.
  - intros H. revert b Hb. induction H as [x|x z y Hxz _ IH]; intros b Hb.
    + rewrite (sits_fun s b b' x Hb Hb'). apply rtc_refl.
    + destruct (vlink_joined s v x z b S Hxz Hb) as (c & Hc & Hj). eapply rtc_l; [exact Hj|]. by apply IH.
  - intros H. revert x Hb. induction H as [b|b c b' Hbc _ IH]; intros x Hb.
    + rewrite (sits_inj s b x y S Hb Hb'). apply rtc_refl.
    + destruct (joined_vlink s v b c x S Hbc Hb) as (z & Hz & Hl). eapply rtc_l; [exact Hl|]. by apply IH.
Qed.
Lemma group_sits s v x y b : shok s -> sits s b x -> rtc (vlink v (abs (bb_graph s))) x y -> exists b', sits s b' y.
Proof.
  intros S Hb H. revert b Hb. induction H as [x|x z y Hxz _ IH]; intros b Hb; [eauto|].
  destruct (vlink_joined s v x z b S Hxz Hb) as (c & Hc & _). eauto.
Qed.
Lemma same_sits s v x b b' : shok s -> sits s b x -> same_bus s v b b' -> exists y, sits s b' y.
Proof.
  intros S Hb H. revert x Hb. induction H as [b|b c b' Hbc _ IH]; intros x Hb; [eauto|].
  destruct (joined_vlink s v b c x S Hbc Hb) as (y & Hy & _). eauto.
Qed.
Lemma vval_in s v x b : shok s -> sits s b x -> vval v (abs (bb_graph s)) x <-> in_bus_view s v b.
Proof.
  intros S Hb. split.
  - intros (y & u & l & t & Hxy & Hy & Hl & Ht & Hc). destruct (group_sits s v x y b S Hb Hxy) as (b' & Hb').
    exists b', t. split; [by apply (group_same s v x b y b')|]. split; [|done]. destruct Hb' as (u' & Hu' & L). exists u', l.
    assert (u' = u) as -> by (unfold on_vertex, obj in *; congruence). done.
  - intros (b' & t & Hs & (u & l & L & Hl & Ht) & Hc). destruct (same_sits s v x b b' S Hb Hs) as (y & Hy).
    exists y, u, l, t. split; [by apply (group_same s v x b y b')|]. split; [|done]. destruct Hy as (u' & Hu' & L').
    assert (u' = u) as -> by (by eapply live_inj). done.
Qed.
Lemma bus_sits s b : shok s -> is_bus s b -> exists x, sits s b x.
Proof. intros S [u L]. destruct (sk_live s S u b L) as ((x & Hx & _) & _). exists x, u. done. Qed.

(** ** Queries *)
Lemma cache_hit (st : bbst) i v c : e_cur st = Some i -> e_vars st !! i = Some v -> bv_cache v = Some c -> bb_cache st = (Ok c, st).
Proof.
  intros Hc Hi Ev. unfold bb_cache, bb_update. rewrite (abind_Ok _ _ st tt st).
  - rewrite (abind_Ok _ _ _ _ _ (aget_eq _ _ _ Hc Hi)), Ev. done.
  - rewrite (abind_Ok _ _ _ _ _ (aget_eq _ _ _ Hc Hi)), Ev. done.
Qed.
Lemma sbm_cur st st' : same_but_merged st st' -> e_cur st' = e_cur st.
Proof. by intros (_ & _ & _ & _ & _ & _ & _ & -> & _). Qed.
Lemma sbm_live st st' : same_but_merged st st' -> bb_live (e_sh st') = bb_live (e_sh st).
Proof. by intros (_ & _ & _ & _ & -> & _). Qed.
(** A state whose working variant holds a good cache. *)
Definition cached (st0 : bbst) (v : bbvar) (c : mcache) (st : bbst) : Prop :=
  binv st /\ same_but_merged st0 st /\ cache_good (bb_id (e_sh st0)) v (abs (bb_graph (e_sh st0))) c /\
  exists i, e_cur st0 = Some i /\ e_vars st0 !! i = Some v /\ e_vars st !! i = Some (bv_set_cache (Some c) v).
Lemma cached_cache st0 v c st : cached st0 v c st -> bb_cache st = (Ok c, st).
Proof.
  intros (I & SB & CG & i & Hc & Hi & Hv). eapply (cache_hit st i); [by rewrite (sbm_cur _ _ SB)|exact Hv|done].
Qed.
Lemma query_cached st v : binv st -> well_numbered st -> working st v -> exists c st', bb_cache st = (Ok c, st') /\ cached st v c st'.
Proof.
  intros I WN (i & Hc & Hi). destruct (cache_eq st i v I WN Hc Hi) as (c & st' & E & CG & I' & SB & Hv). exists c, st'. split; [done|].
  split; [done|]. split; [done|]. split; [done|]. eauto.
Qed.
Lemma merged_cached st v b : binv st -> well_numbered st -> working st v -> is_bus (e_sh st) b ->
  exists c st' u, bb_merged b st = (Ok (mc_map c !! u), st') /\ cached st v c st' /\ bb_live (e_sh st) !! u = Some b.
Proof.
  intros I WN W Hb. unfold bb_merged. destruct (configured_eq st b (bi_sh _ I)) as [(u & x & E & L & _)|(m & _ & Hn)]; [|done].
  rewrite (abind_Ok _ _ _ _ _ E). destruct (query_cached st v I WN W) as (c & st' & E' & C). rewrite (abind_Ok _ _ _ _ _ E').
  exists c, st', u. done.
Qed.
Lemma merged_again st0 v c st b : cached st0 v c st -> is_bus (e_sh st0) b ->
  exists u, bb_merged b st = (Ok (mc_map c !! u), st) /\ bb_live (e_sh st0) !! u = Some b.
Proof.
  intros C Hb. pose proof C as (I & SB & _). unfold bb_merged.
  destruct (configured_eq st b (bi_sh _ I)) as [(u & x & E & L & _)|(m & _ & Hn)].
  - rewrite (abind_Ok _ _ _ _ _ E). rewrite (abind_Ok _ _ _ _ _ (cached_cache _ _ _ _ C)). exists u. split; [done|]. by rewrite <- (sbm_live _ _ SB).
  - destruct Hn. destruct Hb as [u Hu]. exists u. by rewrite (sbm_live _ _ SB).
Qed.

(** What a good cache says about bus ids. *)
Lemma good_valid s v c u b : shok s -> cache_good (bb_id s) v (abs (bb_graph s)) c -> bb_live s !! u = Some b ->
  is_Some (mc_map c !! u) <-> in_bus_view s v b.
Proof.
  intros S CG L. destruct (sk_live s S u b L) as ((x & Hx & _) & _). rewrite <- (vval_in s v x b S) by (by exists u). split.
  - intros [k Hk]. destruct (cg_map _ _ _ _ CG u k Hk) as (y & us & Hy & Hv & _). assert (y = x) as -> by (by eapply (obj_inj s y x u)). done.
  - intros Hv. by eapply (cg_has _ _ _ _ CG).
Qed.
Lemma good_members s v c u b k : shok s -> cache_good (bb_id s) v (abs (bb_graph s)) c -> bb_live s !! u = Some b -> mc_map c !! u = Some k ->
  exists us, mc_id c !! k = Some us /\ NoDup us /\ forall w, w ∈ us <-> exists b', bb_live s !! w = Some b' /\ same_bus s v b b'.
Proof.
  intros S CG L Hk. destruct (cg_map _ _ _ _ CG u k Hk) as (x & us & Hx & Hv & Hi & ND & HG). exists us. split; [done|]. split; [done|].
  assert (sits s b x) as Hb by (by exists u). intros w. rewrite HG. split.
  - intros (y & Hxy & Hy). destruct (group_sits s v x y b S Hb Hxy) as (b' & Hb'). exists b'.
    split; [|by apply (group_same s v x b y b')]. destruct Hb' as (w' & Hw' & L'). unfold on_vertex, obj in *. congruence.
  - intros (b' & L' & Hs). destruct (same_sits s v x b b' S Hb Hs) as (y & Hy). exists y. split; [by apply (group_same s v x b y b')|].
    destruct Hy as (w' & Hw' & L''). assert (w' = w) as -> by (by eapply live_inj). done.
Qed.
Lemma good_same s v c u b k u' b' k' : shok s -> cache_good (bb_id s) v (abs (bb_graph s)) c ->
  bb_live s !! u = Some b -> mc_map c !! u = Some k -> bb_live s !! u' = Some b' -> mc_map c !! u' = Some k' -> k = k' <-> same_bus s v b b'.
Proof.
  intros S CG L Hk L' Hk'. destruct (good_members s v c u b k S CG L Hk) as (us & Hus & _ & HM).
  destruct (cg_id _ _ _ _ CG k us Hus) as [_ Hall]. split.
  - intros <-. destruct (good_members s v c u' b' k S CG L' Hk') as (us' & Hus' & _ & HM'). assert (us' = us) as -> by congruence.
    assert (u' ∈ us) as Hu' by (apply HM'; exists b'; split; [done|apply rtc_refl]). apply HM in Hu' as (b'' & L'' & H). congruence.
  - intros H. assert (u' ∈ us) as Hu' by (apply HM; eauto). rewrite (Hall u' Hu') in Hk'. congruence.
Qed.
(** Every key comes from a bus. *)
Lemma good_key s v c k us : shok s -> cache_good (bb_id s) v (abs (bb_graph s)) c -> mc_id c !! k = Some us ->
  exists u b, bb_live s !! u = Some b /\ mc_map c !! u = Some k.
Proof.
  intros S CG Hk. destruct (cg_id _ _ _ _ CG k us Hk) as [Hne Hall]. destruct us as [|u us]; [done|].
  assert (mc_map c !! u = Some k) as Hu by (apply Hall; by left). destruct (cg_map _ _ _ _ CG u k Hu) as (x & us' & Hx & _).
  destruct (sk_obj s S x _ Hx) as (u' & b & [= <-] & L & _). eauto.
Qed.
Lemma terminals_cached st0 v c st k us : binv st0 -> cached st0 v c st -> mc_id c !! k = Some us ->
  exists l, bb_terminals k st = (Ok l, st) /\ NoDup l /\ forall t, t ∈ l <-> exists u lu, u ∈ us /\ bv_terms v !! u = Some lu /\ t ∈ lu /\ connected v t.
Proof.
  intros I0 C Hk. pose proof C as (I & SB & CG & i & Hc & Hi & Hv). pose proof (proj1 (bi_vars _ I0) i v Hi) as IV.
  destruct (members_known (e_sh st0) v c k us (bi_sh _ I0) IV CG Hk) as [ND Hkn].
  destruct (connected_terms_ok v us Hkn) as (l & El & Hl & HN). exists l.
  assert (bb_by_id k st = (Ok (Some us), st)) as Eb by (unfold bb_by_id; rewrite (abind_Ok _ _ _ _ _ (cached_cache _ _ _ _ C)), Hk; done).
  unfold bb_terminals. rewrite (abind_Ok _ _ _ _ _ Eb). assert (e_cur st = Some i) as Hc' by (by rewrite (sbm_cur _ _ SB)).
  rewrite (abind_Ok _ _ _ _ _ (aget_eq _ _ _ Hc' Hv)). split; [|split; [|done]].
  - assert (connected_terms (bv_set_cache (Some c) v) us = connected_terms v us) as ->; [|by rewrite El].
    clear. assert (forall ts, filter_connected (bv_set_cache (Some c) v) ts = filter_connected v ts) as HF.
    { induction ts as [|t ts IH]; [done|]. cbn [filter_connected bv_set_cache bv_conn]. by rewrite IH. }
    induction us as [|u us IH]; [done|]. cbn [connected_terms]. change (bv_terms (bv_set_cache (Some c) v)) with (bv_terms v).
    destruct (bv_terms v !! u); [|done]. by rewrite HF, IH.
  - apply HN; [apply IV|apply IV|done].
Qed.

(** ** A test for concrete states *)
Lemma numbered_test st : ginv (bb_graph (e_sh st)) ->
  match head (g_get_vertices (bb_graph (e_sh st))) with Some x => x <? g_vertex_count (bb_graph (e_sh st)) | None => true end = true -> well_numbered st.
Proof.
  intros I H x Hx Hmin. rewrite <- (g_vertex_count_spec _ I). destruct (head (g_get_vertices (bb_graph (e_sh st)))) as [y|] eqn:E.
  - apply Nat.ltb_lt in H. destruct (head_least _ _ E) as [H1 _]. specialize (Hmin y H1). lia.
  - exfalso. apply g_get_vertices_spec in Hx. destruct (g_get_vertices (bb_graph (e_sh st))); [by apply elem_of_nil in Hx|done].
Qed.

(** ** setConnectableBus *)
Lemma detach_ok st i v t c b : binv st -> e_cur st = Some i -> e_vars st !! i = Some v -> bv_conn v !! t = Some (c, b) -> hangs (e_sh st) v b t ->
  exists u, bb_live (e_sh st) !! u = Some b /\ bb_detach t st = (Ok tt, mkE (e_sh st) (detach_var u t <$> e_vars st) (e_cur st)) /\
    forall j w, e_vars st !! j = Some w -> exists l, bv_terms w !! u = Some l /\ t ∈ l.
Proof.
  intros I Hc Hi Hx (u & l & L & Hl & Ht).
  assert (has_term st t) as HT by (exists i, v; split; [done|eauto]).
  destruct (detach_eq st t I HT) as [[m E]|(u' & E & _ & Hu')].
  - exfalso. unfold bb_detach in E. rewrite (abind_Ok _ _ _ _ _ (bt_get_eq _ _ _ _ _ Hc Hi Hx)) in E. cbn [snd] in E.
    destruct (configured_eq st b (bi_sh _ I)) as [(u' & y & E' & HL & _)|(m' & _ & Hn)]; [|destruct Hn; by exists u].
    assert (u' = u) as -> by (eapply live_inj; [apply I|done|done]).
    rewrite (abind_Ok _ _ _ _ _ E') in E.
    pose proof (proj1 (bi_vars _ I) i v Hi) as IV. destruct (remove_first_ok t l Ht (vk_nodup _ _ IV u l Hl)) as (l' & Er & _).
    assert (aforeach (bus_remove_terminal u t ;;! bt_set_bus t "" ;;! bb_invalidate) st = (Ok tt, mkE (e_sh st) (detach_var u t <$> e_vars st) (e_cur st))); [|congruence].
    apply (aforeach_ok _ (detach_var u t) (fun w => bv_terms w !! u = Some l /\ is_Some (bv_conn w !! t)) st i Hc).
    + intros j w Hw. split; [|by eapply has_term_all]. destruct (proj2 (bi_vars _ I) i j v w Hi Hw) as [<- _]. done.
    + intros st' j w Hs Hc' Hw [Hl' [x' Hx']]. unfold detach_var. rewrite Hl', Hx', Er. cbn [default].
      unfold bus_remove_terminal. erewrite abind_Ok; swap 1 2.
      { rewrite (abind_Ok _ _ _ _ _ (aget_eq _ _ _ Hc' Hw)), Hl', Er. by apply (aput_eq _ j w). }
      set (w1 := mkBV (bv_open w) (<[u := l']> (bv_terms w)) (bv_conn w) (bv_cache w)).
      assert (bt_set_bus t "" (put st' j w1) = (Ok tt, put (put st' j w1) j (conn_put w1 t (x'.1, "")))) as E1.
      { apply set_bus_eq; [done|apply put_lookup|done]. }
      rewrite (abind_Ok _ _ _ _ _ E1). rewrite put_put.
      rewrite (invalidate_eq _ j (conn_put w1 t (x'.1, ""))); [|done|apply put_lookup]. rewrite put_put. done.
  - exists u'. split; [|done]. destruct (Hu' i v Hi) as (l' & Hl' & Ht').
    pose proof (proj1 (bi_vars _ I) i v Hi) as IV. assert (u' = u) as -> by (by eapply (vk_uniq _ _ IV u' u)). done.
Qed.
Lemma attach_ok st i v t c b : binv st -> e_cur st = Some i -> e_vars st !! i = Some v -> bv_conn v !! t = Some (c, b) -> is_bus (e_sh st) b ->
  exists u, bb_live (e_sh st) !! u = Some b /\ bb_attach t st = (Ok tt, mkE (e_sh st) (attach_var u t <$> e_vars st) (e_cur st)).
Proof.
  intros I Hc Hi Hx Hb. unfold bb_attach. rewrite (abind_Ok _ _ _ _ _ (bt_get_eq _ _ _ _ _ Hc Hi Hx)). cbn [snd].
  destruct (configured_eq st b (bi_sh _ I)) as [(u & y & E & HL & _)|(m & _ & Hn)]; [|done]. exists u. split; [done|].
  assert (exists z, (if bool_decide (b = "") then aret 0 else bb_configured b) st = (Ok z, st)) as [z Ez] by (case_bool_decide; eauto).
  rewrite (abind_Ok _ _ _ _ _ Ez). rewrite (abind_Ok _ _ _ _ _ E).
  apply (aforeach_ok _ (attach_var u t) (fun w => is_Some (bv_terms w !! u)) st i Hc).
  - intros j w Hw. apply (vk_terms _ _ (proj1 (bi_vars _ I) j w Hw)). eauto.
  - intros st' j w Hs Hc' Hw [l Hl]. unfold attach_var. rewrite Hl. unfold bus_add_terminal.
    erewrite abind_Ok; swap 1 2.
    { rewrite (abind_Ok _ _ _ _ _ (aget_eq _ _ _ Hc' Hw)), Hl. by apply (aput_eq _ j w). }
    rewrite (invalidate_eq _ j (mkBV (bv_open w) (<[u := l ++ [t]]> (bv_terms w)) (bv_conn w) (bv_cache w))); [|done|apply put_lookup].
    by rewrite put_put.
Qed.
Lemma detach_hangs s v u t l b' t' : vok s v -> bv_terms v !! u = Some l -> t ∈ l ->
  hangs s (detach_var u t v) b' t' <-> hangs s v b' t' /\ t' <> t.
Proof.
  intros IV Hl Ht. destruct (remove_first_ok t l Ht (vk_nodup _ _ IV u l Hl)) as (l' & Er & N' & Hl').
  pose proof (detach_var_terms u t v l l' Hl Er) as ET. unfold hangs. rewrite ET. split.
  - intros (w & lw & L & [[<- <-]|[Hne Hw]]%lookup_insert_Some & Htw).
    + apply Hl' in Htw as [? ?]. split; [|done]. eauto.
    + split; [eauto|]. intros ->. apply Hne. by eapply (vk_uniq _ _ IV u w l lw t).
  - intros ((w & lw & L & Hw & Htw) & Hne). destruct (decide (u = w)) as [<-|Hne'].
    + exists u, l'. rewrite lookup_insert. split; [done|]. split; [done|]. apply Hl'. split; [|done]. congruence.
    + exists w, lw. rewrite lookup_insert_ne by done. done.
Qed.
Lemma attach_hangs s v u t b b' t' : shok s -> vok s v -> bb_live s !! u = Some b -> hangs s (attach_var u t v) b' t' <-> hangs s v b' t' \/ (t' = t /\ b' = b).
Proof.
  intros S IV L. destruct (proj2 (vk_terms _ _ IV u)) as [l Hl]; [eauto|].
  assert (bv_terms (attach_var u t v) = <[u := l ++ [t]]> (bv_terms v)) as ET by (cbn; by rewrite Hl). unfold hangs. rewrite ET. split.
  - intros (w & lw & Lw & [[<- <-]|[Hne Hw]]%lookup_insert_Some & Htw); [|left; eauto].
    apply elem_of_app in Htw as [Htw|Htw%elem_of_list_singleton]; [left; eauto|]. right. split; [done|]. congruence.
  - intros [(w & lw & Lw & Hw & Htw)|[-> ->]].
    + destruct (decide (u = w)) as [<-|Hne].
      * exists u, (l ++ [t]). rewrite lookup_insert. split; [done|]. split; [done|]. apply elem_of_app. left. congruence.
      * exists w, lw. by rewrite lookup_insert_ne.
    + exists u, (l ++ [t]). rewrite lookup_insert. split; [done|]. split; [done|]. apply elem_of_app. right. by apply elem_of_list_singleton.
Qed.
(** The exact effect, variant by variant. *)
Lemma set_connectable_effect st i v t c b0 b : binv st -> e_cur st = Some i -> e_vars st !! i = Some v ->
  bv_conn v !! t = Some (c, b0) -> hangs (e_sh st) v b0 t -> is_bus (e_sh st) b ->
  exists st', bb_set_connectable t b st = (Ok tt, st') /\ binv st' /\ e_sh st' = e_sh st /\ e_cur st' = e_cur st /\
    forall j w, e_vars st !! j = Some w -> exists w', e_vars st' !! j = Some w' /\
      (forall b' t', hangs (e_sh st) w' b' t' <-> (t' = t /\ b' = b) \/ (t' <> t /\ hangs (e_sh st) w b' t')) /\
      (forall t', t' <> t -> bv_conn w' !! t' = bv_conn w !! t') /\ bv_open w' = bv_open w /\
      (exists cw bw, bv_conn w !! t = Some (cw, bw) /\ bv_conn w' !! t = Some (cw, if bool_decide (j = i) then b else "")).
Proof.
  intros I Hc Hi Hx Hh Hb. pose proof (set_connectable_fine st t b I) as HF.
  assert (has_term st t) as HT by (exists i, v; split; [done|eauto]). specialize (HF HT).
  destruct (detach_ok st i v t c b0 I Hc Hi Hx Hh) as (u & Lu & E & Hu).
  destruct (detached_binv st u t I HT Hu) as [I' HD].
  set (st1 := mkE (e_sh st) (detach_var u t <$> e_vars st) (e_cur st)) in *.
  assert (e_vars st1 !! i = Some (detach_var u t v)) as Hi1 by (unfold st1; cbn; by rewrite lookup_fmap, Hi).
  assert (bv_conn (detach_var u t v) !! t = Some (c, "")) as C1 by (cbn; rewrite Hx; by rewrite lookup_insert).
  set (v2 := conn_put (detach_var u t v) t (c, b)). set (st2 := put st1 i v2).
  assert (binv st2) as I2.
  { apply (put_binv _ _ (detach_var u t v)); [done|done| |apply conn_put_agree; eauto]. eapply conn_put_vok; [by apply (proj1 (bi_vars _ I') i)|done|exact C1|].
    right. right. by apply (HD i). }
  destruct (attach_ok st2 i v2 t c b I2 Hc) as (u2 & L2 & E2).
  { apply put_lookup. } { cbn. by rewrite lookup_insert. } { done. }
  assert (bb_set_connectable t b st = (Ok tt, mkE (e_sh st2) (attach_var u2 t <$> e_vars st2) (e_cur st2))) as EE.
  { unfold bb_set_connectable. rewrite bool_decide_eq_false_2.
    2:{ intros ->. destruct Hb as [ub Hub]. by destruct (sk_live _ (bi_sh _ I) ub "" Hub) as (_ & _ & _ & ?). }
    rewrite (abind_Ok _ _ st tt st eq_refl). destruct (configured_eq st b (bi_sh _ I)) as [(u0 & x0 & E0 & _)|(m & _ & Hn)]; [|done].
    rewrite (abind_Ok _ _ _ _ _ E0). rewrite (abind_Ok _ _ _ _ _ E).
    rewrite (abind_Ok _ _ _ _ _ (set_bus_eq st1 i (detach_var u t v) t (c, "") b Hc Hi1 C1)). cbn [fst]. exact E2. }
  unfold fine in HF. rewrite EE in HF. eexists. split; [exact EE|]. split; [exact HF|]. split; [done|]. split; [done|].
  intros j w Hw. cbn [e_vars]. rewrite lookup_fmap. destruct (Hu j w Hw) as (l & Hl & Ht).
  pose proof (proj1 (bi_vars _ I) j w Hw) as IW. destruct (has_term_all st t I HT j w Hw) as [[cw bw] Hcw].
  assert (e_vars st1 !! j = Some (detach_var u t w)) as Hj1 by (unfold st1; cbn; by rewrite lookup_fmap, Hw).
  assert (forall x b' t', hangs (e_sh st) (attach_var u2 t (conn_put (detach_var u t w) t x)) b' t' <-> hangs (e_sh st) (attach_var u2 t (detach_var u t w)) b' t') as HC by done.
  assert (forall b' t', hangs (e_sh st) (attach_var u2 t (detach_var u t w)) b' t' <-> (t' = t /\ b' = b) \/ (t' <> t /\ hangs (e_sh st) w b' t')) as HA.
  { intros b' t'. rewrite (attach_hangs (e_sh st) (detach_var u t w) u2 t b b' t'); [|apply I|by apply (proj1 (bi_vars _ I') j)|done].
    rewrite (detach_hangs (e_sh st) w u t l b' t' IW Hl Ht). naive_solver. }
  case_bool_decide as Hji.
  - subst j. assert (w = v) as -> by congruence. assert (e_vars st2 !! i = Some v2) as -> by apply put_lookup. eexists. split; [reflexivity|]. split; [exact HA|].
    split; [intros t' Hne; cbn; rewrite Hx; by rewrite !lookup_insert_ne|]. split; [done|]. exists c, b0. split; [done|]. cbn. by rewrite lookup_insert.
  - assert (e_vars st2 !! j = Some (detach_var u t w)) as -> by (unfold st2, put; cbn [e_vars]; by rewrite lookup_insert_ne). eexists. split; [reflexivity|]. split; [exact HA|].
    split; [intros t' Hne; cbn; rewrite Hcw; by rewrite !lookup_insert_ne|]. split; [done|]. exists cw, bw. split; [done|]. cbn. rewrite Hcw. by rewrite lookup_insert.
Qed.
