(** Invariants of bus-breaker voltage levels over histories (C31, C33, C50). *)
From stdpp Require Import gmap pretty sorting.
From Verif Require Import Base Graph GraphSpec GraphProofs GraphTraverse GraphPaths GraphMore Equip NodeTopo NodeTopoProofs NodeTopoInv
  BusTopo BusTopoSpec BusTopoProofs.

(** ** The invariant *)
Record shok (s : bbsh) : Prop := {
  sk_g : ginv (bb_graph s);
  sk_obj : forall x o, s_vertices (abs (bb_graph s)) !! x = Some o -> exists u b, o = Some u /\ bb_live s !! u = Some b /\ bb_buses s !! b = Some x;
  sk_bus : forall b x, bb_buses s !! b = Some x -> exists u, on_vertex s u x /\ bb_live s !! u = Some b;
  sk_live : forall u b, bb_live s !! u = Some b -> (exists x, on_vertex s u x /\ bb_buses s !! b = Some x) /\ u < bb_next s /\ b ∈ bb_ids s /\ b <> "";
  sk_edge : forall e a b o, s_edges (abs (bb_graph s)) !! e = Some (a, b, o) -> exists k, o = Some k /\ bb_sw s !! k = Some e;
  sk_sw : forall k e, bb_sw s !! k = Some e -> (exists a b, s_edges (abs (bb_graph s)) !! e = Some (a, b, Some k)) /\ k ∈ bb_ids s /\ bb_buses s !! k = None
}.
Definition loose (v : bbvar) (t : nterm) : Prop := forall u l, bv_terms v !! u = Some l -> t ∉ l.
Record vok (s : bbsh) (v : bbvar) : Prop := {
  vk_open : forall k, is_Some (bv_open v !! k) <-> is_Some (bb_sw s !! k);
  vk_terms : forall u, is_Some (bv_terms v !! u) <-> is_Some (bb_live s !! u);
  vk_known : forall u l t, bv_terms v !! u = Some l -> t ∈ l -> known v t;
  vk_nodup : forall u l, bv_terms v !! u = Some l -> NoDup l;
  vk_uniq : forall u u' l l' t, bv_terms v !! u = Some l -> bv_terms v !! u' = Some l' -> t ∈ l -> t ∈ l' -> u = u';
  vk_conn : forall t c b, bv_conn v !! t = Some (c, b) -> b = "" \/ hangs s v b t \/ loose v t;
  vk_cache : forall c, bv_cache v = Some c -> cache_good (bb_id s) v (abs (bb_graph s)) c
}.
Definition agree (v w : bbvar) : Prop := bv_terms v = bv_terms w /\ forall t, is_Some (bv_conn v !! t) <-> is_Some (bv_conn w !! t).
Definition vars_ok (s : bbsh) (m : gmap string bbvar) : Prop :=
  (forall i v, m !! i = Some v -> vok s v) /\ (forall i j v w, m !! i = Some v -> m !! j = Some w -> agree v w).
Record binv (st : bbst) : Prop := {
  bi_wf : ewf st;
  bi_sh : shok (e_sh st);
  bi_vars : vars_ok (e_sh st) (e_vars st)
}.

Lemma obj_inj s x y u : shok s -> on_vertex s u x -> on_vertex s u y -> x = y.
Proof.
  intros S Hx Hy. destruct (sk_obj s S x _ Hx) as (u1 & b & [= <-] & L & B). destruct (sk_obj s S y _ Hy) as (u2 & b' & [= <-] & L' & B').
  congruence.
Qed.
Lemma live_inj s u u' b : shok s -> bb_live s !! u = Some b -> bb_live s !! u' = Some b -> u = u'.
Proof.
  intros S H H'. destruct (sk_live s S u b H) as ((x & Hx & Bx) & _). destruct (sk_live s S u' b H') as ((y & Hy & By) & _).
  unfold on_vertex in *. congruence.
Qed.
Lemma inv_sound s v : shok s -> vok s v -> sound v (abs (bb_graph s)).
Proof.
  intros S I. split.
  - intros x o Ho. destruct (sk_obj s S x o Ho) as (u & b & -> & L & B). destruct (proj2 (vk_terms s v I u)) as [l Hl]; [eauto|].
    exists u, l. split; [done|]. split; [done|]. intros t Ht. by eapply (vk_known s v I).
  - intros x y u Hx Hy. by apply (obj_inj s x y u S).
  - intros e a b o He. destruct (sk_edge s S e a b o He) as (k & -> & Hk). exists k. split; [done|]. apply (vk_open s v I). eauto.
Qed.

(** A cache stays good when what is outside the vertices of [N], which carry nothing, does not change. *)
Lemma cache_transfer (N : nat -> Prop) (HN : forall x, N x \/ ~ N x) vl v s v' s' c :
  (forall x y, vlink v s x y <-> vlink v' s' x y) -> (forall n y, N n -> ~ vlink v s n y) ->
  (forall x u, ~ N x -> obj s x u <-> obj s' x u) ->
  (forall x u l, ~ N x -> obj s x u -> bv_terms v !! u = Some l -> bv_terms v' !! u = Some l /\ forall t, t ∈ l -> bv_conn v' !! t = bv_conn v !! t) ->
  (forall x u l, ~ N x -> obj s' x u -> bv_terms v' !! u = Some l -> bv_terms v !! u = Some l /\ forall t, t ∈ l -> bv_conn v' !! t = bv_conn v !! t) ->
  (forall n u l t, N n -> obj s n u -> bv_terms v !! u = Some l -> t ∉ l) ->
  (forall n u l t, N n -> obj s' n u -> bv_terms v' !! u = Some l -> t ∉ l) ->
  cache_good vl v s c -> cache_good vl v' s' c.
Proof.
  intros H1 H2 H3 H4 H5 H6 H7 [C1 C2 C3 C4].
  assert (forall x y, rtc (vlink v s) x y <-> rtc (vlink v' s') x y) as HR.
  { intros x y. split; induction 1 as [|a b d Hab _ IH]; try apply rtc_refl; (eapply rtc_l; [|exact IH]); by apply H1. }
  assert (forall x, vval v s x <-> vval v' s' x) as HV.
  { intros x. split; intros (y & u & l & t & Hy & Ho & Hl & Ht & (id & Hc) & Hb); exists y, u, l, t.
    - destruct (HN y) as [n|n]; [by destruct (H6 y u l t n Ho Hl)|]. destruct (H4 y u l n Ho Hl) as [E1 E2].
      split; [by apply HR|]. split; [by apply H3|]. split; [done|]. split; [done|]. split; [|done]. exists id. by rewrite E2.
    - destruct (HN y) as [n|n]; [by destruct (H7 y u l t n Ho Hl)|]. destruct (H5 y u l n Ho Hl) as [E1 E2].
      split; [by apply HR|]. split; [by apply H3|]. split; [done|]. split; [done|]. split; [|done]. exists id. by rewrite <- E2. }
  assert (forall x y, vval v s x -> rtc (vlink v s) x y -> ~ N y) as HU.
  { intros x y Hv Hr HNy. assert (x = y) as <-.
    { apply vgroup_sym in Hr. inversion Hr as [|? z ? Hz]; subst; [done|]. by destruct (H2 y z HNy). }
    destruct Hv as (z & u & l & t & Hz & Ho & Hl & Ht & _). assert (x = z) as <-.
    { inversion Hz as [|? w ? Hw]; subst; [done|]. by destruct (H2 x w HNy). }
    by destruct (H6 x u l t HNy Ho Hl). }
  split.
  - intros u k Hk. destruct (C1 u k Hk) as (x & us & Hx & Hv & Hi & [G1 G2]). exists x, us. split.
    { apply H3; [|done]. apply (HU x x Hv), rtc_refl. }
    split; [by apply HV|]. split; [done|]. split; [done|]. intros w. rewrite G2. split.
    + intros (y & Hy & Ho). exists y. split; [by apply HR|]. apply H3; [by eapply HU|done].
    + intros (y & Hy & Ho). exists y. assert (rtc (vlink v s) x y) by (by apply HR). split; [done|]. apply H3; [by eapply HU|done].
  - intros x u Hx Hv. apply HV in Hv. apply (C2 x u); [|done]. apply H3; [|done]. apply (HU x x Hv), rtc_refl.
  - done.
  - done.
Qed.
(** Only what is linked and what hangs counts. *)
Lemma cache_same vl v s v' c : bv_open v' = bv_open v -> bv_terms v' = bv_terms v ->
  (forall u l t, bv_terms v !! u = Some l -> t ∈ l -> bv_conn v' !! t = bv_conn v !! t) -> cache_good vl v s c -> cache_good vl v' s c.
Proof.
  intros E1 E2 E3. apply (cache_transfer (fun _ => False) (fun _ => or_intror (fun x => x))); try done.
  - intros x y. unfold vlink. by rewrite E1.
  - intros x u l _ _ Hl. rewrite E2. eauto.
  - intros x u l _ _. rewrite E2. eauto.
Qed.
(** A cache of a voltage level without valid merged bus is empty, and good as long as there is none. *)
Lemma cache_void vl v s v' s' c : (forall x, ~ vval v s x) -> (forall x, ~ vval v' s' x) -> cache_good vl v s c -> cache_good vl v' s' c.
Proof.
  intros H1 H2 [C1 C2 C3 C4]. split; [|by intros x u _ ?%H2|done|done].
  intros u k Hk. destruct (C1 u k Hk) as (x & us & _ & Hv & _). by apply H1 in Hv.
Qed.

(** ** forEachVariant *)
Lemma foreach_ok {S V} (m : act S V unit) (f : V -> V) (P : V -> Prop) l (st : est S V) : NoDup l ->
  (forall i, i ∈ l -> exists v, e_vars st !! i = Some v /\ P v) ->
  (forall st' i v, e_sh st' = e_sh st -> e_cur st' = Some i -> e_vars st' !! i = Some v -> P v ->
     m st' = (Ok tt, mkE (e_sh st') (<[i := f v]> (e_vars st')) (e_cur st'))) ->
  exists st', foreach_loop m l st = (Ok tt, st') /\ e_sh st' = e_sh st /\
    forall i, e_vars st' !! i = if bool_decide (i ∈ l) then f <$> (e_vars st !! i) else e_vars st !! i.
Proof.
  intros ND HP Hm. revert st HP Hm. induction l as [|j l IH]; intros st HP Hm.
  { exists st. split; [done|]. split; [done|]. intros i. rewrite bool_decide_eq_false_2; [done|]. apply not_elem_of_nil. }
  apply NoDup_cons in ND as [N1 N2]. destruct (HP j) as (v & Hv & Pv); [by left|]. cbn [foreach_loop].
  rewrite (Hm (mkE (e_sh st) (e_vars st) (Some j)) j v); [|done|done|done|done]. cbn [e_sh e_vars e_cur].
  destruct (IH N2 (mkE (e_sh st) (<[j := f v]> (e_vars st)) (Some j))) as (st' & E & Es & Ev).
  - cbn [e_vars]. intros i Hi. rewrite lookup_insert_ne by (intros <-; done). apply HP. by right.
  - cbn [e_sh]. done.
  - exists st'. split; [done|]. split; [done|]. intros i. rewrite Ev. cbn [e_vars]. destruct (decide (j = i)) as [<-|Hne].
    + rewrite lookup_insert, Hv. rewrite bool_decide_eq_false_2 by done. rewrite bool_decide_eq_true_2 by (by left). done.
    + rewrite lookup_insert_ne by done. rewrite (bool_decide_ext (i ∈ l) (i ∈ j :: l)); [done|]. rewrite elem_of_cons.
      split; [by right|]. by intros [->|?].
Qed.
Lemma aforeach_ok {S V} (m : act S V unit) (f : V -> V) (P : V -> Prop) (st : est S V) i : e_cur st = Some i ->
  (forall j v, e_vars st !! j = Some v -> P v) ->
  (forall st' j v, e_sh st' = e_sh st -> e_cur st' = Some j -> e_vars st' !! j = Some v -> P v ->
     m st' = (Ok tt, mkE (e_sh st') (<[j := f v]> (e_vars st')) (e_cur st'))) ->
  aforeach m st = (Ok tt, mkE (e_sh st) (f <$> e_vars st) (e_cur st)).
Proof.
  intros Hc HP Hm. unfold aforeach. rewrite (abind_Ok _ _ st i st) by (unfold aindex; by rewrite Hc).
  assert (forall j, j ∈ map fst (map_to_list (e_vars st)) <-> is_Some (e_vars st !! j)) as HE.
  { intros j. rewrite elem_of_list_fmap. split.
    - intros ([k v] & -> & Hk). apply elem_of_map_to_list in Hk. eauto.
    - intros [v Hv]. exists (j, v). split; [done|]. by apply elem_of_map_to_list. }
  destruct (foreach_ok m f P (map fst (map_to_list (e_vars st))) st) as (st' & E & Es & Ev).
  - apply NoDup_fst_map_to_list.
  - intros j Hj. apply HE in Hj as [v Hv]. eauto.
  - done.
  - rewrite E, Es, Hc. apply f_equal2; [done|]. apply f_equal3; [done| |done]. apply map_eq. intros j. rewrite Ev, lookup_fmap.
    case_bool_decide as Hj; [done|]. rewrite HE in Hj. destruct (e_vars st !! j); [|done]. destruct Hj. eauto.
Qed.
(** If the first call throws without effect, so does the whole. *)
Lemma aforeach_throw {S V} (m : act S V unit) (st : est S V) i : e_cur st = Some i -> is_Some (e_vars st !! i) ->
  (forall st' j, e_sh st' = e_sh st -> e_vars st' = e_vars st -> e_cur st' = Some j -> is_Some (e_vars st !! j) -> exists e, m st' = (Throw e, st')) ->
  exists e, aforeach m st = (Throw e, st).
Proof.
  intros Hc [v Hv] Hm. unfold aforeach. rewrite (abind_Ok _ _ st i st) by (unfold aindex; by rewrite Hc).
  destruct (map_to_list (e_vars st)) as [|[j w] l] eqn:El.
  { assert ((i, v) ∈ map_to_list (e_vars st)) as H by (by apply elem_of_map_to_list). rewrite El in H. by apply elem_of_nil in H. }
  assert (e_vars st !! j = Some w) as Hj. { apply elem_of_map_to_list. rewrite El. by left. }
  simpl. destruct (Hm (mkE (e_sh st) (e_vars st) (Some j)) j) as [e E]; [done|done|done|eauto|]. rewrite E. cbn [e_sh e_vars]. exists e.
  apply f_equal2; [done|]. rewrite <- Hc. by destruct st.
Qed.

(** ** Reading *)
Lemma configured_eq st b : shok (e_sh st) ->
  (exists u x, bb_configured b st = (Ok u, st) /\ bb_live (e_sh st) !! u = Some b /\ bb_buses (e_sh st) !! b = Some x /\ on_vertex (e_sh st) u x) \/
  (exists m, bb_configured b st = (Throw m, st) /\ ~ is_bus (e_sh st) b).
Proof.
  intros S. unfold bb_configured, bb_vertex, abind, ashared. case_bool_decide as Hb.
  { right. eexists. split; [reflexivity|]. intros [u Hu]. destruct (sk_live _ S u b Hu) as (_ & _ & _ & ?). done. }
  destruct (bb_buses (e_sh st) !! b) as [x|] eqn:Ex.
  - left. destruct (sk_bus _ S b x Ex) as (u & Hu & Hl). exists u, x. unfold aret, alift.
    destruct (vertex_object_eq (bb_graph (e_sh st)) x) as [(o & -> & Ho)|(m & _ & Ho)]; unfold on_vertex in Hu; rewrite Hu in Ho; [|done].
    injection Ho as <-. rewrite Hl. rewrite bool_decide_eq_true_2 by done. done.
  - right. eexists. split; [reflexivity|]. intros [u Hu]. destruct (sk_live _ S u b Hu) as ((x & _ & ?) & _). congruence.
Qed.

Lemma head_least (g : BG) x : head (g_get_vertices g) = Some x ->
  is_Some (s_vertices (abs g) !! x) /\ forall y, is_Some (s_vertices (abs g) !! y) -> x <= y.
Proof.
  intros H. destruct (g_get_vertices g) as [|z l] eqn:El; [done|]. injection H as ->. split.
  - apply g_get_vertices_spec. rewrite El. by left.
  - intros y Hy. apply g_get_vertices_spec in Hy. rewrite El in Hy. apply elem_of_cons in Hy as [->|Hy]; [done|].
    assert (ssorted (x :: l)) as HS. { rewrite <- El. apply ssorted_filter, ssorted_seq. }
    inversion HS as [|? ? _ HF]; subst. rewrite Forall_forall in HF. apply HF in Hy. lia.
Qed.
Lemma numbered_head st : ginv (bb_graph (e_sh st)) -> well_numbered st ->
  forall x, head (g_get_vertices (bb_graph (e_sh st))) = Some x -> x < g_vertex_count (bb_graph (e_sh st)).
Proof. intros I W x Hx. apply head_least in Hx as [H1 H2]. rewrite (g_vertex_count_spec _ I). by apply W. Qed.

Lemma shok_set s g : abs g = abs (bb_graph s) -> ginv g -> shok s -> shok (bb_set_graph s g).
Proof.
  intros Ea I [S1 S2 S3 S4 S5 S6].
  split; cbn [bb_set_graph bb_graph bb_live bb_buses bb_sw bb_next bb_ids]; unfold on_vertex in *; cbn [bb_set_graph bb_graph]; rewrite ?Ea; done.
Qed.
Lemma vok_set s g v : abs g = abs (bb_graph s) -> vok s v -> vok (bb_set_graph s g) v.
Proof.
  intros Ea [V1 V2 V3 V4 V5 V6 V7]. split; cbn [bb_set_graph bb_graph bb_live bb_sw bb_id]; rewrite ?Ea; try done.
Qed.

Lemma sbm_refl st : same_but_merged st st.
Proof. unfold same_but_merged. cbv zeta. split_and!; try done. intros i. by destruct (e_vars st !! i). Qed.

Definition with_cache (st : bbst) (i : string) (v : bbvar) (g : BG) (c : mcache) : bbst :=
  mkE (bb_set_graph (e_sh st) g) (<[i := bv_set_cache (Some c) v]> (e_vars st)) (e_cur st).

(** updateCache then the cache of the working variant. *)
Lemma cache_eq st i v : binv st -> well_numbered st -> e_cur st = Some i -> e_vars st !! i = Some v ->
  exists c st', bb_cache st = (Ok c, st') /\ cache_good (bb_id (e_sh st)) v (abs (bb_graph (e_sh st))) c /\
    binv st' /\ same_but_merged st st' /\ e_vars st' !! i = Some (bv_set_cache (Some c) v).
Proof.
  intros [W S [Hv HA]] WN Hc Hi. pose proof (Hv i v Hi) as IV.
  assert (aget st = (Ok v, st)) as Eg. { unfold aget, abind, aindex. by rewrite Hc, Hi. }
  unfold bb_cache, bb_update. destruct (bv_cache v) as [c|] eqn:Ec.
  - exists c, st. split.
    { rewrite (abind_Ok _ _ st tt st); [|rewrite (abind_Ok _ _ _ _ _ Eg), Ec; done]. rewrite (abind_Ok _ _ _ _ _ Eg), Ec. done. }
    split; [by apply (vk_cache _ _ IV)|]. split; [done|]. split; [apply sbm_refl|]. rewrite Hi. f_equal. destruct v. unfold bv_set_cache. cbn in *. by rewrite Ec.
  - destruct (compute_ok (bb_id (e_sh st)) v (abs (bb_graph (e_sh st))) (inv_sound _ _ S IV) (bb_graph (e_sh st)) eq_refl (sk_g _ S) (numbered_head st (sk_g _ S) WN))
      as (g' & c & E & SG & CG). exists c, (with_cache st i v g' c).
    pose proof (sameg_abs _ _ SG) as Ea.
    assert (bb_update st = (Ok tt, with_cache st i v g' c)) as Eu.
    { unfold bb_update. rewrite (abind_Ok _ _ _ _ _ Eg), Ec. rewrite (abind_Ok ashared _ st (e_sh st) st eq_refl).
      erewrite abind_Ok; [|unfold bgact; rewrite E; reflexivity]. unfold aput, abind, aindex. cbn [e_cur]. rewrite Hc. cbn [e_vars e_sh e_cur]. rewrite Hi. unfold with_cache. by rewrite Hc. }
    split.
    { rewrite (abind_Ok _ _ _ _ _ Eu). unfold aget, abind, aindex, with_cache. cbn [e_cur]. rewrite Hc. cbn [e_vars].
      rewrite lookup_insert. done. }
    split; [done|]. split; [|split; [|unfold with_cache; cbn [e_vars]; by rewrite lookup_insert]].
    + split.
      * unfold with_cache. apply (ewf_insert (e_sh st)); [by destruct st|eauto].
      * apply shok_set; [done|apply SG|done].
      * assert (vok (bb_set_graph (e_sh st) g') (bv_set_cache (Some c) v)) as IV'.
        { apply (vok_set _ _ _ Ea) in IV. destruct IV as [V1 V2 V3 V4 V5 V6 V7]. split; try done.
          cbn. intros c' [= <-]. rewrite Ea. revert CG. by apply cache_same. }
        split; cbn [with_cache e_sh e_vars].
        -- intros j w [[<- <-]|[_ Hw]]%lookup_insert_Some; [done|]. apply vok_set; [done|eauto].
        -- intros j k w w' [[<- <-]|[_ Hw]]%lookup_insert_Some [[<- <-]|[_ Hw']]%lookup_insert_Some.
           ++ done.
           ++ exact (HA _ _ _ _ Hi Hw').
           ++ exact (HA _ _ _ _ Hw Hi).
           ++ exact (HA _ _ _ _ Hw Hw').
    + unfold same_but_merged, with_cache. cbn [e_sh e_vars e_cur bb_set_graph bb_graph bb_id bb_buses bb_sw bb_live bb_next bb_ids]. cbv zeta.
      split_and!; try done. intros j. destruct (decide (i = j)) as [<-|Hne].
      * rewrite Hi, lookup_insert. split_and!; done.
      * rewrite lookup_insert_ne by done. by destruct (e_vars st !! j).
Qed.
Lemma cache_none st : e_cur st = None -> exists m, bb_cache st = (Throw m, st).
Proof. intros Hc. unfold bb_cache, bb_update, aget, abind, aindex. rewrite Hc. eauto. Qed.
(** The exact condition: without cache and with a badly numbered graph, updateCache reads outside of its vector. *)
Lemma cache_oob st i v : binv st -> ~ well_numbered st -> e_cur st = Some i -> e_vars st !! i = Some v -> bv_cache v = None ->
  (bb_cache st).1 = UB.
Proof.
  intros [W S [Hv HA]] WN Hc Hi Ec.
  assert (exists x, head (g_get_vertices (bb_graph (e_sh st))) = Some x /\ g_vertex_count (bb_graph (e_sh st)) <= x) as (x & Hx & Hle).
  { destruct (head (g_get_vertices (bb_graph (e_sh st)))) as [x|] eqn:Ex.
    - exists x. split; [done|]. destruct (decide (g_vertex_count (bb_graph (e_sh st)) <= x)); [done|]. destruct WN. intros y Hy Hl.
      apply head_least in Ex as [H1 H2]. assert (y = x) as -> by (apply Nat.le_antisymm; auto). rewrite <- (g_vertex_count_spec _ (sk_g _ S)). lia.
    - destruct WN. intros y Hy. apply g_get_vertices_spec in Hy. destruct (g_get_vertices (bb_graph (e_sh st))); [by apply elem_of_nil in Hy|done]. }
  unfold bb_cache, bb_update, aget, abind, aindex, ashared, bgact. rewrite Hc, Hi, Ec.
  rewrite (compute_oob _ v _ x Hx Hle). done.
Qed.

(** ** Operations *)
Definition fine {A} (m : bbact A) (st : bbst) : Prop := match m st with (Ok _, st') | (Throw _, st') => binv st' | _ => False end.
Lemma fine_amap {A B} (f : A -> B) (m : bbact A) st : fine m st -> fine (amap f m) st.
Proof. unfold fine, amap, abind, aret. by destruct (m st) as [[]]. Qed.
Lemma agree_refl v : agree v v.
Proof. done. Qed.
Lemma agree_sym v w : agree v w -> agree w v.
Proof. intros [H1 H2]. split; [done|]. intros t. by rewrite H2. Qed.
Lemma agree_trans v w z : agree v w -> agree w z -> agree v z.
Proof. intros [H1 H2] [H3 H4]. split; [congruence|]. intros t. by rewrite H2. Qed.

Lemma aget_eq (st : bbst) i v : e_cur st = Some i -> e_vars st !! i = Some v -> aget st = (Ok v, st).
Proof. intros Hc Hi. unfold aget, abind, aindex. by rewrite Hc, Hi. Qed.
Lemma aget_none (st : bbst) : e_cur st = None -> aget st = (Throw "Variant index not set", st).
Proof. intros Hc. unfold aget, abind, aindex. by rewrite Hc. Qed.
Definition put (st : bbst) (i : string) (v : bbvar) : bbst := mkE (e_sh st) (<[i := v]> (e_vars st)) (e_cur st).
Lemma aput_eq (st : bbst) i v v' : e_cur st = Some i -> e_vars st !! i = Some v -> aput v' st = (Ok tt, put st i v').
Proof. intros Hc Hi. unfold aput, abind, aindex, put. by rewrite Hc, Hi, Hc. Qed.
Lemma put_put st i v w : put (put st i v) i w = put st i w.
Proof. unfold put. cbn. by rewrite insert_insert. Qed.
Lemma invalidate_eq (st : bbst) i v : e_cur st = Some i -> e_vars st !! i = Some v ->
  bb_invalidate st = (Ok tt, put st i (bv_set_cache None v)).
Proof. intros Hc Hi. unfold bb_invalidate. rewrite (abind_Ok _ _ _ _ _ (aget_eq _ _ _ Hc Hi)). by eapply aput_eq. Qed.
Lemma put_inv_eq (st : bbst) i v v' : e_cur st = Some i -> e_vars st !! i = Some v ->
  (aput v' ;;! bb_invalidate) st = (Ok tt, put st i (bv_set_cache None v')).
Proof.
  intros Hc Hi. rewrite (abind_Ok _ _ _ _ _ (aput_eq st i v v' Hc Hi)).
  rewrite (invalidate_eq _ i v'); [by rewrite put_put|done|]. unfold put. cbn. by rewrite lookup_insert.
Qed.

Lemma put_binv st i v v' : binv st -> e_vars st !! i = Some v -> vok (e_sh st) v' -> agree v v' -> binv (put st i v').
Proof.
  intros [W S [Hv HA]] Hi Hk Ha. split.
  - unfold put. apply (ewf_insert (e_sh st)); [by destruct st|eauto].
  - done.
  - split; cbn.
    + intros j w [[<- <-]|[_ Hw]]%lookup_insert_Some; [done|]. eauto.
    + intros j k w w' [[<- <-]|[_ Hw]]%lookup_insert_Some [[<- <-]|[_ Hw']]%lookup_insert_Some.
      * done.
      * eapply agree_trans; [apply agree_sym, Ha|]. eauto.
      * eapply agree_trans; [|apply Ha]. eauto.
      * eauto.
Qed.
Lemma fmap_binv st s' f : binv st -> shok s' -> (forall i v, e_vars st !! i = Some v -> vok s' (f v)) ->
  (forall i j v w, e_vars st !! i = Some v -> e_vars st !! j = Some w -> agree (f v) (f w)) -> binv (mkE s' (f <$> e_vars st) (e_cur st)).
Proof.
  intros [W S [Hv HA]] S' H1 H2. split.
  - apply (ewf_fmap (e_sh st)). by destruct st.
  - done.
  - split; cbn.
    + intros i w. rewrite lookup_fmap. intros (v & Hw & ->)%fmap_Some. eauto.
    + intros i j w w'. rewrite !lookup_fmap. intros (v & Hw & ->)%fmap_Some (v' & Hw' & ->)%fmap_Some. eauto.
Qed.
Lemma set_binv st s' : binv st -> shok s' -> (forall i v, e_vars st !! i = Some v -> vok s' v) -> binv (mkE s' (e_vars st) (e_cur st)).
Proof. intros I S' H. destruct I as [W S [Hv HA]]. split; [|done|by split]. destruct W as [W1 W2]. by split. Qed.

(** The working variant, or an exception. *)
Lemma cur_cases st : binv st -> (exists i v, e_cur st = Some i /\ e_vars st !! i = Some v /\ vok (e_sh st) v) \/ e_cur st = None.
Proof.
  intros [[_ W] S [Hv _]]. destruct (e_cur st) as [i|]; [|by right]. left. destruct (W i eq_refl) as [v E]. exists i, v. eauto.
Qed.

(** *** Queries *)
Lemma merged_fine st b : binv st -> well_numbered st -> fine (bb_merged b) st.
Proof.
  intros I WN. unfold fine, bb_merged. destruct (configured_eq st b (bi_sh _ I)) as [(u & x & E & _)|(m & E & _)].
  2:{ by rewrite (abind_Throw _ _ _ _ _ E). }
  rewrite (abind_Ok _ _ _ _ _ E). destruct (cur_cases st I) as [(i & v & Hc & Hi & _)|Hc].
  - destruct (cache_eq st i v I WN Hc Hi) as (c & st' & E' & _ & I' & _). by rewrite (abind_Ok _ _ _ _ _ E').
  - destruct (cache_none st Hc) as [m E']. by rewrite (abind_Throw _ _ _ _ _ E').
Qed.
Lemma by_id_fine st k : binv st -> well_numbered st -> fine (bb_by_id k) st.
Proof.
  intros I WN. unfold fine, bb_by_id. destruct (cur_cases st I) as [(i & v & Hc & Hi & _)|Hc].
  - destruct (cache_eq st i v I WN Hc Hi) as (c & st' & E' & _ & I' & _). by rewrite (abind_Ok _ _ _ _ _ E').
  - destruct (cache_none st Hc) as [m E']. by rewrite (abind_Throw _ _ _ _ _ E').
Qed.
Lemma filter_connected_ok v ts : (forall t, t ∈ ts -> known v t) ->
  exists l, filter_connected v ts = Ok l /\ (forall t, t ∈ l <-> t ∈ ts /\ connected v t) /\ (NoDup ts -> NoDup l).
Proof.
  induction ts as [|t ts IH]; intros H.
  { exists []. split; [done|]. split; [|done]. intros t. split; [by intros ?%elem_of_nil|]. by intros [?%elem_of_nil _]. }
  destruct (H t) as [[[c i] E] _]; [by left|]. destruct IH as (l & El & Hl & Hn); [intros; apply H; by right|].
  cbn [filter_connected]. rewrite E, El. cbn [result_bind]. eexists. split; [reflexivity|]. split.
  - intros w. destruct c.
    + rewrite !elem_of_cons, Hl. split; [|tauto]. intros [->|[? ?]]; [|tauto]. split; [by left|]. by exists i.
    + rewrite elem_of_cons, Hl. split; [tauto|]. intros [[->|?] Hc]; [|tauto]. destruct Hc as [j Hj]. congruence.
  - intros [N1 N2]%NoDup_cons. destruct c; [|auto]. apply NoDup_cons. split; [|auto]. rewrite Hl. tauto.
Qed.
Lemma connected_terms_ok v us : (forall u, u ∈ us -> exists l, bv_terms v !! u = Some l /\ forall t, t ∈ l -> known v t) ->
  exists l, connected_terms v us = Ok l /\
    (forall t, t ∈ l <-> exists u lu, u ∈ us /\ bv_terms v !! u = Some lu /\ t ∈ lu /\ connected v t) /\
    ((forall u lu, bv_terms v !! u = Some lu -> NoDup lu) ->
     (forall u u' l l' t, bv_terms v !! u = Some l -> bv_terms v !! u' = Some l' -> t ∈ l -> t ∈ l' -> u = u') -> NoDup us -> NoDup l).
Proof.
  induction us as [|u us IH]; intros H.
  { exists []. split; [done|]. split; [|intros; constructor]. intros t. split; [by intros ?%elem_of_nil|]. by intros (? & ? & ?%elem_of_nil & _). }
  destruct (H u) as (lu & Eu & Hk); [by left|]. destruct (filter_connected_ok v lu Hk) as (l1 & E1 & H1 & N1).
  destruct IH as (l2 & E2 & H2 & N2); [intros; apply H; by right|].
  cbn [connected_terms]. rewrite Eu, E1. cbn [result_bind]. rewrite E2. cbn [result_bind]. eexists. split; [reflexivity|]. split.
  - intros t. rewrite elem_of_app, H1, H2. split.
    + intros [[? ?]|(u' & lu' & ? & ?)]; [exists u, lu; split; [by left|done]|exists u', lu'; split; [by right|done]].
    + intros (u' & lu' & [->|Hu]%elem_of_cons & Hl & Ht & Hc); [left|right; exists u', lu'; done].
      rewrite Eu in Hl. by injection Hl as <-.
  - intros F1 F2 [M1 M2]%NoDup_cons. apply NoDup_app. split; [by eapply N1, F1|]. split; [|by apply N2].
    intros t Ht Ht'. apply H1 in Ht as [Ht _]. apply H2 in Ht' as (u' & lu' & Hu & Hl & Ht' & _).
    assert (u = u') as <- by (by eapply F2). done.
Qed.
(** Members of a merged bus are live and their terminals known. *)
Lemma members_known s v c k us : shok s -> vok s v -> cache_good (bb_id s) v (abs (bb_graph s)) c -> mc_id c !! k = Some us ->
  NoDup us /\ forall u, u ∈ us -> exists l, bv_terms v !! u = Some l /\ forall t, t ∈ l -> known v t.
Proof.
  intros S IV CG Hk. destruct (cg_id _ _ _ _ CG k us Hk) as [Hne Hm]. destruct us as [|u0 us']; [done|].
  assert (mc_map c !! u0 = Some k) as H0 by (apply Hm; by left).
  destruct (cg_map _ _ _ _ CG u0 k H0) as (x & us & Ho & Hv & Hi & [G1 G2]). rewrite Hk in Hi. injection Hi as <-. split; [done|].
  intros u Hu. apply G2 in Hu as (y & _ & Hy). destruct (so_obj _ _ (inv_sound s v S IV) y _ Hy) as (u' & l & [= <-] & Hl & Hkn). eauto.
Qed.
Lemma set_cache_known c v t : known v t -> known (bv_set_cache c v) t.
Proof. done. Qed.
Lemma terminals_eq st i v k : binv st -> well_numbered st -> e_cur st = Some i -> e_vars st !! i = Some v ->
  exists st' r, bb_terminals k st = (r, st') /\ binv st' /\ same_but_merged st st' /\
   ((exists c us l, bb_by_id k st = (Ok (Some us), st') /\ cache_good (bb_id (e_sh st)) v (abs (bb_graph (e_sh st))) c /\ mc_id c !! k = Some us /\
       r = Ok l /\ NoDup l /\ (forall t, t ∈ l <-> exists u lu, u ∈ us /\ bv_terms v !! u = Some lu /\ t ∈ lu /\ connected v t)) \/
    ((exists m, r = Throw m) /\ bb_by_id k st = (Ok None, st'))).
Proof.
  intros I WN Hc Hi. destruct (cache_eq st i v I WN Hc Hi) as (c & st' & E' & CG & I' & SB & Ev).
  unfold bb_terminals, bb_by_id. rewrite (abind_Ok _ _ st (mc_id c !! k) st') by (by rewrite (abind_Ok _ _ _ _ _ E')).
  rewrite (abind_Ok _ _ _ _ _ E'). destruct (mc_id c !! k) as [us|] eqn:Ek.
  - assert (e_cur st' = Some i) as Hc' by (destruct SB as (_ & _ & _ & _ & _ & _ & _ & -> & _); done).
    rewrite (abind_Ok _ _ _ _ _ (aget_eq _ _ _ Hc' Ev)).
    pose proof (proj1 (bi_vars _ I) i v Hi) as IV.
    destruct (members_known _ v c k us (bi_sh _ I) IV CG Ek) as [ND HK].
    destruct (connected_terms_ok (bv_set_cache (Some c) v) us) as (l & El & Hl & Hn); [exact HK|].
    unfold alift. rewrite El. exists st', (Ok l). split; [done|]. split; [done|]. split; [done|]. left. exists c, us, l. split; [done|]. split; [done|].
    split; [done|]. split; [done|]. split; [|exact Hl]. apply Hn; [apply (vk_nodup _ _ IV)|apply (vk_uniq _ _ IV)|done].
  - exists st', (Throw "Bus not found"). split; [done|]. split; [done|]. split; [done|]. right. eauto.
Qed.
Lemma terminals_fine st k : binv st -> well_numbered st -> fine (bb_terminals k) st.
Proof.
  intros I WN. destruct (cur_cases st I) as [(i & v & Hc & Hi & _)|Hc].
  - destruct (terminals_eq st i v k I WN Hc Hi) as (st' & r & E & I' & _ & [(c & us & l & _ & _ & _ & -> & _)|[[m ->] _]]); unfold fine; by rewrite E.
  - unfold fine, bb_terminals, bb_by_id. destruct (cache_none st Hc) as [m E'].
    rewrite (abind_Throw _ _ st m st); [done|]. by rewrite (abind_Throw _ _ _ _ _ E').
Qed.

(** Terminals that exist, exist in all the variants. *)
Definition has_term (st : bbst) (t : nterm) : Prop := map_Exists (fun _ v => is_Some (bv_conn v !! t)) (e_vars st).
Lemma has_term_all st t : binv st -> has_term st t -> forall i v, e_vars st !! i = Some v -> is_Some (bv_conn v !! t).
Proof. intros I (j & w & Hj & Hw) i v Hi. apply (proj2 (bi_vars _ I) j i w v Hj Hi). done. Qed.
Lemma bt_get_eq st i v t x : e_cur st = Some i -> e_vars st !! i = Some v -> bv_conn v !! t = Some x -> bt_get t st = (Ok x, st).
Proof. intros Hc Hi Ht. unfold bt_get. rewrite (abind_Ok _ _ _ _ _ (aget_eq _ _ _ Hc Hi)). unfold alift. by rewrite Ht. Qed.
Lemma bt_get_none st t : e_cur st = None -> bt_get t st = (Throw "Variant index not set", st).
Proof. intros Hc. unfold bt_get. by rewrite (abind_Throw _ _ _ _ _ (aget_none _ Hc)). Qed.
Lemma terminal_bus_fine st t : binv st -> well_numbered st -> has_term st t -> fine (bb_terminal_bus t) st.
Proof.
  intros I WN HT. unfold fine, bb_terminal_bus. destruct (cur_cases st I) as [(i & v & Hc & Hi & _)|Hc].
  - destruct (has_term_all st t I HT i v Hi) as [[c b] Hx]. rewrite (abind_Ok _ _ _ _ _ (bt_get_eq _ _ _ _ _ Hc Hi Hx)). cbn [fst snd].
    destruct c; [|done]. by apply merged_fine.
  - by rewrite (abind_Throw _ _ _ _ _ (bt_get_none st t Hc)).
Qed.

(** *** Switch position, connection *)
Lemma vok_invalidate s v : vok s v -> vok s (bv_set_cache None v).
Proof. intros [V1 V2 V3 V4 V5 V6 V7]. by split. Qed.
Lemma set_open_fine st k b : binv st -> is_Some (bb_sw (e_sh st) !! k) -> fine (bb_set_open k b) st.
Proof.
  intros I Hk. unfold fine, bb_set_open. destruct (cur_cases st I) as [(i & v & Hc & Hi & IV)|Hc].
  2:{ by rewrite (abind_Throw _ _ _ _ _ (aget_none _ Hc)). }
  rewrite (abind_Ok _ _ _ _ _ (aget_eq _ _ _ Hc Hi)). destruct (proj2 (vk_open _ _ IV k) Hk) as [o Ho]. rewrite Ho. case_bool_decide; [done|].
  rewrite (put_inv_eq _ _ _ _ Hc Hi). apply (put_binv _ _ v); [done|done| |done].
  destruct IV as [V1 V2 V3 V4 V5 V6 V7]. split; try done. cbn. intros k'. rewrite <- V1. destruct (decide (k = k')) as [<-|].
  - rewrite lookup_insert, Ho. split; eauto.
  - by rewrite lookup_insert_ne.
Qed.
(** Writing the attributes of a terminal of the working variant; the cache is dropped. *)
Definition conn_put (v : bbvar) (t : nterm) (x : bool * string) : bbvar := mkBV (bv_open v) (bv_terms v) (<[t := x]> (bv_conn v)) (bv_cache v).
Lemma conn_put_agree v t x : is_Some (bv_conn v !! t) -> agree v (conn_put v t x).
Proof.
  intros H. split; [done|]. intros t'. cbn. destruct (decide (t = t')) as [<-|]; [|by rewrite lookup_insert_ne].
  rewrite lookup_insert. split; eauto.
Qed.
Lemma conn_put_vok s v t c b c' b' : vok s v -> bv_cache v = None -> bv_conn v !! t = Some (c, b) -> (b' = b \/ b' = "" \/ loose v t) ->
  vok s (conn_put v t (c', b')).
Proof.
  intros [V1 V2 V3 V4 V5 V6 V7] Hn Ht Hb. split; cbn; try done.
  - intros u l t' Hl Ht'. destruct (V3 u l t' Hl Ht') as [H1 H2]. split; [|done]. cbn. destruct (decide (t = t')) as [<-|]; [|by rewrite lookup_insert_ne].
    rewrite lookup_insert. eauto.
  - intros t' c0 b0. intros [[<- [= <- <-]]|[_ H]]%lookup_insert_Some; [|by eapply V6]. destruct Hb as [->|[->|Hb]]; [by eapply V6|by left|by right; right].
  - rewrite Hn. done.
Qed.
Lemma conn_invalid v t x : bv_set_cache None (conn_put v t x) = conn_put (bv_set_cache None v) t x.
Proof. done. Qed.
Lemma set_connected_eq st i v t x b : e_cur st = Some i -> e_vars st !! i = Some v -> bv_conn v !! t = Some x ->
  bt_set_connected t b st = (Ok tt, put st i (conn_put v t (b, x.2))).
Proof.
  intros Hc Hi Ht. unfold bt_set_connected. rewrite (abind_Ok _ _ _ _ _ (bt_get_eq _ _ _ _ _ Hc Hi Ht)).
  unfold bt_put. rewrite (abind_Ok _ _ _ _ _ (aget_eq _ _ _ Hc Hi)). by rewrite (aput_eq _ _ _ _ Hc Hi).
Qed.
Lemma set_bus_eq st i v t x b : e_cur st = Some i -> e_vars st !! i = Some v -> bv_conn v !! t = Some x ->
  bt_set_bus t b st = (Ok tt, put st i (conn_put v t (x.1, b))).
Proof.
  intros Hc Hi Ht. unfold bt_set_bus. rewrite (abind_Ok _ _ _ _ _ (bt_get_eq _ _ _ _ _ Hc Hi Ht)).
  unfold bt_put. rewrite (abind_Ok _ _ _ _ _ (aget_eq _ _ _ Hc Hi)). by rewrite (aput_eq _ _ _ _ Hc Hi).
Qed.
Lemma put_lookup st i v : e_vars (put st i v) !! i = Some v.
Proof. unfold put. cbn. by rewrite lookup_insert. Qed.
Lemma switch_connected_eq st i v t x b : e_cur st = Some i -> e_vars st !! i = Some v -> bv_conn v !! t = Some x ->
  (bt_set_connected t b ;;! bb_invalidate ;;! aret true) st = (Ok true, put st i (conn_put (bv_set_cache None v) t (b, x.2))).
Proof.
  intros Hc Hi Ht. rewrite (abind_Ok _ _ _ _ _ (set_connected_eq _ _ _ _ _ _ Hc Hi Ht)).
  rewrite (abind_Ok _ _ _ tt (put st i (conn_put (bv_set_cache None v) t (b, x.2)))); [done|].
  rewrite (invalidate_eq _ i (conn_put v t (b, x.2))); [by rewrite put_put|done|apply put_lookup].
Qed.
Lemma switch_connected_fine st i v t x b : binv st -> e_cur st = Some i -> e_vars st !! i = Some v -> bv_conn v !! t = Some x ->
  binv (put st i (conn_put (bv_set_cache None v) t (b, x.2))).
Proof.
  intros I Hc Hi Ht. pose proof (proj1 (bi_vars _ I) i v Hi) as IV. apply (put_binv _ _ v); [done|done| |].
  - destruct x as [c0 b0]. eapply conn_put_vok; [by apply vok_invalidate|done|exact Ht|by left].
  - eapply agree_trans; [|apply conn_put_agree; eauto]. done.
Qed.
Lemma connect_fine st t : binv st -> has_term st t -> fine (bb_connect t) st.
Proof.
  intros I HT. unfold fine, bb_connect. destruct (cur_cases st I) as [(i & v & Hc & Hi & IV)|Hc].
  2:{ by rewrite (abind_Throw _ _ _ _ _ (bt_get_none st t Hc)). }
  destruct (has_term_all st t I HT i v Hi) as [x Hx]. rewrite (abind_Ok _ _ _ _ _ (bt_get_eq _ _ _ _ _ Hc Hi Hx)). destruct (x.1); [done|].
  rewrite (switch_connected_eq _ _ _ _ _ _ Hc Hi Hx). by apply switch_connected_fine.
Qed.
Lemma disconnect_fine st t : binv st -> has_term st t -> fine (bb_disconnect t) st.
Proof.
  intros I HT. unfold fine, bb_disconnect. destruct (cur_cases st I) as [(i & v & Hc & Hi & IV)|Hc].
  2:{ by rewrite (abind_Throw _ _ _ _ _ (bt_get_none st t Hc)). }
  destruct (has_term_all st t I HT i v Hi) as [x Hx]. rewrite (abind_Ok _ _ _ _ _ (bt_get_eq _ _ _ _ _ Hc Hi Hx)). destruct (x.1); [|done].
  rewrite (switch_connected_eq _ _ _ _ _ _ Hc Hi Hx). by apply switch_connected_fine.
Qed.

(** *** Attaching and detaching *)
Lemma remove_first_ok t l : t ∈ l -> NoDup l -> exists l', remove_first t l = Some l' /\ NoDup l' /\ forall t', t' ∈ l' <-> t' ∈ l /\ t' <> t.
Proof.
  induction l as [|x l IH]; intros Ht ND; [by apply elem_of_nil in Ht|]. apply NoDup_cons in ND as [N1 N2]. cbn [remove_first].
  case_bool_decide as Hx.
  - subst x. exists l. split; [done|]. split; [done|]. intros t'. rewrite elem_of_cons. split.
    + intros H. split; [by right|]. by intros ->.
    + intros [[->|?] ?]; done.
  - apply elem_of_cons in Ht as [->|Ht]; [done|]. destruct (IH Ht N2) as (l' & -> & ND & H). exists (x :: l'). split; [done|]. split.
    + apply NoDup_cons. split; [|done]. rewrite H. tauto.
    + intros t'. rewrite !elem_of_cons, H. split; [|tauto]. intros [->|?]; [|tauto]. split; [by left|done].
Qed.
Lemma remove_first_none t l : t ∉ l -> remove_first t l = None.
Proof.
  induction l as [|x l IH]; intros H; [done|]. apply not_elem_of_cons in H as [H1 H2]. cbn [remove_first]. rewrite bool_decide_eq_false_2 by done.
  by rewrite IH.
Qed.
Definition detach_var (u : nat) (t : nterm) (v : bbvar) : bbvar :=
  mkBV (bv_open v)
       (match bv_terms v !! u with Some l => <[u := default l (remove_first t l)]> (bv_terms v) | None => bv_terms v end)
       (match bv_conn v !! t with Some x => <[t := (x.1, "")]> (bv_conn v) | None => bv_conn v end) None.
Definition attach_var (u : nat) (t : nterm) (v : bbvar) : bbvar :=
  mkBV (bv_open v) (match bv_terms v !! u with Some l => <[u := l ++ [t]]> (bv_terms v) | None => bv_terms v end) (bv_conn v) None.

(** The terminal of the working variant hangs on the bus it names, or the call throws. *)
Lemma detach_eq st t : binv st -> has_term st t ->
  (exists m, bb_detach t st = (Throw m, st)) \/
  (exists u, bb_detach t st = (Ok tt, mkE (e_sh st) (detach_var u t <$> e_vars st) (e_cur st)) /\ is_Some (e_cur st) /\
     forall i v, e_vars st !! i = Some v -> exists l, bv_terms v !! u = Some l /\ t ∈ l).
Proof.
  intros I HT. unfold bb_detach. destruct (cur_cases st I) as [(i & v & Hc & Hi & IV)|Hc].
  2:{ left. rewrite (abind_Throw _ _ _ _ _ (bt_get_none st t Hc)). eauto. }
  destruct (has_term_all st t I HT i v Hi) as [x Hx]. rewrite (abind_Ok _ _ _ _ _ (bt_get_eq _ _ _ _ _ Hc Hi Hx)).
  destruct (configured_eq st x.2 (bi_sh _ I)) as [(u & y & E & HL & _)|(m & E & _)].
  2:{ left. rewrite (abind_Throw _ _ _ _ _ E). eauto. }
  rewrite (abind_Ok _ _ _ _ _ E).
  destruct (proj2 (vk_terms _ _ IV u)) as [l Hl]; [eauto|].
  assert (forall j w, e_vars st !! j = Some w -> bv_terms w !! u = Some l) as Hall.
  { intros j w Hw. destruct (proj2 (bi_vars _ I) i j v w Hi Hw) as [<- _]. done. }
  destruct (decide (t ∈ l)) as [Ht|Ht].
  - right. exists u. split; [|split; [eauto|eauto]]. destruct (remove_first_ok t l Ht (vk_nodup _ _ IV u l Hl)) as (l' & Er & _).
    apply (aforeach_ok _ (detach_var u t) (fun w => bv_terms w !! u = Some l /\ is_Some (bv_conn w !! t)) st i Hc).
    + intros j w Hw. split; [by eapply Hall|]. by eapply has_term_all.
    + intros st' j w Hs Hc' Hw [Hl' [x' Hx']]. unfold detach_var. rewrite Hl', Hx', Er. cbn [default].
      unfold bus_remove_terminal. erewrite abind_Ok; swap 1 2.
      { rewrite (abind_Ok _ _ _ _ _ (aget_eq _ _ _ Hc' Hw)), Hl', Er. by apply (aput_eq _ j w). }
      set (w1 := mkBV (bv_open w) (<[u := l']> (bv_terms w)) (bv_conn w) (bv_cache w)).
      assert (bt_set_bus t "" (put st' j w1) = (Ok tt, put (put st' j w1) j (conn_put w1 t (x'.1, "")))) as E1.
      { apply set_bus_eq; [done|apply put_lookup|done]. }
      rewrite (abind_Ok _ _ _ _ _ E1). rewrite put_put.
      rewrite (invalidate_eq _ j (conn_put w1 t (x'.1, ""))); [|done|apply put_lookup]. rewrite put_put. done.
  - left. apply (aforeach_throw _ st i Hc); [eauto|]. intros st' j Hs Hv Hc' [w Hw]. eexists.
    unfold bus_remove_terminal. erewrite abind_Throw; [reflexivity|]. rewrite (abind_Ok _ _ st' w st'); [|apply (aget_eq _ j); [done|by rewrite Hv]].
    rewrite (Hall j w Hw). rewrite remove_first_none by done. reflexivity.
Qed.
Lemma attach_eq st t : binv st -> has_term st t ->
  (exists m, bb_attach t st = (Throw m, st)) \/
  (exists i v x u, e_cur st = Some i /\ e_vars st !! i = Some v /\ bv_conn v !! t = Some x /\ bb_live (e_sh st) !! u = Some x.2 /\
     bb_attach t st = (Ok tt, mkE (e_sh st) (attach_var u t <$> e_vars st) (e_cur st))).
Proof.
  intros I HT. unfold bb_attach. destruct (cur_cases st I) as [(i & v & Hc & Hi & IV)|Hc].
  2:{ left. rewrite (abind_Throw _ _ _ _ _ (bt_get_none st t Hc)). eauto. }
  destruct (has_term_all st t I HT i v Hi) as [x Hx]. rewrite (abind_Ok _ _ _ _ _ (bt_get_eq _ _ _ _ _ Hc Hi Hx)).
  destruct (configured_eq st x.2 (bi_sh _ I)) as [(u & y & E & HL & _)|(m & E & _)].
  2:{ left. case_bool_decide as Hb.
      - rewrite (abind_Ok _ _ st 0 st eq_refl). rewrite (abind_Throw _ _ _ _ _ E). eauto.
      - rewrite (abind_Throw _ _ _ _ _ E). eauto. }
  right. exists i, v, x, u. split; [done|]. split; [done|]. split; [done|]. split; [done|].
  assert (exists z, (if bool_decide (x.2 = "") then aret 0 else bb_configured x.2) st = (Ok z, st)) as [z Ez] by (case_bool_decide; eauto).
  rewrite (abind_Ok _ _ _ _ _ Ez). rewrite (abind_Ok _ _ _ _ _ E).
  apply (aforeach_ok _ (attach_var u t) (fun w => is_Some (bv_terms w !! u)) st i Hc).
  - intros j w Hw. apply (vk_terms _ _ (proj1 (bi_vars _ I) j w Hw)). eauto.
  - intros st' j w Hs Hc' Hw [l Hl]. unfold attach_var. rewrite Hl. unfold bus_add_terminal.
    erewrite abind_Ok; swap 1 2.
    { rewrite (abind_Ok _ _ _ _ _ (aget_eq _ _ _ Hc' Hw)), Hl. by apply (aput_eq _ j w). }
    rewrite (invalidate_eq _ j (mkBV (bv_open w) (<[u := l ++ [t]]> (bv_terms w)) (bv_conn w) (bv_cache w))); [|done|apply put_lookup].
    by rewrite put_put.
Qed.
Lemma agree_detach u t v w : agree v w -> agree (detach_var u t v) (detach_var u t w).
Proof.
  intros [H1 H2]. split; cbn; [by rewrite H1|]. intros t'. pose proof (H2 t) as Ht.
  destruct (bv_conn v !! t) as [x|] eqn:Ex, (bv_conn w !! t) as [y|] eqn:Ey.
  - destruct (decide (t = t')) as [<-|]; [rewrite !lookup_insert; split; eauto|by rewrite !lookup_insert_ne].
  - destruct (proj1 Ht); [eauto|done].
  - destruct (proj2 Ht); [eauto|done].
  - done.
Qed.
Lemma agree_attach u t v w : agree v w -> agree (attach_var u t v) (attach_var u t w).
Proof. intros [H1 H2]. split; cbn; [by rewrite H1|done]. Qed.
Lemma detach_var_terms u t v l l' : bv_terms v !! u = Some l -> remove_first t l = Some l' -> bv_terms (detach_var u t v) = <[u := l']> (bv_terms v).
Proof. intros Hl Hr. cbn. rewrite Hl, Hr. done. Qed.
Lemma detach_vok s v u t l : vok s v -> bv_terms v !! u = Some l -> t ∈ l -> is_Some (bv_conn v !! t) -> vok s (detach_var u t v) /\ loose (detach_var u t v) t.
Proof.
  intros IV Hl Ht [x Hx]. destruct (remove_first_ok t l Ht (vk_nodup _ _ IV u l Hl)) as (l' & Er & N' & Hl').
  pose proof (detach_var_terms u t v l l' Hl Er) as ET.
  assert (bv_conn (detach_var u t v) = <[t := (x.1, "")]> (bv_conn v)) as EC by (cbn; by rewrite Hx).
  assert (forall w lw, bv_terms (detach_var u t v) !! w = Some lw -> exists lw', bv_terms v !! w = Some lw' /\ NoDup lw /\ (forall t', t' ∈ lw <-> t' ∈ lw' /\ t' <> t)) as HT.
  { intros w lw. rewrite ET. intros [[<- <-]|[Hne Hw]]%lookup_insert_Some; [exists l; done|]. exists lw. split; [done|].
    split; [by eapply (vk_nodup _ _ IV)|]. intros t'. split; [|tauto]. intros H. split; [done|]. intros ->.
    apply Hne. by eapply (vk_uniq _ _ IV u w l lw t). }
  assert (loose (detach_var u t v) t) as HL.
  { intros w lw Hw Htw. destruct (HT w lw Hw) as (lw' & _ & _ & H). apply H in Htw. tauto. }
  split; [|done]. split.
  - apply (vk_open _ _ IV).
  - intros w. rewrite ET. rewrite <- (vk_terms _ _ IV). destruct (decide (u = w)) as [<-|]; [|by rewrite lookup_insert_ne].
    rewrite lookup_insert, Hl. split; eauto.
  - intros w lw t' Hw Htw. destruct (HT w lw Hw) as (lw' & Hw' & _ & H). destruct (proj1 (H t') Htw) as [Htw' Hne].
    destruct (vk_known _ _ IV w lw' t' Hw' Htw') as [K1 K2]. split; [|done]. rewrite EC. by rewrite lookup_insert_ne.
  - intros w lw Hw. by destruct (HT w lw Hw) as (lw' & _ & ? & _).
  - intros w w' lw lw' t' Hw Hw' H1 H2. destruct (HT w lw Hw) as (z & Hz & _ & E1). destruct (HT w' lw' Hw') as (z' & Hz' & _ & E2).
    apply E1 in H1 as [H1 _]. apply E2 in H2 as [H2 _]. by eapply (vk_uniq _ _ IV).
  - intros t' c b. rewrite EC. intros [[<- [= <- <-]]|[Hne H]]%lookup_insert_Some; [by left|].
    destruct (vk_conn _ _ IV t' c b H) as [->|[(w & lw & Hw & Hlw & Htw)|Hlo]]; [by left| |].
    + right. left. destruct (decide (u = w)) as [<-|Hne'].
      * exists u, l'. split; [done|]. rewrite ET, lookup_insert. split; [done|]. rewrite Hl in Hlw. injection Hlw as <-. apply Hl'. done.
      * exists w, lw. split; [done|]. rewrite ET, lookup_insert_ne by done. done.
    + right. right. intros w lw Hw Htw. destruct (HT w lw Hw) as (lw' & Hw' & _ & E). apply E in Htw. destruct Htw as [Htw _]. by eapply Hlo.
  - done.
Qed.
Lemma attach_vok s v u t b c b' : vok s v -> loose v t -> nt_type t <> BUSBAR_SECTION -> bb_live s !! u = Some b -> bv_conn v !! t = Some (c, b') ->
  (b' = "" \/ b' = b) -> vok s (attach_var u t v).
Proof.
  intros IV HL Hty Hu Hc Hb. destruct (proj2 (vk_terms _ _ IV u)) as [l Hl]; [eauto|].
  assert (bv_terms (attach_var u t v) = <[u := l ++ [t]]> (bv_terms v)) as ET by (cbn; by rewrite Hl).
  assert (forall w lw, bv_terms (attach_var u t v) !! w = Some lw -> exists lw', bv_terms v !! w = Some lw' /\ NoDup lw /\
     (forall t', t' ∈ lw <-> t' ∈ lw' \/ (t' = t /\ w = u))) as HT.
  { intros w lw. rewrite ET. intros [[<- <-]|[Hne Hw]]%lookup_insert_Some.
    - exists l. split; [done|]. split.
      + apply NoDup_app. split; [by eapply (vk_nodup _ _ IV)|]. split; [|apply NoDup_singleton].
        intros t' H1 H2%elem_of_list_singleton. subst t'. by eapply HL.
      + intros t'. rewrite elem_of_app, elem_of_list_singleton. naive_solver.
    - exists lw. split; [done|]. split; [by eapply (vk_nodup _ _ IV)|]. intros t'. naive_solver. }
  split.
  - apply (vk_open _ _ IV).
  - intros w. rewrite ET. rewrite <- (vk_terms _ _ IV). destruct (decide (u = w)) as [<-|]; [|by rewrite lookup_insert_ne].
    rewrite lookup_insert, Hl. split; eauto.
  - intros w lw t' Hw Htw. destruct (HT w lw Hw) as (lw' & Hw' & _ & H). destruct (proj1 (H t') Htw) as [Htw'|[-> ->]].
    + exact (vk_known _ _ IV w lw' t' Hw' Htw').
    + split; [cbn; eauto|done].
  - intros w lw Hw. by destruct (HT w lw Hw) as (lw' & _ & ? & _).
  - intros w w' lw lw' t' Hw Hw' H1 H2. destruct (HT w lw Hw) as (z & Hz & _ & E1). destruct (HT w' lw' Hw') as (z' & Hz' & _ & E2).
    apply E1 in H1 as [H1|[-> ->]]; apply E2 in H2 as [H2|[H2 ->]].
    + by eapply (vk_uniq _ _ IV).
    + subst t'. by destruct (HL w z Hz).
    + by destruct (HL w' z' Hz').
    + done.
  - intros t' c0 b0 H. change (bv_conn (attach_var u t v)) with (bv_conn v) in H. destruct (decide (t' = t)) as [->|Hne].
    + rewrite Hc in H. injection H as <- <-. destruct Hb as [->| ->]; [by left|]. right. left. exists u, (l ++ [t]). split; [done|].
      rewrite ET, lookup_insert. split; [done|]. apply elem_of_app. right. by apply elem_of_list_singleton.
    + destruct (vk_conn _ _ IV t' c0 b0 H) as [->|[(w & lw & Hw & Hlw & Htw)|Hlo]]; [by left| |].
      * right. left. destruct (decide (u = w)) as [<-|Hne'].
        -- exists u, (l ++ [t]). split; [done|]. rewrite ET, lookup_insert. split; [done|]. rewrite Hl in Hlw. injection Hlw as <-. apply elem_of_app. by left.
        -- exists w, lw. split; [done|]. rewrite ET, lookup_insert_ne by done. done.
      * right. right. intros w lw Hw Htw. destruct (HT w lw Hw) as (lw' & Hw' & _ & E). apply E in Htw. destruct Htw as [Htw|[? _]]; [by eapply Hlo|done].
  - done.
Qed.
Lemma detached_binv st u t : binv st -> has_term st t -> (forall i v, e_vars st !! i = Some v -> exists l, bv_terms v !! u = Some l /\ t ∈ l) ->
  binv (mkE (e_sh st) (detach_var u t <$> e_vars st) (e_cur st)) /\
  forall i v, (detach_var u t <$> e_vars st) !! i = Some v -> loose v t /\ bv_cache v = None /\ (exists c, bv_conn v !! t = Some (c, "")).
Proof.
  intros I HT H. split.
  - apply fmap_binv; [done|apply I| |].
    + intros i v Hi. destruct (H i v Hi) as (l & Hl & Ht). eapply detach_vok; [by apply (proj1 (bi_vars _ I) i)|done|done|by eapply has_term_all].
    + intros i j v w Hi Hj. apply agree_detach. by eapply (proj2 (bi_vars _ I)).
  - intros i v. rewrite lookup_fmap. intros (w & Hw & ->)%fmap_Some. destruct (H i w Hw) as (l & Hl & Ht).
    destruct (has_term_all st t I HT i w Hw) as [x Hx].
    split; [eapply detach_vok; [by apply (proj1 (bi_vars _ I) i)|done|done|eauto]|]. split; [done|]. exists x.1. cbn. rewrite Hx. by rewrite lookup_insert.
Qed.
Lemma known_type st t : binv st -> (exists i v u l, e_vars st !! i = Some v /\ bv_terms v !! u = Some l /\ t ∈ l) -> nt_type t <> BUSBAR_SECTION.
Proof. intros I (i & v & u & l & Hi & Hl & Ht). by apply (vk_known _ _ (proj1 (bi_vars _ I) i v Hi) u l t Hl Ht). Qed.
Lemma attach_fine st t : binv st -> has_term st t -> nt_type t <> BUSBAR_SECTION ->
  (forall i v, e_vars st !! i = Some v -> loose v t) ->
  (forall i v c b j w c' b', e_vars st !! i = Some v -> bv_conn v !! t = Some (c, b) -> e_cur st = Some j -> e_vars st !! j = Some w ->
     bv_conn w !! t = Some (c', b') -> b = "" \/ b = b') ->
  fine (bb_attach t) st.
Proof.
  intros I HT Hty HL Hb. unfold fine. destruct (attach_eq st t I HT) as [[m ->]|(i & v & [c' b'] & u & Hc & Hi & Hx & HLu & ->)]; [done|].
  apply fmap_binv; [done|apply I| |].
  - intros j w Hj. destruct (has_term_all st t I HT j w Hj) as [[c b] Hw].
    eapply attach_vok; [by apply (proj1 (bi_vars _ I) j)|by eapply HL|done|exact HLu|exact Hw|]. by eapply Hb.
  - intros j k w w' Hj Hk. apply agree_attach. by eapply (proj2 (bi_vars _ I)).
Qed.
Lemma some_variant st : binv st -> exists i v, e_vars st !! i = Some v.
Proof. intros [[[v Hv] _] _ _]. eauto. Qed.
Lemma set_connectable_fine st t b : binv st -> has_term st t -> fine (bb_set_connectable t b) st.
Proof.
  intros I HT. unfold fine, bb_set_connectable. case_bool_decide as Hb; [done|]. rewrite (abind_Ok _ _ st tt st eq_refl).
  destruct (configured_eq st b (bi_sh _ I)) as [(u0 & x0 & E & HL0 & _)|(m & E & _)].
  2:{ by rewrite (abind_Throw _ _ _ _ _ E). }
  rewrite (abind_Ok _ _ _ _ _ E). clear E. destruct (detach_eq st t I HT) as [[m E]|(u & E & [i Hc] & Hu)].
  { by rewrite (abind_Throw _ _ _ _ _ E). }
  rewrite (abind_Ok _ _ _ _ _ E). clear E. destruct (detached_binv st u t I HT Hu) as [I' HD].
  assert (nt_type t <> BUSBAR_SECTION) as Hty.
  { apply (known_type st); [done|]. destruct (some_variant st I) as (j & w & Hw). destruct (Hu j w Hw) as (l & ? & ?). eauto 10. }
  set (st1 := mkE (e_sh st) (detach_var u t <$> e_vars st) (e_cur st)) in *.
  assert (exists v1, e_vars st1 !! i = Some v1) as [v1 Hi1].
  { destruct (bi_wf _ I') as [_ W]. apply (W i). done. }
  destruct (HD i v1 Hi1) as (L1 & N1 & c1 & C1).
  rewrite (abind_Ok _ _ _ _ _ (set_bus_eq st1 i v1 t (c1, "") b Hc Hi1 C1)). cbn [fst].
  assert (binv (put st1 i (conn_put v1 t (c1, b)))) as I2.
  { apply (put_binv _ _ v1); [done|done| |apply conn_put_agree; eauto]. eapply conn_put_vok; [by apply (proj1 (bi_vars _ I') i)|done|exact C1|by right; right]. }
  assert (forall j w, e_vars (put st1 i (conn_put v1 t (c1, b))) !! j = Some w -> loose w t /\ ((j = i /\ bv_conn w !! t = Some (c1, b)) \/ exists c, bv_conn w !! t = Some (c, ""))) as HW.
  { intros j w. cbn [put e_vars]. intros [[<- <-]|[Hne Hw]]%lookup_insert_Some.
    - split; [done|]. left. split; [done|]. cbn. by rewrite lookup_insert.
    - destruct (HD j w Hw) as (? & _ & ?). split; [done|]. by right. }
  apply attach_fine; [done| |done| |].
  - exists i, (conn_put v1 t (c1, b)). split; [apply put_lookup|]. cbn. rewrite lookup_insert. eauto.
  - intros j w Hw. by apply (HW j w).
  - intros j w c b0 k w' c' b' Hj Hcj Hk Hw' Hck. destruct (HW j w Hj) as [_ [[-> E]|[c0 E]]].
    + right. change (e_cur st = Some k) in Hk. rewrite Hc in Hk. injection Hk as <-. rewrite put_lookup in *. congruence.
    + left. congruence.
Qed.
Lemma remove_equipment_fine st t : binv st -> has_term st t -> fine (bb_remove_equipment t) st.
Proof.
  intros I HT. unfold fine, bb_remove_equipment. destruct (detach_eq st t I HT) as [[m E]|(u & E & _ & Hu)].
  { by rewrite (abind_Throw _ _ _ _ _ E). }
  rewrite (abind_Ok _ _ _ _ _ E). clear E. destruct (detached_binv st u t I HT Hu) as [I' HD].
  set (st1 := mkE (e_sh st) (detach_var u t <$> e_vars st) (e_cur st)) in *.
  apply (fmap_binv st1); [done|apply I'| |].
  - intros i v Hi. destruct (HD i v Hi) as (L & N & _). pose proof (proj1 (bi_vars _ I') i v Hi) as [V1 V2 V3 V4 V5 V6 V7]. split; cbn; try done.
    + intros u' l t' Hl Ht'. destruct (V3 u' l t' Hl Ht') as [K1 K2]. split; [|done]. cbn. rewrite lookup_delete_ne; [done|]. intros <-. by eapply L.
    + intros t' c b [_ H]%lookup_delete_Some. by eapply V6.
    + by rewrite N.
  - intros i j v w Hi Hj. destruct (proj2 (bi_vars _ I') i j v w Hi Hj) as [A1 A2]. split; [done|]. intros t'. cbn.
    destruct (decide (t = t')) as [<-|]; [rewrite !lookup_delete; split; by intros []|by rewrite !lookup_delete_ne].
Qed.
Lemma new_terminal_fine st t bus c : binv st -> fine (bb_new_terminal t bus c) st.
Proof.
  intros I. unfold fine, bb_new_terminal, abind. case_bool_decide as HT; [done|]. case_bool_decide as Hty; [done|]. case_bool_decide as Hb; [done|].
  assert (forall i v, e_vars st !! i = Some v -> bv_conn v !! t = None) as Hfr.
  { intros i v Hi. destruct (bv_conn v !! t) eqn:E; [|done]. destruct HT. exists i, v. split; [done|]. rewrite E. eauto. }
  assert (forall i v, e_vars st !! i = Some v -> loose v t) as HL.
  { intros i v Hi u l Hl Ht. destruct (vk_known _ _ (proj1 (bi_vars _ I) i v Hi) u l t Hl Ht) as [[? K] _]. rewrite (Hfr i v Hi) in K. done. }
  set (f := fun v => mkBV (bv_open v) (bv_terms v) (<[t := (c, bus)]> (bv_conn v)) (bv_cache v)).
  assert (binv (mkE (e_sh st) (f <$> e_vars st) (e_cur st))) as I'.
  { apply fmap_binv; [done|apply I| |].
    - intros i v Hi. pose proof (HL i v Hi) as HLv. pose proof (proj1 (bi_vars _ I) i v Hi) as [V1 V2 V3 V4 V5 V6 V7]. split; cbn; try done.
      + intros u l t' Hl Ht'. destruct (V3 u l t' Hl Ht') as [K1 K2]. split; [|done]. cbn. rewrite lookup_insert_ne; [done|]. intros <-. by eapply HLv.
      + intros t' c0 b0 [[<- _]|[_ H]]%lookup_insert_Some; [by right; right|by eapply V6].
      + intros c0 Hc0. apply (cache_same _ v); [done|done| |by apply V7]. cbn. intros u l t' Hl Ht'. rewrite lookup_insert_ne; [done|]. intros <-. by eapply HLv.
    - intros i j v w Hi Hj. destruct (proj2 (bi_vars _ I) i j v w Hi Hj) as [A1 A2]. split; [done|]. intros t'. cbn.
      destruct (decide (t = t')) as [<-|]; [rewrite !lookup_insert; split; eauto|by rewrite !lookup_insert_ne]. }
  apply (attach_fine _ _ I').
  - destruct (some_variant st I) as (i & v & Hi). exists i, (f v). cbn [e_vars]. rewrite lookup_fmap, Hi. split; [done|]. cbn. rewrite lookup_insert. eauto.
  - done.
  - intros i v. cbn [e_vars]. rewrite lookup_fmap. intros (w & Hw & ->)%fmap_Some. by apply (HL i w).
  - intros i v c0 b0 j w c' b'. cbn [e_vars]. rewrite !lookup_fmap. intros (v0 & _ & ->)%fmap_Some. cbn. rewrite lookup_insert. intros [= <- <-] _.
    intros (w0 & _ & ->)%fmap_Some. cbn. rewrite lookup_insert. intros [= <- <-]. by right.
Qed.

(** *** Buses *)
Lemma add_vertex_eq (g : BG) : ginv g -> exists g' x, g_add_vertex g = (g', Ok x) /\ ginv g' /\ s_vertices (abs g) !! x = None /\
  abs g' = mkS (<[x := None]> (s_vertices (abs g))) (s_edges (abs g)).
Proof.
  intros I. destruct (g_add_vertex_ok g I) as [I' (x & [Hf _] & Hr & E)]. destruct (g_add_vertex g) as [g' r]. cbn [fst snd] in *.
  destruct r; simpl in Hr; simplify_eq. exists g'. eauto 10.
Qed.
Definition add_bus_sh (s : bbsh) (id : string) (g : BG) (x : nat) : bbsh :=
  mkBB (bb_id s) g (<[id := x]> (bb_buses s)) (bb_sw s) (<[bb_next s := id]> (bb_live s)) (S (bb_next s)) ({[id]} ∪ bb_ids s).
Definition add_bus_var (u : nat) (v : bbvar) : bbvar := mkBV (bv_open v) (<[u := []]> (bv_terms v)) (bv_conn v) (bv_cache v).
Lemma add_bus_eq st id : shok (e_sh st) -> let s := e_sh st in
  (bb_add_bus id st = (Throw (if bool_decide (id = "") then "Invalid id" else "Object already exists"), st) /\ (id = "" \/ id ∈ bb_ids s)) \/
  (id <> "" /\ id ∉ bb_ids s /\ exists g' x, ginv g' /\ s_vertices (abs (bb_graph s)) !! x = None /\
     abs g' = mkS (<[x := Some (bb_next s)]> (s_vertices (abs (bb_graph s)))) (s_edges (abs (bb_graph s))) /\
     bb_add_bus id st = (Ok tt, mkE (add_bus_sh s id g' x) (add_bus_var (bb_next s) <$> e_vars st) (e_cur st))).
Proof.
  intros S s. unfold bb_add_bus.
  assert (bb_check_id id st = if bool_decide (id = "") then (Throw "Invalid id", st) else
            if bool_decide (id ∈ bb_ids s) then (Throw "Object already exists", st) else (Ok tt, st)) as Ec.
  { unfold bb_check_id, abind, ashared. fold s. destruct (bool_decide (id = "")); [done|]. by destruct (bool_decide (id ∈ bb_ids s)). }
  case_bool_decide as Hid; [left; rewrite (abind_Throw _ _ _ _ _ Ec); auto|].
  case_bool_decide as Hin; [left; rewrite (abind_Throw _ _ _ _ _ Ec); auto|]. right. split; [done|]. split; [done|].
  destruct (add_vertex_eq (bb_graph s) (sk_g _ S)) as (g1 & x & E1 & I1 & Hx & A1).
  destruct (set_object_eq g1 x (Some (bb_next s)) I1) as (g2 & E2 & I2 & A2); [rewrite A1; cbn; rewrite lookup_insert; eauto|].
  exists g2, x. split; [done|]. split; [done|]. rewrite A1 in A2. cbn [s_vertices s_edges] in A2. rewrite insert_insert in A2. split; [done|].
  rewrite (abind_Ok _ _ _ _ _ Ec). erewrite abind_Ok; [|reflexivity]. cbv zeta. rewrite (abind_Ok ashared _ _ _ _ eq_refl).
  erewrite abind_Ok; [|unfold bgact; cbn [e_sh bb_graph]; fold s; rewrite E1; reflexivity]. cbn [e_sh bb_next].
  fold s. replace (Datatypes.S (bb_next s) - 1) with (bb_next s) by lia.
  erewrite abind_Ok; [|unfold bgact; cbn [e_sh bb_graph bb_set_graph]; rewrite E2; reflexivity].
  cbn [e_sh e_vars e_cur bb_set_graph bb_buses bb_id bb_graph bb_sw bb_live bb_next bb_ids].
  assert (bb_buses s !! id = None) as ->; [|done].
  destruct (bb_buses s !! id) as [y|] eqn:Ey; [|done]. destruct (sk_bus _ S id y Ey) as (u & _ & Hu). by destruct (sk_live _ S u id Hu) as (_ & _ & ? & _).
Qed.
Lemma vertex_edge_free (g : BG) n : ginv g -> s_vertices (abs g) !! n = None -> forall v y, ~ vlink v (abs g) n y.
Proof.
  intros I Hn v y (e & k & [H|H] & _); apply edge_live in H as [[? H1] [? H2]]; congruence.
Qed.
(** Adding or removing a bus that carries nothing: the cache stays good. *)
Section iso.
  Context (vl : string) (v v' : bbvar) (s s' : SG) (n u0 : nat) (c : mcache).
  Context (Ho : bv_open v' = bv_open v) (Hc : bv_conn v' = bv_conn v).
  Context (He : s_edges s' = s_edges s) (Hv : forall x, x <> n -> s_vertices s' !! x = s_vertices s !! x).
  Context (Ht : forall u, u <> u0 -> bv_terms v' !! u = bv_terms v !! u).
  Context (Hn : forall x, x <> n -> ~ obj s x u0) (Hf : forall y, ~ vlink v s n y).
  Context (Hu : forall u, obj s n u -> u = u0) (Hu' : forall u, obj s' n u -> u = u0).
  Context (Hl : forall l, bv_terms v !! u0 = Some l -> l = []) (Hl' : forall l, bv_terms v' !! u0 = Some l -> l = []).
  Lemma iso_transfer : cache_good vl v s c -> cache_good vl v' s' c.
  Proof.
    assert (forall x, x = n \/ x <> n) as HN by (intros x; destruct (decide (x = n)); auto).
    apply (cache_transfer (fun x => x = n) HN).
    - intros x y. unfold vlink, sjoins. by rewrite He, Ho.
    - by intros m y ->.
    - intros x u Hx. unfold obj. by rewrite Hv.
    - intros x u l Hx Hox Hlu. rewrite Ht, Hc; [done|]. intros ->. by apply (Hn x).
    - intros x u l Hx Hox. unfold obj in Hox. rewrite Hv in Hox by done. rewrite Ht, Hc; [done|]. intros ->. by apply (Hn x).
    - intros m u l t -> Hox Hlu. rewrite (Hu u Hox) in Hlu. rewrite (Hl l Hlu). apply not_elem_of_nil.
    - intros m u l t -> Hox Hlu. rewrite (Hu' u Hox) in Hlu. rewrite (Hl' l Hlu). apply not_elem_of_nil.
  Qed.
End iso.
Lemma add_bus_fine st id : binv st -> fine (bb_add_bus id) st.
Proof.
  intros I. pose proof (bi_sh _ I) as S. unfold fine.
  destruct (add_bus_eq st id S) as [[-> _]|(Hid & Hin & g' & x & I' & Hx & A & ->)]; [done|].
  pose proof S as [S1 S2 S3 S4 S5 S6].
  assert (forall b, bb_buses (e_sh st) !! b = None \/ b <> id) as Hb.
  { intros b. destruct (decide (b = id)) as [->|]; [|by right]. left. destruct (bb_buses (e_sh st) !! id) as [y|] eqn:Ey; [|done].
    destruct (S3 id y Ey) as (u & _ & Hu). by destruct (S4 u id Hu) as (_ & _ & ? & _). }
  assert (bb_live (e_sh st) !! bb_next (e_sh st) = None) as Hnx.
  { destruct (bb_live (e_sh st) !! bb_next (e_sh st)) as [b|] eqn:E; [|done]. apply S4 in E as (_ & ? & _). lia. }
  apply fmap_binv; [done| | |].
  - split; cbn [add_bus_sh bb_graph bb_live bb_buses bb_sw bb_next bb_ids]; rewrite ?A; cbn [s_vertices s_edges]; unfold on_vertex; cbn [add_bus_sh bb_graph]; rewrite ?A; cbn [s_vertices s_edges].
    + done.
    + intros y o [[<- <-]|[Hne Hy]]%lookup_insert_Some.
      * exists (bb_next (e_sh st)), id. rewrite !lookup_insert. done.
      * destruct (S2 y o Hy) as (u & b & -> & Hu & By). exists u, b. split; [done|]. rewrite !lookup_insert_ne; [done| |].
        -- destruct (Hb b); congruence.
        -- intros <-. congruence.
    + intros b y [[<- <-]|[Hne Hy]]%lookup_insert_Some.
      * exists (bb_next (e_sh st)). rewrite !lookup_insert. done.
      * destruct (S3 b y Hy) as (u & Hu & L). exists u. unfold on_vertex in Hu. rewrite !lookup_insert_ne; [done| |]; intros <-; congruence.
    + intros u b [[<- <-]|[Hne Hy]]%lookup_insert_Some.
      * split; [exists x; rewrite !lookup_insert; done|]. split; [lia|]. split; [set_solver|done].
      * destruct (S4 u b Hy) as ((y & Hy1 & Hy2) & ? & ? & ?). split; [|split; [lia|split; [set_solver|done]]]. exists y. unfold on_vertex in Hy1.
        rewrite !lookup_insert_ne; [done| |]; [destruct (Hb b); congruence|]. intros <-. congruence.
    + intros e a b o He. destruct (S5 e a b o He) as (k & -> & Hk). exists k. done.
    + intros k e Hk. destruct (S6 k e Hk) as (He & Hki & Hkb). split; [done|]. split; [set_solver|]. rewrite lookup_insert_ne; [done|]. set_solver.
  - intros i v Hi. pose proof (proj1 (bi_vars _ I) i v Hi) as [V1 V2 V3 V4 V5 V6 V7].
    assert (bv_terms v !! bb_next (e_sh st) = None) as Hnt.
    { destruct (bv_terms v !! bb_next (e_sh st)) eqn:E; [|done]. destruct (proj1 (V2 (bb_next (e_sh st)))); [eauto|congruence]. }
    split; cbn.
    + done.
    + intros u. destruct (decide (bb_next (e_sh st) = u)) as [<-|]; [rewrite !lookup_insert; split; eauto|by rewrite !lookup_insert_ne].
    + intros u l t [[<- <-]|[Hne Hy]]%lookup_insert_Some; [by intros ?%elem_of_nil|]. apply (V3 u l t Hy).
    + intros u l [[<- <-]|[Hne Hy]]%lookup_insert_Some; [constructor|eauto].
    + intros u u' l l' t [[<- <-]|[Hne Hy]]%lookup_insert_Some; [by intros _ ?%elem_of_nil|].
      intros [[<- <-]|[Hne' Hy']]%lookup_insert_Some; [by intros _ ?%elem_of_nil|]. by eapply V5.
    + intros t c b H. destruct (V6 t c b H) as [->|[(u & l & Hu & Hl & Ht)|HL]]; [by left|right; left|right; right].
      * exists u, l. cbn. rewrite !lookup_insert_ne; [done| |]; intros <-; congruence.
      * intros u l. cbn. intros [[<- <-]|[_ Hl]]%lookup_insert_Some; [apply not_elem_of_nil|by eapply HL].
    + intros c Hc. specialize (V7 c Hc). revert V7. rewrite A. eapply (iso_transfer _ _ _ _ _ x (bb_next (e_sh st))); try done; cbn.
      * intros y Hy. by rewrite lookup_insert_ne.
      * intros u Hu. by rewrite lookup_insert_ne.
      * intros y _ Hy. destruct (S2 y _ Hy) as (u & b & [= <-] & L & _). congruence.
      * by apply vertex_edge_free.
      * unfold obj. rewrite Hx. done.
      * unfold obj. cbn. rewrite lookup_insert. by intros u [= <-].
      * rewrite Hnt. done.
      * rewrite lookup_insert. by intros l [= <-].
  - intros i j v w Hi Hj. destruct (proj2 (bi_vars _ I) i j v w Hi Hj) as [A1 A2]. split; [|done]. cbn. by rewrite A1.
Qed.

Lemma check_switches_defined g u l : (forall x : string * nat, x ∈ l -> is_Some (s_edges (abs g) !! x.2)) -> ginv g ->
  check_switches g u l = Ok tt \/ exists m, check_switches g u l = Throw m.
Proof.
  intros H I. induction l as [|x l IH]; [by left|]. cbn [check_switches].
  assert (exists b, bus_touches g u x.2 = Ok b) as [b Eb].
  { destruct (H x) as [[[a b] o] He]; [by left|]. unfold bus_touches, g_vertex1, g_vertex2.
    pose proof (edge_live g x.2 a b o I He) as [[oa La] [ob Lb]].
    pose proof (check_edge_spec g x.2) as C. rewrite abs_edges in He. destruct (g_check_edge g x.2) as [ed|m| |]; try done.
    2:{ by rewrite C in He. }
    rewrite C in He. simpl in He. unfold ends in He. injection He as <- <- _. cbn [result_map result_bind].
    destruct (vertex_object_eq g (e_v1 ed)) as [(o1 & -> & _)|(m & _ & E)]; [|congruence]. cbn [result_bind].
    destruct (vertex_object_eq g (e_v2 ed)) as [(o2 & -> & _)|(m & _ & E)]; [|congruence]. cbn [result_bind]. eauto. }
  rewrite Eb. cbn [result_bind]. destruct b; [eauto|]. apply IH. intros y Hy. apply H. by right.
Qed.
Definition del_bus_var (u : nat) (v : bbvar) : bbvar := mkBV (bv_open v) (delete u (bv_terms v)) (bv_conn v) (bv_cache v).
Lemma remove_bus_fine st id : binv st -> fine (bb_remove_bus id) st.
Proof.
  intros I. pose proof (bi_sh _ I) as S. unfold fine, bb_remove_bus.
  destruct (configured_eq st id S) as [(u & x & E & HL & Hx & Hux)|(m & E & _)]; [|by rewrite (abind_Throw _ _ _ _ _ E)].
  rewrite (abind_Ok _ _ _ _ _ E). clear E.
  destruct (cur_cases st I) as [(i & v & Hc & Hi & IV)|Hc].
  2:{ erewrite abind_Throw; [done|]. unfold bus_term_count. by rewrite (abind_Throw _ _ _ _ _ (aget_none _ Hc)). }
  destruct (proj2 (vk_terms _ _ IV u)) as [l Hl]; [eauto|].
  rewrite (abind_Ok _ _ st (length l) st); [|unfold bus_term_count; rewrite (abind_Ok _ _ _ _ _ (aget_eq _ _ _ Hc Hi)), Hl; done].
  destruct l as [|t l]; [|done]. cbn [length]. change (0 <? 0) with false. cbv iota.
  rewrite (abind_Ok ashared _ st (e_sh st) st eq_refl).
  destruct (check_switches_defined (bb_graph (e_sh st)) u (map_to_list (bb_sw (e_sh st)))) as [E|[m E]].
  { intros [k e] Hke. apply elem_of_map_to_list in Hke. destruct (sk_sw _ S k e Hke) as ((a & b & He) & _). cbn. eauto. }
  { apply S. }
  2:{ erewrite abind_Throw; [done|]. unfold alift. by rewrite E. }
  erewrite abind_Ok; [|unfold alift; rewrite E; reflexivity]. rewrite Hx.
  destruct (g_remove_vertex_ok (bb_graph (e_sh st)) x (sk_g _ S)) as [I' Hst].
  destruct (g_remove_vertex (bb_graph (e_sh st)) x) as [g' r] eqn:Eg. cbn [fst snd] in *.
  destruct Hst as [(ob & Hob & Hef & Hr & A)|(_ & Hr & A)].
  2:{ destruct r as [o|m| |]; try done. erewrite abind_Throw; [|unfold bgact; rewrite Eg; reflexivity].
      apply set_binv; [done|by apply shok_set|]. intros j w Hw. apply vok_set; [done|]. by apply (proj1 (bi_vars _ I) j). }
  destruct r as [o|m| |]; simpl in Hr; try done. erewrite abind_Ok; [|unfold bgact; rewrite Eg; reflexivity].
  erewrite abind_Ok; [|reflexivity]. unfold bb_destroy_bus.
  cbn [e_sh e_vars e_cur bb_set_graph bb_buses bb_id bb_graph bb_sw bb_live bb_next bb_ids]. rewrite HL.
  pose proof S as [S1 S2 S3 S4 S5 S6].
  apply fmap_binv; [done| | |].
  - split; unfold on_vertex; cbn [bb_graph bb_live bb_buses bb_sw bb_next bb_ids]; rewrite ?A; cbn [s_vertices s_edges].
    + done.
    + intros y o' [Hne Hy]%lookup_delete_Some. destruct (S2 y o' Hy) as (u' & b & -> & Lu & By). exists u', b. split; [done|].
      rewrite !lookup_delete_ne; [done| |].
      * intros <-. congruence.
      * intros <-. apply Hne. by eapply obj_inj.
    + intros b y [Hne Hy]%lookup_delete_Some. destruct (S3 b y Hy) as (u' & Hu' & L). exists u'. unfold on_vertex in Hu', Hux.
      rewrite !lookup_delete_ne; [done| |].
      * intros <-. congruence.
      * intros <-. congruence.
    + intros u' b [Hne Hy]%lookup_delete_Some. destruct (S4 u' b Hy) as ((y & Hy1 & Hy2) & ? & ? & ?).
      assert (b <> id). { intros ->. apply Hne. by eapply live_inj. }
      split; [|split; [lia|split; [set_solver|done]]]. exists y. unfold on_vertex in Hy1, Hux.
      rewrite !lookup_delete_ne; [done|done|]. intros <-. congruence.
    + done.
    + intros k e Hk. destruct (S6 k e Hk) as (He & Hki & Hkb). split; [done|]. split.
      * assert (k <> id) by congruence. set_solver.
      * by apply lookup_delete_None; right.
  - intros j w Hj. pose proof (proj1 (bi_vars _ I) j w Hj) as [V1 V2 V3 V4 V5 V6 V7].
    assert (bv_terms w !! u = Some []) as Hw. { destruct (proj2 (bi_vars _ I) i j v w Hi Hj) as [<- _]. done. }
    split; cbn.
    + done.
    + intros u'. destruct (decide (u = u')) as [<-|]; [rewrite !lookup_delete; split; by intros []|by rewrite !lookup_delete_ne].
    + intros u' l t [Hne Hy]%lookup_delete_Some. apply (V3 u' l t Hy).
    + intros u' l [Hne Hy]%lookup_delete_Some. eauto.
    + intros u1 u2 l l' t [Hne Hy]%lookup_delete_Some [Hne' Hy']%lookup_delete_Some. by eapply V5.
    + intros t c b H. destruct (V6 t c b H) as [->|[(u' & l & Hu & Hl' & Ht)|HLo]]; [by left|right; left|right; right].
      * assert (u <> u'). { intros <-. rewrite Hw in Hl'. injection Hl' as <-. by apply elem_of_nil in Ht. }
        exists u', l. cbn. rewrite !lookup_delete_ne; done.
      * intros u' l. cbn. intros [_ Hl']%lookup_delete_Some. by eapply HLo.
    + intros c Hcc. specialize (V7 c Hcc). revert V7. rewrite A. eapply (iso_transfer _ _ _ _ _ x u); try done; cbn.
      * intros y Hy. by rewrite lookup_delete_ne.
      * intros u' Hu. by rewrite lookup_delete_ne.
      * intros y Hne Hy. apply Hne. by eapply obj_inj.
      * intros y (e & k & [H|H] & _); [destruct (Hef e _ H); by left|destruct (Hef e _ H); by right].
      * unfold obj. unfold on_vertex in Hux. intros u'. rewrite Hux. by intros [= <-].
      * unfold obj. cbn. intros u'. by rewrite lookup_delete.
      * rewrite Hw. by intros l [= <-].
      * by rewrite lookup_delete.
  - intros j k w w' Hj Hk. destruct (proj2 (bi_vars _ I) j k w w' Hj Hk) as [A1 A2]. split; [|done]. cbn. by rewrite A1.
Qed.

(** *** removeAllBuses *)
Lemma check_buses_defined st us : binv st -> (forall u, u ∈ us -> is_Some (bb_live (e_sh st) !! u)) ->
  (exists m, check_buses (map Some us) st = (Throw m, st)) \/
  (check_buses (map Some us) st = (Ok tt, st) /\ forall u, u ∈ us -> forall i v, e_vars st !! i = Some v -> bv_terms v !! u = Some []).
Proof.
  intros I H. induction us as [|u us IH].
  { right. split; [done|]. by intros u ?%elem_of_nil. }
  cbn [map check_buses]. destruct (cur_cases st I) as [(i & v & Hc & Hi & IV)|Hc].
  2:{ left. eexists. erewrite abind_Throw; [reflexivity|]. unfold bus_term_count. by rewrite (abind_Throw _ _ _ _ _ (aget_none _ Hc)). }
  destruct (proj2 (vk_terms _ _ IV u)) as [l Hl]; [apply H; by left|].
  rewrite (abind_Ok _ _ st (length l) st); [|unfold bus_term_count; rewrite (abind_Ok _ _ _ _ _ (aget_eq _ _ _ Hc Hi)), Hl; done].
  destruct l as [|t l]; [|left; by eexists]. cbn [length]. change (0 <? 0) with false. cbv iota.
  destruct IH as [[m E]|[E HE]]; [intros; apply H; by right|left; by exists m|right]. split; [done|].
  intros u' [->|Hu']%elem_of_cons; [|by apply HE]. intros j w Hw. destruct (proj2 (bi_vars _ I) i j v w Hi Hw) as [<- _]. done.
Qed.
Lemma destroy_buses_eq us (st : bbst) : exists L D, destroy_buses (map Some us) st =
    (Ok tt, mkE (let s := e_sh st in mkBB (bb_id s) (bb_graph s) (bb_buses s) (bb_sw s) L (bb_next s) D)
                ((fun v => mkBV (bv_open v) (foldl (fun m u => delete u m) (bv_terms v) us) (bv_conn v) (bv_cache v)) <$> e_vars st) (e_cur st)) /\
    forall u, L !! u = if bool_decide (u ∈ us) then None else bb_live (e_sh st) !! u.
Proof.
  revert st. induction us as [|u us IH]; intros st.
  { exists (bb_live (e_sh st)), (bb_ids (e_sh st)). split; [|by intros u; rewrite bool_decide_eq_false_2 by apply not_elem_of_nil].
    cbn. unfold aret. apply f_equal2; [done|]. destruct st as [s m c]. cbn. destruct s. cbn. apply f_equal3; [done| |done].
    rewrite <- (map_fmap_id m) at 1. apply map_fmap_ext. intros i v _. by destruct v. }
  cbn [map destroy_buses]. erewrite abind_Ok; [|reflexivity]. cbv zeta.
  match goal with |- context [destroy_buses _ ?st1] => destruct (IH st1) as (L & D & E & HL) end. rewrite E. exists L, D.
  cbn [e_sh e_vars e_cur bb_id bb_graph bb_buses bb_sw bb_live bb_next bb_ids] in *. split.
  - apply f_equal2; [done|]. apply f_equal3; [done| |done]. rewrite <- map_fmap_compose. apply map_fmap_ext. done.
  - intros w. rewrite HL. case_bool_decide as H1.
    + rewrite bool_decide_eq_true_2; [done|by right].
    + destruct (decide (u = w)) as [<-|Hne].
      * rewrite lookup_delete. rewrite bool_decide_eq_true_2; [done|by left].
      * rewrite lookup_delete_ne by done. rewrite bool_decide_eq_false_2; [done|]. rewrite elem_of_cons. intros [->|?]; done.
Qed.
Lemma foldl_delete {K A} `{Countable K} (ks : list K) (m : gmap K A) k :
  foldl (fun m k => delete k m) m ks !! k = if bool_decide (k ∈ ks) then None else m !! k.
Proof.
  revert m. induction ks as [|j ks IH]; intros m; cbn [foldl].
  { rewrite bool_decide_eq_false_2; [done|]. apply not_elem_of_nil. }
  rewrite IH. case_bool_decide as H1.
  - rewrite bool_decide_eq_true_2; [done|by right].
  - destruct (decide (j = k)) as [<-|Hne].
    + rewrite lookup_delete. rewrite bool_decide_eq_true_2; [done|by left].
    + rewrite lookup_delete_ne by done. rewrite bool_decide_eq_false_2; [done|]. rewrite elem_of_cons. intros [->|?]; done.
Qed.
(** The objects of the vertices. *)
Lemma vertex_objects_eq s : shok s -> exists us, vertex_objects (bb_graph s) = map Some us /\ forall u, u ∈ us <-> is_Some (bb_live s !! u).
Proof.
  intros S.
  assert (forall l, (forall o, Some o ∈ l -> exists u, o = Some u /\ Some o ∈ g_vertices (bb_graph s)) ->
            exists us, omap id l = map (Some (A := nat)) us /\ forall u, u ∈ us <-> Some (Some u) ∈ l) as H.
  { induction l as [|o l IH]; intros H.
    { exists []. split; [done|]. intros u. by rewrite !elem_of_nil. }
    destruct IH as (us & E & Hus); [intros o' Ho'; apply H; by right|]. destruct o as [o|].
    - destruct (H o) as (u & -> & _); [by left|]. exists (u :: us). cbn. rewrite E. split; [done|]. intros w. rewrite !elem_of_cons, Hus. naive_solver.
    - exists us. split; [done|]. intros w. rewrite elem_of_cons, Hus. naive_solver. }
  assert (forall x u, g_vertices (bb_graph s) !! x = Some (Some (Some u)) <-> on_vertex s u x) as HV.
  { intros x u. unfold on_vertex. rewrite abs_vertices. destruct (g_vertices (bb_graph s) !! x) as [[o|]|]; simpl; split; congruence. }
  destruct (H (g_vertices (bb_graph s))) as (us & E & Hus).
  - intros o Ho. apply elem_of_list_lookup in Ho as [x Hx]. assert (s_vertices (abs (bb_graph s)) !! x = Some o) as Hs by (rewrite abs_vertices, Hx; done).
    destruct (sk_obj _ S x o Hs) as (u & b & -> & _). exists u. split; [done|]. apply elem_of_list_lookup. eauto.
  - exists us. split; [exact E|]. intros u. rewrite Hus, elem_of_list_lookup. split.
    + intros [x Hx]. apply HV in Hx. destruct (sk_obj _ S x _ Hx) as (u' & b & [= <-] & L & _). eauto.
    + intros [b Hb]. destruct (sk_live _ S u b Hb) as ((x & Hx & _) & _). exists x. by apply HV.
Qed.
Lemma remove_all_buses_fine st : binv st -> (g_edges (bb_graph (e_sh st)) = [] \/ s_edges (abs (bb_graph (e_sh st))) <> ∅) -> fine bb_remove_all_buses st.
Proof.
  intros I Hsafe. pose proof (bi_sh _ I) as S. unfold fine, bb_remove_all_buses. rewrite (abind_Ok ashared _ st (e_sh st) st eq_refl).
  destruct (0 <? g_edge_count (bb_graph (e_sh st))) eqn:Ec; [done|]. apply Nat.ltb_ge in Ec.
  rewrite (g_edge_count_spec _ (sk_g _ S)) in Ec.
  assert (s_edges (abs (bb_graph (e_sh st))) = ∅) as He by (apply map_size_empty_inv; lia).
  destruct Hsafe as [Hg|Hg]; [|done].
  destruct (vertex_objects_eq _ S) as (us & Eo & Hus). rewrite Eo.
  destruct (check_buses_defined st us I) as [[m E]|[E HE]]; [intros u Hu; by apply Hus|by rewrite (abind_Throw _ _ _ _ _ E)|].
  rewrite (abind_Ok _ _ _ _ _ E). clear E. destruct (destroy_buses_eq us st) as (L & D & E & HL). rewrite (abind_Ok _ _ _ _ _ E). clear E. cbv zeta.
  destruct (g_remove_all_vertices_ok (bb_graph (e_sh st)) (sk_g _ S)) as [I' [_ Hst]]. specialize (Hst He).
  destruct (g_remove_all_vertices (bb_graph (e_sh st))) as [g' r] eqn:Eg. cbn [fst snd] in *.
  assert (r = Ok tt) as ->. { unfold g_remove_all_vertices in Eg. rewrite Hg in Eg. by injection Eg as <- <-. }
  destruct Hst as [[_ A]|[? _]]; [|done].
  erewrite abind_Ok; [|unfold bgact; cbn [e_sh bb_graph]; rewrite Eg; reflexivity].
  cbn [e_sh e_vars e_cur bb_set_graph bb_buses bb_id bb_graph bb_sw bb_live bb_next bb_ids].
  assert (forall u, L !! u = None) as HLn.
  { intros u. rewrite HL. case_bool_decide as Hu; [done|]. rewrite Hus in Hu. destruct (bb_live (e_sh st) !! u); [|done]. destruct Hu. eauto. }
  assert (forall k, bb_sw (e_sh st) !! k = None) as Hsw.
  { intros k. destruct (bb_sw (e_sh st) !! k) as [e|] eqn:Ek; [|done]. destruct (sk_sw _ S k e Ek) as ((a & b & Hab) & _). by rewrite He, lookup_empty in Hab. }
  apply fmap_binv; [done| | |].
  - split; unfold on_vertex; cbn [bb_graph bb_live bb_buses bb_sw bb_next bb_ids]; rewrite ?A; cbn [s_vertices s_edges].
    + done.
    + intros x o. by rewrite lookup_empty.
    + intros x o. by rewrite lookup_empty.
    + intros u b. by rewrite HLn.
    + intros e a b o. by rewrite lookup_empty.
    + intros k e. by rewrite Hsw.
  - intros i v Hi. pose proof (proj1 (bi_vars _ I) i v Hi) as [V1 V2 V3 V4 V5 V6 V7].
    assert (forall u, foldl (fun m u => delete u m) (bv_terms v) us !! u = None) as HTn.
    { intros u. rewrite foldl_delete. case_bool_decide as Hu; [done|]. rewrite Hus, <- V2 in Hu. destruct (bv_terms v !! u); [|done]. destruct Hu. eauto. }
    split; cbn.
    + done.
    + intros u. rewrite HTn, HLn. split; by intros [].
    + intros u l t. by rewrite HTn.
    + intros u l. by rewrite HTn.
    + intros u u' l l' t. by rewrite HTn.
    + intros t c b _. right. right. intros u l. cbn. by rewrite HTn.
    + intros c Hc. specialize (V7 c Hc). revert V7. rewrite A. apply cache_void.
      * intros x (y & u & l & t & _ & Ho & Hl & Ht & _). destruct (sk_obj _ S y _ Ho) as (u' & b & [= <-] & Lb & _).
        rewrite (HE u (proj2 (Hus u) (ex_intro _ b Lb)) i v Hi) in Hl. injection Hl as <-. by apply elem_of_nil in Ht.
      * intros x (y & u & l & t & _ & Ho & _). unfold obj in Ho. cbn in Ho. by rewrite lookup_empty in Ho.
  - intros i j v w Hi Hj. destruct (proj2 (bi_vars _ I) i j v w Hi Hj) as [A1 A2]. split; [|done]. cbn. by rewrite A1.
Qed.

(** *** Switches; no variant holds a cache *)
Lemma add_switch_fine st id o b1 b2 : binv st -> no_merged st -> fine (bb_add_switch id o b1 b2) st.
Proof.
  intros I NM. pose proof (bi_sh _ I) as S. unfold fine, bb_add_switch.
  assert (forall b, (exists x u, bb_vertex b st = (Ok x, st) /\ bb_buses (e_sh st) !! b = Some x /\ on_vertex (e_sh st) u x) \/ exists m, bb_vertex b st = (Throw m, st)) as HB.
  { intros b. unfold bb_vertex, abind, ashared. case_bool_decide; [right; by eexists|]. destruct (bb_buses (e_sh st) !! b) as [x|] eqn:E; [left|right; by eexists].
    destruct (sk_bus _ S b x E) as (u & Hu & _). by exists x, u. }
  destruct (HB b1) as [(x1 & u1 & E1 & Hx1 & Hu1)|[m E]]; [|by rewrite (abind_Throw _ _ _ _ _ E)]. rewrite (abind_Ok _ _ _ _ _ E1). clear E1.
  destruct (HB b2) as [(x2 & u2 & E2 & Hx2 & Hu2)|[m E]]; [|by rewrite (abind_Throw _ _ _ _ _ E)]. rewrite (abind_Ok _ _ _ _ _ E2). clear E2.
  assert (bb_check_id id st = if bool_decide (id = "") then (Throw "Invalid id", st) else
            if bool_decide (id ∈ bb_ids (e_sh st)) then (Throw "Object already exists", st) else (Ok tt, st)) as Ec.
  { unfold bb_check_id, abind, ashared. destruct (bool_decide (id = "")); [done|]. by destruct (bool_decide (id ∈ bb_ids (e_sh st))). }
  case_bool_decide as Hid; [by rewrite (abind_Throw _ _ _ _ _ Ec)|].
  case_bool_decide as Hin; [by rewrite (abind_Throw _ _ _ _ _ Ec)|]. rewrite (abind_Ok _ _ _ _ _ Ec). clear Ec.
  destruct (add_edge_eq (bb_graph (e_sh st)) x1 x2 (Some id) (sk_g _ S)) as (g' & e & Eg & I' & Hfr & A); [unfold on_vertex in *; eauto..|].
  erewrite abind_Ok; [|reflexivity]. cbv zeta. erewrite abind_Ok; [|unfold bgact; cbn [e_sh bb_graph]; rewrite Eg; reflexivity].
  cbn [e_sh e_vars e_cur bb_set_graph bb_buses bb_id bb_graph bb_sw bb_live bb_next bb_ids].
  pose proof S as [S1 S2 S3 S4 S5 S6].
  assert (bb_sw (e_sh st) !! id = None) as Hsw.
  { destruct (bb_sw (e_sh st) !! id) as [z|] eqn:E; [|done]. by destruct (S6 id z E) as (_ & ? & _). }
  assert (bb_buses (e_sh st) !! id = None) as Hbu.
  { destruct (bb_buses (e_sh st) !! id) as [z|] eqn:E; [|done]. destruct (S3 id z E) as (u & _ & Hu). by destruct (S4 u id Hu) as (_ & _ & ? & _). }
  rewrite Hsw. apply fmap_binv; [done| | |].
  - split; unfold on_vertex; cbn [bb_graph bb_live bb_buses bb_sw bb_next bb_ids]; rewrite ?A; cbn [s_vertices s_edges]; try done.
    + intros u b Hu. destruct (S4 u b Hu) as (? & ? & ? & ?). split; [done|]. split; [done|]. split; [set_solver|done].
    + intros e' a b o' [[<- [= <- <- <-]]|[Hne He]]%lookup_insert_Some.
      * exists id. split; [done|]. by rewrite lookup_insert.
      * destruct (S5 e' a b o' He) as (k & -> & Hk). exists k. split; [done|]. rewrite lookup_insert_ne; [done|]. congruence.
    + intros k e' [[<- <-]|[Hne Hk]]%lookup_insert_Some.
      * split; [|split; [set_solver|done]]. exists x1, x2. by rewrite lookup_insert.
      * destruct (S6 k e' Hk) as ((a & b & He) & Hi & Hb). split; [|split; [set_solver|done]]. exists a, b. rewrite lookup_insert_ne; [done|]. congruence.
  - intros i v Hi. pose proof (proj1 (bi_vars _ I) i v Hi) as [V1 V2 V3 V4 V5 V6 V7]. split; cbn; try done.
    + intros k. destruct (decide (id = k)) as [<-|]; [rewrite !lookup_insert; split; eauto|by rewrite !lookup_insert_ne].
    + by rewrite (NM i v Hi).
  - intros i j v w Hi Hj. exact (proj2 (bi_vars _ I) i j v w Hi Hj).
Qed.
Lemma remove_switch_fine st id : binv st -> no_merged st -> fine (bb_remove_switch id) st.
Proof.
  intros I NM. pose proof (bi_sh _ I) as S. unfold fine, bb_remove_switch. rewrite (abind_Ok ashared _ st (e_sh st) st eq_refl).
  destruct (bb_sw (e_sh st) !! id) as [e|] eqn:Ek; [|done]. destruct (sk_sw _ S id e Ek) as ((a & b & He) & Hin & Hb).
  destruct (remove_edge_eq (bb_graph (e_sh st)) e a b (Some id) (sk_g _ S) He) as (g' & Eg & I' & A).
  erewrite abind_Ok; [|unfold bgact; rewrite Eg; reflexivity]. erewrite abind_Ok; [|reflexivity]. unfold bb_destroy_switch.
  cbn [e_sh e_vars e_cur bb_set_graph bb_buses bb_id bb_graph bb_sw bb_live bb_next bb_ids].
  pose proof S as [S1 S2 S3 S4 S5 S6]. apply fmap_binv; [done| | |].
  - split; unfold on_vertex; cbn [bb_graph bb_live bb_buses bb_sw bb_next bb_ids]; rewrite ?A; cbn [s_vertices s_edges]; try done.
    + intros u b0 Hu. destruct (S4 u b0 Hu) as ((x & Hx & Hbx) & ? & ? & ?). split; [eauto|]. split; [done|]. split; [|done].
      assert (b0 <> id) by congruence. set_solver.
    + intros e' a' b' o' [Hne He']%lookup_delete_Some. destruct (S5 e' a' b' o' He') as (k & -> & Hk). exists k. split; [done|].
      rewrite lookup_delete_ne; [done|]. congruence.
    + intros k e' [Hne Hk]%lookup_delete_Some. destruct (S6 k e' Hk) as ((a' & b' & He') & Hi & Hb'). split; [|split; [set_solver|done]].
      exists a', b'. rewrite lookup_delete_ne; [done|]. congruence.
  - intros i v Hi. pose proof (proj1 (bi_vars _ I) i v Hi) as [V1 V2 V3 V4 V5 V6 V7]. split; cbn; try done.
    + intros k. destruct (decide (id = k)) as [<-|]; [rewrite !lookup_delete; split; by intros []|by rewrite !lookup_delete_ne].
    + by rewrite (NM i v Hi).
  - intros i j v w Hi Hj. exact (proj2 (bi_vars _ I) i j v w Hi Hj).
Qed.
Lemma destroy_switches_eq ks (st : bbst) : exists D, destroy_switches (map Some ks) st =
    (Ok tt, mkE (let s := e_sh st in mkBB (bb_id s) (bb_graph s) (bb_buses s) (bb_sw s) (bb_live s) (bb_next s) D)
                ((fun v => mkBV (foldl (fun m k => delete k m) (bv_open v) ks) (bv_terms v) (bv_conn v) (bv_cache v)) <$> e_vars st) (e_cur st)) /\
    forall b, b ∈ D <-> b ∈ bb_ids (e_sh st) /\ b ∉ ks.
Proof.
  revert st. induction ks as [|k ks IH]; intros st.
  { exists (bb_ids (e_sh st)). split; [|intros b; split; [intros ?; split; [done|apply not_elem_of_nil]|tauto]].
    cbn. unfold aret. apply f_equal2; [done|]. destruct st as [s m c]. cbn. destruct s. cbn. apply f_equal3; [done| |done].
    rewrite <- (map_fmap_id m) at 1. apply map_fmap_ext. intros i v _. by destruct v. }
  cbn [map destroy_switches]. erewrite abind_Ok; [|reflexivity]. cbv zeta.
  match goal with |- context [destroy_switches _ ?st1] => destruct (IH st1) as (D & E & HD) end. rewrite E. exists D.
  cbn [e_sh e_vars e_cur bb_id bb_graph bb_buses bb_sw bb_live bb_next bb_ids] in *. split.
  - apply f_equal2; [done|]. apply f_equal3; [done| |done]. rewrite <- map_fmap_compose. apply map_fmap_ext. done.
  - intros b. rewrite HD. rewrite elem_of_difference, elem_of_singleton, elem_of_cons. tauto.
Qed.
Lemma edge_objects_eq s : shok s -> exists ks, edge_objects (bb_graph s) = map Some ks /\ forall k, k ∈ ks <-> is_Some (bb_sw s !! k).
Proof.
  intros S.
  assert (forall l, (forall ed, Some ed ∈ l -> exists k, e_obj ed = Some k) ->
            exists ks, omap (fmap e_obj) l = map (Some (A := string)) ks /\ forall k, k ∈ ks <-> exists ed, Some ed ∈ l /\ e_obj ed = Some k) as H.
  { induction l as [|o l IH]; intros H.
    { exists []. split; [done|]. intros u. rewrite elem_of_nil. split; [done|]. by intros (ed & ?%elem_of_nil & _). }
    destruct IH as (ks & E & Hks); [intros o' Ho'; apply H; by right|]. destruct o as [ed|].
    - destruct (H ed) as (k & Ek); [by left|]. exists (k :: ks). cbn. rewrite Ek. cbn. split; [by rewrite <- E|]. intros w. rewrite elem_of_cons, Hks. split.
      + intros [->|(ed' & ? & ?)]; [exists ed; split; [by left|done]|exists ed'; split; [by right|done]].
      + intros (ed' & [[= ->]|?]%elem_of_cons & ?); [left; congruence|right; eauto].
    - exists ks. split; [done|]. intros w. rewrite Hks. split; intros (ed' & He & ?); exists ed'; (split; [|done]); [by right|]. by apply elem_of_cons in He as [?|?]. }
  assert (forall e ed, g_edges (bb_graph s) !! e = Some (Some ed) -> s_edges (abs (bb_graph s)) !! e = Some (e_v1 ed, e_v2 ed, e_obj ed)) as HE.
  { intros e ed He. by rewrite abs_edges, He. }
  destruct (H (g_edges (bb_graph s))) as (ks & E & Hks).
  - intros ed He. apply elem_of_list_lookup in He as [e He]. apply HE in He. destruct (sk_edge _ S _ _ _ _ He) as (k & ? & _). eauto.
  - exists ks. split; [exact E|]. intros k. rewrite Hks. split.
    + intros (ed & He & Hk). apply elem_of_list_lookup in He as [e He]. apply HE in He. rewrite Hk in He. destruct (sk_edge _ S _ _ _ _ He) as (k' & [= <-] & ?). eauto.
    + intros [e Hk]. destruct (sk_sw _ S k e Hk) as ((a & b & He) & _). rewrite abs_edges in He.
      destruct (g_edges (bb_graph s) !! e) as [[ed|]|] eqn:Ee; simpl in He; try done. unfold ends in He. injection He as _ _ He. exists ed. split; [|done].
      apply elem_of_list_lookup. eauto.
Qed.
Lemma remove_all_switches_fine st : binv st -> no_merged st -> fine bb_remove_all_switches st.
Proof.
  intros I NM. pose proof (bi_sh _ I) as S. unfold fine, bb_remove_all_switches. rewrite (abind_Ok ashared _ st (e_sh st) st eq_refl).
  destruct (edge_objects_eq _ S) as (ks & Eo & Hks). rewrite Eo. destruct (destroy_switches_eq ks st) as (D & E & HD).
  rewrite (abind_Ok _ _ _ _ _ E). clear E. cbv zeta.
  destruct (g_remove_all_edges_ok (bb_graph (e_sh st)) (sk_g _ S)) as [I' [_ A]].
  erewrite abind_Ok; [|unfold bgact; cbn [e_sh bb_graph]; reflexivity].
  cbn [e_sh e_vars e_cur bb_set_graph bb_buses bb_id bb_graph bb_sw bb_live bb_next bb_ids].
  pose proof S as [S1 S2 S3 S4 S5 S6]. apply fmap_binv; [done| | |].
  - split; unfold on_vertex; cbn [bb_graph bb_live bb_buses bb_sw bb_next bb_ids]; rewrite ?A; cbn [s_vertices s_edges]; try done.
    + intros u b Hu. destruct (S4 u b Hu) as ((x & Hx & Hbx) & ? & ? & ?). split; [eauto|]. split; [done|]. split; [|done].
      apply HD. split; [done|]. rewrite Hks. intros [e He]. destruct (S6 b e He) as (_ & _ & ?). congruence.
  - intros i v Hi. pose proof (proj1 (bi_vars _ I) i v Hi) as [V1 V2 V3 V4 V5 V6 V7]. split; cbn; try done.
    + intros k. rewrite foldl_delete, lookup_empty. case_bool_decide as Hk; [split; by intros []|]. rewrite Hks, <- V1 in Hk. split; [done|by intros []].
    + by rewrite (NM i v Hi).
  - intros i j v w Hi Hj. exact (proj2 (bi_vars _ I) i j v w Hi Hj).
Qed.

(** ** Histories *)
Lemma call_fine st o : binv st -> bb_safe st (ECall o) -> fine (bb_call o) st.
Proof.
  intros I Hs. destruct o; cbn [bb_call bb_safe] in *.
  - by apply add_bus_fine.
  - by apply remove_bus_fine.
  - by apply remove_all_buses_fine.
  - by apply add_switch_fine.
  - by apply remove_switch_fine.
  - by apply remove_all_switches_fine.
  - by apply new_terminal_fine.
  - unfold fine, on_bb_terminal. case_bool_decide; [|done]. by apply remove_equipment_fine.
  - unfold fine, on_bb_terminal. case_bool_decide; [|done]. by apply set_connectable_fine.
  - unfold fine, on_bb_terminal. case_bool_decide; [|done]. by apply (fine_amap (fun _ => tt)), connect_fine.
  - unfold fine, on_bb_terminal. case_bool_decide; [|done]. by apply (fine_amap (fun _ => tt)), disconnect_fine.
  - unfold fine, on_bb_switch. rewrite (abind_Ok ashared _ st (e_sh st) st eq_refl). case_bool_decide; [|done]. by apply set_open_fine.
  - by apply (fine_amap (fun _ => tt)), merged_fine.
  - by apply (fine_amap (fun _ => tt)), by_id_fine.
  - by apply (fine_amap (fun _ => tt)), terminals_fine.
  - unfold fine, on_bb_terminal. case_bool_decide; [|done]. by apply (fine_amap (fun _ => tt)), terminal_bus_fine.
Qed.
Lemma step_fine st o : binv st -> bb_safe st o -> (bb_step st o).1 <> UB /\ (bb_step st o).1 <> OutOfFuel /\ binv (bb_step st o).2.
Proof.
  intros I Hs. destruct o as [c|src tgt ow|id|id]; cbn [bb_step estep].
  - pose proof (call_fine st c I Hs) as H. unfold fine in H. destruct (bb_call c st) as [[]]; done.
  - destruct (e_vars st !! src) as [v|] eqn:Hv; [|done]. destruct (bool_decide _ && _); [done|]. split; [done|]. split; [done|]. cbn [snd].
    destruct I as [[W1 W2] S [Hk HA]]. split; [|done|].
    + split; cbn [e_vars e_cur].
      * destruct (decide (tgt = initial_variant)) as [->|]; [rewrite lookup_insert|rewrite lookup_insert_ne by done]; eauto.
      * intros id Hid. destruct (decide (tgt = id)) as [->|]; [rewrite lookup_insert; eauto|rewrite lookup_insert_ne by done; eauto].
    + split; cbn [e_vars e_sh].
      * intros i w [[<- <-]|[_ Hw]]%lookup_insert_Some; [apply vok_invalidate|]; eauto.
      * intros i j w w' [[<- <-]|[_ Hw]]%lookup_insert_Some [[<- <-]|[_ Hw']]%lookup_insert_Some.
        -- done.
        -- exact (HA _ _ _ _ Hv Hw').
        -- exact (HA _ _ _ _ Hw Hv).
        -- exact (HA _ _ _ _ Hw Hw').
  - case_bool_decide; [done|]. destruct (e_vars st !! id) as [v|] eqn:Hv; [|done]. split; [done|]. split; [done|]. cbn [snd].
    destruct I as [[W1 W2] S [Hk HA]]. split; [|done|].
    + split; cbn [e_vars e_cur]; [by rewrite lookup_delete_ne|]. intros id' Hid.
      case_bool_decide as Hc'; [done|]. rewrite lookup_delete_ne; [by apply W2|]. congruence.
    + split; cbn [e_vars e_sh].
      * intros i w [_ Hw]%lookup_delete_Some. eauto.
      * intros i j w w' [_ Hw]%lookup_delete_Some [_ Hw']%lookup_delete_Some. eauto.
  - destruct (e_vars st !! id) as [v|] eqn:Hv; [|done]. split; [done|]. split; [done|]. cbn [snd].
    destruct I as [[W1 W2] S HA]. split; [|done|done]. split; [done|]. cbn. intros id' [= <-]. eauto.
Qed.
Lemma new_binv vl ids vars cur : initial_variant ∈ vars -> (forall i, cur = Some i -> i ∈ vars) -> binv (bb_new vl ids vars cur).
Proof.
  intros Hv Hc. unfold bb_new.
  assert (forall i v, (set_to_map (fun i => (i, mkBV ∅ ∅ ∅ None)) vars : gmap string bbvar) !! i = Some v <-> i ∈ vars /\ v = mkBV ∅ ∅ ∅ None) as Hl.
  { intros i v. rewrite lookup_set_to_map by done. split; [by intros (j & ? & [= <- <-])|]. intros [? ->]. eauto. }
  split.
  - split; cbn; [exists (mkBV ∅ ∅ ∅ None); by apply Hl|]. intros i Hi. exists (mkBV ∅ ∅ ∅ None). apply Hl. auto.
  - split; unfold on_vertex; cbn [e_sh bb_graph bb_live bb_buses bb_sw bb_next bb_ids]; try (intros *; rewrite ?lookup_empty; done).
    apply ginv_init.
  - split; cbn [e_sh e_vars].
    + intros i v [_ ->]%Hl. split; cbn [bv_open bv_terms bv_conn bv_cache bb_sw bb_live]; try (intros *; rewrite ?lookup_empty; done).
      * intros k. rewrite !lookup_empty. split; by intros [].
      * intros k. rewrite !lookup_empty. split; by intros [].
    + intros i j v w [_ ->]%Hl [_ ->]%Hl. done.
Qed.
Lemma reach_binv st : bb_reach bb_safe st -> binv st.
Proof. induction 1 as [vl ids vars cur H1 H2|st o _ IH Hs]; [by apply new_binv|]. by apply step_fine. Qed.
