(** The bus/breaker view of a bus-breaker voltage level shows the plan drawn beside its history. *)
From stdpp Require Import gmap.
From Verif Require Import Base Graph GraphSpec GraphProofs Equip NodeTopo NodeTopoInv BusTopo BusTopoSpec BusTopoProofs BusTopoInv NodeViewsProofs BusViews BusViewsSpec BusViewsBlank.
From Verif Require VisitProofs.

(** ** Calls that leave the graph and the indexes alone *)
Definition keeps {A} (m : bbact A) : Prop := forall st, e_sh (m st).2 = e_sh st.
Lemma keeps_bind {A B} (m : bbact A) (f : A -> bbact B) : keeps m -> (forall a, keeps (f a)) -> keeps (abind m f).
Proof. intros H1 H2 st. unfold abind. specialize (H1 st). destruct (m st) as [[a|e| |] st']; simpl in *; try done. by rewrite H2. Qed.
Lemma keeps_index : keeps aindex. Proof. intros st. unfold aindex. by destruct (e_cur st). Qed.
Lemma keeps_get : keeps aget. Proof. apply keeps_bind; [apply keeps_index|]. intros i st. simpl. by destruct (e_vars st !! i). Qed.
Lemma keeps_put v : keeps (aput v). Proof. apply keeps_bind; [apply keeps_index|]. intros i st. simpl. by destruct (e_vars st !! i). Qed.
Lemma keeps_lift {A} (r : result A) : keeps (alift r). Proof. intros st. done. Qed.
Lemma keeps_ret {A} (a : A) : keeps (aret a). Proof. done. Qed.
Lemma keeps_throw {A} s : keeps (athrow (A := A) s). Proof. done. Qed.
Lemma keeps_shared : keeps ashared. Proof. done. Qed.
Lemma keeps_loop (m : bbact unit) l : keeps m -> keeps (foreach_loop m l).
Proof.
  intros H. induction l as [|i l IH]; intros st; [done|]. simpl. specialize (H (mkE (e_sh st) (e_vars st) (Some i))).
  destruct (m (mkE (e_sh st) (e_vars st) (Some i))) as [[a|e| |] st']; simpl in *; try done. by rewrite IH.
Qed.
Lemma keeps_foreach (m : bbact unit) : keeps m -> keeps (aforeach m).
Proof.
  intros H. apply keeps_bind; [apply keeps_index|]. intros i st. pose proof (keeps_loop m (map fst (map_to_list (e_vars st))) H st) as E.
  by destruct (foreach_loop m (map fst (map_to_list (e_vars st))) st).
Qed.
Ltac keep := repeat first [apply keeps_get | apply keeps_put | apply keeps_lift | apply keeps_ret | apply keeps_throw
  | apply keeps_shared | apply keeps_index | apply keeps_foreach | match goal with |- keeps (match ?x with _ => _ end) => destruct x end | apply keeps_bind; [|intros ?]].
Lemma keeps_vertex b : keeps (bb_vertex b). Proof. unfold bb_vertex. keep. Qed.
Lemma keeps_configured b : keeps (bb_configured b). Proof. unfold bb_configured. apply keeps_bind; [apply keeps_vertex|intros x]. keep. Qed.
Lemma keeps_bt_get t : keeps (bt_get t). Proof. unfold bt_get. keep. Qed.
Lemma keeps_bt_put t x : keeps (bt_put t x). Proof. unfold bt_put. keep. Qed.
Lemma keeps_invalidate : keeps bb_invalidate. Proof. unfold bb_invalidate. keep. Qed.
Lemma keeps_bt_set_bus t b : keeps (bt_set_bus t b). Proof. unfold bt_set_bus. apply keeps_bind; [apply keeps_bt_get|intros x; apply keeps_bt_put]. Qed.
Lemma keeps_bt_set_connected t b : keeps (bt_set_connected t b). Proof. unfold bt_set_connected. apply keeps_bind; [apply keeps_bt_get|intros x; apply keeps_bt_put]. Qed.
Lemma keeps_attach t : keeps (bb_attach t).
Proof.
  unfold bb_attach. apply keeps_bind; [apply keeps_bt_get|intros x]. apply keeps_bind; [case_bool_decide; [apply keeps_ret|apply keeps_configured]|intros _].
  apply keeps_bind; [apply keeps_configured|intros u]. apply keeps_foreach, keeps_bind; [unfold bus_add_terminal; keep|intros _; apply keeps_invalidate].
Qed.
Lemma keeps_detach t : keeps (bb_detach t).
Proof.
  unfold bb_detach. apply keeps_bind; [apply keeps_bt_get|intros x]. apply keeps_bind; [apply keeps_configured|intros u].
  apply keeps_foreach, keeps_bind; [unfold bus_remove_terminal; keep|intros _]. apply keeps_bind; [apply keeps_bt_set_bus|intros _; apply keeps_invalidate].
Qed.
Lemma keeps_set_connectable t b : keeps (bb_set_connectable t b).
Proof.
  unfold bb_set_connectable. apply keeps_bind; [keep|intros _]. apply keeps_bind; [apply keeps_configured|intros _]. apply keeps_bind; [apply keeps_detach|intros _].
  apply keeps_bind; [apply keeps_bt_set_bus|intros _; apply keeps_attach].
Qed.
Lemma keeps_connect t : keeps (bb_connect t).
Proof.
  unfold bb_connect. apply keeps_bind; [apply keeps_bt_get|intros x]. destruct x.1; [apply keeps_ret|].
  apply keeps_bind; [apply keeps_bt_set_connected|intros _]. apply keeps_bind; [apply keeps_invalidate|intros _; apply keeps_ret].
Qed.
Lemma keeps_disconnect t : keeps (bb_disconnect t).
Proof.
  unfold bb_disconnect. apply keeps_bind; [apply keeps_bt_get|intros x]. destruct x.1; [|apply keeps_ret].
  apply keeps_bind; [apply keeps_bt_set_connected|intros _]. apply keeps_bind; [apply keeps_invalidate|intros _; apply keeps_ret].
Qed.
Lemma keeps_set_open id b : keeps (bb_set_open id b).
Proof.
  unfold bb_set_open. apply keeps_bind; [apply keeps_get|intros v]. destruct (bv_open v !! id); [|apply keeps_lift]. case_bool_decide; [apply keeps_ret|].
  apply keeps_bind; [apply keeps_put|intros _; apply keeps_invalidate].
Qed.
Lemma keeps_new_terminal t b c : keeps (bb_new_terminal t b c).
Proof.
  unfold bb_new_terminal. apply keeps_bind; [|intros _; apply keeps_attach]. intros st. by repeat case_bool_decide.
Qed.
Lemma keeps_remove_equipment t : keeps (bb_remove_equipment t).
Proof. unfold bb_remove_equipment. apply keeps_bind; [apply keeps_detach|done]. Qed.
Lemma keeps_on_terminal t m : keeps m -> keeps (on_bb_terminal t m).
Proof. intros H st. unfold on_bb_terminal. case_bool_decide; [apply H|done]. Qed.
Lemma keeps_amap {A B} (f : A -> B) (m : bbact A) : keeps m -> keeps (amap f m).
Proof. intros H. unfold amap. by apply keeps_bind. Qed.

(** ** The plan describes the level *)
Definition sameshape (s s' : bbsh) : Prop := abs (bb_graph s') = abs (bb_graph s) /\ bb_buses s' = bb_buses s /\ bb_sw s' = bb_sw s.
Record fits (P : bplan) (s : bbsh) : Prop := {
  f_bus : forall b, b ∈ q_bus P <-> is_Some (bb_buses s !! b);
  f_sw : forall k b1 b2, q_sw P !! k = Some (b1, b2) <->
    exists e x1 x2, bb_sw s !! k = Some e /\ s_edges (abs (bb_graph s)) !! e = Some (x1, x2, Some k) /\ bb_buses s !! b1 = Some x1 /\ bb_buses s !! b2 = Some x2;
  f_id : q_sw P !! "" = None
}.
Lemma fits_same P s s' : sameshape s s' -> fits P s -> fits P s'.
Proof. intros (E1 & E2 & E3) [H1 H2 H3]. split; rewrite ?E1, ?E2, ?E3; done. Qed.
Lemma sbm_shape st st' : same_but_merged st st' -> sameshape (e_sh st) (e_sh st').
Proof. intros (H1 & _ & H2 & H3 & _). done. Qed.
Lemma bus_inj s b b' x : shok s -> bb_buses s !! b = Some x -> bb_buses s !! b' = Some x -> b = b'.
Proof.
  intros S H1 H2. destruct (sk_bus _ S b x H1) as (u & Hu & L). destruct (sk_bus _ S b' x H2) as (u' & Hu' & L'). unfold on_vertex in *.
  assert (u' = u) as -> by congruence. congruence.
Qed.
Lemma end_named s e a b o : shok s -> s_edges (abs (bb_graph s)) !! e = Some (a, b, o) ->
  exists n1 n2, bb_buses s !! n1 = Some a /\ bb_buses s !! n2 = Some b.
Proof.
  intros S He. destruct (edge_live _ e a b o (sk_g _ S) He) as [[oa Ha] [ob Hb]].
  destruct (sk_obj _ S a oa Ha) as (ua & na & _ & _ & Ea). destruct (sk_obj _ S b ob Hb) as (ub & nb & _ & _ & Eb). eauto.
Qed.

Lemma query_shape {A} (m : bbact A) st : binv st -> (forall st', m st = ((m st).1, st') -> sameshape (e_sh st) (e_sh st')) -> sameshape (e_sh st) (e_sh (m st).2).
Proof. intros _ H. apply H. by destruct (m st). Qed.
Lemma cache_shape st : binv st -> well_numbered st -> sameshape (e_sh st) (e_sh (bb_cache st).2).
Proof.
  intros I WN. destruct (cur_cases st I) as [(i & v & Hc & Hi & _)|Hc].
  - destruct (cache_eq st i v I WN Hc Hi) as (c & st' & -> & _ & _ & H & _). by apply sbm_shape.
  - destruct (cache_none st Hc) as [m ->]. done.
Qed.
Lemma bind_shape {A B} (m : bbact A) (f : A -> bbact B) st : sameshape (e_sh st) (e_sh (m st).2) ->
  (forall a st', m st = (Ok a, st') -> sameshape (e_sh st') (e_sh (f a st').2)) -> sameshape (e_sh st) (e_sh (abind m f st).2).
Proof.
  intros H1 H2. unfold abind. destruct (m st) as [[a|e| |] st']; simpl in *; try done. destruct (H2 a st' eq_refl) as (E1 & E2 & E3), H1 as (F1 & F2 & F3).
  split; [congruence|]. split; congruence.
Qed.
Lemma keeps_shape {A} (m : bbact A) st : keeps m -> sameshape (e_sh st) (e_sh (m st).2).
Proof. intros H. by rewrite H. Qed.
Lemma merged_shape st b : binv st -> well_numbered st -> sameshape (e_sh st) (e_sh (bb_merged b st).2).
Proof.
  intros I WN. unfold bb_merged. destruct (configured_eq st b (bi_sh _ I)) as [(u & x & E & _)|(m & E & _)].
  - rewrite (abind_Ok _ _ _ _ _ E). apply bind_shape; [by apply cache_shape|]. intros. by apply keeps_shape.
  - by rewrite (abind_Throw _ _ _ _ _ E).
Qed.
Lemma by_id_shape st k : binv st -> well_numbered st -> sameshape (e_sh st) (e_sh (bb_by_id k st).2).
Proof. intros I WN. apply bind_shape; [by apply cache_shape|]. intros. by apply keeps_shape. Qed.

Lemma call_fits P st c : binv st -> bb_safe st (ECall c) -> fits P (e_sh st) -> fits (wire P (ECall c) (bb_call c st).1) (e_sh (bb_call c st).2).
Proof.
  intros I Hs F. pose proof (bi_sh _ I) as S. pose proof F as [F1 F2 F3].
  assert (forall m : bbact unit, (forall r, wire P (ECall c) r = P) -> sameshape (e_sh st) (e_sh (m st).2) -> fits (wire P (ECall c) (m st).1) (e_sh (m st).2)) as Hsame.
  { intros m -> H. by eapply fits_same. }
  assert (shok (e_sh (bb_call c st).2)) as S'.
  { pose proof (call_fine st c I Hs) as H. unfold fine in H. destruct (bb_call c st) as [[a|e| |] st']; try done; apply H. }
  destruct c as [id|id| |id o b1 b2|id| |t b c|t|t id|t|t|id b|id|k|k|t]; cbn [bb_call] in *.
  - (* addBus *)
    destruct (add_bus_eq st id S) as [[-> _]|(Hid & Hin & g' & x & I' & Hx & A & ->)]; [done|]. cbn [fst snd wire e_sh]. split; cbn [add_bus_sh q_bus q_sw bb_buses bb_sw bb_graph]; [| |done].
    + intros b. rewrite elem_of_union, elem_of_singleton, F1. destruct (decide (id = b)) as [<-|]; [rewrite lookup_insert; split; eauto|].
      rewrite lookup_insert_ne by done. split; [by intros [?|?]|by right].
    + assert (bb_buses (e_sh st) !! id = None) as Hb.
      { destruct (bb_buses (e_sh st) !! id) as [y|] eqn:Ey; [|done]. destruct (sk_bus _ S id y Ey) as (u & _ & L). by destruct (sk_live _ S u id L) as (_ & _ & ? & _). }
      intros k b1 b2. rewrite F2, A. cbn [s_edges]. split; intros (e & x1 & x2 & H1 & H2 & H3 & H4); exists e, x1, x2; (split; [done|]; split; [done|]).
      * rewrite !lookup_insert_ne; [done|congruence|congruence].
      * destruct (end_named _ e x1 x2 _ S H2) as (n1 & n2 & N1 & N2). unfold add_bus_sh in S'.
        assert (x1 <> x /\ x2 <> x) as [? ?].
        { destruct (edge_live _ e x1 x2 _ (sk_g _ S) H2) as [[? L1] [? L2]]. split; intros ->; congruence. }
        apply lookup_insert_Some in H3 as [[_ ?]|[_ H3]]; [congruence|]. apply lookup_insert_Some in H4 as [[_ ?]|[_ H4]]; [congruence|]. done.
  - (* removeBus *)
    revert S'. unfold bb_remove_bus.
    destruct (configured_eq st id S) as [(u & x & E & HL & Hx & Hux)|(m & E & _)]; [|by rewrite (abind_Throw _ _ _ _ _ E)].
    rewrite (abind_Ok _ _ _ _ _ E). clear E.
    destruct (cur_cases st I) as [(i & v & Hc & Hi & IV)|Hc].
    2:{ erewrite abind_Throw; [done|]. unfold bus_term_count. by rewrite (abind_Throw _ _ _ _ _ (aget_none _ Hc)). }
    destruct (proj2 (vk_terms _ _ IV u)) as [l Hl]; [eauto|].
    rewrite (abind_Ok _ _ st (length l) st); [|unfold bus_term_count; rewrite (abind_Ok _ _ _ _ _ (aget_eq _ _ _ Hc Hi)), Hl; done].
    destruct l as [|t l]; [|done]. cbn [length]. change (0 <? 0) with false. cbv iota.
    rewrite (abind_Ok ashared _ st (e_sh st) st eq_refl).
    destruct (check_switches_defined (bb_graph (e_sh st)) u (map_to_list (bb_sw (e_sh st)))) as [E|[m E]].
    { intros [k e] Hke. apply elem_of_map_to_list in Hke. destruct (sk_sw _ S k e Hke) as ((a & b & He) & _). cbn. eauto. }
    { apply S. }
    2:{ erewrite abind_Throw; [done|]. unfold alift. by rewrite E. }
    erewrite abind_Ok; [|unfold alift; rewrite E; reflexivity]. rewrite Hx.
    destruct (g_remove_vertex_ok (bb_graph (e_sh st)) x (sk_g _ S)) as [I' Hst].
    destruct (g_remove_vertex (bb_graph (e_sh st)) x) as [g' r] eqn:Eg. cbn [fst snd] in *.
    destruct Hst as [(ob & Hob & Hef & Hr & A)|(_ & Hr & A)].
    2:{ destruct r as [o|m| |]; try done. erewrite abind_Throw; [|unfold bgact; rewrite Eg; reflexivity]. cbn [fst snd wire e_sh]. intros _.
        apply (fits_same P (e_sh st)); [|done]. split; [exact A|done]. }
    destruct r as [o|m| |]; simpl in Hr; try done. erewrite abind_Ok; [|unfold bgact; rewrite Eg; reflexivity].
    erewrite abind_Ok; [|reflexivity]. unfold bb_destroy_bus. cbn [fst snd wire e_sh e_vars e_cur bb_set_graph bb_buses bb_id bb_graph bb_sw bb_live bb_next bb_ids].
    intros S'. split; cbn [q_bus q_sw bb_buses bb_sw bb_graph]; [| |done].
    + intros b. rewrite elem_of_difference, elem_of_singleton, F1. destruct (decide (id = b)) as [<-|]; [rewrite lookup_delete; split; [by intros [_ ?]|by intros []]|].
      rewrite lookup_delete_ne by done. split; [by intros [? _]|]. intros. split; [done|congruence].
    + intros k b1 b2. rewrite F2. split; intros (e & x1 & x2 & H1 & H2 & H3 & H4); exists e, x1, x2; (split; [done|]).
      * rewrite A. cbn [s_edges]. split; [done|].
        assert (s_edges (abs g') !! e = Some (x1, x2, Some k)) as H2' by (by rewrite A).
        destruct (end_named _ e x1 x2 _ S' H2') as (n1 & n2 & N1 & N2). cbn [bb_buses] in N1, N2.
        apply lookup_delete_Some in N1 as [N1' N1], N2 as [N2' N2]. rewrite (bus_inj _ _ _ _ S H3 N1), (bus_inj _ _ _ _ S H4 N2). by rewrite !lookup_delete_ne.
      * rewrite A in H2. cbn [s_edges] in H2. split; [done|]. by apply lookup_delete_Some in H3 as [_ H3], H4 as [_ H4].
  - (* removeAllBuses *)
    revert S'. unfold bb_remove_all_buses. rewrite (abind_Ok ashared _ st (e_sh st) st eq_refl).
    destruct (0 <? g_edge_count (bb_graph (e_sh st))) eqn:Ec; [done|]. apply Nat.ltb_ge in Ec.
    rewrite (g_edge_count_spec _ (sk_g _ S)) in Ec.
    assert (s_edges (abs (bb_graph (e_sh st))) = ∅) as He by (apply map_size_empty_inv; lia).
    destruct Hs as [Hg|Hg]; [|done].
    destruct (vertex_objects_eq _ S) as (us & Eo & Hus). rewrite Eo.
    destruct (check_buses_defined st us I) as [[m E]|[E HE]]; [intros u Hu; by apply Hus|by rewrite (abind_Throw _ _ _ _ _ E)|].
    rewrite (abind_Ok _ _ _ _ _ E). clear E. destruct (destroy_buses_eq us st) as (L & D & E & HL). rewrite (abind_Ok _ _ _ _ _ E). clear E. cbv zeta.
    destruct (g_remove_all_vertices_ok (bb_graph (e_sh st)) (sk_g _ S)) as [I' [_ Hst]]. specialize (Hst He).
    destruct (g_remove_all_vertices (bb_graph (e_sh st))) as [g' r] eqn:Eg. cbn [fst snd] in *.
    assert (r = Ok tt) as ->. { unfold g_remove_all_vertices in Eg. rewrite Hg in Eg. by injection Eg as <- <-. }
    destruct Hst as [[_ A]|[? _]]; [|done].
    erewrite abind_Ok; [|unfold bgact; cbn [e_sh bb_graph]; rewrite Eg; reflexivity].
    cbn [fst snd wire e_sh e_vars e_cur bb_set_graph bb_buses bb_id bb_graph bb_sw bb_live bb_next bb_ids]. intros _.
    split; cbn [q_bus q_sw bb_buses bb_sw bb_graph]; [| |done].
    + intros b. rewrite lookup_empty. split; [set_solver|by intros []].
    + intros k b1 b2. rewrite F2. split; intros (e & x1 & x2 & H1 & H2 & _).
      * by rewrite He, lookup_empty in H2.
      * rewrite A in H2. cbn [s_edges] in H2. by rewrite lookup_empty in H2.
  - (* addSwitch *)
    revert S'. unfold bb_add_switch.
    assert (forall b, (exists x u, bb_vertex b st = (Ok x, st) /\ bb_buses (e_sh st) !! b = Some x /\ on_vertex (e_sh st) u x) \/ exists m, bb_vertex b st = (Throw m, st)) as HB.
    { intros b. unfold bb_vertex, abind, ashared. case_bool_decide; [right; by eexists|]. destruct (bb_buses (e_sh st) !! b) as [x|] eqn:E; [left|right; by eexists].
      destruct (sk_bus _ S b x E) as (u & Hu & _). by exists x, u. }
    destruct (HB b1) as [(x1 & u1 & E1 & Hx1 & Hu1)|[m E]]; [|by rewrite (abind_Throw _ _ _ _ _ E)]. rewrite (abind_Ok _ _ _ _ _ E1). clear E1.
    destruct (HB b2) as [(x2 & u2 & E2 & Hx2 & Hu2)|[m E]]; [|by rewrite (abind_Throw _ _ _ _ _ E)]. rewrite (abind_Ok _ _ _ _ _ E2). clear E2.
    assert (bb_check_id id st = if bool_decide (id = "") then (Throw "Invalid id", st) else
              if bool_decide (id ∈ bb_ids (e_sh st)) then (Throw "Object already exists", st) else (Ok tt, st)) as Ec.
    { unfold bb_check_id, abind, ashared. destruct (bool_decide (id = "")); [done|]. by destruct (bool_decide (id ∈ bb_ids (e_sh st))). }
    case_bool_decide as Hid; [by rewrite (abind_Throw _ _ _ _ _ Ec)|].
    case_bool_decide as Hin; [by rewrite (abind_Throw _ _ _ _ _ Ec)|]. rewrite (abind_Ok _ _ _ _ _ Ec). clear Ec.
    destruct (add_edge_eq (bb_graph (e_sh st)) x1 x2 (Some id) (sk_g _ S)) as (g' & e & Eg & I' & Hfr & A); [unfold on_vertex in *; eauto..|].
    erewrite abind_Ok; [|reflexivity]. cbv zeta. erewrite abind_Ok; [|unfold bgact; cbn [e_sh bb_graph]; rewrite Eg; reflexivity].
    assert (bb_sw (e_sh st) !! id = None) as Hsw.
    { destruct (bb_sw (e_sh st) !! id) as [e'|] eqn:Ek; [|done]. by destruct (sk_sw _ S id e' Ek) as (_ & ? & _). }
    cbn [fst snd wire e_sh e_vars e_cur bb_set_graph bb_buses bb_id bb_graph bb_sw bb_live bb_next bb_ids]. rewrite Hsw. intros _.
    split; cbn [q_bus q_sw bb_buses bb_sw bb_graph]; [done| |try done; by rewrite ?lookup_insert_ne, ?lookup_delete_None; auto]. intros k c1 c2. rewrite A. cbn [s_edges]. destruct (decide (id = k)) as [<-|Hne].
    + rewrite lookup_insert. split.
      * intros [= <- <-]. exists e, x1, x2. by rewrite !lookup_insert.
      * rewrite lookup_insert. intros (e' & y1 & y2 & [= <-] & H2 & H3 & H4). rewrite lookup_insert in H2. injection H2 as <- <-.
        by rewrite (bus_inj _ _ _ _ S H3 Hx1), (bus_inj _ _ _ _ S H4 Hx2).
    + rewrite !lookup_insert_ne by done. rewrite F2. split; intros (e' & y1 & y2 & H1 & H2 & H3 & H4); exists e', y1, y2; (split; [done|]; split; [|done]).
      * rewrite lookup_insert_ne; [done|]. congruence.
      * apply lookup_insert_Some in H2 as [[_ ?]|[_ ?]]; congruence.
  - (* removeSwitch *)
    revert S'. unfold bb_remove_switch. rewrite (abind_Ok ashared _ st (e_sh st) st eq_refl).
    destruct (bb_sw (e_sh st) !! id) as [e|] eqn:Ek; [|done]. destruct (sk_sw _ S id e Ek) as ((a & b & He) & Hin & Hb).
    destruct (remove_edge_eq (bb_graph (e_sh st)) e a b (Some id) (sk_g _ S) He) as (g' & Eg & I' & A).
    erewrite abind_Ok; [|unfold bgact; rewrite Eg; reflexivity]. erewrite abind_Ok; [|reflexivity]. unfold bb_destroy_switch.
    cbn [fst snd wire e_sh e_vars e_cur bb_set_graph bb_buses bb_id bb_graph bb_sw bb_live bb_next bb_ids]. intros _.
    split; cbn [q_bus q_sw bb_buses bb_sw bb_graph]; [done| |try done; by rewrite ?lookup_insert_ne, ?lookup_delete_None; auto]. intros k c1 c2. rewrite A. cbn [s_edges]. destruct (decide (id = k)) as [<-|Hne].
    + rewrite !lookup_delete. split; [done|]. by intros (e' & y1 & y2 & ? & _).
    + rewrite !lookup_delete_ne by done. rewrite F2. split; intros (e' & y1 & y2 & H1 & H2 & H3 & H4); exists e', y1, y2; (split; [done|]; split; [|done]).
      * rewrite lookup_delete_ne; [done|]. congruence.
      * by apply lookup_delete_Some in H2 as [_ ?].
  - (* removeAllSwitches *)
    revert S'. unfold bb_remove_all_switches. rewrite (abind_Ok ashared _ st (e_sh st) st eq_refl).
    destruct (edge_objects_eq _ S) as (ks & Eo & Hks). rewrite Eo. destruct (destroy_switches_eq ks st) as (D & E & HD).
    rewrite (abind_Ok _ _ _ _ _ E). clear E. cbv zeta.
    destruct (g_remove_all_edges_ok (bb_graph (e_sh st)) (sk_g _ S)) as [I' [_ A]].
    erewrite abind_Ok; [|unfold bgact; cbn [e_sh bb_graph]; reflexivity].
    cbn [fst snd wire e_sh e_vars e_cur bb_set_graph bb_buses bb_id bb_graph bb_sw bb_live bb_next bb_ids]. intros _.
    split; cbn [q_bus q_sw bb_buses bb_sw bb_graph]; [done| |try done; by rewrite ?lookup_insert_ne, ?lookup_delete_None; auto]. intros k c1 c2. rewrite !lookup_empty. split; [done|]. by intros (e' & y1 & y2 & ? & _).
  - apply Hsame; [by intros []|]. apply keeps_shape, keeps_new_terminal.
  - apply Hsame; [by intros []|]. apply keeps_shape, keeps_on_terminal, keeps_remove_equipment.
  - apply Hsame; [by intros []|]. apply keeps_shape, keeps_on_terminal, keeps_set_connectable.
  - apply Hsame; [by intros []|]. apply keeps_shape, keeps_on_terminal, keeps_amap, keeps_connect.
  - apply Hsame; [by intros []|]. apply keeps_shape, keeps_on_terminal, keeps_amap, keeps_disconnect.
  - apply Hsame; [by intros []|]. apply keeps_shape. unfold on_bb_switch. apply keeps_bind; [apply keeps_shared|intros s]. case_bool_decide; [apply keeps_set_open|apply keeps_throw].
  - apply Hsame; [by intros []|]. unfold amap. apply bind_shape; [by apply merged_shape|]. intros. by apply keeps_shape.
  - apply Hsame; [by intros []|]. unfold amap. apply bind_shape; [by apply by_id_shape|]. intros. by apply keeps_shape.
  - apply Hsame; [by intros []|]. unfold amap. apply bind_shape; [|intros; by apply keeps_shape]. unfold bb_terminals. apply bind_shape; [by apply by_id_shape|].
    intros o st' _. apply keeps_shape. destruct o; keep.
  - apply Hsame; [by intros []|]. unfold on_bb_terminal. case_bool_decide; [|done]. unfold amap. apply bind_shape; [|intros; by apply keeps_shape].
    unfold bb_terminal_bus. apply bind_shape; [apply keeps_shape, keeps_bt_get|]. intros x st' Ex.
    assert (st' = st) as ->.
    { unfold bt_get, aget, aindex, abind, alift in Ex. destruct (e_cur st) as [i|]; [|done]. destruct (e_vars st !! i); [|done]. by injection Ex. }
    destruct x.1; [by apply merged_shape|done].
Qed.
(** ** Histories that change switches while merged buses are cached *)
Definition mild (st st' : bbst) : Prop := weak st' /\ sameshape (e_sh st) (e_sh st').
Lemma mild_refl st : weak st -> mild st st. Proof. done. Qed.
Lemma cache_mild st : weak st -> well_numbered st -> mild st (bb_cache st).2.
Proof.
  intros W WN. destruct (cur_cases _ W) as [(i & v & Hc & Hi & _)|Hc]; [|destruct (cache_none st Hc) as [m ->]; by apply mild_refl].
  change (e_cur st = Some i) in Hc. pose proof Hi as Hw. cbn [blank e_vars] in Hw. rewrite lookup_fmap in Hw. destruct (e_vars st !! i) as [w|] eqn:Ew; [|done].
  injection Hw as Hw.
  assert (aget st = (Ok w, st)) as Eg by (by apply (aget_eq _ i)). 
  destruct (bv_cache w) as [c|] eqn:Ec.
  - assert (bb_cache st = (Ok c, st)) as ->; [|by apply mild_refl]. unfold bb_cache, bb_update.
    rewrite (abind_Ok _ _ st tt st); [|rewrite (abind_Ok _ _ _ _ _ Eg), Ec; done]. rewrite (abind_Ok _ _ _ _ _ Eg), Ec. done.
  - assert (v = w) as ->. { rewrite <- Hw. destruct w. unfold blankv, bv_set_cache. cbn in *. by rewrite Ec. } clear Hw.
    destruct (BusTopoInv.cache_eq (blank st) i w W WN Hc Hi) as (c & st1 & E1 & _ & I1 & S1 & _).
    assert (exists st2, bb_cache st = (Ok c, st2) /\ blank st2 = blank st1 /\ e_sh st2 = e_sh st1) as (st2 & E2 & B & H2).
    { assert (forall X c0, e_cur X = Some i -> e_vars X !! i = Some w -> e_sh X = e_sh st -> forall Y, bb_cache X = (Ok c0, Y) ->
                exists g', compute_merged (bb_id (e_sh st)) w (bb_graph (e_sh st)) = (g', Ok c0) /\
                  Y = mkE (bb_set_graph (e_sh st) g') (<[i := bv_set_cache (Some c0) w]> (e_vars X)) (Some i)) as HX.
      { intros [s vs cu] c0 HXc HXi HXs Y. cbn in HXc, HXi, HXs. subst s cu. unfold bb_cache, bb_update, bgact, aget, aput, aindex, ashared, alift, aret, abind.
        cbn [e_cur e_vars e_sh]. rewrite HXi, Ec. cbn [e_sh]. destruct (compute_merged (bb_id (e_sh st)) w (bb_graph (e_sh st))) as [g' [c'|m| |]]; try done.
        cbn [e_cur e_vars e_sh]. rewrite HXi. cbn [e_cur e_vars e_sh]. rewrite lookup_insert. cbn [bv_cache bv_set_cache]. intros [= <- <-]. by exists g'. }
      destruct (HX (blank st) c Hc Hi eq_refl st1 E1) as (g' & Eg' & ->).
      exists (mkE (bb_set_graph (e_sh st) g') (<[i := bv_set_cache (Some c) w]> (e_vars st)) (Some i)). split; [|split; [|done]].
      - unfold bb_cache, bb_update, bgact, aget, aput, aindex, ashared, alift, aret, abind. rewrite Hc, Ew, Ec. rewrite Eg'.
        cbn [e_cur e_vars e_sh]. repeat (rewrite ?Hc, ?Ew, ?lookup_insert; cbn [e_cur e_vars e_sh bv_cache bv_set_cache]). done.
      - unfold blank. cbn [e_sh e_vars e_cur]. f_equal. rewrite !fmap_insert, <- map_fmap_compose. f_equal; done. }
    rewrite E2. cbn [snd]. split.
    + unfold weak. rewrite B. by apply blank_binv.
    + rewrite H2. by apply (sbm_shape (blank st)).
Qed.
Lemma mild_bind {A B} (m : bbact A) (f : A -> bbact B) st : mild st (m st).2 -> (forall a st', m st = (Ok a, st') -> mild st' (f a st').2) -> mild st (abind m f st).2.
Proof.
  intros [W H1] H2. unfold abind. destruct (m st) as [[a|e| |] st']; simpl in *; try done. destruct (H2 a st' eq_refl) as (W' & E1 & E2 & E3), H1 as (F1 & F2 & F3).
  split; [done|]. split; [congruence|]. split; congruence.
Qed.
(** Calls that read only. *)
Definition still {A} (m : bbact A) : Prop := forall st, (m st).2 = st.
Lemma still_bind {A B} (m : bbact A) (f : A -> bbact B) : still m -> (forall a, still (f a)) -> still (abind m f).
Proof. intros H1 H2 st. unfold abind. specialize (H1 st). destruct (m st) as [[a|e| |] st']; simpl in *; subst; try done. by rewrite H2. Qed.
Lemma still_get : still aget.
Proof. intros st. unfold aget, abind, aindex. destruct (e_cur st); [|done]. by destruct (e_vars st !! _). Qed.
Lemma still_bt_get t : still (bt_get t). Proof. apply still_bind; [apply still_get|]. done. Qed.
Lemma still_configured b : still (bb_configured b).
Proof.
  unfold bb_configured, bb_vertex. apply still_bind; [apply still_bind; [done|]|].
  - intros s. case_bool_decide; [done|]. by destruct (bb_buses s !! b).
  - intros x. apply still_bind; [done|intros s]. apply still_bind; [done|intros [u|]]; [|done]. destruct (bb_live s !! u); [|done]. by case_bool_decide.
Qed.
Lemma mild_still {A} (m : bbact A) st : still m -> weak st -> mild st (m st).2.
Proof. intros H W. rewrite H. by apply mild_refl. Qed.
Lemma merged_mild st b : weak st -> well_numbered st -> mild st (bb_merged b st).2.
Proof.
  intros W WN. unfold bb_merged. apply mild_bind; [apply mild_still; [apply still_configured|done]|]. intros u st' E.
  assert (st' = st) as -> by (rewrite <- (still_configured b st), E; done).
  apply mild_bind; [by apply cache_mild|]. intros c st' Ec. apply mild_refl. pose proof (cache_mild st W WN) as [H _]. by rewrite Ec in H.
Qed.
Lemma by_id_mild st k : weak st -> well_numbered st -> mild st (bb_by_id k st).2.
Proof.
  intros W WN. unfold bb_by_id. apply mild_bind; [by apply cache_mild|]. intros c st' Ec. apply mild_refl. pose proof (cache_mild st W WN) as [H _]. by rewrite Ec in H.
Qed.
Lemma amap_mild {A B} (f : A -> B) (m : bbact A) st : mild st (m st).2 -> mild st (amap f m st).2.
Proof. intros [W H]. unfold amap, abind, aret. by destruct (m st) as [[a|e| |] st']. Qed.
Lemma question_mild st c : weak st -> is_question c = true -> well_numbered st -> mild st (bb_call c st).2.
Proof.
  intros W Hq WN. destruct c; try done; cbn [bb_call].
  - by apply amap_mild, merged_mild.
  - by apply amap_mild, by_id_mild.
  - apply amap_mild. unfold bb_terminals. apply mild_bind; [by apply by_id_mild|]. intros o st' Eo. pose proof (by_id_mild st k W WN) as [H _]. rewrite Eo in H.
    apply mild_still; [|done]. destruct o; [|done]. apply still_bind; [apply still_get|done].
  - unfold on_bb_terminal. case_bool_decide; [|by apply mild_refl]. apply amap_mild. unfold bb_terminal_bus.
    apply mild_bind; [apply mild_still; [apply still_bt_get|done]|]. intros x st' Ex. assert (st' = st) as -> by (rewrite <- (still_bt_get t st), Ex; done).
    destruct x.1; [by apply merged_mild|by apply mild_refl].
Qed.
Lemma call_weak P st c : weak st -> bus_safe st (ECall c) -> fits P (e_sh st) ->
  weak (bb_call c st).2 /\ fits (wire P (ECall c) (bb_call c st).1) (e_sh (bb_call c st).2) /\
  (is_question c = false -> (bb_call c st).1 <> UB /\ (bb_call c st).1 <> OutOfFuel).
Proof.
  intros W Hs F. destruct (is_question c) eqn:Hq.
  - assert (well_numbered st) as WN by (by destruct c). destruct (question_mild st c W Hq WN) as [W' H]. split; [done|]. split; [|done].
    assert (wire P (ECall c) (bb_call c st).1 = P) as -> by (by destruct c, (bb_call _ st).1). by eapply fits_same.
  - assert (bb_safe (blank st) (ECall c)) as Hs'.
    { destruct c; try done; cbn [bb_safe]; intros i v; cbn [blank e_vars]; rewrite lookup_fmap; destruct (e_vars st !! i); intros [=]; by subst. }
    pose proof (call_fine (blank st) c W Hs') as HF. pose proof (call_fits P (blank st) c W Hs' F) as HP. unfold fine in HF.
    rewrite (alike_call c Hq st) in HF, HP. cbn [fst snd] in HP. split; [|split].
    + unfold weak. by destruct (bb_call c st) as [[a|e| |] st'].
    + exact HP.
    + intros _. by destruct (bb_call c st) as [[a|e| |] st'].
Qed.
Lemma wired_weak P st : wired P st -> weak st /\ fits P (e_sh st).
Proof.
  induction 1 as [vl ids vars cur H1 H2|P st o H [I F] Ho].
  - split; [by apply blank_binv, new_binv|]. split; cbn [q_bus q_sw bb_new e_sh bb_buses bb_sw]; [| |done].
    + intros b. rewrite lookup_empty. split; [set_solver|by intros []].
    + intros k b1 b2. rewrite !lookup_empty. split; [done|]. by intros (e & x1 & x2 & ? & _).
  - destruct o as [c|src tgt ow|id|id].
    + cbn [bb_step estep]. destruct (call_weak P st c I Ho F) as (? & ? & _). done.
    + assert (wire P (EClone src tgt ow) (bb_step st (EClone src tgt ow)).1 = P) as -> by (by destruct (bb_step st _).1).
      pose proof (step_fine (blank st) (EClone src tgt ow) I Logic.I) as (_ & _ & HI). cbn [bb_step] in *. cbn [blank e_vars] in HI. rewrite lookup_fmap in HI.
      destruct (e_vars st !! src) as [v|]; [|done]. cbn [fmap option_fmap option_map] in HI. rewrite lookup_fmap in HI.
      assert (bool_decide (is_Some (blankv <$> e_vars st !! tgt)) = bool_decide (is_Some (e_vars st !! tgt))) as E by (apply bool_decide_ext; by rewrite fmap_is_Some).
      rewrite E in HI. destruct (bool_decide _ && _); [done|]. split; [|done]. cbn [snd] in *. unfold weak, blank. cbn [e_sh e_vars e_cur]. by rewrite fmap_insert.
    + assert (wire P (ERemove id) (bb_step st (ERemove id)).1 = P) as -> by (by destruct (bb_step st _).1).
      pose proof (step_fine (blank st) (ERemove id) I Logic.I) as (_ & _ & HI). cbn [bb_step estep] in *. case_bool_decide; [done|]. cbn [blank e_vars] in HI. rewrite lookup_fmap in HI.
      destruct (e_vars st !! id) as [v|]; [|done]. split; [|done]. cbn [fmap option_fmap option_map snd] in *. unfold weak, blank. cbn [e_sh e_vars e_cur]. by rewrite fmap_delete.
    + assert (wire P (EWork id) (bb_step st (EWork id)).1 = P) as -> by (by destruct (bb_step st _).1).
      pose proof (step_fine (blank st) (EWork id) I Logic.I) as (_ & _ & HI). cbn [bb_step estep] in *. cbn [blank e_vars] in HI. rewrite lookup_fmap in HI.
      by destruct (e_vars st !! id).
Qed.
Lemma wired_fits P st : wired P st -> shok (e_sh st) /\ fits P (e_sh st).
Proof. intros W. destruct (wired_weak P st W) as [I F]. split; [exact (bi_sh _ I)|done]. Qed.

(** ** What the view answers *)
Section reads.
  Context (P : bplan) (s : bbsh) (S : shok s) (F : fits P s).
  Lemma bw_names_eq us : (forall u, u ∈ us -> is_Some (bb_live s !! u)) ->
    bw_names s (Some <$> us) = Ok (omap (fun u => bb_live s !! u) us).
  Proof.
    induction us as [|u us IH]; intros H; [done|]. rewrite fmap_cons. cbn [bw_names]. unfold bw_name. destruct (H u) as [b Hb]; [by left|].
    rewrite Hb. cbn [result_bind]. rewrite IH by (intros; apply H; by right). cbn [result_bind]. f_equal.
    change (b :: omap (fun u => bb_live s !! u) us = match bb_live s !! u with Some y => y :: omap (fun u => bb_live s !! u) us | None => omap (fun u => bb_live s !! u) us end).
    by rewrite Hb.
  Qed.
  Lemma live_named u b : bb_live s !! u = Some b -> is_Some (bb_buses s !! b).
  Proof. intros H. destruct (sk_live _ S u b H) as ((x & _ & ?) & _). eauto. Qed.
  Lemma live_inj u u' b : bb_live s !! u = Some b -> bb_live s !! u' = Some b -> u = u'.
  Proof.
    intros H H'. destruct (sk_live _ S u b H) as ((x & V & E) & _). destruct (sk_live _ S u' b H') as ((x' & V' & E') & _).
    assert (x' = x) as -> by congruence. unfold on_vertex in *. congruence.
  Qed.
  Lemma bw_buses_eq : exists l, bw_buses s = Ok l /\ NoDup l /\ forall b, b ∈ l <-> b ∈ q_bus P.
  Proof.
    destruct (VisitProofs.vertex_objects_eq s S) as (us & E & N & H). unfold bw_buses. rewrite E, bw_names_eq by (intros; by apply H).
    eexists. split; [done|]. split.
    - apply NoDup_omap_inj; [done|]. intros u u' b _ _. apply live_inj.
    - intros b. rewrite elem_of_list_omap, (f_bus _ _ F). split.
      + intros (u & _ & Hu). by eapply live_named.
      + intros [x Hx]. destruct (sk_bus _ S b x Hx) as (u & _ & L). exists u. split; [|done]. apply H. eauto.
  Qed.
  Lemma bus_not_empty : "" ∉ q_bus P.
  Proof. intros [x H]%(f_bus _ _ F). destruct (sk_bus _ S "" x H) as (u & _ & L). by destruct (sk_live _ S u "" L) as (_ & _ & _ & ?). Qed.
  Lemma bw_end_eq b x : bb_buses s !! b = Some x -> bw_end s x = Ok (Some b).
  Proof.
    intros H. destruct (sk_bus _ S b x H) as (u & V & L). unfold bw_end, on_vertex in *.
    destruct (vertex_object_eq (bb_graph s) x) as [(o & -> & E)|(m & _ & E)]; [|congruence]. cbn [result_bind].
    assert (o = Some u) as -> by congruence. unfold bw_name. by rewrite L.
  Qed.
  Lemma bw_bus_eq b : (b ∈ q_bus P -> bw_bus s b = Ok (Some b)) /\ (b <> "" -> b ∉ q_bus P -> bw_bus s b = Ok None).
  Proof.
    split.
    - intros Hb. assert (b <> "") as Hne by (intros ->; by apply bus_not_empty). apply (f_bus _ _ F) in Hb as [x Hx].
      unfold bw_bus, bw_vertex. rewrite bool_decide_false, Hx by done. cbn [result_bind].
      destruct (sk_bus _ S b x Hx) as (u & V & L). unfold on_vertex in *.
      destruct (vertex_object_eq (bb_graph s) x) as [(o & -> & E)|(m & _ & E)]; [|congruence]. cbn [result_bind].
      assert (o = Some u) as -> by congruence. unfold bw_name. rewrite L. cbn [result_bind]. by rewrite bool_decide_true.
    - intros Hne Hb. unfold bw_bus, bw_vertex. rewrite bool_decide_false by done. destruct (bb_buses s !! b) as [x|] eqn:E; [|done].
      exfalso. apply Hb, (f_bus _ _ F). eauto.
  Qed.
  Lemma sw_named k : is_Some (bb_sw s !! k) <-> is_Some (q_sw P !! k).
  Proof.
    split.
    - intros [e He]. destruct (sk_sw _ S k e He) as ((a & b & Hed) & _). destruct (end_named _ _ _ _ _ S Hed) as (n1 & n2 & H1 & H2).
      exists (n1, n2). apply (f_sw _ _ F). eauto 10.
    - intros [[b1 b2] H]. apply (f_sw _ _ F) in H as (e & _ & _ & He & _). eauto.
  Qed.
  Lemma bw_switches_eq : NoDup (bw_switches s) /\ forall k, k ∈ bw_switches s <-> is_Some (q_sw P !! k).
  Proof.
    split.
    - unfold bw_switches, edge_objects.
      assert (forall l : list (option (edge string)), omap (fun o => o) (omap (fmap e_obj) l) = omap (fun x => x ≫= (fun a => (fun y : nat * nat * option string => y.2) (ends a))) l) as ->.
      { intros l. induction l as [|[a|] l IH]; [done| |exact IH].
        change (match e_obj a with Some y => y :: omap (fun o => o) (omap (fmap e_obj) l) | None => omap (fun o => o) (omap (fmap e_obj) l) end =
                match (ends a).2 with Some y => y :: omap (fun x => x ≫= (fun a => (fun y : nat * nat * option string => y.2) (ends a))) l | None => omap (fun x => x ≫= (fun a => (fun y : nat * nat * option string => y.2) (ends a))) l end).
        rewrite IH. by destruct a as [? ? []]. }
      rewrite (omap_map_list ends (fun y : nat * nat * option string => y.2) (g_edges (bb_graph s)) 0 (s_edges (abs (bb_graph s)))).
      + apply NoDup_omap_inj; [apply NoDup_map_to_list|]. intros [e [[a b] o]] [e' [[a' b'] o']] k H H' Hk Hk'. cbn in Hk, Hk'. subst.
        apply elem_of_map_to_list in H, H'. destruct (sk_edge _ S _ _ _ _ H) as (k1 & [= <-] & E1). destruct (sk_edge _ S _ _ _ _ H') as (k2 & [= <-] & E2).
        assert (e' = e) as -> by congruence. congruence.
      + intros e. rewrite abs_edges, decide_True by lia. by rewrite Nat.sub_0_r.
    - intros k. destruct (edge_objects_eq s S) as (ks & E & H). unfold bw_switches. rewrite E, elem_of_list_omap, <- sw_named, <- H. split.
      + intros (o & Ho & ->). by apply elem_of_list_fmap in Ho as (k' & [= ->] & ?).
      + intros Hk. exists (Some k). split; [|done]. apply elem_of_list_fmap. eauto.
  Qed.
  Lemma bw_count_eq : bw_switch_count s = size (q_sw P).
  Proof.
    destruct bw_switches_eq as [N H]. transitivity (length (bw_switches s)).
    - unfold bw_switch_count. rewrite (g_edge_count_spec _ (sk_g _ S)). unfold bw_switches.
      destruct (edge_objects_eq s S) as (ks & E & _). 
      assert (omap (fun o => o) (edge_objects (bb_graph s)) = ks) as ->. { rewrite E. clear. induction ks as [|k ks IH]; [done|]. simpl. by f_equal. }
      assert (length (edge_objects (bb_graph s)) = length ks) as <- by (rewrite E; apply map_length).
      pose proof (omap_map_list ends (fun y : nat * nat * option string => Some y.2) (g_edges (bb_graph s)) 0 (s_edges (abs (bb_graph s)))) as HP.
      assert (edge_objects (bb_graph s) = omap (fun x => x ≫= (fun a => (fun y : nat * nat * option string => Some y.2) (ends a))) (g_edges (bb_graph s))) as ->.
      { unfold edge_objects. apply omap_same. intros [a|]; [|done]. by destruct a. }
      rewrite HP.
      2:{ intros e. rewrite abs_edges, decide_True by lia. by rewrite Nat.sub_0_r. }
      unfold size, map_size. generalize (map_to_list (s_edges (abs (bb_graph s)))). intros l. clear. induction l as [|x l IH]; [done|]. simpl. by f_equal.
    - unfold size, map_size. rewrite <- (fmap_length fst (map_to_list (q_sw P))). apply Permutation_length, NoDup_Permutation; [done|apply NoDup_fst_map_to_list|].
      intros k. rewrite H, elem_of_list_fmap. split.
      + intros [p Hp]. exists (k, p). split; [done|]. by apply elem_of_map_to_list.
      + intros ([k' p] & -> & Hp%elem_of_map_to_list). eauto.
  Qed.
  Lemma bw_switch_eq k b1 b2 : q_sw P !! k = Some (b1, b2) -> bw_switch s k = Ok (Some k) /\ bw_bus1 s k = Ok (Some b1) /\ bw_bus2 s k = Ok (Some b2).
  Proof.
    intros H. assert (k <> "") as Hne. { intros ->. by rewrite (f_id _ _ F) in H. }
    apply (f_sw _ _ F) in H as (e & x1 & x2 & He & Hed & H1 & H2). unfold bw_switch, bw_bus1, bw_bus2, bw_edge. rewrite bool_decide_false, He by done. cbn [result_bind].
    unfold g_vertex1, g_vertex2, g_edge_object. pose proof (check_edge_spec (bb_graph s) e) as C. rewrite abs_edges in Hed.
    destruct (g_check_edge (bb_graph s) e) as [ed|m| |]; try done; [|by rewrite C in Hed]. rewrite C in Hed. cbn in Hed. unfold ends in Hed. injection Hed as E1 E2 E3.
    cbn [result_map result_bind]. rewrite E1, E2, E3, bool_decide_true by done. split; [done|]. split; by apply bw_end_eq.
  Qed.
  Lemma bw_switch_none k : q_sw P !! k = None -> k <> "" -> bw_switch s k = Ok None /\ (exists m, bw_bus1 s k = Throw m) /\ exists m, bw_bus2 s k = Throw m.
  Proof.
    intros H Hne. assert (bb_sw s !! k = None) as E. { apply eq_None_not_Some. intros [p Hp]%sw_named. congruence. }
    unfold bw_switch, bw_bus1, bw_bus2, bw_edge. rewrite bool_decide_false, E by done. cbn [result_bind]. split; [done|]. split; by eexists.
  Qed.
End reads.
