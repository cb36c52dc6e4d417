(** Without its caches a bus-breaker voltage level behaves the same, but for the questions about merged buses: the invariant of BusTopoInv.v on the
    state without caches holds after histories that change switches while caches are held. *)
From stdpp Require Import gmap pmap.
From Verif Require Import Base Graph GraphSpec GraphProofs Equip NodeTopo NodeTopoInv BusTopo BusTopoSpec BusTopoProofs BusTopoInv.

(** The order of [map_to_list] depends on the keys only. *)
Lemma Plist_fmap {A B} (f : A -> B) t : forall j acc, Pto_list_raw j (Pfmap_raw f t) (prod_map id f <$> acc) = prod_map id f <$> Pto_list_raw j t acc.
Proof. induction t as [|o l IHl r IHr]; intros j acc; [done|]. cbn [Pfmap_raw Pto_list_raw]. rewrite fmap_app, <- IHl, <- IHr. by destruct o. Qed.
Lemma keys_fmap {A B} (f : A -> B) (m : gmap string A) : map fst (map_to_list (f <$> m)) = map fst (map_to_list m).
Proof.
  destruct m as [[t Ht] Hm]. unfold map_to_list, gmap_to_list, fmap, gmap_fmap, fmap, Pfmap. cbn. pose proof (Plist_fmap f t 1%positive []) as E. cbn in E.
  unfold map_to_list. cbn. unfold fmap, Pfmap_raw in *. rewrite E. generalize (Pto_list_raw 1 t []). intros l. clear.
  induction l as [|[i x] l IH]; [done|]. cbn. destruct (decode i) as [k|]; cbn; [by f_equal|done].
Qed.

Definition blankv (v : bbvar) : bbvar := bv_set_cache None v.
Definition blank (st : bbst) : bbst := mkE (e_sh st) (blankv <$> e_vars st) (e_cur st).
(** [m'] does on the state without caches what [m] does. *)
Definition alike {A} (m m' : bbact A) : Prop := forall st, m' (blank st) = ((m st).1, blank (m st).2).
Lemma alike_bind {A B} (m m' : bbact A) (f f' : A -> bbact B) : alike m m' -> (forall a, alike (f a) (f' a)) -> alike (abind m f) (abind m' f').
Proof. intros H1 H2 st. unfold abind. rewrite H1. destruct (m st) as [[a|e| |] st']; simpl; try done. apply H2. Qed.
Lemma alike_ret {A} (a : A) : alike (aret a) (aret a). Proof. done. Qed.
Lemma alike_throw {A} e : alike (athrow (A := A) e) (athrow e). Proof. done. Qed.
Lemma alike_lift {A} (r : result A) : alike (alift r) (alift r). Proof. done. Qed.
Lemma alike_shared : alike ashared ashared. Proof. done. Qed.
Lemma alike_index : alike aindex aindex. Proof. intros st. unfold aindex. cbn. by destruct (e_cur st). Qed.
Lemma alike_get {B} (f f' : bbvar -> bbact B) : (forall v, alike (f v) (f' (blankv v))) -> alike (abind aget f) (abind aget f').
Proof.
  intros H st. unfold aget, abind, aindex. cbn [blank e_cur e_vars]. destruct (e_cur st) as [i|] eqn:Hi; [|done]. unfold blank at 1. cbn [e_vars]. rewrite lookup_fmap.
  destruct (e_vars st !! i) as [v|]; [|done]. cbn. apply H.
Qed.
Lemma alike_put v v' : v' = blankv v -> alike (aput v) (aput v').
Proof.
  intros -> st. unfold aput, abind, aindex. cbn [blank e_cur e_vars]. destruct (e_cur st) as [i|] eqn:Hi; [|done]. unfold blank at 1. cbn [e_vars]. rewrite lookup_fmap.
  destruct (e_vars st !! i) as [w|]; [|done]. cbn. unfold blank. cbn. by rewrite fmap_insert.
Qed.
Lemma alike_bgact {A} (f : graph nat string -> graph nat string * result A) : alike (bgact f) (bgact f).
Proof. intros st. unfold bgact. cbn. by destruct (f (bb_graph (e_sh st))). Qed.
Lemma alike_loop (m m' : bbact unit) l : alike m m' -> alike (foreach_loop m l) (foreach_loop m' l).
Proof.
  intros H. induction l as [|i l IH]; intros st; [done|]. cbn [foreach_loop]. specialize (H (mkE (e_sh st) (e_vars st) (Some i))).
  change (m' (mkE (e_sh (blank st)) (e_vars (blank st)) (Some i))) with (m' (blank (mkE (e_sh st) (e_vars st) (Some i)))). rewrite H.
  destruct (m (mkE (e_sh st) (e_vars st) (Some i))) as [[a|e| |] st']; cbn [fst snd]; [apply IH|done..].
Qed.
Lemma alike_foreach (m m' : bbact unit) : alike m m' -> alike (aforeach m) (aforeach m').
Proof.
  intros H. apply alike_bind; [apply alike_index|]. intros i st. change (e_vars (blank st)) with (blankv <$> e_vars st). rewrite keys_fmap.
  pose proof (alike_loop m m' (map fst (map_to_list (e_vars st))) H st) as E. rewrite E. by destruct (foreach_loop m _ st).
Qed.
Lemma alike_amap {A B} (f : A -> B) (m m' : bbact A) : alike m m' -> alike (amap f m) (amap f m').
Proof. intros H. unfold amap. by apply alike_bind. Qed.
Lemma alike_state (m m' : bbact unit) : (forall st, m' (blank st) = ((m st).1, blank (m st).2)) -> alike m m'.
Proof. done. Qed.
(** A change of every variant that does not touch the cache. *)
Lemma alike_vars (h : bbst -> bbsh) (f : bbst -> bbvar -> bbvar) : (forall st, h (blank st) = h st) -> (forall st v, f (blank st) (blankv v) = blankv (f st v)) ->
  alike (fun st => (Ok tt, mkE (h st) (f st <$> e_vars st) (e_cur st))) (fun st => (Ok tt, mkE (h st) (f st <$> e_vars st) (e_cur st))).
Proof.
  intros H1 H2 st. cbn [fst snd]. rewrite H1. unfold blank at 2 3. unfold blank at 2. cbn [e_sh e_vars e_cur]. f_equal. f_equal.
  rewrite <- !map_fmap_compose. apply map_fmap_ext. intros i v _. cbn. apply H2.
Qed.
Lemma alike_sh (h : bbsh -> bbsh) : alike (fun st => (Ok tt, mkE (h (e_sh st)) (e_vars st) (e_cur st))) (fun st => (Ok tt, mkE (h (e_sh st)) (e_vars st) (e_cur st))).
Proof. done. Qed.
Lemma exists_blank st t : bool_decide (map_Exists (fun _ v => is_Some (bv_conn v !! t)) (e_vars (blank st))) = bool_decide (map_Exists (fun _ v => is_Some (bv_conn v !! t)) (e_vars st)).
Proof.
  apply bool_decide_ext. cbn. split.
  - intros (i & v & Hv & H). rewrite lookup_fmap in Hv. destruct (e_vars st !! i) as [w|] eqn:E; [|done]. injection Hv as <-. by exists i, w.
  - intros (i & v & Hv & H). exists i, (blankv v). by rewrite lookup_fmap, Hv.
Qed.
Ltac alk := repeat first [apply alike_ret | apply alike_throw | apply alike_lift | apply alike_shared | apply alike_index | apply alike_bgact
  | apply alike_put; reflexivity | apply alike_foreach | apply alike_amap
  | match goal with |- alike (match ?x with _ => _ end) _ => destruct x end | apply alike_get; intros ?; cbn [blankv bv_set_cache bv_open bv_terms bv_conn bv_cache]
  | apply alike_bind; [|intros ?]].
Lemma alike_vertex b : alike (bb_vertex b) (bb_vertex b). Proof. unfold bb_vertex. alk. Qed.
Lemma alike_configured b : alike (bb_configured b) (bb_configured b). Proof. unfold bb_configured. apply alike_bind; [apply alike_vertex|intros x]. alk. Qed.
Lemma alike_bt_get t : alike (bt_get t) (bt_get t). Proof. unfold bt_get. alk. Qed.
Lemma alike_bt_put t x : alike (bt_put t x) (bt_put t x). Proof. unfold bt_put. alk. Qed.
Lemma alike_invalidate : alike bb_invalidate bb_invalidate. Proof. unfold bb_invalidate. alk. Qed.
Lemma alike_bt_set_bus t b : alike (bt_set_bus t b) (bt_set_bus t b). Proof. unfold bt_set_bus. apply alike_bind; [apply alike_bt_get|intros x; apply alike_bt_put]. Qed.
Lemma alike_bt_set_connected t b : alike (bt_set_connected t b) (bt_set_connected t b). Proof. unfold bt_set_connected. apply alike_bind; [apply alike_bt_get|intros x; apply alike_bt_put]. Qed.
Lemma alike_term_count u : alike (bus_term_count u) (bus_term_count u). Proof. unfold bus_term_count. alk. Qed.
Lemma alike_check_id id : alike (bb_check_id id) (bb_check_id id). Proof. unfold bb_check_id. alk. Qed.
Lemma alike_attach t : alike (bb_attach t) (bb_attach t).
Proof.
  unfold bb_attach. apply alike_bind; [apply alike_bt_get|intros x]. apply alike_bind; [case_bool_decide; [apply alike_ret|apply alike_configured]|intros _].
  apply alike_bind; [apply alike_configured|intros u]. apply alike_foreach, alike_bind; [unfold bus_add_terminal; alk|intros _; apply alike_invalidate].
Qed.
Lemma alike_detach t : alike (bb_detach t) (bb_detach t).
Proof.
  unfold bb_detach. apply alike_bind; [apply alike_bt_get|intros x]. apply alike_bind; [apply alike_configured|intros u].
  apply alike_foreach, alike_bind; [unfold bus_remove_terminal; alk|intros _]. apply alike_bind; [apply alike_bt_set_bus|intros _; apply alike_invalidate].
Qed.
Lemma alike_on_terminal t m m' : alike m m' -> alike (on_bb_terminal t m) (on_bb_terminal t m').
Proof. intros H st. unfold on_bb_terminal. rewrite exists_blank. destruct (bool_decide _); [apply H|done]. Qed.
Lemma alike_destroy_bus u : alike (bb_destroy_bus u) (bb_destroy_bus u).
Proof.
  apply (alike_vars (fun st => let s := e_sh st in mkBB (bb_id s) (bb_graph s) (bb_buses s) (bb_sw s) (delete u (bb_live s)) (bb_next s)
     (match bb_live s !! u with Some id => bb_ids s ∖ {[id]} | None => bb_ids s end))
     (fun _ v => mkBV (bv_open v) (delete u (bv_terms v)) (bv_conn v) (bv_cache v))); done.
Qed.
Lemma alike_destroy_buses l : alike (destroy_buses l) (destroy_buses l).
Proof. induction l as [|[u|] l IH]; [done| |done]. cbn [destroy_buses]. apply alike_bind; [apply alike_destroy_bus|intros _; apply IH]. Qed.
Lemma alike_check_buses l : alike (check_buses l) (check_buses l).
Proof. induction l as [|[u|] l IH]; [done| |done]. cbn [check_buses]. apply alike_bind; [apply alike_term_count|intros n]. destruct (0 <? n); [done|apply IH]. Qed.
Lemma alike_destroy_switch k : alike (bb_destroy_switch k) (bb_destroy_switch k).
Proof.
  apply (alike_vars (fun st => let s := e_sh st in mkBB (bb_id s) (bb_graph s) (bb_buses s) (bb_sw s) (bb_live s) (bb_next s) (bb_ids s ∖ {[k]}))
     (fun _ v => mkBV (delete k (bv_open v)) (bv_terms v) (bv_conn v) (bv_cache v))); done.
Qed.
Lemma alike_destroy_switches l : alike (destroy_switches l) (destroy_switches l).
Proof. induction l as [|[u|] l IH]; [done| |done]. cbn [destroy_switches]. apply alike_bind; [apply alike_destroy_switch|intros _; apply IH]. Qed.
Definition is_question (c : bbop) : bool := match c with BMerged _ | BById _ | BTerminals _ | BTerminalBus _ => true | _ => false end.
Lemma alike_call c : is_question c = false -> alike (bb_call c) (bb_call c).
Proof.
  intros Hq. destruct c as [id|id| |id o b1 b2|id| |t b c|t|t id|t|t|id b|id|k|k|t]; try done; cbn [bb_call]; clear Hq.
  - unfold bb_add_bus. apply alike_bind; [apply alike_check_id|intros _]. apply alike_bind.
    { apply (alike_vars (fun st => let s := e_sh st in mkBB (bb_id s) (bb_graph s) (bb_buses s) (bb_sw s) (<[bb_next s := id]> (bb_live s)) (S (bb_next s)) ({[id]} ∪ bb_ids s))
        (fun st v => mkBV (bv_open v) (<[bb_next (e_sh st) := []]> (bv_terms v)) (bv_conn v) (bv_cache v))); done. }
    intros _. alk. intros st. done.
  - unfold bb_remove_bus. apply alike_bind; [apply alike_configured|intros u]. apply alike_bind; [apply alike_term_count|intros n]. destruct (0 <? n); [done|].
    apply alike_bind; [apply alike_shared|intros s]. apply alike_bind; [apply alike_lift|intros _]. destruct (bb_buses s !! id); [|done].
    apply alike_bind; [apply alike_bgact|intros _]. apply alike_bind; [by intros st|intros _]. apply alike_destroy_bus.
  - unfold bb_remove_all_buses. apply alike_bind; [apply alike_shared|intros s]. destruct (0 <? _); [done|]. apply alike_bind; [apply alike_check_buses|intros _].
    apply alike_bind; [apply alike_destroy_buses|intros _]. apply alike_bind; [apply alike_bgact|intros _]. by intros st.
  - unfold bb_add_switch. apply alike_bind; [apply alike_vertex|intros x1]. apply alike_bind; [apply alike_vertex|intros x2]. apply alike_bind; [apply alike_check_id|intros _].
    apply alike_bind.
    { apply (alike_vars (fun st => let s := e_sh st in mkBB (bb_id s) (bb_graph s) (bb_buses s) (bb_sw s) (bb_live s) (bb_next s) ({[id]} ∪ bb_ids s))
        (fun st v => mkBV (<[id := o]> (bv_open v)) (bv_terms v) (bv_conn v) (bv_cache v))); done. }
    intros _. apply alike_bind; [apply alike_bgact|intros e]. by intros st.
  - unfold bb_remove_switch. apply alike_bind; [apply alike_shared|intros s]. destruct (bb_sw s !! id); [|done]. apply alike_bind; [apply alike_bgact|intros k].
    apply alike_bind; [by intros st|intros _]. destruct k; [apply alike_destroy_switch|done].
  - unfold bb_remove_all_switches. apply alike_bind; [apply alike_shared|intros s]. apply alike_bind; [apply alike_destroy_switches|intros _].
    apply alike_bind; [apply alike_bgact|intros _]. by intros st.
  - unfold bb_new_terminal. apply alike_bind; [|intros _; apply alike_attach]. intros st. rewrite exists_blank. destruct (bool_decide (map_Exists _ _)); [done|].
    destruct (bool_decide (nt_type t = BUSBAR_SECTION)); [done|]. destruct (bool_decide (b = "")); [done|].
    apply (alike_vars e_sh (fun _ v => mkBV (bv_open v) (bv_terms v) (<[t := (c, b)]> (bv_conn v)) (bv_cache v))); done.
  - apply alike_on_terminal. unfold bb_remove_equipment. apply alike_bind; [apply alike_detach|intros _].
    apply (alike_vars e_sh (fun _ v => mkBV (bv_open v) (bv_terms v) (delete t (bv_conn v)) (bv_cache v))); done.
  - apply alike_on_terminal. unfold bb_set_connectable. apply alike_bind; [alk|intros _]. apply alike_bind; [apply alike_configured|intros _].
    apply alike_bind; [apply alike_detach|intros _]. apply alike_bind; [apply alike_bt_set_bus|intros _; apply alike_attach].
  - apply alike_on_terminal, alike_amap. unfold bb_connect. apply alike_bind; [apply alike_bt_get|intros x]. destruct x.1; [done|].
    apply alike_bind; [apply alike_bt_set_connected|intros _]. apply alike_bind; [apply alike_invalidate|intros _; apply alike_ret].
  - apply alike_on_terminal, alike_amap. unfold bb_disconnect. apply alike_bind; [apply alike_bt_get|intros x]. destruct x.1; [|done].
    apply alike_bind; [apply alike_bt_set_connected|intros _]. apply alike_bind; [apply alike_invalidate|intros _; apply alike_ret].
  - unfold on_bb_switch. apply alike_bind; [apply alike_shared|intros s]. destruct (bool_decide _); [|done]. unfold bb_set_open. apply alike_get. intros v.
    cbn [blankv bv_set_cache bv_open bv_terms bv_conn bv_cache]. destruct (bv_open v !! id); [|done]. destruct (bool_decide _); [done|].
    apply alike_bind; [by apply alike_put|intros _; apply alike_invalidate].
Qed.

(** ** The invariant without caches *)
Definition weak (st : bbst) : Prop := binv (blank st).
Lemma blank_binv st : binv st -> binv (blank st).
Proof.
  intros [[W1 W2] S [Hv HA]].
  assert (forall i v, e_vars (blank st) !! i = Some v -> exists w, e_vars st !! i = Some w /\ v = blankv w) as Hl.
  { intros i v. cbn. rewrite lookup_fmap. destruct (e_vars st !! i) as [w|]; [|done]. intros [= <-]. eauto. }
  split; [|done|].
  - split; cbn [blank e_vars e_cur].
    + destruct W1 as [v Hv1]. exists (blankv v). by rewrite lookup_fmap, Hv1.
    + intros i Hi. destruct (W2 i Hi) as [v Hv1]. exists (blankv v). by rewrite lookup_fmap, Hv1.
  - split.
    + intros i v (w & Hw & ->)%Hl. destruct (Hv i w Hw). split; cbn [blank e_sh blankv bv_set_cache bv_open bv_terms bv_conn bv_cache]; done.
    + intros i j v w (v' & Hv' & ->)%Hl (w' & Hw' & ->)%Hl. exact (HA i j v' w' Hv' Hw').
Qed.
