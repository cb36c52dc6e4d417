(** Views of a node-breaker level asked while the working variant holds no cache, whatever caches were left stale elsewhere or before. *)
From stdpp Require Import gmap pretty.
From Verif Require Import Base Graph GraphSpec Equip NodeTopo NodeTopoSpec NodeTopoProofs NodeTopoInv NodeTopoConn.

(** The working variant is set and holds no cache of the view. *)
Definition uncached (vw : view) (st : nbst) : Prop :=
  is_Some (e_cur st) /\ forall i v, e_cur st = Some i -> e_vars st !! i = Some v -> nv_cache vw v = None.

Lemma unc_cache vw st0 i v : ninv false st0 -> e_cur st0 = Some i -> e_vars st0 !! i = Some v -> nv_cache vw v = None ->
  exists c st, nb_cache vw st0 = (Ok c, st) /\ nb_cache vw st = (Ok c, st) /\ same_but_cache st0 st /\
    cache_ok vw (nb_id (e_sh st0)) (nv_sw v) (nbg st0) (length (g_vertices (nb_graph (e_sh st0)))) c.
Proof.
  intros I Hc Hi Hno.
  destruct (nb_update_eq vw st0 false I) as [(? & _)|(j & w & Hj & Hw & [(c' & Hcc & Eu)|(Hcc & s' & c' & Ss & CK & Eu)])]; [congruence|congruence|].
  assert (j = i) as -> by congruence. assert (w = v) as -> by congruence. exists c'. eexists. split; [|split; [|split; [|exact CK]]].
  - unfold nb_cache. rewrite (abind_Ok _ _ _ _ _ Eu). unfold aget, abind, aindex, alift. cbn [e_cur e_vars]. rewrite Hc. cbv beta iota. cbn [e_cur e_vars].
    rewrite lookup_insert, nv_set_same. done.
  - unfold nb_cache, nb_update, aget, abind, aindex, alift. cbn [e_cur e_vars]. try rewrite Hc. cbv beta iota. cbn [e_cur e_vars].
    rewrite lookup_insert, nv_set_same. cbv beta iota. unfold aret. cbn [e_cur e_vars]. try rewrite Hc. cbv beta iota. cbn [e_cur e_vars]. rewrite lookup_insert, nv_set_same. done.
  - split; [done|]. split; [by rewrite Hc|]. cbn [e_vars]. intros j. destruct (decide (i = j)) as [<-|Hne].
    + left. exists v. rewrite lookup_insert. eexists. split; [done|]. split; [done|]. rewrite nv_set_sw. split; [done|]. rewrite Hc. congruence.
    + rewrite lookup_insert_ne by done. destruct (e_vars st0 !! j) as [w|]; [left; by exists w, w|by right].
Qed.
Lemma unc_buses vw st0 i v : ninv false st0 -> e_cur st0 = Some i -> e_vars st0 !! i = Some v -> nv_cache vw v = None ->
  exists m st, nb_buses vw st0 = (Ok m, st) /\ same_but_cache st0 st /\
    (forall k b, m !! k = Some b -> cb_id b = k /\ exists n, in_bus vw (nbg st0) (nv_sw v) n /\ bus_of vw (nbg st0) (nv_sw v) (nb_id (e_sh st0)) n b) /\
    (forall n, in_bus vw (nbg st0) (nv_sw v) n -> exists k b, m !! k = Some b /\ bus_of vw (nbg st0) (nv_sw v) (nb_id (e_sh st0)) n b).
Proof.
  intros I Hc Hi Hno. destruct (unc_cache vw st0 i v I Hc Hi Hno) as (c & st & E & _ & S & CK). exists (bc_id c), st.
  split; [unfold nb_buses; by rewrite (abind_Ok _ _ _ _ _ E)|]. split; [done|]. split; [apply CK|]. intros n Hn.
  assert (exists k, bc_node c !! n = Some (Some k)) as [k Hk].
  { destruct (bc_node c !! n) as [[k|]|] eqn:Ek; [eauto| |]; exfalso;
    (apply (not_not_least (same_node vw (nbg st0) (nv_sw v) n) n); [apply rtc_refl|]; intros [m Hm];
     assert (bus_name vw (nbg st0) (nv_sw v) (nb_id (e_sh st0)) n (nb_id (e_sh st0) +:+ "_" +:+ pretty (N.of_nat m))) as Hname by (by exists m);
     pose proof (proj2 (ck_node _ _ _ _ _ _ CK n _) (conj Hn Hname)); congruence). }
  pose proof (proj1 (ck_node _ _ _ _ _ _ CK n k) Hk) as [_ H2]. destruct (ck_has _ _ _ _ _ _ CK n k Hn H2) as [b Hb]. exists k, b. split; [done|].
  destruct (ck_id _ _ _ _ _ _ CK k b Hb) as (Ek & m & Hm & Hbm). eapply bus_of_same; [|exact Hbm]. eapply bus_name_inj; [apply Hbm|]. by rewrite Ek.
Qed.
(** The second query of a row is answered from the cache the first one left. *)
Lemma unc_same vw st0 i v n n' b b' st1 st2 : ninv false st0 -> e_cur st0 = Some i -> e_vars st0 !! i = Some v -> nv_cache vw v = None ->
  nb_bus_of_node vw n st0 = (Ok (Some b), st1) -> nb_bus_of_node vw n' st1 = (Ok (Some b'), st2) ->
  cb_id b = cb_id b' <-> linked vw st0 n n'.
Proof.
  intros I Hc Hi Hno E1 E2. destruct (unc_cache vw st0 i v I Hc Hi Hno) as (c & st & E & E' & S & CK).
  unfold nb_bus_of_node in E1, E2. rewrite (abind_Ok _ _ _ _ _ E) in E1. unfold alift in E1.
  destruct (bc_node c !! n) as [[k|]|] eqn:Hk; [|done|done]. destruct (bc_id c !! k) as [x|] eqn:Hb; [|done]. injection E1 as -> <-.
  rewrite (abind_Ok _ _ _ _ _ E') in E2. unfold alift in E2.
  destruct (bc_node c !! n') as [[k'|]|] eqn:Hk'; [|done|done]. destruct (bc_id c !! k') as [x|] eqn:Hb'; [|done]. injection E2 as -> _.
  destruct (proj1 (ck_node _ _ _ _ _ _ CK n k) Hk) as [_ N1]. destruct (proj1 (ck_node _ _ _ _ _ _ CK n' k') Hk') as [_ N2].
  destruct (ck_id _ _ _ _ _ _ CK k b Hb) as (-> & _). destruct (ck_id _ _ _ _ _ _ CK k' b' Hb') as (-> & _). split.
  - intros <-. exists i, v. split; [done|]. split; [done|]. by eapply bus_name_inj.
  - intros (i' & v' & Hc' & Hi' & HL). assert (i' = i) as -> by congruence. assert (v' = v) as -> by congruence.
    eapply bus_name_fun; [|exact N2]. by eapply bus_name_same.
Qed.

(** ** Calls that leave no cache in the working variant *)
Lemma bind_last {A B} (m : nbact A) (f : A -> nbact B) st r st' : abind m f st = (Ok r, st') -> exists a st1, m st = (Ok a, st1) /\ f a st1 = (Ok r, st').
Proof. unfold abind. destruct (m st) as [[a|e| |] s]; try done. eauto. Qed.
Lemma invalidate_clears vw st st' : nb_invalidate st = (Ok tt, st') -> uncached vw st'.
Proof.
  unfold nb_invalidate, aget, aput, aindex, abind. destruct (e_cur st) as [i|] eqn:Hc; [|done]. cbv beta iota. destruct (e_vars st !! i) as [v|] eqn:Hi; [|done].
  cbv beta iota. rewrite Hc. cbv beta iota. rewrite Hi. intros [= <-]. split; [cbn [e_cur]; by rewrite Hc|]. cbn [e_cur e_vars]. intros j w Hj. rewrite Hc in Hj. injection Hj as <-.
  rewrite lookup_insert. intros [= <-]. by destruct vw.
Qed.
Lemma invalidate_all_clears vw st st' : nb_invalidate_all st = (Ok tt, st') -> uncached vw st'.
Proof.
  unfold nb_invalidate_all, aindex, abind. destruct (e_cur st) as [i|] eqn:Hc; [|done]. cbv beta iota. intros [= <-]. split; [cbn [e_cur]; by rewrite Hc|]. cbn [e_cur e_vars]. intros j w _.
  rewrite lookup_fmap. destruct (e_vars st !! j) as [u|]; [|done]. intros [= <-]. by destruct vw.
Qed.
Lemma gact_keeps {A} vw (f : graph nterm string -> graph nterm string * result A) st r st' : gact f st = (r, st') -> uncached vw st -> uncached vw st'.
Proof. unfold gact. destruct (f _) as [g r']. intros [= _ <-]. done. Qed.

Lemma set_open_clears vw id b st st' r : pos st id = Some (negb b, r) -> on_switch id (sw_set_open id b) st = (Ok tt, st') -> uncached vw st'.
Proof.
  intros Hp E. apply bind_last in E as (s & st1 & [= <- <-] & E). case_bool_decide; [|done]. apply bind_last in E as (p & st1 & Eg & E).
  assert (p = (negb b, r) /\ st1 = st) as [-> ->].
  { unfold sw_get, aget, aindex, abind, alift in Eg. unfold pos in Hp. destruct (e_cur st) as [i|]; [|done]. cbv beta iota in Eg.
    destruct (e_vars st !! i) as [v|]; [|done]. cbv beta iota in Eg. rewrite Hp in Eg. injection Eg as <- <-. done. }
  cbn [fst snd] in E. rewrite bool_decide_false in E by (by destruct b). apply bind_last in E as (u & st1 & _ & E). by eapply invalidate_clears.
Qed.
Lemma set_retained_clears vw id b st st' x : pos st id = Some (x, negb b) -> on_switch id (sw_set_retained id b) st = (Ok tt, st') -> uncached vw st'.
Proof.
  intros Hp E. apply bind_last in E as (s & st1 & [= <- <-] & E). case_bool_decide; [|done]. apply bind_last in E as (p & st1 & Eg & E).
  assert (p = (x, negb b) /\ st1 = st) as [-> ->].
  { unfold sw_get, aget, aindex, abind, alift in Eg. unfold pos in Hp. destruct (e_cur st) as [i|]; [|done]. cbv beta iota in Eg.
    destruct (e_vars st !! i) as [v|]; [|done]. cbv beta iota in Eg. rewrite Hp in Eg. injection Eg as <- <-. done. }
  cbn [fst snd] in E. rewrite bool_decide_false in E by (by destruct b). apply bind_last in E as (u & st1 & _ & E). by eapply invalidate_clears.
Qed.
Lemma add_internal_clears vw n1 n2 st st' : nb_add_internal n1 n2 st = (Ok tt, st') -> uncached vw st'.
Proof.
  intros E. apply bind_last in E as (? & ? & _ & E). apply bind_last in E as (? & ? & _ & E). apply bind_last in E as (? & ? & _ & E). by eapply invalidate_clears.
Qed.
Lemma remove_internal_clears vw n1 n2 st st' : nb_remove_internal n1 n2 st = (Ok tt, st') -> uncached vw st'.
Proof.
  intros E. apply bind_last in E as (s & st1 & _ & E). destruct (existsb _ _) in E; [|done]. apply bind_last in E as (? & ? & _ & E). apply bind_last in E as (? & ? & _ & E).
  by eapply invalidate_clears.
Qed.
Lemma attach_clears vw n t st st' : nb_attach n t st = (Ok tt, st') -> uncached vw st'.
Proof.
  intros E. apply bind_last in E as (? & ? & _ & E). apply bind_last in E as (o & ? & _ & E). destruct o as [u|]; [done|]. apply bind_last in E as (? & ? & _ & E).
  by eapply invalidate_all_clears.
Qed.
Lemma detach_clears vw n st st' : nb_detach n st = (Ok tt, st') -> uncached vw st'.
Proof.
  intros E. apply bind_last in E as (s & st1 & _ & E). destruct (g_vertex_object _ _) as [[t|]|e| |] in E; try done.
  apply bind_last in E as (? & st2 & E1 & E). destruct x. apply (invalidate_all_clears vw) in E1. apply bind_last in E as (? & st3 & E2 & E). apply (gact_keeps vw) in E2; [|done].
  by apply (gact_keeps vw) in E.
Qed.

(** connect and disconnect: the positions of the switches did not change, or no cache is left. *)
Lemma graph_again {B} (f : graph nterm string -> result B) st r st' : gact (fun g => (g, f g)) st = (r, st') -> st' = st.
Proof. unfold gact. intros [= _ <-]. by destruct st as [[] ? ?]. Qed.
Lemma breaker_again e st o st' : edge_breaker e st = (Ok o, st') -> st' = st.
Proof.
  intros E. apply bind_last in E as (x & st1 & E1 & E). apply graph_again in E1 as ->. destruct x as [s|]; [|by injection E].
  apply bind_last in E as (sh & st1 & [= <- <-] & E). destruct (nb_kind (e_sh st) !! s) as [[]|]; by injection E.
Qed.
Lemma get_again id st p st' : sw_get id st = (Ok p, st') -> st' = st.
Proof.
  unfold sw_get, aget, aindex, abind, alift. destruct (e_cur st) as [i|]; [|done]. cbv beta iota. destruct (e_vars st !! i) as [v|]; [|done]. by intros [= _ <-].
Qed.
Definition cleared (st st' : nbst) : Prop := st' = st \/ forall vw, uncached vw st'.
Lemma cleared_trans st st1 st2 : cleared st st1 -> cleared st1 st2 -> cleared st st2.
Proof. intros [->|H] [->|H']; [by left|by right|by right|by right]. Qed.
Lemma open_cleared id b st st' : sw_set_open id b st = (Ok tt, st') -> cleared st st'.
Proof.
  intros E. apply bind_last in E as (p & st1 & ->%get_again & E). case_bool_decide; [left; by injection E|].
  apply bind_last in E as (u & st1 & _ & E). right. intros vw. by eapply invalidate_clears.
Qed.
Lemma close_path_cleared p : forall c st r st', close_path p c st = (Ok r, st') -> cleared st st'.
Proof.
  induction p as [|e p IH]; intros c st r st' E; [left; by injection E|]. cbn [close_path] in E.
  apply bind_last in E as (o & st1 & ->%breaker_again & E). destruct o as [s|]; [|by eapply IH].
  apply bind_last in E as (x & st1 & ->%get_again & E). destruct x.1; [|by eapply IH].
  apply bind_last in E as ([] & st1 & E1%open_cleared & E). eapply cleared_trans; [exact E1|by eapply IH].
Qed.
Lemma open_path_cleared p : forall st r st', open_path p st = (Ok r, st') -> cleared st st'.
Proof.
  induction p as [|e p IH]; intros st r st' E; [left; by injection E|]. cbn [open_path] in E.
  apply bind_last in E as (o & st1 & ->%breaker_again & E). destruct o as [s|]; [|by eapply IH].
  apply bind_last in E as (x & st1 & ->%get_again & E). apply bind_last in E as ([] & st1 & E1 & [= _ <-]).
  destruct x.1; [left; by injection E1|by eapply open_cleared].
Qed.
Lemma open_paths_cleared ps : forall st r st', open_paths ps st = (Ok r, st') -> cleared st st'.
Proof.
  induction ps as [|p ps IH]; intros st r st' E; [left; by injection E|]. cbn [open_paths] in E.
  apply bind_last in E as (b & st1 & E1%open_path_cleared & E). destruct b; [|injection E as _ <-; done]. eapply cleared_trans; [exact E1|by eapply IH].
Qed.
Lemma connected_pos n st b st' : ninv false st -> nb_is_connected n st = (Ok b, st') -> forall id, pos st' id = pos st id.
Proof.
  intros I E id. apply bind_last in E as (o & st1 & E & [= _ <-]). unfold nb_bus_of_node in E. apply bind_last in E as (c & st2 & E & E').
  unfold alift in E'. injection E' as _ <-. unfold nb_cache in E. apply bind_last in E as ([] & st3 & E & E').
  assert (st2 = st3) as ->.
  { revert E'. unfold aget, aindex, abind, alift. destruct (e_cur st3) as [i|]; [|done]. cbv beta iota. destruct (e_vars st3 !! i) as [v|]; [|done]. by intros [= _ <-]. }
  destruct (nb_update_eq BusView st false I) as [(Hn & Eu)|(j & w & Hj & Hw & [(c' & Hcc & Eu)|(Hcc & s' & c' & Ss & CK & Eu)])].
  - revert E. unfold nb_update, aget, aindex, abind. by rewrite Hn.
  - rewrite Eu in E. by injection E as <-.
  - rewrite Eu in E. injection E as <-. unfold pos. cbn [e_cur e_vars]. by rewrite Hj, Hw, lookup_insert.
Qed.
Lemma paths_pos srt n st ps st' : nb_paths srt n st = (Ok ps, st') -> forall id, pos st' id = pos st id.
Proof.
  intros E id. apply bind_last in E as (s & st1 & [= <- <-] & E). apply bind_last in E as (v & st1 & Ev & E).
  assert (st1 = st) as ->.
  { revert Ev. unfold aget, aindex, abind, alift. destruct (e_cur st) as [i|]; [|done]. cbv beta iota. destruct (e_vars st !! i) as [w|]; [|done]. by intros [= _ <-]. }
  apply bind_last in E as (l & st1 & E & [= _ <-]). unfold gact in E. destruct (g_find_all_paths_raw _ _ _ _) as [g r]. by injection E as _ <-.
Qed.
Lemma connect_moves srt n st r st' id vw : ninv false st -> nb_connect srt n st = (Ok r, st') -> pos st' id <> pos st id -> uncached vw st'.
Proof.
  intros I E Hd. apply bind_last in E as (b & st1 & E1 & E). pose proof (connected_pos _ _ _ _ I E1 id) as P1.
  destruct b; [by injection E as _ <-|]. apply bind_last in E as (ps & st2 & E2 & E). pose proof (paths_pos _ _ _ _ _ E2 id) as P2.
  destruct ps as [|p ps]; [injection E as _ <-; congruence|]. apply close_path_cleared in E as [->|H]; [congruence|done].
Qed.
Lemma disconnect_moves srt n st r st' id vw : ninv false st -> nb_disconnect srt n st = (Ok r, st') -> pos st' id <> pos st id -> uncached vw st'.
Proof.
  intros I E Hd. apply bind_last in E as (b & st1 & E1 & E). pose proof (connected_pos _ _ _ _ I E1 id) as P1.
  destruct b; [|by injection E as _ <-]. apply bind_last in E as (ps & st2 & E2 & E). pose proof (paths_pos _ _ _ _ _ E2 id) as P2.
  destruct ps as [|p ps]; [injection E as _ <-; congruence|]. apply open_paths_cleared in E as [->|H]; [congruence|done].
Qed.
