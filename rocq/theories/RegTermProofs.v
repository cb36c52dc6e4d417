From Verif Require Import RegTerm RegTermSpec EquipNetProofs.

(** ** The addresses of the terminals *)
Definition shape (nt : net) : gmap string (list nat) := (fun ts : list terminal => t_id <$> ts) <$> n_eqs nt.
Lemma shape_lookup nt id : shape nt !! id = (fun ts : list terminal => t_id <$> ts) <$> (n_eqs nt !! id).
Proof. unfold shape. by rewrite lookup_fmap. Qed.
Lemma owns_shape nt id a : (exists t, owns nt id t /\ t_id t = a) <-> exists l, shape nt !! id = Some l /\ a ∈ l.
Proof.
  rewrite shape_lookup. split.
  - intros (t & (ts & Hi & Ht) & <-). rewrite Hi. cbn. exists (t_id <$> ts). split; [done|]. apply elem_of_list_fmap. eauto.
  - intros (l & E & Ha). destruct (n_eqs nt !! id) as [ts|] eqn:Hi; [|done]. cbn in E. injection E as <-. apply elem_of_list_fmap in Ha as (t & -> & Ht).
    exists t. split; [|done]. by exists ts.
Qed.
Lemma alter_ids (k : nat) p (ts : list terminal) : t_id <$> alter (fun t => mkT (t_id t) (t_vl t) p) k ts = t_id <$> ts.
Proof. apply list_eq. intros i. rewrite !list_lookup_fmap. destruct (decide (i = k)) as [->|]; [rewrite list_lookup_alter|by rewrite list_lookup_alter_ne]. by destruct (ts !! k). Qed.
Lemma set_place_shape id k p nt : shape (set_place id k p nt).2 = shape nt.
Proof.
  unfold set_place. cbn [snd]. apply map_eq. intros j. rewrite !shape_lookup. cbn [n_eqs].
  destruct (decide (j = id)) as [->|]; [rewrite lookup_alter|by rewrite lookup_alter_ne]. destruct (n_eqs nt !! id); [|done]. cbn. by rewrite alter_ids.
Qed.
Lemma detach_shape id k t nt : shape (detach id k t nt).2 = shape nt.
Proof.
  unfold detach. destruct (n_levels nt !! t_vl t) as [[sub l]|] eqn:EL; [|by rewrite (nbind_Throw _ _ _ _ _ (nlevel_None _ _ EL))].
  rewrite (nbind_Ok _ _ _ _ _ (nlevel_Some _ _ _ EL)). cbn [snd fst]. destruct l as [vs es|bs es], (t_place t) as [n|b c]; try done.
  - unfold nwork, nlift, nbind. destruct (n_work nt); [|done]. by destruct (vs !! n).
  - unfold nwork, nlift, nbind. destruct (n_work nt); [|done]. destruct (bs !! b) as [l|]; [|done]. destruct (erase_first (t_id t) l); [|done]. cbn [nput fst snd]. by rewrite set_place_shape.
Qed.
Lemma detach_all_shape id ts : forall k nt, shape (detach_all id k ts nt).2 = shape nt.
Proof.
  induction ts as [|t ts IH]; intros k nt; [done|]. cbn [detach_all]. unfold nbind. pose proof (detach_shape id k t nt) as H. destruct (detach id k t nt) as [[]  nt']; cbn [snd] in *; [|done..].
  by rewrite IH.
Qed.
Lemma shape_eqs nt nt' : n_eqs nt' = n_eqs nt -> shape nt' = shape nt.
Proof. unfold shape. by intros ->. Qed.
Lemma shape_insert nt nt' id ts : n_eqs nt' = <[id := ts]> (n_eqs nt) -> shape nt' = <[id := t_id <$> ts]> (shape nt).
Proof. unfold shape. intros ->. by rewrite fmap_insert. Qed.
Lemma remove_shape id nt : ninv nt ->
  (exists m nt', nstep (ORemove id) nt = (Throw m, nt') /\ shape nt' = shape nt) \/ (exists nt', nstep (ORemove id) nt = (Ok tt, nt') /\ shape nt' = delete id (shape nt)).
Proof.
  intros HI. cbn [nstep]. destruct (remove_cases id nt HI) as [(m & nt' & E & _)|(nt' & E & _ & _ & _ & He & _)].
  - left. exists m, nt'. split; [done|]. revert E. unfold remove_equipment. destruct (n_eqs nt !! id) as [[|t ts]|]; [by intros [= _ <-]| |by intros [= _ <-]].
    unfold nbind. pose proof (detach_all_shape id (t :: ts) 0 nt) as H. destruct (detach_all id 0 (t :: ts) nt) as [[] nt1]; cbn [snd] in H; intros [= E1 <-]; congruence.
  - right. exists nt'. split; [done|]. unfold shape. rewrite He. apply fmap_delete.
Qed.
Lemma reg_shape id s nt : ninv nt ->
  (exists m, nstep (ORegulated id s) nt = (Throw m, nt)) \/
  (exists t nt', (nstep (ORegulated id s) nt).2 = nt' /\ n_eqs nt !! id = None /\ n_eqs nt' = <[id := [t]]> (n_eqs nt) /\
    ((nstep (ORegulated id s) nt).1 = Ok tt \/ exists m, (nstep (ORegulated id s) nt).1 = Throw m)).
Proof.
  intros HI. destruct (creation (ORegulated id s) nt id None [s] eq_refl) as [(_ & _ & m & E)|[(_ & (s' & ?) & _)|(_ & ps & Hw & Hid & _ & E)]]; [left; eauto|done|].
  right. rewrite E. destruct (finish_inv id ps nt HI) as (_ & He & _); [apply Hid|]. inversion Hw as [|? x ? ? _ Hn]; subst. inversion Hn; subst.
  eexists _, _. split; [done|]. split; [apply Hid|]. split; [exact He|]. destruct (finish_result id [x] nt) as [[nt' Ef]|(m & nt' & Ef)]; rewrite Ef; [by left|right; eauto].
Qed.
(** An operation that does not remove keeps what there is. *)
Lemma grow_shape o nt : ninv nt -> binv nt -> (forall id, o <> ORemove id) -> shape nt ⊆ shape (nstep o nt).2.
Proof.
  intros HI HB HN. destruct (request o) as [[[id sub] ss]|] eqn:ER.
  - destruct (creation o nt id sub ss ER) as [(_ & _ & m & ->)|[(HE & (s & ->) & _ & m & ->)|(_ & ps & _ & Hid & _ & ->)]]; cbn [snd].
    + done.
    + cbn [enters] in HE. destruct HE as (_ & _ & _ & _ & Hn). rewrite (shape_insert nt (with_eq nt id [] 0) id []) by done. apply insert_subseteq. by rewrite shape_lookup, Hn.
    + destruct (finish_inv id ps nt HI) as (_ & He & _); [apply Hid|]. rewrite (shape_insert _ _ _ _ He). apply insert_subseteq. rewrite shape_lookup. by rewrite (proj2 (proj2 (proj2 Hid))).
  - destruct (other_ops o nt HI HB ER HN) as (_ & _ & He & _). by rewrite (shape_eqs _ _ He).
Qed.

(** ** Finding a terminal *)
Lemma terminals_of_elem nt id i a : (id, i, a) ∈ terminals_of nt <-> exists l, shape nt !! id = Some l /\ l !! i = Some a.
Proof.
  unfold terminals_of. rewrite elem_of_list_bind. setoid_rewrite elem_of_lookup_imap. rewrite shape_lookup. split.
  - intros ([id' ts] & (i' & t & [= -> -> ->] & Ht) & Hm). apply elem_of_map_to_list in Hm. rewrite Hm. cbn. eexists. split; [done|]. cbn in Ht. by rewrite list_lookup_fmap, Ht.
  - intros (l & E & Hl). destruct (n_eqs nt !! id) as [ts|] eqn:Hi; [|done]. cbn in E. injection E as <-. rewrite list_lookup_fmap in Hl. destruct (ts !! i) as [t|] eqn:Ht; [|done]. cbn in Hl. injection Hl as <-.
    exists (id, ts). split; [|by apply elem_of_map_to_list]. exists i, t. done.
Qed.
Lemma find_addr_Some nt a id i : find_addr nt a = Some (id, i) -> exists l, shape nt !! id = Some l /\ l !! i = Some a.
Proof.
  unfold find_addr. destruct (list_find _ (terminals_of nt)) as [[j [[id' i'] a']]|] eqn:E; [|done]. cbn. intros [= -> ->].
  apply list_find_Some in E as (E & Ha & _). cbn in Ha. subst a'. apply elem_of_list_lookup_2 in E. by apply terminals_of_elem in E.
Qed.
Lemma find_addr_None nt a id l : find_addr nt a = None -> shape nt !! id = Some l -> a ∉ l.
Proof.
  unfold find_addr. destruct (list_find _ (terminals_of nt)) as [|] eqn:E; [done|]. intros _ Hs Ha. apply list_find_None in E. rewrite Forall_forall in E.
  apply elem_of_list_lookup in Ha as [i Hi]. apply (E (id, i, a)); [|done]. apply terminals_of_elem. eauto.
Qed.

(** ** Worlds *)
(** Equipment [id] of network [k] has terminals with addresses [l]. *)
Definition has (w : world) (k : nat) (id : string) (l : list nat) : Prop := exists nt, w_nets w !! k = Some nt /\ shape nt !! id = Some l.
Lemma names_has w r k id : names w r k id <-> r.1 = k /\ exists l, has w k id l /\ r.2 ∈ l.
Proof.
  unfold names, has. split.
  - intros (E & nt & t & Hk & Ho & Ht). split; [done|]. destruct (proj1 (owns_shape nt id r.2)) as (l & Hl & Ha); [eauto|]. exists l. split; [by exists nt|done].
  - intros (E & l & (nt & Hk & Hl) & Ha). split; [done|]. destruct (proj2 (owns_shape nt id r.2)) as (t & Ho & Ht); [eauto|]. by exists nt, t.
Qed.
Lemma has_func w k id l l' : has w k id l -> has w k id l' -> l = l'.
Proof. intros (nt & H1 & H2) (nt' & H3 & H4). congruence. Qed.
Lemma live_has w r : live w r <-> exists id l, has w r.1 id l /\ r.2 ∈ l.
Proof. unfold live. setoid_rewrite names_has. naive_solver. Qed.
Lemma network_of_cases w r : (live w r /\ network_of w r = Ok r.1) \/ (~ live w r /\ network_of w r = UB).
Proof.
  unfold network_of. rewrite live_has. destruct (w_nets w !! r.1) as [nt|] eqn:Hk.
  2:{ right. split; [|done]. intros (id & l & (nt & ? & _) & _). congruence. }
  destruct (find_addr nt r.2) as [[id i]|] eqn:E.
  - left. split; [|done]. apply find_addr_Some in E as (l & Hs & Hl). exists id, l. split; [by exists nt|by apply elem_of_list_lookup_2 in Hl].
  - right. split; [|done]. intros (id & l & (nt' & Hk' & Hs) & Ha). assert (nt' = nt) as -> by congruence. by apply (find_addr_None nt r.2 id l E Hs).
Qed.
Lemma check_regulating_cases w k r :
  (check_regulating w k r = Ok tt /\ forall x, r = Some x -> live w x /\ x.1 = k) \/
  (exists x m, r = Some x /\ live w x /\ x.1 <> k /\ check_regulating w k r = Throw m) \/ (exists x, r = Some x /\ ~ live w x /\ check_regulating w k r = UB).
Proof.
  destruct r as [x|]; [|by left]. unfold check_regulating. destruct (network_of_cases w x) as [[HL ->]|[HL ->]]; cbn [result_bind]; [|right; right; eauto].
  case_bool_decide; [left; split; [done|]; intros ? [= <-]; done|right; left; eauto 10].
Qed.
Lemma check_tap_changer_cases w k r :
  (check_tap_changer w k r = Ok tt /\ forall x, r = Some x -> live w x /\ x.1 = k) \/
  (exists x m, r = Some x /\ live w x /\ x.1 <> k /\ check_tap_changer w k r = Throw m) \/ (exists x, r = Some x /\ ~ live w x /\ check_tap_changer w k r = UB).
Proof.
  destruct r as [x|]; [|by left]. unfold check_tap_changer. destruct (network_of_cases w x) as [[HL ->]|[HL ->]]; cbn [result_bind]; [|right; right; eauto].
  case_bool_decide; [left; split; [done|]; intros ? [= <-]; done|right; left; eauto 10].
Qed.
Lemma check_tap_result w key a r : (forall x, r = Some x -> live w x) -> check_tap w key a r = Ok tt \/ exists m, check_tap w key a r = Throw m.
Proof.
  intros HL. unfold check_tap, check_ratio, check_phase, or_warn. destruct a as [[] [] [] [] f]; destruct (k_ratio key); cbn; destruct r as [x|]; cbn; try (by left); try (right; by eexists).
  all: destruct (network_of_cases w x) as [[_ ->]|[Hn _]]; [|by destruct (Hn (HL x eq_refl))]; cbn [result_bind]; case_bool_decide; eauto.
Qed.
Lemma check_tap_Ok w key a r : (forall x, r = Some x -> live w x) ->
  check_tap w key a r = Ok tt <-> settings_ok (k_ratio key) a r /\ forall x, r = Some x -> x.1 <> k_net key -> k_ratio key = true /\ a_regulating a && a_capable a = false.
Proof.
  intros HL. unfold check_tap, check_ratio, check_phase, or_warn, settings_ok. destruct a as [[] [] [] [] f]; destruct (k_ratio key); cbn; destruct r as [x|]; cbn.
  all: try (destruct (network_of_cases w x) as [[_ ->]|[Hn _]]; [|by destruct (Hn (HL x eq_refl))]; cbn [result_bind]; case_bool_decide).
  all: split; [intros H0|intros [H1 H2]]; try done; try (split; [intros ?; repeat split; naive_solver|naive_solver]); try (specialize (H1 eq_refl); naive_solver); naive_solver.
Qed.
Lemma check_tap_local w key a x : check_tap w key a (Some x) = Ok tt -> k_ratio key = false \/ a_regulating a && a_capable a = true -> live w x /\ x.1 = k_net key.
Proof.
  unfold check_tap, check_ratio, check_phase, or_warn. destruct a as [[] [] [] [] f]; destruct (k_ratio key); cbn.
  all: try (destruct (network_of_cases w x) as [[HL ->]|[Hn ->]]; cbn [result_bind]; try case_bool_decide); naive_solver.
Qed.

(** ** What an operation does to the networks *)
Record winv (w : world) : Prop := {
  wi_net : forall k nt, w_nets w !! k = Some nt -> ninv nt /\ binv nt;
  wi_reg : forall k id r, w_regs w !! (k, id) = Some r -> r.1 = k /\ exists l, has w k id l /\ l <> [];
  wi_tap : forall key x, w_taps w !! key = Some x -> (forall r, x = Some r -> k_ratio key = false -> r.1 = k_net key) /\ exists l, has w (k_net key) (k_id key) l /\ 2 <= length l }.
Lemma has_with_net w k nt nt' k' id l : w_nets w !! k = Some nt -> shape nt ⊆ shape nt' -> has w k' id l -> has (with_net w k nt') k' id l.
Proof.
  intros Hk HS (nt0 & H0 & Hl). unfold has. cbn [w_nets with_net]. destruct (decide (k' = k)) as [->|]; [|rewrite lookup_insert_ne by done; eauto].
  rewrite lookup_insert. exists nt'. split; [done|]. assert (nt0 = nt) as -> by congruence. by apply (lookup_weaken _ _ _ _ Hl).
Qed.
(** The networks after an operation: network [k] has become [nt'], or nothing has changed, or a network is new, or gone. *)
Inductive net_effect (o : wop) (w w' : world) : Prop :=
| ne_same : w_nets w' = w_nets w -> (forall k, o <> WDrop k) -> net_effect o w w'
| ne_new k : w_nets w !! k = None -> w_nets w' = <[k := net0]> (w_nets w) -> net_effect o w w'
| ne_drop k : o = WDrop k -> w_nets w' = delete k (w_nets w) -> net_effect o w w'
| ne_step k nt nt' : w_nets w !! k = Some nt -> w_nets w' = <[k := nt']> (w_nets w) -> ninv nt' -> binv nt' -> shape nt ⊆ shape nt' -> (forall k', o <> WDrop k') -> net_effect o w w'
| ne_remove k id nt nt' : o = WStep k (ORemove id) -> w_nets w !! k = Some nt -> w_nets w' = <[k := nt']> (w_nets w) -> ninv nt' -> binv nt' -> shape nt' = delete id (shape nt) ->
    w_regs w' = delete (k, id) (w_regs w) -> w_taps w' = filter (fun x => ~ (k_net x.1 = k /\ k_id x.1 = id)) (w_taps w) -> (wstep o w).1 = Ok tt -> net_effect o w w'.
Lemma add_reg_net k id s r w : winv w -> forall o, (forall k', o <> WDrop k') -> net_effect o w (add_reg k id s r w).2.
Proof.
  intros HI o Ho. unfold add_reg, in_net. destruct (w_nets w !! k) as [nt|] eqn:Hk; [|by apply ne_same]. destruct (wi_net w HI k nt Hk) as [H1 H2].
  unfold wcheck. destruct (check_regulating w k r); [|by apply ne_same..]. pose proof (step_inv (ORegulated id s) nt H1 H2) as [H3 H4].
  pose proof (grow_shape (ORegulated id s) nt H1 H2 ltac:(done)) as HG. destruct (nstep (ORegulated id s) nt) as [res nt'] eqn:E. cbn [snd] in *.
  assert (forall x, w_nets (x : world) = <[k := nt']> (w_nets w) -> net_effect o w x) as HE by (intros x Hx; by apply (ne_step o w x k nt nt')).
  destruct (n_eqs nt !! id); [by apply HE|]. destruct (n_eqs nt' !! id) as [[|t ts]|]; by apply HE.
Qed.
Lemma step_net o w : winv w -> net_effect o w (wstep o w).2.
Proof.
  intros HI. destruct o as [k|k|k o|k id s r|k id r|key a r|key a r|key]; cbn [wstep].
  - unfold new_net. destruct (w_nets w !! k) eqn:Hk; [by apply ne_same|by apply (ne_new _ _ _ k)].
  - by apply (ne_drop _ _ _ k).
  - assert ((exists id, o = ORemove id) \/ (exists id s, o = ORegulated id s) \/ (forall id, o <> ORemove id) /\ (forall id s, o <> ORegulated id s)) as [[id ->]|[(id & s & ->)|[Hn1 Hn2]]].
    { destruct o; try (right; right; done); [right; left; eauto|left; eauto]. }
    + unfold remove_in, in_net. destruct (w_nets w !! k) as [nt|] eqn:Hk; [|by apply ne_same]. destruct (wi_net w HI k nt Hk) as [H1 H2]. pose proof (step_inv (ORemove id) nt H1 H2) as [H3 H4].
      destruct (remove_shape id nt H1) as [(m & nt' & E & HS)|(nt' & E & HS)]; rewrite E in *; cbn [snd] in *.
      * apply (ne_step _ _ _ k nt nt'); try done. by rewrite HS.
      * apply (ne_remove _ _ _ k id nt nt'); try done. cbn [wstep]. unfold remove_in, in_net. by rewrite Hk, E.
    + by apply add_reg_net.
    + change (net_effect (WStep k o) w (wstep (WStep k o) w).2). assert (wstep (WStep k o) w = in_net k (fun nt w => let '(res, nt') := nstep o nt in (res, with_net w k nt')) w) as -> by (destruct o; naive_solver).
      unfold in_net. destruct (w_nets w !! k) as [nt|] eqn:Hk; [|by apply ne_same]. destruct (wi_net w HI k nt Hk) as [H1 H2]. pose proof (step_inv o nt H1 H2) as [H3 H4].
      pose proof (grow_shape o nt H1 H2 Hn1) as HG. destruct (nstep o nt) as [res nt']. cbn [snd] in *. by apply (ne_step _ _ _ k nt nt').
  - by apply add_reg_net.
  - apply ne_same; [|done]. unfold set_reg, in_net. destruct (w_nets w !! k); [|done]. unfold wcheck. destruct (check_regulating w k r); [|done..]. destruct (w_regs w !! (k, id)); [|done]. by destruct (n_eqs _ !! id) as [[|]|].
  - apply ne_same; [|done]. unfold add_tap, in_net. destruct (w_nets w !! k_net key) as [nt|]; [|done]. destruct (n_eqs nt !! k_id key) as [[|? [|]]|]; [done..| |done]. unfold wcheck. destruct (check_tap w key a r); [|done..]. by destruct (a_rest a).
  - apply ne_same; [|done]. unfold set_tap, in_net. destruct (w_nets w !! k_net key) as [nt|]; [|done]. destruct (w_taps w !! key); [|done]. unfold wcheck. destruct (check_tap w key a r); [|done..]. by destruct (check_tap_changer w (k_net key) r).
  - apply ne_same; [|done]. unfold remove_tap, in_net. by destruct (w_nets w !! k_net key).
Qed.
Lemma effect_has o w w' k id l : net_effect o w w' -> has w k id l -> has w' k id l \/ o = WDrop k \/
  (o = WStep k (ORemove id) /\ w_regs w' = delete (k, id) (w_regs w) /\ w_taps w' = filter (fun x => ~ (k_net x.1 = k /\ k_id x.1 = id)) (w_taps w)).
Proof.
  intros HE (nt0 & H0 & Hl). unfold has. destruct HE as [-> _|k' Hn ->|k' -> ->|k' nt nt' Hk -> _ _ HS _|k' id' nt nt' -> Hk -> _ _ HS HR HT _].
  - left. eauto.
  - left. rewrite lookup_insert_ne by congruence. eauto.
  - destruct (decide (k = k')) as [->|]; [by right; left|left; rewrite lookup_delete_ne by done; eauto].
  - left. destruct (decide (k = k')) as [->|]; [|rewrite lookup_insert_ne by done; eauto]. rewrite lookup_insert. exists nt'. split; [done|]. assert (nt0 = nt) as -> by congruence. by apply (lookup_weaken _ _ _ _ Hl).
  - destruct (decide (k = k')) as [->|]; [|left; rewrite lookup_insert_ne by done; eauto]. destruct (decide (id = id')) as [->|]; [by right; right|]. left. rewrite lookup_insert. exists nt'. split; [done|].
    assert (nt0 = nt) as -> by congruence. by rewrite HS, lookup_delete_ne.
Qed.

Lemma kept_reg o w k id : winv w -> is_Some (w_regs (wstep o w).2 !! (k, id)) -> forall l, has w k id l -> has (wstep o w).2 k id l.
Proof.
  intros HI Hs l Hl. destruct (effect_has _ _ _ _ _ _ (step_net o w HI) Hl) as [?|[->|(-> & HR & _)]]; [done| |].
  - exfalso. cbn [wstep drop_net snd w_regs] in Hs. destruct Hs as [r Hs]. apply map_filter_lookup_Some in Hs as [_ Hs]. done.
  - rewrite HR, lookup_delete in Hs. by destruct Hs.
Qed.
Lemma kept_tap o w key : winv w -> is_Some (w_taps (wstep o w).2 !! key) -> forall l, has w (k_net key) (k_id key) l -> has (wstep o w).2 (k_net key) (k_id key) l.
Proof.
  intros HI Hs l Hl. destruct (effect_has _ _ _ _ _ _ (step_net o w HI) Hl) as [?|[->|(-> & _ & HT)]]; [done| |].
  - exfalso. cbn [wstep drop_net snd w_taps] in Hs. destruct Hs as [r Hs]. apply map_filter_lookup_Some in Hs as [_ Hs]. done.
  - rewrite HT in Hs. destruct Hs as [r Hs]. apply map_filter_lookup_Some in Hs as [_ Hs]. cbn in Hs. tauto.
Qed.
(** ** What an operation does to the references *)
(** The reference of (k, id) has become [r]. *)
Definition becomes (w w' : world) (k : nat) (id : string) (r : option ref) (x : ref) : Prop :=
  x.1 = k /\ (r = Some x /\ live w x \/ r = None /\ names w' x k id) /\ exists l, has w' k id l /\ l <> [].
Lemma shape_has w k nt id ts : w_nets w !! k = Some nt -> n_eqs nt !! id = Some ts -> has w k id (t_id <$> ts).
Proof. intros Hk Hi. exists nt. split; [done|]. by rewrite shape_lookup, Hi. Qed.
Lemma add_reg_regs k id s r w k' id' x : winv w -> w_regs (add_reg k id s r w).2 !! (k', id') = Some x ->
  w_regs w !! (k', id') = Some x \/ k' = k /\ id' = id /\ becomes w (add_reg k id s r w).2 k id r x.
Proof.
  intros HI. unfold add_reg, in_net. destruct (w_nets w !! k) as [nt|] eqn:Hk; [|by left]. destruct (wi_net w HI k nt Hk) as [H1 H2]. unfold wcheck.
  destruct (check_regulating_cases w k r) as [[-> HL]|[(y & m & -> & _ & _ & ->)|(y & -> & _ & ->)]]; [|by left..].
  destruct (reg_shape id s nt H1) as [(m & ->)|(t & nt' & <- & Hn & He & _)].
  { destruct (n_eqs nt !! id); by left. }
  destruct (nstep (ORegulated id s) nt) as [res nt'] eqn:E. cbn [snd] in He. rewrite Hn, He, lookup_insert. cbn [snd w_regs with_reg with_net].
  set (y := match r with Some r => r | None => (k, t_id t) end). destruct (decide ((k', id') = (k, id))) as [[= -> ->]|Hne]; [|rewrite lookup_insert_ne by done; by left].
  rewrite lookup_insert. intros [= <-]. right. split; [done|]. split; [done|].
  assert (has (with_reg (with_net w k nt') k id y) k id [t_id t]) as Hh.
  { apply (shape_has _ k nt' id [t]); [cbn [w_nets with_reg with_net]; by rewrite lookup_insert|by rewrite He, lookup_insert]. }
  unfold becomes. split; [|split; [|eauto]].
  - unfold y. destruct r as [z|]; [by apply HL|done].
  - unfold y. destruct r as [z|]; [left; split; [done|by apply HL]|right]. split; [done|]. apply names_has. split; [done|]. exists [t_id t]. split; [exact Hh|by left].
Qed.
Lemma set_reg_regs k id r w k' id' x : winv w -> w_regs (set_reg k id r w).2 !! (k', id') = Some x ->
  w_regs w !! (k', id') = Some x \/ k' = k /\ id' = id /\ becomes w (set_reg k id r w).2 k id r x.
Proof.
  intros HI. unfold set_reg, in_net. destruct (w_nets w !! k) as [nt|] eqn:Hk; [|by left]. unfold wcheck.
  destruct (check_regulating_cases w k r) as [[-> HL]|[(y & m & -> & _ & _ & ->)|(y & -> & _ & ->)]]; [|by left..].
  destruct (w_regs w !! (k, id)) as [r0|] eqn:Er; [|by left]. destruct (n_eqs nt !! id) as [[|t ts]|] eqn:Hi; [by left| |by left]. cbn [snd w_regs with_reg].
  set (y := match r with Some r => r | None => (k, t_id t) end). destruct (decide ((k', id') = (k, id))) as [[= -> ->]|Hne]; [|rewrite lookup_insert_ne by done; by left].
  rewrite lookup_insert. intros [= <-]. right. split; [done|]. split; [done|].
  assert (has (with_reg w k id y) k id (t_id <$> t :: ts)) as Hh by by apply (shape_has _ k nt).
  unfold becomes. split; [|split; [|exists (t_id <$> t :: ts); done]].
  - unfold y. destruct r as [z|]; [by apply HL|done].
  - unfold y. destruct r as [z|]; [left; split; [done|by apply HL]|right]. split; [done|]. apply names_has. split; [done|]. exists (t_id <$> t :: ts). split; [exact Hh|by left].
Qed.
Lemma remove_in_regs k id w : w_regs (remove_in k id w).2 = w_regs w \/ w_regs (remove_in k id w).2 = delete (k, id) (w_regs w).
Proof. unfold remove_in, in_net. destruct (w_nets w !! k); [|by left]. destruct (nstep (ORemove id) _) as [[] nt']; first [by left|by right]. Qed.
Lemma remove_in_taps k id w key x : w_taps (remove_in k id w).2 !! key = Some x -> w_taps w !! key = Some x.
Proof. unfold remove_in, in_net. destruct (w_nets w !! k); [|done]. destruct (nstep (ORemove id) _) as [[] nt']; try done. cbn [snd w_taps]. intros H. by apply map_filter_lookup_Some in H as [? _]. Qed.
Lemma regs_step o w k id x : winv w -> w_regs (wstep o w).2 !! (k, id) = Some x ->
  w_regs w !! (k, id) = Some x \/ touches o k id /\ becomes w (wstep o w).2 k id (given o) x.
Proof.
  intros HI. destruct o as [k'|k'|k' o|k' id' s r|k' id' r|key a r|key a r|key]; cbn [wstep given touches].
  - unfold new_net. destruct (w_nets w !! k'); by left.
  - cbn [drop_net snd w_regs]. intros H. apply map_filter_lookup_Some in H as [? _]. by left.
  - assert ((exists id, o = ORemove id) \/ (exists id s, o = ORegulated id s) \/ (forall id, o <> ORemove id) /\ (forall id s, o <> ORegulated id s)) as [[i ->]|[(i & s & ->)|[Hn1 Hn2]]].
    { destruct o; try (right; right; done); [right; left; eauto|left; eauto]. }
    + destruct (remove_in_regs k' i w) as [->| ->]; [by left|]. intros H. apply lookup_delete_Some in H as [_ H]. by left.
    + intros H. apply add_reg_regs in H as [?|(-> & -> & H)]; [by left|right; by split|done].
    + change (w_regs (wstep (WStep k' o) w).2 !! (k, id) = Some x -> w_regs w !! (k, id) = Some x \/ touches (WStep k' o) k id /\ becomes w (wstep (WStep k' o) w).2 k id None x).
      assert (wstep (WStep k' o) w = in_net k' (fun nt w => let '(res, nt') := nstep o nt in (res, with_net w k' nt')) w) as -> by (destruct o; naive_solver).
      unfold in_net. destruct (w_nets w !! k'); [|by left]. destruct (nstep o _). by left.
  - intros H. apply add_reg_regs in H as [?|(-> & -> & H)]; [by left|right; by split|done].
  - intros H. apply set_reg_regs in H as [?|(-> & -> & H)]; [by left|right; by split|done].
  - intros H. left. revert H. unfold add_tap, in_net. destruct (w_nets w !! k_net key) as [nt|]; [|done]. destruct (n_eqs nt !! k_id key) as [[|? [|]]|]; [done..| |done]. unfold wcheck. destruct (check_tap w key a r); [|done..]. by destruct (a_rest a).
  - intros H. left. revert H. unfold set_tap, in_net. destruct (w_nets w !! k_net key) as [nt|]; [|done]. destruct (w_taps w !! key); [|done]. unfold wcheck. destruct (check_tap w key a r); [|done..]. by destruct (check_tap_changer w (k_net key) r).
  - intros H. left. revert H. unfold remove_tap, in_net. by destruct (w_nets w !! k_net key).
Qed.

Lemma taps_step o w key x : winv w -> w_taps (wstep o w).2 !! key = Some x ->
  w_taps w !! key = Some x \/ exists a, (o = WTap key a x \/ o = WTapSet key a x /\ (forall r, x = Some r -> live w r /\ r.1 = k_net key)) /\ check_tap w key a x = Ok tt /\
    exists l, has (wstep o w).2 (k_net key) (k_id key) l /\ 2 <= length l.
Proof.
  intros HI. destruct o as [k'|k'|k' o|k' id' s r|k' id' r|key' a r|key' a r|key']; cbn [wstep].
  - unfold new_net. destruct (w_nets w !! k'); by left.
  - cbn [drop_net snd w_taps]. intros H. apply map_filter_lookup_Some in H as [? _]. by left.
  - assert (forall k id s r, w_taps (add_reg k id s r w).2 = w_taps w) as HA.
    { intros k id s r. unfold add_reg, in_net. destruct (w_nets w !! k) as [nt|]; [|done]. unfold wcheck. destruct (check_regulating w k r); [|done..]. destruct (nstep (ORegulated id s) nt) as [res nt'].
      destruct (n_eqs nt !! id); [done|]. by destruct (n_eqs nt' !! id) as [[|]|]. }
    assert ((exists id, o = ORemove id) \/ (exists id s, o = ORegulated id s) \/ (forall id, o <> ORemove id) /\ (forall id s, o <> ORegulated id s)) as [[i ->]|[(i & s & ->)|[Hn1 Hn2]]].
    { destruct o; try (right; right; done); [right; left; eauto|left; eauto]. }
    + intros H. left. by apply remove_in_taps in H.
    + rewrite HA. by left.
    + assert (wstep (WStep k' o) w = in_net k' (fun nt w => let '(res, nt') := nstep o nt in (res, with_net w k' nt')) w) as HE by (destruct o; naive_solver).
      cbn [wstep] in HE. rewrite HE. unfold in_net. destruct (w_nets w !! k'); [|by left]. destruct (nstep o _). by left.
  - unfold add_reg, in_net. destruct (w_nets w !! k') as [nt|]; [|by left]. unfold wcheck. destruct (check_regulating w k' r); [|by left..]. destruct (nstep (ORegulated id' s) nt) as [res nt'].
    destruct (n_eqs nt !! id'); [by left|]. destruct (n_eqs nt' !! id') as [[|]|]; by left.
  - unfold set_reg, in_net. destruct (w_nets w !! k') as [nt|]; [|by left]. unfold wcheck. destruct (check_regulating w k' r); [|by left..]. destruct (w_regs w !! (k', id')); [|by left].
    destruct (n_eqs nt !! id') as [[|]|]; by left.
  - unfold add_tap, in_net. destruct (w_nets w !! k_net key') as [nt|] eqn:Hk; [|by left]. destruct (n_eqs nt !! k_id key') as [[|t [|t' ts]]|] eqn:Hi; [by left..| |by left]. unfold wcheck.
    destruct (check_tap w key' a r) as [[]| | |] eqn:Ec; [|by left..]. destruct (a_rest a) eqn:Ea; [|by left]. cbn [snd w_taps with_tap]. destruct (decide (key = key')) as [->|]; [|rewrite lookup_insert_ne by done; by left].
    rewrite lookup_insert. intros [= <-]. right. exists a. split; [by left|]. split; [done|]. exists (t_id <$> t :: t' :: ts). split; [by apply (shape_has _ _ nt)|cbn; lia].
  - unfold set_tap, in_net. destruct (w_nets w !! k_net key') as [nt|] eqn:Hk; [|by left]. destruct (w_taps w !! key') as [x0|] eqn:Et; [|by left]. unfold wcheck.
    destruct (check_tap w key' a r) as [[]| | |] eqn:Ec; [|by left..]. destruct (check_tap_changer_cases w (k_net key') r) as [[-> HL]|[(y & m & -> & _ & _ & ->)|(y & -> & _ & ->)]]; [|by left..].
    cbn [snd w_taps with_tap]. destruct (decide (key = key')) as [->|]; [|rewrite lookup_insert_ne by done; by left].
    rewrite lookup_insert. intros [= <-]. right. exists a. split; [by right|]. split; [done|]. destruct (wi_tap w HI key' x0 Et) as [_ (l & (nt0 & H1 & H2) & ?)]. exists l. split; [by exists nt0|done].
  - unfold remove_tap, in_net. destruct (w_nets w !! k_net key') as [nt|] eqn:Hk; [|by left]. cbn [snd w_taps]. intros H. apply lookup_delete_Some in H as [_ H]. by left.
Qed.

(** ** Invariants *)
Lemma winv0 : winv world0.
Proof. split; intros *; cbn [world0 w_nets w_regs w_taps]; by rewrite lookup_empty. Qed.
Lemma winv_step o w : winv w -> winv (wstep o w).2.
Proof.
  intros HI. split.
  - intros k nt Hk. destruct (step_net o w HI) as [E _|k' Hn E|k' _ E|k' nt0 nt' Hk' E H1 H2 _ _|k' id' nt0 nt' _ Hk' E H1 H2 _ _ _ _]; rewrite E in Hk.
    + by apply (wi_net w HI k).
    + apply lookup_insert_Some in Hk as [[_ <-]|[_ Hk]]; [|by apply (wi_net w HI k)]. split; [apply ninv0|]. intros vl b (? & ? & ? & H & _). cbn [n_levels net0] in H. by rewrite lookup_empty in H.
    + apply lookup_delete_Some in Hk as [_ Hk]. by apply (wi_net w HI k).
    + apply lookup_insert_Some in Hk as [[_ <-]|[_ Hk]]; [done|by apply (wi_net w HI k)].
    + apply lookup_insert_Some in Hk as [[_ <-]|[_ Hk]]; [done|by apply (wi_net w HI k)].
  - intros k id r Hr. destruct (regs_step o w k id r HI Hr) as [Ho|(_ & H1 & _ & H2)]; [|done]. destruct (wi_reg w HI k id r Ho) as [H1 (l & Hl & Hne)]. split; [done|]. exists l. split; [|done].
    by apply kept_reg; [| |exact Hl].
  - intros key x Hx. destruct (taps_step o w key x HI Hx) as [Ho|(a & _ & Hc & Hl)].
    + destruct (wi_tap w HI key x Ho) as [H1 (l & Hl & Hne)]. split; [done|]. exists l. split; [|done]. by apply kept_tap; [| |exact Hl].
    + split; [|done]. intros r -> Hf. apply (check_tap_local w key a r Hc). by left.
Qed.
Lemma reach_winv P w : world_reach P w -> winv w.
Proof. induction 1; [apply winv0|by apply winv_step]. Qed.

(** ** Right histories *)
Definition rinv (w : world) : Prop := forall k id r, refers w k id r -> live w r /\ r.1 = k.
Lemma refers_cases w k id r : refers w k id r <-> w_regs w !! (k, id) = Some r \/ exists leg b, w_taps w !! mkKey k id leg b = Some (Some r).
Proof.
  unfold refers, refers_surely, refers_ratio. split.
  - intros [[?|(leg & ?)]|(leg & ?)]; [by left|right; eauto..].
  - intros [?|(leg & [] & ?)]; eauto.
Qed.
Lemma rinv_step o w : winv w -> rinv w -> right_history o w -> rinv (wstep o w).2.
Proof.
  intros HI HR (HO & HL & HG) k id r Hr.
  assert (refers w k id r -> live w r -> r.1 = k -> live (wstep o w).2 r) as Hold.
  { intros Hw Hlv Ek. apply live_has in Hlv as (id0 & l & Hl & Ha). destruct (effect_has _ _ _ _ _ _ (step_net o w HI) Hl) as [Hl'|[->|(-> & HR' & HT')]].
    - apply live_has. eauto.
    - exfalso. apply refers_cases in Hr as [Hr|(leg & b & Hr)]; cbn [wstep drop_net snd w_regs w_taps] in Hr; apply map_filter_lookup_Some in Hr as [_ Hr]; cbn in Hr; congruence.
    - exfalso. destruct (HL k id r Hw) as [_ E2]; [apply names_has; eauto|]. rewrite refers_cases, HR', HT' in Hr. subst k. destruct Hr as [Hr|(leg & b & Hr)].
      + apply lookup_delete_Some in Hr as [Hne _]. congruence.
      + apply map_filter_lookup_Some in Hr as [_ Hr]. cbn in Hr. tauto. }
  assert (live w r -> (exists x, given o = x /\ x = Some r) -> live (wstep o w).2 r) as Hnew.
  { intros Hlv (x & E & ->). apply live_has in Hlv as (id0 & l & Hl & Ha). destruct (effect_has _ _ _ _ _ _ (step_net o w HI) Hl) as [Hl'|[->|(-> & _)]]; [|done..]. apply live_has. eauto. }
  pose proof Hr as Hr0. apply refers_cases in Hr0 as [Hr0|(leg & b & Hr0)].
  - destruct (regs_step o w k id r HI Hr0) as [Ho|(_ & H1 & [[H2 H3]|[_ H2]] & _)].
    + assert (refers w k id r) as Hw by (apply refers_cases; by left). destruct (HR k id r Hw). auto.
    + eauto.
    + split; [|done]. subst k. by exists id.
  - destruct (taps_step o w (mkKey k id leg b) (Some r) HI Hr0) as [Ho|(a & Hoo & Hc & _)].
    + assert (refers w k id r) as Hw by (apply refers_cases; eauto). destruct (HR k id r Hw). auto.
    + assert (given o = Some r) as Eg by by destruct Hoo as [->|[-> _]]. split; [apply Hnew; [by apply HG|by exists (Some r)]|].
      destruct Hoo as [->|[-> HLL]]; [|by apply (HLL r)]. cbn [own_ratio k_ratio k_net] in HO. destruct b.
      * destruct (HO eq_refl) as [E|E]; [|done]. apply (check_tap_local w (mkKey k id leg true) a r Hc). by right.
      * apply (check_tap_local w (mkKey k id leg false) a r Hc). by left.
Qed.
Lemma reach_rinv w : world_reach right_history w -> rinv w.
Proof.
  induction 1 as [|o w HR IH HP]; [|apply rinv_step; [by apply (reach_winv right_history)|done..]].
  intros k id r. rewrite refers_cases. cbn [world0 w_regs w_taps]. rewrite lookup_empty. intros [?|(? & ? & H)]; [done|]. by rewrite lookup_empty in H.
Qed.
(** Without foreign ratio tap changers, but with any removal. *)
Lemma reach_local w k id r : world_reach (fun o _ => own_ratio o) w -> refers w k id r -> r.1 = k.
Proof.
  intros HR. revert k id r. induction HR as [|o w HR IH HP]; intros k id r.
  - rewrite refers_cases. cbn [world0 w_regs w_taps]. rewrite lookup_empty. intros [?|(? & ? & H)]; [done|]. by rewrite lookup_empty in H.
  - pose proof (reach_winv _ _ HR) as HI. rewrite refers_cases. intros [Hr|(leg & b & Hr)].
    + destruct (regs_step o w k id r HI Hr) as [Ho|(_ & H1 & _)]; [|done]. apply (IH k id r). apply refers_cases. by left.
    + destruct (taps_step o w (mkKey k id leg b) (Some r) HI Hr) as [Ho|(a & Hoo & Hc & _)]; [apply (IH k id r); apply refers_cases; eauto|].
      destruct Hoo as [->|[-> HLL]]; [|by apply (HLL r)]. cbn [own_ratio k_ratio k_net] in HP. destruct b.
      * destruct (HP eq_refl) as [E|E]; [|done]. apply (check_tap_local w (mkKey k id leg true) a r Hc). by right.
      * apply (check_tap_local w (mkKey k id leg false) a r Hc). by left.
Qed.

(** ** Results *)
Definition defined {A} (x : result A * net) : Prop := (exists a, x.1 = Ok a) \/ exists m, x.1 = Throw m.
Lemma defined_bind {A B} (m : nact A) (f : A -> nact B) nt : defined (m nt) -> (forall a nt', defined (f a nt')) -> defined (nbind m f nt).
Proof. intros [[a E]|[e E]] Hf; destruct (m nt) as [x nt'] eqn:E'; cbn [fst] in E; subst x; unfold nbind; rewrite E'; [apply Hf|right; by eexists]. Qed.
Lemma defined_lift {A} (f : net -> result A) nt : (exists a, f nt = Ok a) \/ (exists m, f nt = Throw m) -> defined (nlift f nt).
Proof. done. Qed.
Lemma nlevel_defined vl nt : defined (nlevel vl nt).
Proof. unfold nlevel. apply defined_lift. destruct (n_levels nt !! vl); eauto. Qed.
Lemma check_id_defined id nt : defined (check_id id nt).
Proof. unfold check_id. apply defined_lift. repeat case_bool_decide; eauto. Qed.
Lemma nwork_defined nt : defined (nwork nt).
Proof. unfold nwork. apply defined_lift. destruct (n_work nt); eauto. Qed.
Lemma nput_defined vl sub l nt : defined (nput vl sub l nt).
Proof. left. by eexists. Qed.
Lemma nthrow_defined {A} m nt : defined (@nthrow A m nt).
Proof. right. by eexists. Qed.
Lemma nstep_defined o nt : ninv nt -> defined (nstep o nt).
Proof.
  intros HI. destruct (request o) as [[[id sub] ss]|] eqn:ER.
  - destruct (creation o nt id sub ss ER) as [(_ & _ & m & ->)|[(_ & _ & _ & m & ->)|(_ & ps & _ & _ & _ & ->)]]; [right; by eexists..|].
    destruct (finish_result id ps nt) as [[nt' ->]|(m & nt' & ->)]; [left|right]; by eexists.
  - destruct o; try discriminate ER; cbn [nstep].
    + apply defined_bind; [apply check_id_defined|intros; apply nput_defined].
    + apply defined_bind; [apply nlevel_defined|]. intros x nt1. destruct (x.2); [apply nthrow_defined|]. apply defined_bind; [apply check_id_defined|]. intros _ nt2. apply defined_bind; [left; by eexists|]. intros; apply nput_defined.
    + apply defined_bind; [apply nlevel_defined|]. intros x nt1. destruct (x.2) as [|bs es]; [apply nthrow_defined|]. destruct (bs !! id) as [l|]; [|apply nthrow_defined]. apply defined_bind; [apply nwork_defined|]. intros _ nt2.
      repeat case_bool_decide; try apply nthrow_defined. apply defined_bind; [apply nput_defined|]. intros. left. by eexists.
    + apply defined_bind; [apply nlevel_defined|]. intros x nt1. destruct (x.2); [apply nput_defined|apply nthrow_defined].
    + apply defined_bind; [apply nlevel_defined|]. intros x nt1. destruct (x.2) as [vs es|]; [apply nput_defined|apply nthrow_defined].
    + apply defined_bind; [apply nlevel_defined|]. intros x nt1. destruct (x.2) as [|bs es]; [apply nthrow_defined|]. repeat case_bool_decide; try apply nthrow_defined; try apply nput_defined.
    + apply defined_bind; [apply nlevel_defined|]. intros x nt1. destruct (x.2) as [|bs es]; [apply nthrow_defined|apply nput_defined].
    + left. by eexists.
    + destruct (remove_cases id nt HI) as [(m & nt' & -> & _)|(nt' & -> & _)]; [right|left]; by eexists.
Qed.

Lemma wstep_defined o w : winv w -> about o w -> (forall r, given o = Some r -> live w r) -> (wstep o w).1 = Ok tt \/ exists m, (wstep o w).1 = Throw m.
Proof.
  intros HI HA HG.
  assert (forall k id s r, is_Some (w_nets w !! k) -> (forall x, r = Some x -> live w x) -> (add_reg k id s r w).1 = Ok tt \/ exists m, (add_reg k id s r w).1 = Throw m) as HReg.
  { intros k id s r [nt Hk] HL. unfold add_reg, in_net. rewrite Hk. destruct (wi_net w HI k nt Hk) as [H1 H2]. unfold wcheck.
    destruct (check_regulating_cases w k r) as [[-> _]|[(y & m & -> & _ & _ & ->)|(y & -> & Hy & _)]]; [|right; by eexists|by destruct (Hy (HL y eq_refl))].
    pose proof (nstep_defined (ORegulated id s) nt H1) as [[[] HD]|HD]; destruct (nstep (ORegulated id s) nt) as [res nt']; cbn [fst] in HD; destruct (n_eqs nt !! id); [by left| |by right|];
      destruct (n_eqs nt' !! id) as [[|]|]; first [by left|by right]. }
  destruct o as [k|k|k o|k id s r|k id r|key a r|key a r|key]; cbn [wstep about given] in *.
  - unfold new_net. rewrite HA. by left.
  - by left.
  - assert ((exists id, o = ORemove id) \/ (exists id s, o = ORegulated id s) \/ (forall id, o <> ORemove id) /\ (forall id s, o <> ORegulated id s)) as [[i ->]|[(i & s & ->)|[Hn1 Hn2]]].
    { destruct o; try (right; right; done); [right; left; eauto|left; eauto]. }
    + destruct HA as [nt Hk]. unfold remove_in, in_net. rewrite Hk. destruct (wi_net w HI k nt Hk) as [H1 H2]. destruct (remove_shape i nt H1) as [(m & nt' & -> & _)|(nt' & -> & _)]; [right; by eexists|by left].
    + by apply HReg.
    + assert (wstep (WStep k o) w = in_net k (fun nt w => let '(res, nt') := nstep o nt in (res, with_net w k nt')) w) as HE by (destruct o; naive_solver).
      cbn [wstep] in HE. rewrite HE. unfold in_net. destruct HA as [nt Hk]. rewrite Hk. destruct (wi_net w HI k nt Hk) as [H1 H2]. pose proof (nstep_defined o nt H1) as [[[] HD]|HD]; destruct (nstep o nt); first [by left|by right].
  - by apply HReg.
  - destruct HA as [r0 Hr]. destruct (wi_reg w HI k id r0 Hr) as [_ (l & (nt & Hk & Hl) & Hne)]. unfold set_reg, in_net. rewrite Hk. unfold wcheck.
    destruct (check_regulating_cases w k r) as [[-> _]|[(y & m & -> & _ & _ & ->)|(y & -> & Hy & _)]]; [|right; by eexists|by destruct (Hy (HG y eq_refl))].
    rewrite Hr. rewrite shape_lookup in Hl. destruct (n_eqs nt !! id) as [[|t ts]|]; [by injection Hl as <-|by left|done].
  - destruct HA as (nt & t & t' & ts & Hk & Hi). unfold add_tap, in_net. rewrite Hk, Hi. unfold wcheck. destruct (check_tap_result w key a r HG) as [->|[m ->]]; [|right; by eexists]. destruct (a_rest a); [by left|right; by eexists].
  - destruct HA as [x Hx]. destruct (wi_tap w HI key x Hx) as [_ (l & (nt & Hk & Hl) & Hne)]. unfold set_tap, in_net. rewrite Hk, Hx. unfold wcheck. destruct (check_tap_result w key a r HG) as [->|[m ->]]; [|right; by eexists].
    destruct (check_tap_changer_cases w (k_net key) r) as [[-> _]|[(y & m & -> & _ & _ & ->)|(y & -> & Hy & _)]]; [by left|right; by eexists|by destruct (Hy (HG y eq_refl))].
  - destruct HA as [x Hx]. destruct (wi_tap w HI key x Hx) as [_ (l & (nt & Hk & Hl) & Hne)]. unfold remove_tap, in_net. rewrite Hk. by left.
Qed.
(** ** The XML file *)
Lemma find_unique nt id l i a : ninv nt -> shape nt !! id = Some l -> l !! i = Some a -> find_addr nt a = Some (id, i).
Proof.
  intros HI Hs Hl. destruct (find_addr nt a) as [[id' i']|] eqn:E.
  - apply find_addr_Some in E as (l' & Hs' & Hl'). rewrite shape_lookup in Hs, Hs'. destruct (n_eqs nt !! id) as [ts|] eqn:H1; [|done]. destruct (n_eqs nt !! id') as [ts'|] eqn:H2; [|done].
    cbn in Hs, Hs'. injection Hs as <-. injection Hs' as <-. rewrite list_lookup_fmap in Hl, Hl'. destruct (ts !! i) as [t|] eqn:H3; [|done]. destruct (ts' !! i') as [t'|] eqn:H4; [|done].
    cbn in Hl, Hl'. destruct (ni_once nt HI id ts i t id' ts' i' t') as [-> ->]; congruence.
  - destruct (find_addr_None nt a id l E Hs). by apply elem_of_list_lookup_2 in Hl.
Qed.
Lemma read_nth nt id ts i t : n_eqs nt !! id = Some ts -> ts !! i = Some t -> read_ref nt (id, match ts with _ :: _ :: _ => Some i | _ => None end) = Ok (t_id t).
Proof.
  intros Hi Ht. unfold read_ref. cbn [fst snd]. rewrite Hi. destruct ts as [|t1 [|t2 ts]]; [done| |by rewrite Ht].
  destruct i as [|i]; [by injection Ht as ->|done].
Qed.
Lemma write_nth w k nt id ts i t r : winv w -> w_nets w !! k = Some nt -> n_eqs nt !! id = Some ts -> ts !! i = Some t -> r = (k, t_id t) ->
  write_ref w r = Ok (id, match ts with _ :: _ :: _ => Some i | _ => None end).
Proof.
  intros HI Hk Hi Ht ->. destruct (wi_net w HI k nt Hk) as [HN _]. unfold write_ref. cbn [fst snd]. rewrite Hk. rewrite (find_unique nt id (t_id <$> ts) i (t_id t) HN); [|by rewrite shape_lookup, Hi|by rewrite list_lookup_fmap, Ht].
  rewrite Hi. by destruct ts as [|? [|]].
Qed.
(** ** What is not touched *)
Lemma add_reg_frame k' id' s r w k id : ~ (k = k' /\ id = id') -> w_regs (add_reg k' id' s r w).2 !! (k, id) = w_regs w !! (k, id) /\ w_taps (add_reg k' id' s r w).2 = w_taps w.
Proof.
  intros Hn. unfold add_reg, in_net. destruct (w_nets w !! k') as [nt|]; [|done]. unfold wcheck. destruct (check_regulating w k' r); [|done..]. destruct (nstep (ORegulated id' s) nt) as [res nt'].
  destruct (n_eqs nt !! id'); [done|]. destruct (n_eqs nt' !! id') as [[|]|]; try done. cbn [snd w_regs with_reg with_net w_taps]. split; [|done]. rewrite lookup_insert_ne; [done|]. intros [= -> ->]. by apply Hn.
Qed.
Lemma frame o w k id : ~ touches o k id -> w_regs (wstep o w).2 !! (k, id) = w_regs w !! (k, id) /\ forall leg b, w_taps (wstep o w).2 !! mkKey k id leg b = w_taps w !! mkKey k id leg b.
Proof.
  intros Hn. destruct o as [k'|k'|k' o|k' id' s r|k' id' r|key a r|key a r|key]; cbn [wstep touches] in *.
  - unfold new_net. by destruct (w_nets w !! k').
  - cbn [drop_net snd w_regs w_taps]. split; [|intros leg b].
    + rewrite map_filter_lookup. cbn. destruct (w_regs w !! (k, id)) as [x|]; [|done]. cbn. by rewrite option_guard_True.
    + rewrite map_filter_lookup. cbn. destruct (w_taps w !! mkKey k id leg b) as [x|]; [|done]. cbn. by rewrite option_guard_True.
  - assert ((exists id, o = ORemove id) \/ (exists id s, o = ORegulated id s) \/ (forall id, o <> ORemove id) /\ (forall id s, o <> ORegulated id s)) as [[i ->]|[(i & s & ->)|[Hn1 Hn2]]].
    { destruct o; try (right; right; done); [right; left; eauto|left; eauto]. }
    + unfold remove_in, in_net. destruct (w_nets w !! k') as [nt|]; [|done]. destruct (nstep (ORemove i) nt) as [[] nt']; try done. cbn [snd w_regs w_taps with_net]. split; [|intros leg b].
      * rewrite lookup_delete_ne; [done|]. intros [= -> ->]. by apply Hn.
      * rewrite map_filter_lookup. cbn. destruct (w_taps w !! mkKey k id leg b) as [x|]; [|done]. cbn. by rewrite option_guard_True.
    + destruct (add_reg_frame k' i s None w k id Hn) as [-> ->]. done.
    + assert (wstep (WStep k' o) w = in_net k' (fun nt w => let '(res, nt') := nstep o nt in (res, with_net w k' nt')) w) as HE by (destruct o; naive_solver).
      cbn [wstep] in HE. rewrite HE. unfold in_net. destruct (w_nets w !! k'); [|done]. by destruct (nstep o _).
  - destruct (add_reg_frame k' id' s r w k id Hn) as [-> ->]. done.
  - unfold set_reg, in_net. destruct (w_nets w !! k') as [nt|]; [|done]. unfold wcheck. destruct (check_regulating w k' r); [|done..]. destruct (w_regs w !! (k', id')); [|done].
    destruct (n_eqs nt !! id') as [[|]|]; try done. cbn [snd w_regs with_reg w_taps]. split; [|done]. rewrite lookup_insert_ne; [done|]. intros [= -> ->]. by apply Hn.
  - assert (forall leg b, mkKey k id leg b <> key) as Hk. { intros leg b <-. by apply Hn. }
    unfold add_tap, in_net. destruct (w_nets w !! k_net key) as [nt|]; [|done]. destruct (n_eqs nt !! k_id key) as [[|? [|]]|]; [done..| |done]. unfold wcheck. destruct (check_tap w key a r); [|done..].
    destruct (a_rest a); [|done]. cbn [snd w_regs with_tap w_taps]. split; [done|]. intros leg b. by rewrite lookup_insert_ne by (by apply not_eq_sym).
  - assert (forall leg b, mkKey k id leg b <> key) as Hk. { intros leg b <-. by apply Hn. }
    unfold set_tap, in_net. destruct (w_nets w !! k_net key) as [nt|]; [|done]. destruct (w_taps w !! key); [|done]. unfold wcheck. destruct (check_tap w key a r); [|done..].
    destruct (check_tap_changer w (k_net key) r); [|done..]. cbn [snd w_regs with_tap w_taps]. split; [done|]. intros leg b. by rewrite lookup_insert_ne by (by apply not_eq_sym).
  - assert (forall leg b, mkKey k id leg b <> key) as Hk. { intros leg b <-. by apply Hn. }
    unfold remove_tap, in_net. destruct (w_nets w !! k_net key) as [nt|]; [|done]. cbn [snd w_regs w_taps]. split; [done|]. intros leg b. by rewrite lookup_delete_ne by (by apply not_eq_sym).
Qed.
