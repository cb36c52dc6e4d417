(** C59: the voltages of the buses. *)
From stdpp Require Import gmap pretty.
From Verif Require Import Base Graph GraphSpec Equip NodeTopo NodeTopoSpec NodeTopoProofs NodeTopoInv NodeTopoConn NodeTopoProps NodeGroups NodeGroupsSpec NodeGroupsProofs BusTopo BusTopoSpec BusTopoProofs BusTopoInv BusTopoView BusTopoProps BusValues BusValuesSpec BusValuesProofs.

(** ** Node-breaker voltage levels *)
(** The terminal that getV reads: one of the bus if it has any; otherwise a nearest one through closed switches and internal
    connections; none if the whole electrical node has none. *)
Theorem C59_read : forall vw st i v n n0 b,
  nb_reach any_safe st -> e_cur st = Some i -> e_vars st !! i = Some v ->
  in_bus vw (nbg st) (nv_sw v) n -> bus_of vw (nbg st) (nv_sw v) (nb_id (e_sh st)) n b -> same_node vw (nbg st) (nv_sw v) n n0 ->
  exists r st', find_terminal n0 (cb_terms b) st = (Ok r, st') /\ nbg st' = nbg st /\ e_vars st' = e_vars st /\ e_cur st' = e_cur st /\
    match r with
    | Some t => t ∈ cb_terms b \/ (cb_terms b = [] /\ exists m, nearest (nbg st) (nv_sw v) n0 m /\ term_at (nbg st) m t)
    | None => forall m t, same_node BusView (nbg st) (nv_sw v) n m -> ~ term_at (nbg st) m t
    end.
Proof.
  intros vw st i v n n0 b H Hc Hi Hin Hb Hn0. apply reach_any in H.
  destruct (find_terminal_ok vw st i v _ n n0 b H Hc Hi Hin Hb Hn0) as (r & st' & E & H1 & H2 & H3 & R).
  exists r, st'. split; [done|]. split; [done|]. split; [done|]. split; [done|].
  pose proof (read_near vw st i v _ n n0 b r st' H Hc Hi Hin Hb Hn0 E) as RN. destruct r as [t|]; [|done].
  destruct (cb_terms b) as [|t' ts]; [by right|]. injection R as ->. left. by left.
Qed.
Print Assumptions C59_read.

(** setV then getV on a bus with terminals answers the value set, and the other buses of the view that have terminals answer what they
    answered before.  The full statement has no condition on the terminals: see C59_lost_refuted and C59_neighbour_refuted. *)
Theorem C59_set_get_partial : forall {A} (neg : A -> bool) vw st i v n n0 b x f,
  nb_reach any_safe st -> one_node (nbg st) -> e_cur st = Some i -> e_vars st !! i = Some v ->
  in_bus vw (nbg st) (nv_sw v) n -> bus_of vw (nbg st) (nv_sw v) (nb_id (e_sh st)) n b -> same_node vw (nbg st) (nv_sw v) n n0 ->
  cb_terms b <> [] -> acceptable neg x ->
  exists f', cb_set_v neg b x f = (Ok tt, f') /\ reads st n0 b f' x /\
    forall n' n0' b' y,
      in_bus vw (nbg st) (nv_sw v) n' -> bus_of vw (nbg st) (nv_sw v) (nb_id (e_sh st)) n' b' -> same_node vw (nbg st) (nv_sw v) n' n0' ->
      ~ same_node vw (nbg st) (nv_sw v) n n' -> cb_terms b' <> [] -> reads st n0' b' f y -> reads st n0' b' f' y.
Proof.
  intros A neg vw st i v n n0 b x f H HO Hc Hi Hin Hb Hn0 Hne Hx. apply reach_any in H.
  destruct (terms_set_ok neg (cb_terms b) x f Hx) as (f' & E & F1 & F2). exists f'. split; [done|]. split.
  - destruct (find_terminal_ok vw st i v _ n n0 b H Hc Hi Hin Hb Hn0) as (r & st' & Er & H1 & H2 & H3 & R).
    exists r, st'. split; [done|]. split; [|done]. destruct (cb_terms b) as [|t ts]; [done|]. subst r. cbn [cb_get_v]. apply F1. by left.
  - intros n' n0' b' y Hin' Hb' Hn0' Hd Hne' (r & st' & Er & Ey & H'). exists r, st'. split; [done|]. split; [|done]. rewrite <- Ey.
    destruct (cb_terms b') as [|t ts] eqn:Eb'; [done|]. cbn [find_terminal] in Er. injection Er as <- <-. cbn [cb_get_v]. apply F2.
    intros Ht. apply (terms_of _ _ _ _ _ _ _ Hb) in Ht as (m & Hm & Ht).
    assert (t ∈ cb_terms b') as Ht' by (rewrite Eb'; by left). apply (terms_of _ _ _ _ _ _ _ Hb') in Ht' as (m' & Hm' & Ht').
    assert (m = m') as -> by (by eapply HO). apply Hd. etrans; [exact Hm|]. by apply same_node_sym.
Qed.
Print Assumptions C59_set_get_partial.

(** A negative voltage is refused by a bus with terminals, and no value changes. *)
Theorem C59_refused : forall {A} (neg : A -> bool) b (x : option A) f, cb_terms b <> [] ->
  (~ acceptable neg x -> exists m, cb_set_v neg b x f = (Throw m, f)) /\ (acceptable neg x -> exists f', cb_set_v neg b x f = (Ok tt, f')).
Proof.
  intros A neg b x f Hne. split.
  - intros Hx. destruct (check_refused neg x Hx) as [m Hm]. exists m. unfold cb_set_v. destruct (cb_terms b) as [|t ts]; [done|].
    cbn [terms_set]. unfold nt_set_v. by rewrite Hm.
  - intros Hx. destruct (terms_set_ok neg (cb_terms b) x f Hx) as (f' & E & _). by exists f'.
Qed.
Print Assumptions C59_refused.

(** Every bus of the bus view has terminals: there the two conditions hold. *)
Theorem C59_bus_view_terminals : forall s sw vl n b, in_bus BusView s sw n -> bus_of BusView s sw vl n b -> cb_terms b <> [].
Proof.
  intros s sw vl n b [_ Hv] Hb Hn.
  assert (exists t, t ∈ cb_terms b) as [t Ht]; [|rewrite Hn in Ht; by apply elem_of_nil in Ht].
  destruct Hv as [(a & _ & ta & _ & Ha & _ & Hta & _)|(a & _ & ta & _ & _ & Ha & _ & Hta & _)]; exists ta; (eapply terms_of; [exact Hb|]; by exists a).
Qed.
Print Assumptions C59_bus_view_terminals.
(** A voltage set on a bus of the bus view is what every bus-breaker bus inside it answers, with or without terminals; the bus-breaker
    buses outside answer what they answered before. *)
Theorem C59_inside : forall {A} (neg : A -> bool) st i v n b x f,
  nb_reach any_safe st -> one_node (nbg st) -> e_cur st = Some i -> e_vars st !! i = Some v ->
  in_bus BusView (nbg st) (nv_sw v) n -> bus_of BusView (nbg st) (nv_sw v) (nb_id (e_sh st)) n b -> acceptable neg x ->
  exists f', cb_set_v neg b x f = (Ok tt, f') /\
    forall n' n0' b',
      in_bus BusBreakerView (nbg st) (nv_sw v) n' -> bus_of BusBreakerView (nbg st) (nv_sw v) (nb_id (e_sh st)) n' b' ->
      same_node BusBreakerView (nbg st) (nv_sw v) n' n0' ->
      (same_node BusView (nbg st) (nv_sw v) n n' -> reads st n0' b' f' x) /\
      (~ same_node BusView (nbg st) (nv_sw v) n n' -> forall y, reads st n0' b' f y -> reads st n0' b' f' y).
Proof.
  intros A neg st i v n b x f H HO Hc Hi Hin Hb Hx. apply reach_any in H.
  destruct (terms_set_ok neg (cb_terms b) x f Hx) as (f' & E & F1 & F2). exists f'. split; [done|].
  intros n' n0' b' Hin' Hb' Hn0'.
  destruct (find_terminal_ok _ st i v _ n' n0' b' H Hc Hi Hin' Hb' Hn0') as (r & st' & Er & H1 & H2 & H3 & _).
  pose proof (read_near _ st i v _ n' n0' b' r st' H Hc Hi Hin' Hb' Hn0' Er) as RN. split.
  - intros Hs. exists r, st'. split; [done|]. split; [|done]. destruct r as [t|]; cbn [cb_get_v].
    + destruct RN as (m & Hm & Ht). apply F1. eapply terms_of; [exact Hb|]. exists m. split; [|done]. by etrans.
    + exfalso. destruct Hin as [_ Hv].
      destruct Hv as [(a & _ & ta & _ & Ha & _ & Hta & _)|(a & _ & ta & _ & _ & Ha & _ & Hta & _)];
        apply (RN a ta); try done; (etrans; [by apply same_node_sym|exact Ha]).
  - intros Hs y (r' & st1 & Er' & Ey & HR). rewrite Er in Er'. injection Er' as <- <-. exists r, st'. split; [done|]. split; [|done].
    rewrite <- Ey. destruct r as [t|]; [|done]. cbn [cb_get_v]. destruct RN as (m & Hm & Ht). apply F2. intros Hin2.
    apply (terms_of _ _ _ _ _ _ _ Hb) in Hin2 as (m' & Hm' & Ht'). assert (m' = m) as -> by (by eapply HO). apply Hs.
    etrans; [exact Hm'|]. by apply same_node_sym.
Qed.
Print Assumptions C59_inside.

(** A busbar section (node 0), a node without equipment (1) and a line and a load (2, 3), joined by closed retained breakers. *)
Definition vops : list (eop nbop) :=
  [ECall (NAttach 0 (sec "S")); ECall (NAttach 2 (line "L")); ECall (NAttach 3 (load "D")); ECall (NAddSwitch "B1" BREAKER (false, true) 0 1);
   ECall (NAddSwitch "B2" BREAKER (false, true) 1 2); ECall (NAddSwitch "B3" BREAKER (false, false) 2 3)].
Definition nbv : nbst := nb_run nb0 vops.
Lemma nbv_reach : nb_reach any_safe nbv.
Proof. apply nb_run_reach; [safe_ops|apply nb_new_reach]. Qed.
Definition pos_z (z : Z) : bool := (z <? 0)%Z.
Definition all_nan : nterm -> option Z := fun _ => None.
Definition reading (vw : view) (n : nat) (st : nbst) (f : nterm -> option Z) : option (option Z) :=
  match (nb_bus_of_node vw n st).1 with
  | Ok (Some b) => match (find_terminal n (cb_terms b) st).1 with Ok r => Some (cb_get_v r f) | _ => None end
  | _ => None
  end.
Definition setting (vw : view) (n : nat) (st : nbst) (x : option Z) (f : nterm -> option Z) : nterm -> option Z :=
  match (nb_bus_of_node vw n st).1 with
  | Ok (Some b) => (cb_set_v pos_z b x f).2
  | _ => f
  end.
Example C59_case : nb_reach any_safe nbv /\ e_cur nbv = Some initial_variant /\
  (nb_bus_of_node BusBreakerView 1 nbv).1 = Ok (Some (mkCB "VL_1" [])) /\
  (nb_bus_of_node BusBreakerView 3 nbv).1 = Ok (Some (mkCB "VL_2" [line "L"; load "D"])) /\
  (nb_bus_of_node BusView 1 nbv).1 = Ok (Some (mkCB "VL_0" [sec "S"; line "L"; load "D"])) /\
  reading BusBreakerView 1 nbv (setting BusView 2 nbv (Some 400%Z) all_nan) = Some (Some 400%Z) /\
  reading BusBreakerView 3 nbv (setting BusBreakerView 2 nbv (Some 400%Z) all_nan) = Some (Some 400%Z) /\
  reading BusBreakerView 0 nbv (setting BusBreakerView 2 nbv (Some 400%Z) all_nan) = Some None.
Proof. split; [apply nbv_reach|]. split; [reflexivity|]. vm_compute. done. Qed.
Example C59_one_node : one_node (nbg nbv).
Proof.
  assert (map_Forall (fun n o => map_Forall (fun n' o' => o = o' -> o = None \/ n = n') (s_vertices (nbg nbv))) (s_vertices (nbg nbv))) as HF.
  { apply (bool_decide_unpack _). vm_compute. exact I. }
  intros n n' t Hn Hn'. destruct (HF n _ Hn n' _ Hn' eq_refl) as [Hx|Hx]; [discriminate Hx|exact Hx].
Qed.

(** A voltage set on a bus-breaker bus without equipment is lost, even a negative one. *)
Theorem C59_lost_refuted : exists st n b x (f f' : nterm -> option Z) r,
  nb_reach any_safe st /\ (nb_bus_of_node BusBreakerView n st).1 = Ok (Some b) /\ cb_set_v pos_z b (Some x) f = (Ok tt, f') /\ (x < 0)%Z /\
  (find_terminal n (cb_terms b) st).1 = Ok r /\ cb_get_v r f' <> Some x.
Proof.
  exists nbv, 1, (mkCB "VL_1" []), (-1)%Z, all_nan, all_nan, (Some (sec "S")). split; [apply nbv_reach|]. split; [vm_compute; reflexivity|].
  split; [reflexivity|]. split; [reflexivity|]. split; [vm_compute; reflexivity|]. done.
Qed.
Print Assumptions C59_lost_refuted.
(** A voltage set on a bus-breaker bus is what another bus-breaker bus, without equipment, answers. *)
Theorem C59_neighbour_refuted : exists st n n' b b' x (f f' : nterm -> option Z) r,
  nb_reach any_safe st /\ (nb_bus_of_node BusBreakerView n st).1 = Ok (Some b) /\ (nb_bus_of_node BusBreakerView n' st).1 = Ok (Some b') /\
  cb_id b <> cb_id b' /\ cb_set_v pos_z b x f = (Ok tt, f') /\ (find_terminal n' (cb_terms b') st).1 = Ok r /\ cb_get_v r f' <> cb_get_v r f.
Proof.
  exists nbv, 0, 1, (mkCB "VL_0" [sec "S"]), (mkCB "VL_1" []), (Some 400%Z), all_nan, (nt_set (sec "S") (Some 400%Z) all_nan), (Some (sec "S")).
  split; [apply nbv_reach|]. split; [vm_compute; reflexivity|]. split; [vm_compute; reflexivity|]. split; [done|]. split; [reflexivity|].
  split; [vm_compute; reflexivity|]. vm_compute. done.
Qed.
Print Assumptions C59_neighbour_refuted.
(** A voltage set on a bus-breaker bus is not what the bus of the bus view around it answers. *)
Theorem C59_outwards_refuted : exists st n b b' x (f f' : nterm -> option Z) r,
  nb_reach any_safe st /\ (nb_bus_of_node BusBreakerView n st).1 = Ok (Some b) /\ cb_terms b <> [] /\ (nb_bus_of_node BusView n st).1 = Ok (Some b') /\
  cb_set_v pos_z b x f = (Ok tt, f') /\ (find_terminal n (cb_terms b') st).1 = Ok r /\ cb_get_v r f' <> x.
Proof.
  exists nbv, 2, (mkCB "VL_2" [line "L"; load "D"]), (mkCB "VL_0" [sec "S"; line "L"; load "D"]), (Some 400%Z), all_nan,
    (nt_set (load "D") (Some 400%Z) (nt_set (line "L") (Some 400%Z) all_nan)), (Some (sec "S")).
  split; [apply nbv_reach|]. split; [vm_compute; reflexivity|]. split; [done|]. split; [vm_compute; reflexivity|]. split; [reflexivity|].
  split; [vm_compute; reflexivity|]. vm_compute. done.
Qed.
Print Assumptions C59_outwards_refuted.

(** ** Bus-breaker voltage levels *)
(** setV on a merged bus: it answers the value set, so does every configured bus inside it; the other configured buses and the other
    merged buses answer what they answered before.  Histories as for C33. *)
Theorem C59_merged_partial : forall {A} (neg : A -> bool) st v b k st1 x f,
  bb_reach bb_safe st -> working st v -> well_numbered st -> is_bus (e_sh st) b -> bb_merged b st = (Ok (Some k), st1) -> acceptable neg x ->
  exists us f', bb_by_id k st1 = (Ok (Some us), st1) /\ merged_set neg us x f = (Ok tt, f') /\ merged_get us f' = x /\
    (forall u b', bb_live (e_sh st) !! u = Some b' -> same_bus (e_sh st) v b b' -> f' u = x) /\
    (forall u b', bb_live (e_sh st) !! u = Some b' -> ~ same_bus (e_sh st) v b b' -> f' u = f u) /\
    (forall b' k' us', is_bus (e_sh st) b' -> bb_merged b' st1 = (Ok (Some k'), st1) -> k' <> k -> bb_by_id k' st1 = (Ok (Some us'), st1) ->
       merged_get us' f' = merged_get us' f).
Proof.
  intros A neg st v b k st1 x f H W WN Hb E1 Hx.
  destruct (C33_members_partial st v b k st1 H W WN Hb E1) as (us & Eu & ND & HM).
  destruct (merged_set_ok neg us x f Hx) as (f' & Ef & F1 & F2). exists us, f'. split; [done|]. split; [done|].
  assert (us <> []) as Hne.
  { destruct Hb as [u Hu]. assert (u ∈ us) as Hin; [apply HM; exists b; split; [done|apply rtc_refl]|]. intros ->. by apply elem_of_nil in Hin. }
  split; [by apply merged_get_all|].
  split. { intros u b' Hl Hs. apply F1, HM. eauto. }
  split. { intros u b' Hl Hs. apply F2. intros (b2 & Hl' & Hs')%HM. assert (b2 = b') as -> by congruence. done. }
  intros b' k' us' Hb' E2 Hk Eu'. apply merged_get_ext. intros u Hu. apply F2. intros (b2 & Hl2 & Hs2)%HM.
  pose proof (reach_binv _ H) as HB. destruct (merged_cached st v b HB WN W Hb) as (c & st' & w & E & C & L). rewrite E1 in E. injection E as Ek <-.
  destruct (merged_again st v c st1 b' C Hb') as (w' & E & L'). rewrite E2 in E. injection E as Ek'.
  pose proof C as (_ & _ & CG & _). destruct (good_members (e_sh st) v c w' b' k' (bi_sh _ HB) CG L' (eq_sym Ek')) as (us2 & Hus2 & _ & HM2).
  assert (us2 = us') as ->.
  { unfold bb_by_id in Eu'. rewrite (abind_Ok _ _ _ _ _ (cached_cache _ _ _ _ C)), Hus2 in Eu'. by injection Eu'. }
  apply HM2 in Hu as (b3 & Hl3 & Hs3). assert (b3 = b2) as -> by congruence. apply Hk. symmetry.
  apply (proj2 (C33_same_partial st v b b' k k' st1 st1 H W WN Hb Hb' E1 E2)). etrans; [exact Hs2|].
  eapply rtc_sym; [|exact Hs3]. intros p q (s1 & e & x1 & x2 & u1 & u2 & Hj & Ho & ?). exists s1, e, x2, x1, u2, u1. split; [unfold sjoins in *; tauto|]. naive_solver.
Qed.
Print Assumptions C59_merged_partial.
(** Configured buses refuse a negative voltage, and so does every merged bus; no value changes. *)
Theorem C59_merged_refused : forall {A} (neg : A -> bool) (x : option A) f, ~ acceptable neg x ->
  (forall u, exists m, conf_set neg u x f = (Throw m, f)) /\
  (forall st v b k st1, bb_reach bb_safe st -> working st v -> well_numbered st -> is_bus (e_sh st) b -> bb_merged b st = (Ok (Some k), st1) ->
     exists us m, bb_by_id k st1 = (Ok (Some us), st1) /\ merged_set neg us x f = (Throw m, f)).
Proof.
  intros A neg x f Hx. destruct (check_refused neg x Hx) as [m Hm].
  assert (forall u, conf_set neg u x f = (Throw m, f)) as HC by (intros u; unfold conf_set; by rewrite Hm).
  split; [intros u; by exists m|]. intros st v b k st1 H W WN Hb E1.
  destruct (C33_members_partial st v b k st1 H W WN Hb E1) as (us & Eu & ND & HM). exists us, m. split; [done|].
  destruct us as [|u us]; [|cbn [merged_set]; by rewrite HC].
  destruct Hb as [u Hu]. assert (u ∈ []) as Hin; [apply HM; exists b; split; [done|apply rtc_refl]|]. by apply elem_of_nil in Hin.
Qed.
Print Assumptions C59_merged_refused.
(** The other way round it fails: a voltage set on a configured bus is not what its merged bus answers when another one has a value. *)
Definition zeros : nat -> option Z := fun _ => Some 1%Z.
Theorem C59_configured_refuted : exists st b k us u x (f f' : nat -> option Z),
  bb_reach bb_safe st /\ well_numbered st /\ is_bus (e_sh st) b /\ bb_live (e_sh st) !! u = Some b /\ (bb_merged b st).1 = Ok (Some k) /\
  (bb_by_id k st).1 = Ok (Some us) /\ conf_set pos_z u x f = (Ok tt, f') /\ merged_get us f' <> x.
Proof.
  exists bb1, "B", "VL_0", [0; 1], 1, (Some 400%Z), zeros, (fun u' => if decide (u' = 1) then Some 400%Z else zeros u').
  split; [apply bb1_safe|]. split; [apply bb1_numbered|]. split; [exists 1; vm_compute; reflexivity|]. split; [vm_compute; reflexivity|].
  split; [vm_compute; reflexivity|]. split; [vm_compute; reflexivity|]. split; [reflexivity|]. vm_compute. done.
Qed.
Print Assumptions C59_configured_refuted.
Example C59_merged_case : bb_reach bb_safe bb1 /\ well_numbered bb1 /\ (bb_merged "B" bb1).1 = Ok (Some "VL_0") /\ (bb_by_id "VL_0" bb1).1 = Ok (Some [0; 1]) /\
  exists f', merged_set pos_z [0; 1] (Some 400%Z) zeros = (Ok tt, f') /\ f' 0 = Some 400%Z /\ f' 1 = Some 400%Z /\ f' 2 = Some 1%Z.
Proof.
  split; [apply bb1_safe|]. split; [apply bb1_numbered|]. split; [vm_compute; reflexivity|]. split; [vm_compute; reflexivity|]. eexists. split; [reflexivity|]. vm_compute. done.
Qed.
Example C59_refused_case : ~ acceptable pos_z (Some (-1)%Z) /\ acceptable pos_z (Some 0%Z) /\ acceptable pos_z None /\
  (exists m, merged_set pos_z [0; 1] (Some (-1)%Z) zeros = (Throw m, zeros)) /\
  (exists m, cb_set_v pos_z (mkCB "VL_0" [sec "S"; line "L"; load "D"]) (Some (-1)%Z) all_nan = (Throw m, all_nan)).
Proof.
  split; [intros H; by specialize (H _ eq_refl)|]. split; [by intros a [= <-]|]. split; [done|]. split; eexists; reflexivity.
Qed.
