(** C66: the buses found by id in the views of a network; C67: the references to calculated buses. *)
From stdpp Require Import gmap pretty.
From Verif Require Import Base Graph Equip NodeTopo BusTopo NetViews NetViewsSpec NetViewsProofs NetViewsSteps.

Lemma reach_works {T C} (st : vst T C) : base st -> e_cur st = None \/ exists i v, e_cur st = Some i /\ e_vars st !! i = Some v.
Proof. intros B. destruct (e_cur st) as [i|] eqn:Hc; [right|by left]. destruct (proj2 (b_wf _ B) i Hc) as [v Hv]. eauto. Qed.

(** ** C66 *)
(** Whatever happened before, getBusView().getBus(id) of the network gives a bus that can be read, or none; only caches change.  Without
    working variant it throws and nothing changes. *)
Theorem C66_safe : forall {T C} (calc : view -> string -> T -> gmap string C) st id, vreach calc any st ->
  e_cur st = None /\ net_read calc BusView id st = (Throw "Variant index not set", st) \/
  exists o st', net_read calc BusView id st = (Ok o, st') /\ only_caches st st'.
Proof.
  intros T C calc st id R. apply reach_base in R as B. destruct (reach_works st B) as [Hc|(i & v & Hc & Hi)].
  - left. split; [done|]. unfold net_read, net_bus, net_cache. unfold abind at 1, abind at 1, ashared. cbn [fst snd]. rewrite bool_decide_eq_false_2 by (by intros [? _]).
    by rewrite (abind_Throw _ _ _ _ _ (no_variant _ st Hc)).
  - right. destruct (net_bus_ok calc BusView id st i v B Hc Hi) as (o & st' & v' & E & B' & S & Hi' & _ & _ & [(? & _)|(_ & m & Hm & ->)]); [done|].
    unfold net_read. rewrite (abind_Ok _ _ _ _ _ E). destruct (m !! id) as [a|] eqn:Ha; cbn [fmap option_fmap option_map].
    + destruct (b_bus _ B' i v' Hi' m id a Hm Ha) as (Ea & vl & b & nb & Hn & Hv & Hl & Hb & [c Hx]).
      rewrite (abind_Ok _ _ _ c st'); [|unfold deref; by rewrite Hb, Ea, Hx]. exists (Some c), st'. split; [done|by apply swells_only].
    + exists None, st'. split; [done|by apply swells_only].
Qed.
Print Assumptions C66_safe.

Lemma answer {T C} (calc : view -> string -> T -> gmap string C) (P : Prop) vw st v id : named calc -> base st -> fresh calc P clean st -> (vw = BusBreakerView -> P) -> works st v ->
  (vw = BusBreakerView -> id ∉ vs_conf (e_sh st)) ->
  exists o st', net_read calc vw id st = (Ok o, st') /\ only_caches st st' /\ forall c, o = Some c <-> bus_here calc vw st v id c.
Proof.
  intros N B F HP (i & Hc & Hi) Hid. destruct (net_bus_ok calc vw id st i v B Hc Hi) as (o & st' & v' & E & B' & S & Hi' & _ & HF & [(? & ? & _)|(_ & m & Hm & ->)]); [naive_solver|].
  specialize (HF N P F). unfold net_read. rewrite (abind_Ok _ _ _ _ _ E).
  assert (vv_topo v' = vv_topo v) as Et. { pose proof (w_vars _ _ S i) as H. rewrite Hi, Hi' in H. inversion H; subst. naive_solver. }
  assert (entries vw st' v' /\ complete calc vw st' v') as [En Cm].
  { destruct vw; [split; [by apply (b_bus _ B' i)|apply (f_bus _ _ _ _ HF i); [done|by intros ? ?]]|]. by apply (f_bb _ _ _ _ HF (HP eq_refl) i). }
  assert (forall a, m !! id = Some a -> exists c, deref a st' = (Ok c, st') /\ bus_here calc vw st v id c /\ forall c', bus_here calc vw st v id c' -> c' = c) as HA.
  { intros a Ha. destruct (En m id a Hm Ha) as (Ea & vl & b & nb & Hn & Hv & Hl & Hb & [c Hx]). exists c. split; [unfold deref; by rewrite Hb, Ea, Hx|].
    destruct (proj2 (b_topo _ B' i v' vl Hi') ltac:(eauto)) as [t Ht].
    pose proof (f_lev _ _ _ _ HF i v' vl vw a.1 t Hi' Hl Ht (fun H => H)) as H. rewrite Hb in H. injection H as ->. rewrite (w_nb _ _ S) in Hn. rewrite Et in Ht. split.
    - exists vl, nb, t. split; [done|]. split; [|done]. intros ->. exact Hv.
    - intros c' (vl' & nb' & t' & Hn' & Hv' & Ht' & Hc'). assert (vl = vl') as <- by (eapply (named_level calc vw vw); eauto). congruence. }
  destruct (m !! id) as [a|] eqn:Ha; cbn [fmap option_fmap option_map].
  - destruct (HA a eq_refl) as (c & Ed & Hb & HU). rewrite (abind_Ok _ _ _ _ _ Ed). exists (Some c), st'. split; [done|]. split; [by apply swells_only|].
    intros c'. split; [by intros [= <-]|]. intros H. f_equal. symmetry. by apply HU.
  - exists None, st'. split; [done|]. split; [by apply swells_only|]. intros c. split; [done|]. intros (vl & nb & t & Hn & Hv & Ht & Hcalc). exfalso.
    rewrite <- (w_nb _ _ S) in Hn. rewrite <- Et in Ht. destruct (Cm m vl nb t id c Hm Hn) as (g & _ & Hg); [by destruct vw; [|apply Hv]|done|done|]. congruence.
Qed.

(** getBusView().getBus(id) of the network finds the bus [id] of the current topology of some level, with its contents, and nothing else:
    whatever was asked before, in whatever variant.  [named]: a calculated bus is named after its level. *)
Theorem C66_bus_view_partial : forall {T C} (calc : view -> string -> T -> gmap string C) st v id,
  named calc -> vreach calc (fresh_safe calc) st -> works st v ->
  exists o st', net_read calc BusView id st = (Ok o, st') /\ only_caches st st' /\ forall c, o = Some c <-> bus_here calc BusView st v id c.
Proof. intros T C calc st v id N R W. eapply (answer calc False); [done|by eapply reach_base|by apply reach_fresh|done|done|done]. Qed.
Print Assumptions C66_bus_view_partial.

(** getBusBreakerView().getBus(id): a configured bus is found in the index. *)
Theorem C66_configured : forall {T C} (calc : view -> string -> T -> gmap string C) (st : vst T C) id,
  id ∈ vs_conf (e_sh st) -> net_bus calc BusBreakerView id st = (Ok (Some (FConf id)), st).
Proof. intros T C calc st id H. unfold net_bus. rewrite (abind_Ok ashared _ st (e_sh st) st eq_refl). by rewrite bool_decide_eq_true_2. Qed.
Print Assumptions C66_configured.
(** ... and a bus of a node-breaker level as above, only as long as no topology changes in a variant after a search in this view. *)
Theorem C66_bus_breaker_partial : forall {T C} (calc : view -> string -> T -> gmap string C) st v id,
  named calc -> vreach calc (still_safe calc) st -> works st v -> id ∉ vs_conf (e_sh st) ->
  exists o st', net_read calc BusBreakerView id st = (Ok o, st') /\ only_caches st st' /\ forall c, o = Some c <-> bus_here calc BusBreakerView st v id c.
Proof. intros T C calc st v id N R W Hid. eapply (answer calc True); [done|by eapply reach_base|by apply reach_still|done|done|done]. Qed.
Print Assumptions C66_bus_breaker_partial.

Lemma hit {T C} (calc : view -> string -> T -> gmap string C) vw (st : vst T C) i v m : e_cur st = Some i -> e_vars st !! i = Some v -> net_cached vw v = Some m -> net_cache calc vw st = (Ok m, st).
Proof. intros Hc Hi Hm. unfold net_cache. rewrite (abind_Ok _ _ _ _ _ (aget_here _ _ _ Hc Hi)). by rewrite Hm. Qed.
(** Otherwise the answer is a bus that no longer exists: BusBreakerView::invalidateCache resets the cache of the other view. *)
Theorem C66_dangling : forall {T C} (calc : view -> string -> T -> gmap string C) st st1 i vl id a c t,
  vreach calc any st -> net_bus calc BusBreakerView id st = (Ok (Some (FCalc a)), st1) -> e_cur st = Some i -> bus_ref st1 i vl BusBreakerView a c ->
  exists st2, vstep calc st1 (ECall (VChange vl t)) = (Ok tt, st2) /\
    net_bus calc BusBreakerView id st2 = (Ok (Some (FCalc a)), st2) /\ net_read calc BusBreakerView id st2 = (UB, st2).
Proof.
  intros T C calc st st1 i vl id a c t R E Hc HR. apply reach_base in R as B. destruct (proj2 (b_wf _ B) i Hc) as [v Hi].
  destruct (net_bus_ok calc BusBreakerView id st i v B Hc Hi) as (o & st' & v' & E' & B' & S & Hi' & _ & _ & D). rewrite E in E'. injection E' as <- <-.
  destruct D as [(_ & _ & ? & _)|(Hid & m & Hm & Ha)]; [done|]. pose proof HR as (w & b & Hw & Hl & _). rewrite Hi' in Hw. injection Hw as <-.
  assert (e_cur st1 = Some i) as Hc1 by (by rewrite (w_cur _ _ S)). assert (is_Some (vs_nb (e_sh st1) !! vl)) as Hn by (by eapply (b_lev _ B')).
  pose proof (step_kills calc st1 (ECall (VChange vl t)) i vl BusBreakerView a c B' HR (conj eq_refl Hc1)) as HD.
  change (vstep calc st1 (ECall (VChange vl t))) with (vcall calc (VChange vl t) st1) in *. rewrite (change_ok calc vl t st1 i v' Hn Hc1 Hi') in *.
  set (st2 := changed _ _ _ _ _) in *. exists st2. specialize (HD eq_refl). cbn [snd] in HD.
  assert (net_bus calc BusBreakerView id st2 = (Ok (Some (FCalc a)), st2)) as E2.
  { unfold net_bus. rewrite (abind_Ok ashared _ st2 (e_sh st2) st2 eq_refl). rewrite bool_decide_eq_false_2 by (change (vs_conf (e_sh st2)) with (vs_conf (e_sh st1)); by rewrite (w_conf _ _ S)).
    rewrite (abind_Ok _ _ _ m st2); [by rewrite Ha|]. eapply (hit calc BusBreakerView st2 i); [done|unfold st2, changed; cbn [e_vars]; by rewrite lookup_insert|exact Hm]. }
  split; [done|]. split; [done|]. unfold net_read. rewrite (abind_Ok _ _ _ _ _ E2). unfold abind. by rewrite (deref_dead _ _ HD).
Qed.
Print Assumptions C66_dangling.

(** ** C67 *)
(** A bus found in a level, or by its id in the bus view of the network, is a bus of that level (of some level) in the working variant. *)
Theorem C67_given : forall {T C} (calc : view -> string -> T -> gmap string C) st i,
  vreach calc any st -> e_cur st = Some i ->
  (forall vw vl id a st', is_Some (vs_nb (e_sh st) !! vl) -> level_bus calc vw vl id st = (Ok (Some a), st') -> a.2 = id /\ exists c, bus_ref st' i vl vw a c) /\
  (forall id a st', net_bus calc BusView id st = (Ok (Some (FCalc a)), st') -> a.2 = id /\ exists vl c, bus_ref st' i vl BusView a c).
Proof.
  intros T C calc st i R Hc. apply reach_base in R as B. destruct (proj2 (b_wf _ B) i Hc) as [v Hi]. split.
  - intros vw vl id a st' Hn E. destruct (level_bus_ok calc vw vl id st i v B Hc Hi Hn) as (o & st1 & E1 & _ & _ & _ & H & _). rewrite E in E1. injection E1 as <- <-. by apply H.
  - intros id a st' E. destruct (net_bus_ok calc BusView id st i v B Hc Hi) as (o & st1 & v' & E' & B' & S & Hi' & _ & _ & D). rewrite E in E'. injection E' as <- <-.
    destruct D as [(? & _)|(_ & m & Hm & Ha)]; [done|]. symmetry in Ha. apply fmap_Some in Ha as (a' & Ha & [= <-]).
    destruct (b_bus _ B' i v' Hi' m id a Hm Ha) as (Ea & vl & b & nb & Hn & Hv & Hl & Hb & [c Hx]). split; [done|]. exists vl, c, v', b. rewrite Ea. done.
Qed.
Print Assumptions C67_given.

(** It can be read, and gives the same contents, until the topology of this level changes in this variant or this variant is overwritten
    or removed. *)
Theorem C67_kept : forall {T C} (calc : view -> string -> T -> gmap string C) st o i vl vw a c,
  vreach calc any st -> bus_ref st i vl vw a c -> ~ touches st o i vl ->
  bus_ref (vstep calc st o).2 i vl vw a c /\ deref a (vstep calc st o).2 = (Ok c, (vstep calc st o).2).
Proof.
  intros T C calc st o i vl vw a c R HR NT. assert (bus_ref (vstep calc st o).2 i vl vw a c) as H by (apply step_keeps; [by eapply reach_base|done|done]).
  split; [done|]. by eapply deref_ref.
Qed.
Print Assumptions C67_kept.

(** Then it no longer exists and never will again: reading it is undefined behaviour, not the exception "Bus has been invalidated". *)
Theorem C67_destroyed : forall {T C} (calc : view -> string -> T -> gmap string C) st o i vl vw a c st',
  vreach calc any st -> bus_ref st i vl vw a c -> touches st o i vl -> (vstep calc st o).1 = Ok tt -> later calc (vstep calc st o).2 st' ->
  deref a st' = (UB, st') /\ forall j vl' vw' c', ~ bus_ref st' j vl' vw' a c'.
Proof.
  intros T C calc st o i vl vw a c st' R HR NT E HL. apply reach_base in R as B. pose proof (step_kills calc st o i vl vw a c B HR NT E) as HD.
  pose proof (proj1 (step_ok calc st o B)) as B1. assert (dead st' a) as HD'.
  { clear -HL HD B1. revert B1 HD. induction HL as [x|x y z (o' & ->) _ IH]; [done|]. intros B1 HD. apply IH; [by apply step_ok|by apply step_dead]. }
  split; [by apply deref_dead|]. intros j vl' vw' c' (v & m & _ & _ & Hm & _). destruct HD' as [HN _]. congruence.
Qed.
Print Assumptions C67_destroyed.

(** ** Cases: the buses that a node-breaker level calculates (NodeTopo.v) *)
Definition topo : Type := graph nterm string * gmap string (bool * bool).
Definition node_breaker (vw : view) (vl : string) (t : topo) : gmap string cbus := match (compute_cache vw vl t.2 t.1).2 with Ok c => bc_id c | _ => ∅ end.
Lemma edges_named vw vl sw l : forall g enc c g' enc' c', tt_edges vw vl sw l g (enc, c) = (g', Ok (enc', c')) ->
  (forall k, is_Some (bc_id c !! k) -> exists n : N, k = vl +:+ "_" +:+ pretty n) -> forall k, is_Some (bc_id c' !! k) -> exists n : N, k = vl +:+ "_" +:+ pretty n.
Proof.
  assert (forall g v enc c g' enc' c', tt_traverse vw vl sw g v (enc, c) = (g', Ok (enc', c')) ->
    (forall k, is_Some (bc_id c !! k) -> exists n : N, k = vl +:+ "_" +:+ pretty n) -> forall k, is_Some (bc_id c' !! k) -> exists n : N, k = vl +:+ "_" +:+ pretty n) as HT.
  { intros g v enc c g' enc' c' E H. unfold tt_traverse in E. cbn [fst snd] in E. destruct (enc !! v) as [[]|]; [by injection E as <- <- <-| |done].
    destruct (g_traverse_enc _ g v enc _) as [g1 r]. injection E as <- E. destruct r as [[e [vs| | |]]| | |]; cbn [result_bind fst snd] in E; try done.
    unfold add_bus in E. destruct vs as [|n ns]; [done|]. cbn [bus_id result_bind] in E. destruct (collect_terms _ _) as [ts| | |]; cbn [result_bind] in E; try done.
    destruct (is_bus_valid _ _ _); cbn [result_bind] in E; [|by injection E as <- <-].
    destruct (set_nodes _ _ _) as [l'| | |]; cbn [result_bind] in E; try done. injection E as <- <-. cbn [bc_id].
    set (k0 := vl +:+ "_" +:+ pretty (N.of_nat (foldl Nat.min n ns))). destruct (bc_id c !! k0); [done|]. intros k. rewrite lookup_insert_is_Some. intros [<-|[_ Hk]]; [|by apply H]. eexists. reflexivity. }
  induction l as [|e l IH]; intros g enc c g' enc' c' E H; cbn [tt_edges] in E; [by injection E as <- <- <-|].
  destruct (g_vertex1 g e) as [v1| | |]; try done. destruct (tt_traverse vw vl sw g v1 (enc, c)) as [g1 [[enc1 c1]| | |]] eqn:E1; try done.
  destruct (g_vertex2 g1 e) as [v2| | |]; try done. destruct (tt_traverse vw vl sw g1 v2 (enc1, c1)) as [g2 [[enc2 c2]| | |]] eqn:E2; try done.
  eapply IH; [exact E|]. eapply HT; [exact E2|]. eapply HT; [exact E1|done].
Qed.
Lemma node_breaker_named : named node_breaker.
Proof.
  intros vw vl [g sw] id. unfold node_breaker, compute_cache. cbn [fst snd]. destruct (tt_edges vw vl sw _ g _) as [g' [[enc c]| | |]] eqn:E; [|intros [x H]; change ((∅ : gmap string cbus) !! id = Some x) in H; by rewrite lookup_empty in H..].
  change (is_Some (bc_id c !! id) -> exists n : N, id = vl +:+ "_" +:+ pretty n).
  revert id. eapply edges_named; [exact E|]. intros k [? H]. cbn [bc_id] in H. by rewrite lookup_empty in H.
Qed.

Definition vrun (l : list (eop (vop topo))) : vst topo cbus := foldl (fun st o => (vstep node_breaker st o).2) vnew l.
Fixpoint vsafe (safe : vst topo cbus -> eop (vop topo) -> Prop) (st : vst topo cbus) (l : list (eop (vop topo))) : Prop :=
  match l with [] => True | o :: l' => safe st o /\ vsafe safe (vstep node_breaker st o).2 l' end.
Lemma vrun_reach safe l : vsafe safe vnew l -> vreach node_breaker safe (vrun l).
Proof.
  unfold vrun. assert (vreach node_breaker safe (vnew : vst topo cbus)) as H by apply vr_new. revert H. generalize (vnew : vst topo cbus). induction l as [|o l IH]; intros st H; [done|].
  cbn [vsafe foldl]. intros [Hs Hl]. apply IH; [by apply vr_step|done].
Qed.
(** A level with a busbar section, a load and a breaker between them. *)
Definition run66 (l : list nbop) : nbst := foldl (fun st o => (nb_step st o).2) (nb_new "VL" ∅ {[initial_variant]} (Some initial_variant)) (ECall <$> l).
Definition level66 (p : bool * bool) : topo :=
  (nb_graph (e_sh (run66 [NAttach 0 (mkNT "S" 0 BUSBAR_SECTION); NAttach 1 (mkNT "L" 0 LINE); NAddSwitch "B" BREAKER p 0 1])), {["B" := p]}).
Definition bus66 (k : string) (ts : list nterm) : cbus := mkCB k ts.
Definition ops66 : list (eop (vop topo)) :=
  [ECall (VAddLevel "VL" true (g_init, ∅)); ECall (VAttach "VL" (fun _ => level66 (false, true))); ECall (VNetBus BusView "VL_0");
   EClone initial_variant "V" false; ECall (VNetBus BusBreakerView "VL_1")].
Lemma init66 vw : node_breaker vw "VL" (g_init, ∅) = ∅.
Proof. by destruct vw. Qed.
Ltac run_state := match goal with |- context [e_vars ?st] => let x := eval vm_compute in (e_vars st) in change (e_vars st) with x end.
Lemma no_bb (st : vst topo cbus) : bool_decide (map_Forall (fun _ v => vv_bb v = None) (e_vars st)) = true -> forall i v, e_vars st !! i = Some v -> vv_bb v = None.
Proof. intros H i v Hv. apply bool_decide_eq_true in H. by eapply H. Qed.
Lemma ops66_still : vreach node_breaker (still_safe node_breaker) (vrun ops66).
Proof.
  apply vrun_reach. cbn [vsafe ops66]. split; [split; [intros vw; apply init66|exact I]|]. split; [split; [by vm_compute|apply no_bb; vm_compute; reflexivity]|].
  repeat (split; [split; exact I|]). exact I.
Qed.
Lemma still_fresh {T C} (calc : view -> string -> T -> gmap string C) st : vreach calc (still_safe calc) st -> vreach calc (fresh_safe calc) st.
Proof. induction 1; [apply vr_new|]. apply vr_step; [done|]. match goal with H : still_safe _ _ _ |- _ => by destruct H end. Qed.
Lemma fresh_any {T C} (calc : view -> string -> T -> gmap string C) st : vreach calc (fresh_safe calc) st -> vreach calc any st.
Proof. induction 1; [apply vr_new|]. by apply vr_step. Qed.
(** The breaker is closed and retained: one bus in the bus view, two in the other; then it opens. *)
Definition st66 : vst topo cbus := vrun ops66.
Definition ops66' : list (eop (vop topo)) := ops66 ++ [ECall (VChange "VL" (level66 (true, true)))].
Definition st66' : vst topo cbus := vrun ops66'.
Example C66_case :
  vreach node_breaker (still_safe node_breaker) st66 /\ vs_nb (e_sh st66) !! "VL" = Some true /\ e_cur st66 = Some initial_variant /\
  (net_read node_breaker BusView "VL_0" st66).1 = Ok (Some (mkCB "VL_0" [mkNT "S" 0 BUSBAR_SECTION; mkNT "L" 0 LINE])) /\
  (net_read node_breaker BusView "VL_1" st66).1 = Ok None /\
  (net_read node_breaker BusBreakerView "VL_1" st66).1 = Ok (Some (mkCB "VL_1" [mkNT "L" 0 LINE])).
Proof. split; [apply ops66_still|]. vm_compute. done. Qed.
(** After the breaker has opened: the bus view is right, a search in the bus-breaker view gives a destroyed bus. *)
Theorem C66_bus_breaker_refuted : exists st v id c,
  vreach node_breaker (fresh_safe node_breaker) st /\ works st v /\ id ∉ vs_conf (e_sh st) /\
  bus_here node_breaker BusBreakerView st v id c /\ (net_read node_breaker BusBreakerView id st).1 = UB.
Proof.
  assert (is_Some (e_vars st66' !! initial_variant)) as [v Hv] by (apply (bool_decide_unpack _); vm_compute; exact I).
  assert ((vv_topo <$> e_vars st66' !! initial_variant) ≫= (fun m => m !! "VL" ≫= fun t => node_breaker BusBreakerView "VL" t !! "VL_0") = Some (mkCB "VL_0" [mkNT "S" 0 BUSBAR_SECTION])) as Ht by (vm_compute; reflexivity).
  rewrite Hv in Ht. cbn [fmap option_fmap option_map mbind option_bind] in Ht.
  exists st66', v, "VL_0", (mkCB "VL_0" [mkNT "S" 0 BUSBAR_SECTION]). split.
  - unfold st66', ops66'. apply vrun_reach. cbn [vsafe app ops66]. split; [intros vw; apply init66|]. split; [by vm_compute|]. repeat (split; [exact I|]). exact I.
  - split; [exists initial_variant; split; [vm_compute; reflexivity|exact Hv]|]. clear Hv. split; [apply (bool_decide_unpack _); vm_compute; exact I|]. split; [|vm_compute; reflexivity].
    destruct (vv_topo v !! "VL") as [t|] eqn:Et; [|discriminate Ht]. exists "VL", true, t. split; [vm_compute; reflexivity|]. split; [done|]. split; [exact Et|exact Ht].
Qed.
Print Assumptions C66_bus_breaker_refuted.
(** A reference of each view, before the change. *)
Example C67_case :
  vreach node_breaker any st66 /\
  (exists g h a b, bus_ref st66 initial_variant "VL" BusView (g, "VL_0") a /\ bus_ref st66 initial_variant "VL" BusBreakerView (h, "VL_1") b /\
   (deref (g, "VL_0") st66').1 = UB /\ (deref (h, "VL_1") st66').1 = UB) /\
  (vstep node_breaker st66 (ECall (VChange "VL" (level66 (true, true))))).1 = Ok tt /\
  touches st66 (ECall (VChange "VL" (level66 (true, true)))) initial_variant "VL" /\ ~ touches st66 (ERemove "V") initial_variant "VL".
Proof.
  split; [apply fresh_any, still_fresh, ops66_still|]. split.
  - assert (is_Some (e_vars st66 !! initial_variant)) as [v Hv] by (apply (bool_decide_unpack _); vm_compute; exact I).
    assert (forall k, (vv_lev <$> e_vars st66 !! initial_variant) ≫= (fun L => L !! k) = vv_lev v !! k) as HL by (intros k; by rewrite Hv).
    exists 0, 1, (mkCB "VL_0" [mkNT "S" 0 BUSBAR_SECTION; mkNT "L" 0 LINE]), (mkCB "VL_1" [mkNT "L" 0 LINE]). split; [|split].
    + exists v. eexists. split; [exact Hv|]. rewrite <- HL. clear Hv HL. split; [vm_compute; reflexivity|]. split; vm_compute; reflexivity.
    + exists v. eexists. split; [exact Hv|]. rewrite <- HL. clear Hv HL. split; [vm_compute; reflexivity|]. split; vm_compute; reflexivity.
    + clear. split; vm_compute; reflexivity.
  - split; [vm_compute; reflexivity|]. split; [split; [done|vm_compute; reflexivity]|]. cbn. discriminate.
Qed.
