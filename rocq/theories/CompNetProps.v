(** C45: the component reported for a bus is the one of the current topology. *)
From stdpp Require Import gmap relations sorting.
From Verif Require Import Base Equip Components ComponentsProofs CompNetSpec CompNetProofs CompNetLinks CompNetInv CompNetStep CompNetQuery.

(** bus.getConnectedComponent() ([hv] true) or bus.getSynchronousComponent() in the working variant, of the configured bus with id [b], or of a calculated
    bus whose reference terminal is the one of node [b]. *)
Definition component_of order (hv : bool) (b : string) (st : cst) : result (option nat) * cst := on_var (bus_component order hv (e_sh st) b) st.

(** *** C45.  After every history of the operations (with the restrictions of [csafe]), asking the components of two places of the working variant (configured
    buses, or nodes with a terminal), one after the other, answers without an error.  A place has a component exactly when it is energised, and two places
    have the same component exactly when they are electrically connected in the current topology and both are energised.  (A configured bus electrically
    connected to an energised one is energised; a node need not be: the end of a line alone on its node has no bus.)
    [strict = false]: the synchronous components; [strict = true]: both.  Not proved, because false: closed switches and HVDC lines added or removed
    while components are computed, internal connections while they are computed in another variant (see the refutations below). *)
Theorem C45_current_partial order (sorted : forall r, sorted_components r (order r)) strict hv st v a b : creach order (csafe strict) st -> hv = false \/ strict = true -> cworking st v ->
  askable (e_sh st) a -> askable (e_sh st) b ->
  exists o o' st1 st2, component_of order hv a st = (Ok o, st1) /\ component_of order hv b st1 = (Ok o', st2) /\
    (is_Some o <-> energised (e_sh st) v a) /\ (is_Some o' <-> energised (e_sh st) v b) /\
    (energised (e_sh st) v a -> (o = o' <-> electrical hv (e_sh st) v a b /\ energised (e_sh st) v b)).
Proof.
  intros Hr Hm (i & Hi & Hv) Aa%slot_true Ab%slot_true. apply (reach_good order sorted) in Hr as [W E]. apply E in Hv as I.
  destruct (bus_component_ok order sorted (covers strict) hv (e_sh st) v a Hm I W Aa) as (v1 & num & sz & o & E1 & I1 & S1 & Ec & _ & R & H1).
  destruct (bus_component_ok order sorted (covers strict) hv (e_sh st) v1 b Hm I1 W Ab) as (v2 & num' & sz' & o' & E2 & I2 & S2 & Ec' & _ & R' & H2).
  rewrite (compute_same order hv _ v v1 _ S1), (bview_same _ v v1 S1), Ec in Ec'. injection Ec' as <- <-.
  assert (right_component hv (e_sh st) v num b o') as H2' by (unfold right_component in *; by rewrite (bview_same _ v v1 S1) in H2).
  eexists o, o', _, _. split; [|split; [|split_and!]].
  - unfold component_of, on_var. rewrite Hi, Hv, E1. cbn. reflexivity.
  - unfold component_of, on_var. cbn. rewrite lookup_insert. rewrite E2. cbn. reflexivity.
  - by eapply known_component.
  - by eapply known_component.
  - by eapply component_eq.
Qed.
Print Assumptions C45_current_partial.

(** *** The component asked through a terminal: terminal.getBusView().getBus(), then its component. *)
Theorem C45_terminal_partial order (sorted : forall r, sorted_components r (order r)) strict hv st v e i k bs b : creach order (csafe strict) st -> hv = false \/ strict = true -> cworking st v ->
  cs_eq (e_sh st) !! e = Some (k, bs) -> bs !! i = Some b ->
  exists o o' v1 v2, terminal_component order hv (e_sh st) (e, i) b v = (Ok o, v1) /\ bus_component order hv (e_sh st) b v1 = (Ok o', v2) /\
    o = (if bool_decide (cv_conn v !! (e, i) = Some true) then o' else None).
Proof.
  intros Hr Hm (x & Hx & Hv) He Hb. apply (reach_good order sorted) in Hr as [W E]. apply E in Hv as I. set (s := e_sh st) in *.
  assert (slot s b = true) as Ab. { apply slot_true. intros _. exists e, k, bs. split; [done|]. by eapply elem_of_list_lookup_2. }
  destruct (force_ok order (covers strict) s (cs_vls s) v I W) as (If & Sf & _ & F); [done|]. unfold terminal_component. cbv zeta. set (f := force s v (cs_vls s)) in *.
  fold (bview s v) in F. rewrite <- (bview_same s v f.1 Sf) in F. rewrite F.
  destruct (bus_component_ok order sorted (covers strict) hv s f.1 b Hm If W Ab) as (v1 & num & sz & o & E1 & I1 & S1 & Ec & C & R & H1).
  destruct (term_bus f.1 (bview s f.1) (e, i) b) as [n|] eqn:Ht.
  - apply (term_bus_spec s) in Ht as (Hc & c & Hn & Hbc); [|done]. rewrite Hn.
    destruct (view_ok order sorted strict hv s c f.1 Hm If W) as (w & num' & sz' & k' & E2 & I2 & S2 & Ec2 & C2 & R2 & y & Hy & H2); [by eapply elem_of_list_lookup_2|].
    rewrite Ec in Ec2. injection Ec2 as <- <-.
    destruct (bus_component_ok order sorted (covers strict) hv s w b Hm I2 W Ab) as (w1 & num' & sz' & o' & E3 & I3 & S3 & Ec3 & C3 & R3 & H3).
    rewrite (compute_same order hv _ f.1 w _ S2), (bview_same _ f.1 w S2), Ec in Ec3. injection Ec3 as <- <-.
    exists (Some k'), o', w, w1. split; [done|]. split; [done|]. destruct Sf as [_ Sc]. rewrite Sc in Hc. rewrite bool_decide_eq_true_2 by done. symmetry.
    apply H3. rewrite (bview_same _ f.1 w S2). exists n. split; [by exists c|]. destruct (proj1 (H2 k') eq_refl) as (n' & (c' & Hc' & Hyc') & Hk').
    assert (n' = n) as <-; [|done]. by eapply (bview_disjoint s f.1 W).
  - exists None, o, f.1, v1. split; [done|]. split; [done|]. case_bool_decide as Hc; [|done]. symmetry.
    destruct o as [k'|]; [|done]. exfalso. apply H1 in Hk' as (n & (c & Hn & Hbc) & _) || (pose proof (proj1 (H1 k') eq_refl) as (n & (c & Hn & Hbc) & _)).
    assert (term_bus f.1 (bview s f.1) (e, i) b = Some n) as Ht'; [|congruence]. apply (term_bus_spec s); [done|]. destruct Sf as [_ ->]. eauto.
Qed.
Print Assumptions C45_terminal_partial.

(** *** The buses of a component and its size (Component::getBuses, getSize): asked for the component of a bus, they are the buses of the bus view whose
    places are electrically connected to it, and their number. *)
Theorem C45_component_buses_partial order (sorted : forall r, sorted_components r (order r)) strict hv st v a k v1 : creach order (csafe strict) st -> hv = false \/ strict = true -> cworking st v ->
  askable (e_sh st) a -> bus_component order hv (e_sh st) a v = (Ok (Some k), v1) ->
  exists l v2, component_buses order hv (e_sh st) k v1 = (Ok l, v2) /\ comps hv v1 !! k = Some (length l) /\
    forall b, (exists c, c ∈ l /\ b ∈ c) <-> electrical hv (e_sh st) v a b /\ energised (e_sh st) v b.
Proof.
  intros Hr Hm (i & Hi & Hv) Aa%slot_true E1. apply (reach_good order sorted) in Hr as [W E]. apply E in Hv as I. set (s := e_sh st) in *.
  destruct (bus_component_ok order sorted (covers strict) hv s v a Hm I W Aa) as (v1' & num & sz & o & E1' & I1 & S1 & Ec & C & R & H1). rewrite E1 in E1'. injection E1' as <- <-.
  destruct (force_ok order (covers strict) s (cs_vls s) v1 I1 W) as (If & Sf & _ & F); [done|]. unfold component_buses. cbv zeta. set (f := force s v1 (cs_vls s)) in *.
  fold (bview s v1) in F. rewrite <- (bview_same s v1 f.1 Sf) in F. rewrite F. pose proof (vsame_trans _ _ _ S1 Sf) as S.
  destruct (buses_of_ok order sorted strict hv s k (bview s f.1) 0 f.1 num sz Hm If W) as (l & v2 & E2 & I2 & S2 & Hl & Hlen).
  { by rewrite (bview_same s v f.1 S), (compute_same order hv s v f.1 _ S). }
  { done. }
  exists l, v2. split; [done|]. rewrite (bview_same s v f.1 S) in Hl. destruct (proj1 (H1 k) eq_refl) as (n & Hn & Hk). split.
  - rewrite C, Hlen. cbn [drop]. destruct (r_num _ _ _ _ _ R n) as (k' & Hk' & Hlt); [by eapply holds_lt|]. rewrite Hk in Hk'. injection Hk' as <-.
    apply lookup_lt_is_Some in Hlt as [x Hx]. rewrite Hx. f_equal. by eapply r_size.
  - intros b. split.
    + intros (c & Hc & Hb). apply Hl in Hc as (j & _ & Hj & Hjk). split; [|apply (holds_energised s v j b W); by exists c]. eapply (same_component hv s v num sz a b n j W R Hn); [by exists c|]. congruence.
    + intros [H He]. destruct (electrical_plink hv s v a b W H He n Hn) as (j & (c & Hj & Hb) & _). exists c. split; [|done]. apply Hl. exists j. split; [lia|]. split; [done|].
      rewrite <- Hk. symmetry. eapply (same_component hv s v num sz a b n j W R Hn); [by exists c|done].
Qed.
Print Assumptions C45_component_buses_partial.

(** *** Refutations and cases *)
Definition bigger (sz : list nat) (a b : nat) : Prop := default 0 (sz !! b) <= default 0 (sz !! a).
#[local] Instance bigger_dec sz : RelDecision (bigger sz).
Proof. intros a b. unfold bigger. apply _. Defined.
Definition size_order (r : nat * list nat * list (option nat)) : list nat := merge_sort (bigger r.1.2) (seq 0 r.1.1).
Lemma size_order_sorted r : sorted_components r (size_order r).
Proof.
  destruct r as [[c sz] num]. unfold size_order. cbn [fst snd]. split; [apply merge_sort_Permutation|].
  assert (Transitive (bigger sz)) by (intros x y z; unfold bigger; lia). assert (Total (bigger sz)) by (intros x y; unfold bigger; lia).
  apply (StronglySorted_merge_sort (bigger sz)).
Qed.
Definition crun (st : cst) (l : list (eop cop)) : cst := foldl (fun st o => (cstep size_order st o).2) st l.
(** Two substations of one bus each, with a converter station; a line can join them. *)
Definition cbase : list (eop cop) :=
  [EWork initial_variant; ECall (CAddVl "V1" false); ECall (CAddVl "V2" false); ECall (CAddBus "V1" "B1"); ECall (CAddBus "V1" "B1x"); ECall (CAddBus "V2" "B2");
   ECall (CAddEq "S1" KStation [("B1", true)]); ECall (CAddEq "S2" KStation [("B2", true)]); ECall (CAddEq "D" KDangling [("B1x", true)])].
Definition answers (hv : bool) (b1 b2 : string) (st : cst) : result (option nat) * result (option nat) :=
  let r := component_of size_order hv b1 st in (r.1, (component_of size_order hv b2 r.2).1).
Lemma crun_reach l : forall st, creach size_order (fun _ _ => True) st -> creach size_order (fun _ _ => True) (crun st l).
Proof. induction l as [|o l IH]; intros st Hr; [done|]. cbn. apply IH. by apply cr_step. Qed.
Definition st_of (l : list (eop cop)) : cst := crun cnet_new (cbase ++ l).
Lemma reach_st l : creach size_order (fun _ _ => True) (st_of l).
Proof. apply (crun_reach (cbase ++ l) cnet_new). apply cr_new. Qed.
Definition v_of (l : list (eop cop)) : cvar := default (mkCV ∅ ∅ ∅ [] ∅ [] ∅) (e_vars (st_of l) !! initial_variant).
Lemma working_of l : bool_decide (e_cur (st_of l) = Some initial_variant /\ is_Some (e_vars (st_of l) !! initial_variant)) = true -> cworking (st_of l) (v_of l).
Proof. intros [H [v Hv]]%bool_decide_eq_true. exists initial_variant. unfold v_of. by rewrite Hv. Qed.
Lemma on_of l e k b : bool_decide (cs_eq (e_sh (st_of l)) !! e = Some (k, [b]) /\ cv_conn (v_of l) !! (e, 0) = Some true) = true -> on_bus (e_sh (st_of l)) (v_of l) e 0 k b.
Proof. intros [H1 H2]%bool_decide_eq_true. by exists [b]. Qed.
(** No switch, no branch, no HVDC line: no bus is connected to another. *)
Lemma alone l a b : bool_decide (cs_ic (e_sh (st_of l)) = [] /\ map_to_list (cs_sw (e_sh (st_of l))) = [] /\ map_to_list (cs_hv (e_sh (st_of l))) = [] /\ map_Forall (fun _ x => x.1 <> KBranch) (cs_eq (e_sh (st_of l)))) = true ->
  a <> b -> ~ electrical true (e_sh (st_of l)) (v_of l) a b.
Proof.
  intros (H0 & H1%map_to_list_empty_iff & H2%map_to_list_empty_iff & H3)%bool_decide_eq_true Hab H. apply Hab. clear Hab. induction H as [|x y z Hxy _ IH]; [done|]. exfalso.
  destruct Hxy as [[(id & E & _)|E]|[[(id & E & _)|E]|[(e & i & j & _ & (bs & E & _) & _)|(_ & id & s1 & s2 & [E|E] & _)]]].
  - by rewrite H1, lookup_empty in E.
  - rewrite H0 in E. by apply elem_of_nil in E.
  - by rewrite H1, lookup_empty in E.
  - rewrite H0 in E. by apply elem_of_nil in E.
  - by apply H3 in E.
  - by rewrite H2, lookup_empty in E.
  - by rewrite H2, lookup_empty in E.
Qed.

(** An HVDC line added after the connected components have been computed: its two buses still have different components. *)
Theorem C45_hvdc_added_refuted : exists st v n m, creach size_order (fun _ _ => True) st /\ cworking st v /\ electrical true (e_sh st) v "B1" "B2" /\
  answers true "B1" "B2" st = (Ok (Some n), Ok (Some m)) /\ n <> m.
Proof.
  set (l := [ECall (CQBus true "B1"); ECall (CAddHvdc "H" "S1" "S2")]). exists (st_of l), (v_of l), 2, 0. split; [apply reach_st|]. split; [apply working_of; by vm_compute|].
  split; [|split; [by vm_compute|done]]. apply rtc_once. right. right. right. split; [done|]. exists "H", "S1", "S2". split; [left; by vm_compute|]. split; apply on_of; by vm_compute.
Qed.
Print Assumptions C45_hvdc_added_refuted.
(** An HVDC line removed after: its two buses still have the same component. *)
Theorem C45_hvdc_removed_refuted : exists st v n, creach size_order (fun _ _ => True) st /\ cworking st v /\ ~ electrical true (e_sh st) v "B1" "B2" /\
  answers true "B1" "B2" st = (Ok (Some n), Ok (Some n)).
Proof.
  set (l := [ECall (CAddHvdc "H" "S1" "S2"); ECall (CQBus true "B1"); ECall (CRemoveHvdc "H")]). exists (st_of l), (v_of l), 0. split; [apply reach_st|]. split; [apply working_of; by vm_compute|].
  split; [|by vm_compute]. apply alone; [by vm_compute|done].
Qed.
Print Assumptions C45_hvdc_removed_refuted.
(** A closed switch added, or removed, after the components have been computed. *)
Theorem C45_switch_added_refuted : exists st v n m, creach size_order (fun _ _ => True) st /\ cworking st v /\ electrical false (e_sh st) v "B1" "B1x" /\
  answers false "B1" "B1x" st = (Ok (Some n), Ok (Some m)) /\ n <> m.
Proof.
  set (l := [ECall (CQBus false "B1"); ECall (CAddSwitch "SW" false "B1" "B1x")]). exists (st_of l), (v_of l), 2, 1. split; [apply reach_st|]. split; [apply working_of; by vm_compute|].
  split; [|split; [by vm_compute|done]]. apply rtc_once. left. left. exists "SW". split; by vm_compute.
Qed.
Print Assumptions C45_switch_added_refuted.
Theorem C45_switch_removed_refuted : exists st v n, creach size_order (fun _ _ => True) st /\ cworking st v /\ ~ electrical true (e_sh st) v "B1" "B1x" /\
  answers true "B1" "B1x" st = (Ok (Some n), Ok (Some n)).
Proof.
  set (l := [ECall (CAddSwitch "SW" false "B1" "B1x"); ECall (CQBus true "B1"); ECall (CRemoveSwitch "SW")]). exists (st_of l), (v_of l), 0. split; [apply reach_st|]. split; [apply working_of; by vm_compute|].
  split; [|by vm_compute]. apply alone; [by vm_compute|done].
Qed.
Print Assumptions C45_switch_removed_refuted.

(** Non-vacuity: an allowed history with a switch closed then opened, a line connected and disconnected, a clone and queries in between. *)
Definition case_ops : list (eop cop) :=
  [ECall (CAddSwitch "SW" true "B1" "B1x"); ECall (CQBus true "B1"); ECall (CSetOpen "SW" false); ECall (CQBus true "B1"); ECall (CAddEq "L" KBranch [("B1x", true); ("B2", true)]);
   EClone initial_variant "v" false; ECall (CConnect ("L", 0) false); ECall (CQBus false "B2")].
Example C45_case : creach size_order (csafe true) (st_of case_ops) /\ cworking (st_of case_ops) (v_of case_ops) /\
  answers true "B1" "B1x" (st_of case_ops) = (Ok (Some 0), Ok (Some 0)) /\ answers true "B1" "B2" (st_of case_ops) = (Ok (Some 0), Ok (Some 1)) /\
  answers true "B1" "B2" (cstep size_order (st_of case_ops) (EWork "v")).2 = (Ok (Some 0), Ok (Some 0)).
Proof.
  split; [|split; [apply working_of; by vm_compute|]]; [|split_and!; by vm_compute].
  unfold st_of, crun, cbase, case_ops. cbn [app foldl]. repeat first [apply cr_new|apply cr_step]; try exact I; try (vm_compute; discriminate). left. done.
Qed.

(** *** Node-breaker voltage levels.  N: a busbar section on node n0, a line end on n1, a converter station on n2; the line ends on bus B2 of V2. *)
Definition nbase : list (eop cop) :=
  [ECall (CAddVl "N" true); ECall (CAddBus "N" "n0"); ECall (CAddBus "N" "n1"); ECall (CAddBus "N" "n2");
   ECall (CAddEq "BBS" KBusbar [("n0", true)]); ECall (CAddEq "L" KBranch [("n1", true); ("B2", true)]); ECall (CAddEq "S3" KStation [("n2", true)])].
(** An internal connection added in one variant while the components are computed in another one: the other variant still answers that its ends are apart. *)
Theorem C45_internal_refuted : exists st v n m, creach size_order (fun _ _ => True) st /\ cworking st v /\ electrical false (e_sh st) v "n1" "n2" /\
  energised (e_sh st) v "n1" /\ energised (e_sh st) v "n2" /\ answers false "n1" "n2" st = (Ok n, Ok m) /\ n <> m.
Proof.
  set (l := nbase ++ [ECall (CAddInternal "n0" "n1"); EClone initial_variant "v" false; ECall (CQBus false "n1"); EWork "v"; ECall (CAddInternal "n1" "n2"); EWork initial_variant]).
  exists (st_of l), (v_of l), (Some 0), None. split; [apply reach_st|]. split; [apply working_of; by vm_compute|].
  assert (on_bus (e_sh (st_of l)) (v_of l) "S3" 0 KStation "n2") as O2 by (apply on_of; by vm_compute).
  assert (on_bus (e_sh (st_of l)) (v_of l) "BBS" 0 KBusbar "n0") as O0 by (apply on_of; by vm_compute).
  assert (("n1", "n2") ∈ cs_ic (e_sh (st_of l)) /\ ("n0", "n1") ∈ cs_ic (e_sh (st_of l)) /\ "n1" ∈ cs_node (e_sh (st_of l)) /\ "n2" ∈ cs_node (e_sh (st_of l))) as (J & J' & N1 & N2) by (apply (bool_decide_unpack _); by vm_compute).
  assert (answers false "n1" "n2" (st_of l) = (Ok (Some 0), Ok None)) as EA by (by vm_compute).
  revert O2 O0 J J' N1 N2 EA. generalize (v_of l) (st_of l). intros v st. set (s := e_sh st). intros O2 O0 J J' N1 N2 EA.
  assert (rtsc (cjoined s v) "n1" "n2") as R12 by (apply rtc_once; left; by right).
  assert (rtsc (cjoined s v) "n1" "n0") as R10 by (apply rtc_once; right; by right).
  assert (forall x, rtsc (cjoined s v) x "n1" -> x ∈ cs_node s -> energised s v x) as He.
  { intros x Hx Hn. exists "BBS", 0, KBusbar. split; [exists "n0"; split; [by etrans|done]|]. right. split; [done|]. split; [done|]. exists "S3", 0, KStation. split; [done|]. split; [|done].
    exists "n2". split; [by etrans|done]. }
  split; [apply rtc_once; left; by right|]. split; [by apply He|]. split; [apply He; [by apply rtsc_sym|done]|]. done.
Qed.
Print Assumptions C45_internal_refuted.
(** Non-vacuity: an allowed history with a node-breaker voltage level; the switch joins the line to the busbar section, the internal connection the station. *)
Definition ncase_ops : list (eop cop) :=
  nbase ++ [ECall (CAddSwitch "BR" true "n0" "n1"); ECall (CAddInternal "n0" "n2"); ECall (CQBus true "n1"); ECall (CSetOpen "BR" false); ECall (CQTerm true ("BBS", 0)); ECall (CTouch "BR");
            EClone initial_variant "v" false; ECall (CSetOpen "BR" true)].
Lemma only_cur (st : cst) : bool_decide (map_Forall (fun i _ => e_cur st = Some i) (e_vars st)) = true -> forall i v, e_vars st !! i = Some v -> e_cur st <> Some i -> nocache v.
Proof. intros H%bool_decide_eq_true i v Hv Hc. by apply H in Hv. Qed.
Example C45_case_node : creach size_order (csafe true) (st_of ncase_ops) /\ cworking (st_of ncase_ops) (v_of ncase_ops) /\
  (askable (e_sh (st_of ncase_ops)) "n1" /\ askable (e_sh (st_of ncase_ops)) "n2") /\
  (** the breaker is open: the line end is alone on its node and has no bus *)
  answers true "n1" "B2" (st_of ncase_ops) = (Ok None, Ok (Some 2)) /\ answers true "n2" "B2" (st_of ncase_ops) = (Ok (Some 3), Ok (Some 2)) /\
  (** it is closed in the other variant *)
  answers true "n1" "B2" (cstep size_order (st_of ncase_ops) (EWork "v")).2 = (Ok (Some 0), Ok (Some 0)) /\
  answers true "n2" "B2" (cstep size_order (st_of ncase_ops) (EWork "v")).2 = (Ok (Some 0), Ok (Some 0)).
Proof.
  split; [|split; [apply working_of; by vm_compute|split]]; [| |split_and!; by vm_compute].
  - unfold st_of, crun, cbase, ncase_ops, nbase. cbn [app foldl]. repeat first [apply cr_new|apply cr_step]; try exact I; try (vm_compute; discriminate).
    + left. done.
    + intros i v Hv Hc. refine (only_cur _ _ i v Hv Hc). by vm_compute.
  - split; intros _; [exists "L", KBranch, ["n1"; "B2"]|exists "S3", KStation, ["n2"]]; (split; [by vm_compute|]); left.
Qed.
