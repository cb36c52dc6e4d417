(** C71: references to buses by id. *)
From stdpp Require Import gmap pretty sorting.
From Verif Require Import Base Graph GraphSpec GraphProofs Equip NodeTopo NodeTopoSpec NodeTopoInv NodeTopoProps BusTopo BusTopoSpec BusTopoProofs
  BusTopoInv BusTopoView BusTopoProps Visit CalcBusXmlProps BusRef BusRefSpec BusRefProofs.

(** The node-breaker level is refused, whatever the id. *)
Theorem C71_level : forall net id side, exists m, resolve net id side NODE_BREAKER = (Throw m, net).
Proof. intros. by eexists. Qed.
Print Assumptions C71_level.

(** An id that designates nothing resolves to nothing; with a side, anything but a branch is refused; without, anything but a bus or
    an injection.  The network is left as it was. *)
Theorem C71_refused : forall net id lvl, lvl <> NODE_BREAKER ->
  (forall side, unknown net id -> resolve net id side lvl = (Ok None, net)) /\
  (forall rid e, designates net id rid e ->
     (forall s, (forall t1 t2, e <> EBranch t1 t2) -> exists m, resolve net id (Some s) lvl = (Throw m, net)) /\
     ((forall vl, e <> EBus vl) -> (forall t, e <> EInjection t) -> exists m, resolve net id None lvl = (Throw m, net))).
Proof.
  intros net id lvl Hl. split.
  - intros side Hu. unfold resolve, resolve_by_level. rewrite (find_unknown net id Hu). by destruct lvl.
  - intros rid e HD. unfold resolve, resolve_by_level. rewrite (find_known net id rid e HD). split.
    + intros s He. destruct e as [vl|t|t1 t2|]; [| |by destruct (He t1 t2)|]; destruct lvl; try done; by eexists.
    + intros He He'. destruct e as [vl|t|t1 t2|]; [by destruct (He vl)|by destruct (He' t)|..]; destruct lvl; try done; by eexists.
Qed.
Print Assumptions C71_refused.

(** An injection, or a side of a branch, resolves to the bus its terminal is connected to. *)
Theorem C71_equipment_partial : forall net id rid side e t lvl, lvl <> NODE_BREAKER -> designates net id rid e ->
  (side = None /\ e = EInjection t \/ (exists t2, side = Some SideOne /\ e = EBranch t t2) \/ exists t1, side = Some SideTwo /\ e = EBranch t1 t) ->
  in_place net t ->
  exists r net', resolve net id side lvl = (Ok r, net') /\ only_caches net net' /\ right_bus net net' t lvl r.
Proof.
  intros net id rid side e t lvl Hl HD He HP. destruct (choose_ok net t lvl Hl HP) as (r & net' & E & HR). exists r, net'. split; [|done].
  rewrite <- E. unfold resolve, resolve_by_level. rewrite (find_known net id rid e HD).
  destruct He as [[-> ->]|[(t2 & -> & ->)|(t1 & -> & ->)]]; by destruct lvl.
Qed.
Print Assumptions C71_equipment_partial.

(** A configured bus resolves to itself at the bus breaker level. *)
Theorem C71_bus : forall net id rid vl, designates net id rid (EBus vl) -> resolve net id None BUS_BREAKER = (Ok (Some (RBus vl rid)), net).
Proof. intros net id rid vl HD. unfold resolve, resolve_by_level. by rewrite (find_known net id rid _ HD). Qed.
Print Assumptions C71_bus.

(** At the bus branch level, to the merged bus that contains it, provided it has a connected terminal. *)
Theorem C71_bus_branch_partial : forall net id rid vl st v, designates net id rid (EBus vl) -> bn_levels net !! vl = Some (VB st) ->
  bb_reach bb_safe st -> working st v -> well_numbered st -> is_bus (e_sh st) rid -> terminals_know st v rid ->
  exists r st', resolve net id None BUS_BRANCH = (Ok r, set_level net vl (VB st')) /\ only_caches net (set_level net vl (VB st')) /\
    match r with
    | None => (forall t, hangs (e_sh st) v rid t -> ~ connected v t) \/ ~ in_bus_view (e_sh st) v rid
    | Some (RMerged vl' k) => vl' = vl /\ merged_of st v rid st' k
    | _ => False
    end.
Proof.
  intros net id rid vl st v HD Hv H W WN Hb HK. apply reach_binv in H.
  destruct (bus_to_view_ok st v H W WN rid Hb HK) as (ok & st' & E & SB & HR). exists (RMerged vl <$> ok), st'.
  split; [|split; [by eapply only_caches_bb|by destruct ok]].
  unfold resolve, resolve_by_level. rewrite (find_known net id rid _ HD), Hv. unfold on_bb. by rewrite (amap_Ok _ _ _ _ _ E).
Qed.
Print Assumptions C71_bus_branch_partial.

(** *** Concrete networks *)
(** Level BL: a line on A, a disconnected load on B, a closed switch between them, bus C; level NL is the one of C65. *)
Definition bb71_0 : bbst := bb_new "BL" {["BL"]} {[initial_variant]} (Some initial_variant).
Lemma bb71_0_reach P : bb_reach P bb71_0.
Proof. apply br_new; [set_solver|]. intros i [= <-]. set_solver. Qed.
Definition bops71 : list (eop bbop) :=
  [ECall (BAddBus "A"); ECall (BAddBus "B"); ECall (BAddBus "C"); ECall (BNewTerminal (bline "L") "A" true);
   ECall (BNewTerminal (bload "D") "B" false); ECall (BAddSwitch "S" false "A" "B")].
Definition bb71 : bbst := bb_run bb71_0 bops71.
Definition net71 (st : bbst) : bnet :=
  mkBN (<["A" := EBus "BL"]> (<["B" := EBus "BL"]> (<["C" := EBus "BL"]> (<["L" := EBranch (mkTR "BL" (bline "L") 0) (mkTR "NL" (line "L") 2)]>
          (<["D" := EInjection (mkTR "BL" (bload "D") 0)]> (<["E" := EInjection (mkTR "NL" (load "E") 6)]>
          (<["F" := EInjection (mkTR "NL" (load "D") 3)]> (<["BL" := EOther]> (<["NL" := EOther]> ∅)))))))))
       {["the line" := "L"]} (<["BL" := VB st]> {["NL" := VN nb65]}).
Lemma bb71_safe : bb_reach bb_safe bb71.
Proof.
  apply bb_run_reach; [|apply bb71_0_reach]. do 5 (split; [exact I|]). split; [apply no_merged_test; vm_compute; reflexivity|exact I].
Qed.
Lemma bb71_numbered : well_numbered bb71.
Proof. apply numbered_run; [apply reach_binv, bb71_safe|]. vm_compute. reflexivity. Qed.
Definition var71 (st : bbst) : bbvar := default (mkBV ∅ ∅ ∅ None) (e_vars st !! initial_variant).
Lemma working71 st : e_cur st = Some initial_variant -> is_Some (e_vars st !! initial_variant) -> working st (var71 st).
Proof. intros Hc [v Hv]. exists initial_variant. unfold var71. by rewrite Hv. Qed.
Lemma bb71_working : working bb71 (var71 bb71).
Proof. apply working71; [vm_compute; reflexivity|vm_compute; eauto]. Qed.
Example C71_place : in_place (net71 bb71) (mkTR "BL" (bline "L") 0) /\ in_place (net71 bb71) (mkTR "BL" (bload "D") 0) /\
  in_place (net71 bb71) (mkTR "NL" (line "L") 2) /\ in_place (net71 bb71) (mkTR "NL" (load "E") 6) /\
  designates (net71 bb71) "the line" "L" (EBranch (mkTR "BL" (bline "L") 0) (mkTR "NL" (line "L") 2)) /\ unknown (net71 bb71) "X".
Proof.
  split; [|split; [|split; [|split]]].
  - split; [apply bb71_safe|]. split; [apply bb71_numbered|]. exists (var71 bb71), true, "A". split; [apply bb71_working|].
    split; [vm_compute; reflexivity|]. intros _. exists 0. vm_compute. reflexivity.
  - split; [apply bb71_safe|]. split; [apply bb71_numbered|]. exists (var71 bb71), false, "B". split; [apply bb71_working|].
    split; [vm_compute; reflexivity|done].
  - split; [apply nb65_reach|]. split; [vm_compute; eauto|]. vm_compute. reflexivity.
  - split; [apply nb65_reach|]. split; [vm_compute; eauto|]. vm_compute. reflexivity.
  - split; [|by split]. split; [done|]. split; [reflexivity|]. right. reflexivity.
Qed.
Example C71_case :
  (resolve (net71 bb71) "the line" (Some SideOne) BUS_BRANCH).1 = Ok (Some (RMerged "BL" "BL_0")) /\
  (resolve (net71 bb71) "L" (Some SideOne) BUS_BREAKER).1 = Ok (Some (RBus "BL" "A")) /\
  (resolve (net71 bb71) "L" (Some SideTwo) BUS_BRANCH).1 = Ok (Some (RCalc "NL" BusView (mkCB "VL_0" [sec "S"; line "L"; load "D"]))) /\
  (resolve (net71 bb71) "F" None BUS_BREAKER).1 = Ok (Some (RCalc "NL" BusBreakerView (mkCB "VL_2" [line "L"; load "D"]))) /\
  (resolve (net71 bb71) "D" None BUS_BRANCH).1 = Ok None /\ (resolve (net71 bb71) "E" None BUS_BRANCH).1 = Ok None /\
  (resolve (net71 bb71) "A" None BUS_BRANCH).1 = Ok (Some (RMerged "BL" "BL_0")) /\ (resolve (net71 bb71) "C" None BUS_BRANCH).1 = Ok None.
Proof. vm_compute. done. Qed.

(** A configured bus of the bus view without connected terminal of its own is not found there. *)
Theorem C71_isolated_refuted : exists net id vl st v, designates net id id (EBus vl) /\ bn_levels net !! vl = Some (VB st) /\
  bb_reach bb_safe st /\ working st v /\ well_numbered st /\ is_bus (e_sh st) id /\ terminals_know st v id /\
  in_bus_view (e_sh st) v id /\ (exists k, (bb_merged id st).1 = Ok (Some k)) /\ (resolve net id None BUS_BRANCH).1 = Ok None.
Proof.
  exists (net71 bb71), "B", "BL", bb71, (var71 bb71). split; [split; [done|]; split; [reflexivity|by left]|]. split; [reflexivity|].
  split; [apply bb71_safe|]. split; [apply bb71_working|]. split; [apply bb71_numbered|].
  assert (is_bus (e_sh bb71) "B") as Hb by (exists 1; vm_compute; reflexivity). split; [done|].
  split.
  { intros t (u & l & Lu & Hl & Ht) [b Hc]. assert (u = 1) as ->.
    { eapply (live_inj (e_sh bb71)); [apply reach_binv, bb71_safe|exact Lu|vm_compute; reflexivity]. }
    assert (bv_terms (var71 bb71) !! 1 = Some [bload "D"]) as Hl' by (vm_compute; reflexivity). rewrite Hl in Hl'. injection Hl' as ->.
    apply elem_of_list_singleton in Ht as ->. vm_compute in Hc. discriminate. }
  assert ((bb_merged "B" bb71).1 = Ok (Some "BL_0")) as Em by (vm_compute; reflexivity).
  split; [|split; [by exists "BL_0"|vm_compute; reflexivity]].
  destruct (C33_merged_partial bb71 (var71 bb71) "B" bb71_safe bb71_working bb71_numbered Hb) as (ok & st' & E & _ & HR). apply HR.
  rewrite E in Em. injection Em as ->. eauto.
Qed.
Print Assumptions C71_isolated_refuted.

(** After setConnectableBus in a variant, a terminal connected in another variant has no bus id there: resolving throws. *)
Definition bb71v : bbst := bb_run bb71_0
  [ECall (BAddBus "A"); ECall (BAddBus "B"); ECall (BNewTerminal (bline "L") "A" true); EClone initial_variant "V2" false; EWork "V2";
   ECall (BSetConnectable (bline "L") "B"); EWork initial_variant].
Theorem C71_variant_refuted : exists net id vl st v t m m', designates net id id (EBranch (mkTR vl t 0) (mkTR "NL" (line "L") 2)) /\
  bn_levels net !! vl = Some (VB st) /\ bb_reach bb_safe st /\ working st v /\ well_numbered st /\ hangs (e_sh st) v "B" t /\ connected v t /\
  (resolve net id (Some SideOne) BUS_BREAKER).1 = Throw m /\ (resolve net "B" None BUS_BRANCH).1 = Throw m'.
Proof.
  assert (bb_reach bb_safe bb71v) as HR by (apply bb_run_reach; [|apply bb71_0_reach]; repeat (split; [exact I|]); exact I).
  exists (net71 bb71v), "L", "BL", bb71v, (var71 bb71v), (bline "L"), "bus id is null", "bus id is null".
  split; [split; [done|]; split; [reflexivity|by left]|]. split; [reflexivity|]. split; [done|].
  split; [apply working71; [vm_compute; reflexivity|vm_compute; eauto]|].
  split; [apply numbered_run; [by apply reach_binv|vm_compute; reflexivity]|].
  split; [exists 1, [bline "L"]; split; [vm_compute; reflexivity|]; split; [vm_compute; reflexivity|by left]|].
  split; [exists ""; vm_compute; reflexivity|]. vm_compute. done.
Qed.
Print Assumptions C71_variant_refuted.
