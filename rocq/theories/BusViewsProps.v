(** C85: the bus/breaker view of a bus-breaker voltage level shows what was built. *)
From stdpp Require Import gmap.
From Verif Require Import Base Graph GraphSpec Equip NodeTopo BusTopo BusTopoSpec BusTopoProofs BusTopoInv BusTopoProps BusViews BusViewsSpec BusViewsBlank BusViewsProofs.

(** getBuses lists each bus built and not removed, once; getBus finds these and no others. *)
Theorem C85_buses : forall P st, wired P st ->
  (exists l, bw_buses (e_sh st) = Ok l /\ NoDup l /\ forall b, b ∈ l <-> b ∈ q_bus P) /\
  (forall b, b ∈ q_bus P -> bw_bus (e_sh st) b = Ok (Some b)) /\
  (forall b, b <> "" -> b ∉ q_bus P -> bw_bus (e_sh st) b = Ok None) /\
  (exists m, bw_bus (e_sh st) "" = Throw m).
Proof.
  intros P st W. destruct (wired_fits P st W) as [S F]. split_and!.
  - by apply bw_buses_eq.
  - intros b. by apply (bw_bus_eq P).
  - intros b. by apply (bw_bus_eq P).
  - by eexists.
Qed.

(** getSwitches lists each switch built and not removed, once, and getSwitchCount counts them; getSwitch finds these and no others. *)
Theorem C85_switches : forall P st, wired P st ->
  NoDup (bw_switches (e_sh st)) /\ (forall k, k ∈ bw_switches (e_sh st) <-> is_Some (q_sw P !! k)) /\
  bw_switch_count (e_sh st) = size (q_sw P) /\
  (forall k, is_Some (q_sw P !! k) -> bw_switch (e_sh st) k = Ok (Some k)) /\
  (forall k, k <> "" -> q_sw P !! k = None -> bw_switch (e_sh st) k = Ok None) /\
  (exists m, bw_switch (e_sh st) "" = Throw m).
Proof.
  intros P st W. destruct (wired_fits P st W) as [S F]. split_and!.
  - by apply (bw_switches_eq P).
  - by apply (bw_switches_eq P).
  - by apply bw_count_eq.
  - intros k [[b1 b2] H]. by apply (bw_switch_eq P _ S F k b1 b2).
  - intros k Hne H. by apply (bw_switch_none P).
  - by eexists.
Qed.

(** getBus1 and getBus2 answer the buses given to the adder of the switch, in that order, and throw for an unknown switch; both buses exist. *)
Theorem C85_ends : forall P st, wired P st ->
  (forall k b1 b2, q_sw P !! k = Some (b1, b2) ->
     bw_bus1 (e_sh st) k = Ok (Some b1) /\ bw_bus2 (e_sh st) k = Ok (Some b2) /\ b1 ∈ q_bus P /\ b2 ∈ q_bus P) /\
  (forall k, q_sw P !! k = None -> (exists m, bw_bus1 (e_sh st) k = Throw m) /\ exists m, bw_bus2 (e_sh st) k = Throw m).
Proof.
  intros P st W. destruct (wired_fits P st W) as [S F]. split.
  - intros k b1 b2 H. destruct (bw_switch_eq P _ S F k b1 b2 H) as (_ & H1 & H2). split; [done|]. split; [done|].
    apply (f_sw _ _ F) in H as (e & x1 & x2 & _ & _ & E1 & E2). rewrite !(f_bus _ _ F). eauto.
  - intros k H. destruct (decide (k = "")) as [->|Hne]; [split; by eexists|]. by apply (bw_switch_none P).
Qed.

(** A bus at an end of a switch is not removed: removeBus and removeAllBuses throw and the view shows what it showed. *)
Theorem C85_ends_kept : forall P st k b1 b2 b, wired P st -> q_sw P !! k = Some (b1, b2) -> b = b1 \/ b = b2 ->
  (exists m st', bb_step st (ECall (BRemoveBus b)) = (Throw m, st') /\ wired P st') /\
  (exists m st', bb_step st (ECall BRemoveAllBuses) = (Throw m, st') /\ wired P st').
Proof.
  intros P st k b1 b2 b W Hk Hb. destruct (wired_weak P st W) as [I F].
  assert (forall c, is_question c = false -> bus_safe st (ECall c) -> (forall r, r = Ok tt -> exists P', wire P (ECall c) r = P' /\ q_sw P' = q_sw P /\ b ∉ q_bus P') ->
            (forall m, wire P (ECall c) (Throw m) = P) -> exists m st', bb_step st (ECall c) = (Throw m, st') /\ wired P st') as H.
  { intros c Hq Hs HO HT. pose proof (wired_step P st (ECall c) W Hs) as W'. destruct (call_weak P st c I Hs F) as (_ & _ & HF). specialize (HF Hq). cbn [bb_step estep] in *.
    destruct (bb_call c st) as [[[]|m| |] st']; try (by destruct HF); cbn [fst snd] in W'; [|exists m, st'; by rewrite HT in W'].
    exfalso. destruct (HO _ eq_refl) as (P' & E1 & E2 & E3). rewrite E1 in W'. apply E3.
    destruct (C85_ends P' st' W') as [He _]. rewrite E2 in He. destruct (He k b1 b2 Hk) as (_ & _ & ? & ?). by destruct Hb as [->| ->]. }
  split.
  - apply H; [done|done| |done]. intros r ->. eexists. split; [done|]. split; [done|]. cbn. set_solver.
  - apply H; [done| | |done].
    { right. apply (f_sw _ _ F) in Hk as (e & x1 & x2 & _ & He & _). intros HE. by rewrite HE, lookup_empty in He. }
     intros r ->. eexists. split; [done|]. split; [done|]. cbn. set_solver.
Qed.

(** getBus of a view that is not const also finds the buses of the other voltage levels of the network. *)
Theorem C85_other_level_refuted : exists others P st b, wired P st /\ b ∉ q_bus P /\
  bw_bus (e_sh st) b = Ok None /\ bw_bus_mutable others (e_sh st) b = Ok (Some b).
Proof.
  exists {["X"]}, (mkBP ∅ ∅), bb0, "X". split; [apply wired_new; [set_solver|intros i [= <-]; set_solver]|]. split; [set_solver|]. split; vm_compute; reflexivity.
Qed.
(** For the ids of its own voltage level, and those no voltage level knows, it answers as the const view. *)
Theorem C85_mutable_partial : forall others P st b, wired P st -> b ∉ others -> bw_bus_mutable others (e_sh st) b = bw_bus (e_sh st) b.
Proof. intros others P st b _ H. unfold bw_bus_mutable. by rewrite bool_decide_false. Qed.

(** Three buses, of which one is removed; four switches, of which two are removed, while a merged bus is cached; two calls that throw. *)
Fixpoint wires (P : bplan) (st : bbst) (l : list (eop bbop)) : bplan * bbst :=
  match l with [] => (P, st) | o :: k => wires (wire P o (bb_step st o).1) (bb_step st o).2 k end.
Lemma wires_wired l P st : wired P st -> bb_all bus_safe st l -> wired (wires P st l).1 (wires P st l).2.
Proof. revert P st. induction l as [|o l IH]; intros P st W H; [done|]. destruct H as [H1 H2]. cbn [wires]. apply IH; [by apply wired_step|done]. Qed.
Definition wops : list (eop bbop) :=
  [ECall (BAddBus "A"); ECall (BAddBus "B"); ECall (BAddBus "C"); ECall (BAddSwitch "S" false "A" "B"); ECall (BMerged "A"); ECall (BAddSwitch "T" true "C" "A");
   ECall (BAddSwitch "U" false "B" "C"); ECall (BRemoveBus "C"); ECall (BRemoveSwitch "T"); ECall (BRemoveSwitch "U"); ECall (BRemoveBus "C");
   ECall (BAddSwitch "V" false "B" "A"); ECall (BAddBus "B")].
Example C85_case : let c := wires (mkBP ∅ ∅) bb0 wops in
  wired c.1 c.2 /\ bw_buses (e_sh c.2) = Ok ["A"; "B"] /\ bw_bus (e_sh c.2) "C" = Ok None /\
  bw_switches (e_sh c.2) ≡ₚ ["S"; "V"] /\ bw_switch_count (e_sh c.2) = 2 /\
  q_sw c.1 !! "S" = Some ("A", "B") /\ q_sw c.1 !! "V" = Some ("B", "A") /\ bw_bus1 (e_sh c.2) "V" = Ok (Some "B") /\ bw_bus2 (e_sh c.2) "V" = Ok (Some "A").
Proof.
  cbv zeta. split.
  { apply wires_wired; [apply wired_new; [set_solver|intros i [= <-]; set_solver]|].
    do 4 (split; [exact I|]). split; [|repeat (split; [exact I|]); exact I].
    intros x _ Hx. assert (size (s_vertices (abs (bb_graph (e_sh (bb_run bb0 (take 4 wops)))))) = 3) as E by (vm_compute; reflexivity).
    change (x < size (s_vertices (abs (bb_graph (e_sh (bb_run bb0 (take 4 wops))))))). rewrite E. assert (x <= 0); [|lia]. apply Hx. vm_compute. by eexists. }
  split; [vm_compute; reflexivity|]. split; [vm_compute; reflexivity|]. split; [vm_compute; first [reflexivity|apply perm_swap]|]. repeat (split; [vm_compute; reflexivity|]). vm_compute. reflexivity.
Qed.

(** Two switches are created and removed in the same order, then all the buses: the call throws although the level has no switch, after having
    destroyed the buses, and getBuses then reads destroyed buses. *)
Definition wops3 : list (eop bbop) :=
  [ECall (BAddBus "A"); ECall (BAddBus "B"); ECall (BAddSwitch "S" false "A" "B"); ECall (BAddSwitch "T" false "A" "B");
   ECall (BRemoveSwitch "S"); ECall (BRemoveSwitch "T")].
Theorem C85_remove_all_buses_refuted : exists P st m st', wired P st /\ q_sw P = ∅ /\ bw_buses (e_sh st) = Ok ["A"; "B"] /\
  bb_step st (ECall BRemoveAllBuses) = (Throw m, st') /\ bw_buses (e_sh st') = UB.
Proof.
  exists (wires (mkBP ∅ ∅) bb0 wops3).1, (wires (mkBP ∅ ∅) bb0 wops3).2.
  destruct (bb_step (wires (mkBP ∅ ∅) bb0 wops3).2 (ECall BRemoveAllBuses)) as [r st'] eqn:E.
  assert (r = (bb_step (wires (mkBP ∅ ∅) bb0 wops3).2 (ECall BRemoveAllBuses)).1) as -> by (by rewrite E).
  assert (st' = (bb_step (wires (mkBP ∅ ∅) bb0 wops3).2 (ECall BRemoveAllBuses)).2) as -> by (by rewrite E). clear E.
  do 2 eexists. split.
  { apply wires_wired; [apply wired_new; [set_solver|intros i [= <-]; set_solver]|]. split; [exact I|]. split; [exact I|].
    repeat (split; [exact I|]). exact I. }
  split; [apply map_empty; intros k; vm_compute; by destruct k|]. split; [vm_compute; reflexivity|]. split; [apply f_equal2; [vm_compute; reflexivity|reflexivity]|]. vm_compute. reflexivity.
Qed.
Print Assumptions C85_buses.
Print Assumptions C85_switches.
Print Assumptions C85_ends.
Print Assumptions C85_ends_kept.
Print Assumptions C85_other_level_refuted.
Print Assumptions C85_mutable_partial.
Print Assumptions C85_remove_all_buses_refuted.
