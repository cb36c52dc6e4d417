(** Property C78: every attribute of every class of object follows the variants. *)
From stdpp Require Import gmap strings.
From Verif Require Import Base Variants VariantsSpec VariantCode VariantCodeSpec VariantCodeProofs VariantCodeRefine.

(** For every network, of any objects with their terminals, tap changers, legs, generations and extensions (SlackTerminal apart), and every
    history of variant operations, writes and creations (see [ts_safe]): the calls return or throw as specified, the variants are those of
    the specification, and reading any attribute of any object gives the value that the working variant's own copy of the network has. *)
Theorem C78_history {A} (ops : list (tmop A)) : ts_all_safe ops ts_init ->
  Forall2 outcome (ts_run ops ts_init).2 (tm_exec ops tm_init).2 /\
  (forall id, is_Some (tm_ids (tm_exec ops tm_init).1 !! id) <-> is_Some (ts_vals (ts_run ops ts_init).1 !! id)) /\
  (forall l, match ts_read (ts_run ops ts_init).1 l with
     | Some x => tm_read (tm_exec ops tm_init).1 l = Ok (Some x)
     | None => exists m, tm_read (tm_exec ops tm_init).1 l = Throw m
     end).
Proof.
  intros Hs. destruct (tsim_run ops tm_init ts_init TR_init Hs) as [r HF]. split; [exact HF|]. split; [apply r|]. intros l. by apply TR_read.
Qed.

(** The direct form, for any state of such a history: after cloneVariant, selecting a target and reading any attribute gives what selecting
    the source gave before; selecting another variant gives what it gave. *)
Theorem C78_clone {A} (ops : list (tmop A)) src t ow id l x : ts_all_safe ops ts_init ->
  let s := (tm_exec ops tm_init).1 in
  (tm_clone s src [t] ow).2 = Ok tt ->
  tm_read (tm_set_working s (if bool_decide (id = t) then src else id)).1 l = Ok (Some x) ->
  (tm_set_working s (if bool_decide (id = t) then src else id)).2 = Ok tt ->
  tm_read (tm_set_working (tm_clone s src [t] ow).1 id).1 l = Ok (Some x).
Proof.
  intros Hs s Hc Hr Hw. destruct (tsim_run ops tm_init ts_init TR_init Hs) as [r _]. fold s in r. set (p := (ts_run ops ts_init).1) in *.
  destruct (tsim s p (TmClone src [t] ow) r) as [r1 O1]; [left; simpl; lia|]. cbn [tm_step] in *. rewrite Hc in O1.
  destruct (ts_step p (TmClone src [t] ow)).2 eqn:E1; [|by destruct O1]. cbn [ts_step] in *.
  destruct (ts_vals p !! src) as [v|] eqn:Hv; [|done]. cbn [bool_decide] in *. rewrite bool_decide_false in E1, r1 by done. destruct (negb ow && _); [done|]. cbn [fst foldr] in r1.
  set (id0 := if bool_decide (id = t) then src else id) in *.
  destruct (tsim s p (TmSetWorking id0) r) as [r2 O2]; [done|]. cbn [tm_step ts_step] in *. rewrite Hw in O2. destruct (ts_vals p !! id0) as [w|] eqn:Hw0; [|by destruct O2].
  cbn [fst] in r2. pose proof (TR_read _ _ l r2) as R2. unfold ts_read in R2. cbn [ts_work ts_vals mbind option_bind] in R2. rewrite Hw0 in R2. cbn [mbind option_bind] in R2.
  destruct (tsim _ _ (TmSetWorking id) r1) as [r3 O3]; [done|]. cbn [tm_step ts_step ts_vals] in r3.
  assert (<[t := v]> (ts_vals p) !! id = Some w) as Hid.
  { unfold id0 in Hw0. case_bool_decide as Ht; [subst id; rewrite lookup_insert; congruence|by rewrite lookup_insert_ne]. }
  rewrite Hid in r3. cbn [fst] in r3. pose proof (TR_read _ _ l r3) as R3. unfold ts_read in R3. cbn [ts_work ts_vals mbind option_bind] in R3. rewrite Hid in R3. cbn [mbind option_bind] in R3.
  destruct (snd <$> vec_at w l) as [y|]; [congruence|]. destruct R2; congruence.
Qed.

(** The SlackTerminal extension breaks it: after a variant is removed, another variant's slack terminal cannot be read. *)
Definition slack_tree : vtree nat :=
  VTree KBusBreaker {["m_variants" := 5]} [("extensions", VTree KSlackTerminal {["m_terminals" := 7]} [])].
Theorem C78_slack_refuted : exists (ops : list (tmop nat)) l,
  (tm_exec ops tm_init).2 = [Ok tt; Ok tt; Ok tt; Ok tt; Ok tt] /\
  ts_read (ts_run ops ts_init).1 l = Some 7 /\ tm_read (tm_exec ops tm_init).1 l = UB.
Proof.
  exists [TmNew slack_tree; TmClone "InitialVariant" ["a"] false; TmClone "a" ["b"] false; TmRemove "b"; TmSetWorking "a"], (mkLoc 0 [0] "m_terminals").
  split; [|split]; vm_compute; reflexivity.
Qed.

(** A transformer with three legs, a tap changer added later, terminals of both kinds, and a load with its detail. *)
Definition mk (c : cls) (x : nat) (ps : list (string * vtree nat)) : vtree nat := VTree c (list_to_map (map (fun p => (p.1, x)) (members c))) ps.
Definition t3w : vtree nat :=
  mk KThreeWindings 0 [("terminals", mk KNodeTerminal 1 []); ("terminals", mk KBusTerminal 2 []); ("legs", mk KLeg 0 [("ratio", mk KRatioTapChanger 3 [])]); ("legs", mk KLeg 0 [])].
Definition load : vtree nat := mk KLoad 4 [("terminals", mk KBusTerminal 5 []); ("extensions", mk KLoadDetail 6 []); ("extensions", mk KOtherExtension 0 [])].
Definition ops : list (tmop nat) :=
  [TmNew t3w; TmClone "InitialVariant" ["a"; "b"] false; TmNew load; TmSetWorking "a"; TmWrite (mkLoc 0 [2; 0] "m_tapPosition") 30;
   TmWrite (mkLoc 1 [1] "m_fixedActivePower") 60; TmClone "a" ["c"] false; TmRemove "a"; TmClone "c" ["d"] false;
   TmAttach 0 [3] "phase" (mk KPhaseTapChanger 8 []); TmSetWorking "d"; TmWrite (mkLoc 0 [1] "m_connectableBusId") 20; TmClone "InitialVariant" ["c"] true].
Lemma mk_shaped c x ps : (forall p, p ∈ ps -> slot_ok c p.1 (t_cls p.2) = true /\ shaped p.2) -> shaped (mk c x ps).
Proof.
  intros H. apply shaped_unfold. split; [|exact H]. intros m.
  assert (map fst (members c) = (map (fun p => (p.1, x)) (members c)).*1) as -> by (by rewrite <- list_fmap_compose).
  rewrite <- not_eq_None_Some. destruct (decide (m ∈ (map (fun p => (p.1, x)) (members c)).*1)) as [Hm|Hm].
  - split; [done|]. intros _ E. by apply not_elem_of_list_to_map in E.
  - split; [|done]. intros E. destruct E. by apply not_elem_of_list_to_map.
Qed.
Ltac shape := repeat first
  [ apply mk_shaped; intros ? ?
  | match goal with H : _ ∈ [] |- _ => by apply elem_of_nil in H end
  | match goal with H : _ ∈ _ :: _ |- _ => apply elem_of_cons in H as [->|H] end
  | split; [reflexivity|]; cbn [snd] ].
Lemma t3w_ok : shaped t3w /\ no_slack t3w.
Proof. split; [unfold t3w; shape|]. cbn. repeat split; discriminate. Qed.
Lemma load_ok : shaped load /\ no_slack load.
Proof. split; [unfold load; shape|]. cbn. repeat split; discriminate. Qed.
Lemma phase_ok : shaped (mk KPhaseTapChanger 8 []) /\ no_slack (mk KPhaseTapChanger 8 []).
Proof. split; [shape|]. cbn. repeat split; discriminate. Qed.
Example C78_case : ts_all_safe ops ts_init /\
  map (fun l => tm_read (tm_exec ops tm_init).1 l)
    [mkLoc 0 [2; 0] "m_tapPosition"; mkLoc 1 [1] "m_fixedActivePower"; mkLoc 0 [1] "m_connectableBusId"; mkLoc 0 [3; 0] "m_regulationValue"; mkLoc 1 [] "m_p0"] =
    [Ok (Some 30); Ok (Some 60); Ok (Some 20); Ok (Some 8); Ok (Some 4)] /\
  tm_read (tm_set_working (tm_exec ops tm_init).1 "c").1 (mkLoc 0 [2; 0] "m_tapPosition") = Ok (Some 3) /\
  tm_ids (tm_exec ops tm_init).1 !! "a" = None.
Proof.
  split; [|split; [|split]; vm_compute; reflexivity].
  unfold ops. cbn [ts_all_safe ts_safe]. split; [exact t3w_ok|]. split.
  { right. split; [apply (bool_decide_unpack _); vm_compute; exact I|]. right. intros t Ht. apply elem_of_cons in Ht as [->|Ht]; [vm_compute; reflexivity|].
    apply elem_of_list_singleton in Ht as ->. vm_compute. reflexivity. }
  split; [exact load_ok|]. do 3 (split; [exact I|]). split; [left; simpl; lia|]. split; [exact I|]. split; [left; simpl; lia|]. split.
  { split; [apply phase_ok|]. split; [apply phase_ok|]. intros id objs H.
    match type of H with ts_vals ?p !! _ = _ => set (q := p) in H end.
    assert (forallb (fun x => match x.2 !! 0 with Some t => match part_at t [3] with Some v => slot_ok (t_cls v) "phase" KPhaseTapChanger | None => false end | None => false end)
      (map_to_list (ts_vals q)) = true) as HF by (vm_compute; reflexivity).
    rewrite forallb_forall in HF. specialize (HF (id, objs) (proj1 (elem_of_list_In _ _) (proj2 (elem_of_map_to_list _ _ _) H))). cbn [snd] in HF.
    destruct (objs !! 0) as [t|]; [|done]. destruct (part_at t [3]) as [v|] eqn:Ev; [|done]. eauto. }
  split; [exact I|]. split; [exact I|]. split; [left; simpl; lia|exact I].
Qed.
Print Assumptions C78_history.
Print Assumptions C78_clone.
Print Assumptions C78_slack_refuted.
