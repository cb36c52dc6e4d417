(** Properties C15, C16, C17 and C18: tap changers. *)
From Verif Require Import Equip TapChanger TapChangerProofs TransformerProofs.

(** Reachable tap changers: created by an adder that accepts the values, then any setters and variant operations. *)
Notation tc_reach safe := (ereach tc_call tc_init safe).
Definition ratio_init (s : tsh) (v : tvar) : Prop := ts_kind s = Ratio /\ tc_init s v.
Definition phase_init (s : tsh) (v : tvar) : Prop := ts_kind s = Phase /\ tc_init s v.

Lemma tc_reach_wf init safe st : ereach tc_call init safe st -> ewf st.
Proof. intros H. by apply (ereach_inv tc_call init safe (fun _ _ => True)) in H as [W _]; auto using tc_call_keeps. Qed.

(** A step, its tap changer. *)
Definition ex_step (r : Q) : tstep := mkStep (Fin r) (Fin 0) (Fin 0) (Fin 0) (Fin 0) (Fin 0).
Definition ex_term : term := mkT 7 true.
Definition ex_ratio : tsh := mkTs Ratio 0 [ex_step 1; ex_step (11#10); ex_step (12#10)] (Some ex_term) true FIXED_TAP.
Definition ex_rv (reg : bool) : tvar := mkTv 1 reg (Fin 0) (Fin 400).
Definition ex_phase : tsh := mkTs Phase 0 [ex_step 1; ex_step (11#10); ex_step (12#10)] (Some ex_term) false CURRENT_LIMITER.
Lemma ex_ratio_init reg : ratio_init ex_ratio (ex_rv reg).
Proof. split; [done|]. exists (Some 1%Z), reg, (Fin 0), (Fin 400). by destruct reg. Qed.
Lemma ex_phase_init reg : phase_init ex_phase (ex_rv reg).
Proof. split; [done|]. exists (Some 1%Z), reg, (Fin 0), (Fin 400). by destruct reg. Qed.

(** ** C15 *)
(** Full statement: every reachable tap changer has its tap position in the range, in every variant.  It does not hold: see
    the two refutations.  Proved when setLowTapPosition is only called while the tap changer has one variant, the working one
    (any other setter, and any variant operation, at any time). *)
Theorem C15_tap_in_range_partial st id v : tc_reach low_safe st -> e_vars st !! id = Some v ->
  (ts_low (e_sh st) <= tv_tap v <= ts_low (e_sh st) + Z.of_nat (length (ts_steps (e_sh st))) - 1)%Z /\
  exists step, tc_current_step (e_sh st) v = Ok step /\ ts_steps (e_sh st) !! Z.to_nat (tv_tap v - ts_low (e_sh st)) = Some step.
Proof.
  intros R Hv. apply (ereach_inv tc_call tc_init low_safe tap_ok) in R as [W E].
  - pose proof (E _ _ Hv) as H. split; [done|]. unfold tc_current_step, tc_get_step. unfold tap_ok in H.
    rewrite (proj2 (checkTap_ok _ _ _) H). simpl. unfold vget. unfold tc_high in H.
    destruct (lookup_lt_is_Some_2 (ts_steps (e_sh st)) (Z.to_nat (tv_tap v - ts_low (e_sh st)))) as [x Hx]; [lia|]. rewrite Hx. eauto.
  - intros s w (tap & reg & db & val & H). by apply adder_ok in H as (_ & _ & ? & _).
  - intros. by apply tc_call_keeps.
  - intros. by apply tap_ok_keeps.
Qed.
(** setLowTapPosition while another variant exists: the other variant leaves the range, and getCurrentStep throws there. *)
Definition ex_low_ops : list (eop tcall) := [EClone initial_variant "v" false; ECall (TSetLow 5)].
Theorem C15_tap_in_range_refuted : exists st id v, tc_reach always st /\ e_cur st <> None /\ e_vars st !! id = Some v /\
  ~ (ts_low (e_sh st) <= tv_tap v)%Z /\ exists m, tc_current_step (e_sh st) v = Throw m.
Proof.
  exists (erun tc_call (enew ex_ratio (ex_rv false)) ex_low_ops), "v", (ex_rv false).
  split; [apply ereach_run, (er_new _ _ _ ex_ratio (ex_rv false)); [apply ex_ratio_init|apply enew_created]|].
  split; [vm_compute; done|]. split; [vm_compute; done|]. split; [vm_compute; intros H; by destruct H|]. eexists. vm_compute. done.
Qed.
(** setLowTapPosition keeps the current step of the working variant, and the step objects. *)
Theorem C15_set_low_keeps_current_step init safe st l st' i v :
  ereach tc_call init safe st -> e_cur st = Some i -> e_vars st !! i = Some v ->
  tc_call (TSetLow l) st = (Ok tt, st') ->
  exists v', e_vars st' !! i = Some v' /\ tc_current_step (e_sh st') v' = tc_current_step (e_sh st) v /\
    ts_low (e_sh st') = l /\ (forall id, id <> i -> e_vars st' !! id = e_vars st !! id).
Proof.
  intros R%tc_reach_wf Hc Hv. simpl. destruct (tc_set_low_cases l st R) as [(i' & v0 & Hc' & Hv' & ->)|(Hc' & m & ->)]; [|done].
  assert (i' = i) as -> by congruence. assert (v0 = v) as -> by congruence. intros [= <-]. simpl. eexists. rewrite lookup_insert.
  split; [done|]. split; [|split; [done|by intros; rewrite lookup_insert_ne]].
  unfold tc_current_step, tc_get_step, tc_high, checkTapPosition. simpl.
  replace (tv_tap v + l - ts_low (e_sh st) - l)%Z with (tv_tap v - ts_low (e_sh st))%Z by lia.
  rewrite (bool_decide_ext (tv_tap v + l - ts_low (e_sh st) < l)%Z (tv_tap v < ts_low (e_sh st))%Z) by lia.
  rewrite (bool_decide_ext (l + Z.of_nat (length (ts_steps (e_sh st))) - 1 < tv_tap v + l - ts_low (e_sh st))%Z
     (ts_low (e_sh st) + Z.of_nat (length (ts_steps (e_sh st))) - 1 < tv_tap v)%Z) by lia. done.
Qed.
(** setLowTapPosition called with no working variant throws, but the range has moved. *)
Theorem C15_failed_set_low_refuted : exists st l m st', tc_reach always st /\ tc_call (TSetLow l) st = (Throw m, st') /\
  ts_low (e_sh st') <> ts_low (e_sh st) /\ exists id v, e_vars st' !! id = Some v /\ ~ (ts_low (e_sh st') <= tv_tap v)%Z.
Proof.
  set (st := erun tc_call (enew ex_ratio (ex_rv false)) [EClone initial_variant "v" false; EWork "v"; ERemove "v"]).
  exists st, 5%Z, "Variant index not set", (tc_call (TSetLow 5) st).2.
  split; [apply ereach_run, (er_new _ _ _ ex_ratio (ex_rv false)); [apply ex_ratio_init|apply enew_created]|].
  split; [vm_compute; done|]. split; [vm_compute; done|]. exists initial_variant, (ex_rv false). split; [vm_compute; done|].
  vm_compute. intros H. by destruct H.
Qed.
Example C15_case : exists st v, tc_reach low_safe st /\ e_vars st !! "v" = Some v /\ ts_low (e_sh st) = 5%Z /\ tv_tap v = 7%Z /\
  exists w, e_vars st !! initial_variant = Some w /\ tv_tap w = 6%Z.
Proof.
  exists (erun tc_call (enew ex_ratio (ex_rv false)) [ECall (TSetLow 5); EClone initial_variant "v" false; EWork "v"; ECall (TSetTap 7); ECall (TSetTap 8)]).
  exists (mkTv 7 false (Fin 0) (Fin 400)). split.
  - cbn [erun]. repeat (apply er_step; [|done]). apply er_step; [apply (er_new _ _ _ ex_ratio (ex_rv false)); [apply ex_ratio_init|apply enew_created]|].
    simpl. right. split; [done|]. intros id [w Hw]. apply lookup_singleton_Some in Hw as [-> _]. done.
  - split; [vm_compute; done|]. split; [vm_compute; done|]. split; [done|]. eexists. split; vm_compute; done.
Qed.

(** ** C16 *)
(** Full statement: whenever a ratio tap changer regulates and has load tap changing capabilities, it is completely configured.
    It does not hold: see the refutations.  Proved when the load tap changing capability is not switched on while a variant
    regulates and the terminal is not unset while another variant than the working one regulates. *)
Theorem C16_regulating_ratio_configured_partial st id v : ereach tc_call ratio_init ratio_safe st -> e_vars st !! id = Some v ->
  tv_reg v = true -> ts_ltc (e_sh st) = true ->
  positive (tv_val v) /\ defined (tv_db v) /\ non_negative (tv_db v) /\ exists t, ts_term (e_sh st) = Some t /\ t_here t = true.
Proof.
  intros R Hv Hr Hl. apply (ereach_inv tc_call ratio_init ratio_safe (fun s v => kind_is Ratio s v /\ ratio_ok s v)) in R as [W E].
  - destruct (E _ _ Hv) as [_ [[H1 H2] H3]]. destruct (H3 Hr) as (t & H4 & H5). destruct (H5 Hl) as [H6 H7]. specialize (H1 Hr).
    split; [done|]. split; [done|]. split; [|eauto]. by destruct H2.
  - intros s w [Hk (tap & reg & db & val & H)]. apply adder_ok in H as (_ & _ & _ & H). rewrite Hk in H. done.
  - intros. by apply tc_call_keeps.
  - intros. by apply ratio_keeps.
Qed.
(** The target deadband needs no condition: whenever it regulates (ratio or phase), the deadband is defined and not negative. *)
Definition any_deadband (s : tsh) (v : tvar) : Prop := deadband_ok v.
Lemma deadband_keeps c st : ewf st -> everywhere any_deadband st -> everywhere any_deadband (tc_call c st).2.
Proof.
  intros W E. destruct c as [p|l|b|d|t|x|b|md].
  - apply run_setter_inv; [done|apply (tcall_no_ub (TSetTap p))|done|]. simpl. intros i v v' _ _ H (_ & [= <-])%seq_Ok. done.
  - simpl. destruct (tc_set_low_cases l st W) as [(i & v & Hc & Hv & ->)|(Hc & m & ->)]; intros id w; simpl.
    + intros [[<- <-]|[Hne Hw]]%lookup_insert_Some; [exact (E _ _ Hv)|exact (E _ _ Hw)].
    + intros Hw. exact (E _ _ Hw).
  - apply run_setter_inv; [done|apply (tcall_no_ub (TSetReg b))|done|]. simpl. intros i v v' _ _ H (_ & (H4%checkDb_ok & [= <-])%seq_Ok)%seq_Ok. done.
  - apply run_setter_inv; [done|apply (tcall_no_ub (TSetDb d))|done|]. simpl. intros i v v' _ _ H (H3%checkDb_ok & [= <-])%seq_Ok. done.
  - apply run_setter_inv; [done|apply (tcall_no_ub (TSetTerm t))|done|]. simpl. intros i v s' _ _ _ id w _ H. exact H.
  - apply run_setter_inv; [done|apply (tcall_no_ub (TSetVal x))|done|]. simpl. intros i v v' _ _ H (_ & [= <-])%seq_Ok. done.
  - apply run_setter_inv; [done|apply (tcall_no_ub (TSetLtc b))|done|]. simpl. intros i v s' _ _ _ id w _ H. exact H.
  - apply run_setter_inv; [done|apply (tcall_no_ub (TSetMode md))|done|]. simpl. intros i v s' _ _ _ id w _ H. exact H.
Qed.
Lemma deadband_reach st id v : tc_reach always st -> e_vars st !! id = Some v ->
  (tv_db v = NaN \/ non_negative (tv_db v)) /\ (tv_reg v = true -> defined (tv_db v) /\ non_negative (tv_db v)).
Proof.
  intros R Hv. apply (ereach_inv tc_call tc_init always any_deadband) in R as [W E].
  - destruct (E _ _ Hv) as [H1 H2]. split; [done|]. intros Hr. specialize (H1 Hr). split; [done|]. by destruct H2.
  - intros s w (tap & reg & db & val & H). apply adder_ok in H as (_ & _ & _ & H). by destruct (ts_kind s); apply H.
  - intros. by apply tc_call_keeps.
  - intros. by apply deadband_keeps.
Qed.
Theorem C16_deadband_always st id v : tc_reach always st -> e_vars st !! id = Some v ->
  (tv_db v = NaN \/ non_negative (tv_db v)) /\ (tv_reg v = true -> defined (tv_db v) /\ non_negative (tv_db v)).
Proof. apply deadband_reach. Qed.
(** setLoadTapChangingCapabilities(true) validates the former capability: one variant is enough. *)
Definition ex_noltc : tsh := mkTs Ratio 0 [ex_step 1; ex_step (11#10)] (Some ex_term) false FIXED_TAP.
Theorem C16_ltc_capability_refuted : exists st id v, ereach tc_call ratio_init always st /\ e_vars st !! id = Some v /\
  tv_reg v = true /\ ts_ltc (e_sh st) = true /\ ~ defined (tv_val v) /\ forall id', is_Some (e_vars st !! id') -> id' = id.
Proof.
  set (v := mkTv 0 true (Fin 0) NaN).
  exists (erun tc_call (enew ex_noltc v) [ECall (TSetLtc true)]), initial_variant, v.
  split; [apply ereach_run, (er_new _ _ _ ex_noltc v); [|apply enew_created]; split; [done|]; by exists (Some 0%Z), true, (Fin 0), NaN|].
  split; [vm_compute; done|]. split; [vm_compute; done|]. split; [vm_compute; done|]. split; [by intros H; apply H|].
  intros id' [w Hw]. change (({[initial_variant := v]} : gmap string tvar) !! id' = Some w) in Hw. by apply lookup_singleton_Some in Hw as [-> _].
Qed.
(** The terminal is shared by the variants but checked against the working variant only. *)
Theorem C16_terminal_refuted : exists st id v, ereach tc_call ratio_init always st /\ e_vars st !! id = Some v /\
  tv_reg v = true /\ ts_ltc (e_sh st) = true /\ ts_term (e_sh st) = None.
Proof.
  exists (erun tc_call (enew ex_ratio (ex_rv true)) [EClone initial_variant "v" false; ECall (TSetReg false); ECall (TSetTerm None)]), "v", (ex_rv true).
  split; [apply ereach_run, (er_new _ _ _ ex_ratio (ex_rv true)); [apply ex_ratio_init|apply enew_created]|].
  split; [vm_compute; done|]. split; [vm_compute; done|]. split; vm_compute; done.
Qed.
(** Failing setters change nothing, setLowTapPosition without working variant excepted (C15_failed_set_low_refuted). *)
Theorem C16_failed_setter_changes_nothing init safe st c m st' : ereach tc_call init safe st ->
  (forall l, c = TSetLow l -> e_cur st <> None) -> tc_call c st = (Throw m, st') -> st' = st.
Proof. intros R%tc_reach_wf. by apply tc_call_throw. Qed.
Theorem C16_setters_memory_safe init safe st c : ereach tc_call init safe st -> (tc_call c st).1 <> UB /\ (tc_call c st).1 <> OutOfFuel.
Proof. intros R%tc_reach_wf. by apply tc_call_no_ub. Qed.
Example C16_case : exists st v, ereach tc_call ratio_init ratio_safe st /\ e_vars st !! "v" = Some v /\ tv_reg v = true /\
  ts_ltc (e_sh st) = true /\ tv_val v = Fin 225 /\ (tc_call (TSetVal (Fin (-1))) st).1 <> Ok tt /\
  exists w, e_vars st !! initial_variant = Some w /\ tv_reg w = false.
Proof.
  exists (erun tc_call (enew ex_ratio (ex_rv false)) [EClone initial_variant "v" false; EWork "v"; ECall (TSetVal (Fin 225)); ECall (TSetReg true);
    ECall (TSetTerm (Some (mkT 8 true)))]).
  exists (mkTv 1 true (Fin 0) (Fin 225)). split.
  - cbn [erun]. repeat (apply er_step; [|done]). apply (er_new _ _ _ ex_ratio (ex_rv false)); [apply ex_ratio_init|apply enew_created].
  - split; [vm_compute; done|]. split; [done|]. split; [vm_compute; done|]. split; [done|]. split; [vm_compute; done|]. eexists. split; vm_compute; done.
Qed.

(** ** C17 *)
(** Full statement: in every reachable state of a transformer, no variant has two regulating tap changers.  It does not hold:
    see the refutations.  Proved when setRegulating(true) is only called while no other tap changer of the transformer regulates
    in the working variant, and a tap changer added with regulation on is added while no other one regulates in the variants
    other than the working one (the adder checks the working one). *)
Theorem C17_at_most_one_regulating_partial st id m k k' v v' : ereach x_call x_init one_safe st -> e_vars st !! id = Some m ->
  m !! k = Some v -> m !! k' = Some v' -> tv_reg v = true -> tv_reg v' = true -> k = k'.
Proof.
  intros R Hm. apply (ereach_inv x_call x_init one_safe (fun s m => same_slots s m /\ at_most_one m)) in R as [W E].
  - destruct (E _ _ Hm) as [_ H]. apply H.
  - intros s w [-> ->]. split.
    + intros j. rewrite !lookup_empty. split; intros [? ?]; done.
    + intros ? ? ? ? H. done.
  - intros. apply x_keeps.
  - intros. by apply xone_keeps.
Qed.
(** The check of the adder, in any reachable state: a tap changer added with regulation on is the only regulating one in the
    working variant. *)
Theorem C17_adder_checks_working_variant st k s tap db val st' i m k' v : ereach x_call x_init always st ->
  x_call (XAdd k s tap true db val) st = (Ok tt, st') -> (forall i m, e_cur st = Some i -> e_vars st !! i = Some m -> at_most_one m) ->
  e_cur st' = Some i -> e_vars st' !! i = Some m -> m !! k' = Some v -> tv_reg v = true -> k' = k.
Proof.
  intros [W E]%x_wf Hx Hone Hc Hm Hk' Hr.
  destruct (xadd_cases k s tap true db val st) as [(v0 & was & n & A & Ew & En & Hn & E')|(r & E' & Hr')]; [|congruence].
  rewrite E' in Hx. injection Hx as <-. simpl in Hc, Hm. rewrite lookup_fmap in Hm. apply fmap_Some in Hm as (m0 & Hm0 & ->).
  specialize (Hone _ _ Hc Hm0). specialize (Hn eq_refl).
  destruct (decide (k' = k)) as [|Hne]; [done|]. rewrite lookup_insert_ne in Hk' by done. exfalso.
  assert (n = length (regulating_in m0)) as ->.
  { revert En. unfold xcount, abind, ashared, aget, aindex, abind, aret. case_bool_decide as He.
    - intros _. exfalso. destruct (proj1 (E _ _ Hm0 k') ltac:(eauto)) as [s' Hs']. rewrite He in Hs'. done.
    - rewrite Hc, Hm0. by intros [= <-]. }
  assert (was = match m0 !! k with Some w => tv_reg w | None => false end) as Hwas.
  { revert Ew. unfold xwas, abind, ashared, aget, aindex, abind, aret. destruct (e_sh st !! k) as [s'|] eqn:Hk.
    - rewrite Hc, Hm0. by intros [= <-].
    - intros [= <-]. destruct (m0 !! k) eqn:Hk0; [|done]. destruct (proj1 (E _ _ Hm0 k) ltac:(eauto)) as [? ?]. congruence. }
  assert (k' ∈ regulating_in m0) as Hin by (apply regulating_in_spec; eauto).
  destruct was.
  - destruct (m0 !! k) as [w0|] eqn:Hk0; [|done]. apply Hne. exact (Hone _ _ _ _ Hk' Hk0 Hr (eq_sym Hwas)).
  - destruct (regulating_in m0); [by apply elem_of_nil in Hin|]. simpl in Hn. done.
Qed.
Definition ex_add k (reg : bool) : eop xcall := ECall (XAdd k (if bool_decide (k = 0) then ex_ratio else ex_phase) (Some 1%Z) reg (Fin 0) (Fin 400)).
Definition ex_x : xst := enew ∅ ∅.
Lemma ex_x_reach safe : ereach x_call x_init safe ex_x.
Proof. apply (er_new _ _ _ ∅ ∅); [done|apply enew_created]. Qed.
(** Without variant operation there is one variant, the working one. *)
Lemma ex_single cs id : is_Some (e_vars (erun x_call ex_x (ECall <$> cs)) !! id) -> Some id = Some initial_variant /\ e_cur (erun x_call ex_x (ECall <$> cs)) = Some id.
Proof.
  assert (forall st, keeps_variants st (erun x_call st (ECall <$> cs))) as H.
  { induction cs as [|c cs IH]; intros st; [done|]. simpl. destruct (x_keeps c st) as [H1 H2]. destruct (IH (x_call c st).2) as [H3 H4].
    split; [exact (eq_trans H3 H1)|]. intros id'. etransitivity; [apply H4|apply H2]. }
  destruct (H ex_x) as [H1 H2]. intros Hi%H2. destruct Hi as [w Hw]. unfold ex_x, enew in Hw. simpl in Hw. apply lookup_singleton_Some in Hw as [<- _]. by rewrite H1.
Qed.
Ltac two_regulating := eexists; eexists; split; [vm_compute; reflexivity|]; split; [vm_compute; reflexivity|]; split; reflexivity.
(** setRegulating does not look at the other tap changers: one variant is enough. *)
Theorem C17_set_regulating_refuted : exists st id m, ereach x_call x_init always st /\ e_vars st !! id = Some m /\
  (exists v v', m !! 0 = Some v /\ m !! 1 = Some v' /\ tv_reg v = true /\ tv_reg v' = true) /\ (forall id', is_Some (e_vars st !! id') -> id' = id).
Proof.
  set (st := erun x_call ex_x [ex_add 0 true; ex_add 1 false; ECall (XCall 1 (TSetReg true))]).
  exists st, initial_variant, (default ∅ (e_vars st !! initial_variant)). split; [apply ereach_run, ex_x_reach|]. split; [vm_compute; reflexivity|].
  split; [two_regulating|]. intros id' H. unfold st in H. apply (ex_single [XAdd 0 ex_ratio (Some 1%Z) true (Fin 0) (Fin 400); XAdd 1 ex_phase (Some 1%Z) false (Fin 0) (Fin 400); XCall 1 (TSetReg true)]) in H as [H _]. congruence.
Qed.
(** The adder checks the working variant but the tap changer regulates in all of them. *)
Theorem C17_adder_other_variant_refuted : exists st id m, ereach x_call x_init always st /\ e_vars st !! id = Some m /\
  (exists v v', m !! 0 = Some v /\ m !! 1 = Some v' /\ tv_reg v = true /\ tv_reg v' = true).
Proof.
  set (st := erun x_call ex_x [ex_add 0 false; EClone initial_variant "v" false; EWork "v"; ECall (XCall 0 (TSetReg true)); EWork initial_variant; ex_add 1 true]).
  exists st, "v", (default ∅ (e_vars st !! "v")). split; [apply ereach_run, ex_x_reach|]. split; [vm_compute; reflexivity|]. two_regulating.
Qed.
(** What is said of a tap changer alone (C15, C16, C18) holds of the tap changers of a transformer. *)
Theorem C17_tap_changers_of_transformer safe st k st1 : ereach x_call x_init safe st -> xfocus k st = Some st1 ->
  tc_reach always st1 /\ (forall id m, e_vars st !! id = Some m -> e_vars st1 !! id = m !! k).
Proof.
  intros R F. split; [by eapply x_focus_reach|]. apply xfocus_proj in F as (s & _ & ->). intros id m Hm. by rewrite xproj_vars, Hm.
Qed.
Example C17_case : exists st m v, ereach x_call x_init one_safe st /\ e_vars st !! initial_variant = Some m /\ m !! 1 = Some v /\
  tv_reg v = true /\ exists w, m !! 0 = Some w /\ tv_reg w = false.
Proof.
  set (st := erun x_call ex_x [ex_add 0 true; ex_add 1 false; ex_add 1 true; ECall (XCall 0 (TSetReg false)); ex_add 1 true]).
  exists st, (default ∅ (e_vars st !! initial_variant)), (ex_rv true). split.
  - unfold st. cbn [erun].
    assert (forall st o, ereach x_call x_init one_safe st -> (forall id, is_Some (e_vars st !! id) -> e_cur st = Some id) ->
       match o with ECall (XCall _ (TSetReg true)) => False | _ => True end -> ereach x_call x_init one_safe (estep x_call st o).2) as H.
    { intros st0 o R H Ho. apply er_step; [done|]. destruct o as [[k c|k s tap [] db val|k]| | |]; try done.
      - destruct c as [| |[]| | | | |]; done.
      - simpl. intros id m k' w Hne Hm. exfalso. apply Hne, H. eauto. }
    set (c1 := XAdd 0 ex_ratio (Some 1%Z) true (Fin 0) (Fin 400)). set (c2 := XAdd 1 ex_phase (Some 1%Z) false (Fin 0) (Fin 400)).
    set (c3 := XAdd 1 ex_phase (Some 1%Z) true (Fin 0) (Fin 400)).
    apply H; [|intros id Hid; exact (proj2 (ex_single [c1; c2; c3; XCall 0 (TSetReg false)] id Hid))|done].
    apply H; [|intros id Hid; exact (proj2 (ex_single [c1; c2; c3] id Hid))|done].
    apply H; [|intros id Hid; exact (proj2 (ex_single [c1; c2] id Hid))|done].
    apply H; [|intros id Hid; exact (proj2 (ex_single [c1] id Hid))|done].
    apply H; [apply ex_x_reach|intros id Hid; exact (proj2 (ex_single [] id Hid))|done].
  - split; [vm_compute; reflexivity|]. split; [vm_compute; reflexivity|]. split; [done|]. eexists. split; [vm_compute; reflexivity|done].
Qed.

(** ** C18 *)
(** Full statement: whenever a phase tap changer regulates, it is completely configured.  It does not hold: see the refutations.
    Proved when setRegulating(true) is only called on a configured tap changer, and the mode and the terminal are not set to
    FIXED_TAP / no terminal while another variant than the working one regulates. *)
Theorem C18_regulating_phase_configured_partial st id v : ereach tc_call phase_init phase_safe st -> e_vars st !! id = Some v ->
  tv_reg v = true ->
  ts_mode (e_sh st) <> FIXED_TAP /\ defined (tv_val v) /\ defined (tv_db v) /\ non_negative (tv_db v) /\
  exists t, ts_term (e_sh st) = Some t /\ t_here t = true.
Proof.
  intros R Hv Hr. apply (ereach_inv tc_call phase_init phase_safe (fun s v => kind_is Phase s v /\ phase_ok s v)) in R as [W E].
  - destruct (E _ _ Hv) as [_ ([H1 H2] & H3 & H4)]. destruct (H4 Hr) as (H5 & H6 & H7). specialize (H1 Hr).
    split; [done|]. split; [done|]. split; [done|]. split; [by destruct H2|].
    destruct (ts_term (e_sh st)) as [t|]; [|done]. exists t. auto.
  - intros s w [Hk (tap & reg & db & val & H)]. apply adder_ok in H as (_ & _ & _ & H). rewrite Hk in H. done.
  - intros. by apply tc_call_keeps.
  - intros. by apply phase_keeps.
Qed.
(** setRegulating(true) checks the deadband only: one variant is enough. *)
Definition ex_fixed : tsh := mkTs Phase 0 [ex_step 1; ex_step (11#10)] None false FIXED_TAP.
Theorem C18_set_regulating_refuted : exists st id v, ereach tc_call phase_init always st /\ e_vars st !! id = Some v /\
  tv_reg v = true /\ ts_mode (e_sh st) = FIXED_TAP /\ ~ defined (tv_val v) /\ ts_term (e_sh st) = None /\
  forall id', is_Some (e_vars st !! id') -> id' = id.
Proof.
  set (v := mkTv 0 false (Fin 0) NaN).
  exists (erun tc_call (enew ex_fixed v) [ECall (TSetReg true)]), initial_variant, (mkTv 0 true (Fin 0) NaN).
  split; [apply ereach_run, (er_new _ _ _ ex_fixed v); [|apply enew_created]; split; [done|]; by exists (Some 0%Z), false, (Fin 0), NaN|].
  split; [vm_compute; done|]. split; [vm_compute; done|]. split; [vm_compute; done|]. split; [by intros H; apply H|]. split; [done|].
  intros id' [w Hw]. change (({[initial_variant := mkTv 0 true (Fin 0) NaN]} : gmap string tvar) !! id' = Some w) in Hw.
  by apply lookup_singleton_Some in Hw as [-> _].
Qed.
(** The mode is shared by the variants but checked against the working variant only. *)
Theorem C18_mode_refuted : exists st id v, ereach tc_call phase_init always st /\ e_vars st !! id = Some v /\
  tv_reg v = true /\ ts_mode (e_sh st) = FIXED_TAP.
Proof.
  exists (erun tc_call (enew ex_phase (ex_rv true)) [EClone initial_variant "v" false; ECall (TSetReg false); ECall (TSetMode FIXED_TAP)]), "v", (ex_rv true).
  split; [apply ereach_run, (er_new _ _ _ ex_phase (ex_rv true)); [apply ex_phase_init|apply enew_created]|].
  split; [vm_compute; done|]. split; vm_compute; done.
Qed.
Example C18_case : exists st v, ereach tc_call phase_init phase_safe st /\ e_vars st !! "v" = Some v /\ tv_reg v = true /\
  ts_mode (e_sh st) = ACTIVE_POWER_CONTROL /\ exists w, e_vars st !! initial_variant = Some w /\ tv_reg w = false.
Proof.
  exists (erun tc_call (enew ex_phase (ex_rv true)) [EClone initial_variant "v" false; ECall (TSetReg false); ECall (TSetMode ACTIVE_POWER_CONTROL);
    ECall (TSetVal NaN)]).
  exists (ex_rv true). split.
  - cbn [erun]. repeat (apply er_step; [|done]). apply (er_new _ _ _ ex_phase (ex_rv true)); [apply ex_phase_init|apply enew_created].
  - split; [vm_compute; done|]. split; [done|]. split; [vm_compute; done|]. eexists. split; vm_compute; done.
Qed.

Print Assumptions C15_tap_in_range_partial.
Print Assumptions C15_tap_in_range_refuted.
Print Assumptions C15_set_low_keeps_current_step.
Print Assumptions C15_failed_set_low_refuted.
Print Assumptions C16_regulating_ratio_configured_partial.
Print Assumptions C16_deadband_always.
Print Assumptions C16_ltc_capability_refuted.
Print Assumptions C16_terminal_refuted.
Print Assumptions C16_failed_setter_changes_nothing.
Print Assumptions C16_setters_memory_safe.
Print Assumptions C17_at_most_one_regulating_partial.
Print Assumptions C17_adder_checks_working_variant.
Print Assumptions C17_set_regulating_refuted.
Print Assumptions C17_adder_other_variant_refuted.
Print Assumptions C17_tap_changers_of_transformer.
Print Assumptions C18_regulating_phase_configured_partial.
Print Assumptions C18_set_regulating_refuted.
Print Assumptions C18_mode_refuted.
