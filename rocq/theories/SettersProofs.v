From Verif Require Import Equip TapChanger TapChangerProofs Setters SettersSpec.

(** ** The checks in mathematical terms *)
Lemma ele_defined a b : ele a b -> defined a /\ defined b.
Proof. by destruct a, b. Qed.
Lemma elt_defined a b : elt a b -> defined a /\ defined b.
Proof. by destruct a, b. Qed.
Lemma positive_defined x : positive x -> defined x.
Proof. exact (fun H => proj2 (elt_defined _ _ H)). Qed.
Lemma non_negative_defined x : non_negative x -> defined x.
Proof. exact (fun H => proj2 (ele_defined _ _ H)). Qed.
Lemma nan_ok x m : check (is_nan x) m = Ok tt <-> defined x.
Proof. rewrite check_ok. apply is_nan_false. Qed.
Lemma dlt_ok a b m : check (dlt b a) m = Ok tt <-> (defined a -> defined b -> ele a b).
Proof.
  rewrite check_ok. destruct a as [| |x|], b as [| |y|]; simpl; try (split; by auto); try (split; [by intros|intros H; exfalso; by apply H]).
  - unfold qltb. rewrite negb_false_iff. rewrite Qle_bool_iff. split; auto. intros H. by apply H.
Qed.
Lemma pos_or_nan x : is_nan x || dle x dzero = false <-> positive x.
Proof.
  destruct x as [| |y|]; simpl; try done. unfold positive, elt, qleb. split.
  - intros H. apply Qnot_le_lt. intros Hle%Qle_bool_iff. congruence.
  - intros H. destruct (Qle_bool y 0) eqn:E; [|done]. apply Qle_bool_iff in E. exfalso. by apply (Qlt_not_le _ _ H).
Qed.
Lemma limits_ok a b : checkActivePowerLimits a b = Ok tt <-> (defined a -> defined b -> ele a b).
Proof. apply dlt_ok. Qed.
Lemma aps_ok x : checkActivePowerSetpoint x = Ok tt <-> defined x.
Proof. apply nan_ok. Qed.
Lemma maxP_ok x : checkMaxP x = Ok tt <-> defined x.
Proof. apply nan_ok. Qed.
Lemma minP_ok x : checkMinP x = Ok tt <-> defined x.
Proof. apply nan_ok. Qed.
Lemma p0_ok x : checkP0 x = Ok tt <-> defined x.
Proof. apply nan_ok. Qed.
Lemma q0_ok x : checkQ0 x = Ok tt <-> defined x.
Proof. apply nan_ok. Qed.
Lemma r_ok x : checkR x = Ok tt <-> defined x.
Proof. apply nan_ok. Qed.
Lemma bmin_ok x : checkBmin x = Ok tt <-> defined x.
Proof. apply nan_ok. Qed.
Lemma bmax_ok x : checkBmax x = Ok tt <-> defined x.
Proof. apply nan_ok. Qed.
Lemma bps_ok x : checkBPerSection x = Ok tt <-> defined x.
Proof. apply nan_ok. Qed.
Lemma nonneg_ok x m m' : (check (is_nan x) m ;;+ check (dlt x dzero) m') = Ok tt <-> non_negative x.
Proof.
  rewrite check_seq_ok, nan_ok, dlt_ok. unfold non_negative, dzero. split.
  - intros [H1 H2]. by apply H2.
  - intros H. split; [exact (proj2 (ele_defined _ _ H))|auto].
Qed.
Lemma hvp_ok x : checkHvdcActivePowerSetpoint x = Ok tt <-> non_negative x.
Proof. apply nonneg_ok. Qed.
Lemma hvm_ok x : checkHvdcMaxP x = Ok tt <-> non_negative x.
Proof. apply nonneg_ok. Qed.
Lemma between_ok a x b : defined (Fin a) -> defined (Fin b) -> (is_nan x = false /\ dlt x (Fin a) || dlt (Fin b) x = false) <-> in_between (Fin a) x (Fin b).
Proof.
  intros _ _. unfold in_between. rewrite orb_false_iff. rewrite is_nan_false. split.
  - intros (D & H1 & H2). split; [apply (dlt_ok (Fin a) x ""); [by rewrite check_ok|done..]|apply (dlt_ok x (Fin b) ""); [by rewrite check_ok|done..]].
  - intros [H1 H2]. split; [exact (proj2 (ele_defined _ _ H1))|]. split; apply (check_ok _ ""), dlt_ok; auto.
Qed.
Lemma loss_ok x : checkLossFactor x = Ok tt <-> in_between (Fin 0) x (Fin 100).
Proof. unfold checkLossFactor. rewrite check_seq_ok, !check_ok. by rewrite <- between_ok. Qed.
Lemma pf_ok x : checkPowerFactor x = Ok tt <-> in_between (Fin (-1)) x (Fin 1).
Proof. unfold checkPowerFactor. rewrite check_seq_ok, !check_ok. rewrite <- between_ok by done. by rewrite orb_comm. Qed.
Lemma nomV_ok x : checkNominalVoltage x = Ok tt <-> positive x.
Proof. unfold checkNominalVoltage. rewrite check_seq_ok, !check_ok. rewrite <- pos_or_nan. by rewrite orb_false_iff. Qed.
Lemma ratedS_ok x : checkRatedS x = Ok tt <-> undef_or positive x.
Proof.
  unfold checkRatedS, undef_or. rewrite check_ok. rewrite <- pos_or_nan. rewrite <- is_nan_spec. destruct (is_nan x); simpl; [tauto|].
  split; auto. by intros [?|?].
Qed.
Lemma vc_ok on v q : checkVoltageControl on v q = Ok tt <-> regulator_ok on v q.
Proof. unfold checkVoltageControl, regulator_ok. destruct on; rewrite check_ok; [apply pos_or_nan|apply is_nan_false]. Qed.
Lemma vc1_ok on v : checkVoltageControl1 on v = Ok tt <-> (on = true -> positive v).
Proof. unfold checkVoltageControl1. destruct on; [rewrite check_ok, pos_or_nan; tauto|done]. Qed.
Lemma vlim_ok l h : checkVoltageLimits l h = Ok tt <->
  undef_or non_negative l /\ undef_or non_negative h /\ (defined l -> defined h -> ele l h).
Proof.
  unfold checkVoltageLimits. rewrite !check_seq_ok, !dlt_ok. unfold undef_or, non_negative.
  assert (forall x, (defined (Fin 0) -> defined x -> ele (Fin 0) x) <-> x = NaN \/ ele (Fin 0) x) as E.
  { intros x. split; [intros H; destruct x; [by left|right; by apply H..]|]. intros [->|H]; [done|auto]. }
  unfold dzero. rewrite !E. tauto.
Qed.
Lemma term_ok t : checkRegulatingTerminal t = Ok tt <-> t_here (or_own t) = true.
Proof. destruct t as [[n h]|]; simpl; [|done]. destruct h; done. Qed.
Lemma svcr_ok v q m : checkSvcRegulator v q (Some m) = Ok tt <->
  match m with SvcVoltage => defined v | SvcReactive => defined q | SvcOff => True end.
Proof. destruct m; simpl; [apply nan_ok|apply nan_ok|done]. Qed.
Lemma sections_ok n m : checkSections n m = Ok tt <-> 0 < m /\ n <= m.
Proof. unfold checkSections. rewrite check_seq_ok, !check_ok, !bool_decide_eq_false. lia. Qed.

(** ** Setters against the specification *)
Definition local_spec {S V} (obs : S -> V -> list oval) (ok : S -> V -> Prop) (what : nat * oval) (c : setter S V) : Prop :=
  match c with
  | SVar f => forall s v, ok s v ->
    match f s v with
    | Ok v' => obs s v' = <[what.1 := what.2]> (obs s v) /\ ok s v'
    | Throw _ => forall s' v', obs s' v' = <[what.1 := what.2]> (obs s v) -> ~ ok s' v'
    | _ => False
    end
  | SSh0 f => forall s v, ok s v ->
    match f s with
    | Ok s' => obs s' v = <[what.1 := what.2]> (obs s v) /\ ok s' v
    | Throw _ => forall s' v', obs s' v' = <[what.1 := what.2]> (obs s v) -> ~ ok s' v'
    | _ => False
    end
  | SSh f => False
  end.
Section local.
  Context {S V C : Type} (sets : C -> setter S V) (obs : S -> V -> list oval) (ok init : S -> V -> Prop) (what : C -> nat * oval).
  Hypothesis Hi : forall s v, init s v -> ok s v.
  Hypothesis Hn : forall c, setter_no_ub (sets c).
  Hypothesis Hl : forall c, local_spec obs ok (what c) (sets c).
  Lemma local_inv st : ereach (fun c => run_setter (sets c)) init always st -> ewf st /\ everywhere ok st.
  Proof.
    apply equip_inv; [done|done|]. intros c. specialize (Hl c). destruct (sets c) as [f|f|f]; simpl in *.
    - intros s v v' H E. specialize (Hl s v H). rewrite E in Hl. by destruct Hl.
    - done.
    - intros s v s' H E. specialize (Hl s v H). rewrite E in Hl. by destruct Hl.
  Qed.
  Lemma local_setter c st r st' : ereach (fun c => run_setter (sets c)) init always st ->
    run_setter (sets c) st = (r, st') -> setter_spec obs ok (what c) st r st'.
  Proof.
    intros R E. apply local_inv in R as [W Ev]. specialize (Hl c). specialize (Hn c). unfold setter_spec.
    destruct (sets c) as [f|f|f]; simpl in *.
    - destruct (upd_var_cases f st W Hn) as [(i & v & v' & Hc & Hv & Hf & E')|(m & E' & H)].
      + unfold run_setter in E. rewrite E' in E. injection E as <- <-. simpl. split; [done|]. rewrite Hc. exists v. split; [done|]. left.
        specialize (Hl (e_sh st) v (Ev _ _ Hv)). rewrite Hf in Hl. destruct Hl as [H1 H2]. rewrite lookup_insert. 
        split; [done|]. split; [eauto|]. split; [eauto|]. intros j Hj. by rewrite lookup_insert_ne.
      + unfold run_setter in E. rewrite E' in E. injection E as <- <-. split; [done|].
        destruct H as [Hc|(i & v & m' & Hc & Hv & Hf)]; rewrite Hc; [done|]. exists v. split; [done|]. right. exists m. split; [done|].
        split; [done|]. specialize (Hl (e_sh st) v (Ev _ _ Hv)). rewrite Hf in Hl. intros (s' & v' & Ho & Hk). by apply (Hl s' v').
    - done.
    - destruct (upd_sh0_cases f st Hn) as [(s' & Hf & E')|(m & E' & m' & Hf)].
      + unfold run_setter in E. rewrite E' in E. injection E as <- <-. simpl. split; [done|]. destruct (e_cur st) as [i|] eqn:Hc; [|done].
        destruct (proj2 W i Hc) as [v Hv]. exists v. split; [done|]. left. specialize (Hl (e_sh st) v (Ev _ _ Hv)). rewrite Hf in Hl.
        destruct Hl as [H1 H2]. split; [done|]. split; [eauto|]. split; [eauto|]. done.
      + unfold run_setter in E. rewrite E' in E. injection E as <- <-. split; [done|]. destruct (e_cur st) as [i|] eqn:Hc; [|done].
        destruct (proj2 W i Hc) as [v Hv]. exists v. split; [done|]. right. exists m. split; [done|].
        split; [done|]. specialize (Hl (e_sh st) v (Ev _ _ Hv)). rewrite Hf in Hl. intros (s'' & v' & Ho & Hk). by apply (Hl s'' v').
  Qed.
End local.

(** Turns the next check of a chain into its mathematical meaning. *)
Ltac next_check lem :=
  match goal with
  | |- context [result_bind _ ?c] =>
    let E := fresh "E" in
    assert (c = Ok tt \/ exists m, c = Throw m) as [E|[? E]]
      by (let H := fresh in assert (no_ub c) as H by (unfold checkActivePowerLimits, checkActivePowerSetpoint, checkMaxP, checkMinP, checkP0, checkQ0, checkR, checkBmin, checkBmax, checkBPerSection, checkHvdcActivePowerSetpoint, checkHvdcMaxP, checkLossFactor, checkPowerFactor, checkNominalVoltage, checkRatedS, checkVoltageControl, checkVoltageControl1, checkVoltageLimits, checkRegulatingTerminal, checkSvcRegulator, checkSections, checkTargetDeadband; no_ub);
          destruct H; destruct c as [[]| | |]; [by left|right; by eexists|done|done]);
    [ let E' := fresh "A" in pose proof E as E'; rewrite E; rewrite lem in E'; clear E; cbn [result_bind]
    | let E' := fresh "N" in assert (~ c = Ok tt) as E' by (rewrite E; done); rewrite E; rewrite lem in E'; clear E; cbn [result_bind] ]
  end.
Lemma ele_dec_helper a b : ele a b -> defined a /\ defined b /\ ele a b.
Proof. intros H. pose proof (ele_defined a b H). tauto. Qed.
Ltac setters_no_ub := intros c; destruct c; simpl; intros; unfold checkActivePowerLimits, checkActivePowerSetpoint, checkMaxP, checkMinP, checkP0, checkQ0, checkR, checkBmin, checkBmax, checkBPerSection, checkHvdcActivePowerSetpoint, checkHvdcMaxP, checkLossFactor, checkPowerFactor, checkNominalVoltage, checkRatedS, checkVoltageControl, checkVoltageControl1, checkVoltageLimits, checkRegulatingTerminal, checkSvcRegulator, checkSections, checkTargetDeadband, upd_section; no_ub.
Lemma gset_no_ub : forall c, setter_no_ub (gset c). Proof. setters_no_ub. Qed.
Lemma bset_no_ub : forall c, setter_no_ub (bset c). Proof. setters_no_ub. Qed.
Lemma vset_no_ub : forall c, setter_no_ub (vset c). Proof. setters_no_ub. Qed.
Lemma lset_no_ub : forall c, setter_no_ub (lset c). Proof. setters_no_ub. Qed.
Lemma svset_no_ub : forall c, setter_no_ub (svset c). Proof. setters_no_ub. Qed.
Lemma dset_no_ub : forall c, setter_no_ub (dset c). Proof. setters_no_ub. Qed.
Lemma hset_no_ub : forall c, setter_no_ub (hset c). Proof. setters_no_ub. Qed.
Lemma vlset_no_ub : forall c, setter_no_ub (vlset c). Proof. setters_no_ub. Qed.
Lemma ldset_no_ub : forall c, setter_no_ub (ldset c). Proof. setters_no_ub. Qed.
Lemma no_ub_map {A B} (f : A -> B) r : no_ub r -> no_ub (result_map f r).
Proof. intros [H1 H2]. by destruct r. Qed.
Lemma sset_no_ub : forall c, setter_no_ub (sset c).
Proof. setters_no_ub; apply no_ub_map; no_ub. Qed.

(** The rest of a [local_spec]: the value is assigned, or no accepted state shows it. *)
Ltac spec_atoms := repeat match goal with
  | H : ele ?a ?b |- _ => lazymatch goal with H' : defined a /\ defined b |- _ => fail | _ => pose proof (ele_defined a b H) end end.
Ltac finish_ok := split; [done|]; simpl; spec_atoms; tauto.
Ltac finish_no := intros [] []; simpl; let H := fresh in intros H; injection H; intros; subst; intros ?;
  repeat match goal with H : ele _ _ /\ _ |- _ => destruct H end; spec_atoms; tauto.
Lemma gset_local c : local_spec gobs gen_ok (gwhat c) (gset c).
Proof.
  destruct c; simpl; intros [mn mx rs tm] [p q v on]; unfold gen_ok; cbn [g_minP g_maxP g_ratedS g_term g_p g_q g_v g_on]; intros (H1 & H2 & H3 & H4 & H5).
  - next_check aps_ok; [finish_ok|finish_no].
  - next_check maxP_ok; [next_check limits_ok|]; [finish_ok|finish_no|finish_no].
  - next_check minP_ok; [next_check limits_ok|]; [finish_ok|finish_no|finish_no].
  - next_check ratedS_ok; [finish_ok|finish_no].
  - next_check vc_ok; [finish_ok|finish_no].
  - next_check term_ok; [finish_ok|finish_no].
  - next_check vc_ok; [finish_ok|finish_no].
  - next_check vc_ok; [finish_ok|finish_no].
Qed.
Lemma bset_local c : local_spec bobs bat_ok (bwhat c) (bset c).
Proof.
  destruct c; simpl; intros [mn mx] [p q]; unfold bat_ok; cbn [b_minP b_maxP b_p b_q]; intros (H1 & H2 & H3).
  - next_check maxP_ok; [next_check limits_ok|]; [finish_ok|finish_no|finish_no].
  - next_check minP_ok; [next_check limits_ok|]; [finish_ok|finish_no|finish_no].
  - next_check p0_ok; [finish_ok|finish_no].
  - next_check q0_ok; [finish_ok|finish_no].
Qed.
Lemma vset_local c : local_spec vobs vsc_ok (vwhat c) (vset c).
Proof.
  destruct c; simpl; intros [l] [on q v]; unfold vsc_ok; cbn [v_loss v_on v_q v_v]; intros (H1 & H2).
  - next_check loss_ok; [finish_ok|finish_no].
  - next_check vc_ok; [finish_ok|finish_no].
  - next_check vc_ok; [finish_ok|finish_no].
  - next_check vc_ok; [finish_ok|finish_no].
Qed.
Lemma lset_local c : local_spec lobs lcc_ok (lwhat c) (lset c).
Proof.
  destruct c; simpl; intros [l pf] []; unfold lcc_ok; cbn [l_loss l_pf]; intros (H1 & H2).
  - next_check loss_ok; [finish_ok|finish_no].
  - next_check pf_ok; [finish_ok|finish_no].
Qed.
Lemma svset_local c : local_spec svobs svc_ok (svwhat c) (svset c).
Proof.
  destruct c; cbn -[checkSvcRegulator checkRegulatingTerminal]; intros [mn mx tm] [v q md]; unfold svc_ok; cbn [sv_bmin sv_bmax sv_term sv_v sv_q sv_mode]; intros (H1 & H2 & H3 & H4).
  - next_check bmax_ok; [finish_ok|finish_no].
  - next_check bmin_ok; [finish_ok|finish_no].
  - next_check svcr_ok; [finish_ok|finish_no].
  - next_check term_ok; [finish_ok|finish_no].
  - next_check svcr_ok; [finish_ok|finish_no].
  - next_check svcr_ok; [finish_ok|finish_no].
Qed.
Lemma dset_local c : local_spec dobs dlg_ok (dwhat c) (dset c).
Proof.
  destruct c; simpl; intros [mn mx] [p q v on]; unfold dlg_ok; cbn [d_minP d_maxP d_p d_q d_v d_on]; intros (H1 & H2 & H3).
  - next_check maxP_ok; [next_check limits_ok|]; [finish_ok|finish_no|finish_no].
  - next_check minP_ok; [next_check limits_ok|]; [finish_ok|finish_no|finish_no].
  - next_check aps_ok; [finish_ok|finish_no].
  - next_check vc_ok; [finish_ok|finish_no].
  - next_check vc_ok; [finish_ok|finish_no].
  - next_check vc_ok; [finish_ok|finish_no].
Qed.
Lemma hset_local c : local_spec hobs hvdc_ok (hwhat c) (hset c).
Proof.
  destruct c; cbn -[checkHvdcActivePowerSetpoint checkHvdcMaxP checkNominalVoltage]; intros [r n mx] [md p]; unfold hvdc_ok; cbn [h_r h_nomV h_maxP h_mode h_p]; intros (H1 & H2 & H3 & H4).
  - next_check hvp_ok; [finish_ok|finish_no].
  - finish_ok.
  - next_check hvm_ok; [finish_ok|finish_no].
  - next_check nomV_ok; [finish_ok|finish_no].
  - next_check r_ok; [finish_ok|finish_no].
Qed.
Lemma vlset_local c : local_spec vlobs vl_ok (vlwhat c) (vlset c).
Proof.
  destruct c; cbn -[checkVoltageLimits checkNominalVoltage]; intros [n l h] []; unfold vl_ok; cbn [vl_nomV vl_low vl_high]; intros (H1 & H2 & H3 & H4).
  - next_check vlim_ok; [finish_ok|finish_no].
  - next_check vlim_ok; [finish_ok|finish_no].
  - next_check nomV_ok; [finish_ok|finish_no].
Qed.
Lemma ldset_local c : local_spec ldobs load_ok (ldwhat c) (ldset c).
Proof.
  destruct c; simpl; intros [] [p q]; unfold load_ok; cbn [ld_p ld_q]; intros (H1 & H2).
  - next_check p0_ok; [finish_ok|finish_no].
  - next_check q0_ok; [finish_ok|finish_no].
Qed.
(** ** Shunt compensators *)
Lemma end_sections_ok l args l' : end_sections l args = Ok l' -> Forall (fun e => defined (fst e) /\ defined (snd e)) l ->
  Forall (fun e => defined (fst e) /\ defined (snd e)) l'.
Proof.
  revert l. induction args as [|[b g] args IH]; intros l; simpl; [by intros [= ->]|]. unfold end_section.
  next_check bps_ok; [|done]. intros H Hl. apply (IH _ H). apply Forall_app. split; [done|]. constructor; [|done]. simpl. split; [done|].
  destruct (is_nan g) eqn:E; [|by apply is_nan_false]. destruct (last l) eqn:El; [|done].
  apply last_Some_elem_of in El. rewrite Forall_forall in Hl. by apply Hl.
Qed.
Lemma end_sections_no_ub l args : no_ub (end_sections l args).
Proof.
  revert l. induction args as [|[b g] args IH]; intros l; simpl; [done|]. unfold end_section. next_check bps_ok; [apply IH|done].
Qed.
Lemma build_model_ok b m : build_model b = Ok m -> model_ok m.
Proof.
  destruct b as [b g mx|args]; simpl.
  - next_check bps_ok; [|done]. destruct mx as [n|]; [|done]. unfold check. case_bool_decide; [done|]. simpl. intros [= <-]. simpl. split; [done|lia].
  - destruct (end_sections [] args) as [l| | |] eqn:E; try done. unfold check. case_bool_decide as H; [done|]. simpl. intros [= <-]. simpl.
    apply end_sections_ok in E; [|done]. split.
    + intros E'. apply H. apply (f_equal length) in E'. by rewrite map_length in E'.
    + apply Forall_map. eapply Forall_impl; [done|]. by intros [b g].
Qed.
Definition shunt_init (s : ssh) (v : svar) : Prop := exists t on x db m n, sadd t on x db m n = Ok (s, v).
Lemma shunt_init_ok s v : shunt_init s v -> shunt_ok s v /\ count_ok s v.
Proof.
  intros (t & on & x & db & m & n & H). unfold sadd in H. revert H. next_check term_ok; [|done]. next_check vc1_ok; [|done].
  next_check checkDb_ok; [|done]. destruct m as [m|]; [|done]. destruct (build_model m) as [m'| | |] eqn:E; try done.
  destruct n as [n|]; [|done]. next_check sections_ok; [|done]. intros [= <- <-]. apply build_model_ok in E.
  unfold shunt_ok, count_ok. simpl. unfold undef_or. tauto.
Qed.
Lemma shunt_keeps c : setter_keeps shunt_ok (sset c).
Proof.
  unfold shunt_ok. destruct c; cbn -[checkSections checkTargetDeadband checkVoltageControl1 checkRegulatingTerminal].
  - intros s v v' H. next_check sections_ok; [|done]. intros [= <-]. exact H.
  - intros s v s' w H. destruct (s_model s) as [b g mx|l] eqn:Em; [|done]. next_check sections_ok; [|done]. intros [= <-] Hw. simpl in *. tauto.
  - intros s v s' H. destruct (s_model s) as [b g mx|l] eqn:Em; [|done]. next_check bps_ok; [|done]. intros [= <-]. simpl in *. tauto.
  - intros s v s' H. destruct (s_model s) as [b g mx|l] eqn:Em; [|done]. intros [= <-]. simpl in *. tauto.
  - intros s v s' H. unfold upd_section. destruct (s_model s) as [b g mx|l] eqn:Em; [done|]. destruct (l !! i) as [e|] eqn:El; [|done].
    destruct (sec_ref e); [|done]. next_check bps_ok; [|done]. intros [= <-]. simpl in *. destruct H as ([H1 H2] & H3). split; [|done]. split.
    + intros E. apply H1. apply (f_equal length) in E. rewrite insert_length in E. by apply length_zero_iff_nil.
    + apply Forall_insert; [done|]. simpl. split; [done|]. rewrite Forall_lookup in H2. by apply (H2 i).
  - intros s v s' H. unfold upd_section. destruct (s_model s) as [b g mx|l] eqn:Em; [done|]. destruct (l !! i) as [e|] eqn:El; [|done].
    destruct (sec_ref e); [|done]. next_check bps_ok; [|done]. intros [= <-]. simpl in *. destruct H as ([H1 H2] & H3). split; [|done]. split.
    + intros E. apply H1. apply (f_equal length) in E. rewrite insert_length in E. by apply length_zero_iff_nil.
    + apply Forall_insert; [done|]. simpl. split; [|done]. rewrite Forall_lookup in H2. by apply (H2 i).
  - intros s v v' H. next_check checkDb_ok; [|done]. intros [= <-]. simpl. unfold undef_or. tauto.
  - intros s v v' H. next_check vc1_ok; [|done]. intros [= <-]. simpl. tauto.
  - intros s v v' H. next_check vc1_ok; [|done]. next_check checkDb_ok; [|done]. intros [= <-]. simpl. tauto.
  - intros s v s' H. next_check term_ok; [|done]. intros [= <-]. simpl. tauto.
Qed.
Notation shunt_call := (fun c => run_setter (sset c)).
Lemma shunt_reach_ok st : ereach shunt_call shunt_init always st -> ewf st /\ everywhere shunt_ok st.
Proof. apply equip_inv; [by intros s v [? _]%shunt_init_ok|apply sset_no_ub|apply shunt_keeps]. Qed.
(** setMaximumSectionCount is only called with a value that suits the variants other than the working one. *)
Definition max_safe (st : est ssh svar) (o : eop scall) : Prop :=
  match o with ECall (SSetMax m) => forall id w, e_cur st <> Some id -> e_vars st !! id = Some w -> s_count w <= m | _ => True end.
Lemma shunt_reach_count st : ereach shunt_call shunt_init max_safe st -> everywhere count_ok st.
Proof.
  intros R. apply (ereach_inv shunt_call shunt_init max_safe count_ok) in R; [by destruct R|by intros s v [_ ?]%shunt_init_ok|..].
  - intros c st' W. apply run_setter_keeps_variants; [done|apply sset_no_ub].
  - intros c st' W E Hs. apply run_setter_inv; [done|apply sset_no_ub|done|]. unfold count_ok.
    destruct c; cbn -[checkSections checkTargetDeadband checkVoltageControl1 checkRegulatingTerminal].
    + intros i v v' _ _ _. next_check sections_ok; [|done]. intros [= <-]. by destruct A.
    + intros i v s' Hc Hv. destruct (s_model (e_sh st')) as [b g mx|l] eqn:Em; [|done]. next_check sections_ok; [|done]. intros [= <-] id w Hw _.
      simpl. destruct (decide (i = id)) as [->|].
      * assert (w = v) as -> by congruence. by destruct A.
      * simpl in Hs. apply (Hs id w); congruence.
    + intros s'. destruct (s_model (e_sh st')) as [b g mx|l] eqn:Em; [|done]. next_check bps_ok; [|done]. by intros [= <-].
    + intros s'. destruct (s_model (e_sh st')) as [b g mx|l] eqn:Em; [|done]. by intros [= <-].
    + intros s'. unfold upd_section. destruct (s_model (e_sh st')) as [b g mx|l] eqn:Em; [done|]. destruct (l !! i) as [e|]; [|done].
      destruct (sec_ref e); [|done]. next_check bps_ok; [|done]. intros [= <-]. simpl. by rewrite insert_length.
    + intros s'. unfold upd_section. destruct (s_model (e_sh st')) as [b g mx|l] eqn:Em; [done|]. destruct (l !! i) as [e|]; [|done].
      destruct (sec_ref e); [|done]. next_check bps_ok; [|done]. intros [= <-]. simpl. by rewrite insert_length.
    + intros i v v' _ _ H. next_check checkDb_ok; [|done]. by intros [= <-].
    + intros i v v' _ _ H. next_check vc1_ok; [|done]. by intros [= <-].
    + intros i v v' _ _ H. next_check vc1_ok; [|done]. next_check checkDb_ok; [|done]. by intros [= <-].
    + intros s'. next_check term_ok; [|done]. by intros [= <-].
Qed.
(** The sections of a non linear model keep the null reference they are created with, so they never change. *)
Definition no_refs (m : smodel) : Prop := match m with Linear _ _ _ => True | NonLinear l => Forall (fun e => sec_ref e = false) l end.
Lemma upd_section_throws s i f : no_refs (s_model s) -> exists m, upd_section s i f = Throw m.
Proof.
  unfold upd_section. destruct (s_model s) as [|l]; [eauto|]. simpl. intros H. destruct (l !! i) as [e|] eqn:E; [|eauto].
  rewrite Forall_lookup in H. rewrite (H _ _ E). eauto.
Qed.
Lemma build_no_refs b m : build_model b = Ok m -> no_refs m.
Proof.
  destruct b as [b g mx|args]; simpl.
  - next_check bps_ok; [|done]. destruct mx as [n|]; [|done]. unfold check. case_bool_decide; [done|]. simpl. by intros [= <-].
  - destruct (end_sections [] args) as [l| | |]; try done. unfold check. case_bool_decide as H; [done|]. simpl. intros [= <-]. simpl.
    apply Forall_map. by apply Forall_true.
Qed.
Lemma sadd_model t on x db b n s v : sadd t on x db (Some b) n = Ok (s, v) -> build_model b = Ok (s_model s).
Proof.
  unfold sadd. next_check term_ok; [|done]. next_check vc1_ok; [|done].
  next_check checkDb_ok; [|done]. destruct (build_model b) as [m'| | |] eqn:E; try done.
  destruct n as [n|]; [|done]. next_check sections_ok; [|done]. by intros [= <- <-].
Qed.
Lemma shunt_init_no_refs s v : shunt_init s v -> no_refs (s_model s).
Proof.
  intros (t & on & x & db & [b|] & n & H); [by eapply build_no_refs, sadd_model|]. unfold sadd in H. revert H.
  next_check term_ok; [|done]. next_check vc1_ok; [|done]. by next_check checkDb_ok.
Qed.
Lemma shunt_keeps_model c (I : smodel -> Prop) : (forall b g mx, ~ I (Linear b g mx)) ->
  setter_keeps (fun s _ => I (s_model s) /\ no_refs (s_model s)) (sset c).
Proof.
  intros HI. destruct c; cbn -[checkSections checkTargetDeadband checkVoltageControl1 checkRegulatingTerminal];
    try (intros s v v' H _; exact H);
    try (intros s v s' [H H'] E; match type of E with upd_section ?s ?i ?f = _ => destruct (upd_section_throws s i f H') as [m Hm]; rewrite Hm in E; done end).
  - intros s v s' w [H _] E. destruct (s_model s) eqn:Em; [by apply HI in H|done].
  - intros s v s' [H _] E. destruct (s_model s) eqn:Em; [by apply HI in H|done].
  - intros s v s' [H _] E. destruct (s_model s) eqn:Em; [by apply HI in H|done].
  - intros s v s' H. next_check term_ok; [|done]. by intros [= <-].
Qed.
Lemma shunt_keeps_no_refs c : setter_keeps (fun s _ => no_refs (s_model s)) (sset c).
Proof.
  destruct c; cbn -[checkSections checkTargetDeadband checkVoltageControl1 checkRegulatingTerminal];
    try (intros s v v' H _; exact H);
    try (intros s v s' H E; match type of E with upd_section ?s ?i ?f = _ => destruct (upd_section_throws s i f H) as [m Hm]; rewrite Hm in E; done end).
  - intros s v s' w H. destruct (s_model s) eqn:Em; [|done]. next_check sections_ok; [|done]. by intros [= <-].
  - intros s v s' H. destruct (s_model s) eqn:Em; [|done]. next_check bps_ok; [|done]. by intros [= <-].
  - intros s v s' H. destruct (s_model s) eqn:Em; [|done]. by intros [= <-].
  - intros s v s' H. next_check term_ok; [|done]. by intros [= <-].
Qed.

(** The conductances of the sections: an undefined one is the previous one, or 0 at the start. *)
Definition last_defined (l : list dbl) (g : dbl) : Prop :=
  (exists l1 l2, l = l1 ++ g :: l2 /\ defined g /\ Forall (fun x => x = NaN) l2) \/ (Forall (fun x => x = NaN) l /\ g = Fin 0).
Lemma last_defined_snoc l p g : last_defined l p -> last_defined (l ++ [g]) (if is_nan g then p else g).
Proof.
  intros H. destruct (is_nan g) eqn:E.
  - apply is_nan_spec in E as ->. destruct H as [(l1 & l2 & -> & D & F)|(F & ->)].
    + left. exists l1, (l2 ++ [NaN]). split; [by rewrite <- app_assoc|]. split; [done|]. apply Forall_app. auto.
    + right. split; [|done]. apply Forall_app. auto.
  - left. exists l, []. split; [done|]. split; [by apply is_nan_false|done].
Qed.
Lemma end_sections_spec args : forall pre l l', 
  length l = length pre -> (forall k, k < length pre -> exists b g g', pre !! k = Some (b, g) /\ l !! k = Some (b, g') /\ last_defined (take (S k) (snd <$> pre)) g') ->
  end_sections l args = Ok l' ->
  length l' = length (pre ++ args) /\
  forall k, k < length (pre ++ args) -> exists b g g', (pre ++ args) !! k = Some (b, g) /\ l' !! k = Some (b, g') /\ last_defined (take (S k) (snd <$> (pre ++ args))) g'.
Proof.
  induction args as [|[b g] args IH]; intros pre l l' Hlen Hpre; simpl.
  - intros [= <-]. rewrite app_nil_r. done.
  - unfold end_section. next_check bps_ok; [|done]. intros H. rewrite cons_middle, app_assoc. revert H. apply IH.
    + rewrite !app_length. simpl. lia.
    + intros k Hk. rewrite app_length in Hk. simpl in Hk. destruct (decide (k < length pre)) as [Hk'|Hk'].
      * destruct (Hpre k Hk') as (b' & g1 & g2 & E1 & E2 & E3). exists b', g1, g2. rewrite !lookup_app_l by lia. split; [done|]. split; [done|].
        rewrite fmap_app. rewrite take_app_le; [done|]. rewrite fmap_length. lia.
      * assert (k = length pre) as -> by lia. eexists b, g, _. rewrite !lookup_app_r by lia. rewrite Hlen, Nat.sub_diag. split; [done|]. split; [done|].
        rewrite fmap_app. rewrite take_ge; [|rewrite app_length, fmap_length; simpl; lia]. apply last_defined_snoc.
        destruct (decide (pre = [])) as [->|Hne].
        -- destruct l; [|done]. simpl. by right.
        -- assert (length pre <> 0) by (by destruct pre). destruct (Hpre (length pre - 1)) as (b' & g1 & g2 & E1 & E2 & E3); [lia|].
           rewrite last_lookup. rewrite Hlen. replace (Init.Nat.pred (length pre)) with (length pre - 1) by lia. rewrite E2. simpl.
           rewrite take_ge in E3; [done|]. rewrite fmap_length. lia.
Qed.
