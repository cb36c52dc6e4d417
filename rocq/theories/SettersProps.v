(** Properties C19, C20 and C49: set points of equipment, shunt compensators. *)
From Verif Require Import Equip TapChanger TapChangerProofs Setters SettersSpec SettersProofs.

(** ** C20 *)
(** For each equipment: the adder accepts exactly the values that are [ok] (and gives the equipment those values); every
    reachable equipment is [ok] in every variant; each setter meets [setter_spec]. *)
Definition gen_init (s : gsh) (v : gvar) : Prop := exists mn mx rs t p q u on, gadd mn mx rs t p q u on = Ok (s, v).
Notation gcall_act := (fun c => run_setter (gset c)).
Theorem C20_generator_adder mn mx rs t p q u on s v : gadd mn mx rs t p q u on = Ok (s, v) <->
  on = Some (g_on v) /\ gobs s v = [OD mn; OD mx; OD rs; OT (or_own t); OD p; OD q; OD u; OB (g_on v)] /\ gen_ok s v.
Proof.
  unfold gadd, gen_ok. split.
  - next_check minP_ok; [|done]. next_check maxP_ok; [|done]. next_check term_ok; [|done]. next_check aps_ok; [|done]. destruct on as [on|]; [|done].
    next_check vc_ok; [|done]. next_check limits_ok; [|done]. next_check ratedS_ok; [|done]. intros [= <- <-]. simpl. tauto.
  - destruct s, v; simpl. intros (-> & E & H). injection E; intros; subst. destruct H as (H1 & H2 & H3 & H4 & H5). spec_atoms.
    next_check minP_ok; [|tauto]. next_check maxP_ok; [|tauto]. next_check term_ok; [|tauto]. next_check aps_ok; [|tauto].
    next_check vc_ok; [|tauto]. next_check limits_ok; [|tauto]. next_check ratedS_ok; [|tauto]. done.
Qed.
Lemma gen_init_ok s v : gen_init s v -> gen_ok s v.
Proof. intros (mn & mx & rs & t & p & q & u & on & H). by apply C20_generator_adder in H as (_ & _ & ?). Qed.
Theorem C20_generator_consistent st id v : ereach gcall_act gen_init always st -> e_vars st !! id = Some v -> gen_ok (e_sh st) v.
Proof. intros R. by apply (local_inv gset gobs gen_ok gen_init gwhat gen_init_ok gset_no_ub gset_local) in R as [_ E]; apply E. Qed.
Theorem C20_generator_setter c st r st' : ereach gcall_act gen_init always st -> run_setter (gset c) st = (r, st') ->
  setter_spec gobs gen_ok (gwhat c) st r st'.
Proof. apply (local_setter gset gobs gen_ok gen_init gwhat gen_init_ok gset_no_ub gset_local). Qed.

Definition bat_init (s : bsh) (v : bvar) : Prop := exists mn mx p q, badd mn mx p q = Ok (s, v).
Notation bcall_act := (fun c => run_setter (bset c)).
Theorem C20_battery_adder mn mx p q s v : badd mn mx p q = Ok (s, v) <-> bobs s v = [OD mn; OD mx; OD p; OD q] /\ bat_ok s v.
Proof.
  unfold badd, bat_ok. split.
  - next_check p0_ok; [|done]. next_check q0_ok; [|done]. next_check minP_ok; [|done]. next_check maxP_ok; [|done].
    next_check limits_ok; [|done]. intros [= <- <-]. simpl. tauto.
  - destruct s, v; simpl. intros (E & H). injection E; intros; subst. destruct H as (H1 & H2 & H3). spec_atoms.
    next_check p0_ok; [|tauto]. next_check q0_ok; [|tauto]. next_check minP_ok; [|tauto]. next_check maxP_ok; [|tauto].
    next_check limits_ok; [|tauto]. done.
Qed.
Lemma bat_init_ok s v : bat_init s v -> bat_ok s v.
Proof. intros (mn & mx & p & q & H). by apply C20_battery_adder in H as (_ & ?). Qed.
Theorem C20_battery_consistent st id v : ereach bcall_act bat_init always st -> e_vars st !! id = Some v -> bat_ok (e_sh st) v.
Proof. intros R. by apply (local_inv bset bobs bat_ok bat_init bwhat bat_init_ok bset_no_ub bset_local) in R as [_ E]; apply E. Qed.
Theorem C20_battery_setter c st r st' : ereach bcall_act bat_init always st -> run_setter (bset c) st = (r, st') ->
  setter_spec bobs bat_ok (bwhat c) st r st'.
Proof. apply (local_setter bset bobs bat_ok bat_init bwhat bat_init_ok bset_no_ub bset_local). Qed.

Definition vsc_init (s : vsh) (v : vvar) : Prop := exists l on q u, vadd l on q u = Ok (s, v).
Notation vcall_act := (fun c => run_setter (vset c)).
Theorem C20_vsc_adder l on q u s v : vadd l on q u = Ok (s, v) <->
  on = Some (v_on v) /\ vobs s v = [OD l; OB (v_on v); OD q; OD u] /\ vsc_ok s v.
Proof.
  unfold vadd, vsc_ok. split.
  - next_check loss_ok; [|done]. destruct on as [on|]; [|done]. next_check vc_ok; [|done]. intros [= <- <-]. simpl. tauto.
  - destruct s, v; simpl. intros (-> & E & H). injection E; intros; subst. destruct H as (H1 & H2).
    next_check loss_ok; [|tauto]. next_check vc_ok; [|tauto]. done.
Qed.
Lemma vsc_init_ok s v : vsc_init s v -> vsc_ok s v.
Proof. intros (l & on & q & u & H). by apply C20_vsc_adder in H as (_ & _ & ?). Qed.
Theorem C20_vsc_consistent st id v : ereach vcall_act vsc_init always st -> e_vars st !! id = Some v -> vsc_ok (e_sh st) v.
Proof. intros R. by apply (local_inv vset vobs vsc_ok vsc_init vwhat vsc_init_ok vset_no_ub vset_local) in R as [_ E]; apply E. Qed.
Theorem C20_vsc_setter c st r st' : ereach vcall_act vsc_init always st -> run_setter (vset c) st = (r, st') ->
  setter_spec vobs vsc_ok (vwhat c) st r st'.
Proof. apply (local_setter vset vobs vsc_ok vsc_init vwhat vsc_init_ok vset_no_ub vset_local). Qed.

Definition lcc_init (s : lsh) (v : unit) : Prop := exists l pf, ladd l pf = Ok (s, v).
Notation lcall_act := (fun c => run_setter (lset c)).
Theorem C20_lcc_adder l pf s v : ladd l pf = Ok (s, v) <-> lobs s v = [OD l; OD pf] /\ lcc_ok s v.
Proof.
  unfold ladd, lcc_ok. split.
  - next_check loss_ok; [|done]. next_check pf_ok; [|done]. intros [= <- <-]. simpl. tauto.
  - destruct s, v; simpl. intros (E & H). injection E; intros; subst. destruct H as (H1 & H2).
    next_check loss_ok; [|tauto]. next_check pf_ok; [|tauto]. done.
Qed.
Lemma lcc_init_ok s v : lcc_init s v -> lcc_ok s v.
Proof. intros (l & pf & H). by apply C20_lcc_adder in H as (_ & ?). Qed.
Theorem C20_lcc_consistent st id v : ereach lcall_act lcc_init always st -> e_vars st !! id = Some v -> lcc_ok (e_sh st) v.
Proof. intros R. by apply (local_inv lset lobs lcc_ok lcc_init lwhat lcc_init_ok lset_no_ub lset_local) in R as [_ E]; apply E. Qed.
Theorem C20_lcc_setter c st r st' : ereach lcall_act lcc_init always st -> run_setter (lset c) st = (r, st') ->
  setter_spec lobs lcc_ok (lwhat c) st r st'.
Proof. apply (local_setter lset lobs lcc_ok lcc_init lwhat lcc_init_ok lset_no_ub lset_local). Qed.

Definition svc_init (s : svsh) (v : svvar) : Prop := exists bn bx t u q m, svadd bn bx t u q m = Ok (s, v).
Notation svcall_act := (fun c => run_setter (svset c)).
Theorem C20_svc_adder bn bx t u q m s v : svadd bn bx t u q m = Ok (s, v) <->
  m = Some (sv_mode v) /\ svobs s v = [OD bn; OD bx; OT (or_own t); OD u; OD q; OM (sv_mode v)] /\ svc_ok s v.
Proof.
  unfold svadd, svc_ok. split.
  - next_check bmin_ok; [|done]. next_check bmax_ok; [|done]. next_check term_ok; [|done]. destruct m as [m|]; [|done].
    next_check svcr_ok; [|done]. intros [= <- <-]. simpl. tauto.
  - destruct s, v; cbn -[checkSvcRegulator]. intros (-> & E & H). injection E; intros; subst. destruct H as (H1 & H2 & H3 & H4).
    next_check bmin_ok; [|tauto]. next_check bmax_ok; [|tauto]. next_check term_ok; [|tauto]. next_check svcr_ok; [|tauto]. done.
Qed.
Lemma svc_init_ok s v : svc_init s v -> svc_ok s v.
Proof. intros (bn & bx & t & u & q & m & H). by apply C20_svc_adder in H as (_ & _ & ?). Qed.
Theorem C20_svc_consistent st id v : ereach svcall_act svc_init always st -> e_vars st !! id = Some v -> svc_ok (e_sh st) v.
Proof. intros R. by apply (local_inv svset svobs svc_ok svc_init svwhat svc_init_ok svset_no_ub svset_local) in R as [_ E]; apply E. Qed.
Theorem C20_svc_setter c st r st' : ereach svcall_act svc_init always st -> run_setter (svset c) st = (r, st') ->
  setter_spec svobs svc_ok (svwhat c) st r st'.
Proof. apply (local_setter svset svobs svc_ok svc_init svwhat svc_init_ok svset_no_ub svset_local). Qed.

Definition hvdc_init (s : hsh) (v : hvar) : Prop := exists r n mx m p, hadd r n mx m p = Ok (s, v).
Notation hcall_act := (fun c => run_setter (hset c)).
Theorem C20_hvdc_adder r n mx m p s v : hadd r n mx m p = Ok (s, v) <->
  m = Some (h_mode v) /\ hobs s v = [OD r; OD n; OD mx; OC (h_mode v); OD p] /\ hvdc_ok s v.
Proof.
  unfold hadd, hvdc_ok. split.
  - next_check r_ok; [|done]. destruct m as [m|]; [|done]. next_check nomV_ok; [|done]. next_check hvp_ok; [|done]. next_check hvm_ok; [|done].
    intros [= <- <-]. simpl. tauto.
  - destruct s, v; cbn -[checkHvdcActivePowerSetpoint checkHvdcMaxP checkNominalVoltage]. intros (-> & E & H). injection E; intros; subst. destruct H as (H1 & H2 & H3 & H4).
    next_check r_ok; [|tauto]. next_check nomV_ok; [|tauto]. next_check hvp_ok; [|tauto]. next_check hvm_ok; [|tauto]. done.
Qed.
Lemma hvdc_init_ok s v : hvdc_init s v -> hvdc_ok s v.
Proof. intros (r & n & mx & m & p & H). by apply C20_hvdc_adder in H as (_ & _ & ?). Qed.
Theorem C20_hvdc_consistent st id v : ereach hcall_act hvdc_init always st -> e_vars st !! id = Some v -> hvdc_ok (e_sh st) v.
Proof. intros R. by apply (local_inv hset hobs hvdc_ok hvdc_init hwhat hvdc_init_ok hset_no_ub hset_local) in R as [_ E]; apply E. Qed.
Theorem C20_hvdc_setter c st r st' : ereach hcall_act hvdc_init always st -> run_setter (hset c) st = (r, st') ->
  setter_spec hobs hvdc_ok (hwhat c) st r st'.
Proof. apply (local_setter hset hobs hvdc_ok hvdc_init hwhat hvdc_init_ok hset_no_ub hset_local). Qed.

Definition vl_init (s : vlsh) (v : unit) : Prop := exists n l h, vladd n l h = Ok (s, v).
Notation vlcall_act := (fun c => run_setter (vlset c)).
Theorem C20_voltage_level_adder n l h s v : vladd n l h = Ok (s, v) <-> vlobs s v = [OD n; OD l; OD h] /\ vl_ok s v.
Proof.
  unfold vladd, vl_ok. split.
  - next_check nomV_ok; [|done]. next_check vlim_ok; [|done]. intros [= <- <-]. simpl. tauto.
  - destruct s, v; cbn -[checkVoltageLimits checkNominalVoltage]. intros (E & H). injection E; intros; subst. destruct H as (H1 & H2 & H3 & H4).
    next_check nomV_ok; [|tauto]. next_check vlim_ok; [|tauto]. done.
Qed.
Lemma vl_init_ok s v : vl_init s v -> vl_ok s v.
Proof. intros (n & l & h & H). by apply C20_voltage_level_adder in H as (_ & ?). Qed.
Theorem C20_voltage_level_consistent st id v : ereach vlcall_act vl_init always st -> e_vars st !! id = Some v -> vl_ok (e_sh st) v.
Proof. intros R. by apply (local_inv vlset vlobs vl_ok vl_init vlwhat vl_init_ok vlset_no_ub vlset_local) in R as [_ E]; apply E. Qed.
Theorem C20_voltage_level_setter c st r st' : ereach vlcall_act vl_init always st -> run_setter (vlset c) st = (r, st') ->
  setter_spec vlobs vl_ok (vlwhat c) st r st'.
Proof. apply (local_setter vlset vlobs vl_ok vl_init vlwhat vl_init_ok vlset_no_ub vlset_local). Qed.

Definition load_init (s : unit) (v : ldvar) : Prop := exists p q, ldadd p q = Ok (s, v).
Notation ldcall_act := (fun c => run_setter (ldset c)).
Theorem C20_load_adder p q s v : ldadd p q = Ok (s, v) <-> ldobs s v = [OD p; OD q] /\ load_ok s v.
Proof.
  unfold ldadd, load_ok. split.
  - next_check p0_ok; [|done]. next_check q0_ok; [|done]. intros [= <- <-]. simpl. tauto.
  - destruct s, v; simpl. intros (E & H). injection E; intros; subst. next_check p0_ok; [|tauto]. next_check q0_ok; [|tauto]. done.
Qed.
Lemma load_init_ok s v : load_init s v -> load_ok s v.
Proof. intros (p & q & H). by apply C20_load_adder in H as (_ & ?). Qed.
Theorem C20_load_consistent st id v : ereach ldcall_act load_init always st -> e_vars st !! id = Some v -> load_ok (e_sh st) v.
Proof. intros R. by apply (local_inv ldset ldobs load_ok load_init ldwhat load_init_ok ldset_no_ub ldset_local) in R as [_ E]; apply E. Qed.
Theorem C20_load_setter c st r st' : ereach ldcall_act load_init always st -> run_setter (ldset c) st = (r, st') ->
  setter_spec ldobs load_ok (ldwhat c) st r st'.
Proof. apply (local_setter ldset ldobs load_ok load_init ldwhat load_init_ok ldset_no_ub ldset_local). Qed.

(** Dangling line generation: undefined limits are replaced by the extreme finite values, after the check of their order.  With
    an infinite limit on one side and none on the other the result is out of order; with limits within the finite doubles the
    property holds. *)
Definition representable (x : dbl) : Prop := x = NaN \/ in_between (Fin (- dbl_max)) x (Fin dbl_max).
Definition dlg_any_init (s : dsh) (v : dvar) : Prop := exists mn mx p q u on, dadd mn mx p q u on = Ok (s, v).
Definition dlg_init (s : dsh) (v : dvar) : Prop :=
  exists mn mx p q u on, representable mn /\ representable mx /\ dadd mn mx p q u on = Ok (s, v).
Notation dcall_act := (fun c => run_setter (dset c)).
Lemma dbl_max_order : ele (Fin (- dbl_max)) (Fin dbl_max).
Proof. simpl. unfold dbl_max. vm_compute. discriminate. Qed.
Theorem C20_dangling_generation_adder mn mx p q u on s v : representable mn -> representable mx ->
  dadd mn mx p q u on = Ok (s, v) <->
  dobs s v = [OD (if is_nan mn then Fin (- dbl_max) else mn); OD (if is_nan mx then Fin dbl_max else mx); OD p; OD q; OD u; OB on] /\ dlg_ok s v.
Proof.
  intros Rn Rx. unfold dadd, dlg_ok. split.
  - next_check limits_ok; [|done]. next_check aps_ok; [|done]. next_check vc_ok; [|done]. intros [= <- <-]. split; [done|]. simpl. split; [|done].
    destruct (is_nan mn) eqn:En, (is_nan mx) eqn:Ex.
    + apply dbl_max_order.
    + destruct Rx as [->|[Rx _]]; done.
    + destruct Rn as [->|[_ Rn]]; done.
    + apply A; by apply is_nan_false.
  - destruct s, v; cbn -[checkVoltageControl]. intros (E & H). injection E; intros; subst. destruct H as (H1 & H2 & H3).
    next_check limits_ok.
    + next_check aps_ok; [|tauto]. next_check vc_ok; [|tauto]. done.
    + exfalso. apply N. intros D1%is_nan_false D2%is_nan_false. by rewrite D1, D2 in H1.
Qed.
Lemma dlg_init_ok s v : dlg_init s v -> dlg_ok s v.
Proof. intros (mn & mx & p & q & u & on & R1 & R2 & H). by apply C20_dangling_generation_adder in H as (_ & ?). Qed.
(** Full statement: with [dlg_any_init].  Missing: an infinite limit with the other one undefined, see the refutation. *)
Theorem C20_dangling_generation_consistent_partial st id v : ereach dcall_act dlg_init always st -> e_vars st !! id = Some v -> dlg_ok (e_sh st) v.
Proof. intros R. by apply (local_inv dset dobs dlg_ok dlg_init dwhat dlg_init_ok dset_no_ub dset_local) in R as [_ E]; apply E. Qed.
Theorem C20_dangling_generation_refuted : exists s v, dlg_any_init s v /\ ~ dlg_ok s v.
Proof.
  eexists _, _. split; [exists NaN, NInf, (Fin 1), (Fin 0), (Fin 400), true; vm_compute; reflexivity|]. unfold dlg_ok. simpl. by intros [H _].
Qed.
Theorem C20_dangling_generation_setter c st r st' : ereach dcall_act dlg_init always st -> run_setter (dset c) st = (r, st') ->
  setter_spec dobs dlg_ok (dwhat c) st r st'.
Proof. apply (local_setter dset dobs dlg_ok dlg_init dwhat dlg_init_ok dset_no_ub dset_local). Qed.

Theorem C20_shunt_consistent st id v : ereach shunt_call shunt_init always st -> e_vars st !! id = Some v -> shunt_ok (e_sh st) v.
Proof. intros R. by apply shunt_reach_ok in R as [_ E]; apply E. Qed.
Theorem C20_shunt_failed_setter c st m st' : ereach shunt_call shunt_init always st -> run_setter (sset c) st = (Throw m, st') -> st' = st.
Proof. intros [W _]%shunt_reach_ok. apply run_setter_throw; [done|apply sset_no_ub]. Qed.

(** A generator with regulation on in one variant and off in another; the limits lowered; refused calls. *)
Definition ex_gen_ops : list (eop gcall) :=
  [EClone initial_variant "v" false; EWork "v"; ECall (GSetQ (Fin 5)); ECall (GSetOn false); ECall (GSetV NaN);
   ECall (GSetMaxP (Fin 50)); ECall (GSetMinP (Fin 60)); ECall (GSetOn true)].
Definition ex_gen : est gsh gvar := enew (mkG (Fin 10) (Fin 100) NaN own_terminal) (mkGv (Fin 30) NaN (Fin 400) true).
Example C20_case : exists st, ereach gcall_act gen_init always st /\ st = erun gcall_act ex_gen ex_gen_ops /\
  e_sh st = mkG (Fin 10) (Fin 50) NaN own_terminal /\ e_vars st !! "v" = Some (mkGv (Fin 30) (Fin 5) NaN false) /\
  e_vars st !! initial_variant = Some (mkGv (Fin 30) NaN (Fin 400) true).
Proof.
  eexists. split; [apply (ereach_run _ _ ex_gen ex_gen_ops), (er_new _ _ _ (mkG (Fin 10) (Fin 100) NaN own_terminal) (mkGv (Fin 30) NaN (Fin 400) true))|].
  - exists (Fin 10), (Fin 100), NaN, None, (Fin 30), NaN, (Fin 400), (Some true). done.
  - apply enew_created.
  - split; [done|]. split; [vm_compute; done|]. split; vm_compute; done.
Qed.
Example C20_case_dlg : dlg_init (mkD (Fin (- dbl_max)) (Fin 50)) (mkDv (Fin 1) (Fin 0) NaN false).
Proof.
  exists NaN, (Fin 50), (Fin 1), (Fin 0), NaN, false. split; [by left|]. split; [|vm_compute; done].
  right. split; vm_compute; discriminate.
Qed.

(** The other classes: what an adder builds, then calls, some accepted and some refused. *)
Lemma run_case {S V O} (call : O -> act S V unit) (init : S -> V -> Prop) s v ops : init s v -> ereach call init always (erun call (enew s v) ops).
Proof. intros H. apply ereach_run, (er_new _ _ _ _ _ _ H), enew_created. Qed.
Example C20_case_battery : exists st, ereach bcall_act bat_init always st /\ st = erun bcall_act (enew (mkB (Fin 0) (Fin 10)) (mkBv (Fin 1) (Fin 2))) [ECall (BSetMaxP (Fin 20)); ECall (BSetMinP (Fin 30)); ECall (BSetQ NaN); ECall (BSetP (Fin 3))] /\
  e_sh st = mkB (Fin 0) (Fin 20) /\ e_vars st !! initial_variant = Some (mkBv (Fin 3) (Fin 2)).
Proof. eexists. split; [apply run_case; exists (Fin 0), (Fin 10), (Fin 1), (Fin 2); done|]. split; [reflexivity|]. split; vm_compute; done. Qed.
Example C20_case_vsc : exists st, ereach vcall_act vsc_init always st /\ st = erun vcall_act (enew (mkV (Fin 1)) (mkVv true NaN (Fin 400))) [ECall (VSetOn false); ECall (VSetQ (Fin 5)); ECall (VSetOn false); ECall (VSetV NaN); ECall (VSetOn true); ECall (VSetLoss (Fin 101))] /\
  e_sh st = mkV (Fin 1) /\ e_vars st !! initial_variant = Some (mkVv false (Fin 5) NaN).
Proof. eexists. split; [apply run_case; exists (Fin 1), (Some true), NaN, (Fin 400); done|]. split; [reflexivity|]. split; vm_compute; done. Qed.
Example C20_case_lcc : exists st, ereach lcall_act lcc_init always st /\ st = erun lcall_act (enew (mkL (Fin 1) (Fin (1#2))) tt) [ECall (LSetPf (Fin 2)); ECall (LSetLoss (Fin 3)); ECall (LSetLoss NaN)] /\
  e_sh st = mkL (Fin 3) (Fin (1#2)) /\ e_vars st !! initial_variant = Some tt.
Proof. eexists. split; [apply run_case; exists (Fin 1), (Fin (1#2)); done|]. split; [reflexivity|]. split; vm_compute; done. Qed.
Example C20_case_svc : exists st, ereach svcall_act svc_init always st /\ st = erun svcall_act (enew (mkSv (Fin 0) (Fin 1) own_terminal) (mkSvv (Fin 400) NaN SvcVoltage)) [ECall (SvSetMode SvcReactive); ECall (SvSetV NaN); ECall (SvSetMode SvcOff); ECall (SvSetV NaN); ECall (SvSetBmax (Fin 2))] /\
  e_sh st = mkSv (Fin 0) (Fin 2) own_terminal /\ e_vars st !! initial_variant = Some (mkSvv NaN NaN SvcOff).
Proof. eexists. split; [apply run_case; exists (Fin 0), (Fin 1), None, (Fin 400), NaN, (Some SvcVoltage); done|]. split; [reflexivity|]. split; vm_compute; done. Qed.
Example C20_case_hvdc : exists st, ereach hcall_act hvdc_init always st /\ st = erun hcall_act (enew (mkH (Fin 1) (Fin 400) (Fin 100)) (mkHv Side1Rectifier (Fin 50))) [ECall (HSetP (Fin (-1))); ECall (HSetMode Side1Inverter); ECall (HSetNomV (Fin 0)); ECall (HSetMaxP (Fin 200))] /\
  e_sh st = mkH (Fin 1) (Fin 400) (Fin 200) /\ e_vars st !! initial_variant = Some (mkHv Side1Inverter (Fin 50)).
Proof. eexists. split; [apply run_case; exists (Fin 1), (Fin 400), (Fin 100), (Some Side1Rectifier), (Fin 50); done|]. split; [reflexivity|]. split; vm_compute; done. Qed.
Example C20_case_voltage_level : exists st, ereach vlcall_act vl_init always st /\ st = erun vlcall_act (enew (mkVl (Fin 400) (Fin 380) NaN) tt) [ECall (VlSetHigh (Fin 300)); ECall (VlSetHigh (Fin 420)); ECall (VlSetLow (Fin 430)); ECall (VlSetNomV NaN)] /\
  e_sh st = mkVl (Fin 400) (Fin 380) (Fin 420) /\ e_vars st !! initial_variant = Some tt.
Proof. eexists. split; [apply run_case; exists (Fin 400), (Fin 380), NaN; done|]. split; [reflexivity|]. split; vm_compute; done. Qed.
Example C20_case_load : exists st, ereach ldcall_act load_init always st /\ st = erun ldcall_act (enew tt (mkLd (Fin 1) (Fin 2))) [ECall (LdSetP NaN); ECall (LdSetQ (Fin 4))] /\
  e_sh st = tt /\ e_vars st !! initial_variant = Some (mkLd (Fin 1) (Fin 4)).
Proof. eexists. split; [apply run_case; exists (Fin 1), (Fin 2); done|]. split; [reflexivity|]. split; vm_compute; done. Qed.

(** ** C19 *)
(** Full statement: in every reachable state the section count is within the maximum, in every variant, and getB, getG do not
    throw.  Missing: setMaximumSectionCount only checks the working variant, so the calls must suit the other variants. *)
Theorem C19_count_in_range_partial st id v : ereach shunt_call shunt_init max_safe st -> e_vars st !! id = Some v ->
  s_count v <= sm_max (s_model (e_sh st)) /\ exists b g, sm_getB (s_model (e_sh st)) (s_count v) = Ok b /\ sm_getG (s_model (e_sh st)) (s_count v) = Ok g.
Proof.
  intros R Hv. pose proof (shunt_reach_count st R id v Hv) as H. unfold count_ok in H. split; [done|]. unfold sm_getB, sm_getG.
  destruct (s_model (e_sh st)) as [b g mx|l]; simpl in H.
  - rewrite bool_decide_false by lia. eauto.
  - rewrite bool_decide_false by lia. destruct (s_count v) as [|n]; [eauto|]. rewrite bool_decide_false by lia.
    destruct (vget_lt l (S n - 1)) as (e & -> & _); [lia|]. simpl. eauto.
Qed.
(** Three sections in variant "v", one in the working variant, maximum lowered to two: getB throws in "v". *)
Definition ex_shunt : est ssh svar := enew (mkS (Linear (Fin (1#100)) NaN 4) own_terminal) (mkSvr 1 false NaN NaN).
Lemma ex_shunt_init : shunt_init (mkS (Linear (Fin (1#100)) NaN 4) own_terminal) (mkSvr 1 false NaN NaN).
Proof. exists None, false, NaN, NaN, (Some (BLinear (Fin (1#100)) NaN (Some 4))), (Some 1). done. Qed.
Definition ex_shunt_ops : list (eop scall) :=
  [EClone initial_variant "v" false; EWork "v"; ECall (SSetCount 3); EWork initial_variant; ECall (SSetMax 2)].
Theorem C19_count_in_range_refuted : exists st id v, ereach shunt_call shunt_init always st /\ e_vars st !! id = Some v /\
  ~ s_count v <= sm_max (s_model (e_sh st)) /\ exists m, sm_getB (s_model (e_sh st)) (s_count v) = Throw m.
Proof.
  exists (erun shunt_call ex_shunt ex_shunt_ops), "v", (mkSvr 3 false NaN NaN).
  split; [apply ereach_run, (er_new _ _ _ _ _ _ ex_shunt_init), enew_created|]. split; [vm_compute; done|]. split; [vm_compute; lia|].
  eexists. vm_compute. done.
Qed.
(** In the same state setSectionCount of "v" within the new maximum repairs it; the safe history: the maximum lowered to three. *)
Example C19_case : exists st, ereach shunt_call shunt_init max_safe st /\ e_vars st !! "v" = Some (mkSvr 3 false NaN NaN) /\
  sm_max (s_model (e_sh st)) = 3 /\ sm_getB (s_model (e_sh st)) 3 = Ok (Fin (3#100)).
Proof.
  set (st4 := erun shunt_call ex_shunt (take 4 ex_shunt_ops)).
  exists (estep shunt_call st4 (ECall (SSetMax 3))).2. split; [|split; [vm_compute; done|split; vm_compute; done]].
  apply er_step.
  - apply ereach_run_safe; [repeat constructor; by intros|]. apply (er_new _ _ _ _ _ _ ex_shunt_init), enew_created.
  - cbn [max_safe]. intros id w _ Hw.
    assert (map_Forall (fun (_ : string) w => s_count w <= 3) (e_vars st4)) as H by (apply (bool_decide_unpack _); vm_compute; exact I).
    by apply (H id).
Qed.

(** A non linear shunt compensator: with n sections in service the susceptance is that of the n-th section added, and the
    conductance is the last one that was given among the first n sections (0 if none was), after any history. *)
Theorem C19_nonlinear_values args t on x db n0 st n :
  ereach shunt_call (fun s v => sadd t on x db (Some (BNonLinear args)) n0 = Ok (s, v)) always st ->
  sm_max (s_model (e_sh st)) = length args /\
  match n with
  | 0 => sm_getB (s_model (e_sh st)) n = Ok (Fin 0) /\ sm_getG (s_model (e_sh st)) n = Ok (Fin 0)
  | S k => forall b g, args !! k = Some (b, g) ->
    sm_getB (s_model (e_sh st)) n = Ok b /\ exists g', sm_getG (s_model (e_sh st)) n = Ok g' /\ last_defined (take n (snd <$> args)) g'
  end.
Proof.
  intros R.
  assert (exists l, end_sections [] args = Ok l /\ s_model (e_sh st) = NonLinear (map (fun e => new_section (fst e) (snd e)) l)) as (l & El & ->).
  { apply (equip_inv sset (fun s v => sadd t on x db (Some (BNonLinear args)) n0 = Ok (s, v))
      (fun s _ => (exists l, end_sections [] args = Ok l /\ s_model s = NonLinear (map (fun e => new_section (fst e) (snd e)) l)) /\ no_refs (s_model s))) in R as [[[v Hv] _] E].
    - by apply (E _ _ Hv).
    - intros s v H%sadd_model. split; [|by eapply build_no_refs]. simpl in H. destruct (end_sections [] args) as [l| | |]; try done.
      exists l. split; [done|]. unfold check in H. case_bool_decide; [done|]. simpl in H. congruence.
    - apply sset_no_ub.
    - intros c. apply (shunt_keeps_model c (fun m => exists l, end_sections [] args = Ok l /\ m = NonLinear (map (fun e => new_section (fst e) (snd e)) l))).
      by intros ? ? ? (l & _ & ?). }
  apply (end_sections_spec args [] [] l) in El as [Hl H]; [|done|simpl; lia]. simpl in Hl, H. unfold sm_getB, sm_getG, sm_max.
  rewrite map_length. split; [done|]. destruct n as [|k]; [done|]. intros b g Hk. pose proof (lookup_lt_Some _ _ _ Hk) as Hlt.
  rewrite bool_decide_false by lia. rewrite bool_decide_false by lia. destruct (H k Hlt) as (b' & g1 & g' & E1 & E2 & E3).
  replace (S k - 1) with k by lia. unfold vget. rewrite list_lookup_fmap, E2. simpl. split; [congruence|]. eauto.
Qed.
Example C19_nonlinear_case : exists st, ereach shunt_call (fun s v => sadd None false NaN NaN (Some (BNonLinear [(Fin 1, NaN); (Fin 3, Fin 5); (Fin 7, NaN)])) (Some 2) = Ok (s, v)) always st /\
  sm_getB (s_model (e_sh st)) 3 = Ok (Fin 7) /\ sm_getG (s_model (e_sh st)) 3 = Ok (Fin 5) /\ sm_getG (s_model (e_sh st)) 1 = Ok (Fin 0).
Proof.
  eexists (enew _ _). split; [eapply er_new; [|apply enew_created]; vm_compute; reflexivity|]. vm_compute. done.
Qed.

(** A linear one: the susceptance and the conductance are n times those of a section, an undefined conductance counting as 0. *)
Theorem C19_linear_values b g mx n : n <= mx ->
  (forall q, b = Fin q -> sm_getB (Linear b g mx) n = Ok (Fin (q * inject_Z (Z.of_nat n)))) /\
  (forall q, g = Fin q -> sm_getG (Linear b g mx) n = Ok (Fin (q * inject_Z (Z.of_nat n)))) /\
  (g = NaN -> sm_getG (Linear b g mx) n = Ok (Fin 0)) /\
  (0 < n -> (b = NInf \/ b = PInf -> sm_getB (Linear b g mx) n = Ok b) /\ (g = NInf \/ g = PInf -> sm_getG (Linear b g mx) n = Ok g)).
Proof.
  intros Hn. unfold sm_getB, sm_getG. rewrite bool_decide_false by lia. split; [by intros q ->|]. split; [by intros q ->|]. split; [by intros ->|].
  intros H. split; intros [-> | ->]; cbn; by rewrite bool_decide_false by lia.
Qed.
(** No section in service does not mean no susceptance: an infinite susceptance per section is accepted, and 0 times infinity is undefined. *)
Theorem C19_no_section_refuted : exists st v, ereach shunt_call shunt_init always st /\ e_vars st !! initial_variant = Some v /\ s_count v = 0 /\
  sm_getB (s_model (e_sh st)) (s_count v) = Ok NaN.
Proof.
  exists (enew (mkS (Linear PInf NaN 4) own_terminal) (mkSvr 0 false NaN NaN)), (mkSvr 0 false NaN NaN). split; [|vm_compute; done].
  eapply er_new; [|apply enew_created]. exists None, false, NaN, NaN, (Some (BLinear PInf NaN (Some 4))), (Some 0). vm_compute. done.
Qed.

(** ** C49 *)
(** Full statement: in a reachable shunt compensator with a non linear model, setB and setG of a section accept every defined
    value.  It does not hold: both throw, whatever the value, in every reachable state. *)
Theorem C49_section_setters_always_throw st i x : ereach shunt_call shunt_init always st ->
  (exists m, run_setter (sset (SSetSectionB i x)) st = (Throw m, st)) /\ (exists m, run_setter (sset (SSetSectionG i x)) st = (Throw m, st)).
Proof.
  intros R. apply (equip_inv sset shunt_init (fun s _ => no_refs (s_model s)) shunt_init_no_refs sset_no_ub shunt_keeps_no_refs) in R as [[[v Hv] _] E].
  apply E in Hv. split.
  - destruct (upd_section_throws (e_sh st) i (fun e => checkBPerSection x ;;+ Ok (mkSec x (sec_g e) (sec_ref e))) Hv) as [m Hm].
    exists m. unfold run_setter, sset, upd_sh0, abind, ashared, alift. by rewrite Hm.
  - destruct (upd_section_throws (e_sh st) i (fun e => checkBPerSection x ;;+ Ok (mkSec (sec_b e) x (sec_ref e))) Hv) as [m Hm].
    exists m. unfold run_setter, sset, upd_sh0, abind, ashared, alift. by rewrite Hm.
Qed.
Theorem C49_section_setters_refuted : exists st l i e x, ereach shunt_call shunt_init always st /\ s_model (e_sh st) = NonLinear l /\ l !! i = Some e /\
  defined x /\ exists m, run_setter (sset (SSetSectionB i x)) st = (Throw m, st).
Proof.
  assert (shunt_init (mkS (NonLinear [new_section (Fin 1) (Fin 0)]) own_terminal) (mkSvr 1 false NaN NaN)) as H.
  { exists None, false, NaN, NaN, (Some (BNonLinear [(Fin 1, NaN)])), (Some 1). done. }
  eexists (enew _ _), _, 0, _, (Fin 2). split; [eapply er_new; [exact H|apply enew_created]|]. split; [done|]. split; [done|]. split; [done|].
  apply C49_section_setters_always_throw. eapply er_new; [exact H|apply enew_created].
Qed.

Print Assumptions C20_generator_adder.
Print Assumptions C20_generator_consistent.
Print Assumptions C20_generator_setter.
Print Assumptions C20_battery_setter.
Print Assumptions C20_vsc_setter.
Print Assumptions C20_lcc_setter.
Print Assumptions C20_svc_setter.
Print Assumptions C20_hvdc_setter.
Print Assumptions C20_voltage_level_setter.
Print Assumptions C20_load_setter.
Print Assumptions C20_dangling_generation_setter.
Print Assumptions C20_dangling_generation_refuted.
Print Assumptions C20_shunt_consistent.
Print Assumptions C19_count_in_range_partial.
Print Assumptions C19_count_in_range_refuted.
Print Assumptions C19_nonlinear_values.
Print Assumptions C49_section_setters_always_throw.
Print Assumptions C49_section_setters_refuted.
Print Assumptions C20_battery_adder.
Print Assumptions C20_battery_consistent.
Print Assumptions C20_vsc_adder.
Print Assumptions C20_vsc_consistent.
Print Assumptions C20_lcc_adder.
Print Assumptions C20_lcc_consistent.
Print Assumptions C20_svc_adder.
Print Assumptions C20_svc_consistent.
Print Assumptions C20_hvdc_adder.
Print Assumptions C20_hvdc_consistent.
Print Assumptions C20_voltage_level_adder.
Print Assumptions C20_voltage_level_consistent.
Print Assumptions C20_load_adder.
Print Assumptions C20_load_consistent.
Print Assumptions C20_dangling_generation_adder.
Print Assumptions C20_dangling_generation_consistent_partial.
Print Assumptions C20_shunt_failed_setter.
Print Assumptions C19_linear_values.
Print Assumptions C19_no_section_refuted.
