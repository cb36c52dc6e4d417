(** Property C73: electrical characteristics and state values. *)
From Verif Require Import Equip TapChangerProofs SettersProofs ExtSetters ExtSettersSpec ExtSettersProofs Impedance ImpedanceSpec ImpedanceProofs.

Definition i_init (k : ikind) (s v : attrs) : Prop := exists a : iargs k, iadd a = Ok (s, v).
Notation icall_act k := (fun c : icall k => run_setter (iset c)).
Notation ireach k := (ereach (icall_act k) (i_init k) always).

(** An adder succeeds exactly if the values given, with the defaults, are those demanded (and a half line has an id); the object then
    shows the values given. *)
Theorem C73_adder k (a : iargs k) :
  (forall s v, iadd a = Ok (s, v) -> x_obs s v = i_given a /\ length s = shared_values k) /\
  ((exists s v, iadd a = Ok (s, v)) <-> named a /\ holds (demanded k) (i_given a)).
Proof.
  split; [intros s v H; apply i_adder in H as (E & _ & L & _); done|]. split.
  - intros (s & v & H). apply i_adder in H as (E & N & _ & F). by rewrite E.
  - intros [N F]. exists (take (shared_values k) (i_given a)), (drop (shared_values k) (i_given a)). apply i_adder. unfold x_obs. rewrite take_drop.
    repeat split; [done| |done]. rewrite take_length. apply Forall2_length in F as L. rewrite <- L. destruct k; simpl; lia.
Qed.
Lemma i_init_ok k s v : i_init k s v -> i_ok k s v.
Proof. intros [a H]. apply i_adder in H as (_ & _ & L & F). by apply i_adder_kept. Qed.
(** Whatever is done to it, the variants included, an object only ever holds the values allowed, in every variant. *)
Theorem C73_consistent k st id v : ireach k st -> e_vars st !! id = Some v -> holds (kept k) (x_obs (e_sh st) v).
Proof.
  intros R H. apply (local_inv iset x_obs (i_ok k) (i_init k) i_what (i_init_ok k) (i_no_ub k) (i_local k)) in R as [_ E].
  by destruct (E _ _ H).
Qed.
(** A setter changes the value of its own getter and nothing else, or throws and changes nothing; it throws exactly if the value is not
    allowed. *)
Theorem C73_setter k (c : icall k) st r st' : ireach k st -> run_setter (iset c) st = (r, st') ->
  setter_spec x_obs (i_ok k) (i_what c) st r st'.
Proof. apply (local_setter iset x_obs (i_ok k) (i_init k) i_what (i_init_ok k) (i_no_ub k) (i_local k)). Qed.
(** In the other variants the value changes too if it is a characteristic, and does not if it is one of p0, q0, v, angle, p and q. *)
Theorem C73_others k (c : icall k) st st' i j vj : ireach k st -> run_setter (iset c) st = (Ok tt, st') -> e_cur st = Some i -> j <> i ->
  e_vars st !! j = Some vj ->
  exists vj', e_vars st' !! j = Some vj' /\
    x_obs (e_sh st') vj' = if decide ((i_what c).1 < shared_values k) then <[(i_what c).1 := (i_what c).2]> (x_obs (e_sh st) vj) else x_obs (e_sh st) vj.
Proof.
  intros R E Hi Hj Hv. pose proof (C73_setter k c st _ st' R E) as [Hc S]. rewrite Hi in S. destruct S as (v & Hv0 & [(_ & _ & (v' & Hv' & Ho) & Hsame)|(? & ? & _)]); [|done].
  exists vj. rewrite Hsame by done. split; [done|].
  pose proof (local_inv iset x_obs (i_ok k) (i_init k) i_what (i_init_ok k) (i_no_ub k) (i_local k) st R) as [_ I].
  assert (ireach k st') as R'. { pose proof (er_step (icall_act k) (i_init k) always st (ECall c) R Logic.I) as R'. simpl in R'. by rewrite E in R'. }
  pose proof (local_inv iset x_obs (i_ok k) (i_init k) i_what (i_init_ok k) (i_no_ub k) (i_local k) st' R') as [_ I'].
  destruct (I _ _ Hv0) as [L _]. destruct (I' _ _ Hv') as [L' _]. unfold x_obs in *.
  case_decide as Hw.
  - rewrite insert_app_l in Ho by lia. apply app_inj_1 in Ho as [-> _]; [|rewrite insert_length; congruence]. symmetry. apply insert_app_l. lia.
  - rewrite insert_app_r_alt in Ho by lia. apply app_inj_1 in Ho as [-> _]; [done|congruence].
Qed.
(** The characteristics of a tie line and the flows of a busbar section cannot be set: the setters throw and change nothing. *)
Theorem C73_frozen (c : fcall) (st : est attrs attrs) : ewf st -> exists m, run_setter (fset c) st = (Throw m, st).
Proof.
  intros W. destruct c as [a x|x|x]; simpl; [by eexists| |];
  match goal with |- exists m, upd_var ?f st = _ => destruct (upd_var_cases f st W) as [(? & ? & ? & _ & _ & ? & _)|(m & -> & _)]; [done|done|eauto] end.
Qed.
(** A busbar section never shows a flow. *)
Theorem C73_busbar st id v : ereach (fun c => run_setter (fset c)) (fun s v => s = [] /\ v = [OD NaN; OD NaN]) always st ->
  e_vars st !! id = Some v -> v = [OD NaN; OD NaN].
Proof.
  intros R. assert (ewf st /\ everywhere (fun _ v => v = [OD NaN; OD NaN]) st) as [_ I]; [|apply I].
  apply (equip_inv fset (fun s v => s = [] /\ v = [OD NaN; OD NaN])); [by intros ? ? [_ ->]| | |done].
  - intros []; simpl; done.
  - intros []; simpl; done.
Qed.
(** The limits of min-max reactive limits: defined, the minimum first. *)
Theorem C73_minmax a b x y : minmax_add a b = Ok (x, y) <-> a = Some x /\ b = Some y /\ ele x y.
Proof.
  unfold minmax_add. rewrite (checks_bind _ _ _ _ _ (set_checks _ _)), (checks_bind _ _ _ _ _ (set_checks _ _)), !number_iff.
  destruct a as [a|], b as [b|]; simpl; try (split; [intros (H1 & H2 & _); by destruct H1|by intros (? & ? & _)]); try (split; [intros (H1 & H2 & _); by destruct H2|by intros (? & ? & _)]).
  split.
  - intros (H1 & H2 & H3). destruct (check _ _) as [[]| | |] eqn:E; simpl in H3; try discriminate. injection H3 as <- <-. split; [done|]. split; [done|].
    rewrite dlt_ok in E. by apply E.
  - intros ([= <-] & [= <-] & H). destruct (ele_defined _ _ H) as [? ?]. split; [done|]. split; [done|].
    assert (check (dlt b a) "Maximum reactive power is expected to be greater than or equal to minimum reactive power" = Ok tt) as -> by (by apply dlt_ok). done.
Qed.

(** A step: the adder demands numbers, the setters do not. *)
Theorem C73_step_refuted : exists st id v, ireach KRatioStep st /\ e_vars st !! id = Some v /\ ~ holds (demanded KRatioStep) (x_obs (e_sh st) v).
Proof.
  set (st := enew [OD (Fin 1); OD (Fin 2); OD (Fin 3); OD (Fin 4); OD (Fin 5)] ([] : attrs)).
  exists (estep (icall_act KRatioStep) st (ECall (RtcSetX NaN))).2, initial_variant, [].
  split; [|split; [done|]].
  - apply er_step; [|done]. eapply er_new; [|apply enew_created]. by exists (RtcArgs (Some (Fin 1)) (Some (Fin 2)) (Some (Fin 3)) (Some (Fin 4)) (Some (Fin 5))).
  - intros H. destruct (Forall2_lookup_lr _ _ _ 2 (number defined) (OD NaN) H eq_refl eq_refl) as (x & [= <-] & Hd). by apply Hd.
Qed.

(** The rated voltage at the star point: as set, or else that of leg 1, the first time the adder is used. *)
Theorem C73_ratedU0_partial cs before after u0 a' : Forall (fun c => ~ is_add c) cs -> trun (TAdd before after) (truns cs ta_new) = (Some (Ok u0), a') -> u0_of cs u0.
Proof.
  intros F E. destruct (truns_setters cs ta_new F) as [Hu Hl]. simpl in *. destruct (truns cs ta_new) as [l1 l2 l3 w]. simpl in *. subst w l1.
  destruct (last_leg1 cs None) as [u1|] eqn:E1; [|done]. destruct l2; [|done]. destruct l3; [|done]. destruct before; [|done].
  exists u1. split; [done|]. destruct (last_u0 cs NaN); destruct after; simpl in E; congruence.
Qed.
(** An adder used again keeps the rated voltage of leg 1 of the first use, even if that add threw. *)
Theorem C73_ratedU0_refuted : exists cs u0 a', trun (TAdd true true) (truns cs ta_new) = (Some (Ok u0), a') /\ last_u0 cs NaN = NaN /\ ~ u0_of cs u0.
Proof.
  exists [TSetLeg1 (Fin 400); TSetLeg2 (Fin 225); TSetLeg3 (Fin 20); TAdd true false; TSetLeg1 (Fin 380)]. eexists _, _. split; [reflexivity|]. split; [done|].
  intros (u1 & [= <-] & H). discriminate.
Qed.
(** A leg does not have the attribute name of its limits: it is made of the number of the leg before that is set. *)
Theorem C73_leg_attribute_refuted num : lm_number (leg_ctor num) = Some num /\ lm_attribute (leg_ctor num) <> Some ("limits" +:+ pretty_number num).
Proof. done. Qed.

(** A dangling line, a refused transformer, and a half line without an id. *)
Example C73_case :
  iadd (DlArgs (Some (Fin 1)) (Some (Fin 2)) (Some (Fin 3)) (Some (Fin 4)) (Some (Fin 5)) (Some NInf)) = Ok ([OD (Fin 1); OD (Fin 2); OD (Fin 3); OD (Fin 4)], [OD (Fin 5); OD NInf]) /\
  (exists m, iadd (DlArgs (Some (Fin 1)) (Some (Fin 2)) (Some (Fin 3)) None (Some (Fin 5)) (Some NInf)) = Throw m) /\
  (exists m, iadd (TwtArgs (Some (Fin 1)) (Some (Fin 2)) (Some (Fin 3)) (Some (Fin 4)) (Some (Fin 5)) (Some (Fin 6)) (Some (Fin 0))) = Throw m) /\
  iadd (LegArgs 2 (Some (Fin 1)) (Some (Fin 2)) None None (Some (Fin (-5))) None) = Ok ([OD (Fin 1); OD (Fin 2); OD (Fin 0); OD (Fin 0); OD (Fin (-5)); OD NaN], []) /\
  (exists m, iadd (LegArgs 1 (Some (Fin 1)) (Some (Fin 2)) None None (Some (Fin 5)) None) = Throw m) /\
  (exists m, iadd (HalfLineArgs None None (Some (Fin 1)) (Some (Fin 2)) (Some (Fin 3)) (Some (Fin 4)) (Some (Fin 5)) (Some (Fin 6))) = Throw m) /\
  minmax_add (Some (Fin (-3))) (Some (Fin (-3))) = Ok (Fin (-3), Fin (-3)) /\ (exists m, minmax_add (Some (Fin 1)) (Some (Fin 0)) = Throw m).
Proof. repeat (split; [by eexists || reflexivity|]). by eexists. Qed.
(** A dangling line in two variants: p0 set in the second, r in both; then a refused value. *)
Example C73_run :
  let st0 := enew [OD (Fin 1); OD (Fin 2); OD (Fin 3); OD (Fin 4)] [OD (Fin 5); OD (Fin 6)] in
  let st := (estep (icall_act KDangling) (estep (icall_act KDangling) st0 (EClone initial_variant "v" false)).2 (EWork "v")).2 in
  ireach KDangling st /\
  (let (r, st') := run_setter (iset (DlSetP0 (Fin 7))) st in
   r = Ok tt /\ e_vars st' !! initial_variant = Some [OD (Fin 5); OD (Fin 6)] /\ e_vars st' !! "v" = Some [OD (Fin 7); OD (Fin 6)] /\ e_sh st' = e_sh st) /\
  (let (r, st') := run_setter (iset (DlSetR (Fin 7))) st in r = Ok tt /\ e_sh st' = [OD (Fin 7); OD (Fin 2); OD (Fin 3); OD (Fin 4)]) /\
  (let (r, st') := run_setter (iset (DlSetQ0 NaN)) st in r = Throw "q0 is invalid" /\ st' = st).
Proof.
  split; [|by vm_compute].
  apply er_step; [|done]. apply er_step; [|done]. eapply er_new; [|apply enew_created].
  by exists (DlArgs (Some (Fin 1)) (Some (Fin 2)) (Some (Fin 3)) (Some (Fin 4)) (Some (Fin 5)) (Some (Fin 6))).
Qed.
(** Nothing hidden: the hypotheses of the first use of an adder are met. *)
Example C73_ratedU0_case : let cs := [TSetLeg1 (Fin 400); TSetLeg2 (Fin 225); TSetLeg3 (Fin 20)] in
  Forall (fun c => ~ is_add c) cs /\ exists a', trun (TAdd true true) (truns cs ta_new) = (Some (Ok (Fin 400)), a').
Proof. split; [repeat constructor; by intros []|by eexists]. Qed.
Print Assumptions C73_adder.
Print Assumptions C73_consistent.
Print Assumptions C73_setter.
Print Assumptions C73_others.
Print Assumptions C73_frozen.
Print Assumptions C73_busbar.
Print Assumptions C73_minmax.
Print Assumptions C73_step_refuted.
Print Assumptions C73_ratedU0_partial.
Print Assumptions C73_ratedU0_refuted.
Print Assumptions C73_leg_attribute_refuted.
