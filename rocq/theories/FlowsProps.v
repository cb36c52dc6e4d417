(** Flows at the terminals (C79). *)
From Coq Require Import Psatz.
From Verif Require Import Flows FlowsSpec FlowsProofs.
From Coquelicot Require Import Complex.
Local Open Scope R_scope.

(** For every history of calls and variants, the powers read are the last ones given, except that a busbar section has none and that a
    shunt compensator has no active power. *)
Theorem C79_powers ops ws w : legal ops ws ->
  (frun KOther (rev ops) w <> None <-> ws w) /\
  (ws w -> frun KOther (rev ops) w = Some (mkFlow (last_value p_given ops w) (last_value q_given ops w)) /\
           frun KShunt (rev ops) w = Some (mkFlow None (last_value q_given ops w)) /\
           frun KBusbar (rev ops) w = Some (mkFlow None None)).
Proof.
  intros L. split; [apply (run_has KOther _ _ L)|]. intros H. split; [by apply (run_other _ _ L)|]. split; [by apply (run_shunt_q _ _ L)|by apply (run_busbar _ _ L)].
Qed.
(** What is refused, and nothing else on a variant that exists. *)
Theorem C79_refused k m w x : m w <> None ->
  (fst (fstep k m (FSetP w x)) = Ok tt <-> k <> KBusbar /\ (k = KShunt -> x = None)) /\
  (fst (fstep k m (FSetQ w x)) = Ok tt <-> k <> KBusbar) /\
  (fst (fstep k m (FSetP w x)) <> Ok tt -> snd (fstep k m (FSetP w x)) = m) /\ (fst (fstep k m (FSetQ w x)) <> Ok tt -> snd (fstep k m (FSetQ w x)) = m).
Proof.
  intros H. cbn [fstep]. unfold on_variant. destruct (m w) as [f|]; [|congruence]. destruct k; [| |]; cbn [set_p set_q]; try (destruct x; cbn [set_p]);
    cbn [fst snd]; repeat split; intros; try congruence; try (by destruct H0); try (destruct H0 as [_ H0]; specialize (H0 eq_refl); discriminate).
Qed.
(** The current is defined when the powers and the voltage are, and only then; a busbar section has a null current. *)
Theorem C79_defined f v : (term_i KOther f v <> None <-> known_end (mkEnd f v)) /\ term_i KShunt f v = term_i KOther f v /\ term_i KBusbar f v = Some 0.
Proof.
  split; [|split; reflexivity]. unfold known_end, term_i. cbn [e_f e_v]. destruct (f_p f), (f_q f), v; cbn; split; intros H; repeat split; try discriminate; try congruence; tauto.
Qed.
(** So the current of a shunt compensator is never defined, whatever is set. *)
Theorem C79_shunt_refuted ops ws w v : legal ops ws -> ws w -> exists f, frun KShunt (rev ops) w = Some f /\ term_i KShunt f v = None.
Proof. intros L H. exists (mkFlow None (last_value q_given ops w)). split; [by apply (run_shunt_q _ _ L)|]. reflexivity. Qed.

(** Full statement: getI answers the current.  It does not hold: the square of the voltage in MV is a factor too many. *)
Theorem C79_current_partial e v i : carries e v i ->
  term_i KOther (e_f e) (e_v e) = Some (i * (v / 1000) * (v / 1000)) /\ (term_i KOther (e_f e) (e_v e) = Some i <-> v = 1000 \/ i = 0).
Proof.
  intros H. pose proof (term_i_carries e v i H) as T. split; [exact T|]. rewrite T. destruct H as (p & q & _ & _ & _ & V & I & _). split.
  - intros [= E]. destruct (Req_dec i 0) as [|N]; [by right|left]. assert (M : (v / 1000) * (v / 1000) = 1) by (apply (Rmult_eq_reg_l i); [lra|assumption]).
    assert ((v - 1000) * (v + 1000) = 0) as Z by lra. apply Rmult_integral in Z. lra.
  - intros [-> | ->]; f_equal; field.
Qed.
Theorem C79_current_refuted : exists e v i, carries e v i /\ v = 400 /\ i = 1000 /\ term_i KOther (e_f e) (e_v e) = Some 160.
Proof.
  exists (mkEnd (flow_of 400 1000) (Some 400)), 400, 1000. pose proof (flow_of_carries 400 1000 ltac:(lra) ltac:(lra)) as C. split; [exact C|].
  split; [reflexivity|]. split; [reflexivity|]. rewrite (term_i_carries _ _ _ C). f_equal. lra.
Qed.
(** When an overload is reported: the two sides, their currents i1 and i2, their permanent limits l1 and l2. *)
Theorem C79_overload_partial e1 v1 i1 e2 v2 i2 l1 t1 l2 t2 r : carries e1 v1 i1 -> carries e2 v2 i2 ->
  is_overloaded_r (Some (mkRL (Some l1) t1)) (Some (mkRL (Some l2) t2)) r e1 e2 = true <->
  l1 * r <= i1 * (v1 / 1000) * (v1 / 1000) \/ l2 * r <= i2 * (v2 / 1000) * (v2 / 1000).
Proof.
  intros C1 C2. unfold is_overloaded_r, permanent_r. cbn [rl_perm]. rewrite (term_i_carries _ _ _ C1), (term_i_carries _ _ _ C2), Bool.orb_true_iff, !rge_spec. reflexivity.
Qed.
(** At every voltage under 1000 kV and for every limit there are overloads that are not reported, up to (1000 / v)^2 times the limit; and
    over 1000 kV overloads are reported that do not exist. *)
Theorem C79_missed_refuted v l i : 0 < v -> 0 < l -> l <= i -> i * (v / 1000) * (v / 1000) < l ->
  exists e, carries e v i /\ forall t, is_overloaded_r (Some (mkRL (Some l) t)) (Some (mkRL (Some l) t)) 1 e e = false.
Proof.
  intros V L I M. pose proof (flow_of_carries v i V ltac:(lra)) as C. exists (mkEnd (flow_of v i) (Some v)). split; [exact C|]. intros t.
  apply Bool.not_true_is_false. rewrite (C79_overload_partial _ _ _ _ _ _ l t l t 1 C C). lra.
Qed.
Theorem C79_invented_refuted v l i : 1000 < v -> 0 < l -> 0 <= i < l -> l <= i * (v / 1000) * (v / 1000) ->
  exists e, carries e v i /\ forall t, is_overloaded_r (Some (mkRL (Some l) t)) (Some (mkRL (Some l) t)) 1 e e = true.
Proof.
  intros V L I M. pose proof (flow_of_carries v i ltac:(lra) ltac:(lra)) as C. exists (mkEnd (flow_of v i) (Some v)). split; [exact C|]. intros t.
  rewrite (C79_overload_partial _ _ _ _ _ _ l t l t 1 C C). lra.
Qed.
(** The time left before an overload must be relieved is unlimited where it is a minute. *)
Theorem C79_duration_refuted : exists e i lim, carries e 400 i /\ rl_perm lim = Some 1000 /\ rl_temp lim = [(1200, 1200%nat); (1400, 60%nat)] /\ 1200 <= i < 1400 /\
  overload_duration_r (Some lim) None e e = None.
Proof.
  pose proof (flow_of_carries 400 1300 ltac:(lra) ltac:(lra)) as C. exists (mkEnd (flow_of 400 1300) (Some 400)), 1300, (mkRL (Some 1000) [(1200, 1200%nat); (1400, 60%nat)]).
  split; [exact C|]. split; [reflexivity|]. split; [reflexivity|]. split; [lra|]. unfold overload_duration_r, temporary_r. rewrite (term_i_carries _ _ _ C).
  cbn [rl_perm rl_temp temporary_loop]. rewrite (proj2 (rge_false _ (1000 * 1))), (proj2 (rge_false _ (1200 * 1))) by lra. reflexivity.
Qed.
(** The other limits: the apparent power is the modulus of the complex power; a limit on the active power is reached by a positive power
    only, never by the same power in the other direction; voltage limits throw. *)
Theorem C79_apparent lims l t r e p q : f_p (e_f e) = Some p -> f_q (e_f e) = Some q -> lims LtApparent = Some (mkRL (Some l) t) ->
  check_permanent_limit lims r e LtApparent = Ok true <-> l * r <= Cmod (p, q).
Proof.
  intros Hp Hq Hl. unfold check_permanent_limit. cbn [value_for_limit]. rewrite Hp, Hq, Hl. cbn [olift option_map permanent_r rl_perm]. split.
  - intros [= H]. apply rge_spec in H. rewrite <- hypot_cmod. exact H.
  - intros H. f_equal. apply rge_spec. rewrite <- hypot_cmod in H. exact H.
Qed.
Theorem C79_direction_refuted lims l t e p : 0 < l -> p < 0 -> f_p (e_f e) = Some p -> lims LtActive = Some (mkRL (Some l) t) ->
  check_permanent_limit lims 1 e LtActive = Ok false.
Proof.
  intros L P Hp Hl. unfold check_permanent_limit. cbn [value_for_limit]. rewrite Hp, Hl. cbn [permanent_r rl_perm]. f_equal. apply rge_false. lra.
Qed.
Theorem C79_voltage lims r e : exists m, check_permanent_limit lims r e LtVoltage = Throw m.
Proof. eexists. reflexivity. Qed.

Example C79_case : exists ops ws f, legal ops ws /\ ws 1%nat /\ frun KOther (rev ops) 1%nat = Some f /\ carries (mkEnd f (Some 400)) 400 (1250 / sqrt 3) /\
  term_i KOther f (Some 400) = Some (200 / sqrt 3).
Proof.
  exists [FSetQ 0 (Some 7); FSetQ 1 (Some 400); FClone 0 1; FSetP 0 (Some 300)], (fun w => w = 1%nat \/ w = 0%nat), (mkFlow (Some 300) (Some 400)).
  assert (L : legal [FSetQ 0 (Some 7); FSetQ 1 (Some 400); FClone 0 1; FSetP 0 (Some 300)] (fun w => w = 1%nat \/ w = 0%nat)).
  { pose proof (lg_step _ _ (FSetP 0 (Some 300)) lg_new eq_refl) as H1. pose proof (lg_step _ _ (FClone 0 1) H1 eq_refl) as H2.
    pose proof (lg_step _ _ (FSetQ 1 (Some 400)) H2 (or_introl eq_refl)) as H3. exact (lg_step _ _ (FSetQ 0 (Some 7)) H3 (or_intror eq_refl)). }
  split; [exact L|]. split; [by left|]. split; [reflexivity|]. pose proof sqrt3 as S.
  assert (C : Cmod (300, 400) = 500). { unfold Cmod. cbn [fst snd]. replace (300 ^ 2 + 400 ^ 2) with (500 * 500) by ring. apply sqrt_square. lra. }
  assert (K : carries (mkEnd (mkFlow (Some 300) (Some 400)) (Some 400)) 400 (1250 / sqrt 3)).
  { exists 300, 400. cbn [e_f e_v f_p f_q]. do 3 (split; [reflexivity|]). split; [lra|]. split; [apply Rlt_le, Rdiv_lt_0_compat; lra|]. rewrite C. field. lra. }
  split; [exact K|]. pose proof (term_i_carries _ _ _ K) as T. cbn [e_f e_v] in T. rewrite T. f_equal. field. lra.
Qed.
(** A line at 400 kV with a limit of 1000 A carries six times that without being reported; at 1200 kV the alarm comes at 700 A. *)
Example C79_case_overload :
  (exists e, carries e 400 6000 /\ forall t, is_overloaded_r (Some (mkRL (Some 1000) t)) (Some (mkRL (Some 1000) t)) 1 e e = false) /\
  (exists e, carries e 1200 700 /\ forall t, is_overloaded_r (Some (mkRL (Some 1000) t)) (Some (mkRL (Some 1000) t)) 1 e e = true).
Proof. split; [apply C79_missed_refuted; lra|apply C79_invented_refuted; lra]. Qed.
Print Assumptions C79_powers.
Print Assumptions C79_refused.
Print Assumptions C79_defined.
Print Assumptions C79_shunt_refuted.
Print Assumptions C79_current_partial.
Print Assumptions C79_current_refuted.
Print Assumptions C79_overload_partial.
Print Assumptions C79_missed_refuted.
Print Assumptions C79_invented_refuted.
Print Assumptions C79_duration_refuted.
Print Assumptions C79_apparent.
Print Assumptions C79_direction_refuted.
Print Assumptions C79_voltage.
