(** The state of the other side of a branch (C36). *)
From Verif Require Import Sv SvSpec SvProofs.
Local Open Scope C_scope.

(** For a non-zero voltage, series impedance and ratio the function answers, the angle is in (-180, 180] and both sides together satisfy
    the equations of the branch. *)
Theorem C36_equations s r x g1 b1 g2 b2 rho alpha : (0 < sv_u s)%R -> (0 < rho)%R -> ~ (r = 0%R /\ x = 0%R) ->
  exists o, other_side s r x g1 b1 g2 b2 rho alpha = Some o /\ principal (sv_a o) /\ (0 <= sv_u o)%R /\
    match sv_side s with
    | ONE => sv_side o = TWO /\ two_port r x g1 b1 g2 b2 rho alpha s o
    | TWO => sv_side o = ONE /\ two_port r x g1 b1 g2 b2 rho alpha o s
    end.
Proof.
  intros Hu Hr Hz. destruct (other_side_eq s r x g1 b1 g2 b2 rho alpha Hr Hz) as (y & Y & ->).
  destruct (currents r x rho alpha g1 b1 g2 b2 (RtoC 0) (RtoC 0) y Hr Hz Y) as (N12 & N21 & _).
  pose proof (voltage_nz s Hu) as NV. destruct (sv_side s) eqn:S.
  - assert (exists o, other_side_adm s y = Some o) as [o O].
    { unfold other_side_adm. rewrite S. unfold voltage2. rewrite cdiv_some by (apply cconj_nz; exact NV). cbn [obind]. rewrite cdiv_some by assumption. eexists; reflexivity. }
    exists o. split; [exact O|]. apply (other_adm_one s y o S) in O as (_ & _ & F1 & F2 & U & A & So).
    split; [rewrite A; apply principal_carg|]. split; [rewrite U; apply Cmod_ge_0|]. split; [exact So|].
    exists (y11 y * voltage s + y12 y * voltage o), (y21 y * voltage s + y22 y * voltage o). rewrite power_flow1, power_flow2. split; [|split; assumption].
    apply (currents r x rho alpha g1 b1 g2 b2 (voltage s) (voltage o) y Hr Hz Y). split; reflexivity.
  - assert (exists o, other_side_adm s y = Some o) as [o O].
    { unfold other_side_adm. rewrite S. unfold voltage1. rewrite cdiv_some by (apply cconj_nz; exact NV). cbn [obind]. rewrite cdiv_some by assumption. eexists; reflexivity. }
    exists o. split; [exact O|]. apply (other_adm_two s y o S) in O as (_ & _ & F1 & F2 & U & A & So).
    split; [rewrite A; apply principal_carg|]. split; [rewrite U; apply Cmod_ge_0|]. split; [exact So|].
    exists (y11 y * voltage o + y12 y * voltage s), (y21 y * voltage o + y22 y * voltage s). rewrite power_flow1, power_flow2. split; [|split; assumption].
    apply (currents r x rho alpha g1 b1 g2 b2 (voltage o) (voltage s) y Hr Hz Y). split; reflexivity.
Qed.
Print Assumptions C36_equations.

(** It is the only such state, up to whole turns of the angle. *)
Theorem C36_unique s r x g1 b1 g2 b2 rho alpha o o' : (0 < sv_u s)%R -> (0 < rho)%R -> ~ (r = 0%R /\ x = 0%R) ->
  other_side s r x g1 b1 g2 b2 rho alpha = Some o -> (0 < sv_u o')%R -> sv_side o' <> sv_side s ->
  match sv_side s with ONE => two_port r x g1 b1 g2 b2 rho alpha s o' | TWO => two_port r x g1 b1 g2 b2 rho alpha o' s end ->
  same_state o o' /\ (principal (sv_a o') -> o = o').
Proof.
  intros Hu Hr Hz O Hu' Sd T. destruct (other_side_eq s r x g1 b1 g2 b2 rho alpha Hr Hz) as (y & Y & E). rewrite E in O. clear E.
  assert (Q : voltage o = voltage o' /\ (sv_p o, sv_q o) = (sv_p o', sv_q o') /\ sv_u o = Cmod (voltage o) /\ principal (sv_a o) /\ sv_side o <> sv_side s).
  { destruct (sv_side s) eqn:S.
    - destruct T as (i1 & i2 & B & P1 & P2). apply (currents r x rho alpha g1 b1 g2 b2 (voltage s) (voltage o') y Hr Hz Y) in B as [-> ->].
      rewrite power_flow1 in P1. rewrite power_flow2 in P2.
      pose proof (proj2 (voltage2_spec y (voltage s) (sv_p s, sv_q s) (voltage o'))) as V.
      apply (other_adm_one s y o S) in O as (NV & N12 & F1 & F2 & U & A & So).
      pose proof (proj2 (voltage2_spec y (voltage s) (sv_p s, sv_q s) (voltage o)) (conj NV (conj N12 F1))) as V'.
      specialize (V (conj NV (conj N12 P1))). assert (E : voltage o = voltage o') by congruence. rewrite E in F2.
      repeat split; try congruence; rewrite A; apply principal_carg.
    - destruct T as (i1 & i2 & B & P1 & P2). apply (currents r x rho alpha g1 b1 g2 b2 (voltage o') (voltage s) y Hr Hz Y) in B as [-> ->].
      rewrite power_flow1 in P1. rewrite power_flow2 in P2.
      pose proof (proj2 (voltage1_spec y (voltage s) (sv_p s, sv_q s) (voltage o'))) as V.
      apply (other_adm_two s y o S) in O as (NV & N12 & F1 & F2 & U & A & So).
      pose proof (proj2 (voltage1_spec y (voltage s) (sv_p s, sv_q s) (voltage o)) (conj NV (conj N12 F1))) as V'.
      specialize (V (conj NV (conj N12 P2))). assert (E : voltage o = voltage o') by congruence. rewrite E in F2.
      repeat split; try congruence; rewrite A; apply principal_carg. }
  destruct Q as (V & [= P Q] & U & A & So).
  assert (Uo : (0 < sv_u o)%R) by (rewrite U, V; apply Cmod_gt_0, voltage_nz; exact Hu').
  destruct (voltage_same o o' Uo Hu' V) as [EU EA]. assert (ES : sv_side o = sv_side o') by (destruct (sv_side o), (sv_side o'), (sv_side s); congruence).
  split; [repeat split; assumption|]. intros A'. destruct o, o'; cbn in *. f_equal; try assumption. apply same_angle_principal; assumption.
Qed.
Print Assumptions C36_unique.

(** Going back gives the initial state: the same P, Q and U, and the same angle up to whole turns - exactly the same one when it is in
    (-180, 180]. If the voltage of the other side is zero there is no way back. *)
Theorem C36_involution s r x g1 b1 g2 b2 rho alpha o : (0 < sv_u s)%R -> (0 < rho)%R -> ~ (r = 0%R /\ x = 0%R) ->
  other_side s r x g1 b1 g2 b2 rho alpha = Some o ->
  ((0 < sv_u o)%R -> exists s', other_side o r x g1 b1 g2 b2 rho alpha = Some s' /\ same_state s' s /\ (principal (sv_a s) -> s' = s)) /\
  (sv_u o = 0%R -> other_side o r x g1 b1 g2 b2 rho alpha = None).
Proof.
  intros Hu Hr Hz O. destruct (C36_equations s r x g1 b1 g2 b2 rho alpha Hu Hr Hz) as (o' & O' & _ & _ & T). rewrite O in O'. injection O' as <-. split.
  - intros Huo. destruct (C36_equations o r x g1 b1 g2 b2 rho alpha Huo Hr Hz) as (s' & S' & _ & _ & T'). exists s'. split; [exact S'|].
    apply (C36_unique o r x g1 b1 g2 b2 rho alpha s' s Huo Hr Hz S' Hu).
    + destruct (sv_side s), T as [-> _]; discriminate.
    + destruct (sv_side s), T as [-> T]; exact T.
  - intros Z. destruct (other_side_eq o r x g1 b1 g2 b2 rho alpha Hr Hz) as (y & Y & ->).
    assert (V : voltage o = RtoC 0). { unfold voltage. rewrite Z. unfold polar. apply C_ext; cbn; ring. }
    destruct (other_side_adm o y) as [s'|] eqn:E; [|reflexivity]. exfalso. destruct (sv_side o) eqn:So.
    + apply (other_adm_one o y s' So) in E as (N & _). contradiction.
    + apply (other_adm_two o y s' So) in E as (N & _). contradiction.
Qed.
Print Assumptions C36_involution.

(** Zero impedance: the code's admittance matrix is zero off the diagonal and the function divides by zero. *)
Theorem C36_zero_impedance s g1 b1 g2 b2 rho alpha : (0 < sv_u s)%R -> (0 < rho)%R -> other_side s 0 0 g1 b1 g2 b2 rho alpha = None.
Proof.
  intros Hu Hr. unfold other_side. destruct (rdiv 1 rho) as [ir|]; [|reflexivity]. cbn [obind].
  destruct (branch_admittance 0 0 ir (- alpha) 1 0 (g1, b1) (g2, b2)) as [y|] eqn:Y; [|reflexivity]. cbn [obind].
  assert (Z : y12 y = RtoC 0 /\ y21 y = RtoC 0).
  { revert Y. unfold branch_admittance. destruct (Req_EM_T 0 0) as [_|N]; [|contradiction]. cbn [obind].
    destruct (cdiv (0%R + (g1, b1)) _) as [z11|]; [|discriminate]. cbn [obind].
    destruct (cdiv (- 0%R) (cconj (polar ir (- alpha)) * _)) as [z12|] eqn:E12; [|discriminate]. cbn [obind].
    destruct (cdiv (- 0%R) (cconj (polar 1 0) * polar ir (- alpha))) as [z21|] eqn:E21; [|discriminate]. cbn [obind].
    destruct (cdiv (0%R + (g2, b2)) _) as [z22|]; [|discriminate]. cbn [obind]. intros [= <-]. cbn [y12 y21].
    apply cdiv_inv in E12 as [N12 ->]. apply cdiv_inv in E21 as [N21 ->]. unfold Cdiv. split; ring. }
  destruct Z as [Z1 Z2]. destruct (other_side_adm s y) as [o|] eqn:E; [|reflexivity]. exfalso. destruct (sv_side s) eqn:So.
  - apply (other_adm_one s y o So) in E as (_ & N & _). contradiction.
  - apply (other_adm_two s y o So) in E as (_ & N & _). contradiction.
Qed.
Print Assumptions C36_zero_impedance.

(** otherSideP, otherSideQ, otherSideU, otherSideA are the parts of otherSide. *)
Theorem C36_parts s y : other_side_p s y = option_map sv_p (other_side_adm s y) /\ other_side_q s y = option_map sv_q (other_side_adm s y) /\
  other_side_u s y = option_map sv_u (other_side_adm s y) /\ other_side_a s y = option_map sv_a (other_side_adm s y).
Proof.
  unfold other_side_p, other_side_q, other_side_u, other_side_a, other_side_v, other_side_adm.
  destruct (sv_side s).
  - destruct (voltage2 y _ _); repeat split; reflexivity.
  - destruct (voltage1 y _ _); repeat split; reflexivity.
Qed.
Print Assumptions C36_parts.

(** Lines, dangling lines and two windings transformers, with the parameters the model of the equipment gives: a line has its four shunt
    values; a dangling line has its shunt on its own side, or half at each end; a transformer has its values corrected by the percentages of
    both tap steps, its shunt on side 1 or half at each end, and the ratio ratedU2/ratedU1 times those of both steps. *)
Definition sides (P : sv -> sv -> Prop) (s o : sv) : Prop :=
  match sv_side s with ONE => sv_side o = TWO /\ P s o | TWO => sv_side o = ONE /\ P o s end.
Theorem C36_line s l : (0 < sv_u s)%R -> ~ (lb_r l = 0%R /\ lb_x l = 0%R) ->
  exists o, other_side_line s l = Some o /\ principal (sv_a o) /\ sides (two_port (lb_r l) (lb_x l) (lb_g1 l) (lb_b1 l) (lb_g2 l) (lb_b2 l) 1 0) s o.
Proof.
  intros Hu Hz. destruct (C36_equations s (lb_r l) (lb_x l) (lb_g1 l) (lb_b1 l) (lb_g2 l) (lb_b2 l) 1 0 Hu Rlt_0_1 Hz) as (o & O & A & _ & T).
  exists o. split; [exact O|]. split; [exact A|]. exact T.
Qed.
Print Assumptions C36_line.
Theorem C36_dangling_line s d (split : bool) : (0 < sv_u s)%R -> ~ (dl_r d = 0%R /\ dl_x d = 0%R) ->
  let h := if split then (1/2)%R else 1%R in let h' := if split then (1/2)%R else 0%R in
  exists o, other_side_dl s d split = Some o /\ principal (sv_a o) /\
    sides (two_port (dl_r d) (dl_x d) (h * dl_g d) (h * dl_b d) (h' * dl_g d) (h' * dl_b d) 1 0) s o.
Proof.
  intros Hu Hz h h'.
  destruct (C36_equations s (dl_r d) (dl_x d) (h * dl_g d) (h * dl_b d) (h' * dl_g d) (h' * dl_b d) 1 0 Hu Rlt_0_1 Hz) as (o & O & A & _ & T).
  exists o. split; [|split; [exact A|exact T]]. rewrite <- O. unfold other_side_dl, h, h'. destruct split.
  - f_equal; ring.
  - f_equal; ring.
Qed.
Print Assumptions C36_dangling_line.
Definition correction (f : tstep -> R) (t : option tstep) : R := match t with Some k => (1 + f k / 100)%R | None => 1%R end.
Definition step_rho (t : option tstep) : R := match t with Some k => st_rho k | None => 1%R end.
Definition step_alpha (t : option tstep) : R := match t with Some k => st_alpha k | None => 0%R end.
Theorem C36_transformer s t (split : bool) :
  let c f v := (v * correction f (tw_ratio t) * correction f (tw_phase t))%R in
  let h := if split then (1/2)%R else 1%R in let h' := if split then (1/2)%R else 0%R in
  let r := c st_r (tw_r t) in let x := c st_x (tw_x t) in let g := c st_g (tw_g t) in let b := c st_b (tw_b t) in
  let rho := (tw_u2 t / tw_u1 t * step_rho (tw_ratio t) * step_rho (tw_phase t))%R in
  (0 < sv_u s)%R -> tw_u1 t <> 0%R -> (0 < rho)%R -> ~ (r = 0%R /\ x = 0%R) ->
  exists o, other_side_twt s t split = Some o /\ principal (sv_a o) /\
    sides (two_port r x (h * g) (h * b) (h' * g) (h' * b) rho (step_alpha (tw_phase t) * PI / 180)) s o.
Proof.
  intros c h h' r x g b rho Hu H1 Hr Hz.
  destruct (C36_equations s r x (h * g) (h * b) (h' * g) (h' * b) rho (step_alpha (tw_phase t) * PI / 180) Hu Hr Hz) as (o & O & A & _ & T).
  exists o. split; [|split; [exact A|exact T]]. rewrite <- O. unfold other_side_twt, twt_rho, rdiv.
  destruct (Req_EM_T (tw_u1 t) 0) as [E|_]; [contradiction|]. cbn [obind].
  assert (PC : forall f v, percent f t v = c f v). { intros f v. unfold percent, c, correction. destruct (tw_ratio t), (tw_phase t); cbn; ring. }
  rewrite !PC. fold r x g b.
  replace (match tw_phase t with Some k => (match tw_ratio t with Some k0 => (tw_u2 t / tw_u1 t * st_rho k0)%R | None => (tw_u2 t / tw_u1 t)%R end * st_rho k)%R
           | None => match tw_ratio t with Some k0 => (tw_u2 t / tw_u1 t * st_rho k0)%R | None => (tw_u2 t / tw_u1 t)%R end end) with rho
    by (unfold rho, step_rho; destruct (tw_ratio t), (tw_phase t); cbn; ring).
  replace (twt_alpha t) with (step_alpha (tw_phase t) * PI / 180)%R
    by (unfold twt_alpha, step_alpha, to_radians; destruct (tw_phase t); cbn; field).
  unfold h, h'. destruct split; f_equal; ring.
Qed.
Print Assumptions C36_transformer.

(** ** A line of reactance 1 fed with 1 MW at 1 kV: -1 MW, +1 Mvar, sqrt 2 kV and -45 degrees at the other side. *)
Example C36_case : other_side_line (mkSV 1 0 1 0 ONE) (mkLineB 0 1 0 0 0 0) = Some (mkSV (-1) 1 (sqrt 2) (-45) TWO) /\
  other_side_line (mkSV (-1) 1 (sqrt 2) (-45) TWO) (mkLineB 0 1 0 0 0 0) = Some (mkSV 1 0 1 0 ONE).
Proof.
  assert (Z : ~ (0 = 0 /\ 1 = 0)%R) by lra.
  assert (M : Cmod (1%R, (-1)%R) = sqrt 2) by (unfold Cmod; cbn [fst snd]; f_equal; ring).
  assert (S2 : (0 < sqrt 2)%R) by (apply sqrt_lt_R0; lra).
  assert (PV : polar (sqrt 2) (-45 * to_radians) = (1%R, (-1)%R)).
  { unfold polar, to_radians. replace (-45 * (PI / 180))%R with (- (PI / 4))%R by field. rewrite cos_neg, sin_neg, cos_PI4, sin_PI4.
    apply C_ext; cbn; field; lra. }
  assert (CA : (carg (1%R, (-1)%R) * to_degrees)%R = (-45)%R).
  { rewrite <- PV. rewrite carg_polar; [apply radians_degrees|exact S2|]. pose proof PI_RGT_0. unfold to_radians. lra. }
  assert (O : other_side_line (mkSV 1 0 1 0 ONE) (mkLineB 0 1 0 0 0 0) = Some (mkSV (-1) 1 (sqrt 2) (-45) TWO)).
  { unfold other_side_line. cbn [lb_r lb_x lb_g1 lb_b1 lb_g2 lb_b2].
    destruct (other_side_eq (mkSV 1 0 1 0 ONE) 0 1 0 0 0 0 1 0 Rlt_0_1 Z) as (y & Y & ->).
    rewrite (admittance_ok 0 1 1 0 0 0 0 0 Rlt_0_1 Z) in Y. injection Y as <-.
    set (y := mkAdm _ _ _ _). assert (Ny : forall z : C, z = (0, 1)%R -> z <> RtoC 0) by (intros z -> E; injection E; lra).
    assert (I1 : (/ (0%R, 1%R) : C) = (0%R, (-1)%R)) by (apply C_ext; cbn; field).
    assert (E12 : y12 y = (0%R, 1%R)). { unfold y. cbn [y12]. rewrite polar_1_0, cconj_1. unfold Cdiv. rewrite I1. cext. }
    assert (E21 : y21 y = (0%R, 1%R)). { unfold y. cbn [y21]. rewrite polar_1_0. unfold Cdiv. rewrite I1. cext. }
    assert (E11 : y11 y = (0%R, (-1)%R)). { unfold y. cbn [y11]. rewrite polar_1_0, cconj_1. unfold Cdiv. rewrite I1. cext. }
    assert (E22 : y22 y = (0%R, (-1)%R)). { unfold y. cbn [y22]. unfold Cdiv. rewrite I1. cext. }
    clearbody y.
    assert (V1 : voltage (mkSV 1 0 1 0 ONE) = RtoC 1). { unfold voltage. cbn [sv_u sv_a]. rewrite Rmult_0_l. apply polar_1_0. }
    assert (V2 : voltage (mkSV (-1) 1 (sqrt 2) (-45) TWO) = (1%R, (-1)%R)) by exact PV.
    apply (other_adm_one (mkSV 1 0 1 0 ONE) y (mkSV (-1) 1 (sqrt 2) (-45) TWO) eq_refl). rewrite V1, V2, E12. unfold flow1, flow2. rewrite E11, E12, E21, E22. cbn [sv_p sv_q sv_u sv_a sv_side].
    repeat split; try (cext; fail); try congruence; try (symmetry; assumption); try (apply Ny; reflexivity); try (cext; lra).
    intros E. apply (f_equal fst) in E. cbn in E. lra. }
  split; [exact O|].
  destruct (C36_involution (mkSV 1 0 1 0 ONE) 0 1 0 0 0 0 1 0 (mkSV (-1) 1 (sqrt 2) (-45) TWO) Rlt_0_1 Rlt_0_1 Z O) as [I _].
  destruct (I S2) as (s' & S' & _ & P). rewrite <- P; [exact S'|]. unfold principal. cbn. lra.
Qed.
