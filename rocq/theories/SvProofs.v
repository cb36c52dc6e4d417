(** Proofs about the state of the other side of a branch. *)
From Verif Require Import Sv SvSpec.
Local Open Scope C_scope.

(** ** Complex numbers *)
Lemma C_ext (x y : C) : fst x = fst y -> snd x = snd y -> x = y.
Proof. destruct x, y; cbn; intros; subst; reflexivity. Qed.
Ltac cext := apply C_ext; cbn; try ring.
Lemma cconj_mult x y : cconj (x * y) = cconj x * cconj y. Proof. cext. Qed.
Lemma cconj_plus x y : cconj (x + y) = cconj x + cconj y. Proof. cext. Qed.
Lemma cconj_minus x y : cconj (x - y) = cconj x - cconj y. Proof. cext. Qed.
Lemma cconj_cconj x : cconj (cconj x) = x. Proof. cext. Qed.
Lemma cconj_0 : cconj (RtoC 0) = RtoC 0. Proof. cext. Qed.
Lemma cconj_1 : cconj (RtoC 1) = RtoC 1. Proof. cext. Qed.
Lemma cconj_nz x : x <> RtoC 0 -> cconj x <> RtoC 0.
Proof. intros H E. apply H. rewrite <- (cconj_cconj x), E. apply cconj_0. Qed.
Lemma cconj_div x y : y <> RtoC 0 -> cconj (x / y) = cconj x / cconj y.
Proof.
  intros H. assert (H' := cconj_nz y H). assert (E : cconj (x / y) * cconj y = cconj x).
  { rewrite <- cconj_mult. f_equal. field. assumption. }
  rewrite <- E. field. assumption.
Qed.
Lemma Cmod_nz x : x <> RtoC 0 <-> Cmod x <> 0%R.
Proof.
  split.
  - intros H E. apply H. exact (Cmod_eq_0 x E).
  - intros H ->. apply H. apply Cmod_0.
Qed.
Lemma cdiv_some x y : y <> RtoC 0 -> cdiv x y = Some (x / y).
Proof. intros H%Cmod_nz. unfold cdiv. destruct (Req_EM_T (Cmod y) 0); [contradiction|reflexivity]. Qed.
Lemma cdiv_inv x y z : cdiv x y = Some z -> y <> RtoC 0 /\ z = x / y.
Proof. unfold cdiv. destruct (Req_EM_T (Cmod y) 0) as [|H]; [discriminate|]. intros [= <-]. split; [apply Cmod_nz; exact H|reflexivity]. Qed.
Lemma Cmult_nz x y : x <> RtoC 0 -> y <> RtoC 0 -> x * y <> RtoC 0.
Proof. exact (Cmult_neq_0 x y). Qed.
Lemma Cdiv_nz x y : x <> RtoC 0 -> y <> RtoC 0 -> x / y <> RtoC 0.
Proof. intros Hx Hy E. apply Hx. assert (x = x / y * y) as -> by (field; assumption). rewrite E. ring. Qed.

(** ** Polar coordinates *)
Lemma Cmod_polar u t : (0 <= u)%R -> Cmod (polar u t) = u.
Proof.
  intros H. unfold Cmod, polar; cbn [fst snd]. replace ((u * cos t) ^ 2 + (u * sin t) ^ 2)%R with (u * u)%R.
  - rewrite sqrt_square; [reflexivity|assumption].
  - pose proof (sin2_cos2 t) as E. unfold Rsqr in E. assert (E' : (u * u * (sin t * sin t + cos t * cos t) = u * u)%R) by (rewrite E; ring). lra.
Qed.
Lemma Cmod_sqr z : (fst z * fst z + snd z * snd z = Cmod z * Cmod z)%R.
Proof. unfold Cmod. rewrite sqrt_sqrt; [ring|]. pose proof (pow2_ge_0 (fst z)). pose proof (pow2_ge_0 (snd z)). lra. Qed.
Lemma ratio_bound z : z <> RtoC 0 -> (-1 <= fst z / Cmod z <= 1)%R.
Proof.
  intros H. assert (P : (0 < Cmod z)%R) by (apply Cmod_gt_0; exact H). pose proof (Cmod_sqr z) as E.
  assert (A : (-Cmod z <= fst z <= Cmod z)%R).
  { assert (B : (fst z * fst z <= Cmod z * Cmod z)%R) by (pose proof (Rle_0_sqr (snd z)) as Q; unfold Rsqr in Q; lra).
    split; apply Rnot_lt_le; intros L; nra. }
  split.
  - apply (Rmult_le_reg_r (Cmod z)); [assumption|]. unfold Rdiv. rewrite Rmult_assoc, Rinv_l by lra. lra.
  - apply (Rmult_le_reg_r (Cmod z)); [assumption|]. unfold Rdiv. rewrite Rmult_assoc, Rinv_l by lra. lra.
Qed.
Lemma sin_ratio z : z <> RtoC 0 -> (Cmod z * sqrt (1 - Rsqr (fst z / Cmod z)) = Rabs (snd z))%R.
Proof.
  intros H. assert (P : (0 < Cmod z)%R) by (apply Cmod_gt_0; exact H). pose proof (Cmod_sqr z) as E.
  rewrite <- (sqrt_square (Cmod z)) at 1 by lra. rewrite <- sqrt_mult_alt by nra.
  replace (Cmod z * Cmod z * (1 - Rsqr (fst z / Cmod z)))%R with (Rsqr (snd z)).
  - apply sqrt_Rsqr_abs.
  - unfold Rsqr. replace (Cmod z * Cmod z * (1 - fst z / Cmod z * (fst z / Cmod z)))%R with (Cmod z * Cmod z - fst z * fst z)%R by (field; lra). lra.
Qed.
Lemma polar_carg z : z <> RtoC 0 -> polar (Cmod z) (carg z) = z.
Proof.
  intros H. assert (P : (0 < Cmod z)%R) by (apply Cmod_gt_0; exact H). unfold carg. destruct (Req_EM_T (Cmod z) 0) as [E|_]; [lra|].
  pose proof (ratio_bound z H) as B. pose proof (sin_ratio z H) as S.
  destruct (Rle_dec 0 (snd z)) as [L|L]; unfold polar; apply C_ext; cbn [fst snd].
  - rewrite cos_acos by assumption. field. lra.
  - rewrite sin_acos by assumption. rewrite S. apply Rabs_right. lra.
  - rewrite cos_neg, cos_acos by assumption. field. lra.
  - rewrite sin_neg, sin_acos by assumption. rewrite Ropp_mult_distr_r_reverse, S. rewrite Rabs_left by lra. lra.
Qed.
Lemma carg_range z : (- PI < carg z <= PI)%R.
Proof.
  pose proof PI_RGT_0 as P. unfold carg. destruct (Req_EM_T (Cmod z) 0) as [E|E]; [lra|].
  assert (H : z <> RtoC 0) by (apply Cmod_nz; exact E). pose proof (acos_bound (fst z / Cmod z)) as B.
  destruct (Rle_dec 0 (snd z)) as [L|L]; [lra|]. split; [|lra].
  destruct (Req_dec (acos (fst z / Cmod z)) PI) as [Q|Q]; [|lra].
  exfalso. pose proof (polar_carg z H) as PZ. unfold carg in PZ. destruct (Req_EM_T (Cmod z) 0) as [|_]; [contradiction|].
  destruct (Rle_dec 0 (snd z)) as [|_]; [contradiction|]. rewrite Q in PZ. apply (f_equal snd) in PZ. unfold polar in PZ. cbn [snd] in PZ.
  rewrite sin_neg, sin_PI in PZ. lra.
Qed.
(** Two angles of (-PI, PI] with the same sine and cosine are equal. *)
Lemma angle_inj s t : (-PI < s <= PI)%R -> (-PI < t <= PI)%R -> cos s = cos t -> sin s = sin t -> s = t.
Proof.
  intros Hs Ht C S. pose proof PI_RGT_0 as P.
  destruct (Rle_dec 0 s) as [Ls|Ls]; destruct (Rle_dec 0 t) as [Lt|Lt].
  - rewrite <- (acos_cos s), <- (acos_cos t) by lra. f_equal. exact C.
  - exfalso. assert (0 <= sin s)%R by (apply sin_ge_0; lra). assert (sin t < 0)%R by (rewrite <- (Ropp_involutive t), sin_neg; pose proof (sin_gt_0 (-t)%R ltac:(lra) ltac:(lra)); lra). lra.
  - exfalso. assert (0 <= sin t)%R by (apply sin_ge_0; lra). assert (sin s < 0)%R by (rewrite <- (Ropp_involutive s), sin_neg; pose proof (sin_gt_0 (-s)%R ltac:(lra) ltac:(lra)); lra). lra.
  - assert ((-s) = (-t))%R; [|lra]. rewrite <- (acos_cos (-s)), <- (acos_cos (-t)) by lra. f_equal. rewrite !cos_neg. exact C.
Qed.
Lemma carg_polar u t : (0 < u)%R -> (-PI < t <= PI)%R -> carg (polar u t) = t.
Proof.
  intros Hu Ht. assert (M : Cmod (polar u t) = u) by (apply Cmod_polar; lra). assert (NZ : polar u t <> RtoC 0) by (apply Cmod_nz; lra).
  pose proof (polar_carg _ NZ) as E. rewrite M in E. apply angle_inj; [apply carg_range|exact Ht| |].
  - apply (f_equal fst) in E. cbn [polar fst] in E. apply (Rmult_eq_reg_l u); [exact E|lra].
  - apply (f_equal snd) in E. cbn [polar snd] in E. apply (Rmult_eq_reg_l u); [exact E|lra].
Qed.
(** Every angle is one of (-PI, PI] plus whole turns. *)
Lemma cos_turns t (k : Z) : cos (t + 2 * IZR k * PI) = cos t.
Proof.
  destruct k as [|p|p].
  - f_equal. simpl. ring.
  - rewrite <- (cos_period t (Pos.to_nat p)). f_equal. rewrite INR_IZR_INZ, positive_nat_Z. reflexivity.
  - rewrite <- (cos_period (t + 2 * IZR (Z.neg p) * PI) (Pos.to_nat p)). f_equal. rewrite INR_IZR_INZ, positive_nat_Z.
    change (Z.neg p) with (- Z.pos p)%Z. rewrite opp_IZR. ring.
Qed.
Lemma sin_turns t (k : Z) : sin (t + 2 * IZR k * PI) = sin t.
Proof.
  destruct k as [|p|p].
  - f_equal. simpl. ring.
  - rewrite <- (sin_period t (Pos.to_nat p)). f_equal. rewrite INR_IZR_INZ, positive_nat_Z. reflexivity.
  - rewrite <- (sin_period (t + 2 * IZR (Z.neg p) * PI) (Pos.to_nat p)). f_equal. rewrite INR_IZR_INZ, positive_nat_Z.
    change (Z.neg p) with (- Z.pos p)%Z. rewrite opp_IZR. ring.
Qed.
Lemma reduce_angle t : exists k : Z, (-PI < t + 2 * IZR k * PI <= PI)%R.
Proof.
  pose proof PI_RGT_0 as P. set (q := ((- t - PI) / (2 * PI))%R). destruct (archimed q) as [A B].
  exists (up q). assert (E : (q * (2 * PI) = - t - PI)%R) by (unfold q; field; lra).
  split.
  - assert ((q * (2 * PI) < IZR (up q) * (2 * PI))%R) by (apply Rmult_lt_compat_r; lra). lra.
  - assert ((IZR (up q) * (2 * PI) <= (q + 1) * (2 * PI))%R) by (apply Rmult_le_compat_r; lra). lra.
Qed.
Lemma carg_turns u t : (0 < u)%R -> exists k : Z, carg (polar u t) = (t + 2 * IZR k * PI)%R.
Proof.
  intros Hu. destruct (reduce_angle t) as [k Hk]. exists k. rewrite <- (carg_polar u _ Hu Hk). unfold polar.
  rewrite cos_turns, sin_turns. reflexivity.
Qed.
Lemma degrees_radians a : (a * to_degrees * to_radians = a)%R.
Proof. unfold to_degrees, to_radians. field. pose proof PI_RGT_0. lra. Qed.
Lemma radians_degrees a : (a * to_radians * to_degrees = a)%R.
Proof. unfold to_degrees, to_radians. field. pose proof PI_RGT_0. lra. Qed.

(** ** Voltages and flows *)
Lemma cconj_mult_cconj s v : v <> RtoC 0 -> cconj (cconj s / cconj v * cconj v) = s.
Proof. intros H. assert (H' := cconj_nz v H). replace (cconj s / cconj v * cconj v) with (cconj s) by (field; assumption). apply cconj_cconj. Qed.
Lemma voltage2_spec y v1 s1 v2 : voltage2 y v1 s1 = Some v2 <->
  v1 <> RtoC 0 /\ y12 y <> RtoC 0 /\ flow1 y v1 v2 = s1.
Proof.
  unfold voltage2, flow1. split.
  - destruct (cdiv (cconj s1) (cconj v1)) as [i|] eqn:D; [|discriminate]. cbn. intros Q. apply cdiv_inv in D as [N1 ->]. apply cdiv_inv in Q as [N2 ->].
    assert (N : v1 <> RtoC 0) by (intros ->; apply N1, cconj_0). split; [assumption|]. split; [assumption|].
    rewrite <- (cconj_mult_cconj s1 v1 N) at 2. f_equal. field. repeat split; first [assumption | apply cconj_nz; assumption].
  - intros (N & N2 & <-). rewrite cconj_cconj. rewrite cdiv_some by (apply cconj_nz; assumption). cbn. rewrite cdiv_some by assumption.
    f_equal. field. repeat split; first [assumption | apply cconj_nz; assumption].
Qed.
Lemma voltage1_spec y v2 s2 v1 : voltage1 y v2 s2 = Some v1 <->
  v2 <> RtoC 0 /\ y21 y <> RtoC 0 /\ flow2 y v1 v2 = s2.
Proof.
  unfold voltage1, flow2. split.
  - destruct (cdiv (cconj s2) (cconj v2)) as [i|] eqn:D; [|discriminate]. cbn. intros Q. apply cdiv_inv in D as [N1 ->]. apply cdiv_inv in Q as [N2 ->].
    assert (N : v2 <> RtoC 0) by (intros ->; apply N1, cconj_0). split; [assumption|]. split; [assumption|].
    rewrite <- (cconj_mult_cconj s2 v2 N) at 2. f_equal. field. repeat split; first [assumption | apply cconj_nz; assumption].
  - intros (N & N2 & <-). rewrite cconj_cconj. rewrite cdiv_some by (apply cconj_nz; assumption). cbn. rewrite cdiv_some by assumption.
    f_equal. field. repeat split; first [assumption | apply cconj_nz; assumption].
Qed.

(** ** The admittance matrix *)
Lemma polar_nz u t : (0 < u)%R -> polar u t <> RtoC 0.
Proof. intros H. apply Cmod_nz. rewrite Cmod_polar; lra. Qed.
Lemma polar_1_0 : polar 1 0 = RtoC 1.
Proof. unfold polar. rewrite cos_0, sin_0. apply C_ext; cbn; ring. Qed.
Lemma polar_inv rho alpha : (0 < rho)%R -> polar (1 / rho) (- alpha) * polar rho alpha = RtoC 1.
Proof.
  intros H. unfold polar. apply C_ext; cbn; rewrite cos_neg, sin_neg; pose proof (sin2_cos2 alpha) as E; unfold Rsqr in E.
  - replace (1 / rho * cos alpha * (rho * cos alpha) - 1 / rho * - sin alpha * (rho * sin alpha))%R with (sin alpha * sin alpha + cos alpha * cos alpha)%R by (field; lra). exact E.
  - field. lra.
Qed.
Definition z_nz (r x : R) : Prop := ~ (r = 0%R /\ x = 0%R).
Lemma z_nz_C r x : z_nz r x <-> ((r, x) : C) <> RtoC 0.
Proof.
  unfold z_nz. split; intros H E; apply H.
  - injection E as -> ->. split; reflexivity.
  - destruct E as [-> ->]. reflexivity.
Qed.
Lemma admittance_ok r x rho alpha g1 b1 g2 b2 : (0 < rho)%R -> z_nz r x ->
  let k := polar rho alpha in let z : C := (r, x) in
  branch_admittance r x (1 / rho) (- alpha) 1 0 (g1, b1) (g2, b2) =
  Some (mkAdm (cconj k * k * (RtoC 1 / z + (g1, b1))) (- (cconj k / z)) (- (k / z)) (RtoC 1 / z + (g2, b2))).
Proof.
  intros Hr Hz k z. unfold branch_admittance.
  assert (Ha : polar (1 / rho) (- alpha) * k = RtoC 1) by (apply polar_inv; assumption). set (a := polar (1 / rho) (- alpha)) in *.
  assert (Nz : z <> RtoC 0) by (apply z_nz_C; assumption).
  assert (Nk : k <> RtoC 0) by (apply polar_nz; assumption).
  assert (Na : a <> RtoC 0). { intros E. rewrite E in Ha. apply (f_equal fst) in Ha. cbn in Ha. lra. }
  assert (Ea : a = RtoC 1 / k). { rewrite <- Ha. field. assumption. }
  assert (Eca : cconj a = RtoC 1 / cconj k). { rewrite Ea, cconj_div, cconj_1 by assumption. reflexivity. }
  assert (Nck : cconj k <> RtoC 0) by (apply cconj_nz; assumption).
  assert (Nca : cconj a <> RtoC 0) by (apply cconj_nz; assumption).
  rewrite polar_1_0, cconj_1.
  assert (Y : (if Req_EM_T r 0 then if Req_EM_T x 0 then Some (RtoC 0) else cdiv (RtoC 1) (r, x) else cdiv (RtoC 1) (r, x)) = Some (RtoC 1 / z)).
  { destruct (Req_EM_T r 0) as [E|E]; [destruct (Req_EM_T x 0) as [E'|E']; [exfalso; apply Hz; split; assumption|]|]; apply cdiv_some; assumption. }
  rewrite Y. cbn [obind]. clear Y.
  assert (N1 : RtoC 1 <> RtoC 0) by (intros E; apply (f_equal fst) in E; cbn in E; lra).
  rewrite cdiv_some by (apply Cmult_nz; assumption). cbn [obind].
  rewrite cdiv_some by (apply Cmult_nz; assumption). cbn [obind].
  rewrite cdiv_some by (apply Cmult_nz; assumption). cbn [obind].
  rewrite cdiv_some by (apply Cmult_nz; assumption). cbn [obind].
  f_equal. rewrite Eca, Ea. f_equal.
  - field. repeat split; assumption.
  - field. repeat split; assumption.
  - field. repeat split; assumption.
  - field. repeat split; assumption.
Qed.
(** The matrix gives the currents of the branch equations. *)
Lemma currents r x rho alpha g1 b1 g2 b2 v1 v2 y : (0 < rho)%R -> z_nz r x ->
  branch_admittance r x (1 / rho) (- alpha) 1 0 (g1, b1) (g2, b2) = Some y ->
  y12 y <> RtoC 0 /\ y21 y <> RtoC 0 /\
  forall i1 i2, branch_equations (polar rho alpha) (r, x) (g1, b1) (g2, b2) v1 v2 i1 i2 <->
    i1 = y11 y * v1 + y12 y * v2 /\ i2 = y21 y * v1 + y22 y * v2.
Proof.
  intros Hr Hz. rewrite (admittance_ok r x rho alpha g1 b1 g2 b2 Hr Hz). intros [= <-]. cbn [y11 y12 y21 y22].
  set (k := polar rho alpha). set (z := ((r, x) : C)).
  assert (Nz : z <> RtoC 0) by (apply z_nz_C; assumption).
  assert (Nk : k <> RtoC 0) by (apply polar_nz; assumption). assert (Nck : cconj k <> RtoC 0) by (apply cconj_nz; assumption).
  assert (OPP : forall c : C, c <> RtoC 0 -> - c <> RtoC 0).
  { intros c Hc E. apply Hc. assert (c = - (- c)) as -> by ring. rewrite E. ring. }
  split; [apply OPP, Cdiv_nz; assumption|]. split; [apply OPP, Cdiv_nz; assumption|].
  intros i1 i2. unfold branch_equations. split.
  - intros (i & -> & -> & ->). split; field; assumption.
  - intros [-> ->]. exists ((g1, b1) * (k * v1) + (k * v1 - v2) / z). split; [field; assumption|]. split; [reflexivity|field; assumption].
Qed.
Lemma power_flow1 y v1 v2 : power v1 (y11 y * v1 + y12 y * v2) = flow1 y v1 v2.
Proof. unfold power, flow1. rewrite cconj_mult, cconj_cconj. ring. Qed.
Lemma power_flow2 y v1 v2 : power v2 (y21 y * v1 + y22 y * v2) = flow2 y v1 v2.
Proof. unfold power, flow2. rewrite cconj_mult, cconj_cconj. ring. Qed.

(** ** The state at the other side *)
Lemma voltage_of v p q sd : v <> RtoC 0 -> voltage (mkSV p q (Cmod v) (carg v * to_degrees) sd) = v.
Proof. intros H. unfold voltage. cbn [sv_u sv_a]. rewrite degrees_radians. apply polar_carg. assumption. Qed.
Lemma voltage_of_0 p q sd : voltage (mkSV p q (Cmod (RtoC 0)) (carg (RtoC 0) * to_degrees) sd) = RtoC 0.
Proof. unfold voltage. cbn [sv_u sv_a]. rewrite Cmod_0. unfold polar. apply C_ext; cbn; ring. Qed.
Lemma C_dec (z : C) : z = RtoC 0 \/ z <> RtoC 0.
Proof. destruct (Req_EM_T (Cmod z) 0) as [E|E]; [left; exact (Cmod_eq_0 z E)|right; apply Cmod_nz; exact E]. Qed.
Lemma voltage_any v p q sd : voltage (mkSV p q (Cmod v) (carg v * to_degrees) sd) = v.
Proof. destruct (C_dec v) as [->|H]; [apply voltage_of_0|apply voltage_of; assumption]. Qed.
Lemma voltage_nz s : (0 < sv_u s)%R -> voltage s <> RtoC 0.
Proof. apply polar_nz. Qed.
(** Same complex voltage with positive moduli: same modulus, same angle up to turns. *)
Lemma voltage_same s t : (0 < sv_u s)%R -> (0 < sv_u t)%R -> voltage s = voltage t -> sv_u s = sv_u t /\ same_angle (sv_a s) (sv_a t).
Proof.
  intros Hs Ht E. unfold voltage in E. assert (M := f_equal Cmod E). rewrite !Cmod_polar in M by lra. split; [exact M|].
  destruct (carg_turns (sv_u s) (sv_a s * to_radians) Hs) as [k1 K1]. destruct (carg_turns (sv_u t) (sv_a t * to_radians) Ht) as [k2 K2].
  rewrite E, K2 in K1. exists (k2 - k1)%Z. rewrite minus_IZR. pose proof PI_RGT_0 as P. unfold to_radians in K1.
  assert ((sv_a s - sv_a t - 360 * (IZR k2 - IZR k1)) * (PI / 180) = 0)%R by lra.
  assert (sv_a s - sv_a t - 360 * (IZR k2 - IZR k1) = 0)%R; [|lra]. apply (Rmult_eq_reg_r (PI / 180)); lra.
Qed.
Lemma same_angle_principal a b : principal a -> principal b -> same_angle a b -> a = b.
Proof.
  intros [A1 A2] [B1 B2] [k E]. assert (k = 0)%Z as ->; [|lra].
  assert (-1 < IZR k < 1)%R as [L1 L2] by lra. apply lt_IZR in L1. apply lt_IZR in L2. lia.
Qed.
Lemma principal_carg v : principal (carg v * to_degrees).
Proof.
  pose proof (carg_range v) as [A B]. pose proof PI_RGT_0 as P. unfold principal, to_degrees. split.
  - apply (Rmult_lt_reg_r (PI / 180)); [lra|]. replace (carg v * (180 / PI) * (PI / 180))%R with (carg v) by (field; lra). lra.
  - apply (Rmult_le_reg_r (PI / 180)); [lra|]. replace (carg v * (180 / PI) * (PI / 180))%R with (carg v) by (field; lra). lra.
Qed.
Lemma other_adm_one s y o : sv_side s = ONE -> other_side_adm s y = Some o <->
  voltage s <> RtoC 0 /\ y12 y <> RtoC 0 /\ flow1 y (voltage s) (voltage o) = (sv_p s, sv_q s) /\ flow2 y (voltage s) (voltage o) = (sv_p o, sv_q o) /\
  sv_u o = Cmod (voltage o) /\ sv_a o = (carg (voltage o) * to_degrees)%R /\ sv_side o = TWO.
Proof.
  intros E. unfold other_side_adm. rewrite E. fold (voltage s). split.
  - destruct (voltage2 y (voltage s) (sv_p s, sv_q s)) as [v|] eqn:V; [|discriminate]. cbn. intros [= <-].
    apply voltage2_spec in V as (N & N2 & F). rewrite voltage_any. cbn [sv_u sv_a sv_p sv_q sv_side].
    repeat split; try assumption; try reflexivity.
  - intros (N & N2 & F1 & F2 & U & A & S). assert (V : voltage2 y (voltage s) (sv_p s, sv_q s) = Some (voltage o)) by (apply voltage2_spec; repeat split; assumption).
    rewrite V. cbn [obind]. rewrite F2. cbn [fst snd]. rewrite <- U, <- A, <- S. destruct o; reflexivity.
Qed.
Lemma other_adm_two s y o : sv_side s = TWO -> other_side_adm s y = Some o <->
  voltage s <> RtoC 0 /\ y21 y <> RtoC 0 /\ flow2 y (voltage o) (voltage s) = (sv_p s, sv_q s) /\ flow1 y (voltage o) (voltage s) = (sv_p o, sv_q o) /\
  sv_u o = Cmod (voltage o) /\ sv_a o = (carg (voltage o) * to_degrees)%R /\ sv_side o = ONE.
Proof.
  intros E. unfold other_side_adm. rewrite E. fold (voltage s). split.
  - destruct (voltage1 y (voltage s) (sv_p s, sv_q s)) as [v|] eqn:V; [|discriminate]. cbn. intros [= <-].
    apply voltage1_spec in V as (N & N2 & F). rewrite voltage_any. cbn [sv_u sv_a sv_p sv_q sv_side].
    repeat split; try assumption; try reflexivity.
  - intros (N & N2 & F1 & F2 & U & A & S). assert (V : voltage1 y (voltage s) (sv_p s, sv_q s) = Some (voltage o)) by (apply voltage1_spec; repeat split; assumption).
    rewrite V. cbn [obind]. rewrite F2. cbn [fst snd]. rewrite <- U, <- A, <- S. destruct o; reflexivity.
Qed.
Lemma other_side_eq s r x g1 b1 g2 b2 rho alpha : (0 < rho)%R -> z_nz r x ->
  exists y, branch_admittance r x (1 / rho) (- alpha) 1 0 (g1, b1) (g2, b2) = Some y /\ other_side s r x g1 b1 g2 b2 rho alpha = other_side_adm s y.
Proof.
  intros Hr Hz. unfold other_side, rdiv. destruct (Req_EM_T rho 0) as [E|_]; [lra|]. cbn [obind].
  rewrite (admittance_ok r x rho alpha g1 b1 g2 b2 Hr Hz). eexists. split; reflexivity.
Qed.
