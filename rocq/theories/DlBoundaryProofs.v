(** Proofs about the boundary of a dangling line. *)
From Coq Require Import Psatz.
From Verif Require Import Sv SvSpec SvProofs SvProps DlBoundary DlBoundarySpec.
Local Open Scope C_scope.

Lemma phasor_voltage s : phasor (sv_u s) (sv_a s) = voltage s.
Proof. unfold phasor, voltage, polar, to_radians. replace (sv_a s * PI / 180)%R with (sv_a s * (PI / 180))%R by (field). reflexivity. Qed.

Lemma dl_equations_branch d v i vb ib : dl_equations d v i vb ib <->
  branch_equations (polar 1 0) (dl_r d, dl_x d) (1/2 * dl_g d, 1/2 * dl_b d)%R (1/2 * dl_g d, 1/2 * dl_b d)%R v vb i ib.
Proof.
  unfold dl_equations, branch_equations.
  assert (P : polar 1 0 = RtoC 1) by (unfold polar; rewrite cos_0, sin_0; apply C_ext; cbn; ring).
  assert (Q : cconj (RtoC 1) = RtoC 1) by (apply C_ext; cbn; ring).
  assert (Y : ((dl_g d / 2)%R, (dl_b d / 2)%R) = (1/2 * dl_g d, 1/2 * dl_b d)%R) by (apply C_ext; cbn; field).
  rewrite P, Q, Y, !Cmult_1_l. split.
  - intros [-> ->]. eexists. rewrite Cmult_1_l. repeat split; reflexivity.
  - intros (j & -> & -> & ->). rewrite Cmult_1_l. split; reflexivity.
Qed.

(** The four answers are the parts of the state of the other side. *)
Lemma dlb_parts t d p q v a : known t p q v a ->
  let o := other_side_dl (mkSV p q v a ONE) d true in
  dlb_v t d = option_map sv_u o /\ dlb_angle t d = option_map sv_a o /\ dlb_p t d = option_map sv_p o /\ dlb_q t d = option_map sv_q o.
Proof.
  intros (P & Q & B) o. unfold dlb_v, dlb_angle, dlb_p, dlb_q, dl_sv. rewrite P, Q, B. cbn [obind bus_v bus_angle].
  unfold o, other_side_dl, other_side, dl_adm, plain_adm.
  destruct (rdiv 1 1) as [ir|]; cbn [obind]; [|repeat split; reflexivity].
  destruct (branch_admittance _ _ _ _ _ _ _ _) as [y|]; cbn [obind]; [|repeat split; reflexivity].
  destruct (C36_parts (mkSV p q v a ONE) y) as (-> & -> & -> & ->). repeat split; reflexivity.
Qed.

Lemma dl_equations_unique d v i vb ib vb' ib' : has_impedance d -> dl_equations d v i vb ib -> dl_equations d v i vb' ib' -> vb' = vb /\ ib' = ib.
Proof.
  intros Z [E F] [E' F']. assert (N : (dl_r d, dl_x d) <> RtoC 0) by (intros Q; injection Q as Q1 Q2; apply Z; split; assumption).
  assert (V : vb' = vb).
  { rewrite E in E'. assert (D : (v - vb) / (dl_r d, dl_x d) = (v - vb') / (dl_r d, dl_x d)).
    { set (y := _ * v) in E'. set (l := (v - vb) / _) in *. set (l' := (v - vb') / _) in *.
      replace l with (y + l - y) by ring. rewrite E'. ring. }
    assert (M : v - vb = v - vb').
    { replace (v - vb) with ((v - vb) / (dl_r d, dl_x d) * (dl_r d, dl_x d)) by (field; exact N). rewrite D. field. exact N. }
    replace vb' with (v - (v - vb')) by ring. rewrite <- M. ring. }
  split; [exact V|]. rewrite F', F, V. reflexivity.
Qed.

Lemma power_inj v i i' : v <> RtoC 0 -> power v i = power v i' -> i = i'.
Proof.
  intros N P. unfold power in P. assert (Q : cconj i = cconj i').
  { replace (cconj i) with (v * cconj i / v) by (field; exact N). rewrite P. field. exact N. }
  apply (f_equal cconj) in Q. unfold cconj in Q. cbn in Q. injection Q as Q1 Q2. apply C_ext; [exact Q1|]. rewrite !Ropp_involutive in Q2. exact Q2.
Qed.
Lemma phasor_nz v a : (0 < v)%R -> phasor v a <> RtoC 0.
Proof.
  intros H E. apply (voltage_nz (mkSV 0 0 v a ONE) H). rewrite <- phasor_voltage. exact E.
Qed.
