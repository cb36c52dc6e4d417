(** The boundary of a dangling line (C77). *)
From Coq Require Import Psatz.
From Verif Require Import Sv SvSpec SvProofs SvProps TieLine TieBoundary DlBoundary DlBoundarySpec DlBoundaryProofs.
Local Open Scope C_scope.

(** With a known state of the terminal the boundary answers the one state that satisfies the equations of the line. *)
Theorem C77_state t d p q v a : known t p q v a -> (0 < v)%R -> has_impedance d ->
  exists i vb ib, power (phasor v a) i = (p, q) /\ dl_equations d (phasor v a) i vb ib /\ answers t d vb ib /\
    forall i' vb' ib', power (phasor v a) i' = (p, q) -> dl_equations d (phasor v a) i' vb' ib' -> i' = i /\ vb' = vb /\ ib' = ib.
Proof.
  intros K V Z. set (s := mkSV p q v a ONE).
  destruct (C36_dangling_line s d true V Z) as (o & O & A & T). cbv beta zeta in T. unfold sides in T. cbn [sv_side s] in T. destruct T as [_ (i & ib & B & P1 & P2)].
  destruct (dlb_parts t d p q v a K) as (EV & EA & EP & EQ). cbv zeta in EV, EA, EP, EQ. fold s in EV, EA, EP, EQ. rewrite O in EV, EA, EP, EQ. cbn [option_map] in *.
  change (phasor v a) with (phasor (sv_u s) (sv_a s)). rewrite phasor_voltage.
  assert (U : (0 <= sv_u o)%R).
  { destruct (C36_equations s (dl_r d) (dl_x d) (dl_g d * (1/2)) (dl_b d * (1/2)) (dl_g d * (1/2)) (dl_b d * (1/2)) 1 0 V Rlt_0_1 Z) as (o' & O' & _ & U & _).
    unfold other_side_dl in O. rewrite O in O'. injection O' as <-. exact U. }
  assert (M : Cmod (voltage o) = sv_u o).
  { unfold voltage, polar, Cmod. cbn [fst snd]. set (th := (sv_a o * to_radians)%R). rewrite <- (sqrt_Rsqr (sv_u o) U) at 3. f_equal. unfold Rsqr.
    pose proof (sin2_cos2 th) as S. unfold Rsqr in S. nra. }
  exists i, (voltage o), ib. split; [exact P1|]. split; [apply dl_equations_branch; exact B|]. split.
  - exists (sv_a o). rewrite M. rewrite P2. cbn [fst snd]. split; [exact EV|]. split; [exact EA|]. split; [exact A|]. split; [apply phasor_voltage|]. split; assumption.
  - intros i' vb' ib' P' D'. assert (I : i' = i) by (apply (power_inj (voltage s)); [apply voltage_nz; exact V|rewrite P', P1; reflexivity]). subst i'.
    split; [reflexivity|]. apply (dl_equations_unique d (voltage s) i); [exact Z|apply dl_equations_branch; exact B|exact D'].
Qed.

(** Hence a load p0 + jq0 fed by the boundary: it answers the voltage of the load and the opposite of its power. *)
Theorem C77_load t d p q v a i vb il p0 q0 : known t p q v a -> (0 < v)%R -> has_impedance d ->
  power (phasor v a) i = (p, q) -> dl_equations d (phasor v a) i vb (- il) -> power vb il = (p0, q0) ->
  dlb_v t d = Some (Cmod vb) /\ (exists an, dlb_angle t d = Some an /\ (-180 < an <= 180)%R /\ phasor (Cmod vb) an = vb) /\
  dlb_p t d = Some (- p0)%R /\ dlb_q t d = Some (- q0)%R.
Proof.
  intros K V Z P D L. destruct (C77_state t d p q v a K V Z) as (i1 & vb1 & ib1 & _ & _ & A & U).
  destruct (U _ _ _ P D) as (-> & <- & <-). destruct A as (an & A1 & A2 & A3 & A4 & A5 & A6).
  assert (N : power vb (- il) = ((- p0)%R, (- q0)%R)).
  { unfold power in *. replace (cconj (- il)) with (- cconj il) by (apply C_ext; cbn; ring).
    replace (vb * - cconj il) with (- (vb * cconj il)) by ring. rewrite L. reflexivity. }
  rewrite N in A5, A6. split; [exact A1|]. split; [exists an; auto|]. split; assumption.
Qed.

(** The power entering at the two ends is what the line loses: nothing is created when r and g are not negative. *)
Theorem C77_losses t d p q v a : known t p q v a -> (0 < v)%R -> has_impedance d -> (0 <= dl_r d)%R -> (0 <= dl_g d)%R ->
  exists pb, dlb_p t d = Some pb /\ (0 <= p + pb)%R.
Proof.
  intros K V Z R0 G0. destruct (C77_state t d p q v a K V Z) as (i & vb & ib & P & [E F] & (an & _ & _ & _ & _ & A5 & _) & _).
  eexists. split; [exact A5|]. apply (f_equal fst) in P. cbn [fst] in P. rewrite <- P. rewrite E, F. clear - Z R0 G0. set (w := phasor v a). destruct w as [a1 a2]. destruct vb as [b1 b2].
  assert (N : (0 < dl_r d * dl_r d + dl_x d * dl_x d)%R).
  { destruct (Req_dec (dl_r d) 0) as [Er|Er]; [|nra]. destruct (Req_dec (dl_x d) 0) as [Ex|Ex]; [exfalso; apply Z; split; assumption|nra]. }
  set (n := (dl_r d * dl_r d + dl_x d * dl_x d)%R) in *.
  match goal with |- (0 <= ?e)%R => replace e with (dl_g d / 2 * (a1 * a1 + a2 * a2) + dl_g d / 2 * (b1 * b1 + b2 * b2) + dl_r d * ((a1 - b1) * (a1 - b1) + (a2 - b2) * (a2 - b2)) / n)%R end.
  - assert (0 <= dl_r d * ((a1 - b1) * (a1 - b1) + (a2 - b2) * (a2 - b2)) / n)%R.
    { apply Rmult_le_pos; [|left; apply Rinv_0_lt_compat; exact N]. apply Rmult_le_pos; [exact R0|]. pose proof (Rle_0_sqr (a1 - b1)); pose proof (Rle_0_sqr (a2 - b2)); unfold Rsqr in *; lra. }
    assert (0 <= dl_g d / 2 * (a1 * a1 + a2 * a2))%R by (apply Rmult_le_pos; [lra|nra]).
    assert (0 <= dl_g d / 2 * (b1 * b1 + b2 * b2))%R by (apply Rmult_le_pos; [lra|nra]). lra.
  - unfold power, cconj, Cdiv, Cinv. cbn. unfold n. field. fold n. nra.
Qed.

(** Undefined together, and exactly without one of the four values, without voltage or without impedance. *)
Theorem C77_undefined t d : (forall p q v a, known t p q v a -> (0 <= v)%R) ->
  let unknown := ~ exists p q v a, known t p q v a /\ (0 < v)%R in
  (dlb_v t d = None <-> unknown \/ ~ has_impedance d) /\ (dlb_angle t d = None <-> unknown \/ ~ has_impedance d) /\
  (dlb_p t d = None <-> unknown \/ ~ has_impedance d) /\ (dlb_q t d = None <-> unknown \/ ~ has_impedance d).
Proof.
  intros H unknown.
  assert (D : (unknown \/ ~ has_impedance d) \/ (exists p q v a, known t p q v a /\ (0 < v)%R) /\ has_impedance d).
  { unfold unknown. destruct t as [[p|] [q|] [[[v|] [a|]]|]]; try (left; left; intros (p' & q' & v' & a' & (K1 & K2 & K3) & _); discriminate).
    destruct (Rlt_dec 0 v) as [V|V].
    - destruct (Req_EM_T (dl_r d) 0) as [Er|Er]; [destruct (Req_EM_T (dl_x d) 0) as [Ex|Ex]|].
      + left. right. intros Z. apply Z. split; assumption.
      + right. split; [exists p, q, v, a; repeat split; assumption|]. intros [_ X]. contradiction.
      + right. split; [exists p, q, v, a; repeat split; assumption|]. intros [X _]. contradiction.
    - left. left. intros (p' & q' & v' & a' & (_ & _ & K3) & V'). cbn in K3. injection K3 as -> ->. contradiction. }
  destruct D as [D|[(p & q & v & a & K & V) Z]].
  - assert (N : dlb_v t d = None /\ dlb_angle t d = None /\ dlb_p t d = None /\ dlb_q t d = None).
    { destruct (dl_sv t) as [s|] eqn:S; [|unfold dlb_v, dlb_angle, dlb_p, dlb_q; rewrite S; repeat split; reflexivity].
      assert (exists p q v a, known t p q v a /\ s = mkSV p q v a ONE) as (p & q & v & a & K & ->).
      { destruct t as [[p|] [q|] [[[v|] [a|]]|]]; try discriminate S. cbn in S. injection S as <-. exists p, q, v, a. repeat split; reflexivity. }
      destruct (dlb_parts t d p q v a K) as (-> & -> & -> & ->).
      assert (O : other_side_dl (mkSV p q v a ONE) d true = None); [|rewrite O; repeat split; reflexivity].
      destruct (Rlt_dec 0 v) as [V|V].
      - destruct D as [D|D]; [exfalso; apply D; exists p, q, v, a; split; assumption|].
        destruct (Req_EM_T (dl_r d) 0) as [Er|Er]; [destruct (Req_EM_T (dl_x d) 0) as [Ex|Ex]|].
        + unfold other_side_dl. rewrite Er, Ex. apply C36_zero_impedance; [exact V|exact Rlt_0_1].
        + exfalso. apply D. intros [_ X]. contradiction.
        + exfalso. apply D. intros [X _]. contradiction.
      - pose proof (H _ _ _ _ K) as H0. assert (v = 0%R) by lra. subst v. unfold other_side_dl, other_side.
        destruct (rdiv 1 1) as [ir|]; [|reflexivity]. cbn [obind]. destruct (branch_admittance _ _ _ _ _ _ _ _) as [y|]; [|reflexivity]. cbn [obind].
        unfold other_side_adm. cbn [sv_side sv_u sv_a sv_p sv_q]. unfold voltage2.
        assert (C0 : cdiv (cconj (p, q)) (cconj (polar 0 (a * to_radians))) = None).
        { unfold cdiv. destruct (Req_EM_T _ 0) as [_|N]; [reflexivity|]. exfalso. apply N. unfold Cmod, polar, cconj. cbn [fst snd].
          transitivity (sqrt 0); [f_equal; ring|apply sqrt_0]. }
        rewrite C0. reflexivity. }
    destruct N as (-> & -> & -> & ->). tauto.
  - destruct (C77_state t d p q v a K V Z) as (i & vb & ib & _ & _ & (an & -> & -> & _ & _ & -> & ->) & _).
    assert (N : ~ (unknown \/ ~ has_impedance d)) by (intros [U|U]; [apply U; exists p, q, v, a; split; assumption|contradiction]).
    repeat split; try discriminate; intros X; contradiction.
Qed.

(** The half of a tie line with the same impedance and half of the admittance at each end answers the same, whichever its side. *)
Theorem C77_half_line t d p q v a id pa side : known t p q v a ->
  let h := mkHalf id (mkChars (dl_r d) (dl_x d) (dl_g d / 2) (dl_b d / 2) (dl_g d / 2) (dl_b d / 2))%R side pa in
  let o := boundary p q v a h in
  dlb_v t d = option_map sv_u o /\ dlb_angle t d = option_map sv_a o /\ dlb_p t d = option_map sv_p o /\ dlb_q t d = option_map sv_q o.
Proof.
  intros K h o. destruct (dlb_parts t d p q v a K) as (-> & -> & -> & ->).
  unfold o, boundary, h, other_side_line, line_of, other_side_dl. cbn [h_side h_chars c_r c_x c_g1 c_b1 c_g2 c_b2 lb_r lb_x lb_g1 lb_b1 lb_g2 lb_b2].
  replace (dl_g d / 2)%R with (dl_g d * (1 / 2))%R by field. replace (dl_b d / 2)%R with (dl_b d * (1 / 2))%R by field.
  destruct side; cbn [sv_of_side]; [repeat split; reflexivity|].
  unfold other_side. assert (I : rdiv 1 1 = Some 1%R) by (unfold rdiv; destruct (Req_EM_T 1 0); [lra|f_equal; field]). rewrite I. cbn [obind]. rewrite Ropp_0.
  set (g := (dl_g d * (1 / 2), dl_b d * (1 / 2))%R). unfold branch_admittance. cbv zeta.
  destruct (if Req_EM_T (dl_r d) 0 then _ else _) as [ytr|]; cbn [obind]; [|repeat split; reflexivity].
  set (w := cconj (polar 1 0) * polar 1 0).
  destruct (cdiv (ytr + g) w) as [z11|]; cbn [obind]; [|repeat split; reflexivity].
  destruct (cdiv (- ytr) w) as [z12|]; cbn [obind]; [|repeat split; reflexivity].
  unfold other_side_adm, voltage1, voltage2, flow1, flow2. cbn [sv_side sv_u sv_a sv_p sv_q y11 y12 y21 y22].
  destruct (cdiv (cconj (p, q)) _) as [i|]; cbn [obind]; [|repeat split; reflexivity].
  destruct (cdiv (i - _) z12) as [vb|]; cbn [obind option_map sv_u sv_a sv_p sv_q]; [|repeat split; reflexivity].
  repeat split; do 3 f_equal; ring.
Qed.

(** Two dangling lines joined at their boundaries answer the same voltage and the same angle, and opposite powers. *)
Theorem C77_joined t1 d1 p1 q1 v1 a1 i1 t2 d2 p2 q2 v2 a2 i2 vb ib : known t1 p1 q1 v1 a1 -> known t2 p2 q2 v2 a2 ->
  (0 < v1)%R -> (0 < v2)%R -> has_impedance d1 -> has_impedance d2 ->
  power (phasor v1 a1) i1 = (p1, q1) -> power (phasor v2 a2) i2 = (p2, q2) ->
  dl_equations d1 (phasor v1 a1) i1 vb ib -> dl_equations d2 (phasor v2 a2) i2 vb (- ib) ->
  dlb_v t1 d1 = dlb_v t2 d2 /\ (vb <> RtoC 0 -> dlb_angle t1 d1 = dlb_angle t2 d2) /\
  (exists p q, dlb_p t1 d1 = Some p /\ dlb_p t2 d2 = Some (- p)%R /\ dlb_q t1 d1 = Some q /\ dlb_q t2 d2 = Some (- q)%R).
Proof.
  intros K1 K2 V1 V2 Z1 Z2 P1 P2 E1 E2.
  destruct (C77_state t1 d1 p1 q1 v1 a1 K1 V1 Z1) as (j1 & w1 & k1 & _ & _ & (b1 & A1 & A2 & A3 & A4 & A5 & A6) & U1). destruct (U1 _ _ _ P1 E1) as (_ & <- & <-).
  destruct (C77_state t2 d2 p2 q2 v2 a2 K2 V2 Z2) as (j2 & w2 & k2 & _ & _ & (b2 & B1 & B2 & B3 & B4 & B5 & B6) & U2). destruct (U2 _ _ _ P2 E2) as (_ & <- & <-).
  split; [rewrite A1, B1; reflexivity|]. split.
  - intros N. rewrite A2, B2. f_equal.
    assert (M : (0 < Cmod vb)%R) by (apply Cmod_gt_0; exact N).
    apply same_angle_principal; [exact A3|exact B3|].
    apply (voltage_same (mkSV 0 0 (Cmod vb) b1 ONE) (mkSV 0 0 (Cmod vb) b2 ONE)); [exact M|exact M|]. rewrite <- !phasor_voltage. cbn [sv_u sv_a]. rewrite A4, B4. reflexivity.
  - exists (fst (power vb ib)), (snd (power vb ib)). rewrite A5, A6, B5, B6. unfold power, cconj. cbn. repeat split; f_equal; ring.
Qed.

(** SV::otherSide of a dangling line without the second argument puts all the admittance at the terminal: another voltage. *)
Theorem C77_unsplit_refuted : exists t d p q v a, known t p q v a /\ (0 < v)%R /\ has_impedance d /\
  dlb_v t d = Some 1%R /\ option_map sv_u (other_side_dl (mkSV p q v a ONE) d false) = Some 2%R.
Proof.
  set (t := mkTState (Some 1%R) (Some 0%R) (Some (Some 1%R, Some 0%R))). set (d := mkDLine 1 0 2 0). exists t, d, 1%R, 0%R, 1%R, 0%R.
  assert (K : known t 1 0 1 0) by (repeat split; reflexivity). assert (Z : has_impedance d) by (intros [X _]; cbn in X; lra).
  split; [exact K|]. split; [lra|]. split; [exact Z|].
  assert (Ph : phasor 1 0 = RtoC 1) by (unfold phasor; replace (0 * PI / 180)%R with 0%R by field; rewrite cos_0, sin_0; apply C_ext; cbn; ring).
  assert (I : (1%R, 0%R) = RtoC 1) by reflexivity. assert (N : RtoC 1 <> RtoC 0) by (intros Q; injection Q; lra).
  split.
  - destruct (C77_state t d 1 0 1 0 K Rlt_0_1 Z) as (i & vb & ib & _ & _ & (an & A & _) & U). rewrite A.
    destruct (U (RtoC 1) (RtoC 1) (RtoC 1)) as (_ & <- & _).
    + rewrite Ph. apply C_ext; cbn; ring.
    + rewrite Ph. unfold dl_equations. cbn [dl_r dl_x dl_g dl_b d]. replace ((2 / 2)%R, (0 / 2)%R) with (RtoC 1) by (apply C_ext; cbn; field). rewrite I. split; field; exact N.
    + f_equal. apply Cmod_1.
  - set (s := mkSV 1 0 1 0 ONE). destruct (C36_dangling_line s d false Rlt_0_1 Z) as (o & O & A & T). rewrite O. cbn [option_map]. f_equal.
    assert (U : (0 <= sv_u o)%R).
    { unfold other_side_dl in O. destruct (C36_equations s (dl_r d) (dl_x d) (dl_g d) (dl_b d) 0 0 1 0 Rlt_0_1 Rlt_0_1 Z) as (o' & O' & _ & U & _). rewrite O in O'. injection O' as <-. exact U. }
    set (o' := mkSV 0 0 2 0 TWO).
    destruct (C36_unique s 1 0 2 0 0 0 1 0 o (mkSV (fst (power (RtoC 2) (RtoC 1))) (snd (power (RtoC 2) (RtoC 1))) 2 0 TWO) Rlt_0_1 Rlt_0_1 Z O) as [(_ & _ & E & _) _]; [cbn; lra|discriminate| |exact E].
    cbn [sv_side s]. exists (RtoC 1), (RtoC 1). unfold voltage, s. cbn [sv_u sv_a]. rewrite !Rmult_0_l.
    assert (P1 : polar 1 0 = RtoC 1) by (unfold polar; rewrite cos_0, sin_0; apply C_ext; cbn; ring).
    assert (P2 : polar 2 0 = RtoC 2) by (unfold polar; rewrite cos_0, sin_0; apply C_ext; cbn; ring).
    rewrite P1, P2. split; [|split; [apply C_ext; cbn; ring|apply surjective_pairing]].
    exists (RtoC 1). rewrite I. change (2%R, 0%R) with (RtoC 2). change (0%R, 0%R) with (RtoC 0).
    assert (Q : cconj (RtoC 1) = RtoC 1) by (apply C_ext; cbn; ring). rewrite Q.
    repeat split; apply C_ext; cbn; field.
Qed.

(** ** A line with both parts of the impedance and of the admittance, and a terminal that meets the hypotheses. *)
Definition case_line : dline := mkDLine 3 4 1 2.
Definition case_terminal : tstate := mkTState (Some 10%R) (Some 5%R) (Some (Some 400%R, Some 30%R)).
Example C77_case : known case_terminal 10 5 400 30 /\ (0 < 400)%R /\ has_impedance case_line /\ (0 <= dl_r case_line)%R /\ (0 <= dl_g case_line)%R.
Proof. repeat split; try (cbn; lra). intros [X _]. cbn in X. lra. Qed.
Example C77_load_case : (let t := mkTState (Some 3%R) (Some 0%R) (Some (Some 3%R, Some 0%R)) in let d := mkDLine 1 0 0 0 in
  known t 3 0 3 0 /\ has_impedance d /\ power (phasor 3 0) (RtoC 1) = (3%R, 0%R) /\ dl_equations d (phasor 3 0) (RtoC 1) (RtoC 2) (- RtoC 1) /\ power (RtoC 2) (RtoC 1) = (2%R, 0%R)).
Proof.
  cbv zeta. split; [repeat split; reflexivity|]. split; [intros [X _]; cbn in X; lra|].
  assert (Ph : phasor 3 0 = RtoC 3) by (unfold phasor; replace (0 * PI / 180)%R with 0%R by field; rewrite cos_0, sin_0; apply C_ext; cbn; ring). rewrite Ph.
  split; [apply C_ext; cbn; ring|]. split; [split; apply C_ext; cbn; field|apply C_ext; cbn; ring].
Qed.
Example C77_undefined_case : dlb_v (mkTState (Some 10%R) (Some 5%R) None) case_line = None.
Proof. reflexivity. Qed.
Print Assumptions C77_state.
Print Assumptions C77_load.
Print Assumptions C77_losses.
Print Assumptions C77_undefined.
Print Assumptions C77_half_line.
Print Assumptions C77_joined.
Print Assumptions C77_unsplit_refuted.
