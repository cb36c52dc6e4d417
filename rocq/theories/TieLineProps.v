(** Tie lines (C44). *)
From Coq Require Import Psatz.
From Verif Require Import Base Equip DblArith TieLine TieLineSpec TieLineProofs TieBoundary SvProofs SvProps.

(** Creation: it succeeds exactly when the UCTE code is set and both halves were added (with an identifier and six defined values each); the
    halves are those of the last accepted add() of each half line adder, whatever happened to these adders since. *)
Theorem C44_creation {A} (nan : A) isnan h :
  match ta_add nan isnan (g_adder (a_run nan isnan h)) with
  | Ok t => last_xnode h <> "" /\ t_xnode t = last_xnode h /\
      forall s, exists h', last_add nan isnan h s = Some h' /\ h_id (t_half s t) = adder_id h' s /\ h_side (t_half s t) = s /\
        forall p, c_get p (h_chars (t_half s t)) = adder_value nan h' s p /\ isnan (adder_value nan h' s p) = false
  | Throw _ => last_xnode h = "" \/ exists s, last_add nan isnan h s = None
  | _ => False
  end.
Proof.
  rewrite ta_add_ok. case_bool_decide as X; [tauto|]. destruct (last_add nan isnan h TONE) as [h1|] eqn:L1; [|right; by exists TONE].
  destruct (last_add nan isnan h TTWO) as [h2|] eqn:L2; [|right; by exists TTWO]. split; [done|]. split; [done|].
  pose proof L1 as [_ A1]%last_add_accepted. pose proof L2 as [_ A2]%last_add_accepted.
  intros []; eexists; (split; [eassumption|]); (split; [done|]); (split; [done|]); intros p; (split; [by destruct p|]); auto.
Qed.
Print Assumptions C44_creation.

(** Every parameter of the tie line is the sum of the values of its halves, each being the last defined one given to it; the identifiers and
    sides of the halves never change. [plus] is any addition, rounded or not. *)
Theorem C44_sums {A} (nan : A) isnan (plus : A -> A -> A) h t k : ta_add nan isnan (g_adder (a_run nan isnan h)) = Ok t ->
  exists h1 h2, last_add nan isnan h TONE = Some h1 /\ last_add nan isnan h TTWO = Some h2 /\
    let value s p := half_value isnan k s p (adder_value nan (match s with TONE => h1 | TTWO => h2 end) s p) in
    forall p, t_get plus p (t_run isnan k t) = plus (value TONE p) (value TTWO p) /\ isnan (value TONE p) = false /\ isnan (value TTWO p) = false /\
      (forall s, c_get p (h_chars (t_half s (t_run isnan k t))) = value s p) /\
      forall s, h_side (t_half s (t_run isnan k t)) = s.
Proof.
  intros E. pose proof (C44_creation nan isnan h) as C. rewrite E in C. destruct C as (_ & _ & C).
  destruct (C TONE) as (h1 & L1 & _ & S1 & P1). destruct (C TTWO) as (h2 & L2 & _ & S2 & P2). exists h1, h2. split; [done|]. split; [done|]. intros value p.
  destruct (t_run_ok isnan k t) as [R1 R2].
  assert (V : forall s, c_get p (h_chars (t_half s (t_run isnan k t))) = value s p).
  { intros []; rewrite R1; unfold value; f_equal; [apply P1|apply P2]. }
  split; [unfold t_get; rewrite <- (V TONE), <- (V TTWO); done|]. split; [apply half_value_defined, P1|]. split; [apply half_value_defined, P2|]. split; [exact V|].
  intros []; rewrite (proj1 (R2 _)); done.
Qed.
Print Assumptions C44_sums.

(** The setters of the tie line throw and change nothing, in every state; those of a half throw exactly for NaN, and then change nothing. *)
Theorem C44_setters {A} (isnan : A -> bool) t p v s :
  t_step isnan t (TSet p v) = (Throw "direct modification of characteristics not supported for tie lines", t) /\
  (isnan v = true -> exists m, t_step isnan t (HSet s p v) = (Throw m, t)) /\
  (isnan v = false -> (t_step isnan t (HSet s p v)).1 = Ok tt).
Proof.
  split; [done|]. cbn [t_step]. unfold t_set_half, c_set. split; intros ->; [eauto|done].
Qed.
Print Assumptions C44_setters.

(** ** The sums are the parameters of the two halves in series when there is no shunt admittance at the boundary. *)
Local Open Scope C_scope.
Lemma one_div (z : C) : z <> RtoC 0 -> z / z = RtoC 1.
Proof. intros H. field. exact H. Qed.
Lemma line_eq c v1 v2 i1 i2 : line_equations c v1 v2 i1 i2 <->
  i1 = (c_g1 c, c_b1 c) * v1 + (v1 - v2) / (c_r c, c_x c) /\ i2 = (c_g2 c, c_b2 c) * v2 + (v2 - v1) / (c_r c, c_x c).
Proof.
  unfold line_equations, branch_equations. rewrite cconj_1, !Cmult_1_l. split.
  - intros (i & -> & -> & ->). rewrite Cmult_1_l. split; reflexivity.
  - intros [-> ->]. eexists. rewrite Cmult_1_l. split; [reflexivity|]. split; reflexivity.
Qed.
Theorem C44_series_partial (t : tie R) (v1 v2 i1 i2 : C) :
  let c1 := h_chars (t_half1 t) in let c2 := h_chars (t_half2 t) in
  nonzero c1 -> nonzero c2 -> nonzero (tie_params t) -> c_g2 c1 = 0%R -> c_b2 c1 = 0%R -> c_g1 c2 = 0%R -> c_b1 c2 = 0%R ->
  line_equations (tie_params t) v1 v2 i1 i2 <-> exists vb ib, in_series c1 c2 v1 v2 i1 i2 vb ib.
Proof.
  intros c1 c2 N1 N2 N G1 B1 G2 B2. unfold in_series. rewrite line_eq.
  assert (E : (c_r (tie_params t), c_x (tie_params t)) = (c_r c1, c_x c1) + (c_r c2, c_x c2) :> C) by reflexivity.
  assert (S1 : (c_g1 (tie_params t), c_b1 (tie_params t)) = (c_g1 c1, c_b1 c1) :> C).
  { change (c_g1 (tie_params t)) with (c_g1 c1 + c_g1 c2)%R. change (c_b1 (tie_params t)) with (c_b1 c1 + c_b1 c2)%R. rewrite G2, B2, !Rplus_0_r. reflexivity. }
  assert (S2 : (c_g2 (tie_params t), c_b2 (tie_params t)) = (c_g2 c2, c_b2 c2) :> C).
  { change (c_g2 (tie_params t)) with (c_g2 c1 + c_g2 c2)%R. change (c_b2 (tie_params t)) with (c_b2 c1 + c_b2 c2)%R. rewrite G1, B1, !Rplus_0_l. reflexivity. }
  apply z_nz_C in N1, N2, N. rewrite E in N. rewrite E, S1, S2.
  set (z1 := (c_r c1, c_x c1) : C) in *. set (z2 := (c_r c2, c_x c2) : C) in *.
  assert (Z0 : (0%R, 0%R) = RtoC 0) by reflexivity.
  split.
  - intros [-> ->]. exists (v1 - z1 * ((v1 - v2) / (z1 + z2))), ((v1 - v2) / (z1 + z2)). rewrite !line_eq, G1, B1, G2, B2, Z0. fold z1 z2.
    repeat split; field; auto.
  - intros (vb & ib & L1 & L2). rewrite line_eq, G1, B1, Z0 in L1. rewrite line_eq, G2, B2, Z0 in L2. fold z1 in L1. fold z2 in L2.
    destruct L1 as [-> I1]. destruct L2 as [I2 ->]. rewrite Cmult_0_l, Cplus_0_l in I1, I2.
    assert (H : (v1 - vb) * z2 = (vb - v2) * z1).
    { transitivity (ib * z1 * z2); [|rewrite I2; field; auto]. assert (ib = (v1 - vb) / z1) as ->; [|field; auto].
      assert (ib = - - ib) as -> by ring. rewrite I1. field. auto. }
    assert (J : vb = (v1 * z2 + v2 * z1) / (z1 + z2)).
    { assert (vb * (z1 + z2) = v1 * z2 + v2 * z1) as <-; [|field; auto].
      transitivity (v1 * z2 + v2 * z1 + ((vb - v2) * z1 - (v1 - vb) * z2)); [ring|]. rewrite H. ring. }
    rewrite J. split; field; auto.
Qed.
Print Assumptions C44_series_partial.

(** With a shunt admittance at the boundary they are not. *)
Definition shunted : tie R := mkTie (mkHalf "h1" (mkChars 1 0 0 0 1 0)%R TONE true) (mkHalf "h2" (mkChars 1 0 0 0 0 0)%R TTWO true) "XNODE".
Theorem C44_series_refuted : exists t v1 v2 i1 i2 vb ib, nonzero (h_chars (t_half1 t)) /\ nonzero (h_chars (t_half2 t)) /\ nonzero (tie_params t) /\
  in_series (h_chars (t_half1 t)) (h_chars (t_half2 t)) v1 v2 i1 i2 vb ib /\ ~ line_equations (tie_params t) v1 v2 i1 i2.
Proof.
  exists shunted, (RtoC 2), (RtoC 1), (RtoC 1), (RtoC 0), (RtoC 1), (RtoC 0).
  assert (O : (1%R, 0%R) = RtoC 1) by reflexivity. assert (Z : (0%R, 0%R) = RtoC 0) by reflexivity.
  split; [unfold nonzero; cbn; lra|]. split; [unfold nonzero; cbn; lra|]. split; [unfold nonzero, tie_params, t_get; cbn; lra|]. split.
  - unfold in_series. rewrite !line_eq. cbn [shunted t_half1 t_half2 h_chars c_r c_x c_g1 c_b1 c_g2 c_b2]. rewrite O, Z.
    assert (N : RtoC 1 <> RtoC 0) by (intros Q; injection Q; lra).
    assert (T : RtoC 2 = RtoC 1 + RtoC 1) by (apply C_ext; cbn; lra). rewrite T. repeat split; field; exact N.
  - rewrite line_eq. intros [H _]. unfold tie_params, t_get in H. cbn in H. apply (f_equal fst) in H. cbn in H. lra.
Qed.
Print Assumptions C44_series_refuted.

(** The two halves see the same boundary: when the states of the two terminals are those of the halves in series with the voltage [vb] at the
    boundary, both boundaries answer that voltage and that angle, and opposite powers. *)
Theorem C44_boundaries c1 c2 id1 id2 pa1 pa2 s1 s2 vb ib i1 i2 : (0 < sv_u s1)%R -> (0 < sv_u s2)%R -> vb <> RtoC 0 -> nonzero c1 -> nonzero c2 ->
  in_series c1 c2 (voltage s1) (voltage s2) i1 i2 vb ib -> power (voltage s1) i1 = (sv_p s1, sv_q s1) -> power (voltage s2) i2 = (sv_p s2, sv_q s2) ->
  exists o1 o2, boundary (sv_p s1) (sv_q s1) (sv_u s1) (sv_a s1) (mkHalf id1 c1 TONE pa1) = Some o1 /\
    boundary (sv_p s2) (sv_q s2) (sv_u s2) (sv_a s2) (mkHalf id2 c2 TTWO pa2) = Some o2 /\
    voltage o1 = vb /\ voltage o2 = vb /\ sv_u o1 = sv_u o2 /\ sv_a o1 = sv_a o2 /\ sv_p o1 = (- sv_p o2)%R /\ sv_q o1 = (- sv_q o2)%R.
Proof.
  intros U1 U2 NV N1 N2 [L1 L2] P1 P2. unfold boundary, other_side_line, line_of. cbn [h_side h_chars sv_of_side lb_r lb_x lb_g1 lb_b1 lb_g2 lb_b2].
  set (t1 := mkSV (sv_p s1) (sv_q s1) (sv_u s1) (sv_a s1) ONE). set (t2 := mkSV (sv_p s2) (sv_q s2) (sv_u s2) (sv_a s2) TWO).
  set (m1 := mkSV (fst (power vb (- ib))) (snd (power vb (- ib))) (Cmod vb) (carg vb * to_degrees) TWO).
  set (m2 := mkSV (fst (power vb ib)) (snd (power vb ib)) (Cmod vb) (carg vb * to_degrees) ONE).
  assert (UB : (0 < Cmod vb)%R) by (apply Cmod_gt_0; exact NV).
  destruct (C36_equations t1 (c_r c1) (c_x c1) (c_g1 c1) (c_b1 c1) (c_g2 c1) (c_b2 c1) 1 0 U1 Rlt_0_1 N1) as (o1 & O1 & _).
  destruct (C36_equations t2 (c_r c2) (c_x c2) (c_g1 c2) (c_b1 c2) (c_g2 c2) (c_b2 c2) 1 0 U2 Rlt_0_1 N2) as (o2 & O2 & _).
  assert (E1 : o1 = m1).
  { apply (C36_unique t1 (c_r c1) (c_x c1) (c_g1 c1) (c_b1 c1) (c_g2 c1) (c_b2 c1) 1 0 o1 m1 U1 Rlt_0_1 N1 O1 UB); [discriminate| |apply principal_carg].
    cbn [t1 sv_side]. exists i1, (- ib). rewrite polar_1_0. unfold m1. rewrite voltage_any. split; [exact L1|]. split; [exact P1|]. cbn [sv_p sv_q]. apply surjective_pairing. }
  assert (E2 : o2 = m2).
  { apply (C36_unique t2 (c_r c2) (c_x c2) (c_g1 c2) (c_b1 c2) (c_g2 c2) (c_b2 c2) 1 0 o2 m2 U2 Rlt_0_1 N2 O2 UB); [discriminate| |apply principal_carg].
    cbn [t2 sv_side]. exists ib, i2. rewrite polar_1_0. unfold m2. rewrite voltage_any. split; [exact L2|]. split; [|exact P2]. cbn [sv_p sv_q]. apply surjective_pairing. }
  exists o1, o2. split; [exact O1|]. split; [exact O2|]. subst o1 o2. unfold m1, m2. rewrite !voltage_any. cbn [sv_u sv_a sv_p sv_q].
  repeat split; unfold power, cconj; cbn; ring.
Qed.
Print Assumptions C44_boundaries.

(** ** A tie line: the first half is added, then its adder is used again without effect; a half is changed after the creation. *)
Definition tie_prog : list (aop dbl) :=
  let fill s (v : Q) := [AAdd s; ASet s PR (Fin v); ASet s PX (Fin (2 * v)); ASet s PG1 (Fin 0); ASet s PB1 (Fin v); ASet s PG2 (Fin 0); ASet s PB2 (Fin 1); AId s "h"] in
  [AXnode "X"; ASet TONE PR NaN; ASet TONE PX (Fin 99)] ++ fill TTWO 5%Q ++ fill TONE 3%Q.
Example C44_case : exists t, ta_add NaN is_nan (g_adder (a_run NaN is_nan tie_prog)) = Ok t /\
  deqv (t_get dplus PR t) (Fin 8) /\ deqv (t_get dplus PX t) (Fin 16) /\
  deqv (t_get dplus PX (t_run is_nan [HSet TONE PX NaN; HSet TTWO PX (Fin 1); TSet PX (Fin 77)] t)) (Fin 7).
Proof. eexists. split; [vm_compute; reflexivity|]. vm_compute. done. Qed.
Local Open Scope C_scope.
Definition plain : chars R := mkChars 1%R 0%R 0%R 0%R 0%R 0%R.
Lemma voltage_real p q u sd : voltage (mkSV p q u 0%R sd) = RtoC u.
Proof. unfold voltage, polar. cbn. rewrite Rmult_0_l, cos_0, sin_0. apply C_ext; cbn; ring. Qed.
Example C44_boundaries_case : let s1 := mkSV 3%R 0%R 3%R 0%R ONE in let s2 := mkSV (-1)%R 0%R 1%R 0%R TWO in
  (0 < sv_u s1)%R /\ (0 < sv_u s2)%R /\ RtoC 2 <> RtoC 0 /\ nonzero plain /\
  in_series plain plain (voltage s1) (voltage s2) (RtoC 1) (RtoC (-1)) (RtoC 2) (RtoC 1) /\
  power (voltage s1) (RtoC 1) = (sv_p s1, sv_q s1) /\ power (voltage s2) (RtoC (-1)) = (sv_p s2, sv_q s2).
Proof.
  assert (N : RtoC 1 <> RtoC 0) by (intros Q; injection Q; lra). cbn zeta. rewrite !voltage_real. cbn [sv_u sv_p sv_q].
  split; [lra|]. split; [lra|]. split; [intros Q; injection Q; lra|]. split; [unfold nonzero; cbn; lra|]. split.
  - unfold in_series. rewrite !line_eq. cbn [plain c_r c_x c_g1 c_b1 c_g2 c_b2].
    assert (O : (1%R, 0%R) = RtoC 1) by reflexivity. assert (Z : (0%R, 0%R) = RtoC 0) by reflexivity. rewrite O, Z.
    assert (E : forall z : C, z / RtoC 1 = z) by (intros z; field; exact N). rewrite !E. repeat split; apply C_ext; cbn; ring.
  - split; apply C_ext; unfold power, cconj; cbn; ring.
Qed.
