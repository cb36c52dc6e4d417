(** Proofs about the texts of numbers. *)
From Coq Require Import Reals Lra Lia Psatz Znumtheory Zpow_facts.
From Flocq Require Import Core.Core Calc.Div Calc.Bracket IEEE754.BinarySingleNaN.
From Coq Require Import Floats.SpecFloat Strings.Ascii Strings.String.
From stdpp Require Import list strings.
From Verif Require Import Base DoubleText.
Local Open Scope Z_scope.

(** * Digits. *)
Definition is_dig (d : Z) : Prop := 0 <= d < 10.
Lemma digit_nat d : is_dig d -> nat_of_ascii (digit d) = (48 + Z.to_nat d)%nat.
Proof. intros H. unfold digit. apply nat_ascii_embedding. unfold is_dig in H. lia. Qed.
Lemma is_digit_digit d : is_dig d -> is_digit (digit d) = true.
Proof. intros H. unfold is_digit. rewrite (digit_nat d H). unfold is_dig in H. apply andb_true_iff. split; apply Nat.leb_le; lia. Qed.
Lemma digit_value_digit d : is_dig d -> digit_value (digit d) = d.
Proof. intros H. unfold digit_value. rewrite (digit_nat d H). unfold is_dig in H. lia. Qed.
Definition stops (r : text) : Prop := match r with [] => True | c :: _ => is_digit c = false end.
Lemma span_digits ds r : Forall is_dig ds -> stops r -> span (digits ds ++ r) = (ds, r).
Proof.
  intros F S. unfold digits. induction ds as [|d ds IH]; cbn [map app span].
  - destruct r as [|c r]; [done|]. unfold stops in S. cbn [span]. by rewrite S.
  - inversion F; subst. rewrite is_digit_digit by done. rewrite IH by done. by rewrite digit_value_digit.
Qed.
Lemma fold_number ds a : fold_left (fun a d => a * 10 + d) ds a = a * 10 ^ Z.of_nat (length ds) + number_of ds.
Proof.
  revert a. induction ds as [|d ds IH]; intros a; [cbn; lia|]. unfold number_of. cbn [fold_left length]. rewrite !IH. rewrite Nat2Z.inj_succ, Z.pow_succ_r by lia. lia.
Qed.
Lemma number_app a b : number_of (a ++ b) = number_of a * 10 ^ Z.of_nat (length b) + number_of b.
Proof. unfold number_of at 1. rewrite fold_left_app, fold_number. done. Qed.
Lemma number_zeros k : number_of (replicate k 0) = 0.
Proof. induction k as [|k IH]; [done|]. unfold number_of. cbn [replicate fold_left]. exact IH. Qed.
Lemma digs_length k n : length (digs k n) = k.
Proof. revert n. induction k as [|k IH]; intros n; [done|]. cbn. rewrite app_length, IH. cbn. lia. Qed.
Lemma digs_dig k n : Forall is_dig (digs k n).
Proof.
  revert n. induction k as [|k IH]; intros n; cbn; [constructor|]. apply Forall_app. split; [apply IH|]. repeat constructor; pose proof (Z.mod_pos_bound n 10); lia.
Qed.
Lemma digs_number k n : 0 <= n < 10 ^ Z.of_nat k -> number_of (digs k n) = n.
Proof.
  revert n. induction k as [|k IH]; intros n H; [cbn in H |- *; lia|]. cbn [digs]. rewrite number_app. cbn [length]. change (number_of [n mod 10]) with (0 * 10 + n mod 10). rewrite Nat2Z.inj_succ, Z.pow_succ_r in H by lia. rewrite IH.
  - change (10 ^ Z.of_nat 1) with 10. pose proof (Z.div_mod n 10). lia.
  - split; [apply Z.div_pos; lia|]. apply Z.div_lt_upper_bound; lia.
Qed.
Lemma strip_spec ds : exists k, ds = strip ds ++ replicate k 0.
Proof.
  induction ds as [|d ds [k IH]]; [by exists 0%nat|]. cbn. destruct (strip ds) as [|s ss] eqn:E.
  - cbn in IH. destruct (Z.eqb_spec d 0) as [->|]; [exists (S k); cbn; by rewrite <- IH|exists k; cbn; by rewrite <- IH].
  - exists k. cbn. cbn in IH. by rewrite <- IH.
Qed.
Lemma strip_dig ds : Forall is_dig ds -> Forall is_dig (strip ds).
Proof. destruct (strip_spec ds) as [k E]. intros F. rewrite E in F. by apply Forall_app in F as [? _]. Qed.

(** * The number a text denotes. *)
Definition no_point (r : text) : Prop := stops r /\ match r with [] => True | c :: _ => Ascii.eqb c "." = false end.
Lemma point_decimal a b r : Forall is_dig a -> Forall is_dig b -> a <> [] -> no_point r ->
  exists (j : nat) m, decimal (point a b ++ r) = Some (m, exponent r - Z.of_nat (length b) + Z.of_nat j) /\ number_of (a ++ b) = m * 10 ^ Z.of_nat j.
Proof.
  intros Fa Fb Na [Sr Pr]. destruct (strip_spec b) as [k Ek]. exists k, (number_of (a ++ strip b)). split.
  - unfold decimal, point. pose proof (strip_dig b Fb) as Fs. rewrite <- app_assoc. destruct (strip b) as [|s ss] eqn:Es.
    + cbn [app]. rewrite span_digits by done. assert (match r with c :: l' => if Ascii.eqb c "." then span l' else ([], r) | [] => ([], r) end = ([], r)) as ->.
      { destruct r as [|c r]; [done|]. by rewrite Pr. }
      rewrite app_nil_r. destruct a; [done|]. do 2 f_equal. rewrite Ek. cbn [app]. rewrite replicate_length. cbn. lia.
    + rewrite <- app_comm_cons. rewrite span_digits; [|done|done]. rewrite Ascii.eqb_refl, span_digits by done. destruct a as [|d0 a']; [done|]. cbn [app]. do 2 f_equal. rewrite Ek, app_length, replicate_length. lia.
  - rewrite Ek at 1. rewrite app_assoc, number_app, number_zeros, replicate_length. lia.
Qed.
Lemma exponent_text x : Z.abs x < 1000 -> exponent ("e"%char :: (if x <? 0 then "-"%char else "+"%char) :: digits (digs (if Z.abs x <? 100 then 2 else 3) (Z.abs x))) = x.
Proof.
  intros H. assert (N : number_of (digs (if Z.abs x <? 100 then 2 else 3) (Z.abs x)) = Z.abs x).
  { apply digs_number. destruct (Z.ltb_spec (Z.abs x) 100); cbn; lia. }
  assert (E : forall k, span (digits (digs k (Z.abs x))) = (digs k (Z.abs x), [])).
  { intros k. rewrite <- (app_nil_r (digits _)). apply span_digits; [apply digs_dig|done]. }
  unfold exponent. rewrite Ascii.eqb_refl. cbn [orb]. destruct (Z.ltb_spec x 0); cbn [sign_of]; cbn; rewrite E; cbn [fst]; rewrite N; lia.
Qed.
Lemma layout_decimal ds x : length ds = 17%nat -> Forall is_dig ds -> Z.abs x < 1000 ->
  exists (j : nat) m, decimal (layout ds x) = Some (m, x - 16 + Z.of_nat j) /\ number_of ds = m * 10 ^ Z.of_nat j.
Proof.
  intros L F X. assert (Z10 : is_dig 0) by (unfold is_dig; lia). unfold layout. destruct (Z.leb_spec (-4) x); [destruct (Z.ltb_spec x 17)|]; cbn [andb].
  - destruct (Z.leb_spec 0 x).
    + destruct (point_decimal (take (Z.to_nat (x + 1)) ds) (drop (Z.to_nat (x + 1)) ds) []) as (j & m & E & N); [by apply Forall_take|by apply Forall_drop| |done|].
      { destruct ds; [done|]. destruct (Z.to_nat (x + 1)) eqn:Ex; [lia|]. done. }
      rewrite app_nil_r in E. rewrite take_drop in N. exists j, m. split; [|done]. rewrite E, drop_length, L. do 2 f_equal. cbn [exponent]. lia.
    + destruct (point_decimal [0] (replicate (Z.to_nat (- x - 1)) 0 ++ ds) []) as (j & m & E & N); [by repeat constructor|apply Forall_app; split; [by apply Forall_replicate|done]|done|done|].
      rewrite app_nil_r in E. exists j, m. split.
      * rewrite E, app_length, replicate_length, L. do 2 f_equal. cbn [exponent]. lia.
      * rewrite <- N, !number_app, number_zeros. change (number_of [0]) with 0. lia.
  - edestruct (point_decimal (take 1 ds) (drop 1 ds)) as (j & m & E & N); [by apply Forall_take|by apply Forall_drop|by destruct ds|..].
    2:{ rewrite take_drop in N. exists j, m. split; [rewrite E|done]. rewrite exponent_text, drop_length, L by done. do 2 f_equal; lia. } by split.
  - edestruct (point_decimal (take 1 ds) (drop 1 ds)) as (j & m & E & N); [by apply Forall_take|by apply Forall_drop|by destruct ds|..].
    2:{ rewrite take_drop in N. exists j, m. split; [rewrite E|done]. rewrite exponent_text, drop_length, L by done. do 2 f_equal; lia. } by split.
Qed.
Lemma decimal_head a b r : a <> [] -> Forall is_dig a -> exists c l, point a b ++ r = c :: l /\ is_digit c = true.
Proof. intros N F. destruct a as [|d a]; [done|]. inversion F; subst. eexists _, _. split; [done|]. by apply is_digit_digit. Qed.
Lemma layout_head ds x : ds <> [] -> Forall is_dig ds -> exists c l, layout ds x = c :: l /\ is_digit c = true.
Proof.
  intros N F. unfold layout. destruct (_ && _).
  - destruct (Z.leb_spec 0 x); rewrite <- (app_nil_r (point _ _)); apply decimal_head; try done.
    + destruct ds; [done|]. destruct (Z.to_nat (x + 1)) eqn:E; [lia|]. done.
    + by apply Forall_take.
    + constructor; [unfold is_dig; lia|constructor].
  - apply decimal_head; [by destruct ds|by apply Forall_take].
Qed.

(** * Rounding to seventeen digits. *)
Notation dec m e := (F2R (Float radix10 m e)).
Lemma ten e : bpow radix10 e = (bpow radix2 e * (if (0 <=? e)%Z then IZR (5 ^ e) else / IZR (5 ^ (- e))))%R.
Proof.
  destruct (Z.leb_spec 0 e).
  - rewrite <- !IZR_Zpower by done. rewrite <- mult_IZR. f_equal. change (radix_val radix10) with (2 * 5). change (radix_val radix2) with 2. by rewrite Z.pow_mul_l.
  - replace e with (- - e) at 1 2 by lia. rewrite !(bpow_opp _ (- e)). rewrite <- !IZR_Zpower by lia. rewrite <- Rinv_mult. f_equal. rewrite <- mult_IZR. f_equal.
    change (radix_val radix10) with (2 * 5). change (radix_val radix2) with 2. by rewrite Z.pow_mul_l.
Qed.
Lemma exact_decimal_spec m e : let '(n, q) := exact_decimal m e in (0 < n) /\ dec n q = F2R (Float radix2 (Zpos m) e).
Proof.
  unfold exact_decimal. destruct (Z.leb_spec 0 e).
  - split; [lia|]. unfold F2R. cbn [Fnum Fexp]. change (bpow radix10 0) with 1%R. rewrite mult_IZR, Rmult_1_r. f_equal. by rewrite <- (IZR_Zpower radix2).
  - split; [apply Z.mul_pos_pos; [lia|apply Z.pow_pos_nonneg; lia]|]. unfold F2R. cbn [Fnum Fexp]. rewrite ten. destruct (Z.leb_spec 0 e); [lia|]. rewrite mult_IZR.
    assert (IZR (5 ^ (- e)) <> 0%R). { apply IZR_neq. apply Z.pow_nonzero; lia. } by field.
Qed.
Lemma half_even_spec n p : 0 < p -> 2 * Z.abs (half_even n p * p - n) <= p.
Proof.
  intros P. unfold half_even. pose proof (Z.div_mod n p ltac:(lia)). pose proof (Z.mod_pos_bound n p P).
  destruct (Z.compare_spec (2 * (n mod p)) p); [destruct (Z.even (n / p))|..]; nia.
Qed.
Lemma round17_spec n q : 0 < n -> let '(d, k) := round17 n q in (10 ^ 16 <= d < 10 ^ 17) /\ (Rabs (dec d k - dec n q) <= / 2 * (/ IZR (10 ^ 16)) * dec n q)%R.
Proof.
  intros N. unfold round17. pose proof (Zdigits_correct radix10 n) as [D1 D2]. rewrite Z.abs_eq in D1, D2 by lia. pose proof (Zdigits_ge_0 radix10 n) as D0.
  assert (D3 : 0 < Zdigits radix10 n) by (apply Zdigits_gt_0; lia). set (D := Zdigits radix10 n) in *. change (Zpower radix10 (D - 1)) with (10 ^ (D - 1)) in D1. change (Zpower radix10 D) with (10 ^ D) in D2.
  assert (B : (0 <= dec n q)%R) by (apply F2R_ge_0; cbn; lia).
  assert (C : (0 < / 2 * / IZR (10 ^ 16))%R). { apply Rmult_lt_0_compat; [lra|]. apply Rinv_0_lt_compat. apply IZR_lt. reflexivity. }
  destruct (Z.leb_spec (D - 17) 0) as [K|K].
  - split.
    + assert (T : 0 < 10 ^ (- (D - 17))) by (apply Z.pow_pos_nonneg; lia).
      assert (T1 : 10 ^ 16 = 10 ^ (D - 1) * 10 ^ (- (D - 17))) by (rewrite <- Z.pow_add_r by lia; f_equal; lia).
      assert (T2 : 10 ^ 17 = 10 ^ D * 10 ^ (- (D - 17))) by (rewrite <- Z.pow_add_r by lia; f_equal; lia). rewrite T1, T2. nia.
    + assert (dec (n * 10 ^ (- (D - 17))) (q + (D - 17)) = dec n q) as ->.
      { unfold F2R. cbn [Fnum Fexp]. rewrite mult_IZR, bpow_plus. change (10 ^ (- (D - 17))) with (Zpower radix10 (- (D - 17))). rewrite IZR_Zpower by lia. rewrite (bpow_opp radix10 (D - 17)). field. apply Rgt_not_eq, bpow_gt_0. }
      rewrite Rminus_diag_eq by done. rewrite Rabs_R0. apply Rmult_le_pos; lra.
  - set (k := D - 17) in *. set (p := 10 ^ k). assert (P : 0 < p) by (apply Z.pow_pos_nonneg; lia). pose proof (half_even_spec n p P) as H. set (d := half_even n p) in *.
    assert (N1 : 10 ^ 16 * p <= n). { unfold p, k. rewrite <- Z.pow_add_r by lia. by replace (16 + (D - 17)) with (D - 1) by lia. }
    assert (N2 : n < 10 ^ 17 * p). { unfold p, k. rewrite <- Z.pow_add_r by lia. by replace (17 + (D - 17)) with D by lia. }
    assert (Q1 : 10 ^ 16 <= d) by nia. assert (Q2 : d <= 10 ^ 17) by nia.
    assert (A : (Rabs (dec d (q + k) - dec n q) <= / 2 * / IZR (10 ^ 16) * dec n q)%R).
    { assert (dec d (q + k) - dec n q = IZR (d * p - n) * bpow radix10 q)%R as ->.
      { unfold F2R. cbn [Fnum Fexp]. rewrite minus_IZR, mult_IZR, bpow_plus. unfold p. change (10 ^ k) with (Zpower radix10 k). rewrite IZR_Zpower by lia. ring. }
      rewrite Rabs_mult, (Rabs_pos_eq (bpow _ _)) by apply bpow_ge_0. unfold F2R. cbn [Fnum Fexp]. rewrite <- Rmult_assoc. apply Rmult_le_compat_r; [apply bpow_ge_0|]. rewrite <- abs_IZR.
      assert (X : 2 * 10 ^ 16 * Z.abs (d * p - n) <= n) by nia. apply IZR_le in X. rewrite !mult_IZR in X.
      assert (Y : (0 < IZR (10 ^ 16))%R) by (apply IZR_lt; reflexivity). apply (Rmult_le_reg_l (2 * IZR (10 ^ 16))); [lra|]. replace (2 * IZR (10 ^ 16) * (/ 2 * / IZR (10 ^ 16) * IZR n))%R with (IZR n) by (field; lra). exact X. }
    destruct (Z.eqb_spec d (10 ^ 17)) as [E|E].
    + split; [lia|]. assert (dec (10 ^ 16) (q + k + 1) = dec d (q + k)) as ->; [|done]. rewrite E. unfold F2R. cbn [Fnum Fexp]. rewrite (bpow_plus _ _ 1). change (bpow radix10 1) with 10%R. replace (10 ^ 17) with (10 ^ 16 * 10) by lia. rewrite mult_IZR. ring.
    + split; [lia|done].
Qed.

(** * Reading: the nearest double is the one written. *)
Notation fexp := (FLT_exp (-1074) 53).
Notation rnd := (round radix2 fexp ZnearestE).
#[global] Instance prec53 : Prec_gt_0 53. Proof. done. Qed.
#[global] Instance emax1024 : Prec_lt_emax 53 1024. Proof. done. Qed.
Lemma round_back x d : generic_format radix2 fexp x -> (0 < x)%R -> (Rabs (d - x) <= / 2 * / IZR (10 ^ 16) * x)%R -> rnd d = x.
Proof.
  intros Fx X D. assert (C : (/ 2 * / IZR (10 ^ 16) * x < / 2 * (x * bpow radix2 (-53)))%R).
  { replace (/ 2 * (x * bpow radix2 (-53)))%R with (/ 2 * bpow radix2 (-53) * x)%R by ring. apply Rmult_lt_compat_r; [done|]. apply Rmult_lt_compat_l; [lra|]. change (bpow radix2 (-53)) with (/ IZR (2 ^ 53))%R.
    apply Rinv_lt_contravar; [apply Rmult_lt_0_compat; apply IZR_lt; reflexivity|apply IZR_lt; reflexivity]. }
  apply Rabs_le_inv in D. apply Rle_antisym.
  - apply round_N_le_midp; [apply _|done|]. rewrite succ_eq_pos by lra. pose proof (ulp_FLT_gt radix2 (-1074) 53 x) as U. rewrite Rabs_pos_eq in U by lra. change (bpow radix2 (- (53))) with (bpow radix2 (-53)) in U. lra.
  - apply round_N_ge_midp; [apply _|done|]. assert (P : (Ulp.pred radix2 fexp x <= x - x * bpow radix2 (-53))%R); [|lra]. rewrite pred_eq_pos by lra. unfold pred_pos. case Req_bool_spec; intros E.
    + assert (x * bpow radix2 (-53) <= bpow radix2 (fexp (mag radix2 x - 1)))%R; [|lra]. rewrite E at 1. rewrite <- bpow_plus. apply bpow_le. unfold FLT_exp. lia.
    + pose proof (ulp_FLT_gt radix2 (-1074) 53 x) as U. rewrite Rabs_pos_eq in U by lra. change (bpow radix2 (- (53))) with (bpow radix2 (-53)) in U. lra.
Qed.
Lemma fraction_spec m e : 0 < m -> let '(a, b) := fraction m e in 0 < a /\ 0 < b /\ (IZR a / IZR b = dec m e)%R.
Proof.
  intros M. unfold fraction, F2R. cbn [Fnum Fexp]. destruct (Z.leb_spec 0 e).
  - split; [apply Z.mul_pos_pos; [done|apply Z.pow_pos_nonneg; lia]|]. split; [done|]. rewrite mult_IZR. change (10 ^ e) with (Zpower radix10 e). rewrite IZR_Zpower by done. field.
  - split; [done|]. split; [apply Z.pow_pos_nonneg; lia|]. change (10 ^ (- e)) with (Zpower radix10 (- e)). rewrite IZR_Zpower by lia. rewrite bpow_opp. unfold Rdiv. by rewrite Rinv_inv.
Qed.
Lemma nearest_spec s a b : 0 < a -> 0 < b -> (rnd (IZR a / IZR b) < bpow radix2 1024)%R ->
  double (nearest s a b) /\ is_finite_SF (nearest s a b) = true /\ sign_SF (nearest s a b) = s /\ SF2R radix2 (nearest s a b) = (if s then - rnd (IZR a / IZR b) else rnd (IZR a / IZR b))%R.
Proof.
  intros A B L. unfold nearest. set (x := (IZR a / IZR b)%R) in *. assert (X : (0 < x)%R) by (apply Rdiv_lt_0_compat; apply IZR_lt; done).
  assert (Fa : (F2R (Float radix2 a 0) / F2R (Float radix2 b 0) = x)%R). { unfold F2R. cbn [Fnum Fexp bpow]. by rewrite !Rmult_1_r. }
  pose proof (Fdiv_correct fexp (Float radix2 a 0) (Float radix2 b 0)) as H. rewrite Fa in H. specialize (H ltac:(apply F2R_gt_0; done) ltac:(apply F2R_gt_0; done)).
  destruct (Fdiv fexp (Float radix2 a 0) (Float radix2 b 0)) as [[q e] l]. destruct H as [H1 H2].
  set (y := (if s then - x else x)%R). assert (Y0 : (y <> 0)%R) by (unfold y; destruct s; lra). assert (Ya : Rabs y = x) by (unfold y; destruct s; [rewrite Rabs_Ropp|]; apply Rabs_pos_eq; lra).
  assert (Ys : Rlt_bool y 0 = s) by (unfold y; destruct s; [apply Rlt_bool_true|apply Rlt_bool_false]; lra).
  pose proof (binary_round_aux_correct' 53 1024 _ _ mode_NE y q e l Y0) as R. rewrite Ya, Ys in R. specialize (R H2).
  assert (R0 : e <= cexp radix2 (SpecFloat.fexp 53 1024) y). { change (SpecFloat.fexp 53 1024) with fexp. rewrite <- (cexp_abs _ _ y), Ya. done. }
  specialize (R R0). cbn zeta in R. destruct R as [V R]. change (SpecFloat.fexp 53 1024) with fexp in R. change (round_mode mode_NE) with ZnearestE in R.
  assert (Ry : rnd y = (if s then - rnd x else rnd x)%R) by (unfold y; destruct s; [apply round_NE_opp|done]).
  rewrite Ry in R. assert (Rp : (0 <= rnd x)%R) by (apply round_ge_generic; [apply _|apply _|apply generic_format_0|lra]).
  rewrite Rlt_bool_true in R by (destruct s; [rewrite Rabs_Ropp|]; rewrite Rabs_pos_eq; done). destruct R as (R1 & R2 & R3). done.
Qed.
Lemma double_eq x y : double x -> double y -> is_finite_SF x = true -> is_finite_SF y = true -> sign_SF x = sign_SF y -> SF2R radix2 x = SF2R radix2 y -> x = y.
Proof.
  intros Vx Vy Fx Fy S E. rewrite <- (B2SF_SF2B 53 1024 x Vx), <- (B2SF_SF2B 53 1024 y Vy). f_equal. apply B2R_Bsign_inj.
  - by rewrite is_finite_SF2B.
  - by rewrite is_finite_SF2B.
  - by rewrite !B2R_SF2B.
  - by rewrite !Bsign_SF2B.
Qed.

(** * The whole way. *)
Lemma half_small : (0 < / 2 * / IZR (10 ^ 16) < / 2)%R.
Proof.
  assert (1 < IZR (10 ^ 16))%R by (apply IZR_lt; reflexivity). split; [apply Rmult_lt_0_compat; [lra|apply Rinv_0_lt_compat; lra]|]. rewrite <- (Rmult_1_r (/ 2)) at 2. apply Rmult_lt_compat_l; [lra|]. rewrite <- Rinv_1. apply Rinv_lt_contravar; lra.
Qed.
Lemma finite_facts s m e : double (S754_finite s m e) ->
  let x := F2R (Float radix2 (Zpos m) e) in generic_format radix2 fexp x /\ (0 < x)%R /\ (bpow radix2 (-1074) <= x < bpow radix2 1024)%R.
Proof.
  intros V x. assert (X : (0 < x)%R) by (apply F2R_gt_0; done). unfold double, valid_binary in V. change (B2R (B754_finite false m e V) = x) with (B2R (B754_finite false m e V) = x).
  assert (E : @B2R 53 1024 (B754_finite false m e V) = x) by done. split; [rewrite <- E; apply generic_format_B2R|]. split; [done|]. split.
  - pose proof (abs_B2R_ge_emin 53 1024 (B754_finite false m e V) eq_refl) as H. rewrite E, Rabs_pos_eq in H by lra. exact H.
  - pose proof (abs_B2R_lt_emax 53 1024 (B754_finite false m e V)) as H. rewrite E, Rabs_pos_eq in H by lra. exact H.
Qed.
Lemma written s m e : double (S754_finite s m e) -> let x := F2R (Float radix2 (Zpos m) e) in
  exists d k, to_string (S754_finite s m e) = string_of_list_ascii (sign_text s ++ layout (digs 17 d) (k + 16)) /\
    10 ^ 16 <= d < 10 ^ 17 /\ Z.abs (k + 16) < 1000 /\ (Rabs (dec d k - x) <= / 2 * / IZR (10 ^ 16) * x)%R.
Proof.
  intros V x. destruct (finite_facts s m e V) as (_ & X & B1 & B2). fold x in X, B1, B2. unfold to_string. pose proof (exact_decimal_spec m e) as E. destruct (exact_decimal m e) as [n q]. destruct E as [N E]. fold x in E.
  pose proof (round17_spec n q N) as R. destruct (round17 n q) as [d k]. destruct R as [Rd R]. rewrite E in R. exists d, k. split; [done|]. split; [done|]. split; [|done].
  apply Rabs_le_inv in R. pose proof half_small as Hs.
  assert (C1 : (dec d k < 2 * x)%R) by nra. assert (C2 : (/ 2 * x < dec d k)%R) by nra.
  assert (D1 : (bpow radix10 (16 + k) <= dec d k)%R).
  { unfold F2R. cbn [Fnum Fexp]. rewrite bpow_plus. apply Rmult_le_compat_r; [apply bpow_ge_0|]. change (bpow radix10 16) with (IZR (10 ^ 16)). apply IZR_le; lia. }
  assert (D2 : (dec d k < bpow radix10 (17 + k))%R).
  { unfold F2R. cbn [Fnum Fexp]. rewrite bpow_plus. apply Rmult_lt_compat_r; [apply bpow_gt_0|]. change (bpow radix10 17) with (IZR (10 ^ 17)). apply IZR_lt; lia. }
  assert (k + 16 < 1000).
  { destruct (Z.lt_ge_cases (k + 16) 1000) as [|G]; [done|]. exfalso. assert (bpow radix10 1000 <= bpow radix10 (16 + k))%R by (apply bpow_le; lia).
    assert (bpow radix2 1025 < bpow radix10 1000)%R. { rewrite <- !IZR_Zpower by lia. apply IZR_lt. reflexivity. }
    assert (bpow radix2 1025 = 2 * bpow radix2 1024)%R by (rewrite (bpow_plus radix2 1 1024 : bpow radix2 1025 = _); done). lra. }
  assert (-1000 < k + 16); [|lia].
  destruct (Z.lt_ge_cases (-1000) (k + 16)) as [|G]; [done|]. exfalso. assert (bpow radix10 (17 + k) <= bpow radix10 (-999))%R by (apply bpow_le; lia).
  assert (bpow radix10 (-999) < bpow radix2 (-1075))%R.
  { change (-999) with (- (999)). change (-1075) with (- (1075)). rewrite !bpow_opp, <- !IZR_Zpower by lia. apply Rinv_lt_contravar; [rewrite <- mult_IZR; apply IZR_lt; reflexivity|apply IZR_lt; reflexivity]. }
  assert (2 * bpow radix2 (-1075) = bpow radix2 (-1074))%R by (rewrite (bpow_plus radix2 1 (-1075) : bpow radix2 (-1074) = _); done). lra.
Qed.
Lemma sign_of_text s c l : is_digit c = true -> sign_of (sign_text s ++ c :: l) = (s, c :: l).
Proof.
  intros H. destruct s; [done|]. cbn [sign_text app sign_of]. destruct (Ascii.eqb_spec c "-") as [->|_]; [done|]. by destruct (Ascii.eqb_spec c "+") as [->|_].
Qed.
Lemma digit_lower c : is_digit c = true -> lower c = c.
Proof.
  intros H. unfold is_digit in H. apply andb_true_iff in H as [H1 H2]. apply Nat.leb_le in H1, H2. unfold lower. destruct (Nat.leb_spec 65 (nat_of_ascii c)); [lia|done].
Qed.
Lemma not_starts p l c t : is_digit c = true -> is_digit p = false -> starts_with (p :: t) (c :: l) = false.
Proof.
  intros H N. unfold starts_with. apply bool_decide_eq_false. cbn [length take map]. intros [= E _]. rewrite digit_lower in E by done. congruence.
Qed.
Lemma dec_scale m j e k : e = k + Z.of_nat j -> dec m e = dec (m * 10 ^ Z.of_nat j) k.
Proof.
  intros ->. unfold F2R. cbn [Fnum Fexp]. rewrite mult_IZR, bpow_plus. change (10 ^ Z.of_nat j) with (Zpower radix10 (Z.of_nat j)). rewrite IZR_Zpower by lia. ring.
Qed.
Lemma read_written s m e : double (S754_finite s m e) -> exists a b d k, 0 < a /\ 0 < b /\ (IZR a / IZR b = dec d k)%R /\ 10 ^ 16 <= d < 10 ^ 17 /\
  (Rabs (dec d k - F2R (Float radix2 (Zpos m) e)) <= / 2 * / IZR (10 ^ 16) * F2R (Float radix2 (Zpos m) e))%R /\
  stod (to_string (S754_finite s m e)) = if subnormal_mantissa m && negb (exact m e a b) then Throw "out of range: stod" else Ok (S754_finite s m e).
Proof.
  intros V. destruct (finite_facts s m e V) as (Fx & X & _ & B2). destruct (written s m e V) as (d & k & -> & D & K & R). set (x := F2R (Float radix2 (Zpos m) e)) in *.
  destruct (layout_decimal (digs 17 d) (k + 16)) as (j & m' & Ed & Nd); [apply digs_length|apply digs_dig|done|].
  rewrite digs_number in Nd by (change (10 ^ Z.of_nat 17) with (10 ^ 17); lia).
  assert (M : 0 < m'). { assert (0 < 10 ^ Z.of_nat j) by (apply Z.pow_pos_nonneg; lia). nia. }
  destruct (layout_head (digs 17 d) (k + 16)) as (c & l & El & Hc); [intros E0; apply (f_equal length) in E0; by rewrite digs_length in E0|apply digs_dig|].
  pose proof (fraction_spec m' (k + 16 - 16 + Z.of_nat j) M) as F. destruct (fraction m' (k + 16 - 16 + Z.of_nat j)) as [a b] eqn:Ef. destruct F as (A & B & F).
  rewrite (dec_scale m' j _ k) in F by lia. rewrite <- Nd in F. exists a, b, d, k. repeat (split; [done|]).
  unfold stod. rewrite list_ascii_of_string_of_list_ascii, El, sign_of_text by done. rewrite <- El at 1. rewrite !El. rewrite !not_starts by done. rewrite <- El, Ed.
  destruct (Z.eqb_spec m' 0); [lia|]. rewrite Ef.
  assert (Rx : rnd (IZR a / IZR b) = x) by (rewrite F; apply round_back; done).
  destruct (nearest_spec s a b A B) as (N1 & N2 & N3 & N4); [by rewrite Rx|]. rewrite Rx in N4.
  assert (nearest s a b = S754_finite s m e) as ->; [|done]. apply double_eq; try done. rewrite N4. cbn [SF2R]. destruct s; cbn [cond_Zopp]; [|done]. by rewrite F2R_Zopp.
Qed.
Lemma mantissa_subnormal s m e : double (S754_finite s m e) -> subnormal_mantissa m = true <-> (F2R (Float radix2 (Zpos m) e) < bpow radix2 (-1022))%R.
Proof.
  intros V. unfold subnormal_mantissa. rewrite Z.ltb_lt. unfold double, valid_binary, bounded in V. apply andb_true_iff in V as [C _]. unfold canonical_mantissa in C. apply Zeq_bool_eq in C. unfold SpecFloat.fexp in C. change (SpecFloat.emin 53 1024) with (-1074) in C.
  rewrite Digits.Zpos_digits2_pos in C. unfold F2R. cbn [Fnum Fexp]. split; intros H.
  - assert (Zdigits radix2 (Zpos m) <= 52) by (apply Zdigits_le_Zpower; change (Z.abs (Zpos m) < 2 ^ 52); lia). assert (e = -1074) as -> by lia. replace (-1022) with (52 + -1074) by lia. rewrite bpow_plus. apply Rmult_lt_compat_r; [apply bpow_gt_0|].
    change (bpow radix2 52) with (IZR (2 ^ 52)). by apply IZR_lt.
  - destruct (Z.lt_ge_cases (Zpos m) (2 ^ 52)) as [|G]; [done|]. exfalso. assert (bpow radix2 (-1074) <= bpow radix2 e)%R by (apply bpow_le; lia). apply IZR_le in G. change (IZR (2 ^ 52)) with (bpow radix2 52) in G.
    assert (bpow radix2 (-1022) = bpow radix2 52 * bpow radix2 (-1074))%R as E by (rewrite <- bpow_plus; done). rewrite E in H. pose proof (bpow_gt_0 radix2 (-1074)). pose proof (bpow_gt_0 radix2 52). nra.
Qed.
Lemma subnormal_exponent s m e : double (S754_finite s m e) -> subnormal_mantissa m = true -> e = -1074.
Proof.
  intros V H. unfold subnormal_mantissa in H. apply Z.ltb_lt in H. unfold double, valid_binary, bounded in V. apply andb_true_iff in V as [C _]. unfold canonical_mantissa in C. apply Zeq_bool_eq in C. unfold SpecFloat.fexp in C. change (SpecFloat.emin 53 1024) with (-1074) in C.
  rewrite Digits.Zpos_digits2_pos in C. assert (Zdigits radix2 (Zpos m) <= 52) by (apply Zdigits_le_Zpower; change (Z.abs (Zpos m) < 2 ^ 52); lia). lia.
Qed.
Lemma subnormal_inexact s m e a b d k : double (S754_finite s m e) -> subnormal_mantissa m = true -> 0 < b -> (IZR a / IZR b = dec d k)%R -> 10 ^ 16 <= d < 10 ^ 17 ->
  exact m e a b = false.
Proof.
  intros V S B F D. pose proof (subnormal_exponent s m e V S) as ->. apply (mantissa_subnormal _ _ _ V) in S. unfold exact. cbn [Z.leb Z.compare]. apply Z.eqb_neq. intros E.
  assert (X : F2R (Float radix2 (Zpos m) (-1074)) = dec d k).
  { rewrite <- F. unfold F2R. cbn [Fnum Fexp]. change (-1074) with (- (1074)) at 1. rewrite bpow_opp, <- IZR_Zpower by lia. apply (f_equal IZR) in E. rewrite !mult_IZR in E. change (- -1074) with 1074 in E. change (Zpower radix2 1074) with (2 ^ 1074).
    assert (0 < IZR (2 ^ 1074))%R by (apply IZR_lt; reflexivity). assert (0 < IZR b)%R by (by apply IZR_lt). apply (Rmult_eq_reg_r (IZR b * IZR (2 ^ 1074))); [|apply Rgt_not_eq; nra].
    transitivity (IZR (Zpos m) * IZR b)%R; [field; lra|]. rewrite E. field; lra. }
  assert (K : k <= -324).
  { destruct (Z.le_gt_cases k (-324)) as [|G]; [done|]. exfalso. rewrite X in S. assert (D1 : (bpow radix10 (16 + k) <= dec d k)%R).
    { unfold F2R. cbn [Fnum Fexp]. rewrite bpow_plus. apply Rmult_le_compat_r; [apply bpow_ge_0|]. change (bpow radix10 16) with (IZR (10 ^ 16)). apply IZR_le; lia. }
    assert (bpow radix10 (-307) <= bpow radix10 (16 + k))%R by (apply bpow_le; lia). assert (bpow radix2 (-1022) < bpow radix10 (-307))%R; [|lra].
    change (-1022) with (- (1022)). change (-307) with (- (307)). rewrite !bpow_opp, <- !IZR_Zpower by lia. apply Rinv_lt_contravar; [rewrite <- mult_IZR; apply IZR_lt; reflexivity|apply IZR_lt; reflexivity]. }
  assert (Y : Zpos m * 10 ^ (- k) = d * 2 ^ 1074).
  { apply eq_IZR. rewrite !mult_IZR. unfold F2R in X. cbn [Fnum Fexp] in X. change (10 ^ (- k)) with (Zpower radix10 (- k)). change (2 ^ 1074) with (Zpower radix2 1074). rewrite !IZR_Zpower by lia.
    change (bpow radix2 (-1074)) with (bpow radix2 (- (1074))) in X. rewrite bpow_opp in X. replace k with (- - k) in X by lia. rewrite (bpow_opp radix10 (- k)) in X. pose proof (bpow_gt_0 radix2 1074). pose proof (bpow_gt_0 radix10 (- k)).
    apply (Rmult_eq_compat_r (bpow radix2 1074 * bpow radix10 (- k))) in X. transitivity (IZR (Zpos m) * / bpow radix2 1074 * (bpow radix2 1074 * bpow radix10 (- k)))%R; [field; lra|]. rewrite X. field; lra. }
  assert (Dv : (5 ^ (- k) | d * 2 ^ 1074)). { exists (Zpos m * 2 ^ (- k)). rewrite <- Y. change 10 with (2 * 5). rewrite Z.pow_mul_l. ring. }
  rewrite Z.mul_comm in Dv. apply Gauss in Dv; [|apply rel_prime_Zpower; [lia|lia|apply Zgcd_1_rel_prime; reflexivity]]. apply Z.divide_pos_le in Dv; [|lia].
  assert (5 ^ 324 <= 5 ^ (- k)) by (apply Z.pow_le_mono_r; lia). assert (10 ^ 17 < 5 ^ 324) by reflexivity. lia.
Qed.

(** * Integers. *)
Lemma int_text n : 0 < n -> n < 10 ^ Z.of_nat (int_digits n) /\ (0 < int_digits n)%nat.
Proof.
  intros N. unfold int_digits. pose proof (Zdigits_correct radix10 n) as [_ D]. pose proof (Zdigits_gt_0 radix10 n ltac:(lia)). rewrite Z2Nat.id by lia. rewrite Z.abs_eq in D by lia. split; [exact D|lia].
Qed.
Lemma span_digs k n : span (digits (digs k n)) = (digs k n, []).
Proof. rewrite <- (app_nil_r (digits _)). apply span_digits; [apply digs_dig|done]. Qed.
Lemma read_int z : exists s ds, sign_of (list_ascii_of_string (to_string_int z)) = (s, digits ds) /\ fst (span (digits ds)) = ds /\ ds <> [] /\ (if s then - number_of ds else number_of ds) = z /\ number_of ds = Z.abs z /\ (s = true -> z < 0).
Proof.
  unfold to_string_int. rewrite list_ascii_of_string_of_list_ascii. destruct (Z.eqb_spec z 0) as [->|N].
  - exists false, [0]. repeat split; done.
  - destruct (int_text (Z.abs z) ltac:(lia)) as [D L]. assert (Nn : number_of (digs (int_digits (Z.abs z)) (Z.abs z)) = Z.abs z) by (apply digs_number; lia).
    assert (Ne : digs (int_digits (Z.abs z)) (Z.abs z) <> []). { intros E. apply (f_equal length) in E. rewrite digs_length in E. cbn in E. lia. }
    pose proof (digs_dig (int_digits (Z.abs z)) (Z.abs z)) as F. exists (z <? 0), (digs (int_digits (Z.abs z)) (Z.abs z)). split; [|split; [by rewrite span_digs|split; [done|split; [destruct (Z.ltb_spec z 0); lia|split; [done|intros ?%Z.ltb_lt; done]]]]].
    destruct (digs (int_digits (Z.abs z)) (Z.abs z)) as [|d ds]; [done|]. inversion F; subst. unfold digits. cbn [map]. apply sign_of_text. by apply is_digit_digit.
Qed.
