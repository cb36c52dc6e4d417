From Verif Require Import TieLine TieLineSpec.

Section num.
  Context {A : Type} (nan : A) (isnan : A -> bool).
  Notation adder_value := (adder_value nan).
  Notation accepted := (accepted nan isnan).
  Notation last_add := (last_add nan isnan).
  Definition chars_of (f : param -> A) : chars A := mkChars (f PR) (f PX) (f PG1) (f PB1) (f PG2) (f PB2).
  Lemma get_chars f p : c_get p (chars_of f) = f p.
  Proof. by destruct p. Qed.
  Lemma put_chars f p v : c_put p v (chars_of f) = chars_of (fun p' => if bool_decide (p' = p) then v else f p').
  Proof. by destruct p. Qed.
  Lemma chars_ext f g : (forall p, f p = g p) -> chars_of f = chars_of g.
  Proof. intros H. unfold chars_of. by rewrite !H. Qed.
  Definition adder_of (h : list (aop A)) (s : tside) : half_adder := mkHAdder (num_of s) (adder_id h s) (chars_of (adder_value h s)).
  Lemma adder_of_eq (h h' : list (aop A)) (s : tside) (id : string) c : adder_id h s = id -> chars_of (adder_value h s) = c -> adder_of h s = mkHAdder (num_of s) id c.
  Proof. unfold adder_of. by intros -> ->. Qed.
  Lemma num_eq s : num_of s = match s with TONE => 1 | TTWO => 2 end. Proof. done. Qed.
  Definition put_half (s : tside) (a : half_adder) (t : tie_adder) : @tie_adder A :=
    match s with TONE => mkTAdder (ta_xnode t) (Some a) (ta_half2 t) | TTWO => mkTAdder (ta_xnode t) (ta_half1 t) (Some a) end.
  Lemma ha_add_eq h s t : ha_add isnan (adder_of h s) t = Ok (put_half s (adder_of h s) t) /\ accepted h s \/
    (exists m, ha_add isnan (adder_of h s) t = Throw m) /\ ~ accepted h s.
  Proof.
    unfold ha_add, accepted, adder_of, chars_of. cbn [ha_id ha_chars ha_num c_r c_x c_g1 c_b1 c_g2 c_b2].
    destruct (String.eqb_spec (adder_id h s) "") as [E|N]; [right; split; [eauto|tauto]|].
    destruct (isnan (adder_value h s PR)) eqn:E1; [right; split; [eauto|]; intros [_ H]; by rewrite H in E1|].
    destruct (isnan (adder_value h s PX)) eqn:E2; [right; split; [eauto|]; intros [_ H]; by rewrite H in E2|].
    destruct (isnan (adder_value h s PG1)) eqn:E3; [right; split; [eauto|]; intros [_ H]; by rewrite H in E3|].
    destruct (isnan (adder_value h s PB1)) eqn:E4; [right; split; [eauto|]; intros [_ H]; by rewrite H in E4|].
    destruct (isnan (adder_value h s PG2)) eqn:E5; [right; split; [eauto|]; intros [_ H]; by rewrite H in E5|].
    destruct (isnan (adder_value h s PB2)) eqn:E6; [right; split; [eauto|]; intros [_ H]; by rewrite H in E6|].
    left. split; [by destruct s|]. split; [done|]. by intros [].
  Qed.
  Definition ta_half (s : tside) (t : @tie_adder A) := match s with TONE => ta_half1 t | TTWO => ta_half2 t end.
  Lemma a_run_ok h : (forall s, g_half s (a_run nan isnan h) = adder_of h s) /\
    (forall s, ta_half s (g_adder (a_run nan isnan h)) = (fun h' => adder_of h' s) <$> last_add h s) /\
    ta_xnode (g_adder (a_run nan isnan h)) = last_xnode h.
  Proof.
    induction h as [|o h (I1 & I2 & I3)]; [split_and!; [by intros []|by intros []|done]|].
    change (a_run nan isnan (o :: h)) with (a_step nan isnan (a_run nan isnan h) o). set (g := a_run nan isnan h) in *. clearbody g.
    destruct o as [s'|s' id|s' p v|s'|c]; cbn [a_step].
    - split_and!.
      + intros s. destruct s', s; cbn [g_put g_half g_half1 g_half2]; try done.
        * exact (I1 TTWO).
        * exact (I1 TONE).
      + intros s. transitivity (ta_half s (g_adder g)); [by destruct s'|exact (I2 s)].
      + transitivity (ta_xnode (g_adder g)); [by destruct s'|exact I3].
    - split_and!.
      + intros s. destruct s', s; cbn [g_put g_half g_half1 g_half2]; try exact (I1 TTWO); try exact (I1 TONE).
        * pose proof (I1 TONE) as E. cbn [g_half] in E. by rewrite E.
        * pose proof (I1 TTWO) as E. cbn [g_half] in E. by rewrite E.
      + intros s. transitivity (ta_half s (g_adder g)); [by destruct s'|exact (I2 s)].
      + transitivity (ta_xnode (g_adder g)); [by destruct s'|exact I3].
    - split_and!.
      + intros s. destruct (decide (s = s')) as [->|D].
        * assert (g_half s' (g_put s' (ha_set p v (g_half s' g)) g) = ha_set p v (g_half s' g)) as -> by (by destruct s').
          rewrite I1. unfold ha_set, adder_of. cbn [ha_num ha_id ha_chars]. rewrite put_chars. cbn [adder_id]. apply f_equal, chars_ext. intros p'. cbn [TieLineSpec.adder_value].
          destruct (decide (p' = p)); [by rewrite !bool_decide_true|by rewrite !bool_decide_false by naive_solver].
        * assert (g_half s (g_put s' (ha_set p v (g_half s' g)) g) = g_half s g) as -> by (by destruct s, s').
          rewrite I1. unfold adder_of. cbn [adder_id]. apply f_equal, chars_ext. intros p'. cbn [TieLineSpec.adder_value]. by rewrite bool_decide_false by naive_solver.
      + intros s. transitivity (ta_half s (g_adder g)); [by destruct s'|exact (I2 s)].
      + transitivity (ta_xnode (g_adder g)); [by destruct s'|exact I3].
    - cbn [TieLineSpec.last_add last_xnode]. rewrite (I1 s'). destruct (ha_add_eq h s' (g_adder g)) as [[E Ac]|[[m E] Ac]]; rewrite E.
      + split_and!.
        * intros s. rewrite <- (I1 s) at 1. by destruct s.
        * intros s. cbn [g_adder]. destruct (decide (s = s')) as [->|D].
          -- rewrite bool_decide_true by done. by destruct s'.
          -- rewrite bool_decide_false by naive_solver. rewrite <- I2. by destruct s, s'.
        * transitivity (ta_xnode (g_adder g)); [by destruct s'|exact I3].
      + split_and!; [by intros s; rewrite I1| |done]. intros s. rewrite bool_decide_false by naive_solver. apply I2.
    - split_and!; [intros s; rewrite <- (I1 s) at 1; by destruct s|intros s; transitivity (ta_half s (g_adder g)); [by destruct s|exact (I2 s)]|done].
  Qed.
  Lemma c_make_ok f : (forall p, isnan (f p) = false) -> c_make nan isnan (f PR) (f PX) (f PG1) (f PB1) (f PG2) (f PB2) = Ok (chars_of f).
  Proof. intros H. unfold c_make, c_set. by rewrite !H. Qed.
  Lemma last_add_accepted h s h' : last_add h s = Some h' -> accepted h' s.
  Proof.
    induction h as [|[?|? ?|? ? ?|s'|?] h IH]; cbn [TieLineSpec.last_add]; try done; intros E; try by apply IH.
    case_bool_decide as D; [|by apply IH]. injection E as <-. tauto.
  Qed.
  Definition tie_of (h1 h2 : list (aop A)) (x : string) : tie A :=
    mkTie (mkHalf (adder_id h1 TONE) (chars_of (adder_value h1 TONE)) TONE true) (mkHalf (adder_id h2 TTWO) (chars_of (adder_value h2 TTWO)) TTWO true) x.
  Lemma ha_build_ok h s : accepted h s -> ha_build nan isnan (adder_of h s) = Ok (mkHalf (adder_id h s) (chars_of (adder_value h s)) s false).
  Proof.
    intros [_ H]. unfold ha_build, adder_of. cbn [ha_num ha_id ha_chars]. unfold chars_of at 1 2 3 4 5 6. cbn [c_r c_x c_g1 c_b1 c_g2 c_b2].
    rewrite (c_make_ok _ H). by destruct s.
  Qed.
  Lemma h_move_ok id f s b : (forall p, isnan (f p) = false) -> h_move nan isnan (mkHalf id (chars_of f) s b) = Ok (mkHalf id (chars_of f) s b).
  Proof. intros H. unfold h_move. cbn [h_id h_chars h_side h_parent]. unfold chars_of at 1 2 3 4 5 6. cbn [c_r c_x c_g1 c_b1 c_g2 c_b2]. by rewrite (c_make_ok _ H). Qed.
  Lemma ta_add_ok h : ta_add nan isnan (g_adder (a_run nan isnan h)) =
    if bool_decide (last_xnode h = "") then Throw "ucteXnodeCode is not set"
    else match last_add h TONE with
         | None => Throw "half line 1 is not set"
         | Some h1 => match last_add h TTWO with None => Throw "half line 2 is not set" | Some h2 => Ok (tie_of h1 h2 (last_xnode h)) end
         end.
  Proof.
    destruct (a_run_ok h) as (_ & I2 & I3). unfold ta_add. rewrite I3.
    destruct (String.eqb_spec (last_xnode h) "") as [E|E]; [by rewrite bool_decide_true|]. rewrite bool_decide_false by done.
    pose proof (I2 TONE) as E1. cbn [ta_half] in E1. rewrite E1. destruct (last_add h TONE) as [h1|] eqn:L1; cbn [fmap option_fmap option_map]; [|done].
    pose proof (I2 TTWO) as E2. cbn [ta_half] in E2. rewrite E2. destruct (last_add h TTWO) as [h2|] eqn:L2; cbn [fmap option_fmap option_map]; [|done].
    apply last_add_accepted in L1, L2. rewrite (ha_build_ok _ _ L1), (ha_build_ok _ _ L2). cbn [result_bind].
    rewrite (h_move_ok _ _ _ _ (proj2 L1)). cbn [result_bind]. rewrite (h_move_ok _ _ _ _ (proj2 L2)). done.
  Qed.
  Lemma get_put p v c q : c_get q (c_put p v c) = if bool_decide (q = p) then v else c_get q (c : chars A).
  Proof. by destruct c, p, q. Qed.
  Lemma t_run_ok k t : (forall s p, c_get p (h_chars (t_half s (t_run isnan k t))) = half_value isnan k s p (c_get p (h_chars (t_half s t)))) /\
    (forall s, h_side (t_half s (t_run isnan k t)) = h_side (t_half s t) /\ h_id (t_half s (t_run isnan k t)) = h_id (t_half s t)).
  Proof.
    induction k as [|o k [I1 I2]]; [done|]. change (t_run isnan (o :: k) t) with (t_step isnan (t_run isnan k t) o).2. set (t' := t_run isnan k t) in *. clearbody t'.
    destruct o as [p v|s p v]; cbn [t_step t_set snd half_value]; [done|]. unfold t_set_half, c_set. destruct (isnan v) eqn:N; cbn [snd].
    - split; [|done]. intros s' p'. rewrite bool_decide_false by (intros (_ & _ & ?); congruence). apply I1.
    - split.
      + intros s' p'. destruct (decide (s' = s)) as [->|D].
        * assert (E : forall c, h_chars (t_half s (match s with
              | TONE => mkTie (mkHalf (h_id (t_half1 t')) c (h_side (t_half1 t')) (h_parent (t_half1 t'))) (t_half2 t') (t_xnode t')
              | TTWO => mkTie (t_half1 t') (mkHalf (h_id (t_half2 t')) c (h_side (t_half2 t')) (h_parent (t_half2 t'))) (t_xnode t')
              end)) = c) by (by destruct s).
          rewrite E, get_put, I1. destruct (decide (p' = p)); [by rewrite !bool_decide_true|by rewrite !bool_decide_false by naive_solver].
        * rewrite bool_decide_false by naive_solver. rewrite <- I1. by destruct s, s'.
      + intros s'. rewrite <- !(proj1 (I2 s')), <- !(proj2 (I2 s')). by destruct s, s'.
  Qed.
  Lemma half_value_defined k s p a : isnan a = false -> isnan (half_value isnan k s p a) = false.
  Proof. intros H. induction k as [|[q v|s' q v] k IH]; cbn [half_value]; [done|done|]. case_bool_decide; [tauto|done]. Qed.
End num.
