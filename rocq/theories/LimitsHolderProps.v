(** Property C74: the limits in force. *)
From Coq Require Import Lqa.
From Verif Require Import Equip SettersProofs Limits LimitsProofs LimitsHolder LimitsHolderSpec LimitsHolderProofs.

(** A getter gives the limits in force for the side and type, with their present values, or nothing if there are none; it never
    throws. *)
Theorem C74_get n ops h t : 1 <= h <= n ->
  exists r, get_limits h t (lh_run n ops) = Ok r /\
  (forall k l, in_force n (rev ops) h t k l <-> r = Some k /\ deref k (lh_run n ops) = Ok l) /\
  (r = None <-> forall k l, ~ in_force n (rev ops) h t k l).
Proof.
  intros H. pose proof (lh_run_inv n ops) as I. destruct (get_spec _ _ _ _ t I H) as (r & E & Er & F). exists r. split; [done|]. split; [done|].
  split; [intros -> k l [? _]%F; done|]. intros N. destruct r as [k|]; [|done]. symmetry in Er. destruct (li_alive _ _ _ I _ _ _ Er) as [l El].
  destruct (N k l). apply F. split; [done|]. unfold deref. by rewrite El.
Qed.
(** At most one set of limits is in force for a side and type, and limits are in force for one side and type only. *)
Theorem C74_one n ops h t k l h' t' k' l' : in_force n ops h t k l -> in_force n ops h' t' k' l' -> (k = k' <-> (h, t) = (h', t')) /\ (k = k' -> l = l').
Proof.
  rewrite <- (rev_involutive ops). pose proof (lh_run_inv n (rev ops)) as I. rewrite !(li_force _ _ _ I). intros [E1 E2] [E3 E4].
  split; [split|].
  - intros <-. pose proof (li_inj _ _ _ I _ _ _ _ _ E1 E3) as E. injection E as -> E. by apply ltype_of_inj in E as ->.
  - intros [= <- <-]. congruence.
  - intros <-. congruence.
Qed.
(** All the limits of a holder: those of active power, apparent power and current, in this order. *)
Theorem C74_all n ops h a1 a2 a3 : 1 <= h <= n -> get_limits h AActivePower (lh_run n ops) = Ok a1 -> get_limits h AApparentPower (lh_run n ops) = Ok a2 ->
  get_limits h ACurrent (lh_run n ops) = Ok a3 ->
  get_all_limits h (lh_run n ops) = Ok (option_list a1 ++ option_list a2 ++ option_list a3).
Proof.
  intros H E1 E2 E3. pose proof (lh_run_inv n ops) as I.
  destruct (get_spec _ _ _ _ AActivePower I H) as (? & E1' & -> & _). destruct (get_spec _ _ _ _ AApparentPower I H) as (? & E2' & -> & _).
  destruct (get_spec _ _ _ _ ACurrent I H) as (? & E3' & -> & _). rewrite E1' in E1. rewrite E2' in E2. rewrite E3' in E3. injection E1 as <-. injection E2 as <-. injection E3 as <-.
  pose proof (li_voltage _ _ _ I h) as V. unfold get_all_limits, lfind in *. destruct (proj2 (li_holders _ _ _ I h) H) as [m Hm]. rewrite Hm in *. cbn in *.
  rewrite (lm_listed m (li_sorted _ _ _ I _ _ Hm)), V. cbn. by rewrite app_nil_r.
Qed.
(** An adder succeeds exactly if its values are acceptable; otherwise it throws and the limits in force stay. *)
Theorem C74_add n ops h t l r st' : 1 <= h <= n -> add_limits h t l (lh_run n ops) = (r, st') ->
  ((exists k, r = Ok k) <-> acceptable l) /\ (forall k, r = Ok k -> in_force n (HAdd h t l :: rev ops) h t k l) /\
  (~ acceptable l -> (exists m, r = Throw m) /\ st' = lh_run n ops).
Proof.
  intros H E. pose proof (lh_run_inv n ops) as I. destruct (decide (acceptable l)) as [A|A].
  - destruct (add_inv _ _ _ h t l I A H) as (st'' & E' & I'). rewrite E in E'. injection E' as -> ->. split; [split; eauto|]. split; [|done].
    intros k [= <-]. apply if_new; [done|done|apply I].
  - unfold add_limits in E. destruct (add_cases l) as [[_ ?]|[[m Em] _]]; [done|]. rewrite Em in E. injection E as <- <-. split; [split; [by intros [? ?]|done]|]. split; [done|]. eauto.
Qed.
(** Setting the permanent limit through limits obtained before: defined as long as they are in force, undefined once they have been
    replaced. *)
Theorem C74_permanent n ops a x r st' : set_permanent a x (lh_run n ops) = (r, st') ->
  (r = UB <-> forall h t l, ~ in_force n (rev ops) h t a l) /\
  (forall h t l, in_force n (rev ops) h t a l -> (r = Ok tt <-> x = NaN \/ positive x) /\ (r <> Ok tt -> (exists m, r = Throw m) /\ st' = lh_run n ops)).
Proof.
  intros E. destruct (perm_inv n (rev ops) (lh_run n ops) a x (lh_run_inv n ops)) as (_ & U & F & N). rewrite E in *. cbn [fst snd] in *. split; [done|].
  intros h t l Hf. destruct (F _ _ _ Hf) as [Fo [F1 F2]]. split; [done|]. intros Hr. split; [|by apply N]. destruct r as [[]|m| |]; eauto; done.
Qed.
(** A history that uses limits only while they are in force meets no undefined behaviour. *)
Theorem C74_proper n ops o rest : proper n (rev (ops ++ o :: rest)) ->
  match o with HAdd h t l => no_ub (add_limits h t l (lh_run n ops)).1 | HPermanent a x => no_ub (set_permanent a x (lh_run n ops)).1 end.
Proof.
  intros P. assert (proper n (o :: rev ops)) as P'.
  { rewrite rev_app_distr in P. simpl in P. rewrite <- app_assoc in P. simpl in P. induction (rev rest) as [|o' l IH]; [done|]. inversion P; subst; auto. }
  inversion P' as [|ops0 h t l P0 H|ops0 a x h t l P0 F]; subst.
  - destruct (add_limits h t l (lh_run n ops)) as [r st'] eqn:E. destruct (C74_add n ops h t l r st' H E) as (E1 & _ & E2). simpl.
    destruct (decide (acceptable l)) as [A|A]; [destruct (proj2 E1 A) as [k ->]; done|destruct (E2 A) as [[m ->] _]; done].
  - by destruct (perm_inv n (rev ops) (lh_run n ops) a x (lh_run_inv n ops)) as (_ & _ & N & _); destruct (N _ _ _ F).
Qed.
(** Limits obtained from an adder become dangling when limits of the same type are added again on the same side. *)
Theorem C74_dangling_refuted : exists n ops h t l a x, acceptable l /\ (add_limits h t l (lh_run n ops)).1 = Ok a /\
  Forall (on_holders n) (ops ++ [HAdd h t l; HAdd h t l]) /\ (set_permanent a x (lh_run n (ops ++ [HAdd h t l; HAdd h t l]))).1 = UB.
Proof.
  exists 2, [], 1, ACurrent, (mkL (Fin 1000) []), 0, (Fin 1). split; [split; [right; unfold positive; simpl; lra|constructor]|].
  split; [reflexivity|]. split; [repeat constructor; simpl; lia|]. reflexivity.
Qed.
(** The checks of the limits of a branch: on the limits in force for the side and type asked for, and the value of that type; voltage
    limits are refused. *)
Theorem C74_checks app ops side r t p q i : 1 <= side <= 2 ->
  let st := lh_run 2 ops in
  (forall k l, in_force 2 (rev ops) side t k l -> branch_check_permanent app side r (ltype_of t) p q i st = Ok (check_permanent (Some l) r match t with AActivePower => p | AApparentPower => app p q | ACurrent => i end) /\
    branch_check_temporary app side r (ltype_of t) p q i st = Ok (check_temporary (Some l) r match t with AActivePower => p | AApparentPower => app p q | ACurrent => i end)) /\
  ((forall k l, ~ in_force 2 (rev ops) side t k l) -> branch_check_permanent app side r (ltype_of t) p q i st = Ok false /\ branch_check_temporary app side r (ltype_of t) p q i st = Ok None) /\
  (exists m, branch_check_permanent app side r LVoltage p q i st = Throw m) /\ (exists m, branch_check_temporary app side r LVoltage p q i st = Throw m).
Proof.
  intros H st. destruct (C74_get 2 ops side t H) as (o & E & F & N).
  assert (branch_limits (ltype_of t) side st = Ok o) as Eb by (by destruct t). unfold branch_check_permanent, branch_check_temporary, limits_of_side.
  assert (value_for_limit app (ltype_of t) p q i = Ok match t with AActivePower => p | AApparentPower => app p q | ACurrent => i end) as -> by (by destruct t).
  rewrite Eb. cbn [result_bind]. split; [|split; [|split; by eexists]].
  - intros k l Hf. apply F in Hf as [-> D]. cbn [result_bind]. fold st in D. rewrite D. done.
  - intros Hn. apply N in Hn as ->. done.
Qed.
(** Reactive limits: there are always some, those of the last add accepted (at first, from the lowest to the greatest double); asking for
    the other kind throws. *)
Theorem C74_reactive ops : exists o, reactive (rev ops) o /\
  match o with
  | RMinMax a b => get_minmax (rh_run ops) = Ok (a, b) /\ (exists m, get_curve (rh_run ops) = Throw m) /\ forall p, get_minQ (rh_run ops) p = Ok a /\ get_maxQ (rh_run ops) p = Ok b
  | RCurve c => get_curve (rh_run ops) = Ok c /\ (exists m, get_minmax (rh_run ops) = Throw m) /\ forall p, get_minQ (rh_run ops) p = cv_getMinQ c p /\ get_maxQ (rh_run ops) p = cv_getMaxQ c p
  end.
Proof.
  destruct (rh_inv ops) as [R [o E]]. unfold get_minmax, get_curve, get_minQ, get_maxQ. rewrite E in *. exists o. split; [done|]. destruct o; eauto.
Qed.
Theorem C74_reactive_one ops x y : reactive ops x -> reactive ops y -> x = y.
Proof. apply reactive_fun. Qed.

(** A branch: limits on both sides, those of side 1 replaced and changed. *)
Definition c74_ops : list lhop :=
  [HAdd 1 ACurrent (mkL (Fin 1000) [mkTl "10'" (Fin 1200) 600 false]); HAdd 2 AActivePower (mkL (Fin 500) []); HAdd 1 AActivePower (mkL NaN []);
   HAdd 1 ACurrent (mkL (Fin (-1)) []); HAdd 1 ACurrent (mkL (Fin 800) []); HPermanent 3 (Fin 900); HPermanent 1 (Fin (-5))].
Example C74_case :
  Forall (on_holders 2) c74_ops /\ in_force 2 (rev c74_ops) 1 ACurrent 3 (mkL (Fin 900) []) /\ in_force 2 (rev c74_ops) 2 AActivePower 1 (mkL (Fin 500) []) /\
  get_all_limits 1 (lh_run 2 c74_ops) = Ok [2; 3] /\ get_limits 2 ACurrent (lh_run 2 c74_ops) = Ok None /\
  branch_check_permanent (fun p q => p) 1 (Fin 1) LCurrent NaN NaN (Fin 950) (lh_run 2 c74_ops) = Ok true /\
  branch_check_permanent (fun p q => p) 1 (Fin 1) LActivePower (Fin 950) NaN (Fin 950) (lh_run 2 c74_ops) = Ok false.
Proof.
  split; [repeat constructor; simpl; lia|]. split; [|split].
  - apply (li_force _ _ _ (lh_run_inv 2 c74_ops)). split; vm_compute; reflexivity.
  - apply (li_force _ _ _ (lh_run_inv 2 c74_ops)). split; vm_compute; reflexivity.
  - repeat (split; [vm_compute; reflexivity|]). vm_compute. reflexivity.
Qed.
Example C74_proper_case : proper 2 (rev c74_ops).
Proof.
  simpl.
  eapply (pr_set _ _ 1 _ 2 AActivePower (mkL (Fin 500) [])); [eapply (pr_set _ _ 3 _ 1 ACurrent (mkL (Fin 800) []))|].
  - repeat (apply pr_add; [|lia]). constructor.
  - apply (li_force _ _ _ (lh_run_inv 2 (take 5 c74_ops))). split; vm_compute; reflexivity.
  - apply (li_force _ _ _ (lh_run_inv 2 (take 6 c74_ops))). split; vm_compute; reflexivity.
Qed.
Example C74_reactive_case :
  let ops := [RAddMinMax (Fin (-1)) (Fin 2); RAddCurve [mkP (Fin 0) (Fin (-3)) (Fin 3)]; RAddMinMax (Fin 3) (Fin 2)] in
  get_minmax (rh_run ops) = Ok (Fin (-1), Fin 2) /\ get_minmax (rh_run []) = Ok (dbl_lowest, dbl_max) /\
  get_curve (rh_run (ops ++ [RAddCurve [mkP (Fin 0) (Fin 1) (Fin 2); mkP (Fin 1) (Fin 1) (Fin 2)]])) = Ok [mkP (Fin 0) (Fin 1) (Fin 2); mkP (Fin 1) (Fin 1) (Fin 2)].
Proof. repeat (split; [vm_compute; reflexivity|]). vm_compute. reflexivity. Qed.
Print Assumptions C74_get.
Print Assumptions C74_one.
Print Assumptions C74_all.
Print Assumptions C74_add.
Print Assumptions C74_permanent.
Print Assumptions C74_proper.
Print Assumptions C74_dangling_refuted.
Print Assumptions C74_checks.
Print Assumptions C74_reactive.
Print Assumptions C74_reactive_one.
