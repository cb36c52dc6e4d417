From Verif Require Import Equip TapChangerProofs SettersProofs ExtSetters ExtSettersSpec ExtSettersProofs Impedance ImpedanceSpec.

Lemma set_checks x m : checks (number defined) (OD x) (check_set x m).
Proof. apply nan_checks. Qed.
Lemma ratedS_checks x : checks (number (undef_or positive)) (OD x) (checkRatedS x).
Proof. apply checks_intro; [unfold checkRatedS; no_ub|]. by rewrite ratedS_ok, number_iff. Qed.
Lemma voltage_checks x : checks (number (undef_or non_negative)) (OD x) (check_voltage x).
Proof. destruct (opr_checks x) as [[E H]|[[m E] H]]; [left|right]; (split; [|done]); unfold checkOPR, check_voltage, check in *; destruct (_ && _); eauto; discriminate. Qed.
Lemma shunt_checks shunt x : checks (number (fun x => shunt = true -> x = NaN)) (OD x) (check (negb (is_nan x) && shunt) "cannot set active power on a shunt compensator").
Proof. apply checks_intro; [no_ub|]. rewrite number_iff, check_ok, andb_false_iff. destruct shunt, x; simpl; intuition (congruence || discriminate). Qed.

Lemma shared_local' k i c x (P : oval -> Prop) : i < shared_values k -> kept k !! i = Some P -> checks P x c ->
  local_spec x_obs (i_ok k) (i, x) (set_shared i c x).
Proof.
  intros Hk Hi Hc. unfold local_spec, set_shared. intros s v [L F].
  assert (<[i := x]> s ++ v = <[i := x]> (s ++ v)) as E0 by (symmetry; apply insert_app_l; lia).
  destruct Hc as [[-> HP]|[[m ->] HP]]; simpl; unfold x_obs, holds in *.
  - split; [done|]. split; [by etransitivity; [apply insert_length|]|]. unfold holds, x_obs. rewrite E0. by eapply insert_ok.
  - intros s' v' E [_ F']. unfold x_obs, holds in F'. rewrite E in F'. exact (insert_not_ok _ _ _ _ _ Hi HP F F').
Qed.
Lemma variant_local' k i c x (P : oval -> Prop) : kept k !! (shared_values k + i) = Some P -> checks P x c ->
  local_spec x_obs (i_ok k) (shared_values k + i, x) (set_variant i c x).
Proof.
  intros Hi Hc. unfold local_spec, set_variant. intros s v [L F].
  assert (s ++ <[i := x]> v = <[shared_values k + i := x]> (s ++ v)) as E0 by (rewrite <- L; symmetry; apply insert_app_r).
  destruct Hc as [[-> HP]|[[m ->] HP]]; cbn [result_bind fst snd]; unfold x_obs, holds in *.
  - split; [done|]. split; [done|]. unfold holds, x_obs. rewrite E0. by eapply insert_ok.
  - intros s' v' E [_ F']. unfold x_obs, holds in F'. cbn [fst snd] in E. rewrite E in F'. exact (insert_not_ok _ _ _ _ _ Hi HP F F').
Qed.
Ltac i_checks := first [apply set_checks|apply ratedS_checks|apply voltage_checks|apply shunt_checks|apply any_number_checks|apply flag_checks].
Lemma i_local k (c : icall k) : local_spec x_obs (i_ok k) (i_what c) (iset c).
Proof.
  destruct c; cbn [i_what iset]; try (match goal with a : line_attr |- _ => destruct a end; cbn [line_rank set_line]);
  lazymatch goal with
  | |- local_spec _ _ _ (set_shared _ _ _) => eapply shared_local'; [simpl; lia|reflexivity|i_checks]
  | |- local_spec _ (i_ok ?k) (?n, ?x) (set_variant ?i ?c _) => change (local_spec x_obs (i_ok k) (shared_values k + i, x) (set_variant i c x)); eapply variant_local'; [reflexivity|i_checks]
  end.
Qed.
Lemma i_no_ub k (c : icall k) : setter_no_ub (iset c).
Proof. destruct c; try (match goal with a : line_attr |- _ => destruct a end); simpl; intros; unfold check_set, check_voltage, checkRatedS; no_ub. Qed.

Lemma i_adder_spec k (s v s0 v0 : attrs) (Q : Prop) : length s0 = shared_values k ->
  (Q <-> holds (demanded k) (s0 ++ v0)) ->
  (Q /\ Ok (s0, v0) = Ok (s, v)) <-> (s0 ++ v0 = x_obs s v /\ length s = shared_values k) /\ holds (demanded k) (x_obs s v).
Proof.
  intros L HQ. unfold x_obs. split.
  - intros [H [= <- <-]]. split; [done|]. by apply HQ.
  - intros [[E L'] F]. rewrite <- E in F. split; [by apply HQ|]. apply app_inj_1 in E as [-> ->]; [done|congruence].
Qed.
Ltac i_bind_checks := repeat first
  [rewrite (checks_bind _ _ _ _ _ (set_checks _ _)) | rewrite (checks_bind _ _ _ _ _ (ratedS_checks _))].
Lemma id_bind {B} (id : option string) m (f : result B) b :
  (check (bool_decide (default "" id = "")) m ;;+ f) = Ok b <-> (exists s, id = Some s /\ s <> "") /\ f = Ok b.
Proof.
  unfold check. destruct id as [s|]; simpl.
  - case_bool_decide as H; simpl; [|naive_solver]. split; [done|]. intros [(? & [= <-] & ?) _]. done.
  - split; [done|]. by intros [(? & ? & _) _].
Qed.
Lemma holds_nil : holds [] [] <-> True.
Proof. split; [done|constructor]. Qed.
Lemma holds_cons (P : oval -> Prop) ps x xs : holds (P :: ps) (x :: xs) <-> P x /\ holds ps xs.
Proof. apply forall2_cons_iff. Qed.
Lemma nan_v : number (undef_or non_negative) (OD NaN) <-> True.
Proof. rewrite number_iff. unfold undef_or. tauto. Qed.
Lemma nan_p shunt : number (fun x => shunt = true -> x = NaN) (OD NaN) <-> True.
Proof. rewrite number_iff. tauto. Qed.
Lemma i_adder k (a : iargs k) s v : iadd a = Ok (s, v) <->
  i_given a = x_obs s v /\ named a /\ length s = shared_values k /\ holds (demanded k) (x_obs s v).
Proof.
  assert (forall (A B C : Prop), A /\ B /\ C <-> (A /\ B) /\ C) as assoc by tauto.
  assert (forall r (s v : attrs), r = Ok (s, v) <-> True /\ r = Ok (s, v)) as tt_l by tauto.
  assert (forall A B C D N : Prop, (N -> (A <-> B /\ C /\ D)) -> (N /\ A <-> B /\ N /\ C /\ D)) as named_in by tauto.
  assert (forall A B C D : Prop, (A <-> B /\ C /\ D) -> (A <-> B /\ True /\ C /\ D)) as named_T by tauto.
  destruct a; cbn [iadd i_given named].
  2: rewrite id_bind; apply named_in; intros _.
  1,3-9: apply named_T.
  all: try (match goal with num : nat |- _ => destruct num as [|[|num]]; cbn [bool_decide decide_rel] end).
  all: repeat match goal with |- context [if bool_decide ?P then _ else _] => first [rewrite (bool_decide_true P) by done|rewrite (bool_decide_false P) by lia] end.
  all: i_bind_checks; rewrite ?assoc.
  all: try lazymatch goal with |- (_ /\ _ = _ <-> _) => idtac | _ => rewrite tt_l end.
  all: match goal with |- (?Q /\ Ok (?s0, ?v0) = _) <-> (?l = _ /\ _ = shared_values ?k) /\ _ => apply (i_adder_spec k s v s0 v0 Q) end; [done|].
  all: cbn [demanded app]; rewrite ?holds_cons, ?holds_nil, ?flag_T, ?nan_v, ?nan_p, ?number_T; unfold dzero; tauto.
Qed.
Lemma weaken o : number defined o -> number any o.
Proof. intros (x & -> & _). by exists x. Qed.
Lemma i_adder_kept k s v : length s = shared_values k -> holds (demanded k) (x_obs s v) -> i_ok k s v.
Proof.
  intros L F. split; [done|]. unfold kept. destruct (is_step k) eqn:E; [|done].
  destruct k; try discriminate; cbn [demanded map] in *; revert F; generalize (x_obs s v); unfold holds; intros l F;
    repeat match goal with H : Forall2 _ (_ :: _) _ |- _ => inversion H; clear H; subst end;
    match goal with H : Forall2 _ [] _ |- _ => inversion H; subst end; repeat (constructor; [by apply weaken|]); constructor.
Qed.

(** ** The adder of three windings transformers *)
Lemma truns_app cs cs' a : truns (cs ++ cs') a = truns cs' (truns cs a).
Proof. revert a. induction cs as [|c cs IH]; intros a; [done|]. simpl. apply IH. Qed.
Lemma truns_setters cs a : Forall (fun c => ~ is_add c) cs ->
  ta_u0 (truns cs a) = last_u0 cs (ta_u0 a) /\ ta_leg1 (truns cs a) = last_leg1 cs (ta_leg1 a).
Proof.
  revert a. induction cs as [|c cs IH]; intros a F; [done|]. inversion F as [|? ? Hc Fc]; subst. simpl.
  destruct (IH (trun c a).2 Fc) as [-> ->]. destruct c; simpl in *; try done.
Qed.
