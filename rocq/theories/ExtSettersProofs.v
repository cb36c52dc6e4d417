From Verif Require Import Equip TapChangerProofs SettersProofs ExtSetters ExtSettersSpec.

(** ** The checks *)
Definition checks (P : oval -> Prop) (x : oval) (c : result unit) : Prop := (c = Ok tt /\ P x) \/ (exists m, c = Throw m) /\ ~ P x.
Lemma checks_intro (P : oval -> Prop) x c : no_ub c -> (c = Ok tt <-> P x) -> checks P x c.
Proof. intros [H1 H2] H. destruct c as [[]|m| |]; [left|right|done|done]; [split; [done|by apply H]|]. split; [eauto|]. by rewrite <- H. Qed.
Lemma number_iff P x : number P (OD x) <-> P x.
Proof. split; [intros (y & [= <-] & H); done|intros H; by exists x]. Qed.
Lemma whole_iff P x : whole P (ON x) <-> P x.
Proof. split; [intros (y & [= <-] & H); done|intros H; by exists x]. Qed.
Lemma text_iff P x : text P (OS x) <-> P x.
Proof. split; [intros (y & [= <-] & H); done|intros H; by exists x]. Qed.
Lemma nan_checks x m : checks (number defined) (OD x) (check (is_nan x) m).
Proof. apply checks_intro; [no_ub|]. by rewrite nan_ok, number_iff. Qed.
Lemma opr_checks x : checks (number (undef_or non_negative)) (OD x) (checkOPR x).
Proof.
  apply checks_intro; [unfold checkOPR; no_ub|]. rewrite number_iff. unfold checkOPR, undef_or. rewrite check_ok, <- is_nan_spec.
  destruct (is_nan x) eqn:E; simpl; [tauto|]. split; [|by intros [?|H]; [done|apply (check_ok _ ""), dlt_ok]].
  intros H. right. apply (dlt_ok dzero x ""); [by rewrite H|done|by apply is_nan_false].
Qed.
Lemma slope_checks x : checks (number non_negative) (OD x) (checkSlope x).
Proof. apply checks_intro; [unfold checkSlope; no_ub|]. rewrite number_iff. apply nonneg_ok. Qed.
Lemma clock_checks n : checks (whole (fun n => n < 12)) (ON n) (checkPhaseAngleClock n).
Proof. apply checks_intro; [unfold checkPhaseAngleClock; no_ub|]. rewrite whole_iff. unfold checkPhaseAngleClock. rewrite check_ok, bool_decide_eq_false. lia. Qed.
Lemma divider_checks x : checks (number (fun x => in_between (Fin 0) x (Fin 1))) (OD x) (checkDividerPosition x).
Proof.
  apply checks_intro; [unfold checkDividerPosition; no_ub|]. rewrite number_iff. unfold checkDividerPosition. rewrite check_ok.
  rewrite <- between_ok by done. unfold dzero. rewrite orb_false_iff. tauto.
Qed.
Lemma text_checks x m : checks (text (fun x => x <> "")) (OS x) (checkNotEmpty x m).
Proof. apply checks_intro; [unfold checkNotEmpty; no_ub|]. rewrite text_iff. unfold checkNotEmpty. by rewrite check_ok, bool_decide_eq_false. Qed.
Lemma any_text_checks x : checks (text any) (OS x) (Ok tt).
Proof. left. split; [done|]. by apply text_iff. Qed.
Lemma any_number_checks x : checks (number any) (OD x) (Ok tt).
Proof. left. split; [done|]. by apply number_iff. Qed.
Lemma any_whole_checks x : checks (whole any) (ON x) (Ok tt).
Proof. left. split; [done|]. by apply whole_iff. Qed.
Lemma flag_checks b : checks flag (OB b) (Ok tt).
Proof. left. split; [done|]. by exists b. Qed.

(** ** Setters *)
Lemma insert_ok (ps : list (oval -> Prop)) xs i (P : oval -> Prop) x : ps !! i = Some P -> P x ->
  Forall2 (fun (P : oval -> Prop) x => P x) ps xs -> Forall2 (fun (P : oval -> Prop) x => P x) ps (<[i := x]> xs).
Proof. intros Hi HP F. rewrite <- (list_insert_id ps i P Hi). by apply Forall2_insert. Qed.
Lemma insert_not_ok (ps : list (oval -> Prop)) xs i (P : oval -> Prop) x : ps !! i = Some P -> ~ P x ->
  Forall2 (fun (P : oval -> Prop) x => P x) ps xs -> ~ Forall2 (fun (P : oval -> Prop) x => P x) ps (<[i := x]> xs).
Proof.
  intros Hi HP F F'. apply HP. pose proof (Forall2_length _ _ _ F) as L. apply lookup_lt_Some in Hi as Hl.
  eapply (Forall2_lookup_lr _ _ _ _ _ _ F' Hi). apply list_lookup_insert. lia.
Qed.
Lemma shared_local k i c x (P : oval -> Prop) : per_variant k = false -> allowed k !! i = Some P -> checks P x c ->
  local_spec x_obs (x_ok k) (i, x) (set_shared i c x).
Proof.
  intros Hk Hi Hc. unfold local_spec, set_shared, set_variant. intros s v Hok. unfold x_ok in Hok. rewrite Hk in Hok. destruct Hok as [-> F].
  destruct Hc as [[-> HP]|[[m ->] HP]]; simpl; unfold x_obs in *; rewrite ?app_nil_r in *.
  - split; [done|]. unfold x_ok. rewrite Hk. split; [done|]. unfold x_obs. rewrite app_nil_r. by eapply insert_ok.
  - intros s' v' E [_ F']. unfold x_obs in F'. rewrite E in F'. exact (insert_not_ok _ _ _ _ _ Hi HP F F').
Qed.
Lemma variant_local k i c x (P : oval -> Prop) : per_variant k = true -> allowed k !! i = Some P -> checks P x c ->
  local_spec x_obs (x_ok k) (i, x) (set_variant i c x).
Proof.
  intros Hk Hi Hc. unfold local_spec, set_shared, set_variant. intros s v Hok. unfold x_ok in Hok. rewrite Hk in Hok. destruct Hok as [-> F].
  destruct Hc as [[-> HP]|[[m ->] HP]]; simpl; unfold x_obs in *; simpl in *.
  - split; [done|]. unfold x_ok. rewrite Hk. split; [done|]. unfold x_obs. simpl. by eapply insert_ok.
  - intros s' v' E [_ F']. unfold x_obs in F'. rewrite E in F'. exact (insert_not_ok _ _ _ _ _ Hi HP F F').
Qed.
Lemma x_local k (c : xcall k) : local_spec x_obs (x_ok k) (x_what c) (xset c).
Proof.
  destruct c; cbn [x_what xset];
  (eapply shared_local || eapply variant_local); try reflexivity;
  first [apply nan_checks|apply opr_checks|apply slope_checks|apply clock_checks|apply divider_checks|apply text_checks
        |apply any_text_checks|apply any_number_checks|apply any_whole_checks|apply flag_checks].
Qed.
Lemma x_no_ub k (c : xcall k) : setter_no_ub (xset c).
Proof.
  destruct c; simpl; intros; unfold checkAngleP0, checkDroop, checkOPR, checkQPercent, checkSlope, checkPhaseAngleClock, checkDividerPosition, checkPowerFlow, checkNotEmpty, checkPower; no_ub.
Qed.

(** ** Adders *)
Lemma checks_bind {B} P x c (f : result B) b : checks P x c -> (c ;;+ f) = Ok b <-> P x /\ f = Ok b.
Proof. intros [[-> H]|[[m ->] H]]; simpl; [tauto|]. split; [done|by intros [? _]]. Qed.
Lemma forall2_nil_iff : Forall2 (fun (P : oval -> Prop) x => P x) [] [] <-> True.
Proof. done. Qed.
Lemma forall2_cons_iff (P : oval -> Prop) ps x xs : Forall2 (fun (P : oval -> Prop) x => P x) (P :: ps) (x :: xs) <-> P x /\ Forall2 (fun (P : oval -> Prop) x => P x) ps xs.
Proof. split; [by inversion 1|intros []; by constructor]. Qed.
Ltac bind_checks := repeat first
  [rewrite (checks_bind _ _ _ _ _ (nan_checks _ _)) | rewrite (checks_bind _ _ _ _ _ (opr_checks _)) | rewrite (checks_bind _ _ _ _ _ (slope_checks _))
  |rewrite (checks_bind _ _ _ _ _ (clock_checks _)) | rewrite (checks_bind _ _ _ _ _ (divider_checks _)) | rewrite (checks_bind _ _ _ _ _ (text_checks _ _))].
Lemma adder_spec k (s v s0 v0 : attrs) (Q : Prop) : (if per_variant k then s0 else v0) = [] ->
  (Q <-> Forall2 (fun (P : oval -> Prop) x => P x) (allowed k) (s0 ++ v0)) ->
  (Q /\ Ok (s0, v0) = Ok (s, v)) <-> Some (s0 ++ v0) = Some (x_obs s v) /\ x_ok k s v.
Proof.
  intros H0 HQ. unfold x_ok, x_obs. split.
  - intros [H [= <- <-]]. split; [done|]. split; [done|]. by apply HQ.
  - intros [[= E] [H F]]. rewrite <- E in F. split; [by apply HQ|]. destruct (per_variant k); subst; simpl in *; rewrite ?app_nil_r in *; by subst.
Qed.
Lemma flag_T b : flag (OB b) <-> True.
Proof. split; [done|]. intros _. by exists b. Qed.
Lemma text_T x : text any (OS x) <-> True.
Proof. by rewrite text_iff. Qed.
Lemma number_T x : number any (OD x) <-> True.
Proof. by rewrite number_iff. Qed.
Lemma whole_T x : whole any (ON x) <-> True.
Proof. by rewrite whole_iff. Qed.
Lemma x_adder k (a : xargs k) s v : xadd a = Ok (s, v) <-> given a = Some (x_obs s v) /\ x_ok k s v.
Proof.
  assert (forall (A B C : Prop), A /\ B /\ C <-> (A /\ B) /\ C) as assoc by tauto.
  assert (forall r (s v : attrs), r = Ok (s, v) <-> True /\ r = Ok (s, v)) as tt_l by tauto.
  destruct a; cbn [xadd given]; repeat match goal with |- context [match ?n with Some _ => _ | None => _ end = Ok _] => destruct n; simpl end;
    unfold checkAngleP0, checkDroop, checkQPercent, checkPowerFlow, checkPower; bind_checks; rewrite ?assoc;
    try (split; [done|by intros [? _]]).
  all: try lazymatch goal with |- (_ /\ _ <-> _) => idtac | _ => rewrite tt_l end.
  all: match goal with |- (?Q /\ Ok (?s0, ?v0) = _) <-> Some ?l = _ /\ x_ok ?k _ _ => apply (adder_spec k s v s0 v0 Q) end; [done|].
  all: simpl; rewrite ?forall2_cons_iff, ?forall2_nil_iff, ?flag_T, ?text_T, ?number_T, ?whole_T; tauto.
Qed.
