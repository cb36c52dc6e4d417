From Verif Require Import Equip TapChanger.

Lemma no_ub_check b m : no_ub (check b m).
Proof. by destruct b. Qed.
Lemma no_ub_seq {A} (r : result unit) (r' : result A) : no_ub r -> no_ub r' -> no_ub (r ;;+ r').
Proof. intros [H1 H2] [H3 H4]. destruct r as [[]| | |]; simpl; done. Qed.
Lemma no_ub_Ok {A} (a : A) : no_ub (Ok a).
Proof. done. Qed.
Lemma no_ub_Throw {A} m : no_ub (@Throw A m).
Proof. done. Qed.
Ltac no_ub := repeat first
  [ apply no_ub_seq | apply no_ub_check | apply no_ub_Ok | apply no_ub_Throw
  | match goal with |- no_ub (match ?x with _ => _ end) => destruct x | |- no_ub (if ?b then _ else _) => destruct b end ].

Lemma checkRatio_no_ub r l t v : no_ub (checkRatioRegulation r l t v).
Proof. unfold checkRatioRegulation. no_ub. Qed.
Lemma checkPhase_no_ub m v r t : no_ub (checkPhaseRegulation m v r t).
Proof. unfold checkPhaseRegulation. no_ub. Qed.
Lemma checkDb_no_ub r d : no_ub (checkTargetDeadband r d).
Proof. unfold checkTargetDeadband. no_ub. Qed.
Lemma tcall_no_ub c : setter_no_ub (tcall_setter c).
Proof.
  destruct c; simpl; intros; unfold base_set_term, checkTapPosition; no_ub;
    auto using checkRatio_no_ub, checkPhase_no_ub, checkDb_no_ub.
Qed.

(** setLowTapPosition *)
Lemma tc_set_low_cases l st : ewf st ->
  let s := e_sh st in let s' := mkTs (ts_kind s) l (ts_steps s) (ts_term s) (ts_ltc s) (ts_mode s) in
  (exists i v, e_cur st = Some i /\ e_vars st !! i = Some v /\
     tc_set_low l st = (Ok tt, mkE s' (<[i := mkTv (tv_tap v + l - ts_low s) (tv_reg v) (tv_db v) (tv_val v)]> (e_vars st)) (e_cur st))) \/
  (e_cur st = None /\ exists m, tc_set_low l st = (Throw m, mkE s' (e_vars st) (e_cur st))).
Proof.
  intros W s s'. unfold tc_set_low. rewrite (abind_Ok ashared _ st s st eq_refl).
  rewrite (abind_Ok (aset s') _ st tt (mkE s' (e_vars st) (e_cur st)) eq_refl).
  assert (ewf (mkE s' (e_vars st) (e_cur st))) as W' by done.
  destruct (aget_ok _ W') as [(i & v & Hc & Hv & E)|(Hc & m & E)].
  - rewrite (abind_Ok _ _ _ _ _ E). left. exists i, v. split; [done|]. split; [done|].
    unfold aput, aindex, abind. simpl in *. rewrite Hc. simpl. rewrite Hv. simpl. done.
  - rewrite (abind_Throw _ _ _ _ _ E). right. eauto.
Qed.

Lemma tc_call_keeps c st : ewf st -> keeps_variants st (tc_call c st).2.
Proof.
  intros W. destruct c as [p|l|b|d|t|x|b|m]; try (apply run_setter_keeps_variants; [done|apply tcall_no_ub]).
  simpl. destruct (tc_set_low_cases l st W) as [(i & v & Hc & Hv & ->)|(Hc & m & ->)]; [|done].
  split; [done|]. by eapply insert_keeps.
Qed.
Lemma tc_call_no_ub c st : ewf st -> no_ub (tc_call c st).1.
Proof.
  intros W. destruct c as [p|l|b|d|t|x|b|m]; try (apply run_setter_no_ub; [done|apply tcall_no_ub]).
  simpl. by destruct (tc_set_low_cases l st W) as [(i & v & Hc & Hv & ->)|(Hc & m & ->)].
Qed.
Lemma tc_call_throw c st m st' : ewf st -> (forall l, c = TSetLow l -> e_cur st <> None) -> tc_call c st = (Throw m, st') -> st' = st.
Proof.
  intros W Hl. destruct c as [p|l|b|d|t|x|b|md]; try (apply run_setter_throw; [done|apply tcall_no_ub]).
  simpl. destruct (tc_set_low_cases l st W) as [(i & v & Hc & Hv & ->)|(Hc & m' & ->)]; [done|]. by destruct (Hl l).
Qed.

(** ** Meaning of the checks *)
Lemma checkTap_ok p l h : checkTapPosition p l h = Ok tt <-> (l <= p <= h)%Z.
Proof.
  unfold checkTapPosition. rewrite check_ok, orb_false_iff, !bool_decide_eq_false. lia.
Qed.
Lemma nan_false_dec b x : b && is_nan x = false <-> (b = true -> defined x).
Proof. destruct b, x; simpl; split; try done; intros H; try by apply H. by destruct H. Qed.
Lemma checkDb_ok r d : checkTargetDeadband r d = Ok tt <-> (r = true -> defined d) /\ (d = NaN \/ non_negative d).
Proof.
  unfold checkTargetDeadband. rewrite check_seq_ok, !check_ok, nan_false_dec. apply and_iff_compat_l.
  destruct d as [| |q|]; [split; auto| | |split; [by right|done]].
  - split; [done|]. by intros [?|?].
  - rewrite dlt_false by done. split; [by right|]. by intros [?|?].
Qed.
Lemma checkRatio_ok r l t x : checkRatioRegulation r l t x = Ok tt <->
  (r = true -> (l = true -> positive x) /\ exists t', t = Some t' /\ (l = true -> t_here t' = true)).
Proof.
  unfold checkRatioRegulation. destruct r; [|split; [done|done]].
  assert (is_nan x && l = false /\ dle x dzero && l = false <-> (l = true -> positive x)) as Hx.
  { rewrite !andb_false_iff. destruct l; [|split; [done|by auto]]. split.
    - intros [[H1|?] [H2|?]] _; try done. apply dle_false in H2; [done|by apply is_nan_false|done].
    - intros H. specialize (H eq_refl). destruct x as [| |q|]; try done; (split; [by left|left]); try done.
      by apply (dle_false (Fin q) dzero). }
  rewrite !check_seq_ok, !check_ok. rewrite <- Logic.and_assoc, Hx. destruct t as [t|].
  - rewrite check_ok, andb_false_iff, negb_false_iff. split.
    + intros [H1 H2] _. split; [done|]. exists t. split; [done|]. intros ->. by destruct H2.
    + intros H. destruct (H eq_refl) as [H1 (t' & [= <-] & H2)]. split; [done|]. destruct l; [left; auto|by right].
  - split; [by intros [_ ?]|]. intros H. by destruct (H eq_refl) as [_ (t' & ? & _)].
Qed.
Lemma checkPhase_ok m x r t : checkPhaseRegulation m x r t = Ok tt <->
  (r = true -> m <> FIXED_TAP /\ defined x /\ t <> None) /\ (forall t', t = Some t' -> t_here t' = true).
Proof.
  unfold checkPhaseRegulation. rewrite check_seq_ok.
  assert (forall A B C D : Prop, (A <-> C) -> (B <-> D) -> (A /\ B <-> C /\ D)) as Hi by tauto. apply Hi.
  - destruct r; [|done]. rewrite !check_seq_ok, !check_ok, !andb_false_iff, !bool_decide_eq_false. split.
    + intros (H1 & H2 & H3) _. split; [done|]. split.
      * destruct H1 as [H1|H1]; [by destruct H1|]. by apply is_nan_false.
      * by destruct H2 as [H2|H2].
    + intros H. destruct (H eq_refl) as (H1 & H2 & H3). rewrite is_nan_false. auto.
  - destruct t as [t|]; [|split; [intros _ t' ?; done|done]]. rewrite check_ok, negb_false_iff. split.
    + by intros H t' [= <-].
    + intros H. by apply H.
Qed.

(** ** Invariants *)
(** Tap position in range. *)
Definition tap_ok (s : tsh) (v : tvar) : Prop := (ts_low s <= tv_tap v <= tc_high s)%Z.
(** Regulation of a ratio tap changer completely configured. *)
Definition deadband_ok (v : tvar) : Prop := (tv_reg v = true -> defined (tv_db v)) /\ (tv_db v = NaN \/ non_negative (tv_db v)).
Definition ratio_ok (s : tsh) (v : tvar) : Prop :=
  deadband_ok v /\
  (tv_reg v = true -> exists t, ts_term s = Some t /\
     (ts_ltc s = true -> positive (tv_val v) /\ t_here t = true)).
Definition phase_ok (s : tsh) (v : tvar) : Prop :=
  deadband_ok v /\ (forall t, ts_term s = Some t -> t_here t = true) /\
  (tv_reg v = true -> ts_mode s <> FIXED_TAP /\ defined (tv_val v) /\ ts_term s <> None).

Lemma seq_Ok {A} (r : result unit) (r' : result A) a : (r ;;+ r') = Ok a -> r = Ok tt /\ r' = Ok a.
Proof. destruct r as [[]| | |]; simpl; done. Qed.

Lemma adder_ok s tap reg db val v : tc_adder_checks s tap reg db val = Ok v ->
  tap = Some (tv_tap v) /\ v = mkTv (tv_tap v) reg db val /\ tap_ok s v /\
  match ts_kind s with Ratio => ratio_ok s v | Phase => phase_ok s v end.
Proof.
  unfold tc_adder_checks. destruct tap as [p|]; [|done]. intros (_ & H)%seq_Ok. apply seq_Ok in H as [H1%checkTap_ok H].
  apply seq_Ok in H as [H2 H]. apply seq_Ok in H as [H3%checkDb_ok H]. injection H as <-. simpl. split; [done|]. split; [done|].
  split; [done|]. destruct (ts_kind s).
  - rewrite checkRatio_ok in H2. split; [done|]. simpl. intros Hr. destruct (H2 Hr) as [H4 (t & H5 & H6)]. exists t. auto.
  - rewrite checkPhase_ok in H2. destruct H2 as [H4 H5]. split; [done|]. auto.
Qed.

(** ** Preservation *)
(** The operations of C15 under which the range is kept: setLowTapPosition when the tap changer has one variant, the working
    one (or when it changes nothing). *)
Definition low_safe (st : est tsh tvar) (o : eop tcall) : Prop :=
  match o with
  | ECall (TSetLow l) => l = ts_low (e_sh st) \/ (e_cur st <> None /\ forall id, is_Some (e_vars st !! id) -> e_cur st = Some id)
  | _ => True
  end.

Lemma tap_ok_keeps c st : ewf st -> everywhere tap_ok st -> low_safe st (ECall c) -> everywhere tap_ok (tc_call c st).2.
Proof.
  intros W E Hs. destruct c as [p|l|b|d|t|x|b|md].
  - apply run_setter_inv; [done|apply (tcall_no_ub (TSetTap p))|done|]. simpl. intros i v v' _ _ _ (H%checkTap_ok & [= <-])%seq_Ok. done.
  - simpl in Hs |- *. destruct (tc_set_low_cases l st W) as [(i & v & Hc & Hv & ->)|(Hc & m & ->)]; intros id w; simpl.
    + intros [[<- <-]|[Hne Hw]]%lookup_insert_Some.
      * pose proof (E _ _ Hv) as H. unfold tap_ok, tc_high in *. simpl in *. lia.
      * pose proof (E _ _ Hw) as H. destruct Hs as [->|[_ Hs]]; [done|]. specialize (Hs id (ex_intro _ w Hw)). congruence.
    + intros Hw. pose proof (E _ _ Hw) as H. destruct Hs as [->|[? _]]; done.
  - apply run_setter_inv; [done|apply (tcall_no_ub (TSetReg b))|done|]. simpl. intros i v v' _ _ H (_ & (_ & [= <-])%seq_Ok)%seq_Ok. done.
  - apply run_setter_inv; [done|apply (tcall_no_ub (TSetDb d))|done|]. simpl. intros i v v' _ _ H (_ & [= <-])%seq_Ok. done.
  - apply run_setter_inv; [done|apply (tcall_no_ub (TSetTerm t))|done|]. simpl. intros i v s' _ _ (_ & (_ & [= <-])%seq_Ok)%seq_Ok id w _ H. done.
  - apply run_setter_inv; [done|apply (tcall_no_ub (TSetVal x))|done|]. simpl. intros i v v' _ _ H (_ & [= <-])%seq_Ok. done.
  - apply run_setter_inv; [done|apply (tcall_no_ub (TSetLtc b))|done|]. simpl. intros i v s' _ _ (_ & [= <-])%seq_Ok id w _ H. done.
  - apply run_setter_inv; [done|apply (tcall_no_ub (TSetMode md))|done|]. simpl. intros i v s' _ _ (_ & [= <-])%seq_Ok id w _ H. done.
Qed.

Definition regulates_somewhere (st : est tsh tvar) : Prop := exists id v, e_vars st !! id = Some v /\ tv_reg v = true.
Definition regulates_elsewhere (st : est tsh tvar) : Prop := exists id v, e_vars st !! id = Some v /\ e_cur st <> Some id /\ tv_reg v = true.
(** Ratio tap changers: the load tap changing capability is not switched on while a variant regulates; the terminal is not
    removed or moved while another variant regulates. *)
Definition ratio_safe (st : est tsh tvar) (o : eop tcall) : Prop :=
  match o with
  | ECall (TSetLtc b) => b = true -> ts_ltc (e_sh st) = false -> ~ regulates_somewhere st
  | ECall (TSetTerm t) => t = None -> ~ regulates_elsewhere st
  | ECall (TSetMode _) => False
  | _ => True
  end.
(** Phase tap changers: regulation is switched on only when fully configured; the mode and the terminal are not changed to
    "no regulation" while another variant regulates. *)
Definition phase_safe (st : est tsh tvar) (o : eop tcall) : Prop :=
  match o with
  | ECall (TSetReg b) => b = true -> ts_mode (e_sh st) <> FIXED_TAP /\ ts_term (e_sh st) <> None /\
      forall i v, e_cur st = Some i -> e_vars st !! i = Some v -> defined (tv_val v)
  | ECall (TSetTerm t) => t = None -> ~ regulates_elsewhere st
  | ECall (TSetMode m) => m = FIXED_TAP -> ~ regulates_elsewhere st
  | ECall (TSetLtc _) => False
  | _ => True
  end.
Definition kind_is (k : tkind) (s : tsh) (v : tvar) : Prop := ts_kind s = k.

Lemma ratio_keeps c st : ewf st -> everywhere (fun s v => kind_is Ratio s v /\ ratio_ok s v) st -> ratio_safe st (ECall c) ->
  everywhere (fun s v => kind_is Ratio s v /\ ratio_ok s v) (tc_call c st).2.
Proof.
  intros W E Hs. destruct c as [p|l|b|d|t|x|b|md].
  - apply run_setter_inv; [done|apply (tcall_no_ub (TSetTap p))|done|]. simpl. intros i v v' _ _ H (_ & [= <-])%seq_Ok. done.
  - simpl. destruct (tc_set_low_cases l st W) as [(i & v & Hc & Hv & ->)|(Hc & m & ->)]; intros id w; simpl.
    + intros [[<- <-]|[Hne Hw]]%lookup_insert_Some; [exact (E _ _ Hv)|exact (E _ _ Hw)].
    + intros Hw. exact (E _ _ Hw).
  - apply run_setter_inv; [done|apply (tcall_no_ub (TSetReg b))|done|]. simpl. intros i v v' _ _ [K [H1 H2]].
    unfold kind_is in K. rewrite K. intros (H3 & (H4%checkDb_ok & [= <-])%seq_Ok)%seq_Ok. rewrite checkRatio_ok in H3. split; [done|].
    split; [done|]. simpl. intros Hb. destruct (H3 Hb) as [H5 (t & H6 & H7)]. exists t. auto.
  - apply run_setter_inv; [done|apply (tcall_no_ub (TSetDb d))|done|]. simpl. intros i v v' _ _ [K [H1 H2]] (H3%checkDb_ok & [= <-])%seq_Ok.
    done.
  - apply run_setter_inv; [done|apply (tcall_no_ub (TSetTerm t))|done|]. simpl. intros i v s' Hc Hv.
    pose proof (E _ _ Hv) as [K _]. unfold kind_is in K. rewrite K. unfold base_set_term.
    intros (H3 & (H4 & [= <-])%seq_Ok)%seq_Ok id w Hw [_ [H1 H2]]. rewrite checkRatio_ok in H3. split; [done|]. split; [done|]. simpl.
    intros Hr. destruct (H2 Hr) as (t0 & H5 & H6).
    destruct t as [t|]; [|exfalso].
    + exists t. split; [done|]. intros Hl. split; [by apply H6|]. apply check_ok in H4. by apply negb_false_iff in H4.
    + apply (Hs eq_refl). exists id, w. split; [done|]. split; [|done]. intros Hc'. assert (id = i) as -> by congruence.
      assert (w = v) as -> by congruence. destruct (H3 Hr) as [_ (t' & ? & _)]. done.
  - apply run_setter_inv; [done|apply (tcall_no_ub (TSetVal x))|done|]. simpl. intros i v v' _ _ [K [H1 H2]].
    unfold kind_is in K. rewrite K. intros (H3 & [= <-])%seq_Ok. rewrite checkRatio_ok in H3. split; [done|]. split; [done|]. simpl.
    intros Hr. destruct (H3 Hr) as [H5 (t & H6 & H7)]. exists t. auto.
  - apply run_setter_inv; [done|apply (tcall_no_ub (TSetLtc b))|done|]. simpl in *. intros i v s' Hc Hv.
    intros (H3 & [= <-])%seq_Ok id w Hw [K [H1 H2]]. rewrite checkRatio_ok in H3. split; [done|]. split; [done|]. simpl.
    intros Hr. destruct (H2 Hr) as (t0 & H5 & H6). exists t0. split; [done|]. intros ->.
    destruct (ts_ltc (e_sh st)) eqn:El; [by apply H6|]. exfalso. apply Hs; [done|done|]. by exists id, w.
  - done.
Qed.

Lemma phase_keeps c st : ewf st -> everywhere (fun s v => kind_is Phase s v /\ phase_ok s v) st -> phase_safe st (ECall c) ->
  everywhere (fun s v => kind_is Phase s v /\ phase_ok s v) (tc_call c st).2.
Proof.
  intros W E Hs. destruct c as [p|l|b|d|t|x|b|md].
  - apply run_setter_inv; [done|apply (tcall_no_ub (TSetTap p))|done|]. simpl. intros i v v' _ _ H (_ & [= <-])%seq_Ok. done.
  - simpl. destruct (tc_set_low_cases l st W) as [(i & v & Hc & Hv & ->)|(Hc & m & ->)]; intros id w; simpl.
    + intros [[<- <-]|[Hne Hw]]%lookup_insert_Some; [exact (E _ _ Hv)|exact (E _ _ Hw)].
    + intros Hw. exact (E _ _ Hw).
  - apply run_setter_inv; [done|apply (tcall_no_ub (TSetReg b))|done|]. simpl in *. intros i v v' Hc Hv [K (H1 & H2 & H3)].
    intros (_ & (H4%checkDb_ok & [= <-])%seq_Ok)%seq_Ok. split; [done|]. split; [done|]. split; [done|]. simpl.
    intros ->. destruct (Hs eq_refl) as (H5 & H6 & H7). split; [done|]. split; [by eapply H7|done].
  - apply run_setter_inv; [done|apply (tcall_no_ub (TSetDb d))|done|]. simpl. intros i v v' _ _ [K (H1 & H2 & H3)] (H4%checkDb_ok & [= <-])%seq_Ok.
    done.
  - apply run_setter_inv; [done|apply (tcall_no_ub (TSetTerm t))|done|]. simpl. intros i v s' Hc Hv.
    pose proof (E _ _ Hv) as [K _]. unfold kind_is in K. rewrite K. unfold base_set_term.
    intros (H3%checkPhase_ok & (H4 & [= <-])%seq_Ok)%seq_Ok id w Hw [_ (H1 & H2 & H5)]. split; [done|]. split; [done|]. simpl.
    destruct H3 as [H3 H3']. split; [done|].
    intros Hr. destruct (H5 Hr) as (H6 & H7 & H8). split; [done|]. split; [done|]. intros ->.
    apply (Hs eq_refl). exists id, w. split; [done|]. split; [|done]. intros Hc'. assert (id = i) as -> by congruence.
    assert (w = v) as -> by congruence. by destruct (H3 Hr) as (_ & _ & ?).
  - apply run_setter_inv; [done|apply (tcall_no_ub (TSetVal x))|done|]. simpl. intros i v v' _ _ [K (H1 & H2 & H5)].
    unfold kind_is in K. rewrite K. intros (H3%checkPhase_ok & [= <-])%seq_Ok. destruct H3 as [H3 H3']. done.
  - done.
  - apply run_setter_inv; [done|apply (tcall_no_ub (TSetMode md))|done|]. simpl in *. intros i v s' Hc Hv.
    intros (H3%checkPhase_ok & [= <-])%seq_Ok id w Hw [K (H1 & H2 & H5)]. destruct H3 as [H3 H3']. split; [done|]. split; [done|].
    split; [done|]. simpl.
    intros Hr. destruct (H5 Hr) as (H6 & H7 & H8). split; [|done]. intros ->.
    apply (Hs eq_refl). exists id, w. split; [done|]. split; [|done]. intros Hc'. assert (id = i) as -> by congruence.
    assert (w = v) as -> by congruence. by destruct (H3 Hr) as (? & _ & _).
Qed.
