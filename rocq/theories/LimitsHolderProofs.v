From Coq Require Import Lqa.
From Verif Require Import Equip SettersProofs Limits LimitsProofs LimitsHolder LimitsHolderSpec.

(** ** The checks *)
Lemma permanent_ok x : checkPermanentLimit x = Ok tt <-> x = NaN \/ positive x.
Proof.
  unfold checkPermanentLimit. rewrite check_ok. destruct x as [| |q|]; simpl; try (split; [by auto|done]); try (split; [by right|done]); try (split; [done|by intros [?|[]]]).
  unfold positive, qleb. simpl. rewrite <- not_true_iff_false, Qle_bool_iff. split; [intros H; right; lra|]. intros [?|?]; [done|lra].
Qed.
Lemma permanent_cases x : (checkPermanentLimit x = Ok tt /\ (x = NaN \/ positive x)) \/ (exists m, checkPermanentLimit x = Throw m) /\ ~ (x = NaN \/ positive x).
Proof.
  rewrite <- permanent_ok. unfold checkPermanentLimit, check. match goal with |- context [if ?b then _ else _] => destruct b end; [right|left]; split; eauto.
Qed.
Lemma add_cases l : (limits_add l = Ok l /\ acceptable l) \/ (exists m, limits_add l = Throw m) /\ ~ acceptable l.
Proof.
  unfold limits_add, acceptable. destruct (permanent_cases (l_perm l)) as [[-> H]|[[m ->] H]]; [|right; split; [eauto|tauto]].
  destruct (check_names_throw (l_temp l) []) as [E|[m E]]; rewrite E; simpl.
  - left. split; [done|]. split; [done|]. by apply check_names_ok in E as [? _].
  - right. split; [eauto|]. intros [_ D]. assert (check_names [] (l_temp l) = Ok tt) as E'; [|congruence]. apply check_names_ok. split; [done|]. intros t _ ?%elem_of_nil. done.
Qed.

(** ** The maps *)
Lemma rank_inj t u : ltype_rank t = ltype_rank u -> t = u.
Proof. by destruct t, u. Qed.
Definition lm_sorted (m : lmap) : Prop := StronglySorted (fun x y => ltype_rank x.1 < ltype_rank y.1) m.
Lemma lm_find_above t m : Forall (fun y => ltype_rank t < ltype_rank y.1) m -> lm_find t m = None.
Proof. induction 1 as [|[u a] m H _ IH]; [done|]. simpl in *. rewrite bool_decide_false; [done|]. intros <-. lia. Qed.
Lemma lm_set_find t a m u : lm_sorted m -> lm_find u (lm_set t a m) = if decide (u = t) then Some a else lm_find u m.
Proof.
  induction m as [|[v b] m IH]; intros S; simpl.
  - case_bool_decide as H; case_decide; congruence.
  - apply StronglySorted_inv in S as [S F]. destruct (Nat.ltb_spec (ltype_rank v) (ltype_rank t)) as [H1|H1]; simpl.
    + case_bool_decide as H2; [|by apply IH]. subst v. rewrite decide_False; [done|]. intros ->. lia.
    + destruct (Nat.ltb_spec (ltype_rank t) (ltype_rank v)) as [H2|H2]; simpl.
      * case_bool_decide as H3; case_decide as H4; done || congruence.
      * assert (t = v) as <- by (apply rank_inj; lia). case_bool_decide as H3; case_decide as H4; done.
Qed.
Lemma lm_set_bound t a m k : k < ltype_rank t -> Forall (fun y => k < ltype_rank y.1) m -> Forall (fun y => k < ltype_rank y.1) (lm_set t a m).
Proof.
  intros Ht. induction 1 as [|[u b] m Hu F IH]; simpl in *; [by repeat constructor|].
  destruct (Nat.ltb_spec (ltype_rank u) (ltype_rank t)); [by constructor|]. destruct (Nat.ltb_spec (ltype_rank t) (ltype_rank u)); repeat constructor; auto.
Qed.
Lemma lm_set_sorted t a m : lm_sorted m -> lm_sorted (lm_set t a m).
Proof.
  unfold lm_sorted. induction m as [|[v b] m IH]; intros S; simpl; [by repeat constructor|].
  apply StronglySorted_inv in S as [S F]. destruct (Nat.ltb_spec (ltype_rank v) (ltype_rank t)) as [H1|H1].
  - constructor; [by apply IH|]. by apply lm_set_bound.
  - destruct (Nat.ltb_spec (ltype_rank t) (ltype_rank v)) as [H2|H2].
    + constructor; [by constructor|]. constructor; [done|]. eapply Forall_impl; [exact F|]. simpl. intros y Hy. lia.
    + assert (t = v) as <- by (apply rank_inj; lia). by constructor.
Qed.
(** A sorted map, listed type by type. *)
Lemma lm_listed m : lm_sorted m -> map snd m = option_list (lm_find LActivePower m) ++ option_list (lm_find LApparentPower m) ++ option_list (lm_find LCurrent m) ++ option_list (lm_find LVoltage m).
Proof.
  unfold lm_sorted. induction m as [|[u a] m IH]; intros S; [done|]. apply StronglySorted_inv in S as [S F]. simpl. rewrite (IH S). simpl in F.
  assert (forall t, ltype_rank t <= ltype_rank u -> lm_find t m = None) as N.
  { intros t Ht. apply lm_find_above. eapply Forall_impl; [exact F|]. simpl. intros y Hy. lia. }
  destruct u; simpl; rewrite ?(N LActivePower), ?(N LApparentPower), ?(N LCurrent), ?(N LVoltage) by (simpl; lia); done.
Qed.

(** ** The invariant *)
Definition lfind (st : lheap) (h : nat) (t : ltype) : option addr := m ← lh_holders st !! h; lm_find t m.
Record lh_inv (n : nat) (ops : list lhop) (st : lheap) : Prop := {
  li_holders h : is_Some (lh_holders st !! h) <-> 1 <= h <= n;
  li_sorted h m : lh_holders st !! h = Some m -> lm_sorted m;
  li_next : created n ops (lh_next st);
  li_below h t a : lfind st h t = Some a -> a < lh_next st;
  li_inj h t h' t' a : lfind st h t = Some a -> lfind st h' t' = Some a -> (h, t) = (h', t');
  li_voltage h : lfind st h LVoltage = None;
  li_objs a o : lh_objs st !! a = Some o -> exists h t, lfind st h (ltype_of t) = Some a;
  li_force h t k l : in_force n ops h t k l <-> lfind st h (ltype_of t) = Some k /\ lh_objs st !! k = Some (mkLO (ltype_of t) l);
  li_alive h t a : lfind st h (ltype_of t) = Some a -> exists l, lh_objs st !! a = Some (mkLO (ltype_of t) l);
}.
Lemma ltype_of_inj t u : ltype_of t = ltype_of u -> t = u.
Proof. by destruct t, u. Qed.
Lemma lh_new_holders n h : lh_holders (lh_new n) !! h = if decide (1 <= h <= n) then Some [] else None.
Proof.
  simpl. case_decide as H.
  - apply elem_of_list_to_map_1.
    + rewrite <- list_fmap_compose. simpl. rewrite list_fmap_id. apply NoDup_seq.
    + apply elem_of_list_fmap. exists h. split; [done|]. apply elem_of_seq. lia.
  - apply not_elem_of_list_to_map_1. rewrite <- list_fmap_compose. simpl. rewrite list_fmap_id. rewrite elem_of_seq. lia.
Qed.
Lemma lh_new_inv n : lh_inv n [] (lh_new n).
Proof.
  assert (forall h t, lfind (lh_new n) h t = None) as N by (intros h t; unfold lfind; rewrite lh_new_holders; by case_decide).
  split.
  - intros h. rewrite lh_new_holders. case_decide; split; intros H'; try done; try eauto. by destruct H'.
  - intros h m. rewrite lh_new_holders. case_decide; [|done]. intros [= <-]. constructor.
  - constructor.
  - intros h t a. by rewrite N.
  - intros h t h' t' a. by rewrite N.
  - intros h. apply N.
  - intros a o. simpl. by rewrite lookup_empty.
  - intros h t k l. rewrite N. split; [inversion 1|by intros [? _]].
  - intros h t a. by rewrite N.
Qed.
Lemma created_fun n ops k k' : created n ops k -> created n ops k' -> k = k'.
Proof. intros H. revert k'. induction H; inversion 1; subst; try tauto; f_equal; by apply IHcreated. Qed.

Lemma add_inv n ops st h t l : lh_inv n ops st -> acceptable l -> 1 <= h <= n ->
  exists st', add_limits h t l st = (Ok (lh_next st), st') /\ lh_inv n (HAdd h t l :: ops) st'.
Proof.
  intros I A Hh. unfold add_limits. destruct (add_cases l) as [[-> _]|[_ []]]; [|done].
  unfold set_operational_limits. destruct (proj2 (li_holders _ _ _ I h) Hh) as [m Hm]. rewrite Hm. eexists. split; [reflexivity|].
  set (a := lh_next st). set (st' := mkLH _ _ _).
  pose proof (li_sorted _ _ _ I _ _ Hm) as Sm.
  assert (forall h' t', lfind st' h' t' = if decide ((h', t') = (h, ltype_of t)) then Some a else lfind st h' t') as Fd.
  { intros h' t'. unfold lfind, st'. cbn [lh_holders]. destruct (decide (h' = h)) as [->|Hn].
    - rewrite lookup_insert, Hm. cbn. rewrite (lm_set_find _ _ _ _ Sm). repeat case_decide; congruence.
    - rewrite lookup_insert_ne by done. rewrite decide_False by congruence. done. }
  assert (lfind st h (ltype_of t) = lm_find (ltype_of t) m) as Eold by (unfold lfind; by rewrite Hm).
  assert (forall k, k <> a -> lfind st h (ltype_of t) <> Some k -> lh_objs st' !! k = lh_objs st !! k) as Ob.
  { intros k Hk Hne. unfold st'. cbn [lh_objs]. rewrite lookup_insert_ne by done. rewrite <- Eold in *. destruct (lfind st h (ltype_of t)) as [old|] eqn:E; [|done].
    apply lookup_delete_ne. congruence. }
  assert (forall k o, k <> a -> lh_objs st' !! k = Some o -> lfind st h (ltype_of t) <> Some k) as Od.
  { intros k o Hk Ho E. unfold st' in Ho. cbn [lh_objs] in Ho. rewrite lookup_insert_ne in Ho by done. rewrite <- Eold, E in Ho. by rewrite lookup_delete in Ho. }
  assert (lh_objs st' !! a = Some (mkLO (ltype_of t) l)) as Oa by (unfold st'; cbn [lh_objs]; apply lookup_insert).
  assert (forall h' t' k, lfind st h' t' = Some k -> k <> a) as Lt by (intros h' t' k E; apply (li_below _ _ _ I) in E; unfold a; lia).
  split.
  - intros h'. unfold st'. cbn [lh_holders]. destruct (decide (h' = h)) as [->|Hn]; [rewrite lookup_insert; split; eauto|]. rewrite lookup_insert_ne by done. apply (li_holders _ _ _ I).
  - intros h' m'. unfold st'. cbn [lh_holders]. destruct (decide (h' = h)) as [->|Hn]; [rewrite lookup_insert; intros [= <-]; by apply lm_set_sorted|]. rewrite lookup_insert_ne by done. apply (li_sorted _ _ _ I).
  - apply cr_add; [apply I|done|done].
  - intros h' t' k. rewrite Fd. unfold st'. cbn [lh_next]. case_decide; [intros [= <-]; lia|]. intros E. apply (li_below _ _ _ I) in E. fold a in E. lia.
  - intros h1 t1 h2 t2 k. rewrite !Fd. repeat case_decide; intros E1 E2; try congruence.
    + injection E1 as <-. by apply Lt in E2.
    + injection E2 as <-. by apply Lt in E1.
    + exact (li_inj _ _ _ I _ _ _ _ _ E1 E2).
  - intros h'. rewrite Fd. rewrite decide_False; [apply (li_voltage _ _ _ I)|]. by destruct t.
  - intros k o Ho. destruct (decide (k = a)) as [->|Hk]; [exists h, t; by rewrite Fd, decide_True|].
    pose proof (Od _ _ Hk Ho) as Hne. rewrite Ob in Ho by done. destruct (li_objs _ _ _ I _ _ Ho) as (h' & t' & E). exists h', t'. rewrite Fd, decide_False; [done|]. congruence.
  - intros h' t' k l'. rewrite Fd. split.
    + inversion 1 as [ops0 h0 t0 l0 k0 A0 H0 C0|ops0 h0 t0 k0 l0 h1 t1 l1 F0 D0|?|?]; subst.
      * rewrite decide_True by done. assert (k = a) as -> by (eapply created_fun; [exact C0|apply I]). done.
      * assert ((h', ltype_of t') <> (h, ltype_of t)) as Hne. { destruct D0 as [D0|D0]; [|done]. intros [= -> E]. apply D0. f_equal. by apply ltype_of_inj in E. }
        rewrite decide_False by done. apply (li_force _ _ _ I) in F0 as [E1 E2]. split; [done|].
        rewrite Ob; [done|by eapply Lt|]. intros E. apply Hne. exact (li_inj _ _ _ I _ _ _ _ _ E1 E).
    + case_decide as Hd; intros [E1 E2].
      * injection E1 as <-. injection Hd as -> E. apply ltype_of_inj in E as ->. rewrite Oa in E2. injection E2 as <-. apply if_new; [done|done|apply I].
      * apply if_kept; [|left; intros [= -> ->]; done]. apply (li_force _ _ _ I). split; [done|].
        rewrite <- Ob; [done|by eapply Lt|]. intros E. apply Hd. exact (li_inj _ _ _ I _ _ _ _ _ E1 E).
  - intros h' t' k. rewrite Fd. case_decide as Hd; intros E.
    + injection E as <-. injection Hd as -> E. rewrite E. eauto.
    + destruct (li_alive _ _ _ I _ _ _ E) as [l' E2]. exists l'. rewrite Ob; [done|by eapply Lt|]. intros E3. apply Hd. exact (li_inj _ _ _ I _ _ _ _ _ E E3).
Qed.
Lemma skip_inv n ops st h t l : lh_inv n ops st -> ~ (acceptable l /\ 1 <= h <= n) -> lh_inv n (HAdd h t l :: ops) st.
Proof.
  intros I A. assert (forall h' t' k l', in_force n (HAdd h t l :: ops) h' t' k l' <-> in_force n ops h' t' k l') as Fo.
  { intros h' t' k l'. split.
    - inversion 1; subst; [tauto|done].
    - intros F. apply if_kept; [done|]. destruct (decide ((h, t) = (h', t'))) as [E|]; [|by left]. injection E as -> ->. right. intros H. apply A. split; [done|].
      apply (li_holders _ _ _ I). apply (li_force _ _ _ I) in F as [F _]. unfold lfind in F. destruct (lh_holders st !! h') as [m|]; [eauto|done]. }
  destruct I. split; auto; [by apply cr_no|]. intros. rewrite Fo. auto.
Qed.
Lemma perm_inv n ops st a x : lh_inv n ops st ->
  lh_inv n (HPermanent a x :: ops) (set_permanent a x st).2 /\
  ((set_permanent a x st).1 = UB <-> forall h t l, ~ in_force n ops h t a l) /\
  (forall h t l, in_force n ops h t a l -> ((set_permanent a x st).1 = Ok tt <-> x = NaN \/ positive x) /\ no_ub (set_permanent a x st).1) /\
  ((set_permanent a x st).1 <> Ok tt -> (set_permanent a x st).2 = st).
Proof.
  intros I. unfold set_permanent. destruct (lh_objs st !! a) as [o|] eqn:Ho.
  - destruct (li_objs _ _ _ I _ _ Ho) as (h & t & E). destruct (li_alive _ _ _ I _ _ _ E) as [l El]. rewrite Ho in El. injection El as ->.
    assert (in_force n ops h t a l) as F by (apply (li_force _ _ _ I); done).
    destruct (permanent_cases x) as [[-> Hx]|[[m ->] Hx]]; cbn [fst snd lo_class lo_limits].
    + set (st' := mkLH _ _ _). split; [|split; [split; [done|intros N; by destruct (N _ _ _ F)]|split; [by intros; split; [done|split]|done]]].
      assert (forall h' t', lfind st' h' t' = lfind st h' t') as Fd by done.
      assert (forall h' t' k l', in_force n (HPermanent a x :: ops) h' t' k l' <-> lfind st' h' (ltype_of t') = Some k /\ lh_objs st' !! k = Some (mkLO (ltype_of t') l')) as Fo.
      { intros h' t' k l'. rewrite Fd. split.
        - inversion 1 as [?|?|ops0 h0 t0 k0 l0 x0 F0 X0|ops0 h0 t0 k0 l0 a0 x0 F0 X0]; subst.
          + apply (li_force _ _ _ I) in F0 as [E1 E2]. split; [done|]. unfold st'. cbn [lh_objs]. rewrite lookup_insert. rewrite Ho in E2. injection E2 as -> ->. done.
          + apply (li_force _ _ _ I) in F0 as [E1 E2]. split; [done|]. destruct X0 as [X0|X0]; [|done]. unfold st'. cbn [lh_objs]. by rewrite lookup_insert_ne.
        - intros [E1 E2]. unfold st' in E2. cbn [lh_objs] in E2. destruct (decide (a = k)) as [<-|Hk].
          + rewrite lookup_insert in E2. injection E2 as E2 <-. apply ltype_of_inj in E2 as <-. apply if_set; [|done].
            apply (li_force _ _ _ I). done.
          + rewrite lookup_insert_ne in E2 by done. apply if_other; [|by left]. by apply (li_force _ _ _ I). }
      destruct I. split; auto.
      * by apply cr_set.
      * intros k o'. unfold st'. cbn [lh_objs]. destruct (decide (a = k)) as [<-|Hk]; [intros _; eauto|]. rewrite lookup_insert_ne by done. eauto.
      * intros h' t' k Ek. unfold st'. cbn [lh_objs]. destruct (decide (a = k)) as [<-|Hk]; [|rewrite lookup_insert_ne by done; eauto].
        rewrite lookup_insert. rewrite Fd in Ek. destruct (li_alive0 _ _ _ Ek) as [l' El]. rewrite Ho in El. injection El as -> ->. eauto.
    + split; [|split; [split; [done|intros N; by destruct (N _ _ _ F)]|split; [by intros; split; [split; [done|tauto]|split]|done]]].
      assert (forall h' t' k l', in_force n (HPermanent a x :: ops) h' t' k l' <-> in_force n ops h' t' k l') as Fo.
      { intros h' t' k l'. split; [inversion 1; subst; [tauto|done]|]. intros F'. apply if_other; [done|by right]. }
      destruct I. split; auto; [by apply cr_set|]. intros. rewrite Fo. auto.
  - cbn [fst snd].
    assert (forall h t l, ~ in_force n ops h t a l) as N by (intros h t l F; apply (li_force _ _ _ I) in F as [_ F]; congruence).
    split; [|split; [done|split; [intros h t l F; by destruct (N _ _ _ F)|done]]].
    assert (forall h' t' k l', in_force n (HPermanent a x :: ops) h' t' k l' <-> in_force n ops h' t' k l') as Fo.
    { intros h' t' k l'. split; [inversion 1; subst; [by edestruct N|done]|]. intros F'. apply if_other; [done|]. left. intros ->. by destruct (N _ _ _ F'). }
    destruct I. split; auto; [by apply cr_set|]. intros. rewrite Fo. auto.
Qed.
Lemma out_of_range n ops st h t l : lh_inv n ops st -> ~ (acceptable l /\ 1 <= h <= n) -> (add_limits h t l st).2 = st.
Proof.
  intros I A. unfold add_limits. destruct (add_cases l) as [[-> H]|[[m ->] H]]; [|done]. unfold set_operational_limits.
  destruct (lh_holders st !! h) as [m|] eqn:E; [|done]. destruct A. split; [done|]. apply (li_holders _ _ _ I). eauto.
Qed.
Global Instance acceptable_dec l : Decision (acceptable l).
Proof. destruct (limits_add l) as [l'|m| |] eqn:E; [left|right|right|right]; destruct (add_cases l) as [[E' H]|[[m' E'] H]]; (done || congruence). Defined.
Lemma lh_run_inv n ops : lh_inv n (rev ops) (lh_run n ops).
Proof.
  unfold lh_run. induction ops as [|o ops IH] using rev_ind; [apply lh_new_inv|]. rewrite fold_left_app, rev_unit. simpl.
  destruct o as [h t l|a x]; simpl.
  - destruct (decide (acceptable l /\ 1 <= h <= n)) as [[A H]|A].
    + destruct (add_inv _ _ _ h t l IH A H) as (st' & -> & I). done.
    + rewrite (out_of_range _ _ _ _ _ _ IH A). by apply skip_inv.
  - by apply perm_inv.
Qed.

(** ** Getters *)
Lemma get_spec n ops st h t : lh_inv n ops st -> 1 <= h <= n ->
  exists r, get_limits h t st = Ok r /\ r = lfind st h (ltype_of t) /\
  forall k l, in_force n ops h t k l <-> r = Some k /\ deref k st = Ok l.
Proof.
  intros I H. unfold get_limits. destruct (proj2 (li_holders _ _ _ I h) H) as [m Hm]. assert (lfind st h (ltype_of t) = lm_find (ltype_of t) m) as E by (unfold lfind; by rewrite Hm).
  rewrite Hm, <- E. destruct (lfind st h (ltype_of t)) as [a|] eqn:Ea.
  - destruct (li_alive _ _ _ I _ _ _ Ea) as [l El]. rewrite El. cbn [lo_class]. rewrite bool_decide_true by done. exists (Some a). split; [done|]. split; [done|].
    intros k l'. rewrite (li_force _ _ _ I), Ea. unfold deref. split.
    + intros [[= <-] E2]. by rewrite E2.
    + intros [[= <-] E2]. split; [done|]. rewrite El in *. cbn in E2. congruence.
  - exists None. split; [done|]. split; [done|]. intros k l. rewrite (li_force _ _ _ I), Ea. split; by intros [? _].
Qed.

(** ** Reactive limits *)
Lemma mm_cases a b : (mm_add a b = Ok (a, b) /\ ele a b) \/ (exists m, mm_add a b = Throw m) /\ ~ ele a b.
Proof.
  unfold mm_add. destruct a as [| |x|], b as [| |y|]; simpl; try (right; split; [by eexists|tauto]); try (left; split; [done|done]).
  destruct (qltb y x) eqn:E; [right|left]; (split; [by eexists || done|]).
  - apply qltb_spec in E. lra.
  - rewrite <- not_true_iff_false in E. destruct (Qlt_le_dec y x) as [H|H]; [|done]. by apply qltb_spec in H.
Qed.
Lemma rh_inv ops : reactive (rev ops) (default (RMinMax NaN NaN) (rh_objs (rh_run ops) !! rh_held (rh_run ops))) /\ is_Some (rh_objs (rh_run ops) !! rh_held (rh_run ops)).
Proof.
  unfold rh_run. induction ops as [|o ops [IH IS]] using rev_ind; [split; [apply re_default|by eexists]|].
  rewrite fold_left_app, rev_unit. cbn [fold_left]. set (st := fold_left rh_step ops rh_new) in *.
  assert (forall x, rh_objs (set_reactive x st) !! rh_held (set_reactive x st) = Some x) as Hs by (intros x; apply lookup_insert).
  destruct o as [a b|c]; cbn [rh_step].
  - destruct (mm_cases a b) as [[-> H]|[[m ->] H]]; [|split; [by apply re_kept|done]]. rewrite Hs. split; [by apply (re_new (RAddMinMax a b))|eauto].
  - unfold ca_add. case_bool_decide as H; cbn [fst]; [split; [|done]; apply re_kept; [simpl; lia|done]|]. rewrite Hs. split; [|eauto]. apply (re_new (RAddCurve c)). simpl. lia.
Qed.
Lemma reactive_fun ops x y : reactive ops x -> reactive ops y -> x = y.
Proof. intros H. revert y. induction H; inversion 1; subst; auto; tauto. Qed.
