From Verif Require Import Equip TapChanger TapChangerProofs.

(** Creation of a tap changer: the values accepted by the adder. *)
Definition tc_init (s : tsh) (v : tvar) : Prop := exists tap reg db val, tc_adder_checks s tap reg db val = Ok v.
(** A transformer is created without tap changer. *)
Definition x_init (s : gmap nat tsh) (m : gmap nat tvar) : Prop := s = ∅ /\ m = ∅.
(** Each slot is filled in a variant exactly if it has a tap changer. *)
Definition same_slots (s : gmap nat tsh) (m : gmap nat tvar) : Prop := forall k, is_Some (m !! k) <-> is_Some (s !! k).

Lemma xunfocus_vars k (st : xst) st1 id : e_vars (xunfocus k st st1) !! id =
  match e_vars st !! id with
  | Some m => Some (match e_vars st1 !! id with Some v => <[k := v]> m | None => m end)
  | None => None
  end.
Proof. unfold xunfocus. simpl. rewrite map_lookup_imap. by destruct (e_vars st !! id). Qed.
Lemma xunfocus_cur k (st : xst) st1 : e_cur (xunfocus k st st1) = e_cur st.
Proof. done. Qed.

Lemma xunfocus_sh k (st : xst) st1 : e_sh (xunfocus k st st1) = <[k := e_sh st1]> (e_sh st).
Proof. done. Qed.
Local Opaque xunfocus.

Lemma alift_cases {S V A} (r : result A) (st : est S V) : alift r st = (r, st).
Proof. done. Qed.

(** The reading part of the adder leaves the state as it is. *)
Lemma xwas_state k st : (xwas k st).2 = st.
Proof.
  unfold xwas, abind, ashared, aget, aindex, abind, aret. destruct (e_sh st !! k); [|done]. destruct (e_cur st) as [i|]; [|done].
  by destruct (e_vars st !! i).
Qed.
Lemma xcount_state st : (xcount st).2 = st.
Proof.
  unfold xcount, abind, ashared, aget, aindex, abind, aret. destruct (bool_decide _); [done|]. destruct (e_cur st) as [i|]; [|done].
  by destruct (e_vars st !! i).
Qed.
Lemma xadd_cases k s tap reg db val (st : xst) :
  (exists v was n, tc_adder_checks s tap reg db val = Ok v /\ xwas k st = (Ok was, st) /\ xcount st = (Ok n, st) /\
     (reg = true -> n - (if was then 1 else 0) = 0) /\
     x_call (XAdd k s tap reg db val) st =
       (Ok tt, mkE (<[k := s]> (e_sh st)) ((fun m : gmap nat tvar => <[k := v]> m) <$> e_vars st) (e_cur st))) \/
  (exists r, x_call (XAdd k s tap reg db val) st = (r, st) /\ r <> Ok tt).
Proof.
  pose proof (xwas_state k st) as H1. pose proof (xcount_state st) as H2. cbn [x_call]. unfold abind, alift, aif.
  destruct (tc_adder_checks s tap reg db val) as [v|e| |]; [|right; eauto..].
  destruct (xwas k st) as [[was|e| |] st'] eqn:E1; simpl in H1; subst st'; [|right; eauto..].
  destruct (xcount st) as [[n|e| |] st'] eqn:E2; simpl in H2; subst st'; [|right; eauto..].
  destruct (reg && bool_decide (0 < n - (if was then 1 else 0))) eqn:E3; unfold athrow, aret; [right; eauto|].
  left. exists v, was, n. split; [done|]. split; [done|]. split; [done|]. split; [|done].
  intros ->. simpl in E3. apply bool_decide_eq_false in E3. lia.
Qed.

Lemma x_keeps c (st : xst) : keeps_variants st (x_call c st).2.
Proof.
  destruct c as [k c|k s tap reg db val|k].
  - simpl. destruct (xfocus k st) as [st1|]; [|done]. split; [simpl; apply xunfocus_cur|]. intros id. simpl. rewrite xunfocus_vars.
    by destruct (e_vars st !! id); simpl; split; intros [? ?]; eauto.
  - destruct (xadd_cases k s tap reg db val st) as [(v & was & n & _ & _ & _ & _ & ->)|(r & -> & _)]; [|done].
    split; [done|]. intros id. simpl. by rewrite lookup_fmap, fmap_is_Some.
  - simpl. destruct (e_sh st !! k); [|done]. split; [done|]. intros id. simpl. by rewrite lookup_fmap, fmap_is_Some.
Qed.

Lemma xslots_keeps c (st : xst) : ewf st -> everywhere same_slots st -> everywhere same_slots (x_call c st).2.
Proof.
  intros W E. destruct c as [k c|k s tap reg db val|k].
  - simpl. destruct (xfocus k st) as [st1|] eqn:F; [|done]. unfold xfocus in F. destruct (e_sh st !! k) as [s|] eqn:Hk; [|done].
    intros id m. cbn [snd]. rewrite xunfocus_vars. destruct (e_vars st !! id) as [m0|] eqn:Hm; [|done]. intros [= <-]. intros k'. simpl. rewrite xunfocus_sh.
    pose proof (E _ _ Hm k') as Hd. destruct (decide (k = k')) as [<-|Hne].
    + rewrite lookup_insert. destruct (e_vars (tc_call c st1).2 !! id); [rewrite lookup_insert; split; eauto|]. split; eauto. intros _. apply Hd. eauto.
    + rewrite (lookup_insert_ne (e_sh st)) by done. destruct (e_vars (tc_call c st1).2 !! id); [|done]. by rewrite lookup_insert_ne.
  - destruct (xadd_cases k s tap reg db val st) as [(v & was & n & _ & _ & _ & _ & ->)|(r & -> & _)]; [|done].
    intros id m. simpl. rewrite lookup_fmap. intros (m0 & Hm & ->)%fmap_Some. intros k'. pose proof (E _ _ Hm k') as Hd.
    destruct (decide (k = k')) as [<-|Hne]; [rewrite !lookup_insert; split; eauto|by rewrite !lookup_insert_ne].
  - simpl. destruct (e_sh st !! k) eqn:Hk; [|done].
    intros id m. simpl. rewrite lookup_fmap. intros (m0 & Hm & ->)%fmap_Some. intros k'. pose proof (E _ _ Hm k') as Hd.
    destruct (decide (k = k')) as [<-|Hne]; [rewrite !lookup_delete; split; intros [? ?]; done|by rewrite !lookup_delete_ne].
Qed.

Lemma x_wf safe st : ereach x_call x_init safe st -> ewf st /\ everywhere same_slots st.
Proof.
  apply ereach_inv.
  - intros s v [-> ->] k. rewrite !lookup_empty. split; intros [? ?]; done.
  - intros c st' _. apply x_keeps.
  - intros c st' W E _. by apply xslots_keeps.
Qed.

(** ** A tap changer of a reachable transformer is a reachable tap changer *)
Definition xproj (k : nat) (s : tsh) (st : xst) : est tsh tvar := mkE s (omap (fun m : gmap nat tvar => m !! k) (e_vars st)) (e_cur st).
Lemma xproj_vars k s st id : e_vars (xproj k s st) !! id = e_vars st !! id ≫= (fun m : gmap nat tvar => m !! k).
Proof. simpl. apply lookup_omap. Qed.
Lemma xfocus_proj k st st1 : xfocus k st = Some st1 <-> exists s, e_sh st !! k = Some s /\ st1 = xproj k s st.
Proof.
  unfold xfocus, xproj. destruct (e_sh st !! k) as [s|].
  - split; [intros [= <-]; eauto|]. by intros (s' & [= <-] & ->).
  - split; [done|]. by intros (s' & ? & _).
Qed.
Lemma xproj_var k s st id m : everywhere same_slots st -> e_sh st !! k = Some s -> e_vars st !! id = Some m ->
  exists v, m !! k = Some v /\ e_vars (xproj k s st) !! id = Some v.
Proof.
  intros E Hk Hm. destruct (proj2 (E _ _ Hm k) ltac:(eauto)) as [v Hv]. exists v. split; [done|]. by rewrite xproj_vars, Hm.
Qed.
Lemma xproj_dom k s st id : everywhere same_slots st -> e_sh st !! k = Some s ->
  is_Some (e_vars (xproj k s st) !! id) <-> is_Some (e_vars st !! id).
Proof.
  intros E Hk. split.
  - rewrite xproj_vars. destruct (e_vars st !! id); [eauto|]. by intros [? ?].
  - intros [m Hm]. destruct (xproj_var _ _ _ _ _ E Hk Hm) as (v & _ & ->). eauto.
Qed.
Lemma est_eq {S V} (a b : est S V) : e_sh a = e_sh b -> (forall id, e_vars a !! id = e_vars b !! id) -> e_cur a = e_cur b -> a = b.
Proof. destruct a, b. simpl. intros -> H ->. f_equal. by apply map_eq. Qed.

Lemma xproj_wf k s st : ewf st -> everywhere same_slots st -> e_sh st !! k = Some s -> ewf (xproj k s st).
Proof.
  intros [W1 W2] E Hk. split; [by apply xproj_dom|]. intros id Hid. apply xproj_dom; [done|done|]. by apply W2.
Qed.

Lemma x_focus_reach safe st k st1 : ereach x_call x_init safe st -> xfocus k st = Some st1 ->
  ereach tc_call tc_init always st1.
Proof.
  intros R. revert k st1. induction R as [s v st [-> ->] C|st o R IH Hs]; intros k st1 F.
  - apply xfocus_proj in F as (s & Hk & _). destruct C as [C _]. rewrite C in Hk. done.
  - destruct (x_wf _ _ R) as [W E].
    assert (forall st', (forall k, e_sh st' !! k = e_sh st !! k) -> st' = st -> xfocus k st' = Some st1 -> ereach tc_call tc_init always st1) as Hsame.
    { intros st' _ -> F'. by eapply IH. }
    destruct o as [c|src tgt ow|id|id].
    + simpl in F. destruct c as [k' c|k' s tap reg db val|k'].
      * simpl in F. destruct (xfocus k' st) as [st2|] eqn:F2; [|by eapply IH]. simpl in F.
        apply xfocus_proj in F2 as (s2 & Hk2 & ->). apply xfocus_proj in F as (s & Hk & ->). rewrite xunfocus_sh in Hk.
        pose proof (xproj_wf k' s2 st W E Hk2) as W2.
        destruct (decide (k' = k)) as [->|Hne].
        -- rewrite lookup_insert in Hk. injection Hk as <-.
           assert (xproj k (e_sh (tc_call c (xproj k s2 st)).2) (xunfocus k st (tc_call c (xproj k s2 st)).2) = (tc_call c (xproj k s2 st)).2) as ->.
           { destruct (tc_call_keeps c _ W2) as [K1 K2]. apply est_eq; [done| |by simpl; rewrite K1].
             intros id. rewrite xproj_vars, xunfocus_vars. destruct (e_vars st !! id) as [m|] eqn:Hm.
             - destruct (e_vars (tc_call c (xproj k s2 st)).2 !! id) as [v|] eqn:Hv; simpl; [by rewrite lookup_insert|].
               destruct (proj2 (K2 id)) as [v Hv']; [|congruence]. apply xproj_dom; eauto.
             - simpl. destruct (e_vars (tc_call c (xproj k s2 st)).2 !! id) as [v|] eqn:Hv; [|done].
               destruct (proj1 (xproj_dom k s2 st id E Hk2)) as [m Hm']; [|congruence]. apply K2. eauto. }
           apply (er_step tc_call tc_init always (xproj k s2 st) (ECall c)); [|done]. apply (IH k). apply xfocus_proj. eauto.
        -- rewrite lookup_insert_ne in Hk by done. apply (IH k). apply xfocus_proj. exists s. split; [done|].
           apply est_eq; [done| |done]. intros id. rewrite !xproj_vars, xunfocus_vars.
           destruct (e_vars st !! id) as [m|]; [|done]. simpl. destruct (e_vars _ !! id); [|done]. by rewrite lookup_insert_ne.
      * destruct (xadd_cases k' s tap reg db val st) as [(v & was & n & A & _ & _ & _ & E')|(r & E' & _)]; rewrite E' in F; [|by eapply IH].
        simpl in F. apply xfocus_proj in F as (s' & Hk & ->). simpl in Hk.
        destruct (decide (k' = k)) as [->|Hne].
        -- rewrite lookup_insert in Hk. injection Hk as <-. apply (er_new _ _ _ s v); [by exists tap, reg, db, val|].
           assert (forall id, e_vars (xproj k s (mkE (<[k:=s]> (e_sh st)) ((fun m : gmap nat tvar => <[k:=v]> m) <$> e_vars st) (e_cur st))) !! id =
                    (fun _ => v) <$> e_vars st !! id) as Hl.
           { intros id. rewrite xproj_vars. simpl. rewrite lookup_fmap. destruct (e_vars st !! id) as [m|]; [|done]. simpl. by rewrite lookup_insert. }
           split; [done|]. split; [|split].
           ++ intros id w. rewrite Hl. by intros (m & _ & ->)%fmap_Some.
           ++ rewrite Hl. apply fmap_is_Some. exact (proj1 W).
           ++ intros id Hid. rewrite Hl. apply fmap_is_Some. exact (proj2 W id Hid).
        -- rewrite lookup_insert_ne in Hk by done. apply (IH k). apply xfocus_proj. exists s'. split; [done|].
           apply est_eq; [done| |done]. intros id. rewrite !xproj_vars. simpl. rewrite lookup_fmap.
           destruct (e_vars st !! id) as [m|]; [|done]. simpl. by rewrite lookup_insert_ne.
      * simpl in F. destruct (e_sh st !! k') as [s'|] eqn:Hk'; [|by eapply IH]. simpl in F.
        apply xfocus_proj in F as (s & Hk & ->). simpl in Hk. apply lookup_delete_Some in Hk as [Hne Hk]. apply (IH k). apply xfocus_proj. exists s. split; [done|].
        apply est_eq; [done| |done]. intros id. rewrite !xproj_vars. simpl. rewrite lookup_fmap.
        destruct (e_vars st !! id) as [m|]; [|done]. simpl. by rewrite lookup_delete_ne.
    + simpl in F. destruct (e_vars st !! src) as [m|] eqn:Hsrc; [|by eapply IH].
      destruct (bool_decide (is_Some (e_vars st !! tgt)) && negb ow) eqn:Hb; [by eapply IH|]. simpl in F.
      apply xfocus_proj in F as (s & Hk & ->). simpl in Hk. destruct (xproj_var k s st src m E Hk Hsrc) as (v & Hv1 & Hv2).
      pose proof (er_step tc_call tc_init always (xproj k s st) (EClone src tgt ow)) as Hstep. simpl in Hstep.
      simpl in Hv2. rewrite Hv2 in Hstep. rewrite (bool_decide_ext _ _ (xproj_dom k s st tgt E Hk)) in Hstep. rewrite Hb in Hstep. simpl in Hstep.
      match goal with |- ereach _ _ _ ?x => match type of Hstep with _ -> _ -> ereach _ _ _ ?y => assert (x = y) as -> end end.
      { apply est_eq; [done| |done]. intros id. rewrite xproj_vars. simpl. destruct (decide (tgt = id)) as [->|Hne].
        - by rewrite !lookup_insert.
        - rewrite !lookup_insert_ne by done. by rewrite lookup_omap. }
      apply Hstep; [|done]. apply (IH k). apply xfocus_proj. eauto.
    + simpl in F. destruct (bool_decide (id = initial_variant)) eqn:Hb; [by eapply IH|].
      destruct (e_vars st !! id) as [m|] eqn:Hid; [|by eapply IH]. simpl in F.
      apply xfocus_proj in F as (s & Hk & ->). simpl in Hk. destruct (xproj_var k s st id m E Hk Hid) as (v & Hv1 & Hv2).
      pose proof (er_step tc_call tc_init always (xproj k s st) (ERemove id)) as Hstep. simpl in Hstep.
      simpl in Hv2. rewrite Hb, Hv2 in Hstep. simpl in Hstep.
      match goal with |- ereach _ _ _ ?x => match type of Hstep with _ -> _ -> ereach _ _ _ ?y => assert (x = y) as -> end end.
      { apply est_eq; [done| |done]. intros id'. rewrite xproj_vars. simpl. destruct (decide (id = id')) as [->|Hne].
        - by rewrite !lookup_delete.
        - rewrite !lookup_delete_ne by done. by rewrite lookup_omap. }
      apply Hstep; [|done]. apply (IH k). apply xfocus_proj. eauto.
    + simpl in F. destruct (e_vars st !! id) as [m|] eqn:Hid; [|by eapply IH]. simpl in F.
      apply xfocus_proj in F as (s & Hk & ->). simpl in Hk. destruct (xproj_var k s st id m E Hk Hid) as (v & Hv1 & Hv2).
      pose proof (er_step tc_call tc_init always (xproj k s st) (EWork id)) as Hstep. simpl in Hstep.
      simpl in Hv2. rewrite Hv2 in Hstep. simpl in Hstep.
      apply Hstep; [|done]. apply (IH k). apply xfocus_proj. eauto.
Qed.

(** ** At most one regulating tap changer *)
Definition at_most_one (m : gmap nat tvar) : Prop :=
  forall k k' a b, m !! k = Some a -> m !! k' = Some b -> tv_reg a = true -> tv_reg b = true -> k = k'.

Lemma regulating_in_spec m k : k ∈ regulating_in m <-> exists v, m !! k = Some v /\ tv_reg v = true.
Proof.
  unfold regulating_in. rewrite elem_of_list_fmap. split.
  - intros ([k' v] & -> & [Hr Hm]%elem_of_list_filter). apply elem_of_map_to_list in Hm. eauto.
  - intros (v & Hm & Hr). exists (k, v). split; [done|]. apply elem_of_list_filter. split; [done|]. by apply elem_of_map_to_list.
Qed.
Lemma regulating_in_nodup m : NoDup (regulating_in m).
Proof.
  unfold regulating_in. pose proof (NoDup_fst_map_to_list m) as H. induction (map_to_list m) as [|[k v] l IH]; [constructor|].
  simpl in H. apply NoDup_cons in H as [H1 H2]. rewrite filter_cons. destruct (decide _); [|by apply IH]. simpl. constructor; [|by apply IH].
  intros ([k' w] & Hk & [_ Hin]%elem_of_list_filter)%elem_of_list_fmap. simpl in Hk. subst k'. apply H1. apply elem_of_list_fmap. by exists (k, w).
Qed.

(** Which calls of a tap changer may start a regulation. *)
Lemma tc_reg_cases c st id v : ewf st -> e_vars (tc_call c st).2 !! id = Some v ->
  exists v0, e_vars st !! id = Some v0 /\ (tv_reg v = true -> tv_reg v0 = true \/ (c = TSetReg true /\ e_cur st = Some id)).
Proof.
  intros W. destruct c as [p|l|b|d|t|x|b|md];
  try match goal with
  | |- context [tc_call ?c st] =>
    pose proof (tcall_no_ub c) as Hn; simpl in Hn |- *;
    match goal with
    | |- context [upd_var ?f st] => destruct (upd_var_cases f st W Hn) as [(i & v0 & v' & Hc & Hv & Hf & ->)|(m & -> & _)];
        [simpl; intros [[<- <-]|[? ?]]%lookup_insert_Some; [exists v0; split; [done|]|eauto]|simpl; eauto]
    | |- context [upd_sh ?f st] => destruct (upd_sh_cases f st W Hn) as [(i & v0 & v' & Hc & Hv & Hf & ->)|(m & -> & _)]; simpl; eauto
    end
  end.
  - apply seq_Ok in Hf as [_ [= <-]]. by left.
  - simpl. destruct (tc_set_low_cases l st W) as [(i & v0 & Hc & Hv & ->)|(Hc & m & ->)]; simpl; [|eauto].
    intros [[<- <-]|[? ?]]%lookup_insert_Some; [|eauto]. exists v0. split; [done|]. by left.
  - apply seq_Ok in Hf as [_ Hf]. apply seq_Ok in Hf as [_ [= <-]]. simpl. intros ->. by right.
  - apply seq_Ok in Hf as [_ [= <-]]. by left.
  - apply seq_Ok in Hf as [_ [= <-]]. by left.
Qed.

(** The condition under which the rule is kept. *)
Definition one_safe (st : xst) (o : eop xcall) : Prop :=
  match o with
  | ECall (XCall k (TSetReg true)) =>
      forall i m k' w, e_cur st = Some i -> e_vars st !! i = Some m -> k' <> k -> m !! k' = Some w -> tv_reg w = false
  | ECall (XAdd k s tap true db val) =>
      forall id m k' w, e_cur st <> Some id -> e_vars st !! id = Some m -> k' <> k -> m !! k' = Some w -> tv_reg w = false
  | _ => True
  end.

Lemma xone_keeps c (st : xst) : ewf st -> everywhere (fun s m => same_slots s m /\ at_most_one m) st -> one_safe st (ECall c) ->
  everywhere (fun s m => same_slots s m /\ at_most_one m) (x_call c st).2.
Proof.
  intros W E Hs.
  assert (everywhere same_slots st) as E1 by (intros id m Hm; apply (E _ _ Hm)).
  assert (forall id m, e_vars st !! id = Some m -> at_most_one m) as E2 by (intros id m Hm; apply (E _ _ Hm)).
  intros id m Hm. split; [by eapply (xslots_keeps c st W E1)|].
  destruct c as [k c|k s tap reg db val|k].
  - simpl in Hm. destruct (xfocus k st) as [st1|] eqn:F; [|by eapply E2].
    apply xfocus_proj in F as (s & Hk & ->). simpl in Hm. rewrite xunfocus_vars in Hm.
    destruct (e_vars st !! id) as [m0|] eqn:Hm0; [|done]. injection Hm as <-. pose proof (E2 _ _ Hm0) as H1.
    destruct (e_vars (tc_call c (xproj k s st)).2 !! id) as [v|] eqn:Hv; [|done].
    destruct (tc_reg_cases c _ id v (xproj_wf k s st W E1 Hk) Hv) as (v0 & Hv0 & Hr).
    rewrite xproj_vars, Hm0 in Hv0. simpl in Hv0.
    assert (forall k' w, k' <> k -> m0 !! k' = Some w -> tv_reg v = true -> tv_reg w = true -> False) as Hx.
    { intros k' w Hne Hw R1 R2. destruct (Hr R1) as [R0|[-> Hc]].
      - apply Hne. exact (H1 _ _ _ _ Hw Hv0 R2 R0).
      - simpl in Hs, Hc. rewrite (Hs id m0 k' w Hc Hm0 Hne Hw) in R2. done. }
    intros k1 k2 a b Ha Hb Ra Rb.
    destruct (decide (k = k1)) as [<-|N1]; destruct (decide (k = k2)) as [<-|N2]; [done| | |].
    + rewrite lookup_insert in Ha. rewrite lookup_insert_ne in Hb by done. injection Ha as <-. exfalso. by apply (Hx k2 b).
    + rewrite lookup_insert in Hb. rewrite lookup_insert_ne in Ha by done. injection Hb as <-. exfalso. by apply (Hx k1 a).
    + rewrite lookup_insert_ne in Ha by done. rewrite lookup_insert_ne in Hb by done. by apply (H1 k1 k2 a b).
  - destruct (xadd_cases k s tap reg db val st) as [(v & was & n & A & Ew & En & Hc & E')|(r & E' & _)]; rewrite E' in Hm; [|by eapply E2].
    simpl in Hm. rewrite lookup_fmap in Hm. apply fmap_Some in Hm as (m0 & Hm0 & ->). pose proof (E2 _ _ Hm0) as H1.
    apply adder_ok in A as (_ & Av & _). assert (tv_reg v = reg) as Hreg by (by rewrite Av).
    assert (forall k' w, k' <> k -> m0 !! k' = Some w -> tv_reg v = true -> tv_reg w = true -> False) as Hx.
    { intros k' w Hne Hw R1 R2. rewrite Hreg in R1. subst reg. rewrite R1 in Hc, Hs. specialize (Hc eq_refl). simpl in Hs.
      destruct (decide (e_cur st = Some id)) as [Hcur|Hcur]; [|rewrite (Hs id m0 k' w Hcur Hm0 Hne Hw) in R2; done].
      assert (n = length (regulating_in m0)) as ->.
      { revert En. unfold xcount, abind, ashared, aget, aindex, abind, aret. case_bool_decide as He.
        - intros _. exfalso. destruct (proj1 (E1 _ _ Hm0 k') ltac:(eauto)) as [s' Hs']. rewrite He in Hs'. done.
        - rewrite Hcur, Hm0. by intros [= <-]. }
      assert (was = match m0 !! k with Some w => tv_reg w | None => false end) as Hwas.
      { revert Ew. unfold xwas, abind, ashared, aget, aindex, abind, aret. destruct (e_sh st !! k) as [s'|] eqn:Hk.
        - rewrite Hcur, Hm0. by intros [= <-].
        - intros [= <-]. destruct (m0 !! k) eqn:Hk'; [|done]. destruct (proj1 (E1 _ _ Hm0 k) ltac:(eauto)) as [? ?]. congruence. }
      assert (k' ∈ regulating_in m0) as Hin by (apply regulating_in_spec; eauto).
      destruct was.
      - destruct (m0 !! k) as [w0|] eqn:Hk'; [|done]. apply Hne. exact (H1 _ _ _ _ Hw Hk' R2 (eq_sym Hwas)).
      - destruct (regulating_in m0); [by apply elem_of_nil in Hin|]. simpl in Hc. done. }
    intros k1 k2 a b Ha Hb Ra Rb.
    destruct (decide (k = k1)) as [<-|N1]; destruct (decide (k = k2)) as [<-|N2]; [done| | |].
    + rewrite lookup_insert in Ha. rewrite lookup_insert_ne in Hb by done. injection Ha as <-. exfalso. by apply (Hx k2 b).
    + rewrite lookup_insert in Hb. rewrite lookup_insert_ne in Ha by done. injection Hb as <-. exfalso. by apply (Hx k1 a).
    + rewrite lookup_insert_ne in Ha by done. rewrite lookup_insert_ne in Hb by done. by apply (H1 k1 k2 a b).
  - simpl in Hm. destruct (e_sh st !! k); [|by eapply E2]. simpl in Hm. rewrite lookup_fmap in Hm. apply fmap_Some in Hm as (m0 & Hm0 & ->).
    pose proof (E2 _ _ Hm0) as H1. intros k1 k2 a b [_ Ha]%lookup_delete_Some [_ Hb]%lookup_delete_Some Ra Rb. by apply (H1 k1 k2 a b).
Qed.
