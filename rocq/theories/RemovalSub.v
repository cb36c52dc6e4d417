From stdpp Require Import gmap.
From Verif Require Import Base RemovalSpec RemovalProofs RemovalLoops.

(** [n'] is [n] after the loop has dealt with the voltage levels [p]. *)
Record cleared (p : list string) (n n' : rnet) : Prop := {
  k_wf : nwf n';
  k_subs : forall t, r_subs n' !! t = filter (fun v => v ∉ p) <$> r_subs n !! t;
  k_gone : forall v, v ∈ p -> r_vls n' !! v = None;
  k_vls : forall v, v ∉ p -> option_relation (vrel (touches n p)) (fun _ => False) (fun _ => False) (r_vls n !! v) (r_vls n' !! v);
  k_eqs : forall e, (touches n p e -> r_eqs n' !! e = None) /\ (~ touches n p e -> r_eqs n' !! e = r_eqs n !! e);
  k_hv : forall h, (line_in n (touches n p) h -> r_hv n' !! h = None) /\ (~ line_in n (touches n p) h -> r_hv n' !! h = r_hv n !! h);
  k_idx : forall i, i ∈ r_idx n' <-> i ∈ r_idx n /\ forall v x, v ∈ p -> r_vls n !! v = Some x -> i ∉ vl_ids x
}.
Lemma touches_nil n e : ~ touches n [] e.
Proof. intros (k & vs & v & _ & _ & H). by apply elem_of_nil in H. Qed.
Lemma cleared_nil n : nwf n -> cleared [] n n.
Proof.
  intros W. split; try done.
  - intros t. destruct (r_subs n !! t) as [l|]; [|done]. cbn. f_equal. induction l as [|v l IH]; [done|]. rewrite filter_cons, decide_True by apply not_elem_of_nil. by rewrite <- IH.
  - intros v H. by apply elem_of_nil in H.
  - intros v _. destruct (r_vls n !! v) as [x|]; cbn; [|done]. eapply (vrel_iff (fun _ => False)); [|apply vrel_refl]. intros e _. split; [done|]. apply touches_nil.
  - intros e. split; [|done]. intros H. by apply touches_nil in H.
  - intros h. split; [|done]. intros (p & _ & [H|H]); by apply touches_nil in H.
  - intros i. split; [|tauto]. intros Hi. split; [done|]. intros v x H. by apply elem_of_nil in H.
Qed.
Lemma cleared_eq p n n' e x : cleared p n n' -> r_eqs n' !! e = Some x <-> r_eqs n !! e = Some x /\ ~ touches n p e.
Proof.
  intros C. destruct (k_eqs _ _ _ C e) as [A1 A2]. split.
  - intros Hx. assert (~ touches n p e) as N by (intros HE; rewrite A1 in Hx; done). split; [by rewrite <- A2|done].
  - intros [Hx N]. by rewrite A2.
Qed.
Lemma cleared_hv p n n' h x : cleared p n n' -> r_hv n' !! h = Some x <-> r_hv n !! h = Some x /\ ~ line_in n (touches n p) h.
Proof.
  intros C. destruct (k_hv _ _ _ C h) as [A1 A2]. split.
  - intros Hx. assert (~ line_in n (touches n p) h) as N by (intros HE; rewrite A1 in Hx; done). split; [by rewrite <- A2|done].
  - intros [Hx N]. by rewrite A2.
Qed.
Lemma touches_dec n p e : touches n p e \/ ~ touches n p e.
Proof.
  destruct (r_eqs n !! e) as [[k vs]|] eqn:He.
  - destruct (decide (Exists (fun v => v ∈ p) vs)) as [H|H].
    + left. apply Exists_exists in H as (v & ? & ?). by exists k, vs, v.
    + right. intros (k' & vs' & v & He' & Hv & Hp). rewrite He in He'. injection He' as <- <-. apply H, Exists_exists. eauto.
  - right. intros (k' & vs' & v & He' & _). congruence.
Qed.
Lemma touches_app n p v e : touches n (p ++ [v]) e <-> touches n p e \/ touches n [v] e.
Proof.
  unfold touches. split.
  - intros (k & vs & w & He & Hw & [Hp|Hp]%elem_of_app); [left|right]; by exists k, vs, w.
  - intros [(k & vs & w & He & Hw & Hp)|(k & vs & w & He & Hw & Hp)]; exists k, vs, w; (split; [done|]); (split; [done|]); apply elem_of_app; auto.
Qed.
(** The terminals of a remaining voltage level. *)
Lemma cleared_terms p n n1 v x1 e : nwf n -> cleared p n n1 -> r_vls n1 !! v = Some x1 -> v ∉ p -> e ∈ terminals x1 <-> touches n [v] e /\ ~ touches n p e.
Proof.
  intros W C Hx1 Hv. rewrite (n_term _ (k_wf _ _ _ C) _ _ _ Hx1). split.
  - intros (k & vs & He & Hin). apply (cleared_eq _ _ _ _ _ C) in He as [He N]. split; [|done]. exists k, vs, v. split_and!; try done. by apply elem_of_list_singleton.
  - intros [(k & vs & w & He & Hin & ->%elem_of_list_singleton) N]. exists k, vs. split; [|done]. by apply (cleared_eq _ _ _ _ _ C).
Qed.
Lemma cleared_step p n n1 v x1 : nwf n -> cleared p n n1 -> r_vls n1 !! v = Some x1 -> node_breaker x1 -> no_internal x1 ->
  exists n2, vl_phase v n1 = (Ok tt, n2) /\ cleared (p ++ [v]) n n2 /\ (forall t, r_subs n2 !! t = filter (fun w => w <> v) <$> r_subs n1 !! t) /\
    forall w, is_Some (r_vls n2 !! w) <-> is_Some (r_vls n1 !! w) /\ w <> v.
Proof.
  intros W C Hx1 Hnb Hni. pose proof (k_wf _ _ _ C) as W1.
  destruct (vl_phase_ok v n1 x1 W1 Hx1 Hnb Hni) as (n2 & x2 & Ep & W2 & Hx2 & A).
  destruct (erased_vl _ _ _ _ _ _ A Hx1) as (x2' & Hx2' & R2). rewrite Hx2 in Hx2'. injection Hx2' as <-.
  assert (v ∉ p) as Hv by (intros Hv; rewrite (k_gone _ _ _ C _ Hv) in Hx1; done).
  assert (forall e, e ∈ terminals x1 <-> touches n [v] e /\ ~ touches n p e) as HT by (intros e; by apply (cleared_terms p n n1)).
  pose proof (k_vls _ _ _ C v Hv) as Rx. rewrite Hx1 in Rx. destruct (r_vls n !! v) as [x|] eqn:Hx; [|done]. cbn in Rx.
  assert (vl_ids x2 = vl_ids x) as Eids. { destruct (v_keep _ _ _ R2) as (_ & -> & _). apply (v_keep _ _ _ Rx). }
  assert (terminals x2 = []) as Ht2.
  { destruct (terminals x2) as [|e t] eqn:E; [done|]. exfalso. assert (e ∈ terminals x2) as He by (rewrite E; left). apply (v_terms _ _ _ R2) in He as [? ?]. done. }
  assert (forall t, r_subs (drop_vl v x2 (set_idx n2 (r_idx n2 ∖ list_to_set (vl_ids x2)))) !! t = filter (fun w => w <> v) <$> r_subs n1 !! t) as Hsubs.
  { intros t. cbn. rewrite (e_subs _ _ _ _ A). destruct (v_keep _ _ _ R2) as (Es & _). destruct (decide (t = rv_sub x2)) as [->|Hne].
    - by rewrite lookup_alter.
    - rewrite lookup_alter_ne by done. destruct (r_subs n1 !! t) as [l|] eqn:Hl; [|done]. cbn. f_equal. symmetry.
      destruct (n_sub _ W1 _ _ Hl) as [_ Hlv]. assert (v ∉ l) as Hvl. { intros (y & Hy & Hyt)%Hlv. rewrite Hx1 in Hy. injection Hy as <-. congruence. }
      clear Hl Hlv. induction l as [|w l IH]; [done|]. rewrite filter_cons, decide_True by (intros ->; apply Hvl; left). f_equal. apply IH. intros Hin. apply Hvl. by right. }
  exists (drop_vl v x2 (set_idx n2 (r_idx n2 ∖ list_to_set (vl_ids x2)))). split; [done|]. split; [|split; [done|]].
  2: { intros w. cbn. rewrite lookup_delete_is_Some. pose proof (e_vls _ _ _ _ A w) as R. destruct (r_vls n1 !! w), (r_vls n2 !! w); cbn in R; try done; split; intros [? ?]; (split; [by eauto|congruence]) || (split; congruence) || (split; eauto; congruence). }
  split.
  - (* well-formed *)
    destruct W2 as [V1 V2 V3 V4 V5 V6]. split.
    + intros t l. rewrite Hsubs. intros (l1 & Hl1 & ->)%fmap_Some. pose proof Hl1 as Hl2. rewrite <- (e_subs _ _ _ _ A) in Hl2. destruct (V1 _ _ Hl2) as [Hn Hin]. split; [by apply NoDup_filter|].
      intros w. rewrite elem_of_list_filter, Hin. cbn. split.
      * intros [Hne (y & Hy & Hs)]. exists y. by rewrite lookup_delete_ne.
      * intros (y & [Hne Hy]%lookup_delete_Some & Hs). split; [done|]. eauto.
    + intros w y Hwy. cbn in Hwy. apply lookup_delete_Some in Hwy as [Hne Hy]. destruct (V2 _ _ Hy) as [l Hl]. rewrite (Hsubs (rv_sub y)). rewrite (e_subs _ _ _ _ A) in Hl. rewrite Hl. by eexists.
    + intros w y e. cbn. intros [Hne Hy]%lookup_delete_Some. by apply V3.
    + intros e k vs. cbn. intros He. destruct (V4 _ _ _ He) as [V41 V42]. split; [|done]. intros w Hw. rewrite lookup_delete_is_Some. split; [|by apply V41]. intros <-.
      assert (e ∈ terminals x2) as Hin by (apply (V3 _ _ _ Hx2); eauto). rewrite Ht2 in Hin. by apply elem_of_nil in Hin.
    + exact V5.
    + exact V6.
  - intros t. rewrite Hsubs, (k_subs _ _ _ C). destruct (r_subs n !! t) as [l|]; [|done]. cbn. f_equal. rewrite list_filter_filter. apply list_filter_iff.
    intros w. rewrite not_elem_of_app, not_elem_of_cons. split; [intros [? ?]; split_and!; try done; apply not_elem_of_nil|intros (? & ? & ?); done].
  - intros w [Hw|Hw%elem_of_list_singleton]%elem_of_app; cbn.
    + destruct (decide (w = v)) as [->|Hne]; [by rewrite lookup_delete|]. rewrite lookup_delete_ne by done. pose proof (e_vls _ _ _ _ A w) as R.
      rewrite (k_gone _ _ _ C w Hw) in R. by destruct (r_vls n2 !! w).
    + rewrite Hw. apply lookup_delete.
  - intros w [Hw Hwv]%not_elem_of_app. rewrite not_elem_of_cons in Hwv. destruct Hwv as [Hwv _]. cbn. rewrite lookup_delete_ne by done.
    pose proof (k_vls _ _ _ C w Hw) as R. pose proof (e_vls _ _ _ _ A w) as R'. destruct (r_vls n !! w), (r_vls n1 !! w), (r_vls n2 !! w); cbn in *; try done.
    eapply vrel_iff; [|exact (vrel_trans _ _ _ _ _ R R')]. intros e _. cbn. rewrite touches_app, HT. destruct (touches_dec n p e); tauto.
  - intros e. cbn. destruct (e_eqs _ _ _ _ A e) as [A1 A2], (k_eqs _ _ _ C e) as [C1 C2]. rewrite touches_app. split.
    + intros Ht. destruct (touches_dec n p e) as [Hp|Hp]; [|apply A1, HT; tauto]. rewrite A2; [by apply C1|]. rewrite HT. tauto.
    + intros N. rewrite A2, C2 by (rewrite ?HT; tauto). done.
  - intros h. cbn. destruct (e_hv _ _ _ _ A h) as [A1 A2], (k_hv _ _ _ C h) as [C1 C2].
    assert (line_in n1 (fun st => st ∈ terminals x1) h <-> ~ line_in n (touches n p) h /\ line_in n (touches n [v]) h) as HL.
    { split.
      - intros (q & Hq & Hst). apply (cleared_hv _ _ _ _ _ C) in Hq as [Hq N]. split; [done|]. exists q. split; [done|]. rewrite !HT in Hst. tauto.
      - intros [N (q & Hq & Hst)]. exists q. split; [by apply (cleared_hv _ _ _ _ _ C)|]. rewrite !HT.
        assert (~ touches n p q.1) by (intros ?; apply N; exists q; tauto). assert (~ touches n p q.2) by (intros ?; apply N; exists q; tauto). tauto. }
    assert (line_in n (touches n (p ++ [v])) h <-> line_in n (touches n p) h \/ line_in n (touches n [v]) h) as HLa.
    { split.
      - intros (q & Hq & Hst). rewrite !touches_app in Hst. destruct Hst as [[?|?]|[?|?]]; [left|right|left|right]; exists q; tauto.
      - intros [(q & Hq & Hst)|(q & Hq & Hst)]; exists q; (split; [done|]); rewrite !touches_app; tauto. }
    rewrite HLa. assert (line_in n (touches n p) h \/ ~ line_in n (touches n p) h) as [Hd|Hd].
    { destruct (r_hv n !! h) as [q|] eqn:Hq.
      - destruct (touches_dec n p q.1), (touches_dec n p q.2); try (left; exists q; tauto). right. intros (q' & Hq' & ?). rewrite Hq in Hq'. injection Hq' as <-. tauto.
      - right. intros (q' & Hq' & _). congruence. }
    + split; [|tauto]. intros _. rewrite A2; [by apply C1|]. rewrite HL. tauto.
    + split.
      * intros [?|?]; [done|]. apply A1, HL. done.
      * intros N. rewrite A2, C2 by (rewrite ?HL; tauto). done.
  - intros i. cbn. rewrite elem_of_difference, (e_idx _ _ _ _ A), (k_idx _ _ _ C), elem_of_list_to_set, Eids. split.
    + intros [[Hi Hp] Hn]. split; [done|]. intros w y [Hw|Hw%elem_of_list_singleton]%elem_of_app Hy; [by eapply Hp|]. rewrite Hw in Hy. rewrite Hx in Hy. injection Hy as <-. done.
    + intros [Hi Hp]. split; [split; [done|]|].
      * intros w y Hw. apply Hp. apply elem_of_app. by left.
      * apply (Hp v x); [|done]. apply elem_of_app. right. by apply elem_of_list_singleton.
Qed.
