From stdpp Require Import gmap.
From Verif Require Import Base RemovalSpec RemovalProofs.

(** The first loop has dealt with the equipment. *)
Definition settled (n : rnet) (e : string) : Prop :=
  match r_eqs n !! e with Some (RMulti, _) => False | Some (RStation, _) => forall h p, r_hv n !! h = Some p -> p.1 <> e /\ p.2 <> e | _ => True end.
Lemma settled_erased E H n n' e : settled n e -> erased E H n n' -> settled n' e.
Proof.
  intros S A. unfold settled in *. destruct (r_eqs n' !! e) as [x|] eqn:Ex; [|done]. apply (erased_eq _ _ _ _ _ _ A) in Ex as [Ex _]. rewrite Ex in S. destruct x as [[] vs]; try done.
  intros h p Hh. apply (erased_hv _ _ _ _ _ _ A) in Hh as [Hh _]. eauto.
Qed.
(** HVDC line [h] has a station among the equipments [T]. *)
Definition line_in (n : rnet) (T : string -> Prop) (h : string) : Prop := exists p, r_hv n !! h = Some p /\ (T p.1 \/ T p.2).

Lemma body1 n e k vs : nwf n -> r_eqs n !! e = Some (k, vs) -> exists n' E H, sub_body e n = (Ok tt, n') /\ erased E H n n' /\ nwf n' /\ settled n' e /\
  (forall x, E x -> x = e /\ k = RMulti) /\ (forall h, H h -> line_in n (fun st => st = e) h).
Proof.
  intros W He. unfold sub_body. rewrite He. destruct k.
  - destruct (remove_eq_erased e n RMulti vs W He) as (n' & E & A); [done|]. exists n', (fun x => x = e), (fun _ => False). split; [done|]. split; [done|]. split.
    { eapply erased_wf; [done|exact A|]. intros h s1 s2 Hh _. split; intros ->.
      - destruct (n_hv _ W _ _ _ Hh e ltac:(by left)) as [w Hw]. congruence.
      - destruct (n_hv _ W _ _ _ Hh e ltac:(by right)) as [w Hw]. congruence. }
    split; [|done]. unfold settled. destruct (e_eqs _ _ _ _ A e) as [A1 _]. by rewrite A1.
  - destruct (line_of n e) as [[h p]|] eqn:Hl.
    + apply line_of_some in Hl as [Hh Hp]. pose proof (remove_line_erased h n) as A. eexists _, _, _. split; [done|]. split; [exact A|]. split.
      { eapply erased_wf; [done|exact A|]. naive_solver. }
      split; [|split; [done|]].
      * unfold settled. cbn. rewrite He. intros h' p' [Hne Hh']%lookup_delete_Some. destruct p as [s1 s2], p' as [t1 t2]. cbn in *.
        split; intros ->; apply Hne; eapply (n_one _ W); [exact Hh|exact Hh'| |exact Hh|exact Hh'|]; naive_solver.
      * intros h' ->. exists p. split; [done|]. naive_solver.
    + exists n, (fun _ => False), (fun _ => False). split; [done|]. split; [apply erased_refl|]. split; [done|]. split; [|done].
      unfold settled. rewrite He. by apply line_of_none.
  - exists n, (fun _ => False), (fun _ => False). split; [done|]. split; [apply erased_refl|]. split; [done|]. split; [|done]. unfold settled. by rewrite He.
Qed.
Lemma node_loop_read body v k pos seen n x ns es : r_vls n !! v = Some x -> rv_topo x = RNode ns es ->
  node_loop body v (S k) pos seen n =
    match node_at x pos with
    | None => node_loop body v k (S pos) seen n
    | Some e => if bool_decide (e ∈ seen) then node_loop body v k (S pos) seen n
                else match body e n with (Ok _, n') => node_loop body v k (S pos) (e :: seen) n' | r => r end
    end.
Proof. intros Hx Ht. cbn [node_loop]. rewrite Hx. cbn. unfold node_at. by rewrite Ht. Qed.
Lemma loop1 v : forall k pos seen n x, nwf n -> r_vls n !! v = Some x -> node_breaker x -> (forall e, e ∈ seen -> settled n e) ->
  exists n' E H, node_loop sub_body v k pos seen n = (Ok tt, n') /\ erased E H n n' /\ nwf n' /\
    (forall e, E e -> e ∈ terminals x /\ exists vs, r_eqs n !! e = Some (RMulti, vs)) /\ (forall h, H h -> line_in n (fun st => st ∈ terminals x) h) /\
    forall i e, pos <= i < pos + k -> node_at x i = Some e -> settled n' e.
Proof.
  induction k as [|k IH]; intros pos seen n x W Hx Hnb Hseen.
  - exists n, (fun _ => False), (fun _ => False). split; [done|]. split; [apply erased_refl|]. split; [done|]. split; [done|]. split; [done|]. intros; lia.
  - pose proof Hnb as (ns & es & Ht). rewrite (node_loop_read _ _ _ _ _ _ x ns es Hx Ht).
    assert (forall n' E H, erased E H n n' -> (forall i e, S pos <= i < S pos + k -> node_at x i = Some e -> settled n' e) -> (forall e, node_at x pos = Some e -> settled n' e) ->
      forall i e, pos <= i < pos + S k -> node_at x i = Some e -> settled n' e) as Hpos.
    { intros n' E H A HS HP i e Hi He. destruct (decide (i = pos)) as [->|Hne]; [by apply HP|]. eapply HS; [|exact He]. lia. }
    destruct (node_at x pos) as [e|] eqn:Hat; [case_bool_decide as Hs|].
    + destruct (IH (S pos) seen n x W Hx Hnb Hseen) as (n' & E & H & El & A & W' & HE & HH & HS). exists n', E, H. split_and!; try done.
      eapply Hpos; [exact A|exact HS|]. intros e' [= <-]. eapply settled_erased; [by apply Hseen|exact A].
    + assert (e ∈ terminals x) as Het by (apply terminals_at; [done|by exists pos]). apply (n_term _ W _ _ _ Hx) in Het as Het'. destruct Het' as (ke & vs & He & Hv).
      destruct (body1 n e ke vs W He) as (n1 & E1 & H1 & Eb & A1 & W1 & S1 & HE1 & HH1). rewrite Eb.
      destruct (erased_vl _ _ _ _ _ _ A1 Hx) as (x1 & Hx1 & R1).
      destruct (IH (S pos) (e :: seen) n1 x1 W1 Hx1) as (n' & E & H & El & A & W' & HE & HH & HS).
      { by apply (v_keep _ _ _ R1). }
      { intros e' [->|He']%elem_of_cons; [done|]. eapply settled_erased; [by apply Hseen|exact A1]. }
      exists n', (fun e => E1 e \/ E e), (fun h => H1 h \/ H h). split; [done|]. split; [by eapply erased_trans|]. split; [done|]. split; [|split].
      * intros e' [[-> ->]%HE1|[Ht' (vs' & Hvs')]%HE]; [eauto|]. apply (v_terms _ _ _ R1) in Ht' as [? _]. split; [done|]. exists vs'. by apply (erased_eq _ _ _ _ _ _ A1) in Hvs' as [? _].
      * intros h [(p & Hp & Hst)%HH1|(p & Hp & Hst)%HH].
        -- exists p. split; [done|]. destruct Hst as [->| ->]; auto.
        -- apply (erased_hv _ _ _ _ _ _ A1) in Hp as [Hp _]. exists p. split; [done|]. rewrite !(v_terms _ _ _ R1) in Hst. naive_solver.
      * eapply Hpos; [by eapply erased_trans| |].
        -- intros i e' Hi Hn. destruct (r_eqs n' !! e') as [y|] eqn:Hy.
           ++ eapply HS; [exact Hi|]. apply (v_nodes _ _ _ R1). split; [done|]. intros HE'. apply (erased_eq _ _ _ _ _ _ A) in Hy as [Hy _]. apply (erased_eq _ _ _ _ _ _ A1) in Hy as [_ Hy]. done.
           ++ unfold settled. by rewrite Hy.
        -- intros e' [= <-]. by eapply settled_erased.
    + destruct (IH (S pos) seen n x W Hx Hnb Hseen) as (n' & E & H & El & A & W' & HE & HH & HS). exists n', E, H. split_and!; try done.
      eapply Hpos; [exact A|exact HS|]. done.
Qed.
Lemma loop2 v : forall k pos seen n x, nwf n -> r_vls n !! v = Some x -> node_breaker x -> (forall e, e ∈ terminals x -> settled n e) -> (forall e, e ∈ seen -> r_eqs n !! e = None) ->
  exists n' E, node_loop remove_eq v k pos seen n = (Ok tt, n') /\ erased E (fun _ => False) n n' /\ nwf n' /\ (forall e, E e -> e ∈ terminals x) /\
    forall i e, pos <= i < pos + k -> node_at x i = Some e -> r_eqs n' !! e = None.
Proof.
  induction k as [|k IH]; intros pos seen n x W Hx Hnb Hset Hseen.
  - exists n, (fun _ => False). split; [done|]. split; [apply erased_refl|]. split; [done|]. split; [done|]. intros; lia.
  - pose proof Hnb as (ns & es & Ht). rewrite (node_loop_read _ _ _ _ _ _ x ns es Hx Ht).
    assert (forall n', (forall i e, S pos <= i < S pos + k -> node_at x i = Some e -> r_eqs n' !! e = None) -> (forall e, node_at x pos = Some e -> r_eqs n' !! e = None) ->
      forall i e, pos <= i < pos + S k -> node_at x i = Some e -> r_eqs n' !! e = None) as Hpos.
    { intros n' HS HP i e Hi He. destruct (decide (i = pos)) as [->|Hne]; [by apply HP|]. eapply HS; [|exact He]. lia. }
    destruct (node_at x pos) as [e|] eqn:Hat.
    + assert (e ∈ terminals x) as Het by (apply terminals_at; [done|by exists pos]). apply (n_term _ W _ _ _ Hx) in Het as Het'. destruct Het' as (ke & vs & He & Hv).
      rewrite bool_decide_eq_false_2 by (intros Hs; apply Hseen in Hs; congruence).
      pose proof (Hset e Het) as Hse. unfold settled in Hse. rewrite He in Hse.
      destruct (remove_eq_erased e n ke vs W He) as (n1 & Eb & A1).
      { intros ->. destruct (line_of n e) as [[h p]|] eqn:Hl; [|done]. apply line_of_some in Hl as [Hh Hp]. destruct (Hse h p Hh). tauto. }
      rewrite Eb. assert (nwf n1) as W1.
      { eapply erased_wf; [done|exact A1|]. intros h s1 s2 Hh _. split; intros ->.
        - destruct (n_hv _ W _ _ _ Hh e ltac:(by left)) as [w Hw]. rewrite He in Hw. injection Hw as -> ->. destruct (Hse _ _ Hh). done.
        - destruct (n_hv _ W _ _ _ Hh e ltac:(by right)) as [w Hw]. rewrite He in Hw. injection Hw as -> ->. destruct (Hse _ _ Hh). done. }
      destruct (erased_vl _ _ _ _ _ _ A1 Hx) as (x1 & Hx1 & R1).
      destruct (IH (S pos) (e :: seen) n1 x1 W1 Hx1) as (n' & E & El & A & W' & HE & HS).
      { by apply (v_keep _ _ _ R1). }
      { intros e' [He' _]%(v_terms _ _ _ R1). eapply settled_erased; [by apply Hset|exact A1]. }
      { intros e' [->|He']%elem_of_cons; [by apply (e_eqs _ _ _ _ A1)|]. destruct (r_eqs n1 !! e') eqn:Hy; [|done]. apply (erased_eq _ _ _ _ _ _ A1) in Hy as [Hy _]. rewrite Hseen in Hy; done. }
      exists n', (fun x => x = e \/ E x). split; [done|]. split; [eapply erased_iff; [| |exact (erased_trans _ _ _ _ _ _ _ A1 A)]; tauto|]. split; [done|]. split.
      * intros e' [->|He']; [done|]. apply HE in He'. by apply (v_terms _ _ _ R1) in He' as [? _].
      * apply Hpos.
        -- intros i e' Hi Hn. destruct (decide (e' = e)) as [->|Hne].
           ++ destruct (r_eqs n' !! e) eqn:Hy; [|done]. apply (erased_eq _ _ _ _ _ _ A) in Hy as [Hy _]. apply (erased_eq _ _ _ _ _ _ A1) in Hy as [_ Hy]. done.
           ++ eapply HS; [exact Hi|]. by apply (v_nodes _ _ _ R1).
        -- intros e' [= <-]. destruct (r_eqs n' !! e) eqn:Hy; [|done]. apply (erased_eq _ _ _ _ _ _ A) in Hy as [Hy _]. apply (erased_eq _ _ _ _ _ _ A1) in Hy as [_ Hy]. done.
    + destruct (IH (S pos) seen n x W Hx Hnb Hset Hseen) as (n' & E & El & A & W' & HE & HS). exists n', E. split_and!; try done. by apply Hpos.
Qed.
Lemma drop_edges_ok es idx : (forall i j, (i, j, None) ∉ es) -> drop_edges es idx = (Ok tt, idx ∖ list_to_set (omap snd es)).
Proof.
  revert idx. induction es as [|[[i j] [sw|]] es IH]; intros idx H; cbn [drop_edges].
  - f_equal. cbn. set_solver.
  - rewrite IH by (intros a b Hin; apply (H a b); by right). f_equal. change (omap snd ((i, j, Some sw) :: es)) with (sw :: omap snd es). cbn. set_solver.
  - exfalso. apply (H i j). left.
Qed.
Lemma node_at_lt x ns es i e : rv_topo x = RNode ns es -> node_at x i = Some e -> i < length ns.
Proof. intros Ht. unfold node_at. rewrite Ht. intros H. destruct (ns !! i) eqn:E; [|done]. by eapply lookup_lt_Some. Qed.

(** What the body of the loop of Substation::remove does to a node-breaker voltage level without internal connection. *)
Lemma vl_phase_ok v n x : nwf n -> r_vls n !! v = Some x -> node_breaker x -> no_internal x ->
  exists n1 x1, vl_phase v n = (Ok tt, drop_vl v x1 (set_idx n1 (r_idx n1 ∖ list_to_set (vl_ids x1)))) /\ nwf n1 /\ r_vls n1 !! v = Some x1 /\
    erased (fun e => e ∈ terminals x) (line_in n (fun st => st ∈ terminals x)) n n1.
Proof.
  intros W Hx Hnb Hni. pose proof Hnb as (ns & es & Ht). unfold vl_phase, each_connectable. rewrite Hx. cbn. rewrite Ht.
  destruct (loop1 v (length ns) 0 [] n x W Hx Hnb) as (n1 & E1 & H1 & El1 & A1 & W1 & HE1 & HH1 & HS1); [by intros ? ?%elem_of_nil|]. rewrite El1.
  assert (forall e, e ∈ terminals x -> settled n1 e) as Hset.
  { intros e He. apply terminals_at in He as [i Hi]; [|done]. eapply HS1; [|exact Hi]. pose proof (node_at_lt x ns es i e Ht Hi). lia. }
  destruct (erased_vl _ _ _ _ _ _ A1 Hx) as (x1 & Hx1 & R1). unfold vl_remove. rewrite Hx1.
  assert (vl_ok n1 x1 = true) as ->.
  { apply forallb_forall. intros e He%elem_of_list_In. apply (v_terms _ _ _ R1) in He as He'. destruct He' as [He' _]. apply Hset in He'. unfold settled in He'.
    apply (n_term _ W1 _ _ _ Hx1) in He as (k & vs & Hk & _). rewrite Hk in He' |- *. destruct k; try done. destruct (line_of n1 e) as [[h p]|] eqn:Hl; [|done].
    apply line_of_some in Hl as [Hh Hp]. destruct (He' _ _ Hh). tauto. }
  assert (node_breaker x1) as Hnb1 by (by apply (v_keep _ _ _ R1)). pose proof Hnb1 as (ns1 & es1 & Ht1). cbn [negb]. unfold each_connectable. rewrite Hx1. cbn. rewrite Ht1.
  destruct (loop2 v (length ns1) 0 [] n1 x1 W1 Hx1 Hnb1) as (n2 & E2 & El2 & A2 & W2 & HE2 & HS2).
  { intros e [He _]%(v_terms _ _ _ R1). by apply Hset. }
  { by intros ? ?%elem_of_nil. }
  rewrite El2. destruct (erased_vl _ _ _ _ _ _ A2 Hx1) as (x2 & Hx2 & R2). rewrite Hx2.
  assert (node_breaker x2) as Hnb2 by (by apply (v_keep _ _ _ R2)). pose proof Hnb2 as (ns2 & es2 & Ht2).
  assert (no_internal x2) as Hni2 by (by apply (v_keep _ _ _ R2), (v_keep _ _ _ R1)).
  unfold remove_topology. rewrite Ht2. rewrite drop_edges_ok by (intros i j; by eapply Hni2). exists n2, x2. split.
  { cbn. unfold vl_ids. by rewrite Ht2. }
  split; [done|]. split; [done|].
  assert (forall e, e ∈ terminals x -> r_eqs n2 !! e = None) as Hgone.
  { intros e He. destruct (r_eqs n2 !! e) eqn:Hy; [|done]. apply (erased_eq _ _ _ _ _ _ A2) in Hy as Hy2. destruct Hy2 as [Hy2 _]. apply (erased_eq _ _ _ _ _ _ A1) in Hy2 as [_ HN].
    assert (e ∈ terminals x1) as He1 by (by apply (v_terms _ _ _ R1)). apply terminals_at in He1 as [i Hi]; [|done]. 
    erewrite HS2 in Hy; [done| |exact Hi]. pose proof (node_at_lt x1 ns1 es1 i e Ht1 Hi). lia. }
  pose proof (erased_trans _ _ _ _ _ _ _ A1 A2) as A.
  assert (forall e, E1 e \/ E2 e -> e ∈ terminals x) as HEin.
  { intros e [He|He]; [by apply HE1|]. apply HE2 in He. by apply (v_terms _ _ _ R1) in He as [? _]. }
  split; try apply A.
  - intros e. split; [apply Hgone|]. intros N. apply A. intros HE. by apply N, HEin.
  - intros h. split.
    + intros (p & Hp & Hst). destruct (r_hv n2 !! h) as [p'|] eqn:Hy; [|done]. exfalso. apply (erased_hv _ _ _ _ _ _ A) in Hy as Hy'. destruct Hy' as [Hy' _]. rewrite Hp in Hy'. injection Hy' as <-.
      destruct p as [s1 s2]. destruct Hst as [Hst|Hst]; cbn in Hst; apply Hgone in Hst; destruct (n_hv _ W2 _ _ _ Hy s1 ltac:(by left)) as [? ?], (n_hv _ W2 _ _ _ Hy s2 ltac:(by right)) as [? ?]; congruence.
    + intros N. apply A. intros [HH|[]]. by apply N, HH1.
  - intros w. pose proof (e_vls _ _ _ _ A w) as R. destruct (r_vls n !! w) as [y|] eqn:Hy, (r_vls n2 !! w) as [y2|] eqn:Hy2; cbn in *; try done.
    split.
    + apply R.
    + intros i e. rewrite (v_nodes _ _ _ R). split; [|intros [? N]; split; [done|]; intros HE; by apply N, HEin].
      intros [Hi N]. split; [done|]. intros Hin. apply Hgone in Hin. destruct (rv_topo y) as [nsy esy|] eqn:Hty; [|unfold node_at in Hi; rewrite Hty in Hi; done].
      assert (node_breaker y) as Hny by (by eexists _, _). assert (e ∈ terminals y2) as Hin2. { apply (v_terms _ _ _ R). split; [|done]. apply terminals_at; [done|by exists i]. }
      apply (n_term _ W2 _ _ _ Hy2) in Hin2 as (? & ? & ? & _). congruence.
    + intros e. split.
      * intros Hin. split; [by apply (v_terms _ _ _ R) in Hin as [? _]|]. intros Hin'. apply Hgone in Hin'. apply (n_term _ W2 _ _ _ Hy2) in Hin as (? & ? & ? & _). congruence.
      * intros [Hin N]. apply (v_terms _ _ _ R). split; [done|]. intros HE. by apply N, HEin.
    + intros N. apply R. intros e He HE. by apply (N e He), HEin.
Qed.
