From stdpp Require Import gmap.
From Verif Require Import Base RemovalSpec RemovalProofs RemovalLoops RemovalSub.

(** ** The check *)
Lemma all_in_spec n s vs : all_in n s vs = true <-> forall v, v ∈ vs -> sub_of n v = Some s.
Proof.
  unfold all_in. rewrite forallb_forall. split; intros H v Hv.
  - apply elem_of_list_In in Hv. apply H in Hv. by apply bool_decide_eq_true in Hv.
  - apply elem_of_list_In in Hv. by apply bool_decide_eq_true, H.
Qed.
Lemma sub_of_in n s l v : nwf n -> r_subs n !! s = Some l -> sub_of n v = Some s <-> v ∈ l.
Proof.
  intros W Hl. destruct (n_sub _ W _ _ Hl) as [_ ->]. unfold sub_of. rewrite fmap_Some. split; intros (x & Hx & E); exists x; auto.
Qed.
Lemma station_in_spec n s st v : r_eqs n !! st = Some (RStation, [v]) -> station_in n s st = true <-> in_substation n s st.
Proof.
  intros He. unfold station_in. rewrite He, all_in_spec. split.
  - intros H. exists RStation, [v], v. split_and!; [done|by apply elem_of_list_singleton|]. apply H. by apply elem_of_list_singleton.
  - intros (k & vs & w & He' & Hw & Hs) u ->%elem_of_list_singleton. rewrite He in He'. injection He' as <- <-. by apply elem_of_list_singleton in Hw as ->.
Qed.
Lemma conn_ok_line n s e h s1 s2 k vs : nwf n -> r_eqs n !! e = Some (k, vs) -> k = RStation -> r_hv n !! h = Some (s1, s2) -> e = s1 \/ e = s2 ->
  conn_ok n s e = station_in n s s1 && station_in n s s2.
Proof.
  intros W He -> Hh Hst. unfold conn_ok. rewrite He. destruct (line_of n e) as [[h' [t1 t2]]|] eqn:El.
  - apply line_of_some in El as [Hh' Hst']. cbn in Hst'. assert (h = h') as <- by (eapply (n_one _ W); eauto; destruct Hst as [<-|<-], Hst' as [<-|<-]; auto).
    rewrite Hh in Hh'. by injection Hh' as <- <-.
  - destruct (line_of_none _ _ El _ _ Hh) as [? ?]. cbn in *. destruct Hst; congruence.
Qed.
Lemma sub_ok_spec n s l : nwf n -> r_subs n !! s = Some l -> sub_ok n s l = true <-> removable n s.
Proof.
  intros W Hl.
  assert (sub_ok n s l = true <-> forall v x e, v ∈ l -> r_vls n !! v = Some x -> e ∈ terminals x -> conn_ok n s e = true) as ->.
  { unfold sub_ok. rewrite forallb_forall. split.
    - intros H v x e Hv Hx He. apply elem_of_list_In in Hv. apply H in Hv. rewrite Hx in Hv. rewrite forallb_forall in Hv. apply Hv. by apply elem_of_list_In.
    - intros H v Hv. destruct (r_vls n !! v) as [x|] eqn:Hx; [|done]. rewrite forallb_forall. intros e He. apply elem_of_list_In in Hv, He. by eapply H. }
  assert (forall e k vs v, r_eqs n !! e = Some (k, vs) -> v ∈ vs -> sub_of n v = Some s -> exists x, v ∈ l /\ r_vls n !! v = Some x /\ e ∈ terminals x) as Hterm.
  { intros e k vs v He Hv Hs. destruct (n_eq _ W _ _ _ He) as [He1 _]. destruct (He1 _ Hv) as [x Hx]. exists x. split_and!; [by apply (sub_of_in n s l)|done|].
    apply (n_term _ W _ _ _ Hx). eauto. }
  split.
  - intros H. split.
    + intros e vs v w He Hv Hw Hs. destruct (Hterm _ _ _ _ He Hv Hs) as (x & Hvl & Hx & Hin). specialize (H _ _ _ Hvl Hx Hin). unfold conn_ok in H. rewrite He in H.
      rewrite all_in_spec in H. by apply H.
    + intros h s1 s2 Hh. destruct (n_hv _ W _ _ _ Hh s1 (or_introl eq_refl)) as [v1 He1]. destruct (n_hv _ W _ _ _ Hh s2 (or_intror eq_refl)) as [v2 He2].
      rewrite <- (station_in_spec _ _ _ _ He1), <- (station_in_spec _ _ _ _ He2).
      assert (forall st v, r_eqs n !! st = Some (RStation, [v]) -> st = s1 \/ st = s2 -> station_in n s st = true -> station_in n s s1 = true /\ station_in n s s2 = true) as HS.
      { intros st v He Hst Hin. apply (station_in_spec _ _ _ _ He) in Hin as (k & vs & w & He' & Hw & Hs). destruct (Hterm _ _ _ _ He' Hw Hs) as (x & Hvl & Hx & Hin).
        specialize (H _ _ _ Hvl Hx Hin). rewrite (conn_ok_line n s st h s1 s2 _ _ W He eq_refl Hh Hst) in H. by apply andb_true_iff in H. }
      split; intros Hin; [by apply (HS _ _ He1 (or_introl eq_refl) Hin)|by apply (HS _ _ He2 (or_intror eq_refl) Hin)].
  - intros [H1 H2] v x e Hv Hx He. apply (n_term _ W _ _ _ Hx) in He as (k & vs & He & Hin). apply (sub_of_in n s l v W Hl) in Hv.
    destruct k.
    + unfold conn_ok. rewrite He. apply all_in_spec. intros w Hw. exact (H1 _ _ _ _ He Hin Hw Hv).
    + destruct (line_of n e) as [[h [s1 s2]]|] eqn:El; [|by unfold conn_ok; rewrite He, El].
      unfold conn_ok. rewrite He, El. apply line_of_some in El as [Hh Hst]. cbn in Hst.
      destruct (n_hv _ W _ _ _ Hh s1 (or_introl eq_refl)) as [v1 He1]. destruct (n_hv _ W _ _ _ Hh s2 (or_intror eq_refl)) as [v2 He2]. specialize (H2 _ _ _ Hh).
      apply andb_true_iff. rewrite (station_in_spec _ _ _ _ He1), (station_in_spec _ _ _ _ He2).
      assert (in_substation n s e) as Hs by (by exists RStation, vs, v). destruct Hst as [<-|<-]; tauto.
    + unfold conn_ok. by rewrite He.
Qed.

(** ** The loop *)
Definition plain (n : rnet) (s : string) : Prop := forall v x, r_vls n !! v = Some x -> rv_sub x = s -> node_breaker x /\ no_internal x.
Lemma cleared_plain p n n' s : nwf n -> plain n s -> cleared p n n' -> plain n' s.
Proof.
  intros W P C v x' Hx' Hs. assert (v ∉ p) as Hv by (intros Hv; rewrite (k_gone _ _ _ C _ Hv) in Hx'; done).
  pose proof (k_vls _ _ _ C v Hv) as R. rewrite Hx' in R. destruct (r_vls n !! v) as [x|] eqn:Hx; [|done]. cbn in R. destruct (v_keep _ _ _ R) as (E1 & E2 & E3 & E4 & _).
  assert (node_breaker x /\ no_internal x) as [Hb Hi] by (apply (P v); congruence).
  split; auto.
Qed.
Lemma filter_ne_length (v : string) l : NoDup l -> v ∈ l -> length l = S (length (filter (fun w => w <> v) l)).
Proof.
  induction l as [|w l IH]; [by intros _ ?%elem_of_nil|]. intros [Hw Hn]%NoDup_cons Hin. rewrite filter_cons. case_decide as Hd.
  - cbn. f_equal. apply IH; [done|]. apply elem_of_cons in Hin as [->|?]; done.
  - subst w. cbn. f_equal. clear IH Hin Hn. induction l as [|u l IH]; [done|]. apply not_elem_of_cons in Hw as [Hne Hw]. rewrite filter_cons, decide_True by congruence. cbn. f_equal. auto.
Qed.
Lemma phase_step s n v x l : nwf n -> plain n s -> r_subs n !! s = Some l -> r_vls n !! v = Some x -> v ∈ l ->
  exists n', vl_phase v n = (Ok tt, n') /\ nwf n' /\ plain n' s /\ r_subs n' !! s = Some (filter (fun w => w <> v) l) /\
    forall w, is_Some (r_vls n' !! w) <-> is_Some (r_vls n !! w) /\ w <> v.
Proof.
  intros W P Hl Hx Hv. destruct (n_sub _ W _ _ Hl) as [_ Hin]. apply Hin in Hv as (x' & Hx' & Hs). rewrite Hx in Hx'. injection Hx' as <-. destruct (P v x Hx Hs) as [Hb Hi].
  destruct (cleared_step [] n n v x W (cleared_nil n W) Hx Hb Hi) as (n' & E & C & Hsub & Hvl). exists n'. split_and!; try done.
  - apply C.
  - by eapply cleared_plain.
  - by rewrite Hsub, Hl.
Qed.
(** Once the first voltage level has been removed, the second is at the front of the buffer and is never reached. *)
Lemma sub_loop_ub s : forall k pos stale n v1 rest, nwf n -> plain n s -> r_subs n !! s = Some (v1 :: rest) -> 0 < pos ->
  v1 ∉ stale -> (forall w, w ∈ stale -> is_Some (r_vls n !! w) -> w ∈ v1 :: rest) ->
  length (v1 :: rest) + length stale = pos + k -> length rest < k -> (sub_loop false s k pos stale n).1 = UB.
Proof.
  induction k as [|k IH]; intros pos stale n v1 rest W P Hl Hpos Hst Hal Hlen Hk; [lia|]. cbn [sub_loop]. rewrite Hl. cbn [default].
  assert (is_Some (((v1 :: rest) ++ stale) !! pos)) as [v Hv] by (apply lookup_lt_is_Some; rewrite app_length; lia). cbn [default from_option id]. rewrite Hv.
  destruct (r_vls n !! v) as [x|] eqn:Hx; [|done]. destruct (n_sub _ W _ _ Hl) as [Hnd Hin].
  assert (v ∈ v1 :: rest /\ v <> v1) as [Hvin Hne].
  { apply lookup_app_Some in Hv as [Hv|[_ Hv]].
    - split; [by eapply elem_of_list_lookup_2|]. intros ->. assert (pos = 0); [|lia]. by eapply NoDup_lookup.
    - apply elem_of_list_lookup_2 in Hv. split; [apply Hal; [done|eauto]|]. by intros ->. }
  destruct (phase_step s n v x _ W P Hl Hx Hvin) as (n' & E & W' & P' & Hl' & Hvl). rewrite E.
  assert (v ∈ rest) as Hr by (by apply elem_of_cons in Hvin as [?|?]).
  rewrite filter_cons, decide_True in Hl' by done. apply NoDup_cons in Hnd as [Hn1 Hnd]. pose proof (filter_ne_length v rest Hnd Hr) as Hfl.
  assert (exists w, last (v1 :: rest) = Some w /\ w ∈ rest) as (w & Hw & Hwr).
  { destruct rest as [|r rest]; [by apply elem_of_nil in Hr|]. destruct (last (r :: rest)) as [w|] eqn:Ew.
    - exists w. split; [done|]. apply last_Some in Ew as [q ->]. apply elem_of_app. right. by apply elem_of_list_singleton.
    - by apply last_None in Ew. }
  rewrite Hw. cbn [from_option]. change ([w] ++ stale) with (w :: stale).
  eapply (IH _ _ _ v1); [done|done|exact Hl'|lia| | | |].
  - apply not_elem_of_cons. split; [by intros ->|done].
  - intros u [->|Hu]%elem_of_cons Hsome.
    + apply Hvl in Hsome as [_ Hu]. right. by apply elem_of_list_filter.
    + apply Hvl in Hsome as [Hsome Huv]. apply Hal in Hu; [|done]. apply elem_of_cons in Hu as [->|Hu]; [left|right]. by apply elem_of_list_filter.
  - cbn in *. lia.
  - lia.
Qed.
Lemma sub_loop_step s k pos stale n l v x n' : r_subs n !! s = Some l -> (l ++ stale) !! pos = Some v -> r_vls n !! v = Some x -> vl_phase v n = (Ok tt, n') ->
  sub_loop false s (S k) pos stale n = sub_loop false s k (S pos) (from_option (fun w => [w]) [] (last l) ++ stale) n'.
Proof. intros Hl Hv Hx E. cbn [sub_loop]. rewrite Hl. cbn [default from_option id]. by rewrite Hv, Hx, E. Qed.
Lemma sub_many n s v0 v1 v2 rest : nwf n -> r_subs n !! s = Some (v0 :: v1 :: v2 :: rest) -> removable n s -> plain n s -> (sub_remove false s n).1 = UB.
Proof.
  intros W Hl Hr P. unfold sub_remove. rewrite Hl. apply (sub_ok_spec n s _ W Hl) in Hr. rewrite Hr. cbn [negb length].
  assert ((sub_loop false s (S (S (S (length rest)))) 0 [] n).1 = UB) as HU.
  2: { by destruct (sub_loop false s _ 0 [] n) as [[] ?]. }
  destruct (n_sub _ W _ _ Hl) as [Hnd Hin]. assert (v0 ∈ v0 :: v1 :: v2 :: rest) as H0 by left. pose proof H0 as H0'. apply Hin in H0' as (x & Hx & Hs).
  destruct (phase_step s n v0 x _ W P Hl Hx H0) as (n' & E & W' & P' & Hl' & Hvl). rewrite (sub_loop_step s _ 0 [] n _ v0 x n' Hl eq_refl Hx E).
  assert (filter (fun w => w <> v0) (v0 :: v1 :: v2 :: rest) = v1 :: v2 :: rest) as Ef.
  { rewrite filter_cons, decide_False by tauto. apply NoDup_cons in Hnd as [Hn _]. clear -Hn. induction (v1 :: v2 :: rest) as [|u q IH]; [done|]. apply not_elem_of_cons in Hn as [? Hn].
    rewrite filter_cons, decide_True by congruence. f_equal. auto. }
  rewrite Ef in Hl'. assert (exists w, last (v0 :: v1 :: v2 :: rest) = Some w /\ w ∈ v2 :: rest) as (w & Hw & Hwr).
  { change (last (v0 :: v1 :: v2 :: rest)) with (last (v2 :: rest)). destruct (last (v2 :: rest)) as [w|] eqn:Ew; [|by apply last_None in Ew]. exists w. split; [done|].
    apply last_Some in Ew as [q ->]. apply elem_of_app. right. by apply elem_of_list_singleton. }
  rewrite Hw. cbn [from_option].
  apply NoDup_cons in Hnd as [_ Hnd]. apply NoDup_cons in Hnd as [Hn1 _].
  eapply (sub_loop_ub s _ _ _ n' v1 (v2 :: rest)); [done|done|done|lia| | | |].
  - change ([w] ++ []) with [w]. intros ->%elem_of_list_singleton. done.
  - intros u ->%elem_of_list_singleton _. by right.
  - cbn. lia.
  - cbn. lia.
Qed.
Lemma sub_strict n s v0 rest : nwf n -> r_subs n !! s = Some (v0 :: rest) -> removable n s -> plain n s -> (sub_remove true s n).1 = UB.
Proof.
  intros W Hl Hr P. unfold sub_remove. rewrite Hl. apply (sub_ok_spec n s _ W Hl) in Hr. rewrite Hr. cbn [negb length sub_loop]. rewrite Hl. cbn [default from_option id].
  change (((v0 :: rest) ++ []) !! 0) with (Some v0). cbn match.
  destruct (n_sub _ W _ _ Hl) as [Hnd Hin]. assert (v0 ∈ v0 :: rest) as H0 by left. pose proof H0 as H0'. apply Hin in H0' as (x & Hx & Hs). rewrite Hx.
  destruct (phase_step s n v0 x _ W P Hl Hx H0) as (n' & E & _). by rewrite E.
Qed.

(** ** Complete removal *)
Lemma cleared_removed n n' s l : nwf n -> r_subs n !! s = Some l -> removable n s -> cleared l n n' ->
  sub_removed s l n (mkRN (delete s (r_subs n')) (r_vls n') (r_eqs n') (r_hv n') (r_idx n')).
Proof.
  intros W Hl [Hr _] C. destruct (n_sub _ W _ _ Hl) as [_ Hin]. split; cbn.
  - apply map_eq. intros t. destruct (decide (t = s)) as [->|Hne]; [by rewrite !lookup_delete|]. rewrite !lookup_delete_ne, (k_subs _ _ _ C) by done.
    destruct (r_subs n !! t) as [q|] eqn:Hq; [|done]. cbn. f_equal. destruct (n_sub _ W _ _ Hq) as [_ Hinq].
    assert (forall v, v ∈ q -> v ∉ l) as Hd. { intros v (x & Hx & Hs)%Hinq (x' & Hx' & Hs')%Hin. congruence. }
    clear -Hd. induction q as [|v q IH]; [done|]. rewrite filter_cons, decide_True by (apply Hd; left). f_equal. apply IH. intros w Hw. apply Hd. by right.
  - intros v. split; [apply C|]. intros Hv. pose proof (k_vls _ _ _ C v Hv) as R. destruct (r_vls n !! v) as [x|] eqn:Hx, (r_vls n' !! v) as [x'|]; try done. cbn in R.
    f_equal. apply R. intros e He (k & vs & w & He' & Hw & Hwl). apply (n_term _ W _ _ _ Hx) in He as (k' & vs' & He & Hve). rewrite He in He'. injection He' as <- <-.
    apply Hv. destruct k'.
    + apply (sub_of_in n s l _ W Hl). apply (sub_of_in n s l _ W Hl) in Hwl. eapply Hr; eauto.
    + destruct (n_eq _ W _ _ _ He) as [_ H1]. destruct (H1 ltac:(done)) as [u ->]. apply elem_of_list_singleton in Hve as ->. by apply elem_of_list_singleton in Hw as ->.
    + destruct (n_eq _ W _ _ _ He) as [_ H1]. destruct (H1 ltac:(done)) as [u ->]. apply elem_of_list_singleton in Hve as ->. by apply elem_of_list_singleton in Hw as ->.
  - apply C.
  - intros h. destruct (k_hv _ _ _ C h) as [C1 C2]. split.
    + intros s1 s2 Hh Ht. apply C1. by exists (s1, s2).
    + intros H. apply C2. intros ([s1 s2] & Hh & Ht). specialize (H _ _ Hh). cbn in Ht. tauto.
  - apply C.
Qed.
Lemma sub_few n s l : nwf n -> r_subs n !! s = Some l -> removable n s -> plain n s -> length l <= 2 ->
  exists n', sub_remove false s n = (Ok tt, n') /\ sub_removed s l n n'.
Proof.
  intros W Hl Hr P Hlen. unfold sub_remove. rewrite Hl. pose proof Hr as Hr'. apply (sub_ok_spec n s _ W Hl) in Hr'. rewrite Hr'. cbn [negb].
  destruct (n_sub _ W _ _ Hl) as [Hnd Hin]. assert (exists n', sub_loop false s (length l) 0 [] n = (Ok tt, n') /\ cleared l n n') as (n' & E & C).
  2: { rewrite E. eexists. split; [done|]. by apply cleared_removed. }
  destruct l as [|v0 [|v1 [|]]]; [| | |cbn in Hlen; lia]; cbn [length sub_loop].
  - exists n. split; [done|by apply cleared_nil].
  - rewrite Hl. cbn [default from_option id]. change (([v0] ++ []) !! 0) with (Some v0). cbn match. assert (v0 ∈ [v0]) as H0 by left. apply Hin in H0 as (x & Hx & Hs). rewrite Hx.
    destruct (P _ _ Hx Hs) as [Hb Hi]. destruct (cleared_step [] n n v0 x W (cleared_nil n W) Hx Hb Hi) as (n' & E & C & _). exists n'. by rewrite E.
  - rewrite Hl. cbn [default from_option id]. change (([v0; v1] ++ []) !! 0) with (Some v0). cbn match. assert (v0 ∈ [v0; v1]) as H0 by left. pose proof H0 as H0'. apply Hin in H0 as (x & Hx & Hs). rewrite Hx.
    destruct (P _ _ Hx Hs) as [Hb Hi]. destruct (cleared_step [] n n v0 x W (cleared_nil n W) Hx Hb Hi) as (n1 & E & C & Hsub & Hvl). rewrite E.
    pose proof (Hsub s) as Hs1. rewrite Hl in Hs1. apply NoDup_cons in Hnd as [Hne _]. rewrite not_elem_of_cons in Hne. destruct Hne as [Hne _].
    cbn [fmap option_fmap option_map] in Hs1. rewrite filter_cons, decide_False, filter_cons, decide_True, filter_nil in Hs1 by (congruence || tauto).
    rewrite Hs1. cbn [default from_option id last]. change (([v1] ++ [v1] ++ []) !! 1) with (Some v1). cbn match.
    assert (is_Some (r_vls n1 !! v1)) as [x1 Hx1]. { apply Hvl. split; [|congruence]. destruct (Hin v1) as [H1 _]. destruct H1 as (y & Hy & _); [right; left|]. eauto. }
    change (from_option (fun w => [w]) [] (Some v1) ++ []) with [v1]. change (([v1] ++ [v1]) !! 1) with (Some v1). cbn match.
    rewrite Hx1. pose proof (cleared_plain _ _ _ _ W P C) as P1. destruct (n_sub _ (k_wf _ _ _ C) _ _ Hs1) as [_ Hin1]. destruct (Hin1 v1) as [H1 _]. destruct H1 as (y & Hy & Hys); [left|].
    rewrite Hx1 in Hy. injection Hy as <-. destruct (P1 _ _ Hx1 Hys) as [Hb1 Hi1]. destruct (cleared_step _ n n1 v1 x1 W C Hx1 Hb1 Hi1) as (n2 & E2 & C2 & _). exists n2. rewrite E2. split; [done|exact C2].
Qed.

(** ** Voltage levels with an internal connection, or with buses *)
Lemma drop_edges_internal es idx i j : (i, j, None) ∈ es -> exists idx', drop_edges es idx = (Throw "m_pointer is null", idx').
Proof.
  revert idx. induction es as [|[[a b] [sw|]] es IH]; intros idx H; cbn [drop_edges]; [by apply elem_of_nil in H| |eauto].
  apply elem_of_cons in H as [?|H]; [done|]. by apply IH.
Qed.
Lemma vl_ok_settled n x v : nwf n -> r_vls n !! v = Some x -> vl_ok n x = true -> forall e, e ∈ terminals x -> settled n e.
Proof.
  intros W Hx Hok e He. unfold vl_ok in Hok. rewrite forallb_forall in Hok. specialize (Hok e ltac:(by apply elem_of_list_In)). unfold settled.
  destruct (r_eqs n !! e) as [[[] vs]|]; try done. intros h p Hh. destruct (line_of n e) eqn:El; [done|]. exact (line_of_none _ _ El h p Hh).
Qed.
Lemma vl_remove_internal v n x i j ns es : nwf n -> r_vls n !! v = Some x -> rv_topo x = RNode ns es -> (i, j, None) ∈ es -> vl_ok n x = true ->
  exists n', vl_remove v n = (Throw "m_pointer is null", n') /\ (forall e, e ∈ terminals x -> r_eqs n' !! e = None) /\ is_Some (r_vls n' !! v).
Proof.
  intros W Hx Ht Hij Hok. assert (node_breaker x) as Hnb by (by eexists _, _). unfold vl_remove. rewrite Hx, Hok. cbn [negb]. unfold each_connectable. rewrite Hx. cbn. rewrite Ht.
  destruct (loop2 v (length ns) 0 [] n x W Hx Hnb) as (n2 & E2 & El2 & A2 & W2 & HE2 & HS2).
  { by eapply vl_ok_settled. }
  { by intros ? ?%elem_of_nil. }
  rewrite El2. destruct (erased_vl _ _ _ _ _ _ A2 Hx) as (x2 & Hx2 & R2). rewrite Hx2.
  assert (node_breaker x2) as Hnb2 by (by apply (v_keep _ _ _ R2)). destruct Hnb2 as (ns2 & es2 & Ht2).
  assert (exists i j, (i, j, None) ∈ es2) as (a & b & Hab).
  { destruct (decide (Exists (fun e : nat * nat * option string => e.2 = None) es2)) as [H|H].
    - apply Exists_exists in H as ([[a b] o] & Hin & Ho). cbn in Ho. subst o. eauto.
    - exfalso. assert (no_internal x2) as Hn. { intros ns' es' a b E. rewrite Ht2 in E. injection E as <- <-. intros Hin. apply H, Exists_exists. by eexists. }
      apply (v_keep _ _ _ R2) in Hn. by eapply Hn. }
  unfold remove_topology. rewrite Ht2. destruct (drop_edges_internal es2 (r_idx n2) a b Hab) as (idx' & ->). cbn. eexists. split; [done|]. cbn. split; [|eauto].
  intros e He. apply terminals_at in He as [k Hk]; [|done]. eapply HS2; [|exact Hk]. pose proof (node_at_lt x ns es k e Ht Hk). lia.
Qed.
Lemma vl_remove_bus v n x : nwf n -> r_vls n !! v = Some x -> ~ node_breaker x -> terminals x <> [] -> vl_ok n x = true -> (vl_remove v n).1 = UB.
Proof.
  intros W Hx Hnb Hne Hok. unfold vl_remove. rewrite Hx, Hok. cbn [negb]. unfold each_connectable. rewrite Hx. cbn. destruct (rv_topo x) as [ns es|bs sw] eqn:Ht; [destruct Hnb; by eexists _, _|].
  pose proof (vl_ok_settled _ _ _ W Hx Hok) as Hset. assert (terminals x = concat (map snd bs)) as Et by (unfold terminals; by rewrite Ht). rewrite <- Et.
  destruct (terminals x) as [|e l] eqn:El; [done|]. cbn [bus_loop]. rewrite bool_decide_eq_false_2 by apply not_elem_of_nil.
  assert (e ∈ terminals x) as He by (rewrite El; left). rewrite <- El in Hset. pose proof (Hset e He) as Hse. apply (n_term _ W _ _ _ Hx) in He as (k & vs & Hk & Hv).
  unfold settled in Hse. rewrite Hk in Hse. unfold remove_eq at 1. rewrite Hk. replace (bool_decide (k = RStation) && bool_decide (is_Some (line_of n e))) with false.
  - cbn. rewrite bool_decide_eq_false_2; [done|]. rewrite lookup_delete. by intros [? ?].
  - symmetry. apply andb_false_iff. destruct (decide (k = RStation)) as [->|]; [right|left; by apply bool_decide_eq_false]. apply bool_decide_eq_false. intros [[h p] Hl].
    apply line_of_some in Hl as [Hh Hp]. destruct (Hse _ _ Hh). tauto.
Qed.
(** The first loop on a bus-breaker voltage level. *)
Lemma bus_loop1 v : forall l seen n x, nwf n -> r_vls n !! v = Some x -> (forall e, e ∈ l -> e ∈ terminals x) -> (forall e, e ∈ seen -> settled n e) ->
  (bus_loop sub_body l seen n).1 = UB \/
  exists n', bus_loop sub_body l seen n = (Ok tt, n') /\ nwf n' /\ r_vls n' !! v = Some x /\ (forall e, e ∈ seen -> settled n' e) /\ forall e, e ∈ l -> settled n' e.
Proof.
  induction l as [|e l IH]; intros seen n x W Hx Hl Hs; cbn [bus_loop].
  - right. exists n. split_and!; try done. by intros e ?%elem_of_nil.
  - case_bool_decide as Hin.
    + destruct (IH seen n x W Hx) as [?|(n' & E & W' & Hx' & S1 & S2)]; [intros ? ?; apply Hl; by right|done|by left|]. right. exists n'. split_and!; try done.
      intros u [->|?]%elem_of_cons; auto.
    + assert (e ∈ terminals x) as He by (apply Hl; left). apply (n_term _ W _ _ _ Hx) in He as (k & vs & Hk & Hv).
      destruct (body1 n e k vs W Hk) as (n1 & E1 & H1 & Eb & A1 & W1 & S1 & HE1 & HH1). rewrite Eb. case_bool_decide as Hd; [|by left].
      assert (forall u, ~ E1 u) as HE. { intros u Hu. destruct (HE1 u Hu) as [-> _]. destruct Hd as [y Hy]. by apply (erased_eq _ _ _ _ _ _ A1) in Hy as [_ ?]. }
      destruct (erased_vl _ _ _ _ _ _ A1 Hx) as (x1 & Hx1 & R1). assert (x1 = x) as -> by (apply R1; intros; apply HE).
      destruct (IH (e :: seen) n1 x W1 Hx1) as [?|(n' & E & W' & Hx' & S3 & S4)].
      { intros ? ?; apply Hl; by right. }
      { intros u [->|Hu]%elem_of_cons; [done|]. eapply settled_erased; [by apply Hs|exact A1]. }
      { by left. }
      right. exists n'. split_and!; try done.
      * intros u Hu. apply S3. by right.
      * intros u [->|Hu]%elem_of_cons; [apply S3; left|by apply S4].
Qed.
Lemma vl_phase_bus v n x : nwf n -> r_vls n !! v = Some x -> ~ node_breaker x -> terminals x <> [] -> (vl_phase v n).1 = UB.
Proof.
  intros W Hx Hnb Hne. unfold vl_phase, each_connectable. rewrite Hx. cbn. destruct (rv_topo x) as [ns es|bs sw] eqn:Ht; [destruct Hnb; by eexists _, _|].
  assert (terminals x = concat (map snd bs)) as Et by (unfold terminals; by rewrite Ht). rewrite <- Et.
  destruct (bus_loop1 v (terminals x) [] n x W Hx) as [E|(n' & E & W' & Hx' & _ & S)]; [done|by intros ? ?%elem_of_nil| |].
  - by destruct (bus_loop _ _ _ _) as [[] ?].
  - rewrite E. apply (vl_remove_bus v n' x W' Hx' Hnb Hne). apply forallb_forall. intros e He%elem_of_list_In. specialize (S e He). unfold settled in S.
    destruct (r_eqs n' !! e) as [[[] vs]|]; try done. destruct (line_of n' e) as [[h p]|] eqn:El; [|done]. apply line_of_some in El as [Hh Hp]. destruct (S _ _ Hh). tauto.
Qed.
Lemma sub_bus strict n s v0 rest x : nwf n -> r_subs n !! s = Some (v0 :: rest) -> removable n s -> r_vls n !! v0 = Some x -> ~ node_breaker x -> terminals x <> [] ->
  (sub_remove strict s n).1 = UB.
Proof.
  intros W Hl Hr Hx Hnb Hne. unfold sub_remove. rewrite Hl. apply (sub_ok_spec n s _ W Hl) in Hr. rewrite Hr. cbn [negb length sub_loop]. rewrite Hl. cbn [default from_option id].
  change (((v0 :: rest) ++ []) !! 0) with (Some v0). cbn match. rewrite Hx. pose proof (vl_phase_bus _ _ _ W Hx Hnb Hne) as E. by destruct (vl_phase v0 n) as [[] ?].
Qed.
