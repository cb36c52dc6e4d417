(** Consequences of the refinement used by the property statements. *)
From stdpp Require Import gmap fin_maps.
From Verif Require Import Base Graph GraphSpec GraphProofs GraphTraverse GraphPaths.

Section more.
  Context {V E : Type}.
  Implicit Types g : graph V E.

  Lemma s_step_defined (s s' : sgraph V E) o r :
    s_step s o s' r -> (exists a, r = Ok a) \/ is_throw r = true.
  Proof. destruct o; simpl; naive_solver (eauto || (destruct (decide (s_edges s = ∅)); naive_solver)). Qed.

  Lemma step_defined g o : ginv g -> (g_step g o).2 <> UB /\ (g_step g o).2 <> OutOfFuel.
  Proof.
    intros I. destruct (g_step_ok g o I) as [_ S]. apply s_step_defined in S.
    split; intros H; rewrite H in S; naive_solver.
  Qed.

  Lemma step_throw_unchanged g o : ginv g -> is_throw (g_step g o).2 = true -> abs (g_step g o).1 = abs g.
  Proof.
    intros I H. destruct (g_step_ok g o I) as [_ S].
    destruct o; simpl in S; try naive_solver.
    - destruct S as (v & _ & Hr & _). simpl in *. rewrite Hr in H. done.
    - destruct S as (Hr & _). simpl in *. rewrite Hr in H. done.
    - destruct S as [(_ & _ & e & _ & Hr & _)|(_ & _ & Hs)]; [|done]. simpl in *. rewrite Hr in H. done.
    - destruct S as [(ed & _ & Hr & _)|(_ & _ & Hs)]; [|done]. simpl in *. rewrite Hr in H. done.
    - destruct S as [(ob & _ & _ & Hr & _)|(_ & _ & Hs)]; [|done]. simpl in *. rewrite Hr in H. done.
    - simpl in *. destruct (decide (s_edges (abs g) = ∅)) as [He|He]; [|naive_solver].
      destruct S as [_ S]. destruct (S He) as [[Hr _]|[_ Hs]]; [|done]. rewrite Hr in H. done.
    - destruct S as (Hr & _). simpl in *. rewrite Hr in H. done.
    - destruct S as [(_ & Hr & _)|(_ & _ & Hs)]; [|done]. simpl in *. rewrite Hr in H. done.
  Qed.

  Lemma step_vertex_stable g o v ob : ginv g ->
    s_vertices (abs g) !! v = Some ob -> ~ removes_vertex o (abs g) v -> ~ writes_vertex o v ->
    s_vertices (abs (g_step g o).1) !! v = Some ob.
  Proof.
    intros I Hv Hr Hw. destruct (g_step_ok g o I) as [_ S]. revert S Hr Hw.
    generalize (abs (g_step g o).1) as s'. generalize ((g_step g o).2) as r.
    intros r s' S Hr Hw. destruct o; simpl in *.
    - destruct S as (v0 & [Hf _] & _ & ->). simpl. rewrite lookup_insert_ne; [done|congruence].
    - destruct S as (_ & [[_ ->]|[H0 ->]]); [done|]. simpl. rewrite lookup_insert_ne; [done|congruence].
    - destruct S as [(_ & _ & e & _ & _ & ->)|(_ & _ & ->)]; done.
    - destruct S as [(ed & _ & _ & ->)|(_ & _ & ->)]; done.
    - destruct S as [(ob' & _ & _ & _ & ->)|(_ & _ & ->)]; [|done]. simpl. by rewrite lookup_delete_ne.
    - destruct S as (_ & ->). done.
    - done.
    - destruct S as (_ & _ & S). destruct (S v) as [[? _]|[_ ->]]; [done|done].
    - destruct S as [(_ & _ & ->)|(_ & _ & ->)]; [|done]. simpl. by rewrite lookup_insert_ne.
    - destruct S as (_ & ->). done.
  Qed.

  Lemma step_edge_stable g o e ed : ginv g ->
    s_edges (abs g) !! e = Some ed -> ~ removes_edge o e ->
    s_edges (abs (g_step g o).1) !! e = Some ed.
  Proof.
    intros I Hv Hr. destruct (g_step_ok g o I) as [_ S]. revert S Hr.
    generalize (abs (g_step g o).1) as s'. generalize ((g_step g o).2) as r.
    intros r s' S Hr. destruct o; simpl in *.
    - destruct S as (v0 & _ & _ & ->). done.
    - destruct S as (_ & [[_ ->]|[H0 ->]]); done.
    - destruct S as [(_ & _ & e0 & [Hf _] & _ & ->)|(_ & _ & ->)]; [|done].
      simpl. rewrite lookup_insert_ne; [done|congruence].
    - destruct S as [(ed' & _ & _ & ->)|(_ & _ & ->)]; [|done]. simpl. by rewrite lookup_delete_ne.
    - destruct S as [(ob' & _ & _ & _ & ->)|(_ & _ & ->)]; done.
    - done.
    - done.
    - destruct S as (_ & -> & _). done.
    - destruct S as [(_ & _ & ->)|(_ & _ & ->)]; done.
    - destruct S as (_ & ->). done.
  Qed.

  Lemma occurrences_app e l1 l2 : occurrences e (l1 ++ l2) = occurrences e l1 + occurrences e l2.
  Proof. unfold occurrences. by rewrite filter_app, app_length. Qed.

  Lemma occurrences_incid i (es : list (option (edge E))) v e : i <= e ->
    occurrences e (incid i es v) =
      match es !! (e - i) with
      | Some (Some ed) => (if decide (e_v1 ed = v) then 1 else 0) + (if decide (e_v2 ed = v) then 1 else 0)
      | _ => 0
      end.
  Proof.
    revert i. induction es as [|s es IH]; intros i Hi; [done|].
    destruct (decide (e = i)) as [->|Hne].
    - rewrite Nat.sub_diag. simpl.
      assert (occurrences i (incid (S i) es v) = 0) as H0.
      { unfold occurrences. destruct (filter (fun x => x = i) (incid (S i) es v)) as [|y l] eqn:Hf; [done|].
        assert (y ∈ filter (fun x => x = i) (incid (S i) es v)) as Hy by (rewrite Hf; set_solver).
        apply elem_of_list_filter in Hy as [-> Hy]. apply incid_ge in Hy. lia. }
      destruct s as [ed|]; [|done]. rewrite !occurrences_app, H0.
      assert (occurrences i [i] = 1) as H1. { unfold occurrences. by rewrite filter_cons, decide_True. }
      repeat case_decide; rewrite ?H1; unfold occurrences; simpl; lia.
    - replace (e - i) with (S (e - S i)) by lia. simpl.
      destruct s as [ed|]; [|apply IH; lia]. rewrite !occurrences_app, IH by lia.
      assert (occurrences e [i] = 0) as H1. { unfold occurrences. by rewrite filter_cons, decide_False. }
      repeat case_decide; rewrite ?H1; simpl; lia.
  Qed.

  Lemma adjacency_exact g : ginv g ->
    exists adj, (g_adjacency g).2 = Ok adj /\ length adj = g_vertex_capacity g /\
      forall v l, adj !! v = Some l -> forall e, occurrences e l = ends_at (abs g) e v.
  Proof.
    intros I. destruct (g_adjacency_ok g I) as (H1 & _). eexists. split; [exact H1|].
    split; [by rewrite map_length, seq_length|].
    intros v l Hl e. apply adj_lookup in Hl as ->.
    rewrite occurrences_incid by lia. rewrite Nat.sub_0_r. unfold ends_at. rewrite abs_edges.
    by destruct (g_edges g !! e) as [[ed|]|].
  Qed.

  Lemma go_sgo g f a b : go f (g_edges g) a b <-> sgo (abs g) f a b.
  Proof.
    unfold go, sgo, joins, sjoins. split.
    - intros (e & (ed & He & Hj) & Hf). exists e, (e_obj ed). rewrite abs_edges, He. simpl. unfold ends.
      split; [|done]. destruct Hj as [[<- <-]|[<- <-]]; auto.
    - intros (e & ob & Hj & Hf). exists e. split; [|done]. rewrite abs_edges in Hj.
      destruct (g_edges g !! e) as [[ed|]|] eqn:He; simpl in Hj; [|naive_solver|naive_solver].
      exists ed. split; [done|]. unfold ends in Hj. naive_solver.
  Qed.

  Lemma sjoins_joins g a e b ob : sjoins (abs g) a e b ob -> joins (g_edges g) a e b.
  Proof.
    unfold sjoins, joins. intros Hj. rewrite abs_edges in Hj. destruct (g_edges g !! e) as [[ed|]|] eqn:He; simpl in Hj; [|naive_solver|naive_solver].
    exists ed. split; [done|]. unfold ends in Hj. naive_solver.
  Qed.

  Lemma traverse_ok {St} g (f : nat -> nat -> nat -> bool) (upd : St -> nat -> nat -> nat -> St) v s :
    ginv g -> is_Some (s_vertices (abs g) !! v) ->
    exists enc log,
      (g_traverse (ptrav f upd) g v s).2 = Ok (enc, foldl (fun s c => upd s c.1.1 c.1.2 c.2) s log) /\
      length enc = g_vertex_capacity g /\
      (forall w, enc !! w = Some true <-> rtc (sgo (abs g) f) v w) /\
      (forall a e b, (a, e, b) ∈ log -> (exists ob, sjoins (abs g) a e b ob) /\ rtc (sgo (abs g) f) v a) /\
      NoDup (map snd (filter (fun c => f c.1.1 c.1.2 c.2 = true) log)) /\
      (forall w, w ∈ map snd (filter (fun c => f c.1.1 c.1.2 c.2 = true) log) <-> w <> v /\ rtc (sgo (abs g) f) v w) /\
      (forall a e b ob, rtc (sgo (abs g) f) v a -> sjoins (abs g) a e b ob -> ~ rtc (sgo (abs g) f) v b -> (a, e, b) ∈ log).
  Proof.
    intros I Hv. apply vertex_live_abs in Hv. pose proof Hv as [o0 Ho0].
    assert (v < length (g_vertices g)) as Hlt by (by apply lookup_lt_Some in Ho0).
    destruct (g_check_live g v Hv) as [o Ho].
    unfold g_traverse, g_traverse_enc. rewrite Ho.
    destruct (g_adjacency_ok g I) as (H1 & H2 & H3 & _). destruct (g_adjacency g) as [g' r]. cbn [fst snd] in *. subst r.
    rewrite H2, H3. destruct (adj_facts g I) as (F1 & F2 & F3 & F4).
    rewrite resize_all_alt by (by rewrite replicate_length).
    destruct (trav_closed f upd (g_vertices g) (g_edges g)
       (map (incid 0 (g_edges g)) (seq 0 (length (g_vertices g)))) F1 F2 F3 (inv_edges g I)
       v (replicate (length (g_vertices g)) false) s) as (r & s' & log & Er & P & Hm & Hask).
    - by rewrite replicate_length.
    - done.
    - intros x y Hx. unfold marked in Hx. apply lookup_replicate in Hx as [? _]. done.
    - exists r, log. split. { rewrite Er. by rewrite (p_state _ _ _ _ _ _ _ _ _ P). }
      split. { rewrite (p_len _ _ _ _ _ _ _ _ _ P). by rewrite insert_length, replicate_length. }
      assert (forall x y, rtc (go f (g_edges g)) x y <-> rtc (sgo (abs g) f) x y) as Hrtc.
      { intros x y. split; intros Hxy.
        - eapply rtc_subrel; [|exact Hxy]. intros ? ?. by apply go_sgo.
        - eapply rtc_subrel; [|exact Hxy]. intros ? ?. by apply go_sgo. }
      assert (forall w, r !! w = Some true <-> rtc (sgo (abs g) f) v w) as Hrw.
      { intros w. rewrite <- Hrtc. split.
        - intros Hw. apply Hm in Hw as [Hw|Hw]; [|done]. apply lookup_replicate in Hw as [? _]. done.
        - intros Hw. apply Hm. by right. }
      split; [done|]. split.
      { intros a e b Hc. destruct (p_calls _ _ _ _ _ _ _ _ _ P (a, e, b) Hc) as (Hj & Ha & _).
        simpl in *. split; [|by apply Hrw]. destruct Hj as (ed & He & Hj). exists (e_obj ed).
        unfold sjoins. rewrite abs_edges, He. simpl. unfold ends. destruct Hj as [[<- <-]|[<- <-]]; auto. }
      split; [apply (p_nodup _ _ _ _ _ _ _ _ _ P)|].
      split; [|intros a e b ob Ha Hj Hb; apply Hask; [by apply Hrw| |by eapply sjoins_joins|by rewrite <- Hrw in Hb];
        intros Hw; unfold marked in Hw; apply lookup_replicate in Hw as [? _]; done].
      intros w. rewrite (p_targets _ _ _ _ _ _ _ _ _ P w). unfold marked.
      rewrite Hrw. rewrite lookup_insert_cases by (by rewrite replicate_length).
      case_decide; [naive_solver|]. split; [naive_solver|].
      intros [? ?]. split; [done|]. intros Hw. apply lookup_replicate in Hw as [? _]. done.
  Qed.
End more.
