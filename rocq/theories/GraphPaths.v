(** Correctness of [UndirectedGraph::findAllPaths]. *)
From stdpp Require Import gmap fin_maps.
From Verif Require Import Base Graph GraphSpec GraphProofs GraphTraverse.

Section paths.
  Context {V E : Type}.
  Context (complete : option V -> bool) (cancel : option E -> bool).
  Context (vs : list (option (option V))) (es : list (option (edge E))) (adj : list (list nat)).

  Definition usable (v e w : nat) : Prop :=
    exists ed, es !! e = Some (Some ed) /\ cancel (e_obj ed) = false /\
      ((e_v1 ed = v /\ e_v2 ed = w) \/ (e_v1 ed = w /\ e_v2 ed = v)).

  Inductive spath : list bool -> nat -> list nat -> Prop :=
  | sp_last enc v e w o :
      usable v e w -> enc !! w = Some false -> vs !! w = Some (Some o) -> complete o = true ->
      spath enc v [e]
  | sp_cons enc v e w o p :
      usable v e w -> enc !! w = Some false -> vs !! w = Some (Some o) -> complete o = false ->
      spath (<[w:=true]> enc) w p -> spath enc v (e :: p).

  Lemma spath_nonnil enc v p : spath enc v p -> p <> [].
  Proof. by destruct 1. Qed.

  Definition selfloop (e : nat) : Prop :=
    exists ed, es !! e = Some (Some ed) /\ e_v1 ed = e_v2 ed.
  Fixpoint ok_dups (l : list nat) : Prop :=
    match l with
    | [] => True
    | e :: l' => (e ∈ l' -> selfloop e) /\ ok_dups l'
    end.

  Hypothesis Hlen : length adj = length vs.
  Hypothesis Hadj : forall v l e, adj !! v = Some l -> e ∈ l ->
    exists ed, es !! e = Some (Some ed) /\ (e_v1 ed = v \/ e_v2 ed = v).
  Hypothesis Hadj' : forall v l e ed, adj !! v = Some l -> es !! e = Some (Some ed) ->
    (e_v1 ed = v \/ e_v2 ed = v) -> e ∈ l.
  Hypothesis Hdups : forall v l, adj !! v = Some l -> ok_dups l.
  Hypothesis Hlive : forall e ed, es !! e = Some (Some ed) ->
    (exists o, vs !! e_v1 ed = Some (Some o)) /\ (exists o, vs !! e_v2 ed = Some (Some o)).

  Definition prec_spec (n : nat) (rec : nat -> list bool -> list nat -> result (list (list nat))) : Prop :=
    forall v enc path, length enc = length vs -> cf (<[v:=true]> enc) < n ->
      (exists o, vs !! v = Some (Some o)) ->
      exists ps, rec v enc path = Ok ps /\ NoDup ps /\
        forall q, q ∈ ps <-> exists p, q = path ++ p /\ spath (<[v:=true]> enc) v p.

  Lemma usable_fun v e w w' : usable v e w -> usable v e w' -> w = w'.
  Proof.
    intros (ed & He & _ & H) (ed' & He' & _ & H'). assert (ed' = ed) as -> by congruence.
    destruct H as [[? ?]|[? ?]], H' as [[? ?]|[? ?]]; congruence.
  Qed.

  (** Paths beginning with a given usable edge. *)
  Lemma follow_paths n rec v enc path e w :
    prec_spec n rec -> length enc = length vs -> cf enc <= n ->
    usable v e w -> (exists o, vs !! w = Some (Some o)) ->
    exists ps,
      match enc !! w with
      | None => UB
      | Some true => Ok []
      | Some false =>
        match vs !! w with
        | Some (Some o) => if complete o then Ok [path ++ [e]] else rec w enc (path ++ [e])
        | _ => UB
        end
      end = Ok ps /\ NoDup ps /\
      (forall q, q ∈ ps <-> exists p, q = path ++ e :: p /\ spath enc v (e :: p)) /\
      (enc !! w = Some true -> ps = []).
  Proof.
    intros Hrec Hl Hc Hu [o Ho].
    assert (w < length enc) as Hlt by (rewrite Hl; by apply lookup_lt_Some in Ho).
    destruct (marked_dec enc w Hlt) as [M|M]; rewrite M.
    - exists []. split; [done|]. split; [constructor|]. split; [|done].
      intros q. split; [set_solver|]. intros (p & _ & Hp).
      inversion Hp as [? ? ? w' ? Hu' Hw'|? ? ? w' ? ? Hu' Hw']; subst;
        rewrite (usable_fun _ _ _ _ Hu' Hu) in Hw'; congruence.
    - rewrite Ho. destruct (complete o) eqn:Hco.
      + exists [path ++ [e]]. split; [done|]. split; [apply NoDup_singleton|]. split; [|congruence].
        intros q. rewrite elem_of_list_singleton. split.
        * intros ->. exists []. split; [done|]. by eapply sp_last.
        * intros (p & -> & Hp). inversion Hp as [? ? ? w' o' Hu' Hw' Ho'|? ? ? w' o' ? Hu' Hw' Ho' Hco']; subst; [done|].
          assert (w' = w) as -> by (eapply usable_fun; eauto). congruence.
      + destruct (Hrec w enc (path ++ [e])) as (ps & Er & Hnd & Hq).
        * done.
        * apply cf_insert in M. lia.
        * eauto.
        * exists ps. split; [done|]. split; [done|]. split; [|congruence].
          intros q. rewrite Hq. split.
          -- intros (p & -> & Hp). exists p. rewrite <- app_assoc. split; [done|]. by eapply sp_cons.
          -- intros (p & -> & Hp). exists p. rewrite <- app_assoc. split; [done|].
             inversion Hp as [? ? ? w' o' Hu' Hw' Ho' Hco'|? ? ? w' o' ? Hu' Hw' Ho' Hco' Hp']; subst.
             ++ assert (w' = w) as -> by (eapply usable_fun; eauto). congruence.
             ++ assert (w' = w) as -> by (eapply usable_fun; eauto). done.
  Qed.

  Lemma paths_edges_ok n rec v l enc path :
    prec_spec n rec -> length enc = length vs -> cf enc <= n -> marked enc v ->
    (forall e, e ∈ l -> exists ed, es !! e = Some (Some ed) /\ (e_v1 ed = v \/ e_v2 ed = v)) ->
    ok_dups l ->
    exists ps, paths_edges complete cancel vs es v enc path rec l = Ok ps /\ NoDup ps /\
      forall q, q ∈ ps <-> exists e p, e ∈ l /\ q = path ++ e :: p /\ spath enc v (e :: p).
  Proof.
    intros Hrec Hl Hc Hv. induction l as [|e l IH]; intros Hin Hd.
    { exists []. split; [done|]. split; [constructor|]. set_solver. }
    destruct (Hin e) as (ed & He & Hev); [set_solver|].
    destruct (Hlive e ed He) as [Hl1 Hl2]. destruct Hd as [Hd1 Hd2].
    destruct IH as (ps' & Eps' & Hnd' & Hq'); [set_solver|done|].
    unfold paths_edges in *. rewrite He.
    destruct (cancel (e_obj ed)) eqn:Hcan.
    { rewrite Eps'. exists ps'. split; [done|]. split; [done|].
      intros q. rewrite Hq'. split.
      - intros (e0 & p & ? & ? & ?). exists e0, p. set_solver.
      - intros (e0 & p & [->|H0]%elem_of_cons & ? & Hp); [|by exists e0, p].
        exfalso. inversion Hp as [? ? ? w' o' (ed' & He' & Hc' & _)|? ? ? w' o' ? (ed' & He' & Hc' & _)]; subst; congruence. }
    assert (exists w, usable v e w /\ (exists o, vs !! w = Some (Some o)) /\
      (selfloop e -> w = v) /\
      (forall T (a : nat -> T) (b : T), (if v =? e_v2 ed then a (e_v1 ed) else if v =? e_v1 ed then a (e_v2 ed) else b) = a w))
      as (w & Hu & Hwl & Hsl & Hif).
    { destruct (Nat.eqb_spec v (e_v2 ed)) as [->|Hne].
      - exists (e_v1 ed). split; [exists ed; auto|]. split; [done|]. split; [|done].
        intros (ed' & He' & Hs). assert (ed' = ed) as -> by congruence. done.
      - destruct Hev as [Hev|Hev]; [|congruence].
        exists (e_v2 ed). split; [exists ed; auto|]. split; [done|]. split.
        + intros (ed' & He' & Hs). assert (ed' = ed) as -> by congruence. congruence.
        + intros T a b. rewrite Hev, Nat.eqb_refl. done. }
    rewrite (Hif _ (fun w => match enc !! w with
        | Some true => Ok []
        | Some false => match vs !! w with
           | Some (Some o) => if complete o then Ok [path ++ [e]] else rec w enc (path ++ [e])
           | _ => UB end
        | None => UB end)).
    destruct (follow_paths n rec v enc path e w) as (ps & Eps & Hnd & Hq & Hnil); try done.
    rewrite Eps. cbn [result_bind]. rewrite Eps'. cbn [result_bind].
    exists (ps ++ ps'). split; [done|]. split.
    - apply NoDup_app. split; [done|]. split; [|done].
      intros q Hq1 Hq2. apply Hq in Hq1 as Hq1'. destruct Hq1' as (p & -> & Hp).
      apply Hq' in Hq2 as (e' & p' & Hin' & Heq & Hp').
      apply app_inv_head in Heq. injection Heq as <- <-.
      apply Hd1, Hsl in Hin'. subst w. rewrite Hnil in Hq1; [set_solver|done].
    - intros q. rewrite elem_of_app, Hq, Hq'. split.
      + intros [(p & -> & Hp)|(e' & p & ? & -> & Hp)]; [exists e, p|exists e', p]; set_solver.
      + intros (e' & p & [->|H0]%elem_of_cons & -> & Hp); [left; eauto|right; eauto].
  Qed.

  Lemma paths_rec_ok n : prec_spec n (paths_rec complete cancel vs es adj n).
  Proof.
    induction n as [|n IH]; intros v enc path Hl Hc Hv; [lia|].
    destruct Hv as [o Ho]. assert (v < length vs) as Hlt by (by apply lookup_lt_Some in Ho).
    cbn [paths_rec]. rewrite Ho. rewrite vset_lt by lia.
    destruct (lookup_lt_is_Some_2 adj v) as [l Hal]; [lia|]. rewrite Hal.
    destruct (paths_edges_ok n (paths_rec complete cancel vs es adj n) v l (<[v:=true]> enc) path)
      as (ps & Eps & Hnd & Hq).
    - done.
    - by rewrite insert_length.
    - lia.
    - apply list_lookup_insert. lia.
    - intros e He. by eapply Hadj.
    - by eapply Hdups.
    - exists ps. split; [done|]. split; [done|]. intros q. rewrite Hq. split.
      + intros (e & p & _ & -> & Hp). eauto.
      + intros (p & -> & Hp). destruct p as [|e p]; [by apply spath_nonnil in Hp|].
        exists e, p. split; [|done].
        assert (exists w, usable v e w) as (w & ed & He & _ & Hj) by (inversion Hp; subst; eauto).
        eapply Hadj'; [done|done|]. naive_solver.
  Qed.

  (** ** Link with the declarative description *)
  Definition wpath (v : nat) (p ws : list nat) : Prop :=
    length ws = length p /\
    (forall i e, p !! i = Some e -> exists a b, (v :: ws) !! i = Some a /\ ws !! i = Some b /\ usable a e b) /\
    (forall i w, ws !! i = Some w -> exists o, vs !! w = Some (Some o) /\ (complete o = true <-> S i = length p)).

  Lemma spath_wpath enc v p : length enc = length vs ->
    spath enc v p <-> p <> [] /\ exists ws, wpath v p ws /\ NoDup ws /\ forall w, w ∈ ws -> enc !! w = Some false.
  Proof using Type.
    clear Hlen Hadj Hadj' Hdups Hlive adj.
    revert enc v. induction p as [|e p IH]; intros enc v Hl.
    { split; [intros H; by apply spath_nonnil in H|naive_solver]. }
    split.
    - intros Hp. split; [done|].
      inversion Hp as [? ? ? w o Hu Hw Ho Hco|? ? ? w o ? Hu Hw Ho Hco Hp']; subst.
      + exists [w]. split; [|split; [apply NoDup_singleton|set_solver]].
        split; [done|]. split.
        * intros [|i] e' He'; simpl in *; [|done]. simplify_eq. eauto.
        * intros [|i] w' Hw'; simpl in *; [|done]. simplify_eq. exists o. split; [done|]. by rewrite Hco.
      + apply IH in Hp' as (Hne & ws & (Hlw & H1 & H2) & Hnd & Hun); [|by rewrite insert_length].
        assert (w < length enc) as Hlt by (by apply lookup_lt_Some in Hw).
        exists (w :: ws). split; [|split].
        * split; [simpl; lia|]. split.
          -- intros [|i] e' He'; simpl in *; simplify_eq; [eauto|].
             destruct (H1 i e' He') as (a & b & Ha & Hb & Hu'). exists a, b. destruct i; simpl in *; auto.
          -- intros [|i] w' Hw'; simpl in *; simplify_eq.
             ++ exists o. split; [done|]. rewrite Hco. split; [done|]. intros [= Hp0].
                destruct p; done.
             ++ destruct (H2 i w' Hw') as (o' & Ho' & Hiff). exists o'. split; [done|]. rewrite Hiff. lia.
        * constructor; [|done]. intros Hin. apply Hun in Hin.
          rewrite list_lookup_insert in Hin by done. done.
        * intros x [->|Hx]%elem_of_cons; [done|]. apply Hun in Hx.
          rewrite lookup_insert_cases in Hx by done. by case_decide.
    - intros (_ & ws & (Hlw & H1 & H2) & Hnd & Hun). destruct ws as [|w ws]; [done|].
      destruct (H1 0 e eq_refl) as (a & b & Ha & Hb & Hu). simpl in Ha, Hb. simplify_eq.
      destruct (H2 0 _ eq_refl) as (o & Ho & Hco).
      apply NoDup_cons in Hnd as [Hnin Hnd].
      assert (enc !! b = Some false) as Hb by (apply Hun; set_solver).
      assert (b < length enc) as Hlt by (by apply lookup_lt_Some in Hb).
      destruct p as [|e' p'].
      + eapply sp_last; [done|done|done|]. by apply Hco.
      + eapply sp_cons; [done|done|done| |].
        * destruct (complete o); [|done]. destruct Hco as [Hco _]. specialize (Hco eq_refl). simpl in Hco. lia.
        * apply IH; [by rewrite insert_length|]. split; [done|].
          exists ws. split; [|split; [done|]].
          -- split; [simpl in *; lia|]. split.
             ++ intros i e0 He0. destruct (H1 (S i) e0 He0) as (a' & b' & ? & ? & ?). exists a', b'. eauto.
             ++ intros i w' Hw'. destruct (H2 (S i) w' Hw') as (o' & ? & Hiff). exists o'. split; [done|].
                rewrite Hiff. simpl. lia.
          -- intros x Hx. rewrite lookup_insert_cases by done. rewrite decide_False; [|set_solver].
             apply Hun. set_solver.
  Qed.
End paths.

Section graph_level.
  Context {V E : Type}.
  Implicit Types g : graph V E.

  Lemma incid_ge i (es : list (option (edge E))) v e : e ∈ incid i es v -> i <= e.
  Proof.
    revert i. induction es as [|[ed|] es IH]; intros i; simpl; [set_solver| |].
    - rewrite !elem_of_app. intros [H|[H|H]]; [case_decide; set_solver|case_decide; set_solver|].
      apply IH in H. lia.
    - intros H. apply IH in H. lia.
  Qed.

  Lemma incid_dups (es0 : list (option (edge E))) i es v :
    (forall k, es0 !! (i + k) = es !! k) -> ok_dups es0 (incid i es v).
  Proof.
    revert i. induction es as [|s es IH]; intros i Hs; simpl; [done|].
    assert (ok_dups es0 (incid (S i) es v)) as Htl.
    { apply IH. intros k. specialize (Hs (S k)). simpl in Hs. rewrite <- Hs. f_equal. lia. }
    destruct s as [ed|]; [|done].
    assert (es0 !! i = Some (Some ed)) as He.
    { specialize (Hs 0). by rewrite Nat.add_0_r in Hs. }
    assert (i ∉ incid (S i) es v) as Hnin.
    { intros H. apply incid_ge in H. lia. }
    case_decide; case_decide; simpl; repeat split; try done.
    intros _. exists ed. split; [done|congruence].
  Qed.

  Lemma adj_lookup g v l : map (incid 0 (g_edges g)) (seq 0 (length (g_vertices g))) !! v = Some l ->
    l = incid 0 (g_edges g) v.
  Proof.
    change (map (incid 0 (g_edges g))) with (fmap (M:=list) (incid 0 (g_edges g))).
    rewrite list_lookup_fmap. intros H.
    destruct (seq 0 (length (g_vertices g)) !! v) eqn:Hs; [|done].
    apply lookup_seq in Hs as [-> _]. simpl in H. congruence.
  Qed.

  (** The graph-level facts needed by both algorithms. *)
  Lemma adj_facts g (adj := map (incid 0 (g_edges g)) (seq 0 (length (g_vertices g)))) : ginv g ->
    length adj = length (g_vertices g) /\
    (forall v l e, adj !! v = Some l -> e ∈ l ->
      exists ed, g_edges g !! e = Some (Some ed) /\ (e_v1 ed = v \/ e_v2 ed = v)) /\
    (forall v l e ed, adj !! v = Some l -> g_edges g !! e = Some (Some ed) ->
      (e_v1 ed = v \/ e_v2 ed = v) -> e ∈ l) /\
    (forall v l, adj !! v = Some l -> ok_dups (g_edges g) l).
  Proof.
    intros I. split; [by subst adj; rewrite map_length, seq_length|]. split; [|split].
    - intros v l e Hl He. apply adj_lookup in Hl as ->. by apply elem_of_incid in He.
    - intros v l e ed Hl He Hv. apply adj_lookup in Hl as ->. apply elem_of_incid. eauto.
    - intros v l Hl. apply adj_lookup in Hl as ->. by apply incid_dups.
  Qed.

  Lemma vertex_live_abs g v : is_Some (s_vertices (abs g) !! v) <-> exists o, g_vertices g !! v = Some (Some o).
  Proof.
    rewrite abs_vertices. destruct (g_vertices g !! v) as [[o|]|]; simpl; split; try naive_solver.
    all: by intros [].
  Qed.

  Lemma g_check_live g v : (exists o, g_vertices g !! v = Some (Some o)) -> exists o, g_check_vertex g v = Ok o.
  Proof. intros [o Ho]. unfold g_check_vertex. rewrite Ho. eauto. Qed.

  Lemma spath_simple g complete cancel v p : ginv g -> (exists o, g_vertices g !! v = Some (Some o)) ->
    spath complete cancel (g_vertices g) (g_edges g) (<[v:=true]> (replicate (length (g_vertices g)) false)) v p <->
    simple_path (abs g) complete cancel v p.
  Proof.
    intros I [o0 Ho0]. assert (v < length (g_vertices g)) as Hvlt by (by apply lookup_lt_Some in Ho0).
    rewrite spath_wpath by (by rewrite insert_length, replicate_length).
    assert (forall a e b, usable cancel (g_edges g) a e b <-> exists ob, sjoins (abs g) a e b ob /\ cancel ob = false) as Huse.
    { intros a e b. unfold usable, sjoins. rewrite abs_edges. split.
      - intros (ed & He & Hc & Hj). exists (e_obj ed). rewrite He. simpl. unfold ends.
        split; [|done]. destruct Hj as [[<- <-]|[<- <-]]; auto.
      - intros (ob & Hj & Hc). destruct (g_edges g !! e) as [[ed|]|]; simpl in Hj; [|naive_solver|naive_solver].
        unfold ends in Hj. exists ed. split; [done|].
        destruct Hj as [Hj|Hj]; injection Hj as <- <- <-; auto. }
    assert (forall w, (<[v:=true]> (replicate (length (g_vertices g)) false)) !! w = Some false <->
               w <> v /\ w < length (g_vertices g)) as Henc.
    { intros w. rewrite lookup_insert_cases by (by rewrite replicate_length). case_decide; [naive_solver|].
      rewrite lookup_replicate. naive_solver. }
    split.
    - intros (Hne & ws & (Hl & H1 & H2) & Hnd & Hun). exists (v :: ws).
      split; [done|]. split; [simpl; lia|]. split.
      { constructor; [|done]. intros Hin. apply Hun, Henc in Hin. naive_solver. }
      split; [done|]. split.
      + intros i e He. destruct (H1 i e He) as (a & b & Ha & Hb & Hu).
        apply Huse in Hu as (ob & ? & ?). exists a, b, ob. auto.
      + intros [|i] w Hi Hw; [lia|]. destruct (H2 i w Hw) as (o & Ho & Hiff).
        exists o. rewrite abs_vertices, Ho. auto.
    - intros (ws & Hw0 & Hl & Hnd & Hne & H1 & H2). split; [done|].
      destruct ws as [|v' ws]; [done|]. simpl in Hw0. simplify_eq/=.
      apply NoDup_cons in Hnd as [Hnin Hnd].
      exists ws. split; [|split; [done|]].
      + split; [lia|]. split.
        * intros i e He. destruct (H1 i e He) as (a & b & ob & Ha & Hb & Hj & Hc).
          exists a, b. split; [done|]. split; [done|]. apply Huse. eauto.
        * intros i w Hw. destruct (H2 (S i) w) as (o & Ho & Hiff); [lia|done|].
          exists o. split; [|done]. rewrite abs_vertices in Ho.
          destruct (g_vertices g !! w) as [[|]|]; simpl in Ho; congruence.
      + intros w Hw. apply Henc. split; [set_solver|].
        apply elem_of_list_lookup in Hw as [i Hi].
        destruct (H2 (S i) w) as (o & Ho & _); [lia|done|].
        rewrite abs_vertices in Ho. destruct (g_vertices g !! w) eqn:Hgw; [|done].
        by apply lookup_lt_Some in Hgw.
  Qed.

  Lemma find_all_paths_raw_ok g complete cancel v : ginv g -> is_Some (s_vertices (abs g) !! v) ->
    exists raw, (g_find_all_paths_raw complete cancel g v).2 = Ok raw /\ NoDup raw /\
      forall p, p ∈ raw <-> simple_path (abs g) complete cancel v p.
  Proof.
    intros I Hv. apply vertex_live_abs in Hv.
    destruct (g_check_live g v Hv) as [o Ho].
    unfold g_find_all_paths_raw. rewrite Ho.
    destruct (g_adjacency_ok g I) as (H1 & H2 & H3 & _). destruct (g_adjacency g) as [g' r]. simpl in *. subst r.
    rewrite H2, H3. destruct (adj_facts g I) as (F1 & F2 & F3 & F4).
    destruct (paths_rec_ok complete cancel (g_vertices g) (g_edges g)
       (map (incid 0 (g_edges g)) (seq 0 (length (g_vertices g)))) F1 F2 F3 F4 (inv_edges g I)
       (S (length (g_vertices g))) v (replicate (length (g_vertices g)) false) []) as (ps & Eps & Hnd & Hq).
    - by rewrite replicate_length.
    - pose proof (cf_le (<[v:=true]> (replicate (length (g_vertices g)) false))) as H.
      rewrite insert_length, replicate_length in H. lia.
    - done.
    - exists ps. split; [done|]. split; [done|]. intros p. rewrite Hq.
      rewrite <- spath_simple by done. split; [naive_solver|]. intros Hp. by exists p.
  Qed.

  (** Soundness, completeness and absence of duplicates for every outcome of [std::sort]. *)
  Lemma find_all_paths_ok g complete cancel v res : ginv g -> is_Some (s_vertices (abs g) !! v) ->
    g_find_all_paths_result complete cancel g v res ->
    NoDup res /\ sorted_by_length res /\ forall p, p ∈ res <-> simple_path (abs g) complete cancel v p.
  Proof.
    intros I Hv (raw & Hraw & Hperm & Hs).
    destruct (find_all_paths_raw_ok g complete cancel v I Hv) as (raw' & Hraw' & Hnd & Hq).
    assert (raw' = raw) as -> by congruence.
    split; [by rewrite <- Hperm|]. split; [done|]. intros p. rewrite <- Hperm. apply Hq.
  Qed.
End graph_level.
