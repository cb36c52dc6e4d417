(** Correctness of [UndirectedGraph::traverse] (depth first search). *)
From stdpp Require Import gmap fin_maps.
From Verif Require Import Base Graph GraphSpec GraphProofs.

(** Number of [false] entries: the termination measure. *)
Definition cf (enc : list bool) : nat := length (filter (fun b => b = false) enc).

Lemma cf_insert enc w : enc !! w = Some false -> S (cf (<[w:=true]> enc)) = cf enc.
Proof.
  unfold cf. revert w. induction enc as [|b enc IH]; intros [|w] H; simplify_eq/=.
  - done.
  - rewrite !filter_cons. specialize (IH w H). destruct b; simpl; lia.
Qed.
Lemma cf_insert_le enc w : cf (<[w:=true]> enc) <= cf enc.
Proof.
  destruct (enc !! w) as [[]|] eqn:H.
  - by rewrite list_insert_id.
  - apply cf_insert in H. lia.
  - apply lookup_ge_None in H. by rewrite list_insert_ge.
Qed.
Lemma cf_le enc : cf enc <= length enc.
Proof. apply filter_length. Qed.

Section trav.
  Context {V E : Type} {St : Type}.
  Context (f : nat -> nat -> nat -> bool) (upd : St -> nat -> nat -> nat -> St).
  Context (vs : list (option (option V))) (es : list (option (edge E))) (adj : list (list nat)).

  Definition ptrav (s : St) (a e b : nat) : St * bool := (upd s a e b, f a e b).

  (** Edge [e] joins [a] and [b]. *)
  Definition joins (a e b : nat) : Prop :=
    exists ed, es !! e = Some (Some ed) /\
      ((e_v1 ed = a /\ e_v2 ed = b) \/ (e_v1 ed = b /\ e_v2 ed = a)).
  Definition go (a b : nat) : Prop := exists e, joins a e b /\ f a e b = true.

  Hypothesis Hlen : length adj = length vs.
  Hypothesis Hadj : forall v l e, adj !! v = Some l -> e ∈ l ->
    exists ed, es !! e = Some (Some ed) /\ (e_v1 ed = v \/ e_v2 ed = v).
  Hypothesis Hadj' : forall v l e ed, adj !! v = Some l -> es !! e = Some (Some ed) ->
    (e_v1 ed = v \/ e_v2 ed = v) -> e ∈ l.
  Hypothesis Hlive : forall e ed, es !! e = Some (Some ed) ->
    (exists o, vs !! e_v1 ed = Some (Some o)) /\ (exists o, vs !! e_v2 ed = Some (Some o)).

  Definition marked (enc : list bool) (w : nat) : Prop := enc !! w = Some true.
  #[global] Instance marked_decision enc w : Decision (marked enc w).
  Proof. unfold marked. apply _. Defined.
  Definition call := (nat * nat * nat)%type.
  Definition replay (s : St) (log : list call) : St :=
    foldl (fun s c => upd s c.1.1 c.1.2 c.2) s log.
  Definition fcall (c : call) : bool := f c.1.1 c.1.2 c.2.
  Definition targets (log : list call) : list nat :=
    map snd (filter (fun c => fcall c = true) log).

  Record post (v : nat) (enc : list bool) (s : St) (r : list bool) (s' : St) (log : list call) : Prop := {
    p_len : length r = length enc;
    p_mono : forall w, marked enc w -> marked r w;
    p_new : forall w, marked r w -> marked enc w \/ rtc go v w;
    p_closed : forall x y, marked r x -> ~ marked enc x -> go x y -> marked r y;
    p_state : s' = replay s log;
    p_calls : forall c, c ∈ log -> joins c.1.1 c.1.2 c.2 /\ marked r c.1.1 /\
               (c.1.1 = v \/ ~ marked enc c.1.1) /\ ~ marked enc c.2;
    p_targets : forall w, w ∈ targets log <-> marked r w /\ ~ marked enc w;
    p_nodup : NoDup (targets log);
    p_asked : forall x e y, marked r x -> ~ marked enc x -> joins x e y -> ~ marked r y -> (x, e, y) ∈ log;
  }.

  Lemma marked_insert enc w x : w < length enc ->
    marked (<[w:=true]> enc) x <-> x = w \/ marked enc x.
  Proof.
    intros Hw. unfold marked. rewrite lookup_insert_cases by done. case_decide; naive_solver.
  Qed.

  Lemma targets_app l1 l2 : targets (l1 ++ l2) = targets l1 ++ targets l2.
  Proof. unfold targets. by rewrite filter_app, map_app. Qed.

  Lemma post_refl v enc s : post v enc s enc s [].
  Proof. split; try done; try set_solver; try constructor; try tauto; set_solver. Qed.

  Lemma post_trans v enc s enc1 s1 log1 r s2 log2 :
    post v enc s enc1 s1 log1 -> post v enc1 s1 r s2 log2 -> post v enc s r s2 (log1 ++ log2).
  Proof.
    intros P1 P2. split.
    - rewrite (p_len _ _ _ _ _ _ P2). apply P1.
    - intros w Hw. by apply P2, P1.
    - intros w Hw. apply P2 in Hw as [Hw|Hw]; [|by right]. by apply P1.
    - intros x y Hx Hn Hg.
      destruct (decide (marked enc1 x)) as [Hm|Hm].
      + apply P2. by apply (p_closed _ _ _ _ _ _ P1 x y).
      + by apply (p_closed _ _ _ _ _ _ P2 x y).
    - rewrite (p_state _ _ _ _ _ _ P2), (p_state _ _ _ _ _ _ P1). unfold replay. by rewrite foldl_app.
    - intros c [Hc|Hc]%elem_of_app.
      + destruct (p_calls _ _ _ _ _ _ P1 c Hc) as (? & ? & ? & ?).
        split; [done|]. split; [by apply P2|]. done.
      + destruct (p_calls _ _ _ _ _ _ P2 c Hc) as (? & ? & Ha & Hb).
        split; [done|]. split; [done|]. split; [|].
        * destruct Ha as [|Ha]; [by left|right]. intros H'. by apply Ha, P1.
        * intros H'. by apply Hb, P1.
    - intros w. rewrite targets_app, elem_of_app, (p_targets _ _ _ _ _ _ P1), (p_targets _ _ _ _ _ _ P2).
      destruct (decide (marked enc1 w)) as [Hm|Hm].
      + split; [|].
        * intros [[? ?]|[? ?]]; [|done]. split; [by apply P2|done].
        * intros [? ?]. by left.
      + split; [|].
        * intros [[? ?]|[? ?]]; [done|]. split; [done|]. intros H'. by apply Hm, P1.
        * intros [? ?]. by right.
    - rewrite targets_app. apply NoDup_app. split; [apply P1|]. split; [|apply P2].
      intros w H1 H2. apply (p_targets _ _ _ _ _ _ P1) in H1. apply (p_targets _ _ _ _ _ _ P2) in H2.
      naive_solver.
    - intros x e y Hx Hn Hj Hy. apply elem_of_app. destruct (decide (marked enc1 x)) as [Hm|Hm].
      + left. apply (p_asked _ _ _ _ _ _ P1); [done|done|done|]. intros H'. by apply Hy, P2.
      + right. by apply (p_asked _ _ _ _ _ _ P2).
  Qed.

  Definition rec_spec (n : nat) (rec : nat -> list bool -> St -> result (list bool * St)) : Prop :=
    forall w enc s, length enc = length vs -> cf (<[w:=true]> enc) < n ->
      (exists o, vs !! w = Some (Some o)) ->
      exists r s' log, rec w enc s = Ok (r, s') /\ post w (<[w:=true]> enc) s r s' log /\
        (forall y, go w y -> marked r y) /\ (forall e y, joins w e y -> ~ marked r y -> (w, e, y) ∈ log).

  Lemma live_lt w : (exists o, vs !! w = Some (Some o)) -> w < length vs.
  Proof. intros [o H]. by apply lookup_lt_Some in H. Qed.

  Lemma follow_ok n rec v enc s e w :
    rec_spec n rec -> length enc = length vs -> cf enc <= n ->
    marked enc v -> enc !! w = Some false ->
    (exists o, vs !! w = Some (Some o)) ->
    joins v e w -> f v e w = true ->
    exists r s' log, rec w (<[w:=true]> enc) (upd s v e w) = Ok (r, s') /\
      post v enc s r s' log /\ marked r w.
  Proof.
    intros Hrec Hl Hc Hv Hw Hwl Hj Hf.
    assert (w < length enc) as Hwlt by (by apply lookup_lt_Some in Hw).
    destruct (Hrec w (<[w:=true]> enc) (upd s v e w)) as (r & s' & log & Er & P & Hcl & Hask).
    - by rewrite insert_length.
    - rewrite list_insert_insert. apply cf_insert in Hw. lia.
    - done.
    - rewrite list_insert_insert in P.
      assert (marked r w) as Hrw. { apply P. apply marked_insert; auto. }
      assert (~ marked enc w) as Hnw. { unfold marked. rewrite Hw. congruence. }
      assert (rtc go v w) as Hvw. { apply rtc_once. by exists e. }
      exists r, s', ((v, e, w) :: log). split; [done|]. split; [|done].
      split.
      + rewrite (p_len _ _ _ _ _ _ P). by rewrite insert_length.
      + intros x Hx. apply P. apply marked_insert; auto.
      + intros x Hx. apply P in Hx as [Hx|Hx].
        * apply marked_insert in Hx as [->|Hx]; auto.
        * right. by trans w.
      + intros x y Hx Hn Hg. destruct (decide (x = w)) as [->|Hne]; [by apply Hcl|].
        apply (p_closed _ _ _ _ _ _ P x y); [done| |done]. rewrite marked_insert by done. tauto.
      + rewrite (p_state _ _ _ _ _ _ P). done.
      + intros c [->|Hc']%elem_of_cons.
        * simpl. split; [done|]. split; [apply P; apply marked_insert; auto|]. auto.
        * destruct (p_calls _ _ _ _ _ _ P c Hc') as (? & ? & Ha & Hb).
          rewrite marked_insert in Ha, Hb by done. split; [done|]. split; [done|].
          split; [|tauto]. right. destruct Ha as [->|Ha]; [done|tauto].
      + intros x. unfold targets in *. rewrite filter_cons.
        assert (fcall (v, e, w) = true) as Hfc by done. rewrite decide_True by done.
        simpl. rewrite elem_of_cons. rewrite (p_targets _ _ _ _ _ _ P).
        rewrite marked_insert by done. destruct (decide (x = w)) as [->|]; [tauto|]. tauto.
      + unfold targets. rewrite filter_cons, decide_True by done. simpl. constructor; [|apply P].
        intros Hin. apply (p_targets _ _ _ _ _ _ P) in Hin as [_ Hin]. apply Hin.
        apply marked_insert; auto.
      + intros x e' y Hx Hn Hj' Hy. apply elem_of_cons. right. destruct (decide (x = w)) as [->|Hne]; [by apply Hask|].
        apply (p_asked _ _ _ _ _ _ P); [done| |done|done]. rewrite marked_insert by done. tauto.
  Qed.

  Lemma nofollow_ok v enc s e w :
    marked enc v -> enc !! w = Some false -> joins v e w -> f v e w = false ->
    post v enc s enc (upd s v e w) [(v, e, w)].
  Proof.
    intros Hv Hw Hj Hf.
    assert (targets [(v, e, w)] = []) as Ht.
    { unfold targets. rewrite filter_cons, decide_False; [done|]. unfold fcall; simpl. congruence. }
    split; try done; try tauto.
    - intros c ->%elem_of_list_singleton. simpl. split; [done|]. split; [done|]. split; [by left|].
      unfold marked. congruence.
    - intros x. rewrite Ht. set_solver.
    - rewrite Ht. constructor.
  Qed.

  Lemma marked_dec enc w : w < length enc -> enc !! w = Some true \/ enc !! w = Some false.
  Proof. intros H. apply lookup_lt_is_Some in H as [[] H]; auto. Qed.

  Lemma trav_edges_ok n rec v l enc s :
    rec_spec n rec -> length enc = length vs -> cf enc <= n -> marked enc v ->
    (forall e, e ∈ l -> exists ed, es !! e = Some (Some ed) /\ (e_v1 ed = v \/ e_v2 ed = v)) ->
    exists r s' log, trav_edges ptrav es rec l enc s = Ok (r, s') /\ post v enc s r s' log /\
      (forall e y, e ∈ l -> joins v e y -> f v e y = true -> marked r y) /\
      (forall e y, e ∈ l -> joins v e y -> ~ marked r y -> (v, e, y) ∈ log).
  Proof.
    intros Hrec. revert enc s. induction l as [|e l IH]; intros enc s Hl Hc Hv Hin.
    { exists enc, s, []. split; [done|]. split; [apply post_refl|]. split; set_solver. }
    destruct (Hin e) as (ed & He & Hev); [set_solver|].
    destruct (Hlive e ed He) as [Hl1 Hl2].
    assert (forall y, joins v e y -> (e_v1 ed = v /\ e_v2 ed = y) \/ (e_v1 ed = y /\ e_v2 ed = v)) as Hjv.
    { intros y (ed' & He' & Hj). assert (ed' = ed) as -> by congruence. done. }
    assert (forall e0, e0 ∈ l -> exists ed, es !! e0 = Some (Some ed) /\ (e_v1 ed = v \/ e_v2 ed = v)) as Hin'.
    { intros e0 H0. apply Hin. set_solver. }
    (* continue with the tail after a step to enc1 *)
    assert (forall enc1 s1 log1, post v enc s enc1 s1 log1 ->
              (forall y, joins v e y -> f v e y = true -> marked enc1 y) ->
              (forall y, joins v e y -> ~ marked enc1 y -> (v, e, y) ∈ log1) ->
              exists r s' log, trav_edges ptrav es rec l enc1 s1 = Ok (r, s') /\ post v enc s r s' log /\
                (forall e0 y, e0 ∈ e :: l -> joins v e0 y -> f v e0 y = true -> marked r y) /\
                (forall e0 y, e0 ∈ e :: l -> joins v e0 y -> ~ marked r y -> (v, e0, y) ∈ log)) as Hk.
    { intros enc1 s1 log1 P1 Hcl1 Hask1.
      destruct (IH enc1 s1) as (r & s' & log & Er & P & Hcl & Hask).
      - rewrite (p_len _ _ _ _ _ _ P1). done.
      - clear -P1 Hc. revert P1 Hc. intros P1.
        assert (cf enc1 <= cf enc); [|lia].
        pose proof (p_len _ _ _ _ _ _ P1) as HL. pose proof (p_mono _ _ _ _ _ _ P1) as HM.
        clear P1. revert enc1 HL HM. induction enc as [|b enc IHe]; intros [|b1 enc1] HL HM; simpl in *; try done.
        unfold cf in *. rewrite !filter_cons.
        assert (length (filter (fun b => b = false) enc1) <= length (filter (fun b => b = false) enc)).
        { apply IHe; [lia|]. intros w Hw. exact (HM (S w) Hw). }
        destruct b, b1; simpl; try lia. specialize (HM 0 eq_refl). done.
      - by apply P1.
      - done.
      - exists r, s', (log1 ++ log). split; [done|]. split; [by eapply post_trans|]. split.
        + intros e0 y [->|H0]%elem_of_cons Hj Hf; [|by eapply Hcl]. apply P. by eapply Hcl1.
        + intros e0 y [->|H0]%elem_of_cons Hj Hy; apply elem_of_app; [left|right; by apply Hask]. apply Hask1; [done|].
          intros H'. by apply Hy, P. }
    cbn [trav_edges]. rewrite He.
    assert (e_v1 ed < length enc) as Hlt1 by (rewrite Hl; by apply live_lt).
    assert (e_v2 ed < length enc) as Hlt2 by (rewrite Hl; by apply live_lt).
    destruct (marked_dec enc (e_v1 ed) Hlt1) as [M1|M1]; rewrite M1.
    - destruct (marked_dec enc (e_v2 ed) Hlt2) as [M2|M2]; rewrite M2.
      + apply (Hk enc s []); [apply post_refl| |].
        * intros y Hj _. destruct (Hjv y Hj) as [[? <-]|[<- ?]]; done.
        * intros y Hj Hy. destruct (Hjv y Hj) as [[? <-]|[<- ?]]; done.
      + assert (e_v1 ed = v) as Hv1.
        { destruct Hev as [|Hev]; [done|]. rewrite Hev in M2. unfold marked in Hv. congruence. }
        assert (joins v e (e_v2 ed)) as Hj by (exists ed; auto).
        rewrite Hv1. unfold ptrav at 1. destruct (f v e (e_v2 ed)) eqn:Hf.
        * destruct (follow_ok n rec v enc s e (e_v2 ed)) as (r & s' & log & Er & P & Hr); try done.
          rewrite Er. cbn [result_bind fst snd].
          assert (forall y, joins v e y -> marked r y) as Hm.
          { intros y Hj'. destruct (Hjv y Hj') as [[? <-]|[<- ?]]; [done|]. rewrite Hv1. by apply P. }
          apply (Hk r s' log); [done|by intros; apply Hm|]. intros y Hj' Hy. by apply Hm in Hj'.
        * eapply Hk; [by apply nofollow_ok| |].
          -- intros y Hj' Hf'. destruct (Hjv y Hj') as [[? <-]|[<- ?]]; [congruence|]. by rewrite Hv1.
          -- intros y Hj' Hy. destruct (Hjv y Hj') as [[? <-]|[<- ?]]; [by left|]. rewrite Hv1 in Hy. done.
    - assert (e_v2 ed = v) as Hv2.
      { destruct Hev as [Hev|]; [|done]. rewrite Hev in M1. unfold marked in Hv. congruence. }
      assert (joins v e (e_v1 ed)) as Hj by (exists ed; auto).
      rewrite Hv2. unfold ptrav at 1. destruct (f v e (e_v1 ed)) eqn:Hf.
      * destruct (follow_ok n rec v enc s e (e_v1 ed)) as (r & s' & log & Er & P & Hr); try done.
        rewrite Er. cbn [result_bind fst snd].
        assert (forall y, joins v e y -> marked r y) as Hm.
        { intros y Hj'. destruct (Hjv y Hj') as [[? <-]|[<- ?]]; [|done]. rewrite Hv2. by apply P. }
        apply (Hk r s' log); [done|by intros; apply Hm|]. intros y Hj' Hy. by apply Hm in Hj'.
      * eapply Hk; [by apply nofollow_ok| |].
        -- intros y Hj' Hf'. destruct (Hjv y Hj') as [[? <-]|[<- ?]]; [|congruence]. by rewrite Hv2.
        -- intros y Hj' Hy. destruct (Hjv y Hj') as [[? <-]|[<- ?]]; [|by left]. rewrite Hv2 in Hy. done.
  Qed.

  Lemma trav_rec_ok n : rec_spec n (trav_rec ptrav vs es adj n).
  Proof.
    induction n as [|n IH]; intros v enc s Hl Hc Hv; [lia|].
    pose proof (live_lt v Hv) as Hlt. destruct Hv as [o Ho].
    cbn [trav_rec]. rewrite Ho.
    destruct (lookup_lt_is_Some_2 adj v) as [l Hal]; [lia|]. rewrite Hal.
    rewrite vset_lt by lia.
    destruct (trav_edges_ok n (trav_rec ptrav vs es adj n) v l (<[v:=true]> enc) s) as (r & s' & log & Er & P & Hcl & Hask).
    - done.
    - by rewrite insert_length.
    - lia.
    - apply marked_insert; [lia|auto].
    - intros e He. by eapply Hadj.
    - assert (forall e y, joins v e y -> e ∈ l) as Hl'.
      { intros e y (ed & He & Hj). eapply Hadj'; [done|done|]. naive_solver. }
      exists r, s', log. split; [done|]. split; [done|]. split.
      + intros y (e & Hj & Hf). apply (Hcl e y); [by eapply Hl'|done|done].
      + intros e y Hj. apply Hask; [by eapply Hl'|done].
  Qed.

  (** From an arbitrary initial marking. *)
  Lemma trav_from v enc s :
    length enc = length vs -> (exists o, vs !! v = Some (Some o)) ->
    exists r s' log, trav_rec ptrav vs es adj (S (length vs)) v enc s = Ok (r, s') /\
      post v (<[v:=true]> enc) s r s' log /\ (forall y, go v y -> marked r y) /\
      (forall e y, joins v e y -> ~ marked r y -> (v, e, y) ∈ log).
  Proof.
    intros Hl Hv. apply (trav_rec_ok (S (length vs))); [done| |done].
    pose proof (cf_le (<[v:=true]> enc)) as H. rewrite insert_length in H. lia.
  Qed.

  (** From a marking closed under [go] (a union of already explored components). *)
  Lemma trav_closed v enc s :
    length enc = length vs -> (exists o, vs !! v = Some (Some o)) ->
    (forall x y, marked enc x -> go x y -> marked enc y) ->
    exists r s' log, trav_rec ptrav vs es adj (S (length vs)) v enc s = Ok (r, s') /\
      post v (<[v:=true]> enc) s r s' log /\
      (forall w, marked r w <-> marked enc w \/ rtc go v w) /\
      (forall x e y, marked r x -> ~ marked enc x -> joins x e y -> ~ marked r y -> (x, e, y) ∈ log).
  Proof.
    intros Hl Hv Hcl. destruct (trav_from v enc s Hl Hv) as (r & s' & log & Er & P & Hg & Hask).
    exists r, s', log. split; [done|]. split; [done|].
    pose proof (live_lt v Hv) as Hlt.
    assert (forall x y, marked r x -> go x y -> marked r y) as Hrcl.
    { intros x y Hx Hgo. destruct (decide (x = v)) as [->|Hne]; [by apply Hg|].
      destruct (decide (marked enc x)) as [Hm|Hm].
      - apply P. apply marked_insert; [lia|]. right. by eapply Hcl.
      - apply (p_closed _ _ _ _ _ _ P x y); [done| |done]. rewrite marked_insert by lia. tauto. }
    split; [|intros x e y Hx Hn Hj Hy; destruct (decide (x = v)) as [->|Hne]; [by apply Hask|];
      apply (p_asked _ _ _ _ _ _ P); [done| |done|done]; rewrite marked_insert by lia; tauto].
    intros w. split.
    - intros Hw. apply P in Hw as [Hw|Hw]; [|auto].
      apply marked_insert in Hw as [->|Hw]; [right; apply rtc_refl|auto|lia].
    - intros [Hw|Hw].
      + apply P. apply marked_insert; [lia|auto].
      + assert (marked r v) as Hrv by (apply P, marked_insert; [lia|auto]).
        clear -Hw Hrv Hrcl. induction Hw as [x|x y z Hxy Hyz IH]; [done|]. apply IH. by eapply Hrcl.
  Qed.
End trav.
