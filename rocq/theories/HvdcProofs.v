(** Proofs about HVDC lines and stations. *)
From stdpp Require Import gmap.
From Verif Require Import Base Hvdc HvdcSpec.

(** Holds after every history without undefined behaviour. *)
Record hweak (n : hnet) : Prop := mkHW {
  hw_st : forall id a, hn_ix n !! id = Some (HStation a) <-> exists s, hn_st n !! a = Some s /\ hs_id s = id;
  hw_ln : forall id a, hn_ix n !! id = Some (HLine a) <-> exists l, hn_ln n !! a = Some l /\ hl_id l = id;
  hw_sn : forall a s, hn_st n !! a = Some s -> a < hn_next n;
  hw_lnx : forall a l, hn_ln n !! a = Some l -> a < hn_next n;
  hw_ans : forall a s l, hn_st n !! a = Some s -> hs_line s = Some l ->
    exists x, hn_ln n !! l = Some x /\ (hl_s1 x = Some a \/ hl_s2 x = Some a);
  hw_full : forall a l, hn_ln n !! a = Some l -> exists a1 a2, hl_s1 l = Some a1 /\ hl_s2 l = Some a2 }.
Record hstrong (n : hnet) : Prop := mkHS {
  hs_weak : hweak n;
  hs_both : forall a l a1 a2, hn_ln n !! a = Some l -> hl_s1 l = Some a1 -> hl_s2 l = Some a2 ->
    a1 <> a2 /\ (exists s, hn_st n !! a1 = Some s /\ hs_line s = Some a) /\ (exists s, hn_st n !! a2 = Some s /\ hs_line s = Some a) }.

Lemma find_station_spec n id a : hweak n -> find_station n id = Some a <-> exists s, hn_st n !! a = Some s /\ hs_id s = id.
Proof.
  intros W. rewrite <- (hw_st n W). unfold find_station. destruct (hn_ix n !! id) as [[b|b|]|]; split; intros H; congruence.
Qed.
Lemma find_line_spec n id a : hweak n -> find_line n id = Some a <-> exists l, hn_ln n !! a = Some l /\ hl_id l = id.
Proof.
  intros W. rewrite <- (hw_ln n W). unfold find_line. destruct (hn_ix n !! id) as [[b|b|]|]; split; intros H; congruence.
Qed.
Lemma station_inj n a b s t : hweak n -> hn_st n !! a = Some s -> hn_st n !! b = Some t -> hs_id s = hs_id t -> a = b.
Proof.
  intros W Ha Hb E. assert (H1 : hn_ix n !! hs_id s = Some (HStation a)) by (apply (hw_st n W); eauto).
  assert (H2 : hn_ix n !! hs_id s = Some (HStation b)) by (apply (hw_st n W); eauto). congruence.
Qed.
Lemma line_inj n a b s t : hweak n -> hn_ln n !! a = Some s -> hn_ln n !! b = Some t -> hl_id s = hl_id t -> a = b.
Proof.
  intros W Ha Hb E. assert (H1 : hn_ix n !! hl_id s = Some (HLine a)) by (apply (hw_ln n W); eauto).
  assert (H2 : hn_ix n !! hl_id s = Some (HLine b)) by (apply (hw_ln n W); eauto). congruence.
Qed.
Lemma get_station_spec n id a : hweak n -> get_station n id = Ok a -> id <> "" /\ exists s, hn_st n !! a = Some s /\ hs_id s = id.
Proof.
  intros W. unfold get_station. case_bool_decide; [done|]. destruct (find_station n id) as [b|] eqn:E; [|done].
  intros [= <-]. split; [done|]. by apply find_station_spec.
Qed.
Lemma check_id_spec n id : check_id n id = Ok tt -> id <> "" /\ hn_ix n !! id = None.
Proof. unfold check_id. case_bool_decide; [done|]. by destruct (hn_ix n !! id). Qed.
Lemma set_line_lookup a l m b :
  set_line a l m !! b = if bool_decide (a = b) then (fun s => mkStation (hs_id s) l) <$> m !! b else m !! b.
Proof.
  unfold set_line. case_bool_decide as E; [subst b|].
  - destruct (m !! a) eqn:E; [by rewrite lookup_insert|by rewrite E].
  - destruct (m !! a) eqn:E'; [by rewrite lookup_insert_ne|done].
Qed.
Lemma add_line_inv id i1 i2 n r n' : hweak n -> add_line id i1 i2 n = (r, n') ->
  (r <> Ok tt /\ n' = n) \/
  exists a1 a2 s1 s2, r = Ok tt /\ hn_st n !! a1 = Some s1 /\ hs_id s1 = i1 /\ hn_st n !! a2 = Some s2 /\ hs_id s2 = i2 /\
    hn_ix n !! id = None /\
    n' = mkHNet (set_line a2 (Some (hn_next n)) (set_line a1 (Some (hn_next n)) (hn_st n)))
                   (<[hn_next n := mkHLine id (Some a1) (Some a2)]> (hn_ln n)) (<[id := HLine (hn_next n)]> (hn_ix n)) (S (hn_next n)).
Proof.
  intros W. unfold add_line. destruct (get_station n i1) as [a1| | |] eqn:G1; cbn [result_bind]; try (intros [= <- <-]; left; split; done).
  destruct (get_station n i2) as [a2| | |] eqn:G2; cbn [result_bind]; try (intros [= <- <-]; left; split; done).
  destruct (check_id n id) as [[]| | |] eqn:C; cbn [result_bind]; try (intros [= <- <-]; left; split; done).
  intros [= <- <-]. right. destruct (get_station_spec _ _ _ W G1) as (_ & s1 & H1 & E1).
  destruct (get_station_spec _ _ _ W G2) as (_ & s2 & H2 & E2). destruct (check_id_spec _ _ C) as [_ N].
  exists a1, a2, s1, s2. split_and!; done.
Qed.
Lemma get_station_ub n id : get_station n id <> UB.
Proof. unfold get_station. case_bool_decide; [done|]. by destruct (find_station n id). Qed.
Lemma check_id_ub n id : check_id n id <> UB.
Proof. unfold check_id. case_bool_decide; [done|]. by destruct (hn_ix n !! id). Qed.
Lemma add_line_not_ub id i1 i2 n : (add_line id i1 i2 n).1 <> UB.
Proof.
  unfold add_line. pose proof (get_station_ub n i1). destruct (get_station n i1); cbn [result_bind]; try done.
  pose proof (get_station_ub n i2). destruct (get_station n i2); cbn [result_bind]; try done.
  pose proof (check_id_ub n id). by destruct (check_id n id).
Qed.

Lemma hweak_new : hweak hnew.
Proof.
  assert (E : forall A B (x : B) (k : nat) (P : A -> Prop), (exists y, (∅ : gmap nat A) !! k = Some y /\ P y) -> False)
    by (intros A B x k P (y & H & _); by rewrite lookup_empty in H).
  constructor; unfold hnew; cbn [hn_st hn_ln hn_ix hn_next].
  - intros id a. rewrite lookup_empty. split; [done|]. intros H. destruct (E _ _ tt _ _ H).
  - intros id a. rewrite lookup_empty. split; [done|]. intros H. destruct (E _ _ tt _ _ H).
  - intros a s H. by rewrite lookup_empty in H.
  - intros a s H. by rewrite lookup_empty in H.
  - intros a s l H. by rewrite lookup_empty in H.
  - intros a l H. by rewrite lookup_empty in H.
Qed.

(** *** The effect of [set_line] twice. *)
Lemma set2_lookup a1 a2 l m b : set_line a2 l (set_line a1 l m) !! b =
  if bool_decide (b = a1 \/ b = a2) then (fun s => mkStation (hs_id s) l) <$> m !! b else m !! b.
Proof.
  rewrite !set_line_lookup. destruct (decide (a2 = b)) as [->|D2].
  - rewrite (bool_decide_true (b = b)), (bool_decide_true (b = a1 \/ b = b)) by tauto. case_bool_decide; [subst; by destruct (m !! b)|done].
  - rewrite (bool_decide_false (a2 = b)) by done. destruct (decide (a1 = b)) as [->|D1].
    + rewrite (bool_decide_true (b = b)), (bool_decide_true (b = b \/ b = a2)) by tauto. done.
    + rewrite !bool_decide_false; [done|naive_solver|done].
Qed.
Lemma set2_some a1 a2 l m b s' : set_line a2 l (set_line a1 l m) !! b = Some s' ->
  exists s, m !! b = Some s /\ hs_id s' = hs_id s /\ hs_line s' = if bool_decide (b = a1 \/ b = a2) then l else hs_line s.
Proof.
  rewrite set2_lookup. case_bool_decide; [|intros E; exists s'; done]. destruct (m !! b) as [s|]; [|done]. intros [= <-]. by exists s.
Qed.
Lemma set2_from a1 a2 l m b s : m !! b = Some s -> exists s', set_line a2 l (set_line a1 l m) !! b = Some s' /\ hs_id s' = hs_id s /\
  hs_line s' = if bool_decide (b = a1 \/ b = a2) then l else hs_line s.
Proof.
  intros E. rewrite set2_lookup. case_bool_decide; [|by exists s]. rewrite E. by eexists.
Qed.

Lemma add_station_weak id n : hweak n -> hweak (add_station id n).2.
Proof.
  intros W. unfold add_station. destruct (check_id n id) as [[]| | |] eqn:C; [|done..]. destruct (check_id_spec _ _ C) as [_ N].
  destruct W as [Ws Wl Wn Wx Wa Wf]. constructor; cbn [snd hn_st hn_ln hn_ix hn_next].
  - intros i a. destruct (decide (i = id)) as [->|D].
    + rewrite lookup_insert. split.
      * intros [= <-]. eexists. by rewrite lookup_insert.
      * intros (s & H & E). destruct (decide (a = hn_next n)) as [->|D]; [done|]. rewrite lookup_insert_ne in H by done.
        assert (hn_ix n !! id = Some (HStation a)) by (apply Ws; eauto). congruence.
    + rewrite lookup_insert_ne by done. rewrite Ws. split; intros (s & H & E); exists s.
      * rewrite lookup_insert_ne; [done|]. intros <-. apply Wn in H. lia.
      * destruct (decide (a = hn_next n)) as [->|D']; [rewrite lookup_insert in H; injection H as <-; cbn in E; congruence|].
        by rewrite lookup_insert_ne in H.
  - intros i a. destruct (decide (i = id)) as [->|D]; [rewrite lookup_insert|by rewrite lookup_insert_ne].
    split; [done|]. intros H%Wl. congruence.
  - intros a s. destruct (decide (a = hn_next n)) as [->|D]; [lia|]. rewrite lookup_insert_ne by done. intros H%Wn. lia.
  - intros a l H%Wx. lia.
  - intros a s l. destruct (decide (a = hn_next n)) as [->|D]; [rewrite lookup_insert; intros [= <-]; done|]. rewrite lookup_insert_ne by done. apply Wa.
  - done.
Qed.
Lemma add_other_weak id n : hweak n -> hweak (add_other id n).2.
Proof.
  intros W. unfold add_other. destruct (check_id n id) as [[]| | |] eqn:C; [|done..]. destruct (check_id_spec _ _ C) as [_ N].
  destruct W as [Ws Wl Wn Wx Wa Wf]. constructor; cbn [snd hn_st hn_ln hn_ix hn_next]; try done.
  - intros i a. destruct (decide (i = id)) as [->|D]; [rewrite lookup_insert|by rewrite lookup_insert_ne].
    split; [done|]. intros H%Ws. congruence.
  - intros i a. destruct (decide (i = id)) as [->|D]; [rewrite lookup_insert|by rewrite lookup_insert_ne].
    split; [done|]. intros H%Wl. congruence.
Qed.
Lemma add_line_weak id i1 i2 n : hweak n -> hweak (add_line id i1 i2 n).2.
Proof.
  intros W. destruct (add_line id i1 i2 n) as [r n'] eqn:A. cbn [snd].
  destruct (add_line_inv _ _ _ _ _ _ W A) as [[_ ->]|(a1 & a2 & s1 & s2 & -> & H1 & E1 & H2 & E2 & N & ->)]; [done|]. clear A.
  destruct W as [Ws Wl Wn Wx Wa Wf]. constructor; cbn [snd hn_st hn_ln hn_ix hn_next].
  - intros i a. transitivity (hn_ix n !! i = Some (HStation a)).
    { destruct (decide (i = id)) as [->|D]; [rewrite lookup_insert|by rewrite lookup_insert_ne]. split; intros; congruence. }
    rewrite Ws. split; intros (s & H & E).
    + destruct (set2_from a1 a2 (Some (hn_next n)) _ _ _ H) as (s' & H' & E' & _). exists s'. split; [done|]. congruence.
    + destruct (set2_some _ _ _ _ _ _ H) as (s' & H' & E' & _). exists s'. split; [done|]. congruence.
  - intros i a. destruct (decide (i = id)) as [->|D].
    + rewrite lookup_insert. split.
      * intros [= <-]. eexists. by rewrite lookup_insert.
      * intros (s & H & E). destruct (decide (a = hn_next n)) as [->|D]; [done|]. rewrite lookup_insert_ne in H by done.
        assert (hn_ix n !! id = Some (HLine a)) by (apply Wl; eauto). congruence.
    + rewrite lookup_insert_ne by done. rewrite Wl. split; intros (s & H & E); exists s.
      * rewrite lookup_insert_ne; [done|]. intros <-. apply Wx in H. lia.
      * destruct (decide (a = hn_next n)) as [->|D']; [rewrite lookup_insert in H; injection H as <-; cbn in E; congruence|].
        by rewrite lookup_insert_ne in H.
  - intros a s H. destruct (set2_some _ _ _ _ _ _ H) as (s' & H' & _). apply Wn in H'. lia.
  - intros a s. destruct (decide (a = hn_next n)) as [->|D]; [lia|]. rewrite lookup_insert_ne by done. intros H%Wx. lia.
  - intros a s l H E. destruct (set2_some _ _ _ _ _ _ H) as (s' & H' & _ & EL). case_bool_decide as D.
    + assert (l = hn_next n) as -> by congruence. exists (mkHLine id (Some a1) (Some a2)). rewrite lookup_insert. split; [done|]. cbn. naive_solver.
    + rewrite E in EL. symmetry in EL. destruct (Wa _ _ _ H' EL) as (x & Hx & Hor). exists x. rewrite lookup_insert_ne; [done|]. intros <-. apply Wx in Hx. lia.
  - intros a l. destruct (decide (a = hn_next n)) as [->|D]; [rewrite lookup_insert; intros [= <-]; by do 2 eexists|].
    rewrite lookup_insert_ne by done. apply Wf.
Qed.
Lemma remove_station_inv id n r n' : remove_station id n = (r, n') -> hweak n ->
  (r <> Ok tt /\ n' = n) \/
  exists a s, r = Ok tt /\ hn_st n !! a = Some s /\ hs_id s = id /\ hs_line s = None /\ n' = mkHNet (delete a (hn_st n)) (hn_ln n) (delete id (hn_ix n)) (hn_next n).
Proof.
  intros H W. revert H. unfold remove_station. destruct (find_station n id) as [a|] eqn:F; [|intros [= <- <-]; by left].
  apply (find_station_spec n id a W) in F as (s & Hs & <-). rewrite Hs. destruct (hs_line s) as [l|] eqn:L.
  - unfold deref. destruct (hn_ln n !! l); intros [= <- <-]; by left.
  - intros [= <- <-]. right. by exists a, s.
Qed.
Lemma remove_station_weak id n : hweak n -> hweak (remove_station id n).2.
Proof.
  intros W. destruct (remove_station id n) as [r n'] eqn:A. cbn [snd].
  destruct (remove_station_inv _ _ _ _ A W) as [[_ ->]|(a & s & -> & Hs & <- & L & ->)]; [done|]. clear A.
  pose proof W as W0. destruct W as [Ws Wl Wn Wx Wa Wf]. constructor; cbn [snd hn_st hn_ln hn_ix hn_next].
  - intros i b. destruct (decide (i = hs_id s)) as [->|D].
    + rewrite lookup_delete. split; [done|]. intros (s' & H & E). apply lookup_delete_Some in H as [Hn H].
      destruct Hn. exact (station_inj n _ _ _ _ W0 Hs H (eq_sym E)).
    + rewrite lookup_delete_ne by done. rewrite Ws. split; intros (s' & H & E); exists s'.
      * split; [|done]. apply lookup_delete_Some. split; [|done]. intros ->. congruence.
      * apply lookup_delete_Some in H as [_ H]. done.
  - intros i b. rewrite <- Wl. destruct (decide (i = hs_id s)) as [->|D]; [|by rewrite lookup_delete_ne].
    rewrite lookup_delete. assert (hn_ix n !! hs_id s = Some (HStation a)) as -> by (apply Ws; eauto). done.
  - intros b t H%lookup_delete_Some. destruct H as [_ H]. by apply Wn in H.
  - done.
  - intros b t l H%lookup_delete_Some. destruct H as [_ H]. by apply Wa.
  - done.
Qed.
Lemma remove_line_inv id n r n' : remove_line id n = (r, n') -> hweak n ->
  (r <> Ok tt /\ n' = n) \/
  exists a l a1 a2 s1 s2, r = Ok tt /\ hn_ln n !! a = Some l /\ hl_id l = id /\ hl_s1 l = Some a1 /\ hl_s2 l = Some a2 /\
    hn_st n !! a1 = Some s1 /\ hn_st n !! a2 = Some s2 /\
    n' = mkHNet (set_line a2 None (set_line a1 None (hn_st n))) (delete a (hn_ln n)) (delete id (hn_ix n)) (hn_next n).
Proof.
  intros H W. revert H. unfold remove_line. destruct (find_line n id) as [a|] eqn:F; [|intros [= <- <-]; by left].
  apply (find_line_spec n id a W) in F as (l & Hl & <-). rewrite Hl. destruct (hw_full n W _ _ Hl) as (a1 & a2 & E1 & E2).
  unfold line_network. rewrite E1, E2. cbn [deref result_bind]. destruct (hn_st n !! a1) as [s1|] eqn:H1; [|intros [= <- <-]; by left].
  rewrite set_line_lookup. destruct (hn_st n !! a2) as [s2|] eqn:H2.
  - replace (if bool_decide (a1 = a2) then _ else _) with (Some (if bool_decide (a1 = a2) then mkStation (hs_id s2) None else s2)) by (by case_bool_decide).
    intros [= <- <-]. right. exists a, l, a1, a2, s1, s2. done.
  - replace (if bool_decide (a1 = a2) then _ else _) with (@None station) by (by case_bool_decide). intros [= <- <-]. by left.
Qed.
Lemma remove_line_weak id n : hweak n -> hweak (remove_line id n).2.
Proof.
  intros W. destruct (remove_line id n) as [r n'] eqn:A. cbn [snd].
  destruct (remove_line_inv _ _ _ _ A W) as [[_ ->]|(a & l & a1 & a2 & s1 & s2 & -> & Hl & <- & E1 & E2 & H1 & H2 & ->)]; [done|]. clear A.
  pose proof W as W0. destruct W as [Ws Wl Wn Wx Wa Wf]. constructor; cbn [snd hn_st hn_ln hn_ix hn_next].
  - intros i b. transitivity (hn_ix n !! i = Some (HStation b)).
    { destruct (decide (i = hl_id l)) as [->|D]; [|by rewrite lookup_delete_ne]. rewrite lookup_delete.
      assert (hn_ix n !! hl_id l = Some (HLine a)) as -> by (apply Wl; eauto). done. }
    rewrite Ws. split; intros (s & H & E).
    + destruct (set2_from a1 a2 None _ _ _ H) as (s' & H' & E' & _). exists s'. split; [done|]. congruence.
    + destruct (set2_some _ _ _ _ _ _ H) as (s' & H' & E' & _). exists s'. split; [done|]. congruence.
  - intros i b. destruct (decide (i = hl_id l)) as [->|D].
    + rewrite lookup_delete. split; [done|]. intros (s' & H & E). apply lookup_delete_Some in H as [Hn H].
      destruct Hn. exact (line_inj n _ _ _ _ W0 Hl H (eq_sym E)).
    + rewrite lookup_delete_ne by done. rewrite Wl. split; intros (s' & H & E); exists s'.
      * split; [|done]. apply lookup_delete_Some. split; [|done]. intros ->. congruence.
      * apply lookup_delete_Some in H as [_ H]. done.
  - intros b s H. destruct (set2_some _ _ _ _ _ _ H) as (s' & H' & _). by apply Wn in H'.
  - intros b t H%lookup_delete_Some. destruct H as [_ H]. by apply Wx in H.
  - intros b s k H E. destruct (set2_some _ _ _ _ _ _ H) as (s' & H' & _ & EL). case_bool_decide as D; [congruence|].
    rewrite E in EL. symmetry in EL. destruct (Wa _ _ _ H' EL) as (x & Hx & Hor). exists x. split; [|done]. apply lookup_delete_Some. split; [|done].
    intros <-. rewrite Hl in Hx. injection Hx as <-. apply D. destruct Hor; [left|right]; congruence.
  - intros b t H%lookup_delete_Some. destruct H as [_ H]. by apply Wf in H.
Qed.
Lemma hstep_weak o n : hweak n -> hweak (hstep n o).2.
Proof.
  destruct o; cbn [hstep]; [apply add_station_weak|apply add_other_weak|apply add_line_weak|apply remove_station_weak|apply remove_line_weak].
Qed.
Lemma hreach_weak safe n : hreach safe n -> hweak n.
Proof. induction 1; [apply hweak_new|by apply hstep_weak]. Qed.

(** ** Histories that only connect free stations *)
Lemma station_line_spec n a s : hweak n -> hn_st n !! a = Some s ->
  exists ol, station_line (hs_id s) n = Ok ol /\
    match hs_line s with None => ol = None | Some l => exists x, hn_ln n !! l = Some x /\ ol = Some (hl_id x) end.
Proof.
  intros W H. unfold station_line. assert (find_station n (hs_id s) = Some a) as -> by (apply find_station_spec; eauto). rewrite H.
  destruct (hs_line s) as [l|] eqn:E; [|by eexists]. destruct (hw_ans n W _ _ _ H E) as (x & Hx & _). cbn [deref result_bind]. rewrite Hx. cbn [result_bind].
  eexists. split; [done|]. eauto.
Qed.
Lemma hstep_strong o n : hstrong n -> free_ends n o -> hstrong (hstep n o).2.
Proof.
  intros [W B] S. constructor; [by apply hstep_weak|]. destruct o as [id|id|id i1 i2|id|id]; cbn [hstep].
  - unfold add_station. destruct (check_id n id) as [[]| | |]; [|done..]. cbn [snd hn_st hn_ln hn_ix hn_next]. intros a l a1 a2 H E1 E2.
    destruct (B _ _ _ _ H E1 E2) as (D & (s1 & H1 & L1) & (s2 & H2 & L2)). split; [done|].
    split; [exists s1|exists s2]; (split; [|done]); (rewrite lookup_insert_ne; [done|]); intros <-;
      [apply (hw_sn n W) in H1|apply (hw_sn n W) in H2]; lia.
  - unfold add_other. destruct (check_id n id); [|done..]. done.
  - destruct (add_line id i1 i2 n) as [r n'] eqn:A. cbn [snd].
    destruct (add_line_inv _ _ _ _ _ _ W A) as [[_ ->]|(a1 & a2 & s1 & s2 & -> & H1 & E1 & H2 & E2 & N & ->)]; [done|]. clear A.
    destruct S as (SD & S1 & S2).
    assert (F1 : hs_line s1 = None).
    { destruct (station_line_spec n a1 s1 W H1) as (ol & Q & M). rewrite E1 in Q. rewrite (S1 _ Q) in M. destruct (hs_line s1); [|done]. by destruct M as (? & _ & ?). }
    assert (F2 : hs_line s2 = None).
    { destruct (station_line_spec n a2 s2 W H2) as (ol & Q & M). rewrite E2 in Q. rewrite (S2 _ Q) in M. destruct (hs_line s2); [|done]. by destruct M as (? & _ & ?). }
    assert (D12 : a1 <> a2) by congruence.
    cbn [snd hn_st hn_ln hn_ix hn_next]. intros a l b1 b2. destruct (decide (a = hn_next n)) as [->|D].
    + rewrite lookup_insert. intros [= <-]. cbn. intros [= <-] [= <-]. split; [done|].
      destruct (set2_from a1 a2 (Some (hn_next n)) _ _ _ H1) as (s1' & Q1 & _ & L1). destruct (set2_from a1 a2 (Some (hn_next n)) _ _ _ H2) as (s2' & Q2 & _ & L2).
      rewrite bool_decide_true in L1, L2 by tauto. eauto 10.
    + rewrite lookup_insert_ne by done. intros H Q1 Q2. destruct (B _ _ _ _ H Q1 Q2) as (D' & (t1 & T1 & L1) & (t2 & T2 & L2)). split; [done|].
      split; eexists; (split; [rewrite set2_lookup, bool_decide_false; [eassumption|intros [-> | ->]; congruence]|done]).
  - destruct (remove_station id n) as [r n'] eqn:A. cbn [snd].
    destruct (remove_station_inv _ _ _ _ A W) as [[_ ->]|(a & s & -> & Hs & <- & L & ->)]; [done|]. clear A.
    cbn [snd hn_st hn_ln hn_ix hn_next]. intros b l b1 b2 H Q1 Q2. destruct (B _ _ _ _ H Q1 Q2) as (D' & (t1 & T1 & L1) & (t2 & T2 & L2)). split; [done|].
    split; [exists t1|exists t2]; (split; [|done]); (rewrite lookup_delete_ne; [done|]); intros <-; congruence.
  - destruct (remove_line id n) as [r n'] eqn:A. cbn [snd].
    destruct (remove_line_inv _ _ _ _ A W) as [[_ ->]|(a & l & a1 & a2 & s1 & s2 & -> & Hl & <- & E1 & E2 & H1 & H2 & ->)]; [done|]. clear A.
    destruct (B _ _ _ _ Hl E1 E2) as (D12 & (x1 & X1 & K1) & (x2 & X2 & K2)).
    cbn [snd hn_st hn_ln hn_ix hn_next]. intros b k b1 b2 H Q1 Q2. apply lookup_delete_Some in H as [Db H].
    destruct (B _ _ _ _ H Q1 Q2) as (D' & (t1 & T1 & L1) & (t2 & T2 & L2)). split; [done|].
    split; eexists; (split; [rewrite set2_lookup, bool_decide_false; [eassumption|intros [-> | ->]; congruence]|done]).
Qed.
Lemma hreach_strong n : hreach free_ends n -> hstrong n.
Proof.
  induction 1; [|by apply hstep_strong]. constructor; [apply hweak_new|]. unfold hnew; cbn. intros a l a1 a2 H. by rewrite lookup_empty in H.
Qed.

(** ** The view *)
Lemma line_stations_spec n a l s1 s2 a1 a2 : hweak n -> hn_ln n !! a = Some l -> hl_s1 l = Some a1 -> hl_s2 l = Some a2 ->
  hn_st n !! a1 = Some s1 -> hn_st n !! a2 = Some s2 -> line_stations (hl_id l) n = Ok (hs_id s1, hs_id s2).
Proof.
  intros W H E1 E2 H1 H2. unfold line_stations. assert (find_line n (hl_id l) = Some a) as -> by (apply find_line_spec; eauto).
  rewrite H, E1, E2. cbn [deref result_bind]. by rewrite H1, H2.
Qed.
Lemma station_line_inv n id ol : hweak n -> station_line id n = Ok ol -> exists a s, hn_st n !! a = Some s /\ hs_id s = id /\
    match hs_line s with None => ol = None | Some l => exists x, hn_ln n !! l = Some x /\ ol = Some (hl_id x) end.
Proof.
  intros W Q. assert (exists a, find_station n id = Some a) as [a F] by (revert Q; unfold station_line; destruct (find_station n id); eauto; done).
  apply find_station_spec in F as (s & H & <-); [|done]. exists a, s. destruct (station_line_spec n a s W H) as (ol' & Q' & M).
  rewrite Q' in Q. injection Q as <-. done.
Qed.
Lemma line_stations_inv n id p : hweak n -> line_stations id n = Ok p -> exists a l a1 a2 s1 s2, hn_ln n !! a = Some l /\ hl_id l = id /\
  hl_s1 l = Some a1 /\ hl_s2 l = Some a2 /\ hn_st n !! a1 = Some s1 /\ hn_st n !! a2 = Some s2 /\ p = (hs_id s1, hs_id s2).
Proof.
  intros W. unfold line_stations. destruct (find_line n id) as [a|] eqn:F; [|done].
  apply find_line_spec in F as (l & H & <-); [|done]. rewrite H. destruct (hw_full n W _ _ H) as (a1 & a2 & E1 & E2). rewrite E1, E2. cbn [deref result_bind].
  destruct (hn_st n !! a1) as [s1|] eqn:H1; [|done]. cbn [result_bind]. destruct (hn_st n !! a2) as [s2|] eqn:H2; [|done]. cbn [result_bind]. intros [= <-].
  exists a, l, a1, a2, s1, s2. done.
Qed.

Definition the_view (n : hnet) : hview :=
  mkHV (map_imap (fun id _ => match station_line id n with Ok l => Some l | _ => None end) (hn_ix n))
       (map_imap (fun id _ => match line_stations id n with Ok l => Some l | _ => None end) (hn_ix n)).
Lemma strong_station n id : hweak n -> is_Some (find_station n id) <-> exists l, station_line id n = Ok l.
Proof.
  intros W. split.
  - intros [a F]. apply find_station_spec in F as (s & H & <-); [|done]. destruct (station_line_spec n a s W H) as (ol & Q & _). eauto.
  - intros [l Q]. unfold station_line in Q. destruct (find_station n id); [eauto|done].
Qed.
Lemma strong_line n id : hstrong n -> is_Some (find_line n id) <-> exists l, line_stations id n = Ok l.
Proof.
  intros [W B]. split.
  - intros [a F]. apply find_line_spec in F as (l & H & <-); [|done]. destruct (hw_full n W _ _ H) as (a1 & a2 & E1 & E2).
    destruct (B _ _ _ _ H E1 E2) as (D & (s1 & H1 & _) & (s2 & H2 & _)). eexists. by eapply line_stations_spec.
  - intros [l Q]. unfold line_stations in Q. destruct (find_line n id); [eauto|done].
Qed.
Lemma the_view_shows n : hstrong n -> shows n (the_view n).
Proof.
  intros S. pose proof (hs_weak n S) as W. unfold shows, the_view. cbn [hv_st hv_ln].
  assert (A : forall id l, map_imap (fun id _ => match station_line id n with Ok l => Some l | _ => None end) (hn_ix n) !! id = Some l <-> station_line id n = Ok l).
  { intros id l. rewrite map_lookup_imap. destruct (hn_ix n !! id) eqn:E; cbn.
    - destruct (station_line id n); split; congruence.
    - unfold station_line, find_station. by rewrite E. }
  assert (B : forall id l, map_imap (fun id _ => match line_stations id n with Ok l => Some l | _ => None end) (hn_ix n) !! id = Some l <-> line_stations id n = Ok l).
  { intros id l. rewrite map_lookup_imap. destruct (hn_ix n !! id) eqn:E; cbn.
    - destruct (line_stations id n); split; congruence.
    - unfold line_stations, find_line. by rewrite E. }
  split_and!; [exact A| |exact B|].
  - intros id. rewrite strong_station by done. split; intros [l H]; exists l; by apply A.
  - intros id. rewrite strong_line by done. split; intros [l H]; exists l; by apply B.
Qed.
Lemma shows_unique n v w : shows n v -> shows n w -> v = w.
Proof.
  destruct v as [vs vl], w as [ws wl]. intros (A1 & _ & B1 & _) (A2 & _ & B2 & _). cbn in *.
  assert (vs = ws) as ->. { apply map_eq. intros id. apply option_eq. intros l. by rewrite A1, A2. }
  assert (vl = wl) as ->; [|done]. { apply map_eq. intros id. apply option_eq. intros l. by rewrite B1, B2. }
Qed.
Lemma view_consistent n v : hstrong n -> shows n v -> consistent v.
Proof.
  intros S (A & _ & B & _). pose proof (hs_weak n S) as W. split.
  - intros id i1 i2 H%B. destruct (line_stations_inv _ _ _ W H) as (a & l & a1 & a2 & s1 & s2 & Hl & <- & E1 & E2 & H1 & H2 & [= -> ->]).
    destruct (hs_both n S _ _ _ _ Hl E1 E2) as (D & (t1 & T1 & L1) & (t2 & T2 & L2)).
    assert (t1 = s1) as -> by congruence. assert (t2 = s2) as -> by congruence.
    split; [intros E; apply D; by eapply station_inj|]. rewrite !A.
    destruct (station_line_spec n a1 s1 W H1) as (o1 & Q1 & M1). destruct (station_line_spec n a2 s2 W H2) as (o2 & Q2 & M2).
    rewrite L1 in M1. rewrite L2 in M2. destruct M1 as (x1 & X1 & ->). destruct M2 as (x2 & X2 & ->).
    rewrite Hl in X1, X2. injection X1 as <-. injection X2 as <-. done.
  - intros i id H%A. destruct (station_line_inv _ _ _ W H) as (a & s & Hs & <- & M). destruct (hs_line s) as [l|] eqn:L; [|done].
    destruct M as (x & X & [= ->]). destruct (hw_ans n W _ _ _ Hs L) as (x' & X' & Hor). assert (x' = x) as -> by congruence.
    destruct (hw_full n W _ _ X) as (a1 & a2 & E1 & E2). destruct (hs_both n S _ _ _ _ X E1 E2) as (D & (t1 & T1 & L1) & (t2 & T2 & L2)).
    exists (hs_id t1), (hs_id t2). rewrite B. split; [by eapply line_stations_spec|].
    destruct Hor as [Ha|Ha]; [left|right]; f_equal; congruence.
Qed.
Lemma shows_intro n v : hstrong n -> (forall id l, hv_st v !! id = Some l -> station_line id n = Ok l) ->
  (forall a s, hn_st n !! a = Some s -> is_Some (hv_st v !! hs_id s)) -> (forall id p, hv_ln v !! id = Some p -> line_stations id n = Ok p) ->
  (forall a l, hn_ln n !! a = Some l -> is_Some (hv_ln v !! hl_id l)) -> shows n v.
Proof.
  intros S A A' B B'. pose proof (hs_weak n S) as W.
  assert (A'' : forall id, is_Some (find_station n id) -> is_Some (hv_st v !! id)).
  { intros id [a F]. apply find_station_spec in F as (s & H & <-); [|done]. by eapply A'. }
  assert (B'' : forall id, is_Some (find_line n id) -> is_Some (hv_ln v !! id)).
  { intros id [a F]. apply find_line_spec in F as (s & H & <-); [|done]. by eapply B'. }
  split_and!.
  - intros id l. split; [apply A|]. intros H. destruct (A'' id) as [l' H']; [apply strong_station; eauto|]. apply A in H' as Q. congruence.
  - intros id. split; [|apply A'']. intros [l H%A]. apply strong_station; eauto.
  - intros id l. split; [apply B|]. intros H. destruct (B'' id) as [l' H']; [apply strong_line; eauto|]. apply B in H' as Q. congruence.
  - intros id. split; [|apply B'']. intros [l H%B]. apply strong_line; eauto.
Qed.
Lemma add_station_view n id v : hstrong n -> shows n v -> (add_station id n).1 = Ok tt ->
  shows (add_station id n).2 (mkHV (<[id := None]> (hv_st v)) (hv_ln v)).
Proof.
  intros S V R. pose proof (hs_weak n S) as W. assert (S' : hstrong (add_station id n).2) by (apply (hstep_strong (HAddStation id)); done).
  apply shows_intro; [done|..]; pose proof (hs_weak _ S') as W'; revert R S' W'; unfold add_station;
    (destruct (check_id n id) as [[]| | |] eqn:C; [|done..]); destruct (check_id_spec _ _ C) as [_ N];
    intros _ S' W'; set (n' := (mkHNet _ _ _ _)) in *; cbn [snd fst hv_st hv_ln] in *; destruct V as (A & A' & B & B').
  - intros i l. destruct (decide (i = id)) as [->|D].
    + rewrite lookup_insert. intros [= <-]. destruct (station_line_spec n' (hn_next n) (mkStation id None) W') as (ol & Q & M).
      { unfold n'. cbn. by rewrite lookup_insert. } cbn in Q, M. congruence.
    + rewrite lookup_insert_ne by done. intros H%A. destruct (station_line_inv _ _ _ W H) as (a & s & Hs & <- & M).
      destruct (station_line_spec n' a s W') as (ol & Q & M').
      { unfold n'. cbn. rewrite lookup_insert_ne; [done|]. intros <-. apply (hw_sn n W) in Hs. lia. }
      rewrite Q. f_equal. destruct (hs_line s); [|congruence]. destruct M as (x & X & ->). destruct M' as (x' & X' & ->).
      unfold n' in X'. cbn in X'. congruence.
  - intros a s. unfold n'. cbn [hn_st]. intros H. destruct (decide (a = hn_next n)) as [->|D].
    + rewrite lookup_insert in H. injection H as <-. cbn. rewrite lookup_insert. eauto.
    + rewrite lookup_insert_ne in H by done. destruct (decide (hs_id s = id)) as [->|D']; [rewrite lookup_insert; eauto|].
      rewrite lookup_insert_ne by done. apply A'. exists a. apply find_station_spec; eauto.
  - intros i p H%B. destruct (line_stations_inv _ _ _ W H) as (a & l & a1 & a2 & s1 & s2 & Hl & <- & E1 & E2 & H1 & H2 & ->).
    eapply line_stations_spec; [done|unfold n'; exact Hl|exact E1|exact E2| |]; unfold n'; cbn; (rewrite lookup_insert_ne; [done|]); intros <-;
      [apply (hw_sn n W) in H1|apply (hw_sn n W) in H2]; lia.
  - intros a l H. apply B'. exists a. apply find_line_spec; eauto.
Qed.
Lemma remove_station_view n id v : hstrong n -> shows n v -> (remove_station id n).1 = Ok tt ->
  shows (remove_station id n).2 (mkHV (delete id (hv_st v)) (hv_ln v)).
Proof.
  intros S V R. pose proof (hs_weak n S) as W. assert (S' : hstrong (remove_station id n).2) by (apply (hstep_strong (HRemoveStation id)); done).
  destruct (remove_station id n) as [r n'] eqn:RE. cbn [fst snd] in *. subst r. pose proof (hs_weak _ S') as W'.
  destruct (remove_station_inv _ _ _ _ RE W) as [[? _]|(a & s & _ & Hs & <- & L & E)]; [done|]. destruct V as (A & A' & B & B').
  assert (Q1 : hn_st n' = delete a (hn_st n)) by (by subst n'). assert (Q2 : hn_ln n' = hn_ln n) by (by subst n'). clear E.
  apply shows_intro; [done|..]; cbn [hv_st hv_ln].
  - intros i l H. apply lookup_delete_Some in H as [D H]. apply A in H. destruct (station_line_inv _ _ _ W H) as (b & t & Ht & <- & M).
    destruct (station_line_spec n' b t W') as (ol & Q & M'). { rewrite Q1. apply lookup_delete_Some. split; [|done]. intros ->. congruence. }
    rewrite Q. f_equal. destruct (hs_line t); [|congruence]. destruct M as (x & X & ->). destruct M' as (x' & X' & ->). rewrite Q2 in X'. congruence.
  - intros b t H. rewrite Q1 in H. apply lookup_delete_Some in H as [D H]. rewrite lookup_delete_ne; [apply A'; exists b; apply find_station_spec; eauto|].
    intros E. exact (D (station_inj n _ _ _ _ W Hs H E)).
  - intros i p H%B. destruct (line_stations_inv _ _ _ W H) as (b & l & a1 & a2 & s1 & s2 & Hl & <- & E1 & E2 & H1 & H2 & ->).
    destruct (hs_both n S _ _ _ _ Hl E1 E2) as (D & (t1 & T1 & L1) & (t2 & T2 & L2)).
    eapply line_stations_spec; [done|rewrite Q2; exact Hl|exact E1|exact E2| |]; rewrite Q1; apply lookup_delete_Some; (split; [|done]); intros ->; congruence.
  - intros b l H. rewrite Q2 in H. apply B'. exists b. apply find_line_spec; eauto.
Qed.
Lemma add_line_view n id i1 i2 v : hstrong n -> free_ends n (HAddLine id i1 i2) -> shows n v -> (add_line id i1 i2 n).1 = Ok tt ->
  shows (add_line id i1 i2 n).2 (attached v id i1 i2).
Proof.
  intros S F V R. pose proof (hs_weak n S) as W. assert (S' : hstrong (add_line id i1 i2 n).2) by (apply (hstep_strong (HAddLine id i1 i2)); done).
  destruct (add_line id i1 i2 n) as [r n'] eqn:RE. cbn [fst snd] in *. subst r. pose proof (hs_weak _ S') as W'.
  destruct (add_line_inv _ _ _ _ _ _ W RE) as [[? _]|(a1 & a2 & s1 & s2 & _ & H1 & E1 & H2 & E2 & N & E)]; [done|].
  assert (V0 := V). destruct V as (A & A' & B & B'). destruct F as (F & F1 & F2).
  assert (Q1 : hn_st n' = set_line a2 (Some (hn_next n)) (set_line a1 (Some (hn_next n)) (hn_st n))) by (by subst n').
  assert (Q2 : hn_ln n' = <[hn_next n := mkHLine id (Some a1) (Some a2)]> (hn_ln n)) by (by subst n'). clear E.
  assert (QL : hn_ln n' !! hn_next n = Some (mkHLine id (Some a1) (Some a2))) by (by rewrite Q2, lookup_insert).
  assert (G : forall b t, (b = a1 \/ b = a2) -> hn_st n !! b = Some t -> station_line (hs_id t) n' = Ok (Some id)).
  { intros b t Hb Ht. destruct (set2_from a1 a2 (Some (hn_next n)) _ _ _ Ht) as (t' & T & ET & LT). rewrite bool_decide_true in LT by done.
    rewrite <- Q1 in T. destruct (station_line_spec n' b t' W' T) as (ol & Q & M). rewrite LT in M. destruct M as (x & X & ->). rewrite <- ET, Q. rewrite QL in X. by injection X as <-. }
  apply shows_intro; [done|..]; cbn [attached hv_st hv_ln].
  - intros i l. destruct (decide (i = i2)) as [->|D2]; [rewrite lookup_insert; intros [= <-]; rewrite <- E2; exact (G a2 s2 (or_intror eq_refl) H2)|].
    rewrite lookup_insert_ne by done.
    destruct (decide (i = i1)) as [->|D1]; [rewrite lookup_insert; intros [= <-]; rewrite <- E1; exact (G a1 s1 (or_introl eq_refl) H1)|].
    rewrite lookup_insert_ne by done. intros H%A. destruct (station_line_inv _ _ _ W H) as (b & t & Ht & <- & M).
    destruct (station_line_spec n' b t W') as (ol & Q & M'). { rewrite Q1, set2_lookup, bool_decide_false; [done|]. intros [-> | ->]; congruence. }
    rewrite Q. f_equal. destruct (hs_line t); [|congruence]. destruct M as (x & X & ->). destruct M' as (x' & X' & ->).
    rewrite Q2, lookup_insert_ne in X'; [congruence|]. intros <-. apply (hw_lnx n W) in X. lia.
  - intros b t H. rewrite Q1 in H. destruct (set2_some _ _ _ _ _ _ H) as (t' & T & ET & _). rewrite ET.
    destruct (decide (hs_id t' = i2)) as [->|D2]; [rewrite lookup_insert; eauto|]. rewrite lookup_insert_ne by done.
    destruct (decide (hs_id t' = i1)) as [->|D1]; [rewrite lookup_insert; eauto|]. rewrite lookup_insert_ne by done.
    apply A'. exists b. apply find_station_spec; eauto.
  - intros i p. destruct (decide (i = id)) as [->|D].
    + rewrite lookup_insert. intros [= <-]. destruct (set2_from a1 a2 (Some (hn_next n)) _ _ _ H1) as (t1 & T1 & ET1 & _).
      destruct (set2_from a1 a2 (Some (hn_next n)) _ _ _ H2) as (t2 & T2 & ET2 & _). rewrite <- Q1 in T1, T2.
      rewrite <- E1, <- E2, <- ET1, <- ET2. by eapply (line_stations_spec n' _ _ _ _ _ _ W' QL).
    + rewrite lookup_insert_ne by done. intros H%B. destruct (line_stations_inv _ _ _ W H) as (b & l & b1 & b2 & u1 & u2 & Hl & <- & K1 & K2 & U1 & U2 & ->).
      destruct (set2_from a1 a2 (Some (hn_next n)) _ _ _ U1) as (t1 & T1 & ET1 & _).
      destruct (set2_from a1 a2 (Some (hn_next n)) _ _ _ U2) as (t2 & T2 & ET2 & _). rewrite <- Q1 in T1, T2. rewrite <- ET1, <- ET2.
      eapply (line_stations_spec n' b l); [done| |eauto..]. rewrite Q2, lookup_insert_ne; [done|]. intros <-. apply (hw_lnx n W) in Hl. lia.
  - intros b l H. rewrite Q2 in H. destruct (decide (b = hn_next n)) as [->|D].
    + rewrite lookup_insert in H. injection H as <-. cbn. rewrite lookup_insert. eauto.
    + rewrite lookup_insert_ne in H by done. destruct (decide (hl_id l = id)) as [->|D']; [rewrite lookup_insert; eauto|].
      rewrite lookup_insert_ne by done. apply B'. exists b. apply find_line_spec; eauto.
Qed.
Lemma remove_line_view n id i1 i2 v : hstrong n -> shows n v -> hv_ln v !! id = Some (i1, i2) ->
  (remove_line id n).1 = Ok tt /\ shows (remove_line id n).2 (freed v id i1 i2).
Proof.
  intros S V R. pose proof (hs_weak n S) as W. assert (S' : hstrong (remove_line id n).2) by (apply (hstep_strong (HRemoveLine id)); done).
  assert (V0 := V). destruct V as (A & A' & B & B'). apply B in R.
  destruct (line_stations_inv _ _ _ W R) as (a & l & a1 & a2 & s1 & s2 & Hl & <- & E1 & E2 & H1 & H2 & [= -> ->]).
  assert (RO : (remove_line (hl_id l) n).1 = Ok tt).
  { unfold remove_line. assert (find_line n (hl_id l) = Some a) as -> by (apply find_line_spec; eauto). rewrite Hl. unfold line_network.
    rewrite E1, E2. cbn [deref]. rewrite H1, set_line_lookup. case_bool_decide; by rewrite H2. }
  split; [done|]. destruct (remove_line (hl_id l) n) as [r n'] eqn:RE. cbn [fst snd] in *. subst r. pose proof (hs_weak _ S') as W'.
  destruct (remove_line_inv _ _ _ _ RE W) as [[? _]|(a' & l' & b1 & b2 & u1 & u2 & _ & Hl' & EI & K1 & K2 & U1 & U2 & E)]; [done|].
  assert (a' = a) as -> by (exact (line_inj n _ _ _ _ W Hl' Hl EI)). rewrite Hl in Hl'. injection Hl' as <-. assert (b1 = a1) as -> by congruence. assert (b2 = a2) as -> by congruence.
  assert (Q1 : hn_st n' = set_line a2 None (set_line a1 None (hn_st n))) by (by subst n').
  assert (Q2 : hn_ln n' = delete a (hn_ln n)) by (by subst n'). clear E.
  destruct (hs_both n S _ _ _ _ Hl E1 E2) as (D12 & (x1 & X1 & L1) & (x2 & X2 & L2)).
  assert (G : forall b t, (b = a1 \/ b = a2) -> hn_st n !! b = Some t -> station_line (hs_id t) n' = Ok None).
  { intros b t Hb Ht. destruct (set2_from a1 a2 None _ _ _ Ht) as (t' & T & ET & LT). rewrite bool_decide_true in LT by done.
    rewrite <- Q1 in T. destruct (station_line_spec n' b t' W' T) as (ol & Q & M). rewrite LT in M. by rewrite <- ET, Q, M. }
  apply shows_intro; [done|..]; cbn [freed hv_st hv_ln].
  - intros i k. destruct (decide (i = hs_id s2)) as [->|D2]; [rewrite lookup_insert; intros [= <-]; exact (G a2 s2 (or_intror eq_refl) H2)|].
    rewrite lookup_insert_ne by done.
    destruct (decide (i = hs_id s1)) as [->|D1]; [rewrite lookup_insert; intros [= <-]; exact (G a1 s1 (or_introl eq_refl) H1)|].
    rewrite lookup_insert_ne by done. intros H%A. destruct (station_line_inv _ _ _ W H) as (b & t & Ht & <- & M).
    destruct (station_line_spec n' b t W') as (ol & Q & M'). { rewrite Q1, set2_lookup, bool_decide_false; [done|]. intros [-> | ->]; congruence. }
    rewrite Q. f_equal. destruct (hs_line t) as [k'|] eqn:LT; [|congruence]. destruct M as (x & X & ->). destruct M' as (x' & X' & ->).
    rewrite Q2 in X'. apply lookup_delete_Some in X' as [_ X']. congruence.
  - intros b t H. rewrite Q1 in H. destruct (set2_some _ _ _ _ _ _ H) as (t' & T & ET & _). rewrite ET.
    destruct (decide (hs_id t' = hs_id s2)) as [->|D2]; [rewrite lookup_insert; eauto|]. rewrite lookup_insert_ne by done.
    destruct (decide (hs_id t' = hs_id s1)) as [->|D1]; [rewrite lookup_insert; eauto|]. rewrite lookup_insert_ne by done.
    apply A'. exists b. apply find_station_spec; eauto.
  - intros i p H. apply lookup_delete_Some in H as [D H]. apply B in H.
    destruct (line_stations_inv _ _ _ W H) as (b & k & c1 & c2 & v1 & v2 & Hk & <- & C1 & C2 & V1 & V2 & ->).
    destruct (set2_from a1 a2 None _ _ _ V1) as (t1 & T1 & ET1 & _).
    destruct (set2_from a1 a2 None _ _ _ V2) as (t2 & T2 & ET2 & _). rewrite <- Q1 in T1, T2. rewrite <- ET1, <- ET2.
    eapply (line_stations_spec n' b k); [done| |eauto..]. rewrite Q2. apply lookup_delete_Some. split; [|done]. intros ->. congruence.
  - intros b k H. rewrite Q2 in H. apply lookup_delete_Some in H as [D H]. rewrite lookup_delete_ne; [apply B'; exists b; apply find_line_spec; eauto|].
    intros E. exact (D (line_inj n _ _ _ _ W Hl H E)).
Qed.
Lemma add_other_view n id v : hstrong n -> shows n v -> shows (add_other id n).2 v.
Proof.
  intros S V. assert (S' : hstrong (add_other id n).2) by (apply (hstep_strong (HAddOther id)); done). revert S'. unfold add_other.
  destruct (check_id n id) as [[]| | |] eqn:C; [|done..]. destruct (check_id_spec _ _ C) as [_ N]. cbn [snd]. intros S'. set (n' := mkHNet _ _ _ _) in *.
  pose proof (hs_weak n S) as W. pose proof (hs_weak n' S') as W'. destruct V as (A & A' & B & B'). apply shows_intro; [done|..].
  - intros i l H%A. destruct (station_line_inv _ _ _ W H) as (b & t & Ht & <- & M). destruct (station_line_spec n' b t W' Ht) as (ol & Q & M').
    rewrite Q. f_equal. destruct (hs_line t); [|congruence]. destruct M as (x & X & ->). destruct M' as (x' & X' & ->). unfold n' in X'. cbn in X'. congruence.
  - intros a s H. apply A'. exists a. apply find_station_spec; eauto.
  - intros i p H%B. destruct (line_stations_inv _ _ _ W H) as (b & l & a1 & a2 & s1 & s2 & Hl & <- & E1 & E2 & H1 & H2 & ->).
    by apply (line_stations_spec n' b l s1 s2 a1 a2).
  - intros a s H. apply B'. exists a. apply find_line_spec; eauto.
Qed.
