(** HVDC lines and converter stations (C34). *)
From stdpp Require Import gmap.
From Verif Require Import Base Hvdc HvdcSpec HvdcProofs.

(** After every history that connects only free, distinct stations, the answers of all lines and stations agree, and no answer follows a
    dangling reference. *)
Theorem C34_consistent_partial n : hreach free_ends n ->
  exists v, shows n v /\ consistent v /\ forall id, station_line id n <> UB /\ line_stations id n <> UB.
Proof.
  intros R. pose proof (hreach_strong n R) as S. exists (the_view n). pose proof (the_view_shows n S) as V. split; [done|]. split; [by eapply view_consistent|].
  intros id. split; intros U.
  - destruct (find_station n id) as [a|] eqn:F; [|unfold station_line in U; by rewrite F in U].
    destruct (proj1 (strong_station n id (hs_weak n S))) as [l Q]; [by rewrite F|]. congruence.
  - destruct (find_line n id) as [a|] eqn:F; [|unfold line_stations in U; by rewrite F in U].
    destruct (proj1 (strong_line n id S)) as [l Q]; [by rewrite F|]. congruence.
Qed.
Print Assumptions C34_consistent_partial.

(** What every successful operation does to the answers; a failing one changes nothing. *)
Theorem C34_effects_partial n v o : hreach free_ends n -> free_ends n o -> shows n v ->
  let n' := (hstep n o).2 in
  (hstep n o).1 <> UB /\ ((hstep n o).1 <> Ok tt -> n' = n) /\
  ((hstep n o).1 = Ok tt ->
   match o with
   | HAddStation id => shows n' (mkHV (<[id := None]> (hv_st v)) (hv_ln v))
   | HAddOther _ => shows n' v
   | HAddLine id i1 i2 => shows n' (attached v id i1 i2)
   | HRemoveStation id => shows n' (mkHV (delete id (hv_st v)) (hv_ln v))
   | HRemoveLine id => exists i1 i2, hv_ln v !! id = Some (i1, i2) /\ shows n' (freed v id i1 i2)
   end).
Proof.
  intros R F V n'. pose proof (hreach_strong n R) as S. pose proof (hs_weak n S) as W. subst n'. split_and!.
  - destruct o as [id|id|id i1 i2|id|id]; cbn [hstep].
    + unfold add_station. pose proof (check_id_ub n id). by destruct (check_id n id).
    + unfold add_other. pose proof (check_id_ub n id). by destruct (check_id n id).
    + apply add_line_not_ub.
    + unfold remove_station. destruct (find_station n id) as [a|] eqn:E; [|done]. apply find_station_spec in E as (s & Hs & <-); [|done]. rewrite Hs.
      destruct (hs_line s) as [l|] eqn:L; [|done]. destruct (hw_ans n W _ _ _ Hs L) as (x & X & _). cbn [deref]. by rewrite X.
    + destruct (find_line n id) as [a|] eqn:E; [|unfold remove_line; by rewrite E].
      assert (is_Some (hv_ln v !! id)) as [[i1 i2] Q] by (apply V; by rewrite E).
      destruct (remove_line_view n id i1 i2 v S V Q) as [-> _]. done.
  - destruct o as [id|id|id i1 i2|id|id]; cbn [hstep]; intros N.
    + unfold add_station in *. by destruct (check_id n id) as [[]| | |].
    + unfold add_other in *. by destruct (check_id n id) as [[]| | |].
    + destruct (add_line id i1 i2 n) as [r n'] eqn:A. destruct (add_line_inv _ _ _ _ _ _ W A) as [[_ ->]|(? & ? & ? & ? & -> & _)]; done.
    + destruct (remove_station id n) as [r n'] eqn:A. destruct (remove_station_inv _ _ _ _ A W) as [[_ ->]|(? & ? & -> & _)]; done.
    + destruct (remove_line id n) as [r n'] eqn:A. destruct (remove_line_inv _ _ _ _ A W) as [[_ ->]|(? & ? & ? & ? & ? & ? & -> & _)]; done.
  - destruct o as [id|id|id i1 i2|id|id]; cbn [hstep]; intros Q.
    + by apply add_station_view.
    + by apply add_other_view.
    + by apply add_line_view.
    + by apply remove_station_view.
    + destruct (find_line n id) as [a|] eqn:E; [|unfold remove_line in Q; by rewrite E in Q].
      assert (is_Some (hv_ln v !! id)) as [[i1 i2] Q'] by (apply V; by rewrite E).
      exists i1, i2. split; [done|]. by apply (remove_line_view n id i1 i2 v S V Q').
Qed.
Print Assumptions C34_effects_partial.

(** When the operations succeed. A station with a line cannot be removed: after ANY defined history, the attempt throws and changes
    nothing, and the station's answer is never dangling. *)
Theorem C34_used_station_kept n i : hreach any_line n ->
  station_line i n <> UB /\ (remove_station i n).1 <> UB /\
  (forall id, station_line i n = Ok (Some id) -> exists m, remove_station i n = (Throw m, n)) /\
  (station_line i n = Ok None -> (remove_station i n).1 = Ok tt).
Proof.
  intros R. pose proof (hreach_weak _ _ R) as W. unfold remove_station.
  destruct (find_station n i) as [a|] eqn:E; [|unfold station_line; by rewrite E]. apply find_station_spec in E as (s & Hs & <-); [|done].
  destruct (station_line_spec n a s W Hs) as (ol & Q & M). rewrite Q, Hs. split; [done|].
  destruct (hs_line s) as [l|] eqn:L.
  - destruct M as (x & X & ->). cbn [deref]. rewrite X. cbn [result_bind]. split_and!; [done| |done]. intros id _. by eexists.
  - subst ol. done.
Qed.
Print Assumptions C34_used_station_kept.
Theorem C34_add_line_when n id i1 i2 : hreach any_line n ->
  (add_line id i1 i2 n).1 = Ok tt <->
  id <> "" /\ hn_ix n !! id = None /\ i1 <> "" /\ i2 <> "" /\ (exists l, station_line i1 n = Ok l) /\ (exists l, station_line i2 n = Ok l).
Proof.
  intros R. pose proof (hreach_weak _ _ R) as W. unfold add_line. split.
  - destruct (get_station n i1) as [a1| | |] eqn:G1; cbn [result_bind fst]; try done.
    destruct (get_station n i2) as [a2| | |] eqn:G2; cbn [result_bind fst]; try done.
    destruct (check_id n id) as [[]| | |] eqn:C; cbn [result_bind fst]; try done. intros _.
    destruct (get_station_spec _ _ _ W G1) as (N1 & s1 & H1 & E1). destruct (get_station_spec _ _ _ W G2) as (N2 & s2 & H2 & E2).
    destruct (check_id_spec _ _ C) as [N Q].
    split_and!; try done; apply strong_station; try done; eexists; apply find_station_spec; eauto.
  - intros (N & Q & N1 & N2 & (l1 & Q1) & (l2 & Q2)). unfold get_station. rewrite !bool_decide_false by done.
    destruct (proj2 (strong_station n i1 W)) as [a1 ->]; [eauto|]. destruct (proj2 (strong_station n i2 W)) as [a2 ->]; [eauto|]. cbn [result_bind].
    unfold check_id. rewrite bool_decide_false by done. by rewrite Q.
Qed.
Print Assumptions C34_add_line_when.

(** ** A network with two lines; one is removed and its station too. *)
Definition hrun (n : hnet) (os : list hop) : hnet := foldl (fun n o => (hstep n o).2) n os.
Definition h4 : hnet := hrun hnew [HAddStation "A"; HAddStation "B"; HAddStation "C"; HAddStation "D"; HAddOther "load"].
Definition h6 : hnet := hrun h4 [HAddLine "L1" "A" "B"; HAddLine "L2" "C" "D"].
Definition hfree (n : hnet) (o : hop) : bool :=
  match o with
  | HAddLine _ i1 i2 => negb (bool_decide (i1 = i2)) && match station_line i1 n with Ok (Some _) => false | _ => true end
      && match station_line i2 n with Ok (Some _) => false | _ => true end
  | _ => true
  end.
Fixpoint hall (free : bool) (n : hnet) (os : list hop) : bool :=
  match os with
  | [] => true
  | o :: k => (negb free || hfree n o) && match (hstep n o).1 with UB => false | _ => true end && hall free (hstep n o).2 k
  end.
Lemma hfree_ok n o : hfree n o = true -> free_ends n o.
Proof.
  destruct o; cbn; try done. intros H. apply andb_prop in H as [H H3]. apply andb_prop in H as [H1 H2].
  apply negb_true_iff, bool_decide_eq_false in H1. split_and!; [done| |]; intros l E; [rewrite E in H2; by destruct l|rewrite E in H3; by destruct l].
Qed.
Lemma hall_free n os : hreach free_ends n -> hall true n os = true -> hreach free_ends (hrun n os).
Proof.
  revert n. induction os as [|o os IH]; intros n R H; [done|]. cbn [hall negb orb] in H. apply andb_prop in H as [H H2]. apply andb_prop in H as [H0 H1].
  apply (IH (hstep n o).2); [|done]. constructor; [done|by apply hfree_ok|]. intros U. by rewrite U in H1.
Qed.
Lemma hall_any n os : hreach any_line n -> hall false n os = true -> hreach any_line (hrun n os).
Proof.
  revert n. induction os as [|o os IH]; intros n R H; [done|]. cbn [hall negb orb] in H. apply andb_prop in H as [H H2]. cbn [andb] in H.
  apply (IH (hstep n o).2); [|done]. constructor; [done|done|]. intros U. by rewrite U in H.
Qed.
Example C34_case : hreach free_ends h6 /\ line_stations "L1" h6 = Ok ("A", "B") /\ station_line "D" h6 = Ok (Some "L2") /\
  (remove_station "A" h6).1 <> Ok tt /\ (hstep h6 (HRemoveLine "L1")).1 = Ok tt /\ station_line "A" (hstep h6 (HRemoveLine "L1")).2 = Ok None /\
  (remove_station "A" (hstep h6 (HRemoveLine "L1")).2).1 = Ok tt /\ (add_line "A" "A" "B" h6).1 <> Ok tt.
Proof.
  split; [|vm_compute; repeat split; try reflexivity; discriminate].
  apply (hall_free h4); [|vm_compute; reflexivity]. apply (hall_free hnew); [constructor|vm_compute; reflexivity].
Qed.

(** ** What the code does not check: a station that already has a line can be given to another one. *)
(** The first line still has the station, the station answers the second; once the second is removed the station can be removed and the
    first line refers to a destroyed station. *)
Definition hshared : hnet := hrun h4 [HAddLine "L1" "A" "B"; HAddLine "L2" "A" "C"].
Lemma h4_reach : hreach any_line h4.
Proof. unfold h4. apply hall_any; [constructor|vm_compute; reflexivity]. Qed.
Theorem C34_shared_station_refuted : exists n, hreach any_line n /\ line_stations "L1" n = Ok ("A", "B") /\ station_line "A" n = Ok (Some "L2").
Proof.
  exists hshared. split; [|vm_compute; repeat split; try reflexivity; discriminate]. apply hall_any; [apply h4_reach|vm_compute; reflexivity].
Qed.
Print Assumptions C34_shared_station_refuted.
Theorem C34_dangling_line_refuted : exists n, hreach any_line n /\ is_Some (find_line n "L1") /\ line_stations "L1" n = UB /\ (remove_line "L1" n).1 = UB.
Proof.
  exists (hrun hshared [HRemoveLine "L2"; HRemoveStation "A"]). split; [|vm_compute; repeat split; try reflexivity; by eexists].
  apply hall_any; [|vm_compute; repeat split; try reflexivity; discriminate]. apply hall_any; [apply h4_reach|vm_compute; reflexivity].
Qed.
Print Assumptions C34_dangling_line_refuted.
Theorem C34_same_station_refuted : exists n, hreach any_line n /\ line_stations "L1" n = Ok ("A", "A").
Proof.
  exists (hrun h4 [HAddLine "L1" "A" "A"]). split; [|vm_compute; repeat split; try reflexivity; discriminate]. apply hall_any; [apply h4_reach|vm_compute; reflexivity].
Qed.
Print Assumptions C34_same_station_refuted.
