(** C64: what an export limited to the main connected component holds. *)
From stdpp Require Import gmap relations sorting.
From Verif Require Import Base Equip Components ComponentsProofs CompNetSpec CompNetProofs CompNetLinks CompNetInv CompNetStep CompNetQuery CompNetProps Filter.

(** Without the option everything is written, as it should be.  This holds with the option too: it is not looked at. *)
Theorem C64_everything : forall s o cb,
  let f := bf_create s o in
  (forall bs, written_buses f bs = bs) /\ (forall l, written_switches f l = l) /\ (forall l, written_equipments f cb l = l) /\ (forall l, written_lines f cb s l = l).
Proof.
  intros s o cb f.
  assert (forall b, bf_bus f b = true) as H1. { intros b. unfold bf_bus. rewrite (bool_decide_eq_true_2 (bf_buses f = ∅)) by done. done. }
  assert (forall bs, bf_connectable f bs = true) as H2. { intros bs. unfold bf_connectable. rewrite (bool_decide_eq_true_2 (bf_buses f = ∅)) by done. done. }
  assert (forall (A : Type) (P : A -> Prop) (D : forall x, Decision (P x)) (l : list A), (forall x, P x) -> filter P l = l) as HF.
  { intros A P HD l HP. induction l as [|x l IH]; [done|]. rewrite filter_cons_True by done. by rewrite IH. }
  split; [intros bs; apply HF; intros b; apply H1|]. split; [intros l; apply HF; intros x; split; apply H1|]. split; [intros l; apply HF; intros x; apply H2|].
  intros l. apply HF. intros x. unfold station_passes. split; destruct (cs_eq s !! _) as [[? ?]|]; done.
Qed.
Print Assumptions C64_everything.

(** A network with two connected components and the option setOnlyMainCc(true): a bus, a converter station and a dangling line that are not in the main
    component (number 0) are written. *)
Definition two_ops : list (eop cop) := [ECall (CAddEq "L" KBranch [("B1", true); ("B1x", true)])].
Theorem C64_main_component_refuted : exists st v b k bs e n, creach size_order (csafe true) st /\ cworking st v /\
  (component_of size_order true b st).1 = Ok (Some n) /\ n <> 0 /\ cs_eq (e_sh st) !! e = Some (k, bs) /\ b ∈ bs /\
  let f := bf_create (e_sh st) (mkXO true false) in
  b ∈ written_buses f (concat (map snd (cs_vls (e_sh st)))) /\ (e, (k, bs)) ∈ written_equipments f Some (map_to_list (cs_eq (e_sh st))).
Proof.
  exists (st_of two_ops), (v_of two_ops), "B2", KStation, ["B2"], "S2", 1.
  assert (cs_eq (e_sh (st_of two_ops)) !! "S2" = Some (KStation, ["B2"])) as HE by (by vm_compute).
  assert ("B2" ∈ concat (map snd (cs_vls (e_sh (st_of two_ops))))) as HB by (apply (bool_decide_unpack _); by vm_compute).
  split.
  { unfold st_of, crun, cbase, two_ops. cbn [app foldl]. repeat first [apply cr_new|apply cr_step]; try exact I; try (vm_compute; discriminate). }
  split; [apply working_of; by vm_compute|]. split; [by vm_compute|]. split; [done|]. split; [done|]. split; [by left|].
  revert HE HB. generalize (st_of two_ops). intros st HE HB. cbv zeta.
  destruct (C64_everything (e_sh st) (mkXO true false) Some) as (H1 & _ & H2 & _). rewrite H1, H2. split; [done|]. by apply elem_of_map_to_list.
Qed.
Print Assumptions C64_main_component_refuted.
Example C64_case : (component_of size_order true "B1" (st_of two_ops)).1 = Ok (Some 0) /\ (component_of size_order true "B1x" (st_of two_ops)).1 = Ok (Some 0) /\
  written_buses (bf_create (e_sh (st_of two_ops)) (mkXO false false)) ["B1"; "B1x"; "B2"] = ["B1"; "B1x"; "B2"].
Proof. split_and!; by vm_compute. Qed.

(** The tests of a filter that holds buses, which no export makes yet.  Buses and switches: those in the set, those with both ends in the set. *)
Theorem C64_kept : forall f, bf_buses f <> ∅ ->
  (forall bs b, b ∈ written_buses f bs <-> b ∈ bs /\ b ∈ bf_buses f) /\
  (forall l s b1 b2, (s, (b1, b2)) ∈ written_switches f l <-> (s, (b1, b2)) ∈ l /\ b1 ∈ bf_buses f /\ b2 ∈ bf_buses f).
Proof.
  intros f Hf. assert (forall b, bf_bus f b = true <-> b ∈ bf_buses f) as H.
  { intros b. unfold bf_bus. rewrite bool_decide_eq_false_2 by done. cbn [orb]. apply bool_decide_eq_true. }
  split.
  - intros bs b. unfold written_buses. rewrite elem_of_list_filter, H. tauto.
  - intros l s b1 b2. unfold written_switches. rewrite elem_of_list_filter. cbn [fst snd]. rewrite !H. tauto.
Qed.
(** Equipments: the test is the wrong way round.  Of a load on a bus of the set and one elsewhere, the second is written. *)
Theorem C64_kept_equipments_refuted : exists f cb l k, bf_buses f = {["A"]} /\ cb "A" = Some "A" /\ cb "B" = Some "B" /\
  l = [("in", (k, ["A"])); ("out", (k, ["B"]))] /\ written_equipments f cb l = [("out", (k, ["B"]))].
Proof. exists (mkBF {["A"]} (mkXO true false)), Some, [("in", (KInjection, ["A"])); ("out", (KInjection, ["B"]))], KInjection. split_and!; by vm_compute. Qed.
Example C64_kept_case : written_switches (mkBF {["A"]} (mkXO true false)) [("s", ("A", "A")); ("t", ("A", "B")); ("u", ("B", "A"))] = [("s", ("A", "A"))].
Proof. by vm_compute. Qed.
Print Assumptions C64_kept.
Print Assumptions C64_kept_equipments_refuted.
