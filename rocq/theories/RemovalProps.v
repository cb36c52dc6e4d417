(** C35: removing a substation. *)
From stdpp Require Import gmap.
From Verif Require Import Base RemovalSpec RemovalAll RemovalEq.

(** A substation from which a line, a transformer or an HVDC line goes to another one is not removed, and nothing changes.  Conversely the removal of
    any other substation passes the check.  [strict] is explained with [sub_loop]. *)
Theorem C35_refused strict n s l : nwf n -> r_subs n !! s = Some l ->
  (~ removable n s -> exists m, sub_remove strict s n = (Throw m, n)) /\ (removable n s -> sub_ok n s l = true).
Proof.
  intros W Hl. pose proof (sub_ok_spec n s l W Hl) as H. split; [|apply H]. intros N. unfold sub_remove. rewrite Hl. destruct (sub_ok n s l); [destruct N; by apply H|]. by eexists.
Qed.
Print Assumptions C35_refused.

(** A substation with at most two voltage levels, node-breaker without internal connections, is removed with all it contains, and nothing else changes.
    Missing: the other substations (next theorems), and the incremented iterator, which the C++ standard does not define (C35_iterator_refuted). *)
Theorem C35_removed_partial n s l : nwf n -> r_subs n !! s = Some l -> removable n s ->
  (forall v x, r_vls n !! v = Some x -> rv_sub x = s -> node_breaker x /\ no_internal x) -> length l <= 2 ->
  exists n', sub_remove false s n = (Ok tt, n') /\ sub_removed s l n n'.
Proof. apply sub_few. Qed.
Print Assumptions C35_removed_partial.

(** With three voltage levels or more, the loop reads a destroyed voltage level. *)
Theorem C35_three_refuted n s l : nwf n -> r_subs n !! s = Some l -> removable n s ->
  (forall v x, r_vls n !! v = Some x -> rv_sub x = s -> node_breaker x /\ no_internal x) -> 3 <= length l -> (sub_remove false s n).1 = UB.
Proof. intros W Hl Hr P Hlen. destruct l as [|v0 [|v1 [|v2 rest]]]; try (cbn in Hlen; lia). by eapply sub_many. Qed.
Print Assumptions C35_three_refuted.

(** By the C++ standard one voltage level is enough: the loop increments an iterator that the erase has invalidated. *)
Theorem C35_iterator_refuted n s l : nwf n -> r_subs n !! s = Some l -> removable n s ->
  (forall v x, r_vls n !! v = Some x -> rv_sub x = s -> node_breaker x /\ no_internal x) -> l <> [] -> (sub_remove true s n).1 = UB.
Proof. intros W Hl Hr P Hne. destruct l as [|v0 rest]; [done|]. by eapply sub_strict. Qed.
Print Assumptions C35_iterator_refuted.

(** A bus-breaker voltage level with an equipment: the loops on the connectables erase the terminal under their iterator. *)
Theorem C35_bus_breaker_refuted n v x : nwf n -> r_vls n !! v = Some x -> ~ node_breaker x -> terminals x <> [] ->
  (vl_ok n x = true -> (vl_remove v n).1 = UB) /\
  forall strict l, r_subs n !! rv_sub x = Some l -> removable n (rv_sub x) -> head l = Some v -> (sub_remove strict (rv_sub x) n).1 = UB.
Proof.
  intros W Hx Hnb Hne. split; [by apply vl_remove_bus|]. intros strict l Hl Hr Hh. destruct l as [|v0 rest]; [done|]. injection Hh as ->. by eapply sub_bus.
Qed.
Print Assumptions C35_bus_breaker_refuted.

(** A node-breaker voltage level with an internal connection: VoltageLevel::remove throws once its equipments are gone, so that "if it throws, nothing
    has changed" is false. *)
Theorem C35_internal_refuted n v x ns es i j : nwf n -> r_vls n !! v = Some x -> rv_topo x = RNode ns es -> (i, j, None) ∈ es -> vl_ok n x = true ->
  exists m n', vl_remove v n = (Throw m, n') /\ (forall e, e ∈ terminals x -> r_eqs n' !! e = None) /\ is_Some (r_vls n' !! v).
Proof. intros W Hx Ht Hij Hok. destruct (vl_remove_internal v n x i j ns es W Hx Ht Hij Hok) as (n' & E & ?). by exists "m_pointer is null", n'. Qed.
Print Assumptions C35_internal_refuted.

(** An equipment that is no station of an HVDC line is removed from the network and from its voltage levels, where the nodes it leaves without terminal and
    without edge disappear; nothing else changes, and the network is consistent again. *)
Theorem C35_equipment n e k vs : nwf n -> r_eqs n !! e = Some (k, vs) -> (forall h s1 s2, r_hv n !! h = Some (s1, s2) -> s1 <> e /\ s2 <> e) ->
  exists n', remove_eq e n = (Ok tt, n') /\ eq_removed e vs n n' /\ nwf n'.
Proof. apply remove_eq_spec. Qed.
Print Assumptions C35_equipment.
(** A station of an HVDC line is not removed, and nothing changes. *)
Theorem C35_station n e k vs h s1 s2 : nwf n -> r_eqs n !! e = Some (k, vs) -> r_hv n !! h = Some (s1, s2) -> s1 = e \/ s2 = e ->
  exists m, remove_eq e n = (Throw m, n).
Proof. apply remove_eq_refused. Qed.
Print Assumptions C35_station.

(** ** Concrete cases *)
(** A decidable form of [nwf]. *)
Definition nwf_check (n : rnet) : Prop :=
  map_Forall (fun s (l : list string) => NoDup l /\ Forall (fun v => rv_sub <$> r_vls n !! v = Some s) l /\ map_Forall (fun v x => rv_sub x = s -> v ∈ l) (r_vls n)) (r_subs n) /\
  map_Forall (fun v x => is_Some (r_subs n !! rv_sub x) /\ Forall (fun e => v ∈ from_option snd [] (r_eqs n !! e)) (terminals x) /\
                         map_Forall (fun e (p : rkind * list string) => v ∈ p.2 -> e ∈ terminals x) (r_eqs n)) (r_vls n) /\
  map_Forall (fun e (p : rkind * list string) => Forall (fun v => is_Some (r_vls n !! v)) p.2 /\ (p.1 <> RMulti -> length p.2 = 1)) (r_eqs n) /\
  map_Forall (fun h (p : string * string) => fst <$> r_eqs n !! p.1 = Some RStation /\ fst <$> r_eqs n !! p.2 = Some RStation /\
    map_Forall (fun h' (q : string * string) => p.1 = q.1 \/ p.1 = q.2 \/ p.2 = q.1 \/ p.2 = q.2 -> h = h') (r_hv n)) (r_hv n).
#[local] Instance nwf_check_dec n : Decision (nwf_check n).
Proof. unfold nwf_check. solve_decision. Defined.
Lemma nwf_check_ok n : nwf_check n -> nwf n.
Proof.
  intros (H1 & H2 & H3 & H4). split.
  - intros s l Hl. destruct (H1 _ _ Hl) as (Hn & Hf & Hm). split; [done|]. intros v. split.
    + intros Hv. rewrite Forall_forall in Hf. apply Hf in Hv. apply fmap_Some in Hv as (x & ? & ?). eauto.
    + intros (x & Hx & Hs). by eapply Hm.
  - intros v x Hx. apply (H2 _ _ Hx).
  - intros v x e Hx. destruct (H2 _ _ Hx) as (_ & Hf & Hm). split.
    + intros He. rewrite Forall_forall in Hf. apply Hf in He. destruct (r_eqs n !! e) as [[k vs]|]; [|by apply elem_of_nil in He]. eauto.
    + intros (k & vs & He & Hv). by eapply Hm.
  - intros e k vs He. destruct (H3 _ _ He) as [Hf Hm]. cbn in *. split; [by rewrite Forall_forall in Hf|]. intros Hk. specialize (Hm Hk). destruct vs as [|v [|]]; try done. eauto.
  - intros h s1 s2 Hh. destruct (H4 _ _ Hh) as (Hs1 & Hs2 & _). cbn in *.
    assert (forall st, fst <$> r_eqs n !! st = Some RStation -> exists v, r_eqs n !! st = Some (RStation, [v])) as HS.
    { intros st ([k vs] & He & Hk)%fmap_Some. cbn in Hk. subst k. destruct (H3 _ _ He) as [_ Hm]. cbn in Hm. specialize (Hm ltac:(done)). destruct vs as [|v [|]]; try done. eauto. }
    intros st [->| ->]; auto.
  - intros h h' s1 s2 t1 t2 Hh Hh' Hst. destruct (H4 _ _ Hh) as (_ & _ & Hm). by eapply (Hm _ _ Hh').
Qed.
(** Substation S with two voltage levels, a transformer between them, a load, two HVDC converter stations and their line; substation O with a generator. *)
Definition nb (s : string) (nodes : list (option (option string))) (edges : list (nat * nat * option string)) : rvl := mkRV s (RNode nodes edges).
Definition net2 : rnet :=
  mkRN (list_to_map [("S", ["V1"; "V2"]); ("O", ["W"])])
       (list_to_map [("V1", nb "S" [Some (Some "T"); Some (Some "L"); Some (Some "C1"); Some None] [(0, 3, Some "B1"); (1, 3, Some "B2")]);
                     ("V2", nb "S" [Some (Some "T"); Some (Some "C2")] [(0, 1, Some "B3")]);
                     ("W", nb "O" [Some (Some "G"); Some None] [(0, 1, Some "B4")])])
       (list_to_map [("T", (RMulti, ["V1"; "V2"])); ("L", (RInjection, ["V1"])); ("C1", (RStation, ["V1"])); ("C2", (RStation, ["V2"])); ("G", (RInjection, ["W"]))])
       (list_to_map [("H", ("C1", "C2"))]) (list_to_set ["B1"; "B2"; "B3"; "B4"]).
(** The same with a third voltage level, empty. *)
Definition net3 : rnet := mkRN (<["S" := ["V1"; "V2"; "V3"]]> (r_subs net2)) (<["V3" := nb "S" [] []]> (r_vls net2)) (r_eqs net2) (r_hv net2) (r_idx net2).
Lemma net2_wf : nwf net2.
Proof. apply nwf_check_ok. apply (bool_decide_eq_true_1 _). vm_compute. reflexivity. Qed.
Lemma net3_wf : nwf net3.
Proof. apply nwf_check_ok. apply (bool_decide_eq_true_1 _). vm_compute. reflexivity. Qed.
Definition plain_check (n : rnet) : Prop :=
  map_Forall (fun _ x => match rv_topo x with RNode _ es => Forall (fun e : nat * nat * option string => is_Some e.2) es | RBus _ _ => False end) (r_vls n).
#[local] Instance plain_check_dec n : Decision (plain_check n).
Proof. unfold plain_check. apply map_Forall_dec. intros v x. destruct (rv_topo x); apply _. Defined.
Lemma plain_check_ok n : plain_check n -> forall s v x, r_vls n !! v = Some x -> rv_sub x = s -> node_breaker x /\ no_internal x.
Proof.
  intros H s v x Hx _. specialize (H _ _ Hx). cbn in H. destruct (rv_topo x) as [ns es|] eqn:E; [|done]. split; [by eexists _, _|].
  intros ns' es' i j E' Hin. rewrite E in E'. injection E' as <- <-. rewrite Forall_forall in H. apply H in Hin as [? ?]. done.
Qed.
Lemma net2_removable : removable net2 "S".
Proof. apply (sub_ok_spec net2 "S" ["V1"; "V2"] net2_wf eq_refl). vm_compute. reflexivity. Qed.
Lemma net3_removable : removable net3 "S".
Proof. apply (sub_ok_spec net3 "S" ["V1"; "V2"; "V3"] net3_wf eq_refl). vm_compute. reflexivity. Qed.
Example C35_case2 : exists n', sub_remove false "S" net2 = (Ok tt, n') /\ r_vls n' !! "W" = r_vls net2 !! "W" /\ r_hv n' !! "H" = None /\ "B1" ∉ r_idx n' /\ "B4" ∈ r_idx n'.
Proof.
  destruct (C35_removed_partial net2 "S" ["V1"; "V2"] net2_wf eq_refl net2_removable) as (n' & E & R).
  - apply plain_check_ok. apply (bool_decide_eq_true_1 _). vm_compute. reflexivity.
  - cbn. lia.
  - exists n'. split; [done|]. destruct (d_vls _ _ _ _ R "W") as [_ H1]. destruct (d_hv _ _ _ _ R "H") as [H2 _]. split; [apply H1; rewrite elem_of_list_In; cbn; intuition congruence|]. split.
    + apply (H2 "C1" "C2"); [done|]. left. exists RStation, ["V1"], "V1". split; [done|]. split; left.
    + rewrite !(d_idx _ _ _ _ R). split.
      * intros [_ H]. apply (H "V1" _ ltac:(left) eq_refl). vm_compute. left.
      * split; [apply (bool_decide_eq_true_1 _); vm_compute; reflexivity|]. intros v x Hv Hx. clear E R H1 H2. apply elem_of_list_In in Hv. cbn [In] in Hv. destruct Hv as [<-|[<-|[]]].
        -- vm_compute in Hx. injection Hx as <-. apply (bool_decide_eq_true_1 _). vm_compute. reflexivity.
        -- vm_compute in Hx. injection Hx as <-. apply (bool_decide_eq_true_1 _). vm_compute. reflexivity.
Qed.
Example C35_case3 : (sub_remove false "S" net3).1 = UB.
Proof.
  eapply (C35_three_refuted net3 "S" ["V1"; "V2"; "V3"] net3_wf eq_refl net3_removable); [|cbn; lia].
  apply plain_check_ok. apply (bool_decide_eq_true_1 _). vm_compute. reflexivity.
Qed.
(** A line goes to the other substation. *)
Definition net_line : rnet :=
  mkRN (list_to_map [("S", ["V"]); ("O", ["W"])])
       (list_to_map [("V", nb "S" [Some (Some "K")] []); ("W", nb "O" [Some (Some "K")] [])])
       (list_to_map [("K", (RMulti, ["V"; "W"]))]) ∅ ∅.
Example C35_case_line : exists m, sub_remove false "S" net_line = (Throw m, net_line).
Proof.
  assert (nwf net_line) as W by (apply nwf_check_ok; apply (bool_decide_eq_true_1 _); vm_compute; reflexivity).
  apply (C35_refused false net_line "S" ["V"] W eq_refl). intros [H _]. specialize (H "K" ["V"; "W"] "V" "W" eq_refl ltac:(left) ltac:(right; left) eq_refl). vm_compute in H. congruence.
Qed.
(** A bus-breaker voltage level with a load; a node-breaker one with an internal connection and a load. *)
Definition net_bus : rnet :=
  mkRN (list_to_map [("S", ["V"])]) (list_to_map [("V", mkRV "S" (RBus [("b", ["L"])] []))]) (list_to_map [("L", (RInjection, ["V"]))]) ∅ {["b"]}.
Example C35_case_bus : (vl_remove "V" net_bus).1 = UB /\ (sub_remove false "S" net_bus).1 = UB.
Proof.
  assert (nwf net_bus) as W by (apply nwf_check_ok; apply (bool_decide_eq_true_1 _); vm_compute; reflexivity).
  assert (removable net_bus "S") as Hr by (apply (sub_ok_spec net_bus "S" ["V"] W eq_refl); vm_compute; reflexivity).
  destruct (C35_bus_breaker_refuted net_bus "V" (mkRV "S" (RBus [("b", ["L"])] [])) W eq_refl) as [H1 H2]; [by intros (? & ? & ?)|done|].
  split; [apply H1; vm_compute; reflexivity|]. by apply (H2 false ["V"] eq_refl).
Qed.
Definition net_internal : rnet :=
  mkRN (list_to_map [("S", ["V"])]) (list_to_map [("V", nb "S" [Some (Some "L"); Some None] [(0, 1, None)])]) (list_to_map [("L", (RInjection, ["V"]))]) ∅ ∅.
Example C35_case_internal : exists m n', vl_remove "V" net_internal = (Throw m, n') /\ r_eqs n' !! "L" = None /\ r_eqs net_internal !! "L" <> None.
Proof.
  assert (nwf net_internal) as W by (apply nwf_check_ok; apply (bool_decide_eq_true_1 _); vm_compute; reflexivity).
  destruct (C35_internal_refuted net_internal "V" (nb "S" [Some (Some "L"); Some None] [(0, 1, None)]) _ _ 0 1 W eq_refl eq_refl ltac:(left) ltac:(vm_compute; reflexivity)) as (m & n' & E & H & _).
  exists m, n'. split; [done|]. split; [apply H; vm_compute; left|done].
Qed.
(** The load of net2 leaves node 1, an end of a switch; the station C2 cannot be removed; in a voltage level without switch the node goes with the
    equipment, and so does the node before it that was already empty. *)
Example C35_case_equipment :
  rv_topo <$> r_vls (remove_eq "L" net2).2 !! "V1" =
    Some (RNode [Some (Some "T"); Some None; Some (Some "C1"); Some None] [(0, 3, Some "B1"); (1, 3, Some "B2")]) /\
  (remove_eq "C2" net2).1 <> Ok tt /\
  detach "A" (nb "S" [Some (Some "B"); None; Some (Some "A")] []) = nb "S" [Some (Some "B")] [].
Proof. split; [by vm_compute|]. split; [by vm_compute|]. by vm_compute. Qed.
