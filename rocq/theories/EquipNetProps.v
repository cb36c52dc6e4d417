(** C61: the creation and the removal of equipments. *)
From Verif Require Import EquipNet EquipNetSpec EquipNetProofs.

(** A creation succeeds exactly when its request is right, the nodes it asks for are free and distinct, and there is a working variant;
    the equipment is then new and attached, and nothing else has changed. *)
Theorem C61_create nt o id sub ss : net_reach any nt -> request o = Some (id, sub, ss) ->
  ((nstep o nt).1 = Ok tt <-> n_work nt = true /\ exists ps, right_request o nt ps /\ Forall (fun x => free nt x.1 x.2) ps /\ distinct_nodes ps) /\
  ((nstep o nt).1 = Ok tt -> exists ps, want_all ss ps /\ created nt (nstep o nt).2 id ps) /\
  ((nstep o nt).1 = Ok tt \/ exists m, (nstep o nt).1 = Throw m).
Proof.
  intros HR ER. destruct (reach_inv _ _ HR) as [HI HB]. unfold right_request. rewrite ER.
  destruct (creation o nt id sub ss ER) as [(_ & HN & m & ->)|[(_ & _ & HN & m & ->)|(_ & ps & Hw & Hid & HS & E)]]; cbn [fst snd].
  - split; [|split; [done|eauto]]. split; [done|]. intros (HW & ps & (? & ? & ? & [= <- <- <-] & H1 & H2 & H3 & H4) & _). rewrite (HN ps) in HW; done.
  - split; [|split; [done|eauto]]. split; [done|]. intros (HW & ps & (? & ? & ? & [= <- <- <-] & H1 & H2 & H3 & H4) & _). destruct HN. by exists ps.
  - pose proof (creation_nonempty o id sub ss ps ER Hw) as Hne. rewrite E. destruct (finish_result id ps nt) as [[nt' Ef]|(m & nt' & Ef)]; rewrite Ef; cbn [fst snd].
    + split; [|split; [intros _; exists ps; split; [done|by apply finish_created]|by left]]. split; [|done]. intros _. apply finish_iff in Ef as (HW & HF & HD & _); [|done].
      apply Forall_and in HF as [HF1 HF2]. split; [done|]. exists ps. split; [|done]. eexists _, _, _. done.
    + split; [|split; [done|eauto]]. split; [done|]. intros (HW & ps' & (? & ? & ? & [= <- <- <-] & H1 & H2 & H3 & H4) & HF & HD).
      assert (ps' = ps) as -> by by apply (want_all_func ss). assert (finish id ps nt = (Ok tt, puts (with_eq nt id (news nt ps) (length ps)) (news nt ps))) as Ef'; [|rewrite Ef in Ef'; discriminate Ef'].
      apply finish_iff; [done|]. split; [done|]. split; [by apply Forall_and|]. done.
Qed.

(** A creation that throws leaves the network as it was, or, when the equipment has entered the network, leaves it there. *)
Theorem C61_fail nt o id sub ss m : net_reach any nt -> request o = Some (id, sub, ss) -> (nstep o nt).1 = Throw m ->
  (~ enters o nt -> (nstep o nt).2 = nt) /\
  (enters o nt -> n_eqs nt !! id = None /\ exists ts, n_eqs (nstep o nt).2 = <[id := ts]> (n_eqs nt) /\ n_ids (nstep o nt).2 = n_ids nt /\ n_work (nstep o nt).2 = n_work nt /\
    ((exists s, o = OInjection id s) /\ ts = [] /\ (~ exists ps, want_all ss ps) \/ want_all ss ((fun t => (t_vl t, t_place t)) <$> ts))).
Proof.
  intros HR ER Em. destruct (reach_inv _ _ HR) as [HI HB].
  destruct (creation o nt id sub ss ER) as [(HE & HN & m' & ->)|[(HE & HO & HN & m' & ->)|(HE & ps & Hw & Hid & HS & E)]]; cbn [fst snd].
  - split; done.
  - split; [done|]. intros _. split; [|by exists []; auto 10]. destruct HO as [s ->]. apply HE.
  - split; [done|]. intros _. rewrite E. destruct (finish_inv id ps nt HI) as (H1 & H2 & H3 & H4); [apply Hid|]. split; [apply Hid|]. exists (news nt ps). split; [done|]. split; [done|]. split; [done|].
    right. pose proof (where_news nt ps) as HWN. unfold where_ in HWN. by rewrite HWN.
Qed.

(** Every terminal found on a node or a bus is one of an equipment of the network, the only one with this address, which says it is there. *)
Theorem C61_owned nt vl p a : net_reach any nt -> at_place nt vl p a ->
  exists id t, owns nt id t /\ t_id t = a /\ t_vl t = vl /\ same_place (t_place t) p /\ forall id' t', owns nt id' t' -> t_id t' = a -> id' = id /\ t' = t.
Proof.
  intros HR Ha. destruct (reach_inv _ _ HR) as [HI _]. destruct (ni_owned nt HI vl p a Ha) as (id & ts & k & t & Hi & Hk & E1 & E2 & E3). exists id, t.
  split; [exists ts; split; [done|by apply elem_of_list_lookup_2 in Hk]|]. do 3 (split; [done|]). intros id' t' (ts' & Hi' & Ht') E. apply elem_of_list_lookup in Ht' as [k' Hk'].
  destruct (ni_once nt HI id' ts' k' t' id ts k t) as [-> ->]; [done..|congruence|]. split; [done|]. congruence.
Qed.

(** As long as no failed creation leaves a trace, every equipment is attached by all its terminals, *)
Theorem C61_attached_partial nt id t : net_reach no_trace nt -> owns nt id t -> attached nt t.
Proof. intros HR (ts & Hi & Ht). by apply (reach_attached nt HR id ts). Qed.
(** removing it succeeds, when there is a working variant, and takes its terminals away and nothing else; without one, nothing happens. *)
Theorem C61_remove_partial nt id : net_reach no_trace nt -> is_Some (n_eqs nt !! id) ->
  (n_work nt = true -> exists nt', nstep (ORemove id) nt = (Ok tt, nt') /\ removed nt nt' id) /\
  (n_work nt = false -> exists m, nstep (ORemove id) nt = (Throw m, nt)).
Proof.
  intros HR [ts Hi]. destruct (reach_inv _ _ HR) as [HI _]. pose proof (reach_attached nt HR) as HA. destruct (HA id ts Hi) as [Hne Hat].
  assert (exists t, owns nt id t) as Hex. { destruct ts as [|t ts]; [done|]. exists t, (t :: ts). split; [done|]. by left. }
  assert (forall t, owns nt id t -> attached nt t) as HAt. { intros t (ts' & Hi' & Ht). by apply (HA id ts' Hi'). }
  cbn [nstep]. destruct (remove_cases id nt HI) as [(m & nt' & E & _ & _ & _ & HU & HW)|(nt' & E & _ & _ & _ & _ & HW & _ & _ & _ & _ & HU)].
  - rewrite (HW Hex HAt). split; [done|]. intros _. exists m. rewrite E. by rewrite HU.
  - split; [intros _; exists nt'; auto|]. intros HWf. exfalso. revert E. unfold remove_equipment. rewrite Hi. destruct ts as [|t ts]; [done|]. cbn [detach_all].
    pose proof (Hat t (elem_of_list_here t ts)) as Ht. unfold detach, attached in *. clear -Ht HWf. destruct (t_place t) as [n|b c]; cbn [at_place] in Ht.
    + destruct Ht as (sub & vs & es & EL & _). rewrite (nbind_Throw _ _ _ "Variant index not set" nt); [done|]. rewrite (nbind_Throw _ _ _ "Variant index not set" nt); [done|].
      rewrite (nbind_Ok _ _ _ _ _ (nlevel_Some _ _ _ EL)). cbn [snd]. apply nbind_Throw. unfold nwork, nlift. by rewrite HWf.
    + destruct Ht as (sub & bs & es & l & EL & _). rewrite (nbind_Throw _ _ _ "Variant index not set" nt); [done|]. rewrite (nbind_Throw _ _ _ "Variant index not set" nt); [done|].
      rewrite (nbind_Ok _ _ _ _ _ (nlevel_Some _ _ _ EL)). cbn [snd]. apply nbind_Throw. unfold nwork, nlift. by rewrite HWf.
Qed.
(** Creating and removing gives the equipments and the places back. *)
Theorem C61_round_trip_partial nt o id sub ss nt1 : net_reach no_trace nt -> request o = Some (id, sub, ss) -> nstep o nt = (Ok tt, nt1) ->
  exists nt2, nstep (ORemove id) nt1 = (Ok tt, nt2) /\ n_eqs nt2 = n_eqs nt /\ n_ids nt2 = n_ids nt /\ (forall vl p a, at_place nt2 vl p a <-> at_place nt vl p a).
Proof.
  intros HR ER E. destruct (reach_inv _ _ HR) as [HI _]. assert (net_reach any nt) as HRa. { clear -HR. induction HR; [constructor|by constructor]. }
  assert (no_trace o nt) as HT. { intros _ [m Hm]. rewrite E in Hm. discriminate Hm. }
  pose proof (nr_step _ o nt HR HT) as HR1. rewrite E in HR1. cbn [snd] in HR1. destruct (C61_create nt o id sub ss HRa ER) as (HIff & HC & _). rewrite E in HIff, HC. cbn [fst snd] in HIff, HC.
  destruct HC as (ps & Hw & [(ts & He & Hps & Hat & HND & Hfr & HP) C2 C3 C4 C5]); [done|]. destruct (proj1 HIff eq_refl) as (HW & ps' & (? & ? & ? & Hreq & Hid & _) & _). rewrite ER in Hreq. injection Hreq as <- <- <-.
  destruct (C61_remove_partial nt1 id HR1) as [HRm _]; [rewrite He, lookup_insert; by eexists|]. destruct HRm as (nt2 & E2 & [R1 R2 R3 R4 R5 R6]); [congruence|].
  exists nt2. split; [done|]. split; [rewrite R1, He, delete_insert; [done|apply Hid]|]. split; [congruence|]. intros vl p a. rewrite R4, HP. split.
  - intros [[Ha|(t & Ht & <- & _)] Hn]; [done|]. destruct (Hn t); [|done]. exists ts. split; [by rewrite He, lookup_insert|done].
  - intros Ha. split; [by left|]. intros t (ts' & Hi & Ht) <-. rewrite He, lookup_insert in Hi. injection Hi as <-.
    destruct (ni_owned nt HI vl p _ Ha) as (id0 & ts0 & k0 & t0 & A1 & A2 & A3 & _). apply (Hfr t id0 t0 Ht); [|done]. exists ts0. split; [done|by apply elem_of_list_lookup_2 in A2].
Qed.

(** ** What is not true *)
Definition runs (l : list nop) : net := foldl (fun nt o => (nstep o nt).2) net0 l.
Lemma runs_reach l : net_reach any (runs l).
Proof.
  unfold runs. assert (forall nt, net_reach any nt -> net_reach any (foldl (fun nt o => (nstep o nt).2) nt l)) as H; [|apply H; constructor].
  induction l as [|o l IH]; intros nt Hn; [done|]. apply IH. by constructor.
Qed.
Definition on_node (vl : string) (n : nat) : side := mkSide vl (Some n) "" "".
Definition two_levels : list nop := [OLevel "N" "S" true; OLevel "B" "S" false; OBus "B" "b"].
(** A creation on an occupied node throws and leaves the equipment in the network. *)
Definition occupied : list nop := two_levels ++ [OInjection "L1" (on_node "N" 0)].
Theorem C61_ghost_refuted : exists nt o id sub ss m, net_reach any nt /\ request o = Some (id, sub, ss) /\ (nstep o nt).1 = Throw m /\ n_eqs nt !! id = None /\ is_Some (n_eqs (nstep o nt).2 !! id).
Proof.
  exists (runs occupied), (OInjection "L2" (on_node "N" 0)), "L2", None, [on_node "N" 0], "An equipment is already connected to the node".
  split; [apply runs_reach|]. split; [done|]. split; [by vm_compute|]. split; [by vm_compute|]. vm_compute. by eexists.
Qed.
(** Removing this equipment takes away the terminal of the equipment that is on the node. *)
Theorem C61_removed_refuted : exists nt id id' t, net_reach any nt /\ (nstep (ORemove id) nt).1 = Ok tt /\ id' <> id /\ owns nt id' t /\ attached nt t /\
  owns (nstep (ORemove id) nt).2 id' t /\ ~ attached (nstep (ORemove id) nt).2 t.
Proof.
  exists (runs (occupied ++ [OInjection "L2" (on_node "N" 0)])), "L2", "L1", (mkT 0 "N" (PNode 0)).
  split; [apply runs_reach|]. split; [by vm_compute|]. split; [done|].
  split; [exists [mkT 0 "N" (PNode 0)]; split; [by vm_compute|by left]|].
  split; [eexists "S", _, _; split; [vm_compute; reflexivity|by vm_compute]|].
  split; [exists [mkT 0 "N" (PNode 0)]; split; [by vm_compute|by left]|].
  intros (sub & vs & es & H & Hn). vm_compute in H. injection H as <- <- <-. vm_compute in Hn. discriminate Hn.
Qed.
(** The equipment that has lost its terminal can no longer be removed. *)
Theorem C61_stuck_refuted : exists nt id m, net_reach any nt /\ (exists t, owns nt id t) /\ n_work nt = true /\ nstep (ORemove id) nt = (Throw m, nt).
Proof.
  set (nt := runs (occupied ++ [OInjection "L2" (on_node "N" 0); ORemove "L2"])). exists nt, "L1", "Vertex not found".
  split; [apply runs_reach|]. split; [exists (mkT 0 "N" (PNode 0)), [mkT 0 "N" (PNode 0)]; split; [by vm_compute|by left]|]. split; [by vm_compute|].
  vm_compute. reflexivity.
Qed.
(** An injection without node nor bus stays in the network without terminal; nothing can remove it nor use its id. *)
Theorem C61_no_terminal_refuted : exists nt id, net_reach any nt /\ n_eqs nt !! id = Some [] /\ (exists m, nstep (ORemove id) nt = (Throw m, nt)) /\
  forall o sub ss, request o = Some (id, sub, ss) -> exists m, nstep o nt = (Throw m, nt).
Proof.
  exists (runs (two_levels ++ [OInjection "L" (mkSide "B" None "" "")])), "L". assert (n_eqs (runs (two_levels ++ [OInjection "L" (mkSide "B" None "" "")])) !! "L" = Some []) as Hi by by vm_compute.
  pose proof (runs_reach (two_levels ++ [OInjection "L" (mkSide "B" None "" "")])) as HR. revert Hi HR. generalize (runs (two_levels ++ [OInjection "L" (mkSide "B" None "" "")])). intros nt Hi HR.
  split; [done|]. split; [done|]. split; [eexists; cbn [nstep]; unfold remove_equipment; by rewrite Hi|].
  intros o sub ss ER. destruct (creation o nt "L" sub ss ER) as [(_ & _ & m & E)|[(HE & (s & ->) & _)|(_ & ps & _ & (_ & _ & _ & Hn) & _)]]; [eauto| |congruence].
  cbn [enters] in HE. destruct HE as (_ & _ & _ & _ & Hn). congruence.
Qed.
(** A line with its two ends on one free node throws and stays attached by its first end. *)
Theorem C61_half_line_refuted : exists nt o id sub ss m t t', net_reach any nt /\ request o = Some (id, sub, ss) /\ nstep o nt = (Throw m, (nstep o nt).2) /\ n_eqs nt !! id = None /\
  n_eqs (nstep o nt).2 !! id = Some [t; t'] /\ attached (nstep o nt).2 t /\ ~ attached (nstep o nt).2 t'.
Proof.
  exists (runs two_levels), (OBranch None "L" (on_node "N" 0) (on_node "N" 0)), "L", None, [on_node "N" 0; on_node "N" 0], "An equipment is already connected to the node", (mkT 0 "N" (PNode 0)), (mkT 1 "N" (PNode 0)).
  split; [apply runs_reach|]. split; [done|]. split; [by vm_compute|]. split; [by vm_compute|]. split; [by vm_compute|].
  split; [eexists "S", _, _; split; [vm_compute; reflexivity|by vm_compute]|].
  intros (sub & vs & es & H & Hn). vm_compute in H. injection H as <- <- <-. vm_compute in Hn. discriminate Hn.
Qed.

Print Assumptions C61_create.
Print Assumptions C61_fail.
Print Assumptions C61_owned.
Print Assumptions C61_attached_partial.
Print Assumptions C61_remove_partial.
Print Assumptions C61_round_trip_partial.
Print Assumptions C61_ghost_refuted.
Print Assumptions C61_removed_refuted.
Print Assumptions C61_stuck_refuted.
Print Assumptions C61_no_terminal_refuted.
Print Assumptions C61_half_line_refuted.

(** ** A case: a load on a node, a line between both levels, a three-windings transformer; the line is removed; histories without trace. *)
Definition on_the_bus (b : string) (connected : bool) : side := mkSide "B" None (if connected then b else "") b.
Definition case_ops : list nop :=
  two_levels ++ [OInjection "L1" (on_node "N" 0); OLink "N" 0 1; OBranch None "LINE" (on_node "N" 1) (on_the_bus "b" true);
                 OThree "S" "T3" (on_node "N" 2) (on_the_bus "b" false) (on_the_bus "b" true); OBusbar "BBS" "N" (Some 4)].
Lemma runs_no_trace l : (forall l1 o l2, l = l1 ++ o :: l2 -> (nstep o (runs l1)).1 = Ok tt) -> net_reach no_trace (runs l).
Proof.
  induction l as [|o l IH] using rev_ind; intros H; [constructor|]. unfold runs. rewrite foldl_app. cbn [foldl]. constructor.
  - apply IH. intros l1 o' l2 ->. apply (H l1 o' (l2 ++ [o])). by rewrite <- app_assoc.
  - intros _ [m Hm]. pose proof (H l o [] eq_refl) as Hk. unfold runs in Hk. rewrite Hk in Hm. discriminate Hm.
Qed.
Fixpoint all_ok (l : list nop) (nt : net) : bool :=
  match l with [] => true | o :: l' => match nstep o nt with (Ok _, nt') => all_ok l' nt' | _ => false end end.
Lemma all_ok_runs l : all_ok l net0 = true -> net_reach no_trace (runs l).
Proof.
  intros H. apply runs_no_trace. intros l1 o l2 ->. unfold runs. revert H. generalize net0. induction l1 as [|o' l1 IH]; intros nt; cbn [app all_ok foldl].
  - destruct (nstep o nt) as [[[]| | |] nt']; done.
  - destruct (nstep o' nt) as [[[]| | |] nt']; try done. apply IH.
Qed.
Example C61_case : net_reach no_trace (runs case_ops) /\
  n_eqs (runs case_ops) !! "LINE" = Some [mkT 1 "N" (PNode 1); mkT 2 "B" (PBus "b" true)] /\
  n_eqs (runs case_ops) !! "T3" = Some [mkT 3 "N" (PNode 2); mkT 4 "B" (PBus "b" false); mkT 5 "B" (PBus "b" true)] /\
  (match n_levels (runs case_ops) !! "B" with Some (_, LBus bs _) => bs !! "b" | _ => None end) = Some [2; 4; 5] /\
  (match n_levels (runs (case_ops ++ [ORemove "LINE"])) !! "B" with Some (_, LBus bs _) => bs !! "b" | _ => None end) = Some [4; 5] /\
  (match n_levels (runs (case_ops ++ [ORemove "LINE"])) !! "N" with Some (_, LNode vs _) => vs !! 1 | _ => None end) = Some None /\
  (match n_levels (runs (case_ops ++ [ORemove "BBS"])) !! "N" with Some (_, LNode vs _) => vs !! 4 | _ => None end) = None.
Proof. split; [apply all_ok_runs; by vm_compute|]. by vm_compute. Qed.
(** A generator without node nor bus, unlike a load, leaves nothing; with a side that can be read it is there. *)
Example C61_case_generator : nstep (ORegulated "G" (mkSide "B" None "" "")) (runs case_ops) = (Throw "connectable bus is not set", runs case_ops) /\ n_eqs (runs case_ops) !! "G" = None /\
  n_eqs (runs (case_ops ++ [ORegulated "G" (on_node "N" 5)])) !! "G" = Some [mkT 7 "N" (PNode 5)] /\ net_reach no_trace (runs (case_ops ++ [ORegulated "G" (on_node "N" 5)])).
Proof.
  split.
  { assert (exists x, n_levels (runs case_ops) !! "B" = Some x) as [x EL] by (eexists; vm_compute; reflexivity). revert EL. generalize (runs case_ops). intros nt EL.
    cbn [nstep]. unfold add_regulated. cbn [s_vl]. destruct x as [k l]. rewrite (nbind_Ok _ _ _ _ _ (nlevel_Some _ _ _ EL)). reflexivity. }
  split; [by vm_compute|]. split; [by vm_compute|]. apply all_ok_runs. by vm_compute.
Qed.
(** A two-windings transformer of another substation: nothing happens. *)
Example C61_case_fail : let o := OBranch (Some "S2") "T2" (on_node "N" 5) (on_the_bus "b" true) in
  ~ enters o (runs case_ops) /\ exists m, nstep o (runs case_ops) = (Throw m, runs case_ops).
Proof.
  cbn zeta. set (o := OBranch (Some "S2") "T2" (on_node "N" 5) (on_the_bus "b" true)). assert (~ enters o (runs case_ops)) as HN.
  { intros (ps & (id & sub & ss & [= <- <- <-] & _ & H & _) & _). apply Forall_cons in H as [(k & (l & Hl) & ->) _]. vm_compute in Hl. discriminate Hl. }
  split; [done|]. exists "shall belong to the substation". assert ((nstep o (runs case_ops)).1 = Throw "shall belong to the substation") as Hm by (vm_compute; reflexivity).
  destruct (C61_fail (runs case_ops) o "T2" (Some "S2") _ _ (runs_reach _) eq_refl Hm) as [Hu _]. rewrite (surjective_pairing (nstep o (runs case_ops))), Hm, (Hu HN). reflexivity.
Qed.
