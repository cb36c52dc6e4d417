(** Property C58: the slack terminals of the variants. *)
From stdpp Require Import gmap list.
From Verif Require Import Base Variants Slack SlackSpec SlackProofs.

(** For every history (see [sl_safe]) of changes of the variants and of the slack terminals: every call succeeds or throws as
    specified, the slack terminal read in the working variant is the specified one, and the extension is found on the specified
    voltage levels.  Missing: the removals of variants excluded by [sl_safe], where it is false, and cloneVariant calls that fail
    after having registered some targets. *)
Theorem C58_slack_partial : forall s p, sl_hist s p ->
  (forall o, sl_safe s o -> outcome (ss_step p o).2 (sl_step s o).2) /\
  (forall vl, match ss_get p vl with Some t => sl_get s vl = Ok t | None => exists m, sl_get s vl = Throw m end) /\
  (forall vl, is_Some (sl_find s vl) <-> vl ∈ ss_ext p) /\
  (forall id, is_Some (vm_ids (sl_vm s) !! id) <-> id ∈ ss_live p).
Proof.
  intros s p H. apply hist_rel in H. split; [|split; [|split]].
  - intros o Ho. by apply step_rel.
  - intros vl. by apply get_rel.
  - intros vl. split.
    + intros [[k o] E]. destruct (decide (vl ∈ ss_ext p)) as [|Hn]; [done|]. rewrite (find_out s p vl H Hn) in E. done.
    + intros Hvl. destruct (find_in s p vl H Hvl) as (k & o & ->). eauto.
  - intros id. symmetry. apply (r_live _ _ H).
Qed.
Print Assumptions C58_slack_partial.

(** The slack terminal of a variant in a voltage level, as read after making it the working variant. *)
Definition slack_of (s : slst) (v vl : string) : option term :=
  match sl_get (sl_step s (SSetWorking v)).1 vl with Ok t => t | _ => None end.
Lemma slack_of_rel s p v vl : rel s p -> v ∈ ss_live p -> slack_of s v vl = ss_slack p v vl.
Proof.
  intros R Hv. unfold slack_of. destruct (working_rel s p v R) as [_ R']. pose proof (get_rel _ _ vl R') as HG.
  unfold ss_get in HG. cbn [ss_step] in HG. rewrite bool_decide_true in HG by done. cbn [fst ss_work ss_ext ss_slack mbind option_bind] in HG. case_decide as Hd.
  - by rewrite HG.
  - destruct HG as [m ->]. symmetry. by apply (r_none _ _ R).
Qed.

(** SlackTerminal::reset(voltageLevel, terminal) sets the slack terminal of the working variant and leaves the other variants and
    the other voltage levels alone; afterwards the voltage level has the extension iff some variant has a slack terminal there. *)
Theorem C58_local_partial : forall s p w vl t, sl_hist s p -> ss_work p = Some w -> (forall u, t = Some u -> t_vl u = vl) ->
  (sl_step s (SReset vl t)).2 = Ok tt /\
  (forall v vl', v ∈ ss_live p -> slack_of (sl_step s (SReset vl t)).1 v vl' = if decide (v = w /\ vl' = vl) then t else slack_of s v vl') /\
  (is_Some (sl_find (sl_step s (SReset vl t)).1 vl) <-> exists v, v ∈ ss_live p /\ is_Some (slack_of (sl_step s (SReset vl t)).1 v vl)).
Proof.
  intros s p w vl t H Hw Ht. apply hist_rel in H. cbn [sl_step]. destruct (sl_reset_rel s p vl t H) as [O R].
  assert (right_level vl t = true) as Hr. { destruct t as [u|]; [|done]. cbn. apply bool_decide_eq_true. by apply Ht. }
  assert (w ∈ ss_live p) as Hwl. { pose proof (r_work _ _ H) as HW. rewrite Hw in HW. destruct HW as (i & Hi & _). apply (r_live _ _ H). eauto. }
  assert ((ss_reset p vl t).2 = true /\ ss_live (ss_reset p vl t).1 = ss_live p /\
    (forall v l, v ∈ ss_live p -> ss_slack (ss_reset p vl t).1 v l = change (ss_slack p) w vl t v l) /\
    (vl ∈ ss_ext (ss_reset p vl t).1 <-> used (ss_reset p vl t).1 vl = true)) as (E1 & E2 & E3 & E4).
  { unfold ss_reset. rewrite Hw, Hr. destruct (bool_decide (vl ∉ ss_ext p) && bool_decide (t = None)) eqn:Eb; cbn.
    - apply andb_true_iff in Eb as [Ev Et]. apply bool_decide_eq_true in Ev. apply bool_decide_eq_true in Et. split; [done|]. split; [done|]. split.
      + intros v l Hv. unfold change. case_decide as Hd; [|done]. destruct Hd as [-> ->]. subst t. by apply (r_none _ _ H).
      + split; [done|]. intros HU. exfalso. unfold used in HU. apply existsb_exists in HU as (v & Hv & Hs). apply bool_decide_eq_true in Hs.
        apply elem_of_list_In, elem_of_elements in Hv. rewrite (r_none _ _ H) in Hs by done. by destruct Hs.
    - split; [done|]. split; [done|]. split; [done|].
      change (used (clean_up (mkSs (ss_live p) (Some w) (change (ss_slack p) w vl t) ({[vl]} ∪ ss_ext p)) vl) vl) with (used (mkSs (ss_live p) (Some w) (change (ss_slack p) w vl t) ({[vl]} ∪ ss_ext p)) vl).
      destruct (used _ vl); set_solver. }
  rewrite E1 in O. split; [exact O|]. split.
  - intros v l Hv. rewrite (slack_of_rel _ _ v l R) by (by rewrite E2). rewrite E3 by done. unfold change. case_decide; [done|]. symmetry. by apply slack_of_rel.
  - split.
    + intros [[k o] Hf]. destruct (decide (vl ∈ ss_ext (ss_reset p vl t).1)) as [Hx|Hx]; [|rewrite (find_out _ _ vl R Hx) in Hf; done].
      apply E4 in Hx. unfold used in Hx. apply existsb_exists in Hx as (v & Hv & Hs). apply bool_decide_eq_true in Hs. apply elem_of_list_In, elem_of_elements in Hv.
      exists v. split; [by rewrite <- E2|]. by rewrite (slack_of_rel _ _ v vl R).
    + intros (v & Hv & Hs). rewrite (slack_of_rel _ _ v vl R) in Hs by (by rewrite E2).
      destruct (find_in _ _ vl R) as (k & o & ->); [|eauto]. apply E4. unfold used. apply existsb_exists. exists v. split; [|by apply bool_decide_eq_true].
      apply elem_of_list_In, elem_of_elements. by rewrite E2.
Qed.
Print Assumptions C58_local_partial.

(** SlackTerminal::attach(bus) takes the first busbar section of the bus, else its first injection, else its first branch, else its
    first transformer with three windings; it throws exactly when the bus has no terminal. *)
Theorem C58_attach : forall ts, finder ts = chosen ts /\ (chosen ts = None <-> ts = []) /\ (forall t, chosen ts = Some t -> t ∈ ts).
Proof.
  intros ts. split; [apply finder_chosen|]. rewrite <- finder_chosen. split.
  - destruct ts; [done|]. by split.
  - intros t. destruct ts as [|b l]; [done|]. cbn. intros [= <-]. destruct (max_from_ok l b) as (l1 & l2 & E & _). rewrite E. set_solver.
Qed.
Print Assumptions C58_attach.

Definition tB : term := mkTerm 1 "VL" CBusbar.
Definition tL : term := mkTerm 2 "VL" CInjection.
Definition tN : term := mkTerm 3 "VL" CBranch.
Definition ops58 : list slop :=
  [SClone "InitialVariant" ["a"; "b"] false; SAttach "VL" [tN; tL; tB]; SSetWorking "a"; SReset "VL" (Some tL); SClone "a" ["c"] false;
   SRemove "a"; SSetWorking "b"; SReset "VL" None].
Definition run58 (ops : list slop) : slst := foldl (fun s o => (sl_step s o).1) sl_init ops.
Definition spec58 (ops : list slop) : slspec := foldl (fun p o => (ss_step p o).1) ss_init ops.
Example C58_case : sl_hist (run58 ops58) (spec58 ops58) /\ ss_work (spec58 ops58) = Some "b" /\
  slack_of (run58 ops58) "InitialVariant" "VL" = Some tB /\ slack_of (run58 ops58) "b" "VL" = None /\ slack_of (run58 ops58) "c" "VL" = Some tL.
Proof.
  split; [|by vm_compute]. unfold run58, spec58, ops58. cbn [foldl].
  apply slh_step; [|done]. apply slh_step; [|done]. apply slh_step.
  - apply slh_step; [|cbn; left; lia]. apply slh_step; [|done]. apply slh_step; [|done]. apply slh_step; [|done].
    apply slh_step; [apply slh_init|]. right. split; [apply (bool_decide_unpack _); by vm_compute|]. right. intros t Ht.
    apply elem_of_list_In in Ht. repeat destruct Ht as [<-|Ht]; by vm_compute.
  - right. intros i Hi. left. assert (i = 1) as -> by (vm_compute in Hi; congruence). by vm_compute.
Qed.

(** False of SlackTerminalAdder::add: on a voltage level that already has the extension, the slack terminals of the other variants
    are lost. *)
Theorem C58_add_refuted : exists s p vl t v, sl_hist s p /\ v ∈ ss_live p /\ ss_work p <> Some v /\
  (sl_step s (SAdd vl (Some t))).2 = Ok tt /\ slack_of s v vl = Some t /\ slack_of (sl_step s (SAdd vl (Some t))).1 v vl = None.
Proof.
  exists (run58 ops58), (spec58 ops58), "VL", tB, "InitialVariant". split; [apply C58_case|].
  split; [apply (bool_decide_unpack _); by vm_compute|]. split; [by vm_compute|]. by vm_compute.
Qed.
Print Assumptions C58_add_refuted.

(** False after the removal of a variant whose slot is the last one: reading the slack terminal of another variant is undefined
    behaviour. *)
Theorem C58_remove_refuted : exists s p v vl, sl_hist s p /\
  (sl_step s (SRemove v)).2 = Ok tt /\ is_Some (sl_find (sl_step s (SRemove v)).1 vl) /\
  is_Some (vm_ids (sl_vm (sl_step s (SRemove v)).1) !! "a") /\
  sl_get (sl_step (sl_step s (SRemove v)).1 (SSetWorking "a")).1 vl = UB.
Proof.
  set (ops := [SClone "InitialVariant" ["a"] false; SClone "InitialVariant" ["b"] false; SReset "VL" (Some tB)]).
  exists (run58 ops), (spec58 ops), "b", "VL". split.
  - unfold run58, spec58, ops. cbn [foldl]. apply slh_step; [|done]. apply slh_step; [|cbn; left; lia]. apply slh_step; [apply slh_init|cbn; left; lia].
  - subst ops. split; [by vm_compute|]. split; [vm_compute; eauto|]. split; [vm_compute; eauto|]. by vm_compute.
Qed.
Print Assumptions C58_remove_refuted.

(** False after the removal of the only variant with a slack terminal: the extension stays, without any slack terminal. *)
Theorem C58_empty_refuted : exists s p vl, sl_hist s p /\ is_Some (sl_find s vl) /\ forall v, v ∈ ss_live p -> slack_of s v vl = None.
Proof.
  set (ops := [SClone "InitialVariant" ["a"] false; SSetWorking "a"; SReset "VL" (Some tB); SRemove "a"]).
  exists (run58 ops), (spec58 ops), "VL". split; [|split].
  - unfold run58, spec58, ops. cbn [foldl]. apply slh_step.
    + apply slh_step; [|done]. apply slh_step; [|done]. apply slh_step; [apply slh_init|cbn; left; lia].
    + right. intros i Hi. right. assert (i = 1) as -> by (vm_compute in Hi; congruence). by vm_compute.
  - vm_compute. eauto.
  - intros v Hv. assert (v = "InitialVariant") as ->; [|by vm_compute].
    assert (ss_live (spec58 ops) = {[ "InitialVariant" ]}) as E by (apply (bool_decide_unpack _); by vm_compute). rewrite E in Hv. by apply elem_of_singleton in Hv.
Qed.
Print Assumptions C58_empty_refuted.
