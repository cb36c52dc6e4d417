(** Proofs about the slack terminals. *)
From stdpp Require Import gmap list.
From Verif Require Import Base Variants VariantsProofs Slack SlackSpec.

(** ** The terminal chosen *)
Definition rank (t : term) : nat := match t_class t with CBusbar => 0 | CInjection | CHvdc => 1 | CBranch => 2 | CThree => 3 end.
Lemma comparator_rank t1 t2 : comparator t1 t2 = (rank t2 <? rank t1).
Proof.
  unfold comparator. case_bool_decide as E; [subst; symmetry; apply Nat.ltb_ge; lia|].
  destruct t1 as [a1 b1 []], t2 as [a2 b2 []]; reflexivity.
Qed.
Lemma max_from_ok l : forall b, exists l1 l2, b :: l = l1 ++ max_from b l :: l2 /\
  (forall t, t ∈ l1 -> rank (max_from b l) < rank t) /\ (forall t, t ∈ l2 -> rank (max_from b l) <= rank t).
Proof.
  induction l as [|t l IH]; intros b; cbn [max_from].
  - exists [], []. split; [done|]. set_solver.
  - rewrite comparator_rank. destruct (Nat.ltb_spec (rank t) (rank b)) as [H|H].
    + destruct (IH t) as (l1 & l2 & E & H1 & H2). exists (b :: l1), l2. rewrite E. split; [done|]. split; [|done].
      intros u [->|Hu]%elem_of_cons; [|by apply H1].
      destruct l1 as [|x l1]; cbn in E; injection E as E1 E2; [by rewrite <- E1|]. subst x. assert (rank (max_from t l) < rank t) by (apply H1; set_solver). lia.
    + destruct (IH b) as (l1 & l2 & E & H1 & H2). generalize dependent (max_from b l). intros m E H1 H2. clear IH.
      destruct l1 as [|x l1]; cbn in E; injection E as E1 E2.
      * exists [], (t :: l2). subst l m. split; [done|]. split; [set_solver|]. intros u [->|Hu]%elem_of_cons; [done|by apply H2].
      * subst x. exists (b :: t :: l1), l2. subst l. split; [done|]. split; [|done].
        assert (rank m < rank b) by (apply H1; set_solver).
        intros u [->|[->|Hu]%elem_of_cons]%elem_of_cons; [done|lia|apply H1; set_solver].
Qed.
Lemma first_none cs l : (forall t, t ∈ l -> t_class t ∉ cs) -> first_of cs l = None.
Proof.
  intros H. unfold first_of. destruct (filter _ l) as [|x r] eqn:E; [done|].
  assert (x ∈ filter (fun t => t_class t ∈ cs) l) as Hx by (rewrite E; set_solver). apply elem_of_list_filter in Hx as [Hx1 Hx2]. by destruct (H x).
Qed.
Lemma first_some cs l1 t l2 : (forall u, u ∈ l1 -> t_class u ∉ cs) -> t_class t ∈ cs -> first_of cs (l1 ++ t :: l2) = Some t.
Proof.
  intros H Ht. unfold first_of. rewrite filter_app, filter_cons_True by done.
  assert (filter (fun t => t_class t ∈ cs) l1 = []) as ->; [|done].
  destruct (filter _ l1) as [|x r] eqn:E; [done|]. assert (x ∈ filter (fun t => t_class t ∈ cs) l1) as Hx by (rewrite E; set_solver).
  apply elem_of_list_filter in Hx as [Hx1 Hx2]. by destruct (H x).
Qed.
Lemma finder_chosen l : finder l = chosen l.
Proof.
  destruct l as [|b l]; [done|]. cbn [finder]. destruct (max_from_ok l b) as (l1 & l2 & E & H1 & H2). rewrite E. set (t := max_from b l) in *.
  assert (forall u, u ∈ l1 ++ t :: l2 -> rank t <= rank u) as H.
  { intros u [Hu|[->|Hu]%elem_of_cons]%elem_of_app; [specialize (H1 u Hu); lia|lia|by apply H2]. }
  clearbody t. clear E. unfold chosen. symmetry.
  destruct (t_class t) eqn:Et.
  - rewrite (first_some [CBusbar] l1 t l2); [done| |rewrite Et; set_solver].
    intros u Hu Hc. specialize (H1 u Hu). unfold rank in H1. rewrite Et in H1. apply elem_of_list_singleton in Hc. rewrite Hc in H1. lia.
  - assert (first_of [CBusbar] (l1 ++ t :: l2) = None) as ->.
    { apply first_none. intros u Hu Hc. specialize (H u Hu). unfold rank in H. rewrite Et in H. apply elem_of_list_singleton in Hc. rewrite Hc in H. lia. }
    rewrite (first_some [CInjection; CHvdc] l1 t l2); [done| |rewrite Et; set_solver].
    intros u Hu Hc. specialize (H1 u Hu). unfold rank in H1. rewrite Et in H1. apply elem_of_cons in Hc as [Hc|Hc%elem_of_list_singleton]; rewrite Hc in H1; lia.
  - assert (first_of [CBusbar] (l1 ++ t :: l2) = None) as ->.
    { apply first_none. intros u Hu Hc. specialize (H u Hu). unfold rank in H. rewrite Et in H. apply elem_of_list_singleton in Hc. rewrite Hc in H. lia. }
    rewrite (first_some [CInjection; CHvdc] l1 t l2); [done| |rewrite Et; set_solver].
    intros u Hu Hc. specialize (H1 u Hu). unfold rank in H1. rewrite Et in H1. apply elem_of_cons in Hc as [Hc|Hc%elem_of_list_singleton]; rewrite Hc in H1; lia.
  - assert (first_of [CBusbar] (l1 ++ t :: l2) = None) as ->.
    { apply first_none. intros u Hu Hc. specialize (H u Hu). unfold rank in H. rewrite Et in H. apply elem_of_list_singleton in Hc. rewrite Hc in H. lia. }
    assert (first_of [CInjection; CHvdc] (l1 ++ t :: l2) = None) as ->.
    { apply first_none. intros u Hu Hc. specialize (H u Hu). unfold rank in H. rewrite Et in H. apply elem_of_cons in Hc as [Hc|Hc%elem_of_list_singleton]; rewrite Hc in H; lia. }
    rewrite (first_some [CBranch] l1 t l2); [done| |rewrite Et; set_solver].
    intros u Hu Hc. specialize (H1 u Hu). unfold rank in H1. rewrite Et in H1. apply elem_of_list_singleton in Hc. rewrite Hc in H1. lia.
  - assert (first_of [CBusbar] (l1 ++ t :: l2) = None) as ->.
    { apply first_none. intros u Hu Hc. specialize (H u Hu). unfold rank in H. rewrite Et in H. apply elem_of_list_singleton in Hc. rewrite Hc in H. lia. }
    assert (first_of [CInjection; CHvdc] (l1 ++ t :: l2) = None) as ->.
    { apply first_none. intros u Hu Hc. specialize (H u Hu). unfold rank in H. rewrite Et in H. apply elem_of_cons in Hc as [Hc|Hc%elem_of_list_singleton]; rewrite Hc in H; lia. }
    assert (first_of [CBranch] (l1 ++ t :: l2) = None) as ->.
    { apply first_none. intros u Hu Hc. specialize (H u Hu). unfold rank in H. rewrite Et in H. apply elem_of_list_singleton in Hc. rewrite Hc in H. lia. }
    apply first_some; [|rewrite Et; set_solver].
    intros u Hu Hc. specialize (H1 u Hu). unfold rank in H1. rewrite Et in H1. apply elem_of_list_singleton in Hc. rewrite Hc in H1. lia.
Qed.

(** ** The arrays of slack terminals as plain arrays *)
Section plain.
  Context {T : Type}.
  Implicit Types (a : list (option T)) (s : vm T).
  Definition pl (a : list (option T)) : list (option (option T)) := Some <$> a.
  Definition plo (o : vobj T) : vobj (option T) := mkVobj VPlain (pl (vo_arr o)).
  Definition plv (s : vm T) : vm (option T) := mkVm (vm_ids s) (vm_unused s) (vm_size s) (vm_work s) (plo <$> vm_objs s).

  Lemma cell_copy_pl a i : cell_copy VPlain (pl a) i = result_map Some (cell_copy VSlack a i).
  Proof. unfold cell_copy, vget, pl. rewrite list_lookup_fmap. destruct (a !! i) as [[x|]|]; done. Qed.
  Lemma vset_pl a i x : vset (pl a) i (Some x) = result_map pl (vset a i x).
  Proof. unfold vset, pl. rewrite fmap_length. destruct (decide (i < length a)); [|done]. cbn. by rewrite list_fmap_insert. Qed.
  Lemma arr_alloc_pl idx src a : arr_alloc VPlain idx src (pl a) = result_map pl (arr_alloc VSlack idx src a).
  Proof.
    revert a. induction idx as [|i l IH]; intros a; cbn [arr_alloc]; [done|]. rewrite cell_copy_pl.
    destruct (cell_copy VSlack a src) as [x| | |]; cbn; try done. rewrite vset_pl. destruct (vset a i x) as [a'| | |]; cbn; done.
  Qed.
  Lemma arr_extend_pl n src a : arr_extend VPlain n src (pl a) = result_map pl (arr_extend VSlack n src a).
  Proof.
    unfold arr_extend. rewrite cell_copy_pl. destruct (cell_copy VSlack a src) as [x| | |]; cbn; try done.
    unfold pl. by rewrite fmap_app, fmap_replicate.
  Qed.
  Definition slacks (os : list (vobj T)) : Prop := Forall (fun o => vo_kind o = VSlack) os.
  Lemma for_objs_slacks f (os os' : list (vobj T)) : slacks os -> for_objs f os = Ok os' -> slacks os'.
  Proof.
    intros H. revert os'. induction H as [|o os Ho H IH]; intros os'; cbn [for_objs]; [intros [= <-]; constructor|].
    destruct (f _ _) as [a| | |]; try done. cbn. destruct (for_objs f os) as [t| | |]; try done. cbn. intros [= <-]. constructor; [done|]. by apply IH.
  Qed.
  Lemma for_objs_pl (f : vkind -> list (option (option T)) -> result (list (option (option T)))) g os :
    (forall a, f VPlain (pl a) = result_map pl (g VSlack a)) -> slacks os ->
    for_objs f (plo <$> os) = result_map (fmap plo) (for_objs g os).
  Proof.
    intros Hf H. induction H as [|o os Ho H IH]; cbn [for_objs]; [done|]. rewrite fmap_cons. cbn [for_objs].
    change (vo_kind (plo o)) with VPlain. change (vo_arr (plo o)) with (pl (vo_arr o)). rewrite Ho, Hf.
    destruct (g VSlack (vo_arr o)) as [a| | |]; cbn; try done. rewrite IH. destruct (for_objs g os); done.
  Qed.
  Lemma vm_alloc_pl src r w os : slacks os -> vm_alloc src r w (plo <$> os) = result_map (fmap plo) (vm_alloc src r w os).
  Proof.
    intros H. unfold vm_alloc.
    assert (forall idx os, slacks os -> for_objs (fun k => arr_alloc k idx src) (plo <$> os) = result_map (fmap plo) (for_objs (fun k => arr_alloc k idx src) os)) as HF.
    { intros idx os' H'. apply for_objs_pl; [|done]. intros a. apply arr_alloc_pl. }
    destruct (bool_decide (r = [])); cbn [result_bind].
    - case_bool_decide; [done|]. by apply HF.
    - rewrite HF by done. destruct (for_objs _ os) as [os1| | |] eqn:E; cbn; try done. case_bool_decide; [done|].
      apply HF. by eapply for_objs_slacks.
  Qed.
  Lemma vm_alloc_slacks src r w os os' : slacks os -> vm_alloc src r w os = Ok os' -> slacks os'.
  Proof.
    intros H. unfold vm_alloc. destruct (bool_decide (r = [])); cbn [result_bind].
    - case_bool_decide; [by intros [= <-]|]. by apply for_objs_slacks.
    - destruct (for_objs _ os) as [os1| | |] eqn:E; cbn; try done. apply for_objs_slacks in E; [|done]. case_bool_decide; [by intros [= <-]|].
      by apply for_objs_slacks.
  Qed.
  Lemma vm_clone_pl s src ts ow : slacks (vm_objs s) ->
    vm_clone (plv s) src ts ow = (plv (vm_clone s src ts ow).1, (vm_clone s src ts ow).2) /\ slacks (vm_objs (vm_clone s src ts ow).1).
  Proof.
    intros H. unfold vm_clone. destruct ts as [|t0 ts0]; [done|]. generalize (t0 :: ts0). intros ts. cbn [plv vm_ids vm_unused vm_size vm_work vm_objs].
    destruct (vm_ids s !! src) as [si|]; [|done]. set (c := clone_loop _ _ _). destruct (c_throw c); [done|].
    rewrite vm_alloc_pl by done. destruct (vm_alloc si (c_rec c) (c_over c) (vm_objs s)) as [os| | |] eqn:E; cbn; try done.
    apply vm_alloc_slacks in E; [|done]. destruct (c_ext c =? 0); [done|].
    rewrite (for_objs_pl _ (fun k => arr_extend k (c_ext c) si)); [|intros a; apply arr_extend_pl|done].
    destruct (for_objs _ os) as [os'| | |] eqn:E'; cbn; try done. split; [done|]. by eapply for_objs_slacks.
  Qed.
End plain.

(** ** The slots no variant uses keep their values when a variant is cloned *)
Lemma clone_loop_slots ts ow : forall c, (forall i, i ∈ c_rec c \/ i ∈ c_over c -> exists a, c_ids c !! a = Some i) ->
  bk (c_ids c) (c_unused c) (c_size c) ->
  (forall i, i ∈ c_rec (clone_loop ts ow c) \/ i ∈ c_over (clone_loop ts ow c) -> exists a, c_ids (clone_loop ts ow c) !! a = Some i) /\
  (forall i, i ∈ c_unused (clone_loop ts ow c) -> i ∈ c_unused c).
Proof.
  induction ts as [|t ts IH]; intros c H B; cbn [clone_loop]; [done|].
  destruct (c_ids c !! t) as [i|] eqn:Ht.
  - destruct ow; [|done]. apply (IH (mkC _ _ _ _ _ _ _)); [|exact B]. cbn. intros j [Hj|Hj]; [eauto|].
    apply elem_of_sset_insert in Hj as [->|Hj]; eauto.
  - destruct (c_unused c) as [|i u] eqn:Hu.
    + apply (IH (mkC _ _ _ _ _ _ _)); [|by apply bk_extend]. cbn. intros j Hj. destruct (H j Hj) as [a Ha]. exists a. rewrite lookup_insert_ne; [done|congruence].
    + destruct (IH (mkC (<[t:=i]> (c_ids c)) u (c_size c) (c_ext c) (sset_insert i (c_rec c)) (c_over c) false)) as [IH1 IH2]; [|by apply bk_recycle|].
      * cbn. intros j Hj. destruct (decide (j = i)) as [->|Hne]; [exists t; apply lookup_insert|].
        destruct (H j) as [a Ha]; [destruct Hj as [Hj|Hj]; [|auto]; apply elem_of_sset_insert in Hj as [?|?]; auto; done|].
        exists a. rewrite lookup_insert_ne; [done|congruence].
      * split; [exact IH1|]. intros j Hj. apply IH2 in Hj. cbn in Hj. set_solver.
Qed.
Lemma for_objs_inv {T} f (os os' : list (vobj T)) : for_objs f os = Ok os' ->
  Forall2 (fun o o' => vo_kind o' = vo_kind o /\ f (vo_kind o) (vo_arr o) = Ok (vo_arr o')) os os'.
Proof.
  revert os'. induction os as [|o os IH]; intros os'; cbn [for_objs]; [intros [= <-]; constructor|].
  destruct (f _ _) as [a| | |] eqn:E; try done. cbn. destruct (for_objs f os) as [t| | |]; try done. cbn. intros [= <-]. constructor; [done|]. by apply IH.
Qed.
Lemma vset_inv {T} (a a' : list T) i x : vset a i x = Ok a' -> a' = <[i := x]> a /\ i < length a.
Proof. unfold vset. case_decide; [|done]. by intros [= <-]. Qed.
Lemma arr_alloc_other {T} k idx src : forall (a a' : list (option T)), arr_alloc k idx src a = Ok a' ->
  length a' = length a /\ forall i, i ∉ idx -> a' !! i = a !! i.
Proof.
  induction idx as [|j l IH]; intros a a'; cbn [arr_alloc]; [by intros [= <-]|].
  destruct (cell_copy k a src) as [x| | |]; try done. cbn. destruct (vset a j x) as [a1| | |] eqn:E; try done. cbn. intros H.
  apply vset_inv in E as [-> _]. apply IH in H as [L H]. rewrite insert_length in L. split; [done|]. intros i Hi. rewrite H by set_solver. apply list_lookup_insert_ne. set_solver.
Qed.
Lemma vm_alloc_other {T} src r w (os os' : list (vobj T)) : vm_alloc src r w os = Ok os' ->
  Forall2 (fun o o' => length (vo_arr o') = length (vo_arr o) /\ forall i, i ∉ r -> i ∉ w -> vo_arr o' !! i = vo_arr o !! i) os os'.
Proof.
  unfold vm_alloc. intros H.
  assert (forall idx (os os' : list (vobj T)), for_objs (fun k => arr_alloc k idx src) os = Ok os' ->
    Forall2 (fun o o' => length (vo_arr o') = length (vo_arr o) /\ forall i, i ∉ idx -> vo_arr o' !! i = vo_arr o !! i) os os') as HF.
  { intros idx o1 o2 E. apply for_objs_inv in E. eapply Forall2_impl; [exact E|]. cbn. intros x y [_ Hxy]. by eapply arr_alloc_other. }
  assert (forall l : list (vobj T), Forall2 (fun o o' => length (vo_arr o') = length (vo_arr o) /\ forall i, i ∉ r -> i ∉ w -> vo_arr o' !! i = vo_arr o !! i) l l) as Hid.
  { intros l. apply Forall2_same_length_lookup_2; [done|]. intros i x y Hx Hy. by simplify_eq. }
  destruct (bool_decide (r = [])); cbn [result_bind] in H.
  - case_bool_decide; [injection H as <-; apply Hid|]. apply HF in H. eapply Forall2_impl; [exact H|]. cbn. intros x y [? Hy]. split; [done|]. auto.
  - destruct (for_objs _ os) as [os1| | |] eqn:E; try done. cbn in H. apply HF in E. case_bool_decide.
    + injection H as <-. eapply Forall2_impl; [exact E|]. cbn. intros x y [? Hy]. split; [done|]. auto.
    + apply HF in H. eapply Forall2_transitive; [|exact E|exact H]. cbn. intros x y z [L1 H1] [L2 H2]. split; [congruence|]. intros i Hr Hw. rewrite H2, H1; done.
Qed.
Lemma vm_clone_slots {T} (s : vm T) src ts ow : book s -> (forall o, o ∈ vm_objs s -> length (vo_arr o) = vm_size s) ->
  (vm_clone s src ts ow).2 = Ok tt ->
  forall k o' i, vm_objs (vm_clone s src ts ow).1 !! k = Some o' -> i ∈ vm_unused (vm_clone s src ts ow).1 ->
  exists o, vm_objs s !! k = Some o /\ vo_arr o' !! i = vo_arr o !! i /\ i ∈ vm_unused s.
Proof.
  intros [B W] HL. unfold vm_clone. destruct ts as [|t0 ts0]; [done|]. generalize (t0 :: ts0). intros ts. destruct (vm_ids s !! src) as [si|]; [|done].
  set (c0 := mkC _ _ _ _ _ _ _). destruct (clone_loop_slots ts ow c0) as [H1 H2]; [cbn; set_solver|exact B|].
  destruct (clone_loop_bk ts ow c0 B) as [B' _]. set (c := clone_loop ts ow c0) in *. destruct (c_throw c); [done|].
  destruct (vm_alloc si (c_rec c) (c_over c) (vm_objs s)) as [os1| | |] eqn:E; cbn; try done. apply vm_alloc_other in E.
  assert (forall i, i ∈ c_unused c -> i ∉ c_rec c /\ i ∉ c_over c /\ i ∈ vm_unused s) as Hu.
  { intros i Hi. assert (~ (i ∈ c_rec c \/ i ∈ c_over c)) as Hn.
    { intros Hn. destruct (H1 i Hn) as [a Ha]. apply (b_unused _ _ _ B') in Hi as [_ Hi]. by apply (Hi a). }
    split; [tauto|]. split; [tauto|]. by apply H2. }
  destruct (c_ext c =? 0); cbn.
  - intros _ k o' i Hk Hi. destruct (Forall2_lookup_r _ _ _ _ _ E Hk) as (o & Ho & _ & Ha). destruct (Hu i Hi) as (? & ? & ?). exists o. auto.
  - destruct (for_objs _ os1) as [os2| | |] eqn:E2; try done. cbn. intros _ k o' i Hk Hi. apply for_objs_inv in E2.
    destruct (Forall2_lookup_r _ _ _ _ _ E2 Hk) as (o1 & Ho1 & _ & Ha1). destruct (Forall2_lookup_r _ _ _ _ _ E Ho1) as (o & Ho & L & Ha).
    destruct (Hu i Hi) as (? & ? & Hiu). exists o. split; [done|]. split; [|done]. rewrite <- Ha by done.
    unfold arr_extend in Ha1. destruct (cell_copy _ _ _); try done. cbn in Ha1. injection Ha1 as <-. apply lookup_app_l. rewrite L, HL by (by eapply elem_of_list_lookup_2).
    by apply (b_unused _ _ _ B).
Qed.

(** ** The model follows the specification *)
Record rel (s : slst) (p : slspec) : Prop := {
  r_book : book (sl_vm s);
  r_kind : slacks (vm_objs (sl_vm s));
  r_len : forall o, o ∈ vm_objs (sl_vm s) -> length (vo_arr o) = vm_size (sl_vm s);
  r_dead : forall o i t, o ∈ vm_objs (sl_vm s) -> vo_arr o !! i = Some (Some t) -> exists id, vm_ids (sl_vm s) !! id = Some i;
  r_names : length (sl_names s) = length (vm_objs (sl_vm s));
  r_nodup : NoDup (sl_names s);
  r_live : forall id, id ∈ ss_live p <-> is_Some (vm_ids (sl_vm s) !! id);
  r_work : match ss_work p with Some w => exists i, vm_ids (sl_vm s) !! w = Some i /\ vm_work (sl_vm s) = Some i | None => vm_work (sl_vm s) = None end;
  r_ext : forall vl, vl ∈ ss_ext p <-> vl ∈ sl_names s;
  r_val : forall k vl o id i, sl_names s !! k = Some vl -> vm_objs (sl_vm s) !! k = Some o -> vm_ids (sl_vm s) !! id = Some i ->
    vo_arr o !! i = Some (ss_slack p id vl);
  r_none : forall vl id, vl ∉ ss_ext p -> id ∈ ss_live p -> ss_slack p id vl = None
}.

Lemma rel_init : rel sl_init ss_init.
Proof.
  constructor; unfold sl_init, ss_init, vm_init; cbn [sl_vm sl_names vm_ids vm_objs vm_work vm_unused vm_size ss_live ss_work ss_slack ss_ext].
  - apply (vinv_init (A := term)).
  - constructor.
  - intros o Ho. set_solver.
  - intros o i t Ho. set_solver.
  - done.
  - constructor.
  - intros id. rewrite elem_of_singleton. split; [intros ->; eexists; apply lookup_singleton|]. intros [i Hi]. by apply lookup_singleton_Some in Hi as [<- _].
  - exists 0. split; [apply lookup_singleton|done].
  - set_solver.
  - done.
  - done.
Qed.

(** Two specifications that look the same. *)
Lemma rel_ext s p p' : rel s p -> ss_live p' = ss_live p -> ss_work p' = ss_work p -> (forall vl, vl ∈ ss_ext p' <-> vl ∈ ss_ext p) ->
  (forall v vl, v ∈ ss_live p -> ss_slack p' v vl = ss_slack p v vl) -> rel s p'.
Proof.
  intros [R1 R2 R3 R4 R5 R6 R7 R8 R9 R10 R11] E1 E2 E3 E4. constructor; try done.
  - by rewrite E1.
  - by rewrite E2.
  - intros vl. by rewrite E3.
  - intros k vl o id i Hk Ho Hi. rewrite E4; [eauto|]. apply R7. eauto.
  - intros vl id Hvl Hid. rewrite E1 in Hid. rewrite E4 by done. apply R11; [|done]. by rewrite <- E3.
Qed.

Lemma rel_plain s p : rel s p -> vinv (plv (sl_vm s)).
Proof.
  intros R. split; [exact (r_book _ _ R)|]. intros k o. cbn. rewrite list_lookup_fmap. destruct (vm_objs (sl_vm s) !! k) as [o'|] eqn:E; [|done]. intros [= <-].
  split; [done|]. cbn. unfold pl. rewrite fmap_length. split; [eapply r_len; [exact R|]; by eapply elem_of_list_lookup_2|].
  intros a i Hi. rewrite list_lookup_fmap. destruct (vo_arr o' !! i); done.
Qed.
Lemma value_plain (s : vm term) k id x : value (plv s) k id = Some (Some x) <->
  exists i o, vm_ids s !! id = Some i /\ vm_objs s !! k = Some o /\ vo_arr o !! i = Some x.
Proof.
  rewrite value_Some. cbn. split.
  - intros (i & o & Hi & Ho & Hx). rewrite list_lookup_fmap in Ho. apply fmap_Some in Ho as (o' & Ho & ->). cbn in Hx. unfold pl in Hx.
    rewrite list_lookup_fmap in Hx. apply fmap_Some in Hx as (y & Hy & [= ->]). eauto.
  - intros (i & o & Hi & Ho & Hx). exists i, (plo o). split; [done|]. split; [by rewrite list_lookup_fmap, Ho|]. cbn. unfold pl. by rewrite list_lookup_fmap, Hx.
Qed.

(** cloneVariant *)
Lemma clone_rel s p src ts ow : rel s p -> sl_safe s (SClone src ts ow) ->
  outcome (ss_step p (SClone src ts ow)).2 (sl_step s (SClone src ts ow)).2 /\ rel (sl_step s (SClone src ts ow)).1 (ss_step p (SClone src ts ow)).1.
Proof.
  intros R Hsafe. pose proof (rel_plain s p R) as I. cbn [ss_step sl_step].
  case_bool_decide as Hd; cbn [orb].
  { assert (vm_clone (sl_vm s) src ts ow = (sl_vm s, Throw "Variant not found") \/ vm_clone (sl_vm s) src ts ow = (sl_vm s, Throw "Empty target variant id list")) as HE.
    { unfold vm_clone. destruct ts as [|t ts]; [by right|]. destruct Hd as [Hd|?]; [|done]. left.
      destruct (vm_ids (sl_vm s) !! src) eqn:E; [|done]. destruct Hd. apply (r_live _ _ R). eauto. }
    destruct HE as [-> | ->]; (split; [by eexists|]); destruct s as [n v]; exact R. }
  assert (src ∈ ss_live p /\ ts <> []) as [Hsrc Hne] by (split; [|tauto]; destruct (decide (src ∈ ss_live p)); tauto).
  apply (r_live _ _ R) in Hsrc.
  destruct (negb ow && bool_decide (Exists (fun t => t ∈ ss_live p) ts)) eqn:Ht.
  - apply andb_true_iff in Ht as [How Hex]. destruct ow; [done|]. apply bool_decide_eq_true in Hex. apply Exists_exists in Hex as (t & Ht1 & Ht2). apply (r_live _ _ R) in Ht2.
    assert (ts = [t]) as ->.
    { destruct Hsafe as [Hl|[_ [?|Hn]]]; [|done|].
      - destruct ts as [|t1 [|t2 ts]]; [done| |cbn in Hl; lia]. apply elem_of_list_singleton in Ht1. by subst.
      - rewrite (Hn t Ht1) in Ht2. by destruct Ht2. }
    destruct Ht2 as [i Hi]. destruct Hsrc as [si Hsi].
    assert (vm_clone (sl_vm s) src [t] false = (sl_vm s, Throw "Target variant already exists")) as ->.
    { unfold vm_clone. rewrite Hsi. cbn. rewrite Hi. cbn. by destruct (sl_vm s). }
    split; [by eexists|]. destruct s as [n v]. exact R.
  - assert (NoDup ts /\ (ow = true \/ forall t, t ∈ ts -> vm_ids (sl_vm s) !! t = None)) as [Hnd How].
    { split.
      - destruct Hsafe as [Hl|[? _]]; [|done]. destruct ts as [|t1 [|t2 ts]]; [constructor|apply NoDup_singleton|cbn in Hl; lia].
      - destruct ow; [by left|right]. cbn in Ht. apply bool_decide_eq_false in Ht. intros t Htt. destruct (vm_ids (sl_vm s) !! t) eqn:E; [|done].
        destruct Ht. apply Exists_exists. exists t. split; [done|]. apply (r_live _ _ R). eauto. }
    destruct (vm_clone_pl (sl_vm s) src ts ow (r_kind _ _ R)) as [Hpl Hk].
    destruct (vm_clone_ok (plv (sl_vm s)) src ts ow I Hnd Hne How Hsrc) as (HO & I' & HS).
    pose proof (vm_clone_slots (sl_vm s) src ts ow (r_book _ _ R) (r_len _ _ R)) as Hslots.
    rewrite Hpl in HO, I', HS. cbn [fst snd] in HO, I', HS. specialize (Hslots HO).
    unfold on_vm. set (m' := (vm_clone (sl_vm s) src ts ow).1) in *. split; [exact HO|]. destruct HS as (S1 & S2 & S3 & S4). cbn in S1, S2, S3. rewrite !fmap_length in S3.
    assert (forall o, o ∈ vm_objs m' -> length (vo_arr o) = vm_size m') as HL'.
    { intros o Ho. apply elem_of_list_lookup in Ho as [k Hk']. destruct (v_al _ I' k (plo o)) as (_ & L & _); [cbn; by rewrite list_lookup_fmap, Hk'|].
      cbn in L. unfold pl in L. by rewrite fmap_length in L. }
    constructor; cbn [fst snd sl_vm sl_names ss_live ss_work ss_slack ss_ext].
    + exact (v_book _ I').
    + exact Hk.
    + exact HL'.
    + intros o i t Ho Hi. pose proof (v_book _ I') as [B' _]. cbn in B'. destruct (decide (i ∈ vm_unused m')) as [Hu|Hu].
      * apply elem_of_list_lookup in Ho as [k Hk']. destruct (Hslots k o i Hk' Hu) as (o0 & Ho0 & Hi0 & Hu0).
        rewrite Hi0 in Hi. destruct (r_dead _ _ R o0 i t) as [a Ha]; [by eapply elem_of_list_lookup_2|done|].
        destruct (r_book _ _ R) as [B _]. apply (b_unused _ _ _ B) in Hu0 as [_ Hu0]. by destruct (Hu0 a).
      * eapply live_or_unused; [exact B'| |exact Hu]. rewrite <- (HL' o Ho). by eapply lookup_lt_Some.
    + rewrite S3. apply R.
    + apply R.
    + intros id. rewrite elem_of_union, elem_of_list_to_set, S1, (r_live _ _ R). tauto.
    + rewrite S2. pose proof (r_work _ _ R) as HW. destruct (ss_work p) as [w|]; [|exact HW]. destruct HW as (i & Hi & Hw). exists i. split; [|exact Hw].
      destruct (clone_loop_bk ts ow (mkC (vm_ids (sl_vm s)) (vm_unused (sl_vm s)) (vm_size (sl_vm s)) 0 [] [] false)) as [_ Hsub]; [apply (r_book _ _ R)|].
      assert (vm_ids m' = c_ids (clone_loop ts ow (mkC (vm_ids (sl_vm s)) (vm_unused (sl_vm s)) (vm_size (sl_vm s)) 0 [] [] false))) as Em.
      { subst m'. unfold vm_clone in *. destruct ts as [|t0 ts0]; [done|]. destruct Hsrc as [si Hsi]. rewrite Hsi in *.
        destruct (c_throw _); [done|]. destruct (let! os := _ in _); done. }
      rewrite Em. by eapply lookup_weaken.
    + apply R.
    + intros k vl o id i Hk' Ho Hi.
      assert (is_Some (vm_objs (sl_vm s) !! k)) as [o0 Ho0]. { apply lookup_lt_is_Some. rewrite <- S3. by eapply lookup_lt_Some. }
      destruct (lookup_lt_is_Some_2 (vo_arr o) i) as [x Hx].
      { rewrite HL' by (by eapply elem_of_list_lookup_2). destruct (v_book _ I') as [B' _]. by eapply (b_lt _ _ _ B'). }
      assert (value (plv m') k id = Some (Some x)) as HV by (apply value_plain; eauto). rewrite S4 in HV. rewrite Hx. f_equal.
      case_decide; apply value_plain in HV as (i0 & o1 & Hi0 & Ho1 & Hx1).
      * rewrite (r_val _ _ R k vl o1 src i0) in Hx1 by done. by injection Hx1.
      * rewrite (r_val _ _ R k vl o1 id i0) in Hx1 by done. by injection Hx1.
    + intros vl id Hvl Hid. apply elem_of_union in Hid. rewrite elem_of_list_to_set in Hid. case_decide.
      * apply (r_none _ _ R); [done|]. by apply (r_live _ _ R).
      * apply (r_none _ _ R); [done|]. tauto.
Qed.

(** removeVariant *)
Lemma remove_rel s p id : rel s p -> sl_safe s (SRemove id) ->
  outcome (ss_step p (SRemove id)).2 (sl_step s (SRemove id)).2 /\ rel (sl_step s (SRemove id)).1 (ss_step p (SRemove id)).1.
Proof.
  intros R Hsafe. cbn [ss_step sl_step]. destruct (r_book _ _ R) as [B W].
  case_bool_decide as Hd.
  { assert (exists m, vm_remove (sl_vm s) id = (sl_vm s, Throw m)) as [m E].
    { unfold vm_remove. case_bool_decide as Hi; [by eexists|]. destruct Hd as [?|Hd]; [done|].
      destruct (vm_ids (sl_vm s) !! id) eqn:E; [|by eexists]. destruct Hd. apply (r_live _ _ R). eauto. }
    unfold on_vm. rewrite E. cbn. split; [by eexists|]. destruct s as [n v]. exact R. }
  assert (id <> initial_id /\ id ∈ ss_live p) as [Hid Hl] by (split; [intros ->; tauto|destruct (decide (id ∈ ss_live p)); tauto]). clear Hd.
  apply (r_live _ _ R) in Hl as [i Hi]. pose proof (b_lt _ _ _ B _ _ Hi) as Hlt.
  assert (exists u' n' os', vm_remove (sl_vm s) id = (mkVm (delete id (vm_ids (sl_vm s))) u' n' (reset_if (vm_work (sl_vm s)) i) os', Ok tt) /\
    bk (delete id (vm_ids (sl_vm s))) u' n' /\
    Forall2 (fun o o' => vo_kind o' = VSlack /\ length (vo_arr o') = n' /\ (forall j, j <> i -> j < n' -> vo_arr o' !! j = vo_arr o !! j) /\
      (forall t, vo_arr o' !! i <> Some (Some t))) (vm_objs (sl_vm s)) os') as (u' & n' & os' & E & B' & F).
  { unfold vm_remove. rewrite bool_decide_false by done. rewrite Hi. destruct (Nat.eqb_spec i (vm_size (sl_vm s) - 1)) as [Hlast|Hmid].
    - destruct (vm_trim i (vm_unused (sl_vm s)) 1) as [u' count] eqn:Ht.
      destruct (bk_trim _ _ _ _ _ _ _ B Hid Hi Hlast Ht) as (B' & Hc & Hlt').
      assert (0 < count) as Hpos. { destruct (vm_trim_spec i _ _ _ _ (b_sorted _ _ _ B) Ht) as (m0 & H1 & H2 & _). lia. }
      destruct (for_objs_ok (fun k => arr_reduce k count) (vm_objs (sl_vm s)) (fun o a' => a' = take (vm_size (sl_vm s) - count) (vo_arr o))) as (os & E & F).
      { intros o Ho. pose proof (r_kind _ _ R) as HK. unfold slacks in HK. rewrite Forall_forall in HK. rewrite (HK o Ho). cbn [arr_reduce].
        eexists. split; [reflexivity|]. pose proof (r_len _ _ R o Ho) as HL.
        destruct Hsafe as [Hn|Hs].
        - pose proof (r_names _ _ R) as HN. rewrite Hn in HN. symmetry in HN. apply nil_length_inv in HN. rewrite HN in Ho. by apply elem_of_nil in Ho.
        - destruct (Hs i Hi) as [?|Hs']; [lia|]. rewrite Ht in Hs'. cbn in Hs'. rewrite resize_le by lia. f_equal. lia. }
      rewrite E. eexists _, _, _. split; [reflexivity|]. split; [exact B'|].
      eapply Forall2_same_length_lookup_2; [by apply Forall2_length in F|]. intros k o o' Ho Ho'. pose proof (Forall2_lookup_lr _ _ _ _ _ _ F Ho Ho') as [K ->].
      assert (o ∈ vm_objs (sl_vm s)) as Hin by (by eapply elem_of_list_lookup_2). pose proof (r_len _ _ R o Hin) as HL.
      pose proof (r_kind _ _ R) as HK. unfold slacks in HK. rewrite Forall_forall in HK. rewrite K, (HK o Hin). split; [done|]. split; [rewrite take_length; lia|]. split.
      + intros j _ Hj. by rewrite lookup_take.
      + intros t. rewrite lookup_take_ge by lia. done.
    - destruct (for_objs_ok (fun k => arr_delete k i) (vm_objs (sl_vm s)) (fun o a' => a' = <[i := None]> (vo_arr o))) as (os & E & F).
      { intros o Ho. pose proof (r_kind _ _ R) as HK. unfold slacks in HK. rewrite Forall_forall in HK. rewrite (HK o Ho). cbn [arr_delete].
        rewrite vset_lt by (rewrite (r_len _ _ R o Ho); done). eauto. }
      rewrite E. eexists _, _, _. split; [reflexivity|]. split; [by eapply bk_delete|].
      eapply Forall2_same_length_lookup_2; [by apply Forall2_length in F|]. intros k o o' Ho Ho'. pose proof (Forall2_lookup_lr _ _ _ _ _ _ F Ho Ho') as [K ->].
      assert (o ∈ vm_objs (sl_vm s)) as Hin by (by eapply elem_of_list_lookup_2). pose proof (r_len _ _ R o Hin) as HL.
      pose proof (r_kind _ _ R) as HK. unfold slacks in HK. rewrite Forall_forall in HK. rewrite K, (HK o Hin). split; [done|]. split; [by rewrite insert_length|]. split.
      + intros j Hj _. by rewrite list_lookup_insert_ne.
      + intros t. rewrite list_lookup_insert by lia. done. }
  unfold on_vm. rewrite E. cbn [fst snd]. split; [done|].
  constructor; cbn [fst snd sl_vm sl_names ss_live ss_work ss_slack ss_ext vm_ids vm_objs vm_work vm_unused vm_size].
  - split; [exact B'|]. cbn [vm_ids vm_work]. eapply wk_reset; [exact W|exact Hi|apply B].
  - apply Forall_lookup_2. intros k o' Ho'. destruct (Forall2_lookup_r _ _ _ _ _ F Ho') as (o & _ & ? & _). done.
  - intros o' [k Ho']%elem_of_list_lookup. destruct (Forall2_lookup_r _ _ _ _ _ F Ho') as (o & _ & _ & ? & _). done.
  - intros o' j t [k Ho']%elem_of_list_lookup Hj. destruct (Forall2_lookup_r _ _ _ _ _ F Ho') as (o & Ho & _ & HL & H1 & H2).
    destruct (decide (j = i)) as [->|Hne]; [by destruct (H2 t)|]. rewrite H1 in Hj; [|done|rewrite <- HL; by eapply lookup_lt_Some].
    destruct (r_dead _ _ R o j t) as [a Ha]; [by eapply elem_of_list_lookup_2|done|]. exists a. rewrite lookup_delete_ne; [done|congruence].
  - rewrite (r_names _ _ R). by eapply Forall2_length.
  - apply R.
  - intros id'. rewrite elem_of_difference, elem_of_singleton, (r_live _ _ R). destruct (decide (id' = id)) as [->|Hne].
    + rewrite lookup_delete. split; [tauto|]. by intros [? ?].
    + rewrite lookup_delete_ne by done. tauto.
  - pose proof (r_work _ _ R) as HW. unfold reset_if. destruct (ss_work p) as [w|].
    + destruct HW as (j & Hj & Hw). rewrite Hw. case_bool_decide as E1.
      * injection E1 as ->. rewrite bool_decide_true; [done|congruence].
      * rewrite bool_decide_false; [|intros [= ->]; apply E1; f_equal; by eapply (b_inj _ _ _ B)]. exists j. split; [|done]. rewrite lookup_delete_ne; [done|congruence].
    + rewrite HW. done.
  - apply R.
  - intros k vl o' id' j Hk Ho' Hj. apply lookup_delete_Some in Hj as [Hne Hj].
    destruct (Forall2_lookup_r _ _ _ _ _ F Ho') as (o & Ho & _ & HL & H1 & H2). rewrite H1.
    + by eapply (r_val _ _ R).
    + intros ->. apply Hne. by eapply (b_inj _ _ _ B).
    + eapply (b_lt _ _ _ B'). rewrite lookup_delete_ne; [exact Hj|done].
  - intros vl id' Hvl Hid'. apply (r_none _ _ R); [done|]. set_solver.
Qed.

Lemma working_rel s p id : rel s p ->
  outcome (ss_step p (SSetWorking id)).2 (sl_step s (SSetWorking id)).2 /\ rel (sl_step s (SSetWorking id)).1 (ss_step p (SSetWorking id)).1.
Proof.
  intros R. cbn [ss_step sl_step]. unfold on_vm, vm_set_working. case_bool_decide as Hd.
  - apply (r_live _ _ R) in Hd as [i Hi]. rewrite Hi. cbn [fst snd]. split; [done|].
    destruct R as [R1 R2 R3 R4 R5 R6 R7 R8 R9 R10 R11]. constructor; try done.
    + split; [apply R1|]. intros j [= <-]. by exists id.
    + cbn. eauto.
  - destruct (vm_ids (sl_vm s) !! id) eqn:E; [destruct Hd; apply (r_live _ _ R); eauto|]. cbn. split; [by eexists|]. destruct s as [n v]. exact R.
Qed.

(** The extension of a voltage level *)
Lemma find_some s p vl k o : rel s p -> sl_find s vl = Some (k, o) -> sl_names s !! k = Some vl /\ vm_objs (sl_vm s) !! k = Some o.
Proof.
  intros R. unfold sl_find. destruct (list_find (eq vl) (sl_names s)) as [[k' x]|] eqn:E; [|done]. apply list_find_Some in E as (Hk & <- & _).
  intros (o' & Ho & [= -> ->])%fmap_Some. done.
Qed.
Lemma find_in s p vl : rel s p -> vl ∈ ss_ext p -> exists k o, sl_find s vl = Some (k, o).
Proof.
  intros R Hvl. apply (r_ext _ _ R) in Hvl. unfold sl_find. destruct (list_find_elem_of (eq vl) (sl_names s) vl Hvl eq_refl) as [[k x] E]. rewrite E.
  apply list_find_Some in E as (Hk & _). destruct (lookup_lt_is_Some_2 (vm_objs (sl_vm s)) k) as [o Ho]; [rewrite <- (r_names _ _ R); by eapply lookup_lt_Some|].
  rewrite Ho. cbn. eauto.
Qed.
Lemma find_out s p vl : rel s p -> vl ∉ ss_ext p -> sl_find s vl = None.
Proof.
  intros R Hvl. unfold sl_find. destruct (list_find (eq vl) (sl_names s)) as [[k' x]|] eqn:E; [|done]. apply list_find_Some in E as (Hk & <- & _).
  destruct Hvl. apply (r_ext _ _ R). by eapply elem_of_list_lookup_2.
Qed.
Lemma find_none s p vl : rel s p -> sl_find s vl = None -> vl ∉ ss_ext p.
Proof. intros R E Hvl. destruct (find_in s p vl R Hvl) as (k & o & E'). congruence. Qed.

Lemma delete_elem {A} (l : list A) k x : x ∈ delete k l -> x ∈ l.
Proof. rewrite delete_take_drop, elem_of_app. intros [H|H]; apply elem_of_list_lookup in H as [i H].
  - apply lookup_take_Some in H as [H _]. by eapply elem_of_list_lookup_2.
  - rewrite lookup_drop in H. by eapply elem_of_list_lookup_2.
Qed.
Lemma delete_NoDup {A} (l : list A) k : NoDup l -> NoDup (delete k l).
Proof.
  intros H. rewrite delete_take_drop. rewrite <- (take_drop k l), NoDup_app in H. destruct H as (H1 & H2 & H3). apply NoDup_app. split; [done|].
  assert (forall x, x ∈ drop (S k) l -> x ∈ drop k l) as Hd.
  { intros x Hx. replace (S k) with (k + 1) in Hx by lia. rewrite <- drop_drop in Hx. destruct (drop k l); [set_solver|]. cbn in Hx. rewrite drop_0 in Hx. set_solver. }
  split; [intros x Hx Hx'; apply (H2 x Hx); auto|].
  replace (S k) with (k + 1) by lia. rewrite <- drop_drop. destruct (drop k l); [constructor|]. cbn. rewrite drop_0. by apply NoDup_cons in H3 as [_ ?].
Qed.
Lemma delete_nodup (l : list string) k vl : NoDup l -> l !! k = Some vl -> forall x, x ∈ delete k l <-> x ∈ l /\ x <> vl.
Proof.
  intros Hnd Hk x. rewrite delete_take_drop. rewrite <- (take_drop_middle l k vl Hk) in Hnd |- * at 3.
  rewrite NoDup_app, NoDup_cons in Hnd. destruct Hnd as (_ & H1 & H2 & _). rewrite !elem_of_app, elem_of_cons. split.
  - intros [Hx|Hx]; (split; [tauto|]); intros ->; [apply (H1 vl Hx); by left|done].
  - tauto.
Qed.

(** Erasing an extension *)
Lemma erase_rel s p vl k : rel s p -> sl_names s !! k = Some vl ->
  rel (sl_erase s k) (mkSs (ss_live p) (ss_work p) (fun v l => if decide (l = vl) then None else ss_slack p v l) (ss_ext p ∖ {[ vl ]})).
Proof.
  intros R Hk. unfold sl_erase, with_objs. constructor; cbn [fst snd sl_vm sl_names ss_live ss_work ss_slack ss_ext vm_ids vm_objs vm_work vm_unused vm_size].
  - apply R.
  - apply Forall_delete. apply R.
  - intros o Ho. apply (r_len _ _ R). by eapply delete_elem.
  - intros o i t Ho. apply (r_dead _ _ R). by eapply delete_elem.
  - pose proof (lookup_lt_Some _ _ _ Hk). rewrite !length_delete; [by rewrite (r_names _ _ R)| |eauto]. apply lookup_lt_is_Some. rewrite <- (r_names _ _ R). done.
  - apply delete_NoDup. apply R.
  - apply R.
  - apply R.
  - intros l. rewrite (delete_nodup _ _ _ (r_nodup _ _ R) Hk), elem_of_difference, elem_of_singleton, (r_ext _ _ R). done.
  - intros k' l o id i Hk' Ho Hi.
    assert (l <> vl) as Hne. { assert (l ∈ delete k (sl_names s)) as Hl by (by eapply elem_of_list_lookup_2). by apply (delete_nodup _ _ _ (r_nodup _ _ R) Hk) in Hl as [_ ?]. }
    rewrite decide_False by done. destruct (decide (k' < k)).
    + rewrite lookup_delete_lt in Hk' by done. rewrite lookup_delete_lt in Ho by done. by eapply (r_val _ _ R).
    + rewrite lookup_delete_ge in Hk' by lia. rewrite lookup_delete_ge in Ho by lia. by eapply (r_val _ _ R).
  - intros l id Hl Hid. case_decide; [done|]. apply (r_none _ _ R); set_solver.
Qed.

(** Changing the terminal of the working variant *)
Lemma set_cell_ok s p w i o t : rel s p -> ss_work p = Some w -> vm_ids (sl_vm s) !! w = Some i -> o ∈ vm_objs (sl_vm s) ->
  set_cell s (vo_arr o) t = Ok (<[i := t]> (vo_arr o)).
Proof.
  intros R Hw Hi Ho. pose proof (r_work _ _ R) as HW. rewrite Hw in HW. destruct HW as (i' & Hi' & HW). assert (i' = i) as -> by congruence.
  unfold set_cell, vm_index. rewrite HW. cbn. apply vset_lt. rewrite (r_len _ _ R o Ho). destruct (r_book _ _ R) as [B _]. by eapply (b_lt _ _ _ B).
Qed.
Lemma set_rel s p vl k o w i t : rel s p -> ss_work p = Some w -> vm_ids (sl_vm s) !! w = Some i ->
  sl_names s !! k = Some vl -> vm_objs (sl_vm s) !! k = Some o ->
  rel (mkSl (sl_names s) (with_objs (sl_vm s) (<[k := mkVobj VSlack (<[i := t]> (vo_arr o))]> (vm_objs (sl_vm s)))))
      (mkSs (ss_live p) (ss_work p) (change (ss_slack p) w vl t) (ss_ext p)).
Proof.
  intros R Hw Hi Hk Ho. destruct (r_book _ _ R) as [B _].
  assert (o ∈ vm_objs (sl_vm s)) as Hin by (by eapply elem_of_list_lookup_2). pose proof (r_len _ _ R o Hin) as HL.
  pose proof (b_lt _ _ _ B _ _ Hi) as Hlt. pose proof (lookup_lt_Some _ _ _ Ho) as Hkl.
  constructor; unfold with_objs; cbn [fst snd sl_vm sl_names ss_live ss_work ss_slack ss_ext vm_ids vm_objs vm_work vm_unused vm_size].
  - apply R.
  - apply Forall_insert; [apply R|done].
  - intros o' [k' Ho']%elem_of_list_lookup. apply list_lookup_insert_Some in Ho' as [(_ & <- & _)|(_ & Ho')].
    + cbn. by rewrite insert_length.
    + apply (r_len _ _ R). by eapply elem_of_list_lookup_2.
  - intros o' j u [k' Ho']%elem_of_list_lookup Hj. apply list_lookup_insert_Some in Ho' as [(_ & <- & _)|(_ & Ho')].
    + cbn in Hj. apply list_lookup_insert_Some in Hj as [(<- & _)|(_ & Hj)]; [eauto|]. by eapply (r_dead _ _ R).
    + eapply (r_dead _ _ R); [|exact Hj]. by eapply elem_of_list_lookup_2.
  - rewrite insert_length. apply R.
  - apply R.
  - apply R.
  - apply R.
  - apply R.
  - intros k' vl' o' id j Hk' Ho' Hj. unfold change. apply list_lookup_insert_Some in Ho' as [(<- & <- & _)|(Hne & Ho')].
    + assert (vl' = vl) as -> by congruence. cbn. destruct (decide (id = w)) as [->|Hid].
      * assert (j = i) as -> by congruence. rewrite list_lookup_insert by lia. by rewrite decide_True.
      * rewrite list_lookup_insert_ne by (intros ->; apply Hid; by eapply (b_inj _ _ _ B)). rewrite decide_False by tauto. by eapply (r_val _ _ R).
    + rewrite decide_False; [by eapply (r_val _ _ R)|]. intros [_ ->]. apply Hne. eapply NoDup_lookup; [apply R|done|done].
  - intros vl' id Hvl' Hid. unfold change. case_decide as Hd; [|by apply (r_none _ _ R)]. destruct Hd as [_ ->]. destruct Hvl'. apply (r_ext _ _ R). by eapply elem_of_list_lookup_2.
Qed.
Lemma empty_used s p vl k o : rel s p -> sl_names s !! k = Some vl -> vm_objs (sl_vm s) !! k = Some o -> is_empty (vo_arr o) = negb (used p vl).
Proof.
  intros R Hk Ho. apply eq_true_iff_eq. rewrite negb_true_iff. unfold is_empty, used. rewrite forallb_forall. split.
  - intros H. apply not_true_is_false. rewrite existsb_exists. intros (v & Hv & Hs). apply bool_decide_eq_true in Hs.
    apply elem_of_list_In, elem_of_elements, (r_live _ _ R) in Hv as [i Hi]. pose proof (r_val _ _ R k vl o v i Hk Ho Hi) as HV.
    specialize (H (ss_slack p v vl)). destruct (ss_slack p v vl); [|by destruct Hs]. discriminate H. apply elem_of_list_In. by eapply elem_of_list_lookup_2.
  - intros H x Hx. destruct x as [t|]; [|done]. exfalso. apply not_true_iff_false in H. apply H. apply elem_of_list_In, elem_of_list_lookup in Hx as [i Hx].
    destruct (r_dead _ _ R o i t) as [v Hv]; [by eapply elem_of_list_lookup_2|done|]. apply existsb_exists. exists v. split.
    + apply elem_of_list_In, elem_of_elements, (r_live _ _ R). eauto.
    + apply bool_decide_eq_true. pose proof (r_val _ _ R k vl o v i Hk Ho Hv) as HV. rewrite Hx in HV. injection HV as <-. eauto.
Qed.
Lemma used_false p vl : used p vl = false -> forall v, v ∈ ss_live p -> ss_slack p v vl = None.
Proof.
  intros H v Hv. apply not_true_iff_false in H. destruct (ss_slack p v vl) eqn:E; [|done]. destruct H. unfold used. apply existsb_exists. exists v.
  split; [by apply elem_of_list_In, elem_of_elements|]. apply bool_decide_eq_true. rewrite E. eauto.
Qed.
Lemma misplaced_right vl t : misplaced vl t = negb (right_level vl t).
Proof. by destruct t. Qed.

(** setTerminal on the extension of a voltage level *)
Lemma sl_set_rel s p vl k o t clean : rel s p -> sl_find s vl = Some (k, o) ->
  match ss_work p with
  | Some w => if right_level vl t
      then (sl_set s vl k o t clean).2 = Ok tt /\
        rel (sl_set s vl k o t clean).1 (let p' := mkSs (ss_live p) (ss_work p) (change (ss_slack p) w vl t) (ss_ext p) in if clean then clean_up p' vl else p')
      else exists m, sl_set s vl k o t clean = (s, Throw m)
  | None => exists m, sl_set s vl k o t clean = (s, Throw m)
  end.
Proof.
  intros R Hf. destruct (find_some s p vl k o R Hf) as [Hk Ho]. unfold sl_set. rewrite misplaced_right.
  pose proof (r_work _ _ R) as HW. destruct (ss_work p) as [w|] eqn:Hw.
  - destruct (right_level vl t); cbn [negb]; [|by eexists]. destruct HW as (i & Hi & HW).
    rewrite (set_cell_ok s p w i o t R Hw Hi) by (by eapply elem_of_list_lookup_2). cbn [fst snd]. split; [done|].
    pose proof (set_rel s p vl k o w i t R Hw Hi Hk Ho) as R'. rewrite Hw in R'. set (p' := mkSs _ _ _ _) in *. cbv zeta.
    destruct clean; cbn [andb]; [|exact R'].
    set (s' := mkSl _ _) in R'. assert (vm_objs (sl_vm s') !! k = Some (mkVobj VSlack (<[i:=t]> (vo_arr o)))) as Ho'.
    { cbn. apply list_lookup_insert. by eapply lookup_lt_Some. }
    change (<[i:=t]> (vo_arr o)) with (vo_arr (mkVobj VSlack (<[i:=t]> (vo_arr o)))) at 1. rewrite (empty_used s' p' vl k _ R' Hk Ho'). unfold clean_up.
    destruct (used p' vl) eqn:Eu; cbn [negb].
    + exact R'.
    + pose proof (erase_rel s' p' vl k R' Hk) as R2. assert (sl_erase s' k = sl_erase s k) as E.
      { unfold sl_erase, s', with_objs. cbn. f_equal. f_equal. rewrite !delete_take_drop. pose proof (lookup_lt_Some _ _ _ Ho). rewrite take_insert by lia. rewrite drop_insert_gt by lia. done. }
      rewrite <- E. eapply rel_ext; [exact R2|done|done|done|]. cbn. intros v l Hv. case_decide as Hd; [|done]. subst l. by apply (used_false p' vl).
  - destruct (right_level vl t); cbn [negb]; [|by eexists]. unfold set_cell, vm_index. rewrite HW. cbn. by eexists.
Qed.

(** Adding an extension *)
Lemma put_rel s p vl w i t : rel s p -> ss_work p = Some w -> vm_ids (sl_vm s) !! w = Some i -> vl ∉ ss_ext p ->
  rel (mkSl (sl_names s ++ [vl]) (with_objs (sl_vm s) (vm_objs (sl_vm s) ++ [mkVobj VSlack (<[i := t]> (replicate (vm_size (sl_vm s)) None))])))
      (mkSs (ss_live p) (ss_work p) (fun v l => if decide (l = vl) then if decide (v = w) then t else None else ss_slack p v l) ({[ vl ]} ∪ ss_ext p)).
Proof.
  intros R Hw Hi Hvl. destruct (r_book _ _ R) as [B _]. pose proof (b_lt _ _ _ B _ _ Hi) as Hlt.
  assert (vl ∉ sl_names s) as Hn by (by rewrite <- (r_ext _ _ R)).
  constructor; unfold with_objs; cbn [fst snd sl_vm sl_names ss_live ss_work ss_slack ss_ext vm_ids vm_objs vm_work vm_unused vm_size].
  - apply R.
  - apply Forall_app. split; [apply R|]. by constructor.
  - intros o [Ho|Ho%elem_of_list_singleton]%elem_of_app; [by apply (r_len _ _ R)|]. subst o. cbn. by rewrite insert_length, replicate_length.
  - intros o j u [Ho|Ho%elem_of_list_singleton]%elem_of_app Hj; [by eapply (r_dead _ _ R)|]. subst o. cbn in Hj.
    apply list_lookup_insert_Some in Hj as [(<- & _)|(_ & Hj)]; [eauto|]. apply lookup_replicate in Hj as [? _]. done.
  - rewrite !app_length. cbn. by rewrite (r_names _ _ R).
  - apply NoDup_app. split; [apply R|]. split; [|apply NoDup_singleton]. intros x Hx Hx'%elem_of_list_singleton. by subst x.
  - apply R.
  - apply R.
  - intros l. rewrite elem_of_union, elem_of_singleton, elem_of_app, elem_of_list_singleton, (r_ext _ _ R). tauto.
  - intros k' l o id j Hk' Ho Hj. apply lookup_app_Some in Hk' as [Hk'|[Hk1 Hk2]].
    + assert (l <> vl) by (intros ->; apply Hn; by eapply elem_of_list_lookup_2). rewrite decide_False by done.
      rewrite lookup_app_l in Ho; [by eapply (r_val _ _ R)|]. rewrite <- (r_names _ _ R). by eapply lookup_lt_Some.
    + apply list_lookup_singleton_Some in Hk2 as [Hk2 ->]. rewrite decide_True by done. rewrite lookup_app_r in Ho by (rewrite <- (r_names _ _ R); lia).
      rewrite <- (r_names _ _ R), Hk2 in Ho. cbn in Ho. injection Ho as <-. cbn. destruct (decide (id = w)) as [->|Hid].
      * assert (j = i) as -> by congruence. apply list_lookup_insert. by rewrite replicate_length.
      * rewrite list_lookup_insert_ne by (intros ->; apply Hid; by eapply (b_inj _ _ _ B)). apply lookup_replicate_2. by eapply (b_lt _ _ _ B).
  - intros l id Hl Hid. rewrite decide_False by set_solver. apply (r_none _ _ R); [set_solver|done].
Qed.
Lemma sl_add_rel s p vl t : rel s p ->
  outcome (ss_step p (SAdd vl t)).2 (sl_add s vl t).2 /\ rel (sl_add s vl t).1 (ss_step p (SAdd vl t)).1.
Proof.
  intros R. cbn [ss_step]. unfold sl_add. rewrite misplaced_right. pose proof (r_work _ _ R) as HW.
  destruct t as [t|]; cbn [fst snd].
  2:{ destruct (ss_work p); (split; [by eexists|exact R]). }
  destruct (ss_work p) as [w|] eqn:Hw.
  - destruct (right_level vl (Some t)); cbn [negb fst snd]; [|split; [by eexists|exact R]]. destruct HW as (i & Hi & HW).
    assert (set_cell s (replicate (vm_size (sl_vm s)) None) (Some t) = Ok (<[i := Some t]> (replicate (vm_size (sl_vm s)) None))) as ->.
    { unfold set_cell, vm_index. rewrite HW. cbn. apply vset_lt. rewrite replicate_length. destruct (r_book _ _ R) as [B _]. by eapply (b_lt _ _ _ B). }
    cbn [fst snd]. split; [done|]. unfold sl_put. destruct (sl_find s vl) as [[k o]|] eqn:Hf.
    + destruct (find_some s p vl k o R Hf) as [Hk Ho]. pose proof (erase_rel s p vl k R Hk) as R1. rewrite Hw in R1.
      pose proof (put_rel _ _ vl w i (Some t) R1 eq_refl Hi) as R2. cbn [ss_ext ss_live ss_slack ss_work] in R2. specialize (R2 ltac:(set_solver)).
      eapply rel_ext; [exact R2|done|done| |].
      * cbn. intros l. destruct (decide (l = vl)); set_solver.
      * cbn. intros v l Hv. repeat case_decide; done.
    + pose proof (put_rel _ _ vl w i (Some t) R Hw Hi (find_none _ _ _ R Hf)) as R2. rewrite Hw in R2. exact R2.
  - destruct (right_level vl (Some t)); cbn [negb fst snd]; [|split; [by eexists|exact R]].
    unfold set_cell, vm_index. rewrite HW. cbn. split; [by eexists|exact R].
Qed.

(** reset(voltageLevel, terminal) *)
Lemma sl_reset_rel s p vl t : rel s p -> outcome (ss_reset p vl t).2 (sl_reset s vl t).2 /\ rel (sl_reset s vl t).1 (ss_reset p vl t).1.
Proof.
  intros R. unfold ss_reset, sl_reset. destruct (decide (vl ∈ ss_ext p)) as [Hvl|Hvl].
  - rewrite bool_decide_false by tauto. cbn [andb]. destruct (find_in s p vl R Hvl) as (k & o & Hf). rewrite Hf.
    pose proof (sl_set_rel s p vl k o t true R Hf) as H. destruct (ss_work p) as [w|]; [|destruct H as [m ->]; split; [by eexists|exact R]].
    destruct (right_level vl t); [|destruct H as [m ->]; split; [by eexists|exact R]]. destruct H as [H1 H2]. cbn [fst snd]. split; [exact H1|].
    eapply rel_ext; [exact H2|done|done| |done]. intros l. unfold clean_up. cbn.
    change (used (mkSs (ss_live p) (Some w) (change (ss_slack p) w vl t) ({[vl]} ∪ ss_ext p)) vl) with (used (mkSs (ss_live p) (Some w) (change (ss_slack p) w vl t) (ss_ext p)) vl).
    destruct (used _ vl); destruct (decide (l = vl)); set_solver.
  - rewrite (bool_decide_true (vl ∉ ss_ext p)) by done. cbn [andb]. rewrite (find_out s p vl R Hvl). destruct t as [t|].
    + rewrite bool_decide_false by done. pose proof (sl_add_rel s p vl (Some t) R) as H. cbn [ss_step] in H.
      destruct (ss_work p) as [w|] eqn:Hw; [|exact H]. destruct (right_level vl (Some t)); [|exact H]. cbn [fst snd] in *. destruct H as [H1 H2]. split; [exact H1|].
      pose proof (r_work _ _ R) as HW. rewrite Hw in HW. destruct HW as (i & Hi & _).
      eapply rel_ext; [exact H2|done|done| |].
      * intros l. unfold clean_up. cbn [ss_ext]. destruct (used _ vl) eqn:Eu; [done|]. pose proof (used_false _ _ Eu w) as HU. cbn [ss_slack ss_live] in HU. unfold change in HU.
        rewrite decide_True in HU by done. discriminate HU. apply (r_live _ _ R). eauto.
      * cbn. intros v l Hv. unfold change. destruct (decide (l = vl)) as [->|]; [|rewrite decide_False by tauto; done].
        destruct (decide (v = w)) as [->|]; [by rewrite decide_True|]. rewrite decide_False by tauto. by apply (r_none _ _ R).
    + rewrite bool_decide_true by done. cbn. done.
Qed.

(** reset(network) *)
Lemma used_ext p q vl : ss_live q = ss_live p -> (forall v, v ∈ ss_live p -> ss_slack q v vl = ss_slack p v vl) -> used q vl = used p vl.
Proof.
  intros E1 E2. unfold used. rewrite E1. apply eq_true_iff_eq. rewrite !existsb_exists. split; intros (v & Hv & Hs); exists v; (split; [done|]);
    apply elem_of_list_In, elem_of_elements in Hv; [by rewrite E2 in Hs|by rewrite E2].
Qed.
Lemma fold_clean vls : forall p, ss_live (foldl clean_up p vls) = ss_live p /\ ss_work (foldl clean_up p vls) = ss_work p /\
  ss_slack (foldl clean_up p vls) = ss_slack p /\ forall l, l ∈ ss_ext (foldl clean_up p vls) <-> l ∈ ss_ext p /\ (l ∈ vls -> used p l = true).
Proof.
  induction vls as [|vl vls IH]; intros p; cbn [foldl].
  - split; [done|]. split; [done|]. split; [done|]. intros l. split; [|tauto]. intros H. split; [done|]. intros H'. by apply elem_of_nil in H'.
  - destruct (IH (clean_up p vl)) as (H1 & H2 & H3 & H4). split; [exact H1|]. split; [exact H2|]. split; [exact H3|]. intros l. rewrite H4.
    change (used (clean_up p vl) l) with (used p l). unfold clean_up. cbn [ss_ext]. rewrite elem_of_cons. destruct (decide (l = vl)) as [->|Hne].
    + destruct (used p vl); [tauto|]. rewrite elem_of_difference, elem_of_singleton. split; [tauto|]. intros [_ H]. discriminate H. by left.
    + destruct (used p vl); [tauto|]. rewrite elem_of_difference, elem_of_singleton. tauto.
Qed.
Lemma reset_none p w vl : ss_work p = Some w ->
  (ss_reset p vl None).2 = true /\ ss_live (ss_reset p vl None).1 = ss_live p /\ ss_work (ss_reset p vl None).1 = ss_work p /\
  (forall v l, v ∈ ss_live p -> (vl ∉ ss_ext p -> ss_slack p w vl = None) -> ss_slack (ss_reset p vl None).1 v l = change (ss_slack p) w vl None v l) /\
  (forall l, l ∈ ss_ext (ss_reset p vl None).1 <-> l ∈ ss_ext p /\ (l = vl -> used (mkSs (ss_live p) (ss_work p) (change (ss_slack p) w vl None) ∅) vl = true)).
Proof.
  intros Hw. unfold ss_reset. rewrite Hw. destruct (decide (vl ∈ ss_ext p)) as [Hvl|Hvl].
  - rewrite bool_decide_false by tauto. cbn. split; [done|]. split; [done|]. split; [done|]. split; [done|]. intros l.
    change (used (mkSs (ss_live p) (Some w) (change (ss_slack p) w vl None) ({[vl]} ∪ ss_ext p)) vl) with (used (mkSs (ss_live p) (Some w) (change (ss_slack p) w vl None) ∅) vl).
    destruct (used _ vl).
    + rewrite elem_of_union, elem_of_singleton. split; [intros [->|?]; done|tauto].
    + rewrite elem_of_difference, elem_of_union, elem_of_singleton. split; [tauto|]. intros [? H]. split; [tauto|]. intros ->. by specialize (H eq_refl).
  - rewrite bool_decide_true by done. cbn. split; [done|]. split; [done|]. split; [done|]. split.
    + intros v l Hv Hn. unfold change. case_decide as Hd; [|done]. destruct Hd as [-> ->]. auto.
    + intros l. split; [|tauto]. intros Hl. split; [done|]. intros ->. done.
Qed.
Lemma reset_all_rel vls w : forall s p, rel s p -> ss_work p = Some w ->
  (sl_reset_all s vls).2 = Ok tt /\ rel (sl_reset_all s vls).1 (ss_step p (SResetAll vls)).1.
Proof.
  induction vls as [|vl vls IH]; intros s p R Hw; cbn [sl_reset_all].
  - split; [done|]. cbn [ss_step]. rewrite Hw. cbn [fst foldl]. eapply rel_ext; [exact R|done|done|done|]. cbn. intros v l Hv. rewrite decide_False; [done|]. intros [_ H]. by apply elem_of_nil in H.
  - destruct (sl_reset_rel s p vl None R) as [O R1]. destruct (reset_none p w vl Hw) as (O' & L1 & W1 & S1 & E1). rewrite O' in O. cbn in O.
    destruct (sl_reset s vl None) as [s1 r1]. cbn [fst snd] in O, R1. subst r1. set (p1 := (ss_reset p vl None).1) in *.
    destruct (IH s1 p1 R1) as [O2 R2]; [by rewrite W1|]. split; [exact O2|]. cbn [ss_step] in R2 |- *. rewrite Hw. rewrite W1, Hw in R2. cbn [fst] in R2 |- *.
    set (Q1 := mkSs (ss_live p1) _ _ _) in R2. set (Q := mkSs (ss_live p) _ _ _).
    destruct (fold_clean vls Q1) as (A1 & A2 & A3 & A4). destruct (fold_clean (vl :: vls) Q) as (B1 & B2 & B3 & B4).
    assert (w ∈ ss_live p) as Hwl. { pose proof (r_work _ _ R) as HW. rewrite Hw in HW. destruct HW as (i & Hi & _). apply (r_live _ _ R). eauto. }
    assert (vl ∉ ss_ext p -> ss_slack p w vl = None) as Hnone by (intros Hn; by apply (r_none _ _ R)).
    assert (forall v l, v ∈ ss_live p -> ss_slack Q v l = ss_slack Q1 v l) as HQ.
    { intros v l Hv. cbn. rewrite (S1 v l Hv Hnone). unfold change. destruct (decide (v = w)) as [->|Hvw].
      - destruct (decide (l = vl)) as [->|Hl].
        + rewrite (decide_True (P := w = w /\ vl ∈ vl :: vls)) by (split; [done|by left]). case_decide; [done|]. by rewrite decide_True.
        + destruct (decide (l ∈ vls)) as [Hin|Hin].
          * rewrite decide_True by (split; [done|by right]). by rewrite decide_True.
          * rewrite decide_False by (rewrite elem_of_cons; tauto). rewrite decide_False by tauto. by rewrite decide_False by tauto.
      - rewrite !decide_False by tauto. done. }
    eapply rel_ext; [exact R2| | | |].
    + rewrite A1, B1. cbn. by rewrite L1.
    + by rewrite A2, B2.
    + intros l. rewrite A4, B4. change (ss_ext Q) with (ss_ext p). change (ss_ext Q1) with (ss_ext p1). rewrite E1, elem_of_cons.
      assert (used Q l = used Q1 l) as EU by (apply used_ext; [cbn; by rewrite L1|]; intros v Hv; apply HQ; cbn in Hv; by rewrite L1 in Hv).
      assert (l = vl -> used (mkSs (ss_live p) (ss_work p) (change (ss_slack p) w vl None) ∅) vl = used Q l) as EU2.
      { intros ->. apply used_ext; [done|]. cbn. intros v Hv. unfold change. destruct (decide (v = w)) as [->|Hvw].
        - rewrite !decide_True; [done| |done]. split; [done|by left].
        - rewrite !decide_False by tauto. done. }
      rewrite EU in EU2 |- *. split.
      * intros [H1 H2]. split; [split; [done|]|intros Hl; apply H2; by right]. intros Hl. rewrite (EU2 Hl). apply H2. by left.
      * intros [[H1 H2] H3]. split; [done|]. intros [Hl|Hl]; [|by apply H3]. rewrite <- (EU2 Hl). by apply H2.
    + intros v l Hv. rewrite A3, B3. apply HQ. rewrite A1 in Hv. cbn in Hv. by rewrite L1 in Hv.
Qed.
Lemma reset_all_unset vls : forall s p, rel s p -> ss_work p = None ->
  outcome (bool_decide (Forall (fun vl => vl ∉ ss_ext p) vls)) (sl_reset_all s vls).2 /\ (sl_reset_all s vls).1 = s.
Proof.
  induction vls as [|vl vls IH]; intros s p R Hw; cbn [sl_reset_all]; [done|].
  destruct (decide (vl ∈ ss_ext p)) as [Hvl|Hvl].
  - rewrite bool_decide_false by (rewrite Forall_cons; tauto). unfold sl_reset. destruct (find_in s p vl R Hvl) as (k & o & Hf). rewrite Hf.
    pose proof (sl_set_rel s p vl k o None true R Hf) as H. rewrite Hw in H. destruct H as [m ->]. split; [by eexists|done].
  - unfold sl_reset. rewrite (find_out s p vl R Hvl). destruct (IH s p R Hw) as [H1 H2]. split; [|done].
    rewrite (bool_decide_ext _ (Forall (fun vl => vl ∉ ss_ext p) vls)); [done|]. rewrite Forall_cons. tauto.
Qed.

Lemma step_rel s p o : rel s p -> sl_safe s o -> outcome (ss_step p o).2 (sl_step s o).2 /\ rel (sl_step s o).1 (ss_step p o).1.
Proof.
  intros R Hs. destruct o as [src ts ow|id|id|vl t|vl t clean|vl t|vls|vl ts].
  - by apply clone_rel.
  - by apply remove_rel.
  - by apply working_rel.
  - by apply sl_add_rel.
  - cbn [ss_step sl_step]. destruct (decide (vl ∈ ss_ext p)) as [Hvl|Hvl].
    + destruct (find_in s p vl R Hvl) as (k & o & Hf). rewrite Hf. rewrite bool_decide_true by done. cbn [andb].
      pose proof (sl_set_rel s p vl k o t clean R Hf) as H. destruct (ss_work p) as [w|]; [|destruct H as [m ->]; split; [by eexists|exact R]].
      destruct (right_level vl t); [|destruct H as [m ->]; split; [by eexists|exact R]]. cbn. cbv zeta in H. exact H.
    + rewrite (find_out s p vl R Hvl). rewrite bool_decide_false by done. cbn [andb]. destruct (ss_work p); (split; [by eexists|exact R]).
  - by apply sl_reset_rel.
  - cbn [sl_step]. destruct (ss_work p) as [w|] eqn:Hw.
    + destruct (reset_all_rel vls w s p R Hw) as [H1 H2]. split; [|exact H2]. cbn [ss_step]. rewrite Hw. exact H1.
    + cbn [ss_step]. rewrite Hw. destruct (reset_all_unset vls s p R Hw) as [H1 H2]. split; [exact H1|]. rewrite H2. exact R.
  - cbn [ss_step sl_step]. unfold sl_attach. rewrite finder_chosen. destruct (chosen ts) as [t|]; [by apply sl_reset_rel|]. split; [by eexists|exact R].
Qed.
Lemma hist_rel s p : sl_hist s p -> rel s p.
Proof. induction 1 as [|s p o _ IH Hs]; [apply rel_init|]. by apply step_rel. Qed.

Lemma get_rel s p vl : rel s p -> match ss_get p vl with Some t => sl_get s vl = Ok t | None => exists m, sl_get s vl = Throw m end.
Proof.
  intros R. unfold ss_get, sl_get. pose proof (r_work _ _ R) as HW. destruct (decide (vl ∈ ss_ext p)) as [Hvl|Hvl].
  - destruct (find_in s p vl R Hvl) as (k & o & Hf). rewrite Hf. destruct (find_some _ _ _ _ _ R Hf) as [Hk Ho]. unfold vm_index.
    destruct (ss_work p) as [w|]; cbn.
    + destruct HW as (i & Hi & HW). rewrite HW. cbn. apply vget_Ok. by eapply (r_val _ _ R).
    + rewrite HW. by eexists.
  - rewrite (find_out s p vl R Hvl). destruct (ss_work p); by eexists.
Qed.
