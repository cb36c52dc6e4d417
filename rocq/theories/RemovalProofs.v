From stdpp Require Import gmap.
From Verif Require Import Base RemovalSpec.

(** ** Nodes *)
Definition node_at (x : rvl) (i : nat) : option string := match rv_topo x with RNode ns _ => mjoin (mjoin (ns !! i)) | RBus _ _ => None end.
Lemma trim_at l i : mjoin (trim l !! i) = mjoin (l !! i).
Proof.
  revert i. induction l as [|x l IH]; intros i; [done|]. cbn [trim].
  destruct x as [x|]; [destruct i; cbn; [done|apply IH]|].
  destruct (trim l) as [|y t] eqn:E.
  - destruct i; cbn; [done|]. rewrite <- IH. done.
  - destruct i; cbn; [done|]. rewrite <- IH. done.
Qed.
Lemma clean_at ns es i : mjoin (mjoin (clean ns es !! i)) = mjoin (mjoin (ns !! i)).
Proof.
  unfold clean. rewrite trim_at, list_lookup_imap. destruct (ns !! i) as [[[e|]|]|]; cbn; try done. by case_bool_decide.
Qed.
Lemma detach_at e x i : node_at (detach e x) i = (if bool_decide (node_at x i = Some e) then None else node_at x i).
Proof.
  unfold node_at, detach. destruct (rv_topo x) as [ns es|bs sw]; cbn; [|by case_bool_decide]. rewrite clean_at, list_lookup_fmap.
  destruct (ns !! i) as [[[e'|]|]|]; cbn; try (case_bool_decide; done). 
  destruct (decide (e' = e)) as [->|Hne]; [by rewrite !bool_decide_eq_true_2|]. rewrite !bool_decide_eq_false_2 by congruence. done.
Qed.
Lemma terminals_at x e : node_breaker x -> e ∈ terminals x <-> exists i, node_at x i = Some e.
Proof.
  intros (ns & es & E). unfold terminals, node_at. rewrite E. rewrite elem_of_list_omap. split.
  - intros (o & Ho & Eo). apply elem_of_list_lookup in Ho as [i Hi]. exists i. rewrite Hi. destruct o as [[]|]; cbn in *; done.
  - intros [i Hi]. destruct (ns !! i) as [o|] eqn:Ho; [|done]. exists o. split; [by eapply elem_of_list_lookup_2|]. destruct o as [[]|]; cbn in *; done.
Qed.
Lemma terminals_detach e x e' : e' ∈ terminals (detach e x) <-> e' ∈ terminals x /\ e' <> e.
Proof.
  destruct (rv_topo x) as [ns es|bs sw] eqn:E.
  - rewrite !terminals_at; [|by eexists _, _|unfold node_breaker, detach; cbn; rewrite E; by eexists _, _]. split.
    + intros [i Hi]. rewrite detach_at in Hi. case_bool_decide as Hb; [done|]. split; [by exists i|]. intros ->. done.
    + intros [[i Hi] Hne]. exists i. rewrite detach_at, Hi. rewrite bool_decide_eq_false_2; [done|]. congruence.
  - unfold terminals, detach. rewrite E. cbn. rewrite !elem_of_list_In, !in_concat. split.
    + intros (l & Hl & Hin). apply elem_of_list_In in Hl, Hin. rewrite map_map in Hl. apply elem_of_list_fmap in Hl as (b & -> & Hb). cbn in Hin. apply elem_of_list_filter in Hin as [Hne Hin].
      split; [|done]. exists b.2. split; apply elem_of_list_In; [|done]. apply elem_of_list_fmap. eauto.
    + intros [(l & Hl & Hin) Hne]. apply elem_of_list_In in Hl, Hin. apply elem_of_list_fmap in Hl as (b & -> & Hb).
      exists (filter (fun e'' => e'' <> e) b.2). split; apply elem_of_list_In; [|by apply elem_of_list_filter]. rewrite map_map. apply elem_of_list_fmap. by exists b.
Qed.

(** ** Erasing equipments and HVDC lines *)
(** The part of a voltage level that removing equipments keeps. *)
Definition vkeep (x x' : rvl) : Prop :=
  rv_sub x' = rv_sub x /\ vl_ids x' = vl_ids x /\ (node_breaker x -> node_breaker x') /\ (no_internal x -> no_internal x') /\ (no_internal x' -> no_internal x).
Record vrel (E : string -> Prop) (x x' : rvl) : Prop := {
  v_keep : vkeep x x';
  v_nodes : forall i e, node_at x' i = Some e <-> node_at x i = Some e /\ ~ E e;
  v_terms : forall e, e ∈ terminals x' <-> e ∈ terminals x /\ ~ E e;
  v_same : (forall e, e ∈ terminals x -> ~ E e) -> x' = x
}.
Record erased (E H : string -> Prop) (n n' : rnet) : Prop := {
  e_subs : r_subs n' = r_subs n;
  e_idx : r_idx n' = r_idx n;
  e_eqs : forall e, (E e -> r_eqs n' !! e = None) /\ (~ E e -> r_eqs n' !! e = r_eqs n !! e);
  e_hv : forall h, (H h -> r_hv n' !! h = None) /\ (~ H h -> r_hv n' !! h = r_hv n !! h);
  e_vls : forall v, option_relation (vrel E) (fun _ => False) (fun _ => False) (r_vls n !! v) (r_vls n' !! v)
}.
Lemma vkeep_refl x : vkeep x x.
Proof. by split_and!. Qed.
Lemma vkeep_trans x y z : vkeep x y -> vkeep y z -> vkeep x z.
Proof. intros (? & ? & ? & ? & ?) (? & ? & ? & ? & ?). split_and!; try congruence; auto. Qed.
Lemma detach_keep e x : vkeep x (detach e x).
Proof.
  split_and!.
  - done.
  - unfold vl_ids, detach. destruct (rv_topo x); cbn; [done|]. rewrite map_map. done.
  - intros (ns & es & E). unfold node_breaker, detach. rewrite E. by eexists _, _.
  - intros Hi ns es i j. unfold detach. destruct (rv_topo x) eqn:E; [|done]. cbn. intros [= _ <-]. by eapply Hi.
  - intros Hi ns es i j E. unfold no_internal, detach in Hi. rewrite E in Hi. cbn in Hi. by eapply Hi.
Qed.
Lemma vrel_refl x : vrel (fun _ => False) x x.
Proof. split; [apply vkeep_refl|naive_solver|naive_solver|done]. Qed.
Lemma vrel_trans E E' x y z : vrel E x y -> vrel E' y z -> vrel (fun e => E e \/ E' e) x z.
Proof.
  intros A B. split.
  - eapply vkeep_trans; [apply A|apply B].
  - intros i e. rewrite (v_nodes _ _ _ B), (v_nodes _ _ _ A). tauto.
  - intros e. rewrite (v_terms _ _ _ B), (v_terms _ _ _ A). tauto.
  - intros H. assert (y = x) as -> by (apply A; intros e He; specialize (H e He); tauto). apply B. intros e He. specialize (H e He). tauto.
Qed.
Lemma vrel_iff E E' x y : (forall e, e ∈ terminals x -> E e <-> E' e) -> vrel E x y -> vrel E' x y.
Proof.
  intros H A. split.
  - apply A.
  - intros i e. rewrite (v_nodes _ _ _ A). destruct (rv_topo x) as [ns es|bs sw] eqn:Ex.
    + split; intros [H1 H2]; (split; [done|]); (assert (e ∈ terminals x) as Ht by (apply terminals_at; [by eexists _, _|by exists i])); apply H in Ht; tauto.
    + unfold node_at. rewrite Ex. naive_solver.
  - intros e. rewrite (v_terms _ _ _ A). split; intros [H1 H2]; (split; [done|]); specialize (H e H1); tauto.
  - intros Hn. apply A. intros e He. specialize (H e He). specialize (Hn e He). tauto.
Qed.
Lemma erased_refl n : erased (fun _ => False) (fun _ => False) n n.
Proof. split; try done; try tauto. intros v. destruct (r_vls n !! v); cbn; [|done]. constructor; apply vrel_refl. Qed.
Lemma erased_trans E H E' H' n n1 n2 : erased E H n n1 -> erased E' H' n1 n2 -> erased (fun e => E e \/ E' e) (fun h => H h \/ H' h) n n2.
Proof.
  intros A B. split.
  - rewrite (e_subs _ _ _ _ B). apply A.
  - rewrite (e_idx _ _ _ _ B). apply A.
  - intros e. destruct (e_eqs _ _ _ _ A e) as [A1 A2], (e_eqs _ _ _ _ B e) as [B1 B2]. split.
    + intros HE. destruct (r_eqs n2 !! e) eqn:E2; [|done]. exfalso. assert (~ E' e) as N by (intros HE'; by specialize (B1 HE')).
      specialize (B2 N). destruct HE as [HE|]; [|done]. rewrite A1 in B2; done.
    + intros N. rewrite B2 by tauto. apply A2. tauto.
  - intros e. destruct (e_hv _ _ _ _ A e) as [A1 A2], (e_hv _ _ _ _ B e) as [B1 B2]. split.
    + intros HE. destruct (r_hv n2 !! e) eqn:E2; [|done]. exfalso. assert (~ H' e) as N by (intros HE'; by specialize (B1 HE')).
      specialize (B2 N). destruct HE as [HE|]; [|done]. rewrite A1 in B2; done.
    + intros N. rewrite B2 by tauto. apply A2. tauto.
  - intros v. pose proof (e_vls _ _ _ _ A v) as A1. pose proof (e_vls _ _ _ _ B v) as B1.
    destruct (r_vls n !! v), (r_vls n1 !! v), (r_vls n2 !! v); cbn in *; try done. by eapply vrel_trans.
Qed.
Lemma erased_iff E H E' H' n n' : (forall e, E e <-> E' e) -> (forall h, H h <-> H' h) -> erased E H n n' -> erased E' H' n n'.
Proof.
  intros HE HH A. split; try apply A.
  - intros e. rewrite <- HE. apply A.
  - intros h. rewrite <- HH. apply A.
  - intros v. pose proof (e_vls _ _ _ _ A v) as A1. destruct (r_vls n !! v), (r_vls n' !! v); cbn in *; try done. eapply vrel_iff; [|exact A1]. intros. apply HE.
Qed.
Lemma erased_eq E H n n' e x : erased E H n n' -> r_eqs n' !! e = Some x <-> r_eqs n !! e = Some x /\ ~ E e.
Proof.
  intros A. destruct (e_eqs _ _ _ _ A e) as [A1 A2]. split.
  - intros Hx. assert (~ E e) as N by (intros HE; rewrite A1 in Hx; done). split; [by rewrite <- A2|done].
  - intros [Hx N]. by rewrite A2.
Qed.
Lemma erased_hv E H n n' h x : erased E H n n' -> r_hv n' !! h = Some x <-> r_hv n !! h = Some x /\ ~ H h.
Proof.
  intros A. destruct (e_hv _ _ _ _ A h) as [A1 A2]. split.
  - intros Hx. assert (~ H h) as N by (intros HE; rewrite A1 in Hx; done). split; [by rewrite <- A2|done].
  - intros [Hx N]. by rewrite A2.
Qed.
Lemma erased_vl E H n n' v x : erased E H n n' -> r_vls n !! v = Some x -> exists x', r_vls n' !! v = Some x' /\ vrel E x x'.
Proof. intros A Hx. pose proof (e_vls _ _ _ _ A v) as A1. rewrite Hx in A1. destruct (r_vls n' !! v) as [x'|]; [|done]. by exists x'. Qed.
Lemma erased_vl_inv E H n n' v x' : erased E H n n' -> r_vls n' !! v = Some x' -> exists x, r_vls n !! v = Some x /\ vrel E x x'.
Proof. intros A Hx. pose proof (e_vls _ _ _ _ A v) as A1. rewrite Hx in A1. destruct (r_vls n !! v) as [x|]; [|done]. by exists x. Qed.
Lemma erased_wf E H n n' : nwf n -> erased E H n n' -> (forall h s1 s2, r_hv n !! h = Some (s1, s2) -> ~ H h -> ~ E s1 /\ ~ E s2) -> nwf n'.
Proof.
  intros [W1 W2 W3 W4 W5 W6] A HEH. split.
  - intros s l. rewrite (e_subs _ _ _ _ A). intros Hl. destruct (W1 _ _ Hl) as [Hn Hv]. split; [done|]. intros v. rewrite Hv. split.
    + intros (x & Hx & <-). destruct (erased_vl _ _ _ _ _ _ A Hx) as (x' & Hx' & R). exists x'. split; [done|]. apply (v_keep _ _ _ R).
    + intros (x' & Hx' & <-). destruct (erased_vl_inv _ _ _ _ _ _ A Hx') as (x & Hx & R). exists x. split; [done|]. symmetry. apply (v_keep _ _ _ R).
  - intros v x' Hx'. destruct (erased_vl_inv _ _ _ _ _ _ A Hx') as (x & Hx & R). rewrite (e_subs _ _ _ _ A). destruct (v_keep _ _ _ R) as [-> _]. by eapply W2.
  - intros v x' e Hx'. destruct (erased_vl_inv _ _ _ _ _ _ A Hx') as (x & Hx & R). rewrite (v_terms _ _ _ R), (W3 _ _ _ Hx). split.
    + intros [(k & vs & He & Hv) N]. exists k, vs. split; [|done]. by apply (erased_eq _ _ _ _ _ _ A).
    + intros (k & vs & He & Hv). apply (erased_eq _ _ _ _ _ _ A) in He as [He N]. eauto.
  - intros e k vs He. apply (erased_eq _ _ _ _ _ _ A) in He as [He N]. destruct (W4 _ _ _ He) as [H1 H2]. split; [|done].
    intros v Hv. destruct (H1 v Hv) as [x Hx]. destruct (erased_vl _ _ _ _ _ _ A Hx) as (x' & Hx' & _). eauto.
  - intros h s1 s2 Hh st Hst. apply (erased_hv _ _ _ _ _ _ A) in Hh as [Hh N]. destruct (W5 _ _ _ Hh st Hst) as [v Hv]. exists v. apply (erased_eq _ _ _ _ _ _ A).
    split; [done|]. destruct (HEH _ _ _ Hh N) as [? ?]. by destruct Hst as [->| ->].
  - intros h h' s1 s2 t1 t2 Hh Hh'. apply (erased_hv _ _ _ _ _ _ A) in Hh as [Hh _], Hh' as [Hh' _]. by eapply W6.
Qed.

(** ** The elementary removals *)
Lemma detach_all_lookup e vs : forall m v x, m !! v = Some x -> exists x', detach_all e vs m !! v = Some x' /\ vkeep x x' /\ (v ∉ vs -> x' = x) /\
  (v ∈ vs -> (forall i e', node_at x' i = Some e' <-> node_at x i = Some e' /\ e' <> e) /\ forall e', e' ∈ terminals x' <-> e' ∈ terminals x /\ e' <> e).
Proof.
  unfold detach_all. induction vs as [|w vs IH]; intros m v x Hx; cbn.
  - exists x. split; [done|]. split; [apply vkeep_refl|]. split; [done|]. by intros ?%elem_of_nil.
  - destruct (decide (v = w)) as [<-|Hne].
    + destruct (IH (alter (detach e) v m) v (detach e x)) as (x' & E & K & N & Y); [by rewrite lookup_alter, Hx|].
      exists x'. split; [done|]. split; [eapply vkeep_trans; [apply detach_keep|done]|]. split; [intros Hn; exfalso; apply Hn; left|]. intros _.
      assert ((forall i e', node_at (detach e x) i = Some e' <-> node_at x i = Some e' /\ e' <> e) /\ forall e', e' ∈ terminals (detach e x) <-> e' ∈ terminals x /\ e' <> e) as [D1 D2].
      { split; [|intros; apply terminals_detach]. intros i e'. rewrite detach_at. case_bool_decide; naive_solver. }
      destruct (decide (v ∈ vs)) as [Hin|Hin].
      * destruct (Y Hin) as [Y1 Y2]. split; [intros i e'; rewrite Y1, D1|intros e'; rewrite Y2, D2]; tauto.
      * rewrite (N Hin). done.
    + destruct (IH (alter (detach e) w m) v x) as (x' & E & K & N & Y); [by rewrite lookup_alter_ne|]. exists x'. split; [done|]. split; [done|].
      split; [intros Hn; apply N; set_solver|]. intros Hin. apply Y. set_solver.
Qed.
Lemma detach_all_none e vs : forall m v, m !! v = None -> detach_all e vs m !! v = None.
Proof.
  unfold detach_all. induction vs as [|w vs IH]; intros m v Hx; cbn; [done|]. apply IH. destruct (decide (v = w)) as [<-|Hne]; [by rewrite lookup_alter, Hx|by rewrite lookup_alter_ne].
Qed.
Lemma remove_eq_erased e n k vs : nwf n -> r_eqs n !! e = Some (k, vs) -> (k = RStation -> line_of n e = None) ->
  exists n', remove_eq e n = (Ok tt, n') /\ erased (fun x => x = e) (fun _ => False) n n'.
Proof.
  intros W He Hl. unfold remove_eq. rewrite He.
  assert (bool_decide (k = RStation) && bool_decide (is_Some (line_of n e)) = false) as ->.
  { case_bool_decide as Hk; [|done]. rewrite Hl by done. by rewrite bool_decide_eq_false_2 by (by intros [? ?]). }
  eexists. split; [done|]. split; cbn; try done.
  - intros x. split; [intros ->; apply lookup_delete|]. intros Hne. by rewrite lookup_delete_ne.
  - intros v. destruct (r_vls n !! v) as [x|] eqn:Hx.
    + destruct (detach_all_lookup e vs _ v x Hx) as (x' & -> & K & N & Y). cbn. destruct (decide (v ∈ vs)) as [Hin|Hin].
      * destruct (Y Hin) as [Y1 Y2]. split; try done. intros Hno. exfalso. apply (Hno e); [|done]. apply (n_term _ W _ _ _ Hx). eauto.
      * rewrite (N Hin). assert (forall e', e' ∈ terminals x -> e' <> e) as Hne.
        { intros e' He' ->. apply (n_term _ W _ _ _ Hx) in He' as (k' & vs' & He' & Hv). rewrite He in He'. injection He' as <- <-. done. }
        eapply (vrel_iff (fun _ => False)); [|apply vrel_refl]. intros e' He'. specialize (Hne e' He'). naive_solver.
    + rewrite detach_all_none by done. done.
Qed.
Lemma remove_line_erased h n : erased (fun _ => False) (fun x => x = h) n (remove_line h n).2.
Proof.
  split; cbn; try done; try tauto.
  - intros x. split; [intros ->; apply lookup_delete|]. intros Hne. by rewrite lookup_delete_ne.
  - intros v. destruct (r_vls n !! v); cbn; [apply vrel_refl|done].
Qed.
Lemma line_of_some n st h p : line_of n st = Some (h, p) -> r_hv n !! h = Some p /\ (p.1 = st \/ p.2 = st).
Proof.
  unfold line_of. intros ([i x] & E & Hx)%fmap_Some. apply list_find_Some in E as (H1 & H2 & _). cbn in Hx. subst x. apply elem_of_list_lookup_2, elem_of_map_to_list in H1. done.
Qed.
Lemma line_of_none n st : line_of n st = None -> forall h p, r_hv n !! h = Some p -> p.1 <> st /\ p.2 <> st.
Proof.
  unfold line_of. intros E%fmap_None h p Hh. apply list_find_None in E. rewrite Forall_forall in E. specialize (E (h, p)). cbn in E.
  assert ((h, p) ∈ map_to_list (r_hv n)) as Hin by (by apply elem_of_map_to_list). apply E in Hin. tauto.
Qed.
