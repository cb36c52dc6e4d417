From stdpp Require Import gmap.
From Verif Require Import Variants VariantsProofs ThreadsSpec.

Definition net_ok (n : tnet) : Prop := tn_multi n = true /\ bk (vm_ids (tn_vm n)) (vm_unused (tn_vm n)) (vm_size (tn_vm n)) /\ vm_objs (tn_vm n) = [].
Definition sel_ok (n : tnet) (o : option string) (w : option nat) : Prop :=
  match o with Some id => exists i, vm_ids (tn_vm n) !! id = Some i /\ w = Some i | None => w = None end.
Record winv (own : nat -> nat) (w : world) (sel : nat -> option string) : Prop := {
  wi_nets : forall k n, w_nets w !! k = Some n -> net_ok n;
  wi_sel : forall t n, w_nets w !! own t = Some n -> sel_ok n (sel t) (w_tls w !! t)
}.

Lemma set_tls_eq t w m : set_tls t w m !! t = w.
Proof. destruct w; simpl; [apply lookup_insert|apply lookup_delete]. Qed.
Lemma set_tls_ne t t' w m : t <> t' -> set_tls t w m !! t' = m !! t'.
Proof. intros. destruct w; simpl; [by apply lookup_insert_ne|by apply lookup_delete_ne]. Qed.

(** What an operation does to the manager of its network, under the invariant. *)
Lemma clone_facts (s : vm unit) src ts ow : bk (vm_ids s) (vm_unused s) (vm_size s) -> vm_objs s = [] ->
  let s' := (vm_clone s src ts ow).1 in
  bk (vm_ids s') (vm_unused s') (vm_size s') /\ vm_objs s' = [] /\ vm_work s' = vm_work s /\ vm_ids s ⊆ vm_ids s'.
Proof.
  intros B O. unfold vm_clone. destruct ts as [|t0 ts0]; [by simpl|]. destruct (vm_ids s !! src); [|by simpl].
  pose proof (clone_loop_bk (t0 :: ts0) ow (mkC (vm_ids s) (vm_unused s) (vm_size s) 0 [] [] false) B) as [B' Hs].
  generalize dependent (clone_loop (t0 :: ts0) ow (mkC (vm_ids s) (vm_unused s) (vm_size s) 0 [] [] false)); intros c B' Hs. cbv zeta. destruct (c_throw c); [by simpl|].
  destruct (let! os := _ in _) as [os| | |] eqn:E; try by simpl.
  cbn [fst vm_ids vm_unused vm_size vm_objs vm_work]. split_and!; try done. rewrite O in E. unfold vm_alloc in E.
  destruct (bool_decide (c_rec c = [])), (bool_decide (c_over c = [])); cbn in E; destruct (c_ext c =? 0); cbn in E; injection E; done.
Qed.
Lemma remove_facts (s : vm unit) id : bk (vm_ids s) (vm_unused s) (vm_size s) -> vm_objs s = [] ->
  let r := vm_remove s id in
  bk (vm_ids r.1) (vm_unused r.1) (vm_size r.1) /\ vm_objs r.1 = [] /\
  match r.2 with
  | Ok _ => exists i, vm_ids s !! id = Some i /\ vm_ids r.1 = delete id (vm_ids s) /\ vm_work r.1 = reset_if (vm_work s) i
  | Throw _ => r.1 = s
  | _ => False
  end.
Proof.
  intros B O. unfold vm_remove. case_bool_decide as Hid; [by simpl|]. destruct (vm_ids s !! id) as [i|] eqn:Hi; [|by simpl]. cbv zeta.
  destruct (i =? vm_size s - 1) eqn:Ht.
  - apply Nat.eqb_eq in Ht. destruct (vm_trim i (vm_unused s) 1) as [u c] eqn:Et. rewrite O. cbn.
    destruct (bk_trim _ _ _ id i u c B Hid Hi Ht Et) as (B' & _ & _). split_and!; try done. by exists i.
  - apply Nat.eqb_neq in Ht. rewrite O. cbn. split_and!; [by apply bk_delete|done|by exists i].
Qed.
Lemma working_some ids i (id : string) : (forall a b j, ids !! a = Some j -> ids !! b = Some j -> a = b) -> ids !! id = Some i ->
  exists p, list_find (fun e : string * nat => e.2 = i) (map_to_list ids) = Some (p, (id, i)).
Proof.
  intros Inj Hi. destruct (list_find_elem_of (fun e : string * nat => e.2 = i) (map_to_list ids) (id, i)) as [[p [a j]] E].
  { by apply elem_of_map_to_list. } { done. }
  exists p. rewrite E. pose proof E as E'. apply list_find_Some in E' as (Hp & Hj & _). simpl in Hj. subst j.
  apply elem_of_list_lookup_2, elem_of_map_to_list in Hp. by rewrite (Inj _ _ _ Hp Hi).
Qed.

(** An operation of thread [t] on its network that keeps the book and grows the ids. *)
Lemma store_inv own w sel sel' t n s' : winv own w sel -> w_nets w !! own t = Some n ->
  bk (vm_ids s') (vm_unused s') (vm_size s') -> vm_objs s' = [] ->
  sel_ok (mkTNet s' true) (sel' t) (vm_work s') ->
  (forall t', t' <> t -> sel' t' = sel t') ->
  (forall t' id i, t' <> t -> own t' = own t -> sel t' = Some id -> vm_ids (tn_vm n) !! id = Some i -> vm_ids s' !! id = Some i) ->
  winv own (mkWorld (<[own t := mkTNet (with_work s' (vm_work (tn_vm n))) true]> (w_nets w)) (set_tls t (vm_work s') (w_tls w))) sel'.
Proof.
  intros I Hn B O S Hsel Hids. split; cbn [w_nets w_tls].
  - intros k m [(<- & <- & _)|(? & Hm)]%list_lookup_insert_Some; [by split_and!|]. by eapply (wi_nets _ _ _ I).
  - intros t' m [(E & <- & _)|(Hne & Hm)]%list_lookup_insert_Some.
    + destruct (decide (t' = t)) as [->|Ht]; [by rewrite set_tls_eq|].
      rewrite set_tls_ne by done. rewrite Hsel by done.
      assert (w_nets w !! own t' = Some n) as Hn' by (by rewrite <- E). pose proof (wi_sel _ _ _ I t' n Hn') as St. unfold sel_ok in *.
      destruct (sel t') as [id|] eqn:Es; [|done]. destruct St as (i & Hi & ?). exists i. split; [|done]. cbn. by eapply Hids.
    + assert (t' <> t) by (intros ->; done). rewrite set_tls_ne by done. rewrite Hsel by done. by apply (wi_sel _ _ _ I).
Qed.

Definition answer (o : option string) : result string := match o with Some id => Ok id | None => Throw "Variant index not set" end.
Lemma sel_step initial evs e t : t <> e.1.1 -> selected initial (e :: evs) t = selected initial evs t.
Proof. destruct e as [[t' o] r]. cbn. intros H. destruct o; try done; destruct r; try done; case_bool_decide as Hd; naive_solver. Qed.

Lemma step_inv own initial evs w t o : winv own w (selected initial evs) -> uses_own own (t, o) ->
  let r := w_step w t o in
  (match r.2, o with Ok _, WRemove k id => forall t', t' <> t -> own t' = k -> selected initial evs t' <> Some id | _, _ => True end) ->
  winv own r.1 (selected initial ((t, o, r.2) :: evs)) /\
  length (w_nets r.1) = length (w_nets w) /\
  (forall k, o = WGet k -> own t < length (w_nets w) -> r.2 = answer (selected initial evs t)).
Proof.
  intros I U r Hr. subst r.
  assert (forall k f, o = k -> w_nets w !! own t = None -> on_net w t (own t) f = (w, Throw "no such network")) as Hnone.
  { intros k f _ Hn. unfold on_net. by rewrite Hn. }
  destruct o as [|? ?|k src ts ow|k id|k id|k]; try done; cbn [uses_own snd fst] in U; subst k; cbn [w_step] in *.
  all: unfold on_net in *; destruct (w_nets w !! own t) as [n|] eqn:Hn;
    [destruct (wi_nets _ _ _ I _ _ Hn) as (Hm & B & O); unfold ctx in *; rewrite Hm in *; pose proof (wi_sel _ _ _ I t n Hn) as St
    |split_and!; [exact I|done|intros k _ Hl; apply lookup_ge_None in Hn; lia]].
  all: cbn [fst snd] in *; rewrite ?insert_length.
  - set (s := with_work (tn_vm n) (w_tls w !! t)) in *.
    destruct (clone_facts s src ts ow B O) as (B' & O' & W' & Hs). split_and!; [|cbn; by rewrite insert_length|done].
    eapply store_inv; try done.
    + cbn [quietly fst] in *. rewrite W'. unfold sel_ok in *. cbn [selected]. cbn [tn_vm].
      destruct (selected initial evs t); [|done]. destruct St as (i & Hi & ?). exists i. split; [|done]. by eapply lookup_weaken.
    + intros t' id i _ _ _ Hi. by eapply lookup_weaken.
  - set (s := with_work (tn_vm n) (w_tls w !! t)) in *.
    destruct (remove_facts s id B O) as (B' & O' & R). cbn [quietly fst snd] in *. split_and!; [|cbn; by rewrite insert_length|done].
    destruct (vm_remove s id) as [s' [u|m| |]] eqn:E; cbn [fst snd] in *; try done.
    + destruct R as (i & Hi & Eids & Ew). eapply store_inv; try done.
      * cbn [selected]. rewrite Ew. unfold reset_if, sel_ok. cbn [tn_vm]. rewrite Eids. unfold sel_ok in St. cbn [s with_work vm_ids vm_work] in *.
        case_bool_decide as H1; case_bool_decide as H2; try done.
        -- destruct H1 as [_ H1]. rewrite H1 in St. destruct St as (j & Hj & Ht). exfalso. apply H2. unfold s in Hi. cbn in Hi. congruence.
        -- exfalso. apply H1. split; [done|]. destruct (selected initial evs t) as [id'|]; [|congruence]. destruct St as (j & Hj & Ht).
           f_equal. unfold s in Hi. cbn in Hi. assert (j = i) as -> by congruence. by eapply (b_inj _ _ _ B).
        -- destruct (selected initial evs t) as [id'|]; [|done]. destruct St as (j & Hj & Ht). exists j. split; [|done].
           rewrite lookup_delete_ne; [done|]. intros <-. apply H1. done.
      * intros t' Ht. by apply (sel_step _ _ (t, WRemove (own t) id, Ok "")).
      * intros t' id' j Ht Ho Hs' Hj. rewrite Eids, lookup_delete_ne; [done|]. intros <-. by apply (Hr t').
    + subst s'. eapply store_inv; try done. 
  - set (s := with_work (tn_vm n) (w_tls w !! t)) in *. unfold vm_set_working in *.
    destruct (vm_ids s !! id) as [i|] eqn:Hi; cbn [quietly fst snd] in *.
    + split_and!; [|cbn; by rewrite insert_length|done]. eapply store_inv; try done.
      * cbn [selected]. rewrite bool_decide_eq_true_2 by done. by exists i.
      * intros t' Ht. by apply (sel_step _ _ (t, WSet (own t) id, Ok "")).
    + split_and!; [|cbn; by rewrite insert_length|done]. eapply store_inv; try done.
  - set (s := with_work (tn_vm n) (w_tls w !! t)) in *. unfold vm_working in *. cbn [fst snd] in *. split_and!; [|cbn; by rewrite insert_length|].
    + eapply store_inv; try done.
    + intros _ _ _. unfold sel_ok in St. cbn [s with_work vm_work vm_ids]. unfold s. cbn.
      destruct (selected initial evs t) as [id|]; [|by rewrite St]. destruct St as (i & Hi & ->).
      destruct (working_some _ i id (b_inj _ _ _ B) Hi) as [p ->]. done.
Qed.

Lemma run_inv own initial : forall h w before, winv own w (selected initial before) -> Forall (uses_own own) h ->
  removals_fine own initial (rev (w_run w h).2 ++ before) ->
  forall i t k r, (w_run w h).2 !! i = Some (t, WGet k, r) -> k < length (w_nets w) ->
  r = answer (selected initial (rev (take i (w_run w h).2) ++ before) t).
Proof.
  assert (forall own initial evs evs', removals_fine own initial (evs ++ evs') -> removals_fine own initial evs') as Htail.
  { intros o ini evs evs'. induction evs as [|[[? []] []] evs IH]; cbn; try done; tauto. }
  intros h. induction h as [|[t o] h IH]; intros w before I U F; [done|].
  apply Forall_cons in U as [U1 U2]. cbn [w_run fst snd] in *.
  destruct (step_inv own initial before w t o I U1) as (I' & L & G).
  { cbn [rev] in F. rewrite <- app_assoc in F. apply Htail in F. cbn [app removals_fine] in F.
    destruct (w_step w t o).2; [|done..]. destruct o; try done. by destruct F. }
  intros [|i] t' k r E Hk.
  - cbn in E. injection E as -> -> <-. cbn. apply (G k eq_refl). cbn [uses_own snd fst] in U1. by subst k.
  - cbn [lookup list_lookup] in E. rewrite <- L in Hk.
    cbn [rev] in F. rewrite <- app_assoc in F. specialize (IH _ (((t, o), (w_step w t o).2) :: before) I' U2 F i t' k r E Hk).
    rewrite IH. cbn [take rev]. by rewrite <- app_assoc.
Qed.

(** Thread 0 creates [n] networks and allows multi-threaded access to each. *)
Definition setup (n : nat) : list (nat * wop) := flat_map (fun k => [(0, WNew); (0, WAllow k true)]) (seq 0 n).
Lemma run_app h1 h2 : forall w, (w_run w (h1 ++ h2)).1 = (w_run (w_run w h1).1 h2).1.
Proof. induction h1 as [|[t o] h1 IH]; intros w; [done|]. cbn. apply IH. Qed.
Lemma setup_world n : (w_run w_init (setup n)).1 = mkWorld (replicate n (mkTNet vm_init true)) (if decide (n = 0) then ∅ else {[0 := 0]}).
Proof.
  induction n as [|n IH]; [done|]. unfold setup in *. rewrite seq_S, flat_map_app, run_app, IH. cbn [Nat.add flat_map app w_run w_step fst w_nets w_tls].
  assert ((replicate n (mkTNet (vm_init (A:=unit)) true) ++ [mkTNet vm_init false]) !! n = Some (mkTNet vm_init false)) as E.
  { rewrite lookup_app_r by (by rewrite replicate_length). by rewrite replicate_length, Nat.sub_diag. }
  unfold w_allow. cbn [w_nets w_tls]. rewrite E. cbn [tn_multi tn_vm vm_work vm_init fst]. f_equal.
  - rewrite insert_app_r_alt by (by rewrite replicate_length). rewrite replicate_length, Nat.sub_diag. cbn. by rewrite <- replicate_cons_app || (cbn; by rewrite <- replicate_S_end).
  - destruct (decide (n = 0)); cbn; [done|]. by rewrite insert_singleton.
Qed.
Definition initially (n : nat) : gmap nat string := if decide (n = 0) then ∅ else {[0 := initial_id]}.
Lemma setup_inv own n : winv own (w_run w_init (setup n)).1 (selected (initially n) []).
Proof.
  rewrite setup_world. split; cbn [w_nets w_tls selected].
  - intros k m [-> _]%lookup_replicate_1. split_and!; [done|apply bk_init|done].
  - intros t m [-> Hk]%lookup_replicate_1. unfold initially. destruct (decide (n = 0)); [lia|]. unfold sel_ok.
    destruct (decide (t = 0)) as [->|]; [|by rewrite !lookup_singleton_ne by done]. rewrite !lookup_singleton. by exists 0.
Qed.
