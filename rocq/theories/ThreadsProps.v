(** C46: With multi-threaded variant access, the working variant selected by a thread on one network is not affected by other threads, nor by
    selections made on another network. *)
From stdpp Require Import gmap.
From Verif Require Import ThreadsSpec ThreadsProofs.

(** Any number of networks opened to several threads, any interleaving of selections, clones, removals and reads by any number of threads, each
    working on one network, no variant being removed while another thread has it selected: a thread reads the variant it selected last
    ([selected] only looks at its own operations), or the exception saying that nothing is selected. There is no undefined behaviour.
    Missing (refuted below): a thread that works on several networks; variants removed while selected by another thread. *)
Theorem C46_isolated_partial : forall n own h w evs,
  w_run (w_run w_init (setup n)).1 h = (w, evs) -> Forall (uses_own own) h -> removals_fine own (initially n) (rev evs) ->
  forall i t k r, evs !! i = Some (t, WGet k, r) -> k < n ->
  r = match selected (initially n) (rev (take i evs)) t with Some id => Ok id | None => Throw "Variant index not set" end.
Proof.
  intros n own h w evs E U F i t k r Hi Hk.
  pose proof (run_inv own (initially n) h (w_run w_init (setup n)).1 [] (setup_inv own n) U) as R.
  rewrite E in R. cbn [snd] in R. rewrite !app_nil_r in R. specialize (R F i t k r Hi).
  rewrite app_nil_r in R. apply R. rewrite setup_world. cbn. by rewrite replicate_length.
Qed.
(** The selection of a thread only depends on its own operations. *)
Theorem C46_selection_own : forall initial evs t,
  selected initial evs t = selected initial (filter (fun e => e.1.1 = t) evs) t.
Proof.
  intros initial evs t. induction evs as [|e evs IH]; [done|].
  destruct (decide (e.1.1 = t)) as [E|E].
  - rewrite filter_cons_True by done. destruct e as [[t' o] r]. cbn [fst] in E. subst t'. destruct o; try exact IH; destruct r; try exact IH; cbn.
    + by rewrite IH.
    + rewrite !bool_decide_eq_true_2 by done. done.
  - rewrite filter_cons_False by done. rewrite sel_step by done. exact IH.
Qed.
(** Operations of the other threads leave the thread-local index of a thread alone, whatever the networks and the modes. *)
Theorem C46_tls_own : forall w t o t', t' <> t -> w_tls (w_step w t o).1 !! t' = w_tls w !! t'.
Proof.
  intros w t o t' Ht. assert (forall k f, w_tls (on_net w t k f).1 !! t' = w_tls w !! t') as H.
  { intros k f. unfold on_net. destruct (w_nets w !! k) as [n|]; [|done]. cbv zeta. destruct (tn_multi n); cbn; [|done]. by apply set_tls_ne. }
  destruct o as [|k b|k src ts ow|k id|k id|k]; cbn [w_step]; try apply H; [done|]. unfold w_allow. destruct (w_nets w !! k) as [n|]; [|done].
  destruct b, (tn_multi n); cbn; try done. destruct (vm_work (tn_vm n)); [|done]. by rewrite lookup_insert_ne.
Qed.
(** A selection on one network changes the one the same thread has on another network: it then reads the initial variant though it selected "A". *)
Definition two_networks : list (nat * wop) :=
  setup 2 ++ [(0, WClone 0 initial_id ["A"] false); (0, WSet 0 "A"); (0, WGet 0); (0, WSet 1 initial_id); (0, WGet 0)].
Theorem C46_other_network_refuted : exists h t k, let evs := (w_run w_init h).2 in
  last evs = Some (t, WGet k, Ok initial_id) /\
  last (filter (fun e : nat * wop * result string => match e.1.2 with WSet k' _ => bool_decide (e.1.1 = t /\ k' = k) | _ => false end = true) evs) = Some (t, WSet k "A", Ok "").
Proof. exists two_networks, 0, 0. by vm_compute. Qed.
(** A variant removed by one thread while another one has it selected: the other one then makes an invalid access. *)
Definition removed_elsewhere : list (nat * wop) :=
  setup 1 ++ [(0, WClone 0 initial_id ["A"] false); (1, WSet 0 "A"); (0, WRemove 0 "A"); (1, WGet 0)].
Theorem C46_removed_refuted : exists h t k, let evs := (w_run w_init h).2 in
  last evs = Some (t, WGet k, UB) /\ Forall (fun e => e.2 <> UB) (removelast evs).
Proof. exists removed_elsewhere, 1, 0. vm_compute. split; [done|]. repeat constructor; done. Qed.
(** Then, when the slot is used again, the other thread silently works on a variant it never selected. *)
Definition recycled : list (nat * wop) :=
  setup 1 ++ [(0, WClone 0 initial_id ["A"] false); (1, WSet 0 "A"); (0, WRemove 0 "A"); (0, WClone 0 initial_id ["B"] false); (1, WGet 0)].
Theorem C46_recycled_refuted : exists h t k, let evs := (w_run w_init h).2 in
  last evs = Some (t, WGet k, Ok "B") /\ Forall (fun e : nat * wop * result string => e.1.1 = t -> e.1.2 <> WSet k "B") evs.
Proof. exists recycled, 1, 0. vm_compute. split; [done|]. repeat constructor; done. Qed.
(** "Missing initializations fail fast" (VariantManager.cpp:62): for a thread that never selected a variant, on any network that was opened. *)
Theorem C46_unset : forall n own h w evs,
  w_run (w_run w_init (setup n)).1 h = (w, evs) -> Forall (uses_own own) h -> removals_fine own (initially n) (rev evs) ->
  forall i t k r, evs !! i = Some (t, WGet k, r) -> k < n -> t <> 0 -> (forall id, (t, WSet k id) ∉ take i h) ->
  r = Throw "Variant index not set".
Proof.
  intros n own h w evs E U F i t k r Hi Hk Ht Hno. rewrite (C46_isolated_partial n own h w evs E U F i t k r Hi Hk).
  assert (Forall (fun e : nat * wop * result string => (e.1 : nat * wop) ∈ take i h) (take i evs)) as Hall.
  { clear -E. revert i E. generalize (w_run w_init (setup n)).1. revert w evs. induction h as [|[t o] h IH]; intros w evs w0 i E.
    - cbn in E. injection E as <- <-. destruct i; constructor.
    - cbn [w_run] in E. destruct (w_run (w_step w0 t o).1 h) as [w1 evs1] eqn:E1. cbn in E. injection E as <- <-.
      destruct i as [|i]; [constructor|]. cbn. constructor; [left|]. eapply Forall_impl; [by eapply IH|]. intros e He. cbn in *. by right. }
  assert (k = own t) as Hown.
  { assert ((t, WGet k) ∈ h) as Hin.
    { clear -E Hi. revert i E Hi. generalize (w_run w_init (setup n)).1. revert w evs. induction h as [|[t' o] h IH]; intros w evs w0 i E Hi.
      - cbn in E. injection E as <- <-. done.
      - cbn [w_run] in E. destruct (w_run (w_step w0 t' o).1 h) as [w1 evs1] eqn:E1. cbn in E. injection E as <- <-.
        destruct i as [|i]; [cbn in Hi; injection Hi as -> -> _; left|]. right. by eapply IH. }
    rewrite Forall_forall in U. by specialize (U _ Hin). }
  assert (forall l, Forall (fun e : nat * wop * result string => (e.1 : nat * wop) ∈ take i h) l -> selected (initially n) l t = None) as S.
  { intros l. induction l as [|[[t' o] q] l IH]; intros Hl.
    - cbn. unfold initially. destruct (decide (n = 0)); [done|]. by rewrite lookup_singleton_ne.
    - apply Forall_cons in Hl as [H1 H2]. specialize (IH H2). cbn in H1. cbn [selected]. destruct o; try exact IH; destruct q; try exact IH.
      + rewrite IH. by case_bool_decide.
      + case_bool_decide as Ht'; [|exact IH]. subst t'. exfalso.
        assert (k0 = own t) as ->; [|rewrite <- Hown in H1; by apply (Hno id)].
        rewrite Forall_forall in U. specialize (U (t, WSet k0 id)). apply U. apply elem_of_list_In.
        rewrite <- (take_drop i h). apply in_or_app. left. by apply elem_of_list_In. }
  rewrite S; [done|]. apply Forall_rev. exact Hall.
Qed.
(** ... but not for a network that was closed and opened again: the index of the first opening is still there. *)
Definition reopened : list (nat * wop) :=
  setup 1 ++ [(0, WClone 0 initial_id ["A"] false); (1, WSet 0 "A"); (0, WAllow 0 false); (0, WAllow 0 true); (1, WGet 0)].
Theorem C46_reopened_refuted : exists h t k id, let evs := (w_run w_init h).2 in
  last evs = Some (t, WGet k, Ok id) /\ exists i, evs !! i = Some (0, WAllow k true, Ok "") /\ i < length evs /\
  Forall (fun e : nat * wop * result string => e.1.1 = t -> exists k', e.1.2 = WGet k') (drop i evs).
Proof. exists reopened, 1, 0, "A". vm_compute. split; [done|]. exists 5. split; [done|]. split; [lia|]. repeat constructor; try done. intros _. by eexists. Qed.

(** Non-vacuity: two threads on a network, a third one on another. *)
Definition case46 : list (nat * wop) :=
  [(1, WGet 0); (1, WClone 0 initial_id ["A"; "B"] false); (1, WSet 0 "A"); (2, WSet 0 "B"); (3, WSet 1 initial_id); (2, WRemove 0 "B"); (2, WGet 0); (3, WGet 1);
   (2, WClone 0 "A" ["C"] false); (2, WSet 0 "C"); (1, WGet 0); (2, WGet 0)].
Example C46_case : let own t := if bool_decide (t = 3) then 1 else 0 in let evs := (w_run (w_run w_init (setup 2)).1 case46).2 in
  Forall (uses_own own) case46 /\ removals_fine own (initially 2) (rev evs) /\
  omap (fun e : nat * wop * result string => match e.1.2 with WGet _ => Some (e.1.1, e.2) | _ => None end) evs
  = [(1, Throw "Variant index not set"); (2, Throw "Variant index not set"); (3, Ok initial_id); (1, Ok "A"); (2, Ok "C")].
Proof.
  cbv zeta. split; [repeat constructor|]. split; [|by vm_compute].
  replace (w_run (w_run w_init (setup 2)).1 case46).2 with
    [(1, WGet 0, Throw "Variant index not set"); (1, WClone 0 initial_id ["A"; "B"] false, Ok ""); (1, WSet 0 "A", Ok ""); (2, WSet 0 "B", Ok "");
     (3, WSet 1 initial_id, Ok ""); (2, WRemove 0 "B", Ok ""); (2, WGet 0, Throw "Variant index not set"); (3, WGet 1, Ok initial_id);
     (2, WClone 0 "A" ["C"] false, Ok ""); (2, WSet 0 "C", Ok ""); (1, WGet 0, Ok "A"); (2, WGet 0, Ok "C")] by (by vm_compute).
  cbn [rev app removals_fine]. split; [|done]. intros t' Ht Ho. cbn [selected]. repeat case_bool_decide; subst; try done; try tauto. change (({[0 := initial_id]} : gmap nat string) !! t' <> Some "B"). rewrite lookup_singleton_Some. by intros [_ ?].
Qed.
Print Assumptions C46_isolated_partial.
Print Assumptions C46_unset.
Print Assumptions C46_selection_own.
Print Assumptions C46_tls_own.
Print Assumptions C46_other_network_refuted.
Print Assumptions C46_removed_refuted.
Print Assumptions C46_recycled_refuted.
Print Assumptions C46_reopened_refuted.
