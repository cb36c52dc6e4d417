(** Properties C07-C11, C47, C48: the variants of a network. *)
From stdpp Require Import gmap.
From Verif Require Import Base Variants VariantsSpec VariantsProofs VariantsRefine.

(** ** C07: bookkeeping *)
(** For every history of operations (successful or throwing; histories end at undefined behaviour or at the
    std::length_error of vector::resize): the initial variant exists, distinct variants use distinct slots below the
    array size, the unused slots are exactly the slots below the array size no variant uses, the array is never larger
    than needed, and the working index, when set, is the slot of a variant. *)
Theorem C07_bookkeeping_consistent {A} (s : vm A) : vhist s ->
  vm_ids s !! "InitialVariant" = Some 0 /\
  (forall a b i, vm_ids s !! a = Some i -> vm_ids s !! b = Some i -> a = b) /\
  (forall a i, vm_ids s !! a = Some i -> i < vm_size s) /\
  (forall i, i ∈ vm_unused s <-> i < vm_size s /\ forall a, vm_ids s !! a <> Some i) /\
  (exists a, vm_ids s !! a = Some (vm_size s - 1)) /\
  (forall i, vm_work s = Some i -> exists a, vm_ids s !! a = Some i).
Proof.
  intros H. destruct (vhist_book s H) as [[B1 B2 B3 B4 B5 B6] W]. exact (conj B1 (conj B2 (conj B3 (conj B5 (conj B6 W))))).
Qed.
Print Assumptions C07_bookkeeping_consistent.

(** A history with a failing clone and a removal in the middle. *)
Example C07_bookkeeping_case :
  exists s : vm nat, vhist s /\ vm_unused s = [1] /\ vm_size s = 4 /\ vm_ids s !! "c" = Some 2 /\ vm_ids s !! "d" = Some 3.
Proof.
  exists (vm_run [VClone "InitialVariant" ["a"] false; VClone "a" ["c"; "d"; "a"; "e"] false; VRemove "a"] vm_init).
  split; [|by vm_compute]. unfold vm_run. cbn [foldl].
  repeat (apply vh_step; [|by vm_compute|by vm_compute]). apply vh_init.
Qed.

(** Every live variant has a slot in every array, for the histories of [vreach] (see [op_safe]):
    missing, histories where a cloneVariant call fails after having registered some targets, where it is false. *)
Theorem C07_slots_exist_partial {A} (s : vm A) : vreach s ->
  forall k o id i, vm_objs s !! k = Some o -> vm_ids s !! id = Some i ->
  length (vo_arr o) = vm_size s /\ exists x, vo_arr o !! i = Some (Some x).
Proof.
  intros Hr k o id i Hk Hi. pose proof (vreach_vinv s Hr) as I. destruct (v_al _ I k o Hk) as (_ & HL & HN).
  split; [exact HL|]. destruct (lookup_lt_is_Some_2 (vo_arr o) i) as [[x|] Hx].
  - rewrite HL. exact (b_lt _ _ _ (proj1 (v_book _ I)) _ _ Hi).
  - exists x. exact Hx.
  - destruct (HN id i Hi Hx).
Qed.
Print Assumptions C07_slots_exist_partial.

(** After a failing clone a live variant has no slot. *)
Theorem C07_slots_exist_refuted : exists ops : list (vop nat),
  let s := vm_run ops vm_init in
  vhist s /\ exists k o id i, vm_objs s !! k = Some o /\ vm_ids s !! id = Some i /\ vo_arr o !! i = None.
Proof.
  exists [VNew VPlain 7; VClone "InitialVariant" ["a"; "InitialVariant"] false].
  split.
  - unfold vm_run. cbn [foldl]. repeat (apply vh_step; [|by vm_compute|by vm_compute]). apply vh_init.
  - exists 0, (mkVobj VPlain [Some 7]), "a", 1. by vm_compute.
Qed.
Print Assumptions C07_slots_exist_refuted.

(** ** C08: the variants behave as separate copies *)
(** For every history (see [sp_safe]) the outcomes of all calls, the set of variants, the values read and the working
    variant are those of the specification, where a variant id simply maps to its own list of values. *)
Theorem C08_variants_refine_spec {A} (ops : list (vop A)) : sp_all_safe ops sp_init ->
  Forall2 outcome (sp_run ops sp_init).2 (vm_exec ops vm_init).2 /\
  (forall id, is_Some (vm_ids (vm_exec ops vm_init).1 !! id) <-> is_Some (sp_vals (sp_run ops sp_init).1 !! id)) /\
  (forall k, match sp_read (sp_run ops sp_init).1 k with
     | Some x => vm_read (vm_exec ops vm_init).1 k = Ok (Some x)
     | None => exists m, vm_read (vm_exec ops vm_init).1 k = Throw m
     end) /\
  (match sp_work (sp_run ops sp_init).1 with
   | Some id => vm_working_id (vm_exec ops vm_init).1 = Ok id
   | None => exists m, vm_working_id (vm_exec ops vm_init).1 = Throw m
   end).
Proof. exact (refine_all ops). Qed.
Print Assumptions C08_variants_refine_spec.

Example C08_refine_case :
  let ops := [VNew VPlain 7; VNew VPtr 8; VClone "InitialVariant" ["a"; "b"; "c"] false; VRemove "b"; VSetWorking "c"; VWrite 0 9;
              VClone "c" ["d"] false; VRemove "c"; VSetWorking "d"; VClone "InitialVariant" ["a"; "e"] true] in
  sp_all_safe ops sp_init /\ sp_read (sp_run ops sp_init).1 0 = Some 9 /\ vm_read (vm_exec ops vm_init).1 0 = Ok (Some 9).
Proof.
  cbv zeta. split; [|by vm_compute]. repeat split; try done; try (left; simpl; lia).
  - right. split; [apply (bool_decide_unpack _); by vm_compute|]. right. intros t Ht.
    apply elem_of_list_In in Ht. repeat destruct Ht as [<-|Ht]; by vm_compute.
  - right. split; [apply (bool_decide_unpack _); by vm_compute|]. by left.
Qed.

(** The direct form: cloning copies the source's values to the targets and leaves the other variants alone. *)
Theorem C08_clone_copies {A} (s : vm A) src ts ow : vreach s -> NoDup ts -> ts <> [] ->
  (ow = true \/ forall t, t ∈ ts -> vm_ids s !! t = None) -> is_Some (vm_ids s !! src) ->
  (vm_clone s src ts ow).2 = Ok tt /\
  forall k id, value (vm_clone s src ts ow).1 k id = if decide (id ∈ ts) then value s k src else value s k id.
Proof.
  intros Hr H1 H2 H3 H4. destruct (vm_clone_ok s src ts ow (vreach_vinv s Hr) H1 H2 H3 H4) as (E & _ & (_ & _ & _ & V)).
  exact (conj E V).
Qed.
Print Assumptions C08_clone_copies.

(** A write is only visible under the working variant. *)
Theorem C08_write_local {A} (s : vm A) k x w i : vreach s -> vm_work s = Some i -> vm_ids s !! w = Some i ->
  is_Some (vm_objs s !! k) ->
  (vm_write s k x).2 = Ok tt /\
  forall k' id, value (vm_write s k x).1 k' id = if decide (k' = k /\ id = w) then Some (Some x) else value s k' id.
Proof.
  intros Hr Hw Hi Hk. pose proof (vreach_vinv s Hr) as I.
  destruct (vm_write_ok s k x I) as [(E & _ & (_ & _ & _ & V) & _)|(_ & _ & [?|?])]; [|congruence|destruct Hk; congruence].
  split; [exact E|]. intros k' id. rewrite V. apply decide_ext. rewrite Hw. split.
  - intros (? & _ & Hid). split; [done|]. exact (b_inj _ _ _ (proj1 (v_book _ I)) _ _ _ Hid Hi).
  - intros (? & ->). eauto.
Qed.
Print Assumptions C08_write_local.

Example C08_local_case : exists s : vm nat, vreach s /\ vm_work s = Some 1 /\ vm_ids s !! "a" = Some 1 /\
  is_Some (vm_objs s !! 0) /\ is_Some (vm_ids s !! "b") /\ NoDup ["b"; "z"].
Proof.
  exists (vm_run [VNew VPtr 7; VClone "InitialVariant" ["a"; "b"] false; VSetWorking "a"] vm_init).
  split; [|split; [by vm_compute|]; split; [by vm_compute|]; split; [by eexists|]; split; [by eexists|]; apply (bool_decide_unpack _); by vm_compute].
  unfold vm_run. cbn [foldl]. apply vr_step; [|done]. apply vr_step; [|].
  - apply vr_step; [apply vr_init|done].
  - right. right. split; [apply (bool_decide_unpack _); by vm_compute|]. right. intros t Ht.
    apply elem_of_list_In in Ht. repeat destruct Ht as [<-|Ht]; by vm_compute.
Qed.

(** ** C09: removal *)
Theorem C09_remove_exact {A} (s : vm A) id : vreach s -> id <> "InitialVariant" -> is_Some (vm_ids s !! id) ->
  (vm_remove s id).2 = Ok tt /\ vm_ids (vm_remove s id).1 = delete id (vm_ids s) /\
  (forall i, vm_ids s !! id = Some i -> vm_work (vm_remove s id).1 = if decide (vm_work s = Some i) then None else vm_work s) /\
  (forall k id', id' <> id -> value (vm_remove s id).1 k id' = value s k id').
Proof.
  intros Hr H1 H2. destruct (vm_remove_ok s id (vreach_vinv s Hr) H1 H2) as (E & _ & (S1 & _ & S3 & S4)).
  exact (conj E (conj S1 (conj S3 S4))).
Qed.
Print Assumptions C09_remove_exact.

(** The initial variant, or an unknown one, cannot be removed: in any state the call throws and changes nothing. *)
Theorem C09_remove_refused {A} (s : vm A) id : id = "InitialVariant" \/ vm_ids s !! id = None ->
  (exists m, (vm_remove s id).2 = Throw m) /\ (vm_remove s id).1 = s.
Proof.
  intros H. unfold vm_remove. case_bool_decide as Hid; [simpl; eauto|]. destruct H as [?|H]; [done|]. rewrite H. simpl. eauto.
Qed.
Print Assumptions C09_remove_refused.

Example C09_remove_case : exists s : vm nat, vreach s /\ vm_ids s !! "b" = Some 2 /\ vm_size s = 3 /\ vm_unused s = [1] /\
  vm_size (vm_remove s "b").1 = 1.
Proof.
  exists (vm_run [VNew VPtr 7; VClone "InitialVariant" ["a"] false; VClone "a" ["b"] false; VRemove "a"] vm_init).
  split; [|by vm_compute]. unfold vm_run. cbn [foldl].
  repeat (apply vr_step; [|first [done | left; by eexists]]). apply vr_init.
Qed.

(** ** C10: failing cloneVariant *)
(** False: the targets before the offending one stay registered ... *)
Theorem C10_failed_clone_unchanged_refuted : exists (ops : list (vop nat)) src ts,
  let s := vm_run ops vm_init in
  vreach s /\ (exists m, (vm_clone s src ts false).2 = Throw m) /\ vm_ids (vm_clone s src ts false).1 <> vm_ids s.
Proof.
  exists [VNew VPlain 7], "InitialVariant", ["a"; "InitialVariant"]. split.
  - unfold vm_run. cbn [foldl]. apply vr_step; [apply vr_init|done].
  - split; [by eexists|]. intros H. apply (f_equal (lookup "a")) in H. by vm_compute in H.
Qed.
Print Assumptions C10_failed_clone_unchanged_refuted.

(** ... a write under such a half-created variant is out of bounds ... *)
Theorem C10_failed_clone_safe_refuted : exists ops : list (vop nat),
  (exists m, (vm_step (vm_run (take 2 ops) vm_init) (VClone "InitialVariant" ["a"; "InitialVariant"] false)).2 = Throw m) /\
  ops !! 2 = Some (VSetWorking "a") /\
  (vm_write (vm_run ops vm_init) 0 1).2 = UB.
Proof.
  exists [VNew VPlain 7; VClone "InitialVariant" ["a"; "InitialVariant"] false; VSetWorking "a"].
  split; [by eexists|]. by vm_compute.
Qed.
Print Assumptions C10_failed_clone_safe_refuted.

(** ... removing it destroys the values of the initial variant ... *)
Theorem C10_failed_clone_then_remove_refuted :
  let s := vm_run [VNew VPlain 7; VClone "InitialVariant" ["a"; "InitialVariant"] false] vm_init in
  vm_read s 0 = Ok (Some 7) /\ (vm_remove s "a").2 = Ok tt /\ vm_read (vm_remove s "a").1 0 = UB.
Proof. by vm_compute. Qed.
Print Assumptions C10_failed_clone_then_remove_refuted.

(** ... and a target given twice with overwriting allowed writes out of bounds. *)
Theorem C10_duplicate_targets_refuted : exists s : vm nat, vreach s /\ (vm_clone s "InitialVariant" ["a"; "a"] true).2 = UB.
Proof.
  exists (vm_run [VNew VPlain 7] vm_init). split; [|by vm_compute].
  unfold vm_run. cbn [foldl]. apply vr_step; [apply vr_init|done].
Qed.
Print Assumptions C10_duplicate_targets_refuted.

(** What holds: with one target a failing call changes nothing; *)
Theorem C10_failed_clone_single_partial {A} (s : vm A) src t ow m : vreach s -> (vm_clone s src [t] ow).2 = Throw m ->
  (vm_clone s src [t] ow).1 = s.
Proof.
  intros Hr H. apply vm_clone_single_throw; [by rewrite H|]. exact (vreach_vinv s Hr).
Qed.
Print Assumptions C10_failed_clone_single_partial.

(** with several, the values of the variants that existed and the bookkeeping are kept. *)
Theorem C10_failed_clone_values_partial {A} (s : vm A) src ts ow m : vreach s -> (vm_clone s src ts ow).2 = Throw m ->
  book (vm_clone s src ts ow).1 /\
  forall k id, is_Some (vm_ids s !! id) -> value (vm_clone s src ts ow).1 k id = value s k id.
Proof.
  intros Hr H. apply vm_clone_throw_values; [exact (vreach_vinv s Hr)|by rewrite H].
Qed.
Print Assumptions C10_failed_clone_values_partial.

Example C10_case : exists (s : vm nat), vreach s /\ (exists m, (vm_clone s "InitialVariant" ["b"; "a"; "c"] false).2 = Throw m)
  /\ (exists m, (vm_clone s "InitialVariant" ["a"] false).2 = Throw m).
Proof.
  exists (vm_run [VNew VPlain 7; VClone "InitialVariant" ["a"] false] vm_init). split; [|split; by eexists].
  unfold vm_run. cbn [foldl]. repeat (apply vr_step; [|first [done | left; by eexists]]). apply vr_init.
Qed.

(** ** C11: the arrays of the extensions *)
(** Aligned, for the plain and VariantArray kinds (LoadDetail, ... all but SlackTerminal), and reads return a value. *)
Theorem C11_arrays_aligned_partial {A} (s : vm A) : vreach s ->
  forall k o, vm_objs s !! k = Some o -> length (vo_arr o) = vm_size s /\
  forall w i, vm_work s = Some i -> vm_ids s !! w = Some i -> exists x, vm_read s k = Ok x /\ value s k w = Some x.
Proof.
  intros Hr k o Hk. pose proof (vreach_vinv s Hr) as I. split; [exact (proj1 (proj2 (v_al _ I k o Hk)))|].
  intros w i Hw Hi. apply (vm_read_ok s k w i I Hw Hi). eauto.
Qed.
Print Assumptions C11_arrays_aligned_partial.

(** SlackTerminal: after removing a variant the array is resized to the number of removed slots. *)
Theorem C11_slack_aligned_refuted :
  let ops := [VNew VSlack 7; VClone "InitialVariant" ["a"] false; VClone "InitialVariant" ["b"] false; VRemove "b"; VSetWorking "a"] in
  let s := vm_run ops (vm_init : vm nat) in
  Forall (fun r => r = Ok tt) (vm_exec ops (vm_init : vm nat)).2 /\ vm_size s = 2 /\
  (exists o, vm_objs s !! 0 = Some o /\ length (vo_arr o) = 1) /\ vm_read s 0 = UB.
Proof.
  cbv zeta. split; [by repeat constructor|]. split; [by vm_compute|]. split; [by eexists|by vm_compute].
Qed.
Print Assumptions C11_slack_aligned_refuted.

(** Exactly when a reduction keeps a SlackTerminal array aligned. *)
Theorem C11_slack_reduce_iff {A} (a : list (option A)) n : n <= length a ->
  exists a', arr_reduce VSlack n a = Ok a' /\ (length a' = length a - n <-> length a = 2 * n).
Proof.
  intros Hn. exists (resize n None a). split; [done|]. rewrite resize_length. lia.
Qed.
Print Assumptions C11_slack_reduce_iff.

Example C11_case : exists (s : vm nat) o, vreach s /\ vm_objs s !! 0 = Some o /\ vm_work s = Some 1 /\ vm_ids s !! "a" = Some 1.
Proof.
  eexists (vm_run [VNew VPtr 7; VClone "InitialVariant" ["a"] false; VClone "InitialVariant" ["b"] false; VRemove "b"; VSetWorking "a"] vm_init), _.
  split; [|by vm_compute]. unfold vm_run. cbn [foldl]. repeat (apply vr_step; [|first [done | left; by eexists]]). apply vr_init.
Qed.

(** ** C47: moving a network *)
(** With no unused slot, the move of a VariantArray gives the same contents. *)
Theorem C47_move_keeps_partial {A} (s : vm A) k o : vreach s -> vm_objs s !! k = Some o -> vm_unused s = [] ->
  ptr_move (vo_arr o) = Ok (vo_arr o).
Proof. intros Hr. exact (move_exact s k o (vreach_vinv s Hr)). Qed.
Print Assumptions C47_move_keeps_partial.

(** With an unused slot, the move dereferences a null pointer. *)
Theorem C47_move_keeps_refuted : exists (s : vm nat) o, vreach s /\ vm_objs s !! 0 = Some o /\ vo_kind o = VPtr /\
  ptr_move (vo_arr o) = UB.
Proof.
  eexists (vm_run [VNew VPtr 7; VClone "InitialVariant" ["a"] false; VClone "InitialVariant" ["b"] false; VRemove "a"] vm_init), _.
  split; [|by vm_compute]. unfold vm_run. cbn [foldl]. repeat (apply vr_step; [|first [done | left; by eexists]]). apply vr_init.
Qed.
Print Assumptions C47_move_keeps_refuted.

Example C47_case : exists (s : vm nat) o, vreach s /\ vm_objs s !! 0 = Some o /\ vm_unused s = [] /\ length (vo_arr o) = 3.
Proof.
  eexists (vm_run [VNew VPtr 7; VClone "InitialVariant" ["a"] false; VClone "InitialVariant" ["b"] false] vm_init), _.
  split; [|by vm_compute]. unfold vm_run. cbn [foldl]. repeat (apply vr_step; [|first [done | left; by eexists]]). apply vr_init.
Qed.

(** ** C48: forEachVariant *)
(** The function is applied under every variant and the working variant is restored. *)
Theorem C48_foreach_variant {A} (s : vm A) k x : vreach s -> is_Some (vm_work s) -> is_Some (vm_objs s !! k) ->
  (vm_foreach_write s k x).2 = Ok tt /\ vm_ids (vm_foreach_write s k x).1 = vm_ids s /\
  vm_work (vm_foreach_write s k x).1 = vm_work s /\
  forall k' id, is_Some (vm_ids s !! id) ->
    value (vm_foreach_write s k x).1 k' id = if decide (k' = k) then Some (Some x) else value s k' id.
Proof.
  intros Hr Hw Hk. destruct (vm_foreach_ok s k x (vreach_vinv s Hr) Hw Hk) as (E & _ & H). exact (conj E H).
Qed.
Print Assumptions C48_foreach_variant.

(** It cannot be called while no working variant is set, e.g. after the working variant has been removed. *)
Theorem C48_foreach_unset_refuted : exists (s : vm nat), vreach s /\ is_Some (vm_objs s !! 0) /\
  exists m, (vm_foreach_write s 0 1).2 = Throw m.
Proof.
  exists (vm_run [VNew VPtr 7; VClone "InitialVariant" ["a"] false; VSetWorking "a"; VRemove "a"] vm_init).
  split; [|split; by eexists]. unfold vm_run. cbn [foldl].
  repeat (apply vr_step; [|first [done | left; by eexists]]). apply vr_init.
Qed.
Print Assumptions C48_foreach_unset_refuted.
