From stdpp Require Import gmap.
From Verif Require Import Base Variants VariantsSpec VariantsProofs.

Section refine.
  Context {A : Type}.
  Implicit Types (s : vm A) (p : vspec A).

  Record R s p : Prop := {
    r_dom : forall id, is_Some (vm_ids s !! id) <-> is_Some (sp_vals p !! id);
    r_len : forall id l, sp_vals p !! id = Some l -> length l = length (vm_objs s);
    r_val : forall id l k, sp_vals p !! id = Some l -> value s k id = Some <$> l !! k;
    r_work : match vm_work s, sp_work p with
             | None, None => True
             | Some i, Some id => vm_ids s !! id = Some i
             | _, _ => False
             end
  }.

  Lemma R_init : R vm_init sp_init.
  Proof.
    split.
    - intros id. unfold vm_init, sp_init, initial_id. cbn [vm_ids sp_vals].
      destruct (decide (id = "InitialVariant")) as [->|Hne].
      + rewrite !lookup_singleton. split; eauto.
      + rewrite !lookup_singleton_ne by done. split; by intros [? ?].
    - intros id l Hl. cbn [sp_vals sp_init] in Hl. by apply lookup_singleton_Some in Hl as [_ <-].
    - intros id l k Hl. cbn [sp_vals sp_init] in Hl. apply lookup_singleton_Some in Hl as [_ <-]. unfold value. simpl. by destruct ({[initial_id := 0]} !! id).
    - simpl. apply (lookup_singleton (M := gmap string)).
  Qed.

  Lemma is_throw_ex {X} (r : result X) : is_throw r = true -> exists m, r = Throw m.
  Proof. destruct r; try done. eauto. Qed.

  Lemma foldr_insert_lookup (ts : list string) (v : list A) (m : gmap string (list A)) id :
    foldr (fun t m => <[t := v]> m) m ts !! id = if decide (id ∈ ts) then Some v else m !! id.
  Proof.
    induction ts as [|t ts IH]; cbn [foldr].
    - rewrite decide_False; [done|]. by intros ?%elem_of_nil.
    - destruct (decide (id = t)) as [->|Hne].
      + rewrite lookup_insert, decide_True; [done|]. by left.
      + rewrite lookup_insert_ne, IH by done. apply decide_ext. rewrite elem_of_cons. tauto.
  Qed.

  Lemma sim s p o : vinv s -> R s p -> sp_safe p o ->
    R (vm_step s o).1 (sp_step p o).1 /\ outcome (sp_step p o).2 (vm_step s o).2 /\ vinv (vm_step s o).1.
  Proof.
    intros I r Hs.
    assert (op_safe s o) as Hos.
    { destruct o as [src ts ow|id|id|k x|k x|kd x]; simpl in *; auto.
      destruct Hs as [Hl|[Hnd Hs]].
      - destruct ts as [|t [|]]; [auto|eauto|simpl in Hl; lia].
      - right. right. split; [done|]. destruct Hs as [?|Hs]; [auto|right]. intros t Ht.
        apply eq_None_not_Some. rewrite (r_dom _ _ r). apply eq_None_not_Some. auto. }
    destruct (step_vinv s o I Hos) as [I' _].
    enough (R (vm_step s o).1 (sp_step p o).1 /\ outcome (sp_step p o).2 (vm_step s o).2) by tauto.
    assert (forall id, vm_ids s !! id = None <-> sp_vals p !! id = None) as Hnone.
    { intros id. rewrite !eq_None_not_Some. by rewrite (r_dom _ _ r). }
    destruct o as [src ts ow|id|id|k x|k x|kd x]; cbn [vm_step sp_step op_safe] in *.
    - destruct (sp_vals p !! src) as [v|] eqn:Hv.
      2:{ destruct ts as [|t ts]; simpl; [eauto|]. rewrite (proj2 (Hnone src) Hv). simpl. eauto. }
      destruct (bool_decide_reflect (ts = [])) as [->|Hne]; [simpl; eauto|].
      assert (is_Some (vm_ids s !! src)) as Hsrc by (apply (r_dom _ _ r); eauto).
      destruct (negb ow && _) eqn:Hb.
      + apply andb_true_iff in Hb as [How Hex]. apply bool_decide_eq_true in Hex. destruct ow; [done|].
        assert (exists t, ts = [t]) as [t ->].
        { destruct Hos as [?|[?|[_ [?|Hno]]]]; [done|done|done|]. exfalso.
          apply Exists_exists in Hex as (t & Ht & Hst). specialize (Hno t Ht). apply (r_dom _ _ r) in Hst as [? ?]. congruence. }
        apply Exists_exists in Hex as (t' & ->%elem_of_list_singleton & [i Hi]%(r_dom _ _ r)).
        assert (is_throw (vm_clone s src [t] false).2 = true) as Hth.
        { unfold vm_clone. destruct Hsrc as [si ->]. simpl. by rewrite Hi. }
        rewrite vm_clone_single_throw by done. split; [done|]. by apply is_throw_ex.
      + assert (NoDup ts /\ (ow = true \/ forall t, t ∈ ts -> vm_ids s !! t = None)) as [Hnd How].
        { apply andb_false_iff in Hb. split.
          - destruct Hos as [[t ->]|[?|[? _]]]; [apply NoDup_singleton|done|done].
          - destruct Hb as [Hb|Hb]; [destruct ow; [auto|done]|right]. intros t Ht. apply Hnone, eq_None_not_Some.
            apply bool_decide_eq_false in Hb. intros Hst. apply Hb, Exists_exists. eauto. }
        destruct (vm_clone_ok s src ts ow I Hnd Hne How Hsrc) as (E & _ & (S1 & S2 & S3 & S4)).
        split; [|by rewrite E]. split; cbn [fst sp_vals sp_work].
        * intros id. rewrite S1, foldr_insert_lookup, (r_dom _ _ r). case_decide; [split; eauto|tauto].
        * intros id l. rewrite S3, foldr_insert_lookup. case_decide; [intros [= <-]; by apply (r_len _ _ r src)|by apply (r_len _ _ r id)].
        * intros id l k. rewrite S4, foldr_insert_lookup. case_decide; [intros [= <-]; by apply (r_val _ _ r)|].
          by apply (r_val _ _ r).
        * rewrite S2. pose proof (r_work _ _ r) as Hw. destruct (vm_work s) as [i|], (sp_work p) as [w|]; try done.
          assert (is_Some (vm_ids (vm_clone s src ts ow).1 !! w)) as [j Hj] by (apply S1; eauto).
          destruct (clone_loop_bk ts ow (mkC (vm_ids s) (vm_unused s) (vm_size s) 0 [] [] false) (proj1 (v_book _ I))) as [_ Hsub].
          unfold vm_clone in *. destruct ts as [|t ts]; [done|]. destruct Hsrc as [si Hsi]. rewrite Hsi in *.
          destruct (c_throw _); [by eapply lookup_weaken|]. destruct (let! os := _ in _); by eapply lookup_weaken.
    - destruct (bool_decide_reflect (id = "InitialVariant" \/ sp_vals p !! id = None)) as [Hd|Hd].
      + unfold vm_remove. case_bool_decide as Hi; [simpl; eauto|]. destruct Hd as [?|Hd]; [done|].
        rewrite (proj2 (Hnone id) Hd). simpl. eauto.
      + assert (id <> initial_id) as Hid by (intros ->; tauto).
        assert (is_Some (vm_ids s !! id)) as [i Hi]. { apply not_eq_None_Some. rewrite Hnone. tauto. }
        destruct (vm_remove_ok s id I Hid) as (E & _ & (S1 & S2 & S3 & S4)); [by eexists|].
        split; [|by rewrite E]. split; cbn [fst sp_vals sp_work].
        * intros id'. rewrite S1. destruct (decide (id' = id)) as [->|]; [rewrite !lookup_delete; split; by intros [? ?]|].
          rewrite !lookup_delete_ne by done. apply r.
        * intros id' l [_ Hl]%lookup_delete_Some. rewrite S2. by eapply r.
        * intros id' l k [Hne Hl]%lookup_delete_Some. rewrite S4 by done. by eapply r.
        * rewrite (S3 i Hi). pose proof (r_work _ _ r) as Hw.
          destruct (vm_work s) as [j|] eqn:Hwk, (sp_work p) as [w|]; try done.
          -- destruct (decide (Some j = Some i)) as [[= ->]|Hji].
             ++ rewrite bool_decide_true; [done|]. f_equal. by eapply (b_inj _ _ _ (proj1 (v_book _ I))).
             ++ rewrite bool_decide_false; [|congruence]. rewrite S1, lookup_delete_ne; [done|]. congruence.
    - destruct (bool_decide_reflect (sp_vals p !! id = None)) as [Hd|Hd].
      + unfold vm_set_working. rewrite (proj2 (Hnone id) Hd). simpl. eauto.
      + unfold vm_set_working. destruct (vm_ids s !! id) as [i|] eqn:Hi; [|by apply Hnone in Hi].
        split; [|done]. split; simpl; [apply r|apply r|apply r|done].
    - pose proof (r_work _ _ r) as Hw. destruct (sp_work p) as [w|] eqn:Hspw.
      2:{ unfold vm_write, vm_index. destruct (vm_work s); [done|]. destruct (vm_objs s !! k); simpl; eauto. }
      destruct (vm_work s) as [i|] eqn:Hvw; [|done].
      destruct (sp_vals p !! w) as [l|] eqn:Hl; [|by apply Hnone in Hl; congruence].
      pose proof (r_len _ _ r w l Hl) as Hlen.
      destruct (vm_write_ok s k x I) as [(E & _ & (S1 & S2 & S3 & S4) & _ & Hk)|(E & Eq & Hk)].
      + destruct (Nat.ltb_spec k (length l)) as [Hlt|Hge].
        2:{ apply lookup_lt_is_Some in Hk. lia. }
        split; [|by rewrite E]. split; cbn [fst sp_vals sp_work].
        * intros id. rewrite S1. destruct (decide (id = w)) as [->|]; [rewrite lookup_insert|rewrite lookup_insert_ne by done; apply r].
          split; eauto.
        * intros id l'. rewrite S3. intros [[<- <-]|[_ Hl']]%lookup_insert_Some; [|by eapply r]. by rewrite insert_length.
        * intros id l' k'. rewrite S4, Hvw. intros [[<- <-]|[Hne Hl']]%lookup_insert_Some.
          -- rewrite Hw. destruct (decide (k' = k)) as [->|Hkk].
             ++ rewrite decide_True by eauto. by rewrite list_lookup_insert.
             ++ rewrite decide_False by tauto. rewrite list_lookup_insert_ne by done. by apply r.
          -- rewrite decide_False; [by apply r|]. intros (_ & _ & Hid). apply Hne.
             by eapply (b_inj _ _ _ (proj1 (v_book _ I))).
        * rewrite S1, S2, Hvw. done.
      + destruct Hk as [?|Hk]; [congruence|]. apply lookup_ge_None in Hk.
        rewrite (proj2 (Nat.ltb_ge k (length l))) by lia. rewrite Eq. split; [done|]. by apply is_throw_ex.
    - pose proof (r_work _ _ r) as Hw. destruct (sp_work p) as [w|] eqn:Hspw.
      2:{ unfold vm_foreach_write, vm_index. destruct (vm_work s); [done|]. simpl. eauto. }
      destruct (vm_work s) as [i|] eqn:Hvw; [|done].
      destruct (sp_vals p !! w) as [l|] eqn:Hl; [|by apply Hnone in Hl; congruence].
      pose proof (r_len _ _ r w l Hl) as Hlen.
      destruct (Nat.ltb_spec k (length l)) as [Hlt|Hge].
      + assert (is_Some (vm_objs s !! k)) as Hk by (apply lookup_lt_is_Some; lia).
        destruct (vm_foreach_ok s k x I) as (E & _ & S1 & S2 & S4); [by eexists|done|].
        split; [|by rewrite E]. split; cbn [fst sp_vals sp_work].
        * intros id. rewrite S1, lookup_fmap, fmap_is_Some. apply r.
        * intros id l'. rewrite lookup_fmap. intros (l0 & Hl0 & ->)%fmap_Some. rewrite insert_length.
          rewrite (r_len _ _ r id l0 Hl0). unfold vm_foreach_write, vm_index. rewrite Hvw. cbn [fst vm_objs].
          match goal with |- _ = length (vm_objs (foldl ?f _ _).1) => assert (forall ll s0 (rr : result unit), length (vm_objs (foldl f (s0, rr) ll).1) = length (vm_objs s0)) as Hf end.
          { clear. induction ll as [|y ll IH]; intros s0 rr; [done|]. cbn [foldl fst snd].
            destruct rr; try apply IH. unfold vm_write. cbn [vm_objs].
            destruct (vm_objs s0 !! k) as [o|]; [|by rewrite IH]. unfold vm_index. cbn [vm_work result_bind].
            destruct (vobj_write o y.2 (Some x)); rewrite IH; [|done|done|done]. cbn [vm_objs]. by rewrite insert_length. }
          by rewrite Hf.
        * intros id l' k'. rewrite lookup_fmap. intros (l0 & Hl0 & ->)%fmap_Some.
          rewrite S4 by (apply (r_dom _ _ r); eauto). destruct (decide (k' = k)) as [->|Hne].
          -- rewrite list_lookup_insert; [done|]. rewrite (r_len _ _ r _ _ Hl0). lia.
          -- rewrite list_lookup_insert_ne by done. by apply r.
        * rewrite S1, S2, Hvw. done.
      + destruct (step_vinv s (VForEachWrite k x) I Logic.I) as [_ [Eok|[Eth Eq]]]; cbn [vm_step] in *.
        * exfalso. unfold vm_foreach_write, vm_index in Eok. rewrite Hvw in Eok. cbn [snd] in Eok.
          assert (map_to_list (vm_ids s) <> []) as Hne.
          { intros He. apply map_to_list_empty_iff in He. rewrite He in Hw. done. }
          destruct (map_to_list (vm_ids s)) as [|y ll]; [done|]. cbn [foldl fst snd] in Eok.
          unfold vm_write at 2 in Eok. cbn [vm_objs] in Eok. rewrite (lookup_ge_None_2 (vm_objs s) k) in Eok by lia.
          clear -Eok. induction ll as [|z ll IH]; [done|]. apply IH. exact Eok.
        * rewrite Eq. split; [done|]. by apply is_throw_ex.
    - destruct (vm_new_ok s kd x I Hs) as (_ & S1 & S2 & S4).
      split; [|done]. split; cbn [fst sp_vals sp_work].
      + intros id. rewrite S1, lookup_fmap, fmap_is_Some. apply r.
      + intros id l. rewrite lookup_fmap. intros (l0 & Hl0 & ->)%fmap_Some. simpl. rewrite !app_length.
        by rewrite (r_len _ _ r id l0 Hl0).
      + intros id l k. rewrite lookup_fmap. intros (l0 & Hl0 & ->)%fmap_Some.
        rewrite S4 by (apply (r_dom _ _ r); eauto). pose proof (r_len _ _ r _ _ Hl0) as Hlen. case_decide as Hk.
        * subst k. rewrite <- Hlen, lookup_app_r, Nat.sub_diag by lia. done.
        * rewrite (r_val _ _ r _ _ _ Hl0). destruct (decide (k < length l0)).
          -- by rewrite lookup_app_l.
          -- rewrite (lookup_ge_None_2 l0) by lia. rewrite lookup_ge_None_2; [done|]. rewrite app_length. simpl. lia.
      + rewrite S1, S2. apply r.
  Qed.

  Lemma sim_run (ops : list (vop A)) : forall s p, vinv s -> R s p -> sp_all_safe ops p ->
    R (vm_exec ops s).1 (sp_run ops p).1 /\ vinv (vm_exec ops s).1 /\ Forall2 outcome (sp_run ops p).2 (vm_exec ops s).2.
  Proof.
    induction ops as [|o ops IH]; intros s p I r Hs; [simpl; auto|].
    destruct Hs as [Hs1 Hs2]. destruct (sim s p o I r Hs1) as (r' & Ho & I').
    destruct (IH _ _ I' r' Hs2) as (r'' & I'' & HF). cbn [vm_exec sp_run fst snd]. auto.
  Qed.

  Lemma R_read s p k : vinv s -> R s p ->
    match sp_read p k with
    | Some x => vm_read s k = Ok (Some x)
    | None => exists m, vm_read s k = Throw m
    end.
  Proof.
    intros I r. unfold sp_read. pose proof (r_work _ _ r) as Hw. destruct (sp_work p) as [w|]; simpl.
    2:{ unfold vm_read, vm_index. destruct (vm_work s); [done|]. destruct (vm_objs s !! k); simpl; eauto. }
    destruct (vm_work s) as [i|] eqn:Hvw; [|done].
    destruct (sp_vals p !! w) as [l|] eqn:Hl; simpl.
    2:{ exfalso. assert (is_Some (sp_vals p !! w)) as [? ?] by (apply r; eauto). congruence. }
    pose proof (r_len _ _ r _ _ Hl) as Hlen. destruct (l !! k) as [x|] eqn:Hx.
    - assert (is_Some (vm_objs s !! k)) as Hk. { apply lookup_lt_is_Some. rewrite <- Hlen. by eapply lookup_lt_Some. }
      destruct (vm_read_ok s k w i I Hvw Hw Hk) as (y & E & V). rewrite (r_val _ _ r w l k Hl), Hx in V. simpl in V. congruence.
    - apply lookup_ge_None in Hx. unfold vm_read. rewrite lookup_ge_None_2 by lia. eauto.
  Qed.

  Lemma refine_all (ops : list (vop A)) : sp_all_safe ops sp_init ->
    Forall2 outcome (sp_run ops sp_init).2 (vm_exec ops vm_init).2 /\
    (forall id, is_Some (vm_ids (vm_exec ops vm_init).1 !! id) <-> is_Some (sp_vals (sp_run ops sp_init).1 !! id)) /\
    (forall k, match sp_read (sp_run ops sp_init).1 k with
       | Some x => vm_read (vm_exec ops vm_init).1 k = Ok (Some x)
       | None => exists m, vm_read (vm_exec ops vm_init).1 k = Throw m
       end) /\
    (match sp_work (sp_run ops sp_init).1 with
     | Some id => vm_working_id (vm_exec ops vm_init).1 = Ok id
     | None => exists m, vm_working_id (vm_exec ops vm_init).1 = Throw m
     end).
  Proof.
    intros Hs. destruct (sim_run ops vm_init sp_init vinv_init R_init Hs) as (r & I & HF).
    split; [done|]. split; [apply r|]. split; [intros k; by apply R_read|].
    pose proof (r_work _ _ r) as Hw. destruct (sp_work _) as [w|].
    - destruct (vm_work _) as [i|] eqn:Hvw; [|done]. by apply (vm_working_id_ok _ w i).
    - destruct (vm_work _) as [i|] eqn:Hvw; [done|]. unfold vm_working_id, vm_index. rewrite Hvw. simpl. eauto.
  Qed.

  (** Moving the storage of a VariantArray. *)
  Lemma ptr_move_cons (x : option A) a : ptr_move (x :: a) = let! l := ptr_move a in match x with None => UB | Some _ => Ok (x :: l) end.
  Proof. done. Qed.
  Lemma ptr_move_ok (a : list (option A)) : (forall i, a !! i <> Some None) -> ptr_move a = Ok a.
  Proof.
    induction a as [|x a IH]; intros H; [done|]. rewrite ptr_move_cons. rewrite IH; [|intros i; exact (H (S i))].
    simpl. destruct x; [done|]. by specialize (H 0).
  Qed.
  Lemma ptr_move_total (a : list (option A)) : ptr_move a = Ok a \/ ptr_move a = UB.
  Proof.
    induction a as [|x a IH]; [by left|]. rewrite ptr_move_cons. destruct IH as [->| ->]; simpl; [|auto].
    destruct x; auto.
  Qed.
  Lemma ptr_move_ub (a : list (option A)) i : a !! i = Some None -> ptr_move a = UB.
  Proof.
    revert i. induction a as [|x a IH]; intros i; [done|]. rewrite ptr_move_cons. destruct i as [|i]; simpl.
    - intros [= ->]. by destruct (ptr_move_total a) as [->| ->].
    - intros H. by rewrite (IH i H).
  Qed.

  (** A VariantArray never holds a live value in an unused slot. *)
  Lemma move_exact s k o : vinv s -> vm_objs s !! k = Some o -> vm_unused s = [] -> ptr_move (vo_arr o) = Ok (vo_arr o).
  Proof.
    intros I Hk Hu. apply ptr_move_ok. intros i Hi. destruct (v_al _ I k o Hk) as (_ & HL & HN).
    destruct (live_or_unused _ _ _ i (proj1 (v_book _ I))) as [a Ha].
    - rewrite <- HL. by eapply lookup_lt_Some.
    - rewrite Hu. apply not_elem_of_nil.
    - by apply (HN a i).
  Qed.
End refine.
