(** Extensions by name and by type (C37), and when the object is moved (C52). *)
From stdpp Require Import gmap.
From Verif Require Import Base Ext ExtSpec ExtProofs.

(** When every extension type has its own name and all extensions are made for the object, both lookups give the last added and not removed
    extension, the enumeration gives exactly those, and nothing dangles. *)
Theorem C37_lookup_partial self nm h s : Inj (=) (=) nm -> xreach self h s -> Forall (named nm) h -> Forall (accepted self) h ->
  (forall t, find_ext t s = Ok (latest h t) /\ ext_by_name (nm t) s = Ok (latest h t)) /\
  (forall n, (forall t, n <> nm t) -> ext_by_name n s = Ok None) /\
  (forall a, a ∈ all_exts s <-> exists t, latest h t = Some a) /\
  (forall o, named nm o -> accepted self o -> (xstep s o).1 = Ok tt).
Proof.
  intros J R F A. pose proof (xreach_inv _ _ _ R) as I. pose proof (xreach_ninv self nm h s J R F A) as N. split_and!.
  - intros t. split.
    + unfold find_ext. rewrite <- (ni_type nm h s N). destruct (xs_type s !! t) as [a|] eqn:E; [|done].
      destruct (ninv_live self nm h s I N t a E) as [x ->]. done.
    + rewrite (by_name_live self _ _ I). f_equal. apply (ni_name nm h s N).
  - intros n H. rewrite (by_name_live self _ _ I). f_equal. destruct (xs_name s !! n) as [a|] eqn:E; [|done]. apply (ni_dom nm h s N) in E as [t ->]. by destruct (H t).
  - intros a. unfold all_exts. rewrite elem_of_list_fmap. split.
    + intros ((n & b) & -> & H). apply elem_of_map_to_list in H. cbn [snd]. destruct (ni_dom nm h s N _ _ H) as [t ->]. exists t. by rewrite <- (ni_name nm h s N).
    + intros [t H]. rewrite <- (ni_name nm h s N) in H. exists (nm t, a). split; [done|]. by apply elem_of_map_to_list.
  - intros [n t ow f|t] Hn Ha; cbn [xstep].
    + by rewrite (accepted_add self n t ow f s (xi_self self s I) Ha).
    + destruct (xs_type s !! t) as [a|] eqn:E; [|unfold remove_ext; by rewrite E]. destruct (ninv_live self nm h s I N t a E) as [x X].
      by rewrite (remove_ext_eq self t s a x I E X).
Qed.
Print Assumptions C37_lookup_partial.

(** No operation follows a dangling reference when the name of an extension determines its type, whatever fails; by name nothing ever
    dangles. *)
Theorem C37_memory_safe_partial self ty h s o t n : xreach self h s -> Forall (typed ty) h -> 
  (xstep s o).1 <> UB /\ find_ext t s <> UB /\ ext_by_name n s <> UB.
Proof.
  intros R F. pose proof (xreach_inv _ _ _ R) as I. pose proof (xreach_tinv self ty h s R F) as T. split_and!.
  - destruct o as [n' t' ow f|t']; cbn [xstep].
    + rewrite add_ext_eq. destruct (negb f); [done|]. by destruct (match ow with Some o => negb (bool_decide (o = xs_self s)) | None => false end).
    + by rewrite (proj2 (tinv_find self ty s t' I T)).
  - by rewrite (proj1 (tinv_find self ty s t I T)).
  - by rewrite (by_name_live self _ _ I).
Qed.
Print Assumptions C37_memory_safe_partial.
Theorem C37_by_name_safe self h s n : xreach self h s -> ext_by_name n s <> UB /\
  (forall a, ext_by_name n s = Ok (Some a) -> exists x, xs_obj s !! a = Some x /\ x_name x = n /\ x_owner x = Some self).
Proof.
  intros R. pose proof (xreach_inv _ _ _ R) as I. rewrite (by_name_live self _ _ I). split; [done|]. intros a [= E].
  apply (xi_name self s I) in E as (x & X & E). exists x. split_and!; [done..|]. by eapply xi_own.
Qed.
Print Assumptions C37_by_name_safe.

(** An addition that fails has already thrown the previous extension away. *)
Theorem C37_failed_add self nm h s n t ow f : Inj (=) (=) nm -> xreach self h s -> Forall (named nm) h -> Forall (accepted self) h ->
  named nm (XAdd n t ow f) -> ~ accepted self (XAdd n t ow f) ->
  (exists m, (add_ext n t ow f s).1 = Throw m) /\ find_ext t (add_ext n t ow f s).2 = Ok None /\ ext_by_name n (add_ext n t ow f s).2 = Ok None /\
  (forall u, u <> t -> find_ext u (add_ext n t ow f s).2 = find_ext u s /\ ext_by_name (nm u) (add_ext n t ow f s).2 = ext_by_name (nm u) s).
Proof.
  intros J R F A Hn Ha. pose proof (xreach_inv _ _ _ R) as I. pose proof (xreach_ninv self nm h s J R F A) as N. pose proof (xi_self self s I) as Es.
  assert (E : exists m, add_ext n t ow f s = (Throw m, clean_ext n t s)).
  { rewrite add_ext_eq. destruct f; cbn [negb]; [|by eexists]. destruct ow as [o|]; [|destruct Ha; cbn; tauto].
    rewrite bool_decide_false; [by eexists|]. intros ->. apply Ha. rewrite Es. cbn. tauto. }
  destruct E as [m ->]. cbn [fst snd named] in *. split; [by eexists|]. destruct (clean_inv self n t s I) as (CI & _ & Nn & Nm).
  assert (CT : forall u, xs_type (clean_ext n t s) !! u = if bool_decide (u = t) then None else xs_type s !! u).
  { intros u. unfold clean_ext. pose proof (ni_name nm h s N t) as Q. pose proof (ni_type nm h s N t) as Q'. rewrite <- Hn in Q. destruct (xs_name s !! n) as [b|] eqn:B; cbn [xs_type].
    - case_bool_decide as D; [subst u; by rewrite lookup_delete|by rewrite lookup_delete_ne].
    - case_bool_decide as D; [subst u; by rewrite Q'|done]. }
  split; [unfold find_ext; rewrite CT; by rewrite bool_decide_true|]. split; [rewrite (by_name_live self _ _ CI); by rewrite Nn|].
  intros u D. assert (nm u <> n) by (rewrite Hn; intros Q; apply D; by apply J). split.
  - unfold find_ext. rewrite CT, bool_decide_false by done. destruct (xs_type s !! u) as [a|] eqn:Eu; [|done].
    destruct (ninv_live self nm h s I N u a Eu) as [x X]. rewrite X.
    assert (xs_obj (clean_ext n t s) !! a = Some x) as ->; [|done]. unfold clean_ext. destruct (xs_name s !! n) as [b|] eqn:B; cbn [xs_obj]; [|done].
    apply lookup_delete_Some. split; [|done]. intros <-. apply (xi_name self s I) in B as (y & Y & Ey). assert (x = y) as -> by congruence.
    apply D. rewrite <- (xi_type self s I u b y Eu X). apply J. rewrite <- (ni_obj nm h s N _ _ X). congruence.
  - rewrite (by_name_live self _ _ CI), (by_name_live self _ _ I). f_equal. by apply Nm.
Qed.
Print Assumptions C37_failed_add.

(** ** A load with two extensions; one is replaced, one is removed. *)
Definition xrun (s : xst) (h : list xop) : xst := foldr (fun o s => (xstep s o).2) s h.
Fixpoint xok (s : xst) (h : list xop) : bool :=
  match h with [] => true | o :: h => match (xstep (xrun s h) o).1 with UB => false | _ => true end && xok s h end.
Lemma xrun_reach self h : xok (xnew self) h = true -> xreach self h (xrun (xnew self) h).
Proof.
  induction h as [|o h IH]; intros H; [constructor|]. cbn [xok] in H. apply andb_prop in H as [H1 H2]. cbn [xrun foldr]. apply xr_step; [by apply IH|].
  intros E. unfold xrun in H1. by rewrite E in H1.
Qed.
Definition xh : list xop := [XRemove "LoadBar"; XAdd "LoadFooName" "LoadFoo" (Some 7) true; XAdd "LoadBarName" "LoadBar" (Some 7) true; XAdd "LoadFooName" "LoadFoo" None true].
Lemma app_name_inj : Inj (=) (=) (fun t => t +:+ "Name").
Proof.
  assert (HL : forall a b : string, String.length (a +:+ b) = String.length a + String.length b).
  { intros a b. induction a as [|c a IH]; [done|]. change (S (String.length (a +:+ b)) = S (String.length a + String.length b)). by rewrite IH. }
  intros a. induction a as [|c a IH]; intros b E.
  - destruct b as [|d b]; [done|]. apply (f_equal String.length) in E. rewrite !HL in E. cbn in E. lia.
  - destruct b as [|d b]; [apply (f_equal String.length) in E; rewrite !HL in E; cbn in E; lia|]. cbn in E. injection E as -> E. f_equal. by apply IH.
Qed.
Example C37_case : let s := xrun (xnew 7) xh in xreach 7 xh s /\ Inj (=) (=) (fun t => t +:+ "Name") /\ Forall (named (fun t => t +:+ "Name")) xh /\ Forall (accepted 7) xh /\
  find_ext "LoadFoo" s = Ok (Some 2) /\ ext_by_name "LoadFooName" s = Ok (Some 2) /\ find_ext "LoadBar" s = Ok None /\ all_exts s = [2] /\
  find_ext "LoadFoo" (add_ext "LoadFooName" "LoadFoo" (Some 8) true s).2 = Ok None.
Proof.
  split; [apply xrun_reach; vm_compute; reflexivity|]. split; [apply app_name_inj|].
  split; [repeat constructor|]. split; [repeat constructor; cbn; tauto|]. vm_compute. repeat split; reflexivity.
Qed.

(** ** Names that are not one to one with the types *)
(** The same name for two types: the lookup by the first type follows a reference to the destroyed extension. *)
Theorem C37_dangling_refuted : exists h s, xreach 7 h s /\ Forall (accepted 7) h /\ find_ext "LoadFoo" s = UB.
Proof.
  exists [XAdd "ext" "LoadBar" (Some 7) true; XAdd "ext" "LoadFoo" (Some 7) true]. eexists. split; [apply xrun_reach; vm_compute; reflexivity|].
  split; [repeat constructor; cbn; tauto|]. vm_compute. reflexivity.
Qed.
Print Assumptions C37_dangling_refuted.
(** Two names for one type: by type the first one is found although the second was added last, and after removing by type the second is
    still there by name but not by type. *)
Theorem C37_first_by_type_refuted : exists h s, xreach 7 h s /\ Forall (accepted 7) h /\
  find_ext "LoadFoo" s = Ok (Some 0) /\ ext_by_name "second" s = Ok (Some 1) /\
  find_ext "LoadFoo" (remove_ext "LoadFoo" s).2 = Ok None /\ ext_by_name "second" (remove_ext "LoadFoo" s).2 = Ok (Some 1).
Proof.
  exists [XAdd "second" "LoadFoo" (Some 7) true; XAdd "first" "LoadFoo" (Some 7) true]. eexists. split; [apply xrun_reach; vm_compute; reflexivity|].
  split; [repeat constructor; cbn; tauto|]. vm_compute. repeat split; reflexivity.
Qed.
Print Assumptions C37_first_by_type_refuted.
(** The previous extension is lost when the addition of the new one fails. *)
Theorem C37_failed_add_refuted : exists h s m, xreach 7 h s /\ Forall (accepted 7) h /\ find_ext "LoadFoo" s = Ok (Some 0) /\
  (add_ext "foo" "LoadFoo" (Some 8) true s).1 = Throw m /\ find_ext "LoadFoo" (add_ext "foo" "LoadFoo" (Some 8) true s).2 = Ok None.
Proof.
  exists [XAdd "foo" "LoadFoo" (Some 7) true]. eexists. eexists. split; [apply xrun_reach; vm_compute; reflexivity|].
  split; [repeat constructor; cbn; tauto|]. vm_compute. repeat split; reflexivity.
Qed.
Print Assumptions C37_failed_add_refuted.

(** ** Moving *)
Lemma all_exts_nil s : all_exts s = [] -> xs_name s = ∅.
Proof. unfold all_exts. intros H. apply fmap_nil_inv in H. by apply map_to_list_empty_iff. Qed.
(** An object without extension can be moved; with an extension, moving it to another address always ends the program. *)
Theorem C52_move_partial self h s self' : xreach self h s -> self' <> self ->
  (all_exts s = [] -> exists s', move_ext self' s = Ok s' /\ xs_self s' = self' /\ all_exts s' = [] /\ forall n, ext_by_name n s' = Ok None) /\
  (all_exts s <> [] -> move_ext self' s = terminate).
Proof.
  intros R D. pose proof (xreach_inv _ _ _ R) as I. unfold move_ext. split.
  - intros E. rewrite E. cbn [forallb]. eexists. split; [done|]. split; [done|]. split; [done|]. intros n. unfold ext_by_name. cbn [xs_name xs_obj].
    by rewrite (all_exts_nil s E), lookup_empty.
  - intros H. destruct (all_exts s) as [|a l] eqn:E; [done|].
    assert (Ha : a ∈ all_exts s) by (rewrite E; left). unfold all_exts in Ha. apply elem_of_list_fmap in Ha as ((n & b) & -> & Hb).
    apply elem_of_map_to_list in Hb. apply (xi_name self s I) in Hb as (x & X & _). cbn [snd forallb]. rewrite X, (xi_own self s I _ _ X).
    by rewrite bool_decide_false by congruence.
Qed.
Print Assumptions C52_move_partial.
Theorem C52_move_refuted : exists h s, xreach 7 h s /\ Forall (accepted 7) h /\ find_ext "LoadFoo" s = Ok (Some 0) /\ move_ext 8 s = terminate.
Proof.
  exists [XAdd "foo" "LoadFoo" (Some 7) true]. eexists. split; [apply xrun_reach; vm_compute; reflexivity|].
  split; [repeat constructor; cbn; tauto|]. vm_compute. repeat split; reflexivity.
Qed.
Print Assumptions C52_move_refuted.
