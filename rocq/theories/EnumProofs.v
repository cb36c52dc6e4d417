From Verif Require Import Enum EnumTables.

Lemma index_of_Some s l i : index_of s l = Some i -> l !! i = Some s /\ forall j, l !! j = Some s -> i <= j.
Proof.
  revert i. induction l as [|x l IH]; intros i; simpl; [done|]. case_bool_decide as E.
  - intros [= <-]. subst. split; [done|]. intros j _. lia.
  - destruct (index_of s l) as [k|]; [|done]. intros [= <-]. destruct (IH k eq_refl) as [A B]. split; [done|].
    intros [|j] Hj; simpl in Hj; [congruence|]. specialize (B j Hj). lia.
Qed.
Lemma index_of_None s l : index_of s l = None <-> s ∉ l.
Proof.
  induction l as [|x l IH]; simpl; [split; [intros _; apply not_elem_of_nil|done]|]. case_bool_decide as E.
  - subst. split; [done|]. intros H. exfalso. apply H. by left.
  - rewrite fmap_None, IH, not_elem_of_cons. naive_solver.
Qed.
Lemma index_of_lookup s l i : NoDup l -> l !! i = Some s -> index_of s l = Some i.
Proof.
  intros Hn Hi. destruct (index_of s l) as [k|] eqn:E.
  - apply index_of_Some in E as [Hk _]. f_equal. by eapply NoDup_lookup.
  - apply index_of_None in E. exfalso. apply E. by eapply elem_of_list_lookup_2.
Qed.

(** Tables checked by computation: as many names as enumerators, no name twice. *)
Definition good (e : enumeration) : bool := bool_decide (length (en_names e) = length (en_ids e)) && bool_decide (NoDup (en_names e)).
Definition faithful (e : enumeration) : bool := bool_decide (en_names e = en_ids e).
Lemma all_good : forallb good enumerations = true.
Proof. by vm_compute. Qed.
Lemma good_in e : e ∈ enumerations -> length (en_names e) = length (en_ids e) /\ NoDup (en_names e).
Proof.
  intros H. pose proof all_good as A. rewrite forallb_forall in A. specialize (A e (proj1 (elem_of_list_In _ _) H)).
  unfold good in A. apply andb_prop in A as [A B]. by apply bool_decide_eq_true in A, B.
Qed.
Lemma all_faithful : forallb (fun e => bool_decide (e = e_HvdcConverterStation_HvdcType) || faithful e) enumerations = true.
Proof. by vm_compute. Qed.
