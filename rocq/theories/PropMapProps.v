(** Properties (C42). *)
From stdpp Require Import list strings sorting.
From Verif Require Import Base PropMap PropMapSpec.

Lemma byte_inj c d : byte c = byte d -> c = d.
Proof. unfold byte. intros H. rewrite <- (Ascii.ascii_nat_embedding c), <- (Ascii.ascii_nat_embedding d). by f_equal. Qed.
Lemma str_lt_spec a b : str_lt a b = true <-> before a b.
Proof.
  split.
  - revert b. induction a as [|c a IH]; intros [|d b] H; [discriminate H|constructor|discriminate H|].
    change ((if Nat.ltb (byte c) (byte d) then true else if Nat.ltb (byte d) (byte c) then false else str_lt a b) = true) in H.
    destruct (Nat.ltb_spec (byte c) (byte d)) as [L|L]; [by constructor|].
    destruct (Nat.ltb_spec (byte d) (byte c)) as [L'|L']; [discriminate H|].
    assert (c = d) as -> by (apply byte_inj; lia). apply before_same. by apply IH.
  - induction 1 as [c b|c d a b L|c a b B IH]; [done| |].
    + change ((if Nat.ltb (byte c) (byte d) then true else if Nat.ltb (byte d) (byte c) then false else str_lt a b) = true).
      destruct (Nat.ltb_spec (byte c) (byte d)); [done|lia].
    + change ((if Nat.ltb (byte c) (byte c) then true else if Nat.ltb (byte c) (byte c) then false else str_lt a b) = true).
      rewrite Nat.ltb_irrefl. done.
Qed.
Lemma before_irrefl a : ~ before a a.
Proof. induction a; inversion 1; subst; [lia|done]. Qed.
Lemma before_trans a b c : before a b -> before b c -> before a c.
Proof.
  intros H. revert c. induction H as [x b|x y a b L|x a b B IH]; intros c H'; inversion H'; subst.
  - constructor.
  - constructor.
  - constructor. lia.
  - by constructor.
  - by constructor.
  - apply before_same. by apply IH.
Qed.
Lemma before_total a b : before a b \/ a = b \/ before b a.
Proof.
  revert b. induction a as [|c a IH]; intros [|d b]; [tauto|left; constructor|right; right; constructor|].
  destruct (Nat.lt_trichotomy (byte c) (byte d)) as [L|[L|L]]; [left; by constructor| |right; right; by constructor].
  apply byte_inj in L as ->. destruct (IH b) as [L|[->|L]]; [left; by apply before_same|tauto|right; right; by apply before_same].
Qed.
Lemma str_lt_cases a b : (str_lt a b = true /\ before a b /\ str_lt b a = false /\ a <> b) \/ (str_lt a b = false /\ str_lt b a = false /\ a = b) \/
  (str_lt a b = false /\ str_lt b a = true /\ before b a /\ a <> b).
Proof.
  assert (F : forall a b, before a b -> str_lt b a = false).
  { intros x y B. destruct (str_lt y x) eqn:E; [|done]. apply str_lt_spec in E. destruct (before_irrefl x). by eapply before_trans. }
  assert (I : forall a, str_lt a a = false). { intros x. destruct (str_lt x x) eqn:E; [|done]. apply str_lt_spec in E. by apply before_irrefl in E. }
  destruct (before_total a b) as [B|[->|B]].
  - left. split_and!; [by apply str_lt_spec|done|by apply F|]. intros ->. by apply before_irrefl in B.
  - right; left. by rewrite !I.
  - right; right. split_and!; [by apply F|by apply str_lt_spec|done|]. intros ->. by apply before_irrefl in B.
Qed.
(** The keys are in strictly increasing order. *)
Definition ordered (m : pmap) : Prop := StronglySorted before m.*1.
Lemma ordered_cons k v m : ordered ((k, v) :: m) <-> ordered m /\ forall k', k' ∈ m.*1 -> before k k'.
Proof.
  unfold ordered. rewrite fmap_cons. cbn [fst]. split.
  - inversion 1 as [|? ? S F]; subst. split; [done|]. by apply Forall_forall.
  - intros [S F]. constructor; [done|]. by apply Forall_forall.
Qed.
Lemma find_not_in k m : ordered m -> (p_find k m = None <-> k ∉ m.*1).
Proof.
  induction m as [|[k' v] m IH]; intros O; [cbn; split; [intros _; by apply not_elem_of_nil|done]|].
  apply ordered_cons in O as [O F]. cbn [p_find]. rewrite fmap_cons, not_elem_of_cons. cbn [fst].
  destruct (str_lt_cases k' k) as [(-> & B & _ & D)|[(-> & -> & ->)|(-> & -> & B & D)]].
  - rewrite IH by done. split; [intros H; split; [congruence|done]|tauto].
  - split; [done|tauto].
  - split; [|done]. intros _. split; [congruence|]. intros H. apply F in H. apply (before_irrefl k'). by eapply before_trans.
Qed.
Lemma put_keys k v m k' : k' ∈ (p_put k v m).*1 <-> k' = k \/ k' ∈ m.*1.
Proof.
  induction m as [|[k0 v0] m IH]; cbn [p_put]; [rewrite fmap_cons; cbn; rewrite elem_of_cons; done|].
  destruct (str_lt_cases k0 k) as [(-> & B & _ & D)|[(-> & -> & ->)|(-> & -> & B & D)]]; rewrite !fmap_cons, !elem_of_cons; cbn [fst].
  - rewrite IH. tauto.
  - tauto.
  - tauto.
Qed.
Lemma put_ordered k v m : ordered m -> ordered (p_put k v m).
Proof.
  induction m as [|[k0 v0] m IH]; intros O; cbn [p_put]; [apply ordered_cons; split; [constructor|intros k' H; by apply elem_of_nil in H]|].
  pose proof O as O'. apply ordered_cons in O as [O F].
  destruct (str_lt_cases k0 k) as [(-> & B & _ & D)|[(-> & -> & ->)|(-> & -> & B & D)]].
  - apply ordered_cons. split; [by apply IH|]. intros k' H. apply put_keys in H as [->|H]; [done|by apply F].
  - apply ordered_cons. done.
  - apply ordered_cons. split; [done|]. intros k' H. rewrite fmap_cons, elem_of_cons in H. cbn [fst] in H. destruct H as [->|H]; [done|].
    eapply before_trans; [exact B|]. by apply F.
Qed.
Lemma find_put k v m k' : ordered m -> p_find k' (p_put k v m) = if bool_decide (k' = k) then Some v else p_find k' m.
Proof.
  induction m as [|[k0 v0] m IH]; intros O; cbn [p_put].
  - cbn [p_find]. destruct (str_lt_cases k k') as [(-> & B & _ & D)|[(-> & -> & ->)|(-> & -> & B & D)]].
    + by rewrite bool_decide_false by congruence.
    + by rewrite bool_decide_true.
    + by rewrite bool_decide_false by congruence.
  - pose proof O as O'. apply ordered_cons in O as [O F]. specialize (IH O).
    destruct (str_lt_cases k0 k) as [(-> & B & _ & D)|[(-> & -> & ->)|(-> & -> & B & D)]].
    + cbn [p_find]. destruct (str_lt_cases k0 k') as [(-> & B' & _ & D')|[(-> & -> & ->)|(-> & -> & B' & D')]]; [done| |]; rewrite bool_decide_false; try done.
      intros ->. apply (before_irrefl k). by eapply before_trans.
    + cbn [p_find]. destruct (str_lt_cases k k') as [(-> & B' & _ & D')|[(-> & -> & ->)|(-> & -> & B' & D')]].
      * by rewrite bool_decide_false by congruence.
      * by rewrite bool_decide_true.
      * by rewrite bool_decide_false by congruence.
    + cbn [p_find]. destruct (str_lt_cases k k') as [(-> & B' & _ & D')|[(-> & -> & ->)|(-> & -> & B' & D')]].
      * by rewrite bool_decide_false by congruence.
      * by rewrite bool_decide_true.
      * rewrite bool_decide_false by congruence. assert (before k' k0) as B2 by (by eapply before_trans).
        destruct (str_lt_cases k0 k') as [(-> & B3 & _)|[(_ & _ & ->)|(-> & -> & _)]]; [|by apply before_irrefl in B2|done].
        destruct (before_irrefl k0). by eapply before_trans.
Qed.
Lemma remove_keys k m k' : k' ∈ (p_remove k m).*1 -> k' ∈ m.*1.
Proof.
  induction m as [|[k0 v0] m IH]; cbn [p_remove]; [done|].
  destruct (str_lt k0 k); [rewrite !fmap_cons, !elem_of_cons; naive_solver|]. destruct (str_lt k k0); [done|]. rewrite fmap_cons, elem_of_cons. tauto.
Qed.
Lemma remove_ordered k m : ordered m -> ordered (p_remove k m).
Proof.
  induction m as [|[k0 v0] m IH]; intros O; cbn [p_remove]; [done|]. pose proof O as O'. apply ordered_cons in O as [O F].
  destruct (str_lt k0 k); [|by destruct (str_lt k k0)]. apply ordered_cons. split; [by apply IH|]. intros k' H. by apply F, (remove_keys k).
Qed.
Lemma find_remove k m k' : ordered m -> p_find k' (p_remove k m) = if bool_decide (k' = k) then None else p_find k' m.
Proof.
  induction m as [|[k0 v0] m IH]; intros O; cbn [p_remove]; [by destruct (bool_decide (k' = k))|].
  pose proof O as O'. apply ordered_cons in O as [O F]. specialize (IH O).
  destruct (str_lt_cases k0 k) as [(-> & B & _ & D)|[(-> & -> & ->)|(-> & -> & B & D)]].
  - cbn [p_find]. destruct (str_lt_cases k0 k') as [(-> & B' & _ & D')|[(-> & -> & ->)|(-> & -> & B' & D')]]; [done| |]; rewrite bool_decide_false; try done.
    intros ->. apply (before_irrefl k). by eapply before_trans.
  - case_bool_decide as D; [subst k'; apply find_not_in; [done|]; intros H; apply F in H; by apply before_irrefl in H|].
    cbn [p_find]. destruct (str_lt_cases k k') as [(-> & B & _)|[(_ & _ & ->)|(-> & -> & B & _)]]; [done|done|].
    apply find_not_in; [done|]. intros H. apply F in H. apply (before_irrefl k). by eapply before_trans.
  - case_bool_decide as D'; [|done]. subst k'. apply find_not_in; [done|]. rewrite fmap_cons, not_elem_of_cons. cbn [fst]. split; [congruence|].
    intros H. apply F in H. apply (before_irrefl k). by eapply before_trans.
Qed.
Lemma prun_ok h : ordered (prun h) /\ forall k, p_find k (prun h) = last_value h k.
Proof.
  induction h as [|o h [O IH]]; [split; [constructor|done]|]. destruct o as [k v|k|]; cbn [prun foldr pstep p_set snd last_value]; fold (prun h).
  - split; [by apply put_ordered|]. intros k'. rewrite find_put by done. by rewrite IH.
  - split; [by apply remove_ordered|]. intros k'. rewrite find_remove by done. by rewrite IH.
  - split; [constructor|done].
Qed.

(** After any history every function answers from the last value given to the key: a property that was never set or was removed reads as the
    default and throws without default. *)
Theorem C42_read h k d :
  match last_value h k with
  | Some v => p_get k (prun h) = Ok v /\ p_get_or k d (prun h) = v /\ p_contains k (prun h) = true
  | None => p_get k (prun h) = Throw ("Property " +:+ k +:+ " does not exist") /\ p_get_or k d (prun h) = d /\ p_contains k (prun h) = false
  end.
Proof. unfold p_get, p_get_or, p_contains. rewrite (proj2 (prun_ok h) k). by destruct (last_value h k). Qed.
Print Assumptions C42_read.
(** setProperty answers the previous value. *)
Theorem C42_set_previous h k v : (p_set k v (prun h)).1 = last_value h k.
Proof. exact (proj2 (prun_ok h) k). Qed.
Print Assumptions C42_set_previous.
(** The names are exactly the keys with a value, each once, in increasing order; the size and the emptiness agree. *)
Theorem C42_names h : (forall k, k ∈ p_keys (prun h) <-> is_Some (last_value h k)) /\ StronglySorted before (p_keys (prun h)) /\ NoDup (p_keys (prun h)) /\
  p_size (prun h) = length (p_keys (prun h)) /\ (p_empty (prun h) = true <-> forall k, last_value h k = None).
Proof.
  destruct (prun_ok h) as [O F]. assert (K : forall k, k ∈ p_keys (prun h) <-> is_Some (last_value h k)).
  { intros k. rewrite <- F. pose proof (find_not_in k (prun h) O) as N. unfold p_keys. destruct (p_find k (prun h)) eqn:E.
    - split; [eauto|]. intros _. destruct (decide (k ∈ (prun h).*1)) as [H|H]; [done|]. apply N in H. done.
    - split; [|by intros [? ?]]. intros H. by apply N in H. }
  split_and!; [exact K|exact O| | |].
  - unfold p_keys. clear K F. unfold ordered in O. induction O as [|a l S IH FA]; [constructor|]. constructor; [|done]. intros H.
    rewrite Forall_forall in FA. apply FA in H. by apply before_irrefl in H.
  - unfold p_size, p_keys. by rewrite fmap_length.
  - unfold p_empty. destruct (prun h) as [|[k v] m] eqn:E.
    + split; [|done]. intros _ k. rewrite <- F. done.
    + split; [done|]. intros H. assert (is_Some (last_value h k)) as [x X] by (apply K; left). by rewrite H in X.
Qed.
Print Assumptions C42_names.
Example C42_case : prun [PRemove "b"; PSet "a" "3"; PSet "b" "2"; PSet "c" "9"; PSet "a" "1"] = [("a", "3"); ("c", "9")] /\
  last_value [PRemove "b"; PSet "a" "3"; PSet "b" "2"; PSet "c" "9"; PSet "a" "1"] "a" = Some "3".
Proof. vm_compute. done. Qed.
