(** Proofs about the power of a bus. *)
From stdpp Require Import list.
From Coq Require Import QArith Lqa.
From Verif Require Import Base Equip DblArith BusSum BusSumSpec.

Lemma configured_count_ok {A} (l : list (term A)) : configured_count l = length (configured_terminals l).
Proof.
  unfold configured_count, configured_terminals.
  assert (H : forall n, foldl (fun n (t : term A) => if t_on t then S n else n) n l = n + length (filter (fun t => t_on t = true) l)).
  { induction l as [|t l IH]; intros n; cbn [foldl]; [cbn; lia|]. rewrite IH, filter_cons. destruct (t_on t); [rewrite decide_True by done|rewrite decide_False by done]; cbn [length]; lia. }
  by rewrite H.
Qed.
Lemma connected_count_ok {A} (b : bus A) : connected_count b = length (connected_terminals b).
Proof.
  destruct b as [l|l|bs]; cbn [connected_count connected_terminals]; [done|apply configured_count_ok|].
  assert (H : forall n, foldl (fun n l => n + configured_count l) n bs = n + length (mjoin (configured_terminals <$> bs))).
  { induction bs as [|l bs IH]; intros n; cbn [foldl fmap list_fmap mjoin list_join]; [cbn; lia|]. rewrite IH, app_length, configured_count_ok. symmetry. apply Nat.add_assoc. }
  by rewrite H.
Qed.
Lemma on_bus_ok b : connected_terminals b = on_bus b.
Proof.
  destruct b as [l|l|bs]; [done|done|]. cbn [connected_terminals on_bus]. induction bs as [|l bs IH]; [done|].
  change (configured_terminals l ++ mjoin (configured_terminals <$> bs) = filter (fun t => t_on t = true) (l ++ mjoin bs)). rewrite filter_app.
  apply f_equal. exact IH.
Qed.

Lemma dbl_not_in (l : list dbl) (x : dbl) : x = PInf \/ x = NInf -> x ∈ l \/ x ∉ l.
Proof.
  intros H. induction l as [|y l [IH|IH]].
  - right. by apply not_elem_of_nil.
  - left. by right.
  - destruct H as [-> | ->]; destruct y; try (left; by left); right; rewrite not_elem_of_cons; done.
Qed.
Lemma qsum_app l k : (qsum (l ++ k) == qsum l + qsum k)%Q.
Proof.
  unfold qsum. induction l as [|x l IH]; cbn [foldr app]; [ring|]. destruct x; rewrite ?IH; try reflexivity. ring.
Qed.
Lemma total_snoc l r x : x <> NaN -> total l r -> total (l ++ [x]) (dplus r x).
Proof.
  intros N (A & B & C & D). assert (Ex : forall y : dbl, y ∈ l ++ [x] <-> y ∈ l \/ y = x).
  { intros y. rewrite elem_of_app, elem_of_list_singleton. done. }
  unfold total. rewrite !Ex.
  destruct (dbl_not_in l PInf) as [P|P]; [by left| |]; (destruct (dbl_not_in l NInf) as [M|M]; [by right| |]).
  - rewrite (A P M). cbn. split_and!; try tauto.
  - rewrite (B P M). destruct x; cbn; split_and!; try done; naive_solver.
  - rewrite (C P M). destruct x; cbn; split_and!; try done; naive_solver.
  - destruct (D P M) as (q & -> & E). destruct x as [| |y|]; cbn; split_and!; try tauto; try (intros [H|H]; [tauto|discriminate H]); try (intros H1 [H2|H2]; [tauto|discriminate H2]).
    intros _ _. exists (q + y)%Q. split; [done|]. rewrite E, qsum_app. cbn. ring.
Qed.
Lemma total_foldl l : (forall x, x ∈ l -> x <> NaN) -> total l (foldl dplus dzero l).
Proof.
  intros H. induction l as [|x l IH] using rev_ind.
  - cbn. unfold total. split_and!; try (intros H1; by apply elem_of_nil in H1); try (intros _ H1; by apply elem_of_nil in H1). intros _ _. exists 0%Q. split; [done|reflexivity].
  - rewrite foldl_app. cbn [foldl]. apply total_snoc.
    + apply H. apply elem_of_app. right. by apply elem_of_list_singleton.
    + apply IH. intros y Hy. apply H. apply elem_of_app. by left.
Qed.
Lemma total_unique l r r' : total l r -> total l r' -> deqv r r'.
Proof.
  intros (A & B & C & D) (A' & B' & C' & D').
  destruct (dbl_not_in l PInf) as [P|P]; [by left| |]; (destruct (dbl_not_in l NInf) as [M|M]; [by right| |]).
  - rewrite (A P M), (A' P M). done.
  - rewrite (B P M), (B' P M). done.
  - rewrite (C P M), (C' P M). done.
  - destruct (D P M) as (q & -> & E). destruct (D' P M) as (q' & -> & E'). cbn. by rewrite E, E'.
Qed.
Lemma qsum_perm l k : Permutation l k -> (qsum l == qsum k)%Q.
Proof.
  induction 1 as [|x l k P IH|x y l|l k m P1 IH1 P2 IH2].
  - reflexivity.
  - unfold qsum in *. cbn [foldr]. destruct x; rewrite ?IH; reflexivity.
  - unfold qsum. cbn [foldr]. destruct x, y; try reflexivity. ring.
  - by rewrite IH1.
Qed.
Lemma total_perm l k r : Permutation l k -> total l r -> total k r.
Proof.
  intros P (A & B & C & D). unfold total. rewrite <- !P. split_and!; try done. intros H1 H2. destruct (D H1 H2) as (q & -> & E). exists q. split; [done|]. by rewrite E, (qsum_perm _ _ P).
Qed.
Lemma sum_values (sk : ctype -> bool) types f l acc : (forall c, sk c = false <-> c ∈ types) ->
  foldl (fun p t => if sk (t_type t) then p else if is_nan (f t) then p else dplus p (f t)) acc l = foldl dplus acc (values types f l).
Proof.
  intros S. revert acc. induction l as [|t l IH]; intros acc; [done|]. cbn [foldl]. rewrite IH. unfold values. rewrite filter_cons.
  destruct (sk (t_type t)) eqn:E.
  - rewrite decide_False; [done|]. rewrite <- S. congruence.
  - rewrite decide_True by (by apply S). rewrite fmap_cons, filter_cons. destruct (is_nan (f t)) eqn:N.
    + by rewrite decide_False.
    + by rewrite decide_True.
Qed.
Lemma p_skipped_spec c : p_skipped c = false <-> c ∈ p_types.
Proof. unfold p_types. rewrite !elem_of_cons, elem_of_nil. destruct c; cbn; naive_solver. Qed.
Lemma q_skipped_spec c : q_skipped c = false <-> c ∈ q_types.
Proof. unfold q_types. rewrite !elem_of_cons, elem_of_nil. destruct c; cbn; naive_solver. Qed.
Lemma values_defined types f l x : x ∈ values types f l -> x <> NaN.
Proof. unfold values. rewrite elem_of_list_filter. intros [H _] ->. done. Qed.
Lemma values_perm types f l k : Permutation l k -> Permutation (values types f l) (values types f k).
Proof. intros P. unfold values. by rewrite P. Qed.
