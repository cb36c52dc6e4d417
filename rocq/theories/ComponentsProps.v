(** Property theorems about the connected components: C06. *)
From Verif Require Import Base Components ComponentsProofs.

(** Two triangles-like groups, a singleton and a self-connected vertex. *)
Definition ex_links : list (option nat * option nat) :=
  [(Some 0, Some 3); (Some 1, Some 2); (None, Some 4); (Some 4, Some 1)] ++ twt3_links (Some 5, Some 5, None).
Definition ex_adj : list (list nat) := acm_fill 7 ex_links.

Lemma ex_links_ok : Forall (fun l => (forall x, l.1 = Some x -> x < 7) /\ (forall x, l.2 = Some x -> x < 7)) ex_links.
Proof.
  unfold ex_links, twt3_links. simpl.
  repeat (apply Forall_cons; split; [simpl; split; intros; simplify_eq; lia|]). by apply Forall_nil.
Qed.
Lemma ex_adj_ok : adj_bounded ex_adj /\ adj_symmetric ex_adj.
Proof.
  assert (forall a b, length ex_adj = 7 /\ (aedge ex_adj a b <-> linked ex_links a b)) as H.
  { intros a b. apply acm_fill_edge, ex_links_ok. }
  split.
  - intros a b Hab. apply (H a b) in Hab. rewrite (proj1 (H 0 0)). unfold linked, ex_links in Hab. set_solver by lia.
  - intros a b Hab. apply (H b a). apply (H a b) in Hab. unfold linked in *. tauto.
Qed.

(** The computation always ends normally, whatever order std::sort leaves equal components in. *)
Theorem C06_components_total adj : adj_bounded adj -> adj_symmetric adj ->
  exists r, cc_number adj = Ok r /\ (exists p, sorted_components r p) /\
    forall p, sorted_components r p -> exists res, cc_finish p r = Ok res.
Proof. exact (cc_total adj). Qed.
Print Assumptions C06_components_total.

(** Same number iff connected; numbers 0..k-1; exact sizes; sum; decreasing. *)
Theorem C06_components_exact adj num sz : adj_bounded adj -> adj_symmetric adj -> cc_result adj num sz ->
  length num = length adj /\
  (forall a, a < length adj -> exists k, num !! a = Some (Some k) /\ k < length sz) /\
  (forall a b, a < length adj -> b < length adj -> (num !! a = num !! b <-> rtc (aedge adj) a b)) /\
  (forall k, k < length sz -> exists a, num !! a = Some (Some k)) /\
  (forall k n, sz !! k = Some n -> n = length (filter (fun o => o = Some k) num)) /\
  sum_list sz = length adj /\
  (forall i j n m, i <= j -> sz !! i = Some n -> sz !! j = Some m -> m <= n).
Proof.
  intros Hb Hs Hr. pose proof (cc_result_ok adj Hb Hs num sz Hr) as [H1 H2 H3 H4 H5 H6 H7].
  exact (conj H1 (conj H2 (conj H3 (conj H4 (conj H5 (conj H6 H7)))))).
Qed.
Print Assumptions C06_components_exact.

Example C06_components_ex :
  adj_bounded ex_adj /\ adj_symmetric ex_adj /\
  cc_result ex_adj [Some 1; Some 0; Some 0; Some 1; Some 0; Some 3; Some 2] [3; 2; 1; 1].
Proof.
  split; [apply ex_adj_ok|]. split; [apply ex_adj_ok|].
  eexists _, [1; 0; 3; 2]. split; [vm_compute; reflexivity|]. split; [|vm_compute; reflexivity].
  split.
  - apply NoDup_Permutation; [|apply NoDup_seq|].
    + repeat constructor; set_solver.
    + intros x. rewrite elem_of_seq. split; [set_solver by lia|]. intros Hx.
      destruct x as [|[|[|[|x]]]]; [set_solver..|lia].
  - repeat constructor.
Qed.

(** The adjacency list handed over by the components managers is bounded and symmetric, and links two buses
    iff some branch does. *)
Theorem C06_adjacency_of_branches n links :
  Forall (fun l => (forall x, l.1 = Some x -> x < n) /\ (forall x, l.2 = Some x -> x < n)) links ->
  forall a b, length (acm_fill n links) = n /\
    (aedge (acm_fill n links) a b <-> (Some a, Some b) ∈ links \/ (Some b, Some a) ∈ links).
Proof. intros H a b. exact (acm_fill_edge n links a b H). Qed.
Print Assumptions C06_adjacency_of_branches.
Example C06_adjacency_of_branches_ex :
  Forall (fun l => (forall x, l.1 = Some x -> x < 7) /\ (forall x, l.2 = Some x -> x < 7)) ex_links.
Proof. exact ex_links_ok. Qed.

(** A three windings transformer links the buses of any two of its legs, and only those; a leg without bus links nothing. *)
Theorem C06_three_windings n b1 b2 b3 a b : (forall i x, [b1; b2; b3] !! i = Some (Some x) -> x < n) ->
  aedge (acm_fill n (twt3_links (b1, b2, b3))) a b <-> exists i j, i <> j /\ [b1; b2; b3] !! i = Some (Some a) /\ [b1; b2; b3] !! j = Some (Some b).
Proof.
  intros H. rewrite (proj2 (acm_fill_edge n (twt3_links (b1, b2, b3)) a b ltac:(
    repeat constructor; cbn; intros x ->; first [by apply (H 0)|by apply (H 1)|by apply (H 2)]))).
  unfold linked, twt3_links. cbv beta iota. rewrite !elem_of_cons, !elem_of_nil. split.
  - intros HH. repeat destruct HH as [HH|HH]; try done; injection HH as <- <-;
      first [by exists 0, 1|by exists 1, 0|by exists 0, 2|by exists 2, 0|by exists 1, 2|by exists 2, 1].
  - intros (i & j & Hij & Hi & Hj). destruct i as [|[|[|i]]], j as [|[|[|j]]]; try done; cbn in Hi, Hj; simplify_eq; tauto.
Qed.
Print Assumptions C06_three_windings.
Example C06_three_windings_case : aedge (acm_fill 7 (twt3_links (None, Some 2, Some 5))) 5 2 /\ ~ aedge (acm_fill 7 (twt3_links (None, Some 2, Some 5))) 5 5.
Proof.
  assert (forall i x, [None; Some 2; Some 5] !! i = Some (Some x) -> x < 7) as H by (intros [|[|[|i]]] x E; try done; injection E as <-; lia).
  split; [apply C06_three_windings; [done|]; by exists 2, 1|]. rewrite C06_three_windings by done. intros (i & j & Hij & Hi & Hj).
  destruct i as [|[|[|i]]], j as [|[|[|j]]]; done.
Qed.
