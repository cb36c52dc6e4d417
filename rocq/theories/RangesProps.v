(** Properties C27, C28 and C29: TerminalFinder, flattened ranges, distinct ranges. *)
From Verif Require Import Ranges RangesProofs.

(** ** C27 *)
(** [t1] outranks [t2]: the first rule satisfied by one of them is satisfied by [t1] only. *)
Definition outranks {T} (rules : list (T -> bool)) (t1 t2 : T) : Prop :=
  exists k p, rules !! k = Some p /\ p t1 = true /\ p t2 = false /\ forall j q, j < k -> rules !! j = Some q -> q t1 = false /\ q t2 = false.
Lemma outranks_rank {T} (rules : list (T -> bool)) t1 t2 : outranks rules t1 t2 <-> rank rules t1 < rank rules t2.
Proof.
  induction rules as [|p rules IH]; simpl.
  - split; [by intros (k & p & ? & _)|lia].
  - transitivity ((p t1 = true /\ p t2 = false) \/ (p t1 = false /\ p t2 = false /\ outranks rules t1 t2)).
    + split.
      * intros ([|k] & q & Hk & H1 & H2 & H3); [injection Hk as <-; by left|]. right. destruct (H3 0 p) as [? ?]; [lia|done|]. split; [done|]. split; [done|].
        exists k, q. repeat split; try done; by apply (H3 (S j)); [lia|].
      * intros [[H1 H2]|(H1 & H2 & k & q & Hk & H3 & H4 & H5)]; [exists 0, p; repeat split; try done; lia|].
        exists (S k), q. split; [done|]. split; [done|]. split; [done|]. intros [|j] q' Hj Hq; [injection Hq as <-; done|apply (H5 j); [lia|done]].
    + rewrite IH. destruct (p t1), (p t2); (split; [intros [[? ?]|(? & ? & ?)]; try done; lia|intros; try lia; auto]).
Qed.
Theorem C27_find {T} `{EqDecision T} (rules : list (T -> bool)) l :
  (tf_find (comparator rules) l = None <-> l = []) /\
  (forall t, tf_find (comparator rules) l = Some t -> exists i, l !! i = Some t /\ (forall u, u ∈ l -> ~ outranks rules u t) /\
     forall j u, j < i -> l !! j = Some u -> outranks rules t u).
Proof.
  destruct l as [|x l]; simpl; [split; done|]. split; [done|]. intros t [= <-]. destruct (max_loop_spec rules l x) as (i & Hi & Hm). exists i. split; [done|]. split.
  - intros u [j Hj]%elem_of_list_lookup. rewrite outranks_rank. destruct (Hm j u Hj). lia.
  - intros j u Hj Hu. rewrite outranks_rank. by apply (Hm j u).
Qed.
(** The comparator is a strict weak order, as std::max_element requires. *)
Theorem C27_strict_weak_order {T} `{EqDecision T} (rules : list (T -> bool)) : let lt a b := comparator rules a b = true in
  (forall a, ~ lt a a) /\ (forall a b c, lt a b -> lt b c -> lt a c) /\
  (forall a b c, ~ lt a b -> ~ lt b a -> ~ lt b c -> ~ lt c b -> ~ lt a c /\ ~ lt c a) /\ (forall a b, lt a b <-> outranks rules b a).
Proof.
  intros lt. unfold lt. split; [|split; [|split]].
  - intros a. rewrite comparator_rank. lia.
  - intros a b c. rewrite !comparator_rank. lia.
  - intros a b c. rewrite !comparator_rank. lia.
  - intros a b. by rewrite comparator_rank, outranks_rank.
Qed.
(** With the default rules: the first busbar section, else the first injection (converter stations included, the last rule never
    decides), else the first branch terminal, else the first terminal. *)
Definition kind_rank (k : ckind) : nat := match k with KBusbar => 0 | KInjection | KConverterStation => 1 | KBranch => 2 | KThreeWindings => 3 end.
Theorem C27_default {T} `{EqDecision T} (kind : T -> ckind) l t : tf_find (comparator (default_rules kind)) l = Some t ->
  exists i, l !! i = Some t /\ forall j u, l !! j = Some u -> kind_rank (kind t) <= kind_rank (kind u) /\ (j < i -> kind_rank (kind t) < kind_rank (kind u)).
Proof.
  assert (forall u, rank (default_rules kind) u = kind_rank (kind u)) as R by (intros u; simpl; by destruct (kind u)).
  intros H. apply C27_find in H as (i & Hi & H1 & H2). exists i. split; [done|]. intros j u Hu. split.
  - specialize (H1 u ltac:(by eapply elem_of_list_lookup_2)). rewrite outranks_rank, !R in H1. lia.
  - intros Hj. specialize (H2 j u Hj Hu). by rewrite outranks_rank, !R in H2.
Qed.
Definition ex_kind (n : nat) : ckind := match n with 0 => KBranch | 1 => KThreeWindings | 2 => KConverterStation | 3 => KInjection | _ => KBusbar end.
Example C27_case : tf_find (comparator (default_rules ex_kind)) [1; 0; 2; 3; 0] = Some 2 /\ tf_find (comparator (default_rules ex_kind)) [3; 5; 4] = Some 5 /\
  outranks (default_rules ex_kind) 4 3.
Proof. split; [done|]. split; [done|]. rewrite outranks_rank. vm_compute. lia. Qed.

(** ** C28 *)
Theorem C28_flattened {A} (ll : list (list A)) fuel : length (concat ll) < fuel -> fl_iterate fuel ll = Ok (concat ll).
Proof.
  intros Hf. unfold fl_iterate. destruct (fl_begin_spec ll) as (it & -> & R & E). cbn [result_bind]. rewrite fl_loop_spec; [by rewrite E|done|by rewrite E].
Qed.
(** At every iterator reached by increments, dereferencing before the end and incrementing are defined. *)
Inductive fl_reach {A} (ll : list (list A)) : fit -> Prop :=
| fl_r0 it : fl_begin ll = Ok it -> fl_reach ll it
| fl_r1 it it' : fl_reach ll it -> fl_incr ll it = Ok it' -> fl_reach ll it'.
Theorem C28_defined {A} (ll : list (list A)) it : fl_reach ll it ->
  (exists it', fl_incr ll it = Ok it') /\ (fl_eq it (fl_end ll) = false -> exists l x, l ∈ ll /\ x ∈ l /\ fl_deref ll it = Ok x).
Proof.
  intros R. assert (ready ll it) as Rd.
  { induction R as [it E|it it' R IH E].
    - destruct (fl_begin_spec ll) as (it0 & E0 & R0 & _). assert (it = it0) as -> by congruence. done.
    - destruct (decide (fi_outer it = length ll)) as [Eo|Eo].
      + unfold fl_incr in E. rewrite bool_decide_true in E by done. injection E as <-. done.
      + destruct (fl_incr_spec ll it IH Eo) as (x & it0 & _ & E0 & R0 & _). assert (it' = it0) as -> by congruence. done. }
  destruct (decide (fi_outer it = length ll)) as [Eo|Eo].
  - split; [exists it; unfold fl_incr; by rewrite bool_decide_true|]. unfold fl_eq, fl_end. simpl. by rewrite bool_decide_true.
  - destruct (fl_incr_spec ll it Rd Eo) as (x & it' & Hd & Hi & _). split; [eauto|]. intros _. destruct Rd as [?|(l & p & Hl & Hb & _)]; [done|].
    exists l, x. unfold fl_deref in *. rewrite Hb in *. assert (vget ll (fi_outer it) = Ok l) as E by (by apply vget_Ok). rewrite E in *. cbn [result_bind] in *.
    split; [by eapply elem_of_list_lookup_2|]. split; [|done]. apply vget_Ok in Hd. by eapply elem_of_list_lookup_2.
Qed.
(** Two iterators at different elements of the same inner range compare equal. *)
Theorem C28_equality_refuted : exists (ll : list (list nat)) it it', fl_reach ll it /\ fl_reach ll it' /\ fl_eq it it' = true /\ fl_deref ll it <> fl_deref ll it'.
Proof.
  exists [[1; 2]], (mkFit 0 (Some (0, 0)) (Some (0, 2))), (mkFit 0 (Some (0, 1)) (Some (0, 2))).
  assert (fl_reach [[1; 2]] (mkFit 0 (Some (0, 0)) (Some (0, 2)))) as R by (apply fl_r0; reflexivity).
  split; [done|]. split; [eapply fl_r1; [exact R|reflexivity]|]. split; done.
Qed.
Example C28_case : fl_iterate 4 [[]; [1; 2]; []; []; [3]; []] = Ok [1; 2; 3].
Proof. reflexivity. Qed.

(** ** C29 *)
(** The range of the connectables of a voltage level, iterated once: each id once. *)
Theorem C29_voltage_level_first h l fuel : length l < fuel -> exists h' loc r out h'', v_range h l = (h', (loc, r)) /\ v_iterate fuel h' loc r = Ok (out, h'') /\
  NoDup out /\ forall x, x ∈ out <-> x ∈ l.
Proof.
  intros Hf. destruct (v_range h l) as [h' [loc r]] eqn:E. apply v_range_spec in E as (-> & E1 & E2 & -> & E3).
  destruct (v_iterate_spec fuel h' (length h) l ltac:(lia) Hf) as (out & h'' & Eo & _ & _ & _ & N & D & Hh & S & C). exists h', (length h), l, out, h''. split; [done|]. split; [done|].
  destruct l as [|x l]; simpl in *.
  - destruct out; [|done]. split; [constructor|done].
  - destruct out as [|y out]; [done|]. injection Hh as ->. simpl in *. rewrite E3 in *. split.
    + constructor; [|done]. intros Hx. apply (D x Hx). by left.
    + intros z. split; [apply S|]. intros [->|Hz]%elem_of_cons; [by left|]. destruct (C z Hz) as [->%elem_of_list_singleton|?]; [by left|by right].
Qed.
(** The transformers of a substation, [vls] giving for each voltage level the transformers of its terminals: the first pass
    on a range gives each exactly once. *)
Theorem C29_first_pass_partial h vls fuel : length (concat vls) < fuel -> exists out, s_passes 1 fuel h vls = Ok [out] /\
  NoDup out /\ forall x, x ∈ out <-> exists l, l ∈ vls /\ x ∈ l.
Proof.
  intros Hf. unfold s_passes. destruct (s_range_spec fuel h vls Hf) as (h' & loc & it & -> & R & Hl & Hne & Ea & In & Hs). cbn [result_bind s_again].
  destruct (s_iterate_spec fuel h' loc it R Hl Hne ltac:(by rewrite Ea)) as (out & h'' & E & _ & _ & _ & N & D & Hh & S & C). rewrite E. cbn [result_bind result_map]. exists out.
  split; [done|]. rewrite Ea, Hs in *. assert (forall x, x ∈ concat vls <-> exists l, l ∈ vls /\ x ∈ l) as Ec.
  { intros x. rewrite elem_of_list_In, in_concat. split; intros (l & H1 & H2); exists l; by rewrite ?elem_of_list_In in *. }
  assert (NoDup out /\ forall x, x ∈ out <-> x ∈ concat vls) as [H1 H2]; [|split; [done|]; intros x; by rewrite H2].
  destruct (concat vls) as [|x l]; simpl in *.
  - destruct out; [|done]. split; [constructor|done].
  - destruct out as [|y out]; [done|]. injection Hh as ->. simpl in *. split.
    + constructor; [|done]. intros Hx. apply (D x Hx). by left.
    + intros z. split; [apply S|]. intros Hz. assert (z ∈ [x] \/ z ∈ out) as [->%elem_of_list_singleton|?]; [|by left|by right].
      apply C; [done|intros ? [= ->]; by left|done].
Qed.
(** Every later pass on the same range object gives the first transformer only. *)
Theorem C29_later_passes h vls fuel n : length (concat vls) < fuel -> exists out, s_passes (S n) fuel h vls = Ok (out :: replicate n (take 1 out)) /\
  NoDup out /\ forall x, x ∈ out <-> exists l, l ∈ vls /\ x ∈ l.
Proof.
  intros Hf. destruct (C29_first_pass_partial h vls fuel Hf) as (out & E1 & N & Hout). exists out. split; [|done].
  unfold s_passes in *. destruct (s_range_spec fuel h vls Hf) as (h' & loc & it & Er & R & Hl & Hne & Ea & In & Hs). rewrite Er in *. cbn [result_bind s_again] in *.
  destruct (s_iterate_spec fuel h' loc it R Hl Hne ltac:(by rewrite Ea)) as (out' & h'' & E & L & R' & I3 & _ & _ & Hh & _ & C). rewrite E in *. cbn [result_bind result_map] in *.
  injection E1 as ->. rewrite s_again_spec; [|done|lia|done|by rewrite Ea|].
  - cbn [result_bind]. do 4 f_equal. destruct out, (s_all it); simpl in *; try done. injection Hh as ->. done.
  - intros x Hx. apply I3, C; [done| |done]. intros y Hy. rewrite Ea in Hy. rewrite Hs. destruct (concat vls); [done|]. injection Hy as ->. by left.
Qed.
(** So iterating again does not give the same elements. *)
Theorem C29_second_pass_refuted : exists vls fuel l1 l2, s_passes 2 fuel [] vls = Ok [l1; l2] /\ l1 <> l2.
Proof. exists [["T1"; "T2"]; ["T1"; "T2"]], 9, ["T1"; "T2"], ["T1"]. split; [vm_compute; reflexivity|done]. Qed.
Example C29_case : s_passes 3 9 [] [["T1"; "T2"; "T1"]; []; ["T2"; "T3"]] = Ok [["T1"; "T2"; "T3"]; ["T1"]; ["T1"]].
Proof. vm_compute. reflexivity. Qed.
Print Assumptions C27_find.
Print Assumptions C27_strict_weak_order.
Print Assumptions C27_default.
Print Assumptions C28_flattened.
Print Assumptions C28_defined.
Print Assumptions C28_equality_refuted.
Print Assumptions C29_voltage_level_first.
Print Assumptions C29_first_pass_partial.
Print Assumptions C29_later_passes.
Print Assumptions C29_second_pass_refuted.
