(** Properties C23 and C24: loading limits. *)
From Coq Require Import Lqa.
From Verif Require Import Equip DblArith NetIndex NetIndexProofs Curve CurveProofs Limits LimitsProofs.
Local Open Scope nat_scope.

(** ** C24 *)
(** What accepted limits satisfy: decreasing durations (so no two limits with the same one), distinct non empty names, positive
    values, a permanent limit that is positive or undefined. *)
Theorem C24_accepted l : accepted_limits l ->
  (forall i j t u, i < j -> l_temp l !! i = Some t -> l_temp l !! j = Some u -> tl_dur u < tl_dur t /\ tl_name t <> tl_name u) /\
  (forall t, t ∈ l_temp l -> tl_name t <> "" /\ positive (tl_value t)) /\
  (l_perm l = NaN \/ positive (l_perm l)) /\
  (forall d, (forall t, t ∈ l_temp l -> tl_dur t = d -> temporary_limit_value l d = tl_value t) /\
             ((forall t, t ∈ l_temp l -> tl_dur t <> d) -> temporary_limit_value l d = NaN)).
Proof.
  intros (D & V & N & P)%accepted_limits_inv. split; [|split; [done|split]].
  - intros i j t u Hij Ht Hu. split; [by apply (D i j)|]. intros E. assert (i = j) as ->; [|lia].
    eapply NoDup_lookup; [exact N| |]; rewrite list_lookup_fmap; [by rewrite Ht|rewrite Hu; simpl; by rewrite E].
  - destruct (l_perm l) as [| |x|]; simpl in *; try tauto; try (right; done). right. unfold positive. simpl. lra.
  - intros d. unfold temporary_limit_value. destruct (list_find (fun t => tl_dur t = d) (l_temp l)) as [[i t]|] eqn:E.
    + apply list_find_Some in E as (Hi & Ed & _). split; [|intros H; exfalso; apply (H t); [by eapply elem_of_list_lookup_2|done]].
      intros u [j Hj]%elem_of_list_lookup Eu. destruct (lt_eq_lt_dec i j) as [[L| ->]|L]; [|congruence|].
      * pose proof (D i j _ _ L Hi Hj). lia.
      * pose proof (D j i _ _ L Hj Hi). lia.
    + apply list_find_None in E. rewrite Forall_forall in E. split; [|done]. intros t Ht Et. exfalso. by apply (E t).
Qed.
(** Ending a temporary limit: accepted iff its value is positive, its duration and its name set; the name kept is the given one,
    or with ensureNameUnicity a fresh one; if no limit of the adder has that duration the limit is added and nothing else
    changes; otherwise nothing changes, although the call succeeds. *)
Theorem C24_end_partial ops name v d fict ensure r l' : let l := l_temp (la_run ops).1 in
  end_temporary_limit name v d fict ensure l = (r, l') ->
  ((exists u, r = Ok u) <-> positive v /\ d <> None /\ name <> "") /\
  (forall u, r = Ok u -> (ensure = false -> u = name) /\ (ensure = true -> is_unique_id (name_exists l) name u /\ u ∉ map tl_name l)) /\
  (forall u du, r = Ok u -> d = Some du -> (forall t, t ∈ l -> tl_dur t <> du) -> forall t, t ∈ l' <-> t = mkTl u v du fict \/ t ∈ l) /\
  (forall t du, d = Some du -> t ∈ l -> tl_dur t = du -> l' = l) /\
  ((forall u, r <> Ok u) -> l' = l).
Proof.
  intros l E. destruct (la_inv ops) as [[D _] _]. fold l in D. pose proof (end_limit_cases name v d fict ensure l) as H. rewrite E in H.
  destruct H as [((m & ->) & -> & Hn)|(u & du & -> & Hp & -> & Hn & Hu & Hf & ->)].
  - split; [split; [by intros [? ?]|done]|]. repeat split; try done.
  - split; [split; [done|eauto]|]. split.
    { intros u' [= <-]. destruct ensure; split; try done. intros _. split; [done|]. intros X%name_exists_spec.
      apply is_unique_id_fresh in Hf as [Hf _]. congruence. }
    split; [intros u' du' [= <-] [= <-] Ha t; by apply emplace_absent|]. split.
    + intros t du' [= <-] Ht Et. by apply (emplace_present _ _ t).
    + intros X. exfalso. by apply (X u).
Qed.
(** A limit with the duration of another one is dropped without notice. *)
Theorem C24_lost_limit_refuted : exists ops name v d u l', end_temporary_limit name v (Some d) false false (l_temp (la_run ops).1) = (Ok u, l') /\
  forall t, t ∈ l' -> tl_name t <> name.
Proof.
  exists [LEnd "20'" (Fin 1200) (Some 1200) false false], "10'", (Fin 1300), 1200, "10'", [mkTl "20'" (Fin 1200) 1200 false].
  split; [vm_compute; reflexivity|]. by intros t ->%elem_of_list_singleton.
Qed.
(** add(): accepts iff the permanent limit is positive or undefined and the names are distinct, and gives exactly the values of
    the adder. *)
Theorem C24_add ops l : let a := (la_run ops).1 in
  limits_add a = Ok l <-> l = a /\ (l_perm a = NaN \/ positive (l_perm a)) /\ NoDup (map tl_name (l_temp a)).
Proof.
  intros a. unfold limits_add. assert (checkPermanentLimit (l_perm a) = Ok tt <-> l_perm a = NaN \/ positive (l_perm a)) as Hp.
  { unfold checkPermanentLimit. rewrite check_ok. destruct (l_perm a) as [| |x|]; simpl; try (split; [by auto|done]); try (split; [by right|done]); try (split; [done|by intros [?|[]]]).
    unfold positive, qleb. simpl. rewrite <- not_true_iff_false, Qle_bool_iff. split; [intros H; right; lra|]. intros [?|?]; [done|lra]. }
  pose proof (check_names_ok (l_temp a) []) as Hn. destruct (checkPermanentLimit (l_perm a)) as [[]|m| |] eqn:E1.
  - destruct (check_names_throw (l_temp a) []) as [E2|[m E2]]; rewrite E2 in *; simpl.
    + split; [intros [= <-]; split; [done|]; split; [by apply Hp|by apply Hn]|by intros [-> _]].
    + split; [done|]. intros (_ & _ & H). assert (@Throw unit m = Ok tt) by (apply Hn; split; [done|by intros ? ? ?%elem_of_nil]). done.
  - split; [done|]. intros (_ & H%Hp & _). done.
  - split; [done|]. intros (_ & H%Hp & _). done.
  - split; [done|]. intros (_ & H%Hp & _). done.
Qed.
(** If all the temporary limits are ended with ensureNameUnicity, add() cannot fail because of the names. *)
Definition ensured (o : laop) : Prop := match o with LEnd _ _ _ _ e => e = true | _ => True end.
Theorem C24_ensured ops : Forall ensured ops -> (l_perm (la_run ops).1 = NaN \/ positive (l_perm (la_run ops).1)) ->
  limits_add (la_run ops).1 = Ok (la_run ops).1.
Proof.
  intros He Hp. apply C24_add. split; [done|]. split; [done|]. clear Hp.
  induction ops as [|o ops IH] using rev_ind; [constructor|]. apply Forall_app in He as [H1 H2]. apply Forall_cons in H2 as [H2 _]. specialize (IH H1).
  rewrite la_run_app. destruct (la_inv ops) as [[D _] _]. destruct (la_run ops) as [a ls]. simpl in *. destruct o as [x|n v d f e| |x]; simpl.
  - done.
  - simpl in H2. subst e. pose proof (end_limit_cases n v d f true (l_temp a)) as H. destruct (end_temporary_limit n v d f true (l_temp a)) as [r l'].
    destruct H as [(_ & -> & _)|(u & du & -> & _ & -> & _ & _ & Hu & ->)]; [done|]. simpl.
    apply is_unique_id_fresh in Hu as [Hu _]. assert (u ∉ map tl_name (l_temp a)) as Hu' by (rewrite <- name_exists_spec; congruence). clear -IH Hu'.
    induction (l_temp a) as [|t l IHl]; simpl; [constructor; [apply not_elem_of_nil|constructor]|]. simpl in *.
    apply NoDup_cons in IH as [N1 N2]. apply not_elem_of_cons in Hu' as [U1 U2]. destruct (du <? tl_dur t); simpl.
    + constructor; [|by apply IHl]. intros (w & E & Hw)%elem_of_list_fmap. apply emplace_sub in Hw as [->|Hw]; [simpl in E; congruence|].
      apply N1, elem_of_list_fmap. eauto.
    + destruct (tl_dur t <? du); simpl; constructor; try done; [apply not_elem_of_cons; done|]. by constructor.
  - by destruct (limits_add a).
  - destruct ls; [done|]. by destruct (checkPermanentLimit x).
Qed.
Definition ex_lops : list laop :=
  [LPermanent (Fin 1000); LEnd "5'" (Fin 1400) (Some 300) false true; LEnd "20'" (Fin 1200) (Some 1200) false true; LEnd "5'" (Fin 1600) (Some 60) true true; LAdd].
Definition ex_limits : limits := mkL (Fin 1000) [mkTl "20'" (Fin 1200) 1200 false; mkTl "5'" (Fin 1400) 300 false; mkTl "5'#0" (Fin 1600) 60 true].
Example C24_case : accepted_limits ex_limits /\ Forall ensured ex_lops /\ (la_run ex_lops).1 = ex_limits.
Proof. split; [|split]; [exists ex_lops; vm_compute; by left|by repeat constructor|vm_compute; reflexivity]. Qed.

(** ** C23 *)
(** Which temporary limit is reported, for any limits, reduction and value: that of the first interval with the value. *)
Theorem C23_temporary_limit l r i o : check_temporary (Some l) r i = Some o <->
  defined (l_perm l) /\ exists k, in_interval l r i k /\ (forall j, j < k -> ~ in_interval l r i j) /\
    l_temp l !! k = Some (ov_limit o) /\ thresholds l !! k = Some (ov_prev o) /\ ("" :: map tl_name (l_temp l)) !! k = Some (ov_prev_name o).
Proof. apply check_temporary_spec. Qed.
(** Ascending limits: the interval is unique, and nothing is reported iff the value is undefined, below the permanent limit
    or, and this is what the property does not say, at or above the last limit. *)
Theorem C23_no_overload_partial l q i top : accepted_limits l -> ascending l -> (0 < q)%Q -> defined (l_perm l) -> last (thresholds l) = Some top ->
  (check_temporary (Some l) (Fin q) i = None <-> i = NaN \/ elt i (dmul (l_perm l) (Fin q)) \/ ele (dmul top (Fin q)) i) /\
  (forall j k, in_interval l (Fin q) i j -> in_interval l (Fin q) i k -> j = k).
Proof.
  intros (_ & V & _)%accepted_limits_inv A Hq D Hl. assert (forall t, t ∈ l_temp l -> positive (tl_value t)) as V' by (intros t Ht; by apply V).
  pose proof (thresholds_defined l D V') as TD. split.
  - split.
    + intros Hn. destruct (decide (is_nan i = true)) as [->%is_nan_spec|Di]; [by left|]. apply not_true_is_false, is_nan_false in Di. right.
      assert (defined (dmul (l_perm l) (Fin q))) by (by apply dmul_defined).
      assert (defined top) as Dt by (rewrite last_lookup in Hl; by eapply TD). assert (defined (dmul top (Fin q))) by (by apply dmul_defined).
      destruct (dlt i (dmul (l_perm l) (Fin q))) eqn:E1; [left; by apply dlt_spec|]. apply dlt_false in E1; [|done|done].
      destruct (dlt i (dmul top (Fin q))) eqn:E2; [|right; by apply dlt_false]. apply dlt_spec in E2. exfalso.
      destruct (interval_cover l q i top Hq Di TD Hl E1 E2) as [k Hk].
      assert (exists k, in_interval l (Fin q) i k /\ forall j, j < k -> ~ in_interval l (Fin q) i j) as (m & Hm & Hmin).
      { exists k. split; [done|]. intros j Hj Hij. assert (k <= j); [|lia]. eapply (interval_unique l q i i); [done|done| |done|done].
        destruct i; simpl; try done. apply Qle_refl. }
      pose proof Hm as (lo & hi & Hlo & Hhi & _). simpl in Hhi. rewrite list_lookup_fmap in Hhi. apply fmap_Some in Hhi as (t & Ht & _).
      destruct (lookup_lt_is_Some_2 ("" :: map tl_name (l_temp l)) m) as [n Hnm].
      { simpl. rewrite map_length. apply lookup_lt_Some in Ht. lia. }
      assert (check_temporary (Some l) (Fin q) i = Some (mkOv t n lo)) as X by (apply C23_temporary_limit; split; [done|]; exists m; done). congruence.
    + intros H. destruct (check_temporary (Some l) (Fin q) i) as [o|] eqn:E; [|done]. exfalso.
      apply C23_temporary_limit in E as (_ & k & (lo & hi & Hlo & Hhi & H1 & H2) & _). destruct H as [->|[H|H]].
      * by destruct (dmul hi (Fin q)).
      * assert (ele (dmul (l_perm l) (Fin q)) (dmul lo (Fin q))) as X.
        { destruct k as [|k]; [injection Hlo as <-|apply elt_ele, dmul_lt; [done|]; by apply (A 0 (S k)); [lia| |]].
          destruct (dmul (l_perm l) (Fin q)); simpl; try done. apply Qle_refl. }
        eapply ele_elt_false; [by eapply ele_trans|done].
      * rewrite last_lookup in Hl. assert (ele (dmul hi (Fin q)) (dmul top (Fin q))) as X.
        { pose proof (lookup_lt_Some _ _ _ Hhi) as L. destruct (decide (S k = pred (length (thresholds l)))) as [Ek|].
          - rewrite <- Ek in Hl. assert (top = hi) as -> by congruence. destruct (dmul hi (Fin q)); simpl in *; try done. apply Qle_refl.
          - apply elt_ele, dmul_lt; [done|]. by apply (A (S k) (pred (length (thresholds l)))); [lia| |]. }
        eapply ele_elt_false; [by eapply ele_trans|done].
  - intros j k Hj Hk. assert (ele i i) as Hi.
    { destruct Hj as (? & ? & _ & _ & _ & X). destruct i; simpl in *; try done. apply Qle_refl. }
    pose proof (interval_unique l q i i j k Hq A Hi Hj Hk). pose proof (interval_unique l q i i k j Hq A Hi Hk Hj). lia.
Qed.
(** A value above the last temporary limit is overloaded and yet no temporary limit is reported; the overload duration is then
    unlimited, while it is finite for a smaller value. *)
Lemma ex_ascending : ascending ex_limits.
Proof.
  intros [|[|[|[|i]]]] [|[|[|[|j]]]] a b Hij Ha Hb; simpl in *; try lia; try done; injection Ha as <-; injection Hb as <-; simpl; lra.
Qed.
Theorem C23_above_last_refuted : exists l i i', accepted_limits l /\ ascending l /\ elt i i' /\
  check_permanent (Some l) (Fin 1) i' = true /\ check_temporary (Some l) (Fin 1) i' = None /\
  overload_duration (Some l) None i NaN < overload_duration (Some l) None i' NaN.
Proof.
  exists ex_limits, (Fin 1500), (Fin 2000). split; [apply C24_case|]. split; [apply ex_ascending|]. split; [simpl; lra|]. split; [vm_compute; reflexivity|].
  split; [vm_compute; reflexivity|]. unfold overload_duration.
  assert (check_temporary (Some ex_limits) (Fin 1) (Fin 2000) = None) as -> by (vm_compute; reflexivity).
  assert (check_temporary (Some ex_limits) (Fin 1) (Fin 1500) = Some (mkOv (mkTl "5'#0" (Fin 1600) 60 true) "5'" (Fin 1400))) as -> by (vm_compute; reflexivity).
  cbn [ov_limit tl_dur]. change (check_temporary None (Fin 1) NaN) with (@None overload). cbv iota. pose proof umax_big. lia.
Qed.
(** Below the last limits the overload duration does not increase with the currents. *)
Definition covered (lim : option limits) (i : dbl) : Prop :=
  match lim with
  | None => True
  | Some l => accepted_limits l /\ ascending l /\ defined (l_perm l) /\ (forall t, t ∈ l_temp l -> tl_dur t <= umax) /\
              exists top, last (thresholds l) = Some top /\ elt i (dmul top (Fin 1))
  end.
Lemma side_antitone lim i i' : ele i i' -> covered lim i' ->
  (match check_temporary lim (Fin 1) i' with Some o => tl_dur (ov_limit o) | None => umax end) <=
  (match check_temporary lim (Fin 1) i with Some o => tl_dur (ov_limit o) | None => umax end).
Proof.
  intros Hi C. destruct lim as [l|]; [|done]. destruct C as (Ac & A & D & U & top & Hl & Ht).
  assert (forall x o, check_temporary (Some l) (Fin 1) x = Some o -> tl_dur (ov_limit o) <= umax) as Um.
  { intros x o H. apply C23_temporary_limit in H as (_ & k & _ & _ & H & _). apply U. by eapply elem_of_list_lookup_2. }
  destruct (C23_no_overload_partial l 1 i' top Ac A ltac:(lra) D Hl) as [N' _].
  destruct (C23_no_overload_partial l 1 i top Ac A ltac:(lra) D Hl) as [N _].
  destruct (check_temporary (Some l) (Fin 1) i') as [o'|] eqn:E'.
  - destruct (check_temporary (Some l) (Fin 1) i) as [o|] eqn:E; [|by eapply Um].
    apply C23_temporary_limit in E as (_ & k & Hk & _ & H1 & _). apply C23_temporary_limit in E' as (_ & k' & Hk' & _ & H1' & _).
    assert (k <= k') as Hkk by (by eapply (interval_unique l 1 i i'); [lra| | | |]).
    apply accepted_limits_inv in Ac as (DD & _). destruct (decide (k = k')) as [->|]; [assert (ov_limit o = ov_limit o') as -> by congruence; done|].
    apply Nat.lt_le_incl, (DD k k'); [lia|done|done].
  - destruct (proj1 N' eq_refl) as [->|[H|H]]; [by destruct i| |by exfalso; eapply ele_elt_false].
    rewrite (proj2 N); [done|]. right. left. by eapply ele_elt_trans.
Qed.
Theorem C23_duration_antitone_partial lim1 lim2 i1 i1' i2 i2' : ele i1 i1' -> ele i2 i2' -> covered lim1 i1' -> covered lim2 i2' ->
  overload_duration lim1 lim2 i1' i2' <= overload_duration lim1 lim2 i1 i2.
Proof.
  intros H1 H2 C1 C2. unfold overload_duration. pose proof (side_antitone lim1 i1 i1' H1 C1). pose proof (side_antitone lim2 i2 i2' H2 C2).
  by apply Nat.min_le_compat.
Qed.
(** The duration is that of one of the reported limits, the smallest, and unlimited iff none is reported (or an unlimited one). *)
Theorem C23_duration lim1 lim2 i1 i2 o : (check_temporary lim1 (Fin 1) i1 = Some o \/ check_temporary lim2 (Fin 1) i2 = Some o) ->
  overload_duration lim1 lim2 i1 i2 <= tl_dur (ov_limit o).
Proof. unfold overload_duration. intros [-> | ->]; lia. Qed.
Theorem C23_duration_reached lim1 lim2 i1 i2 : overload_duration lim1 lim2 i1 i2 <> umax ->
  exists o, (check_temporary lim1 (Fin 1) i1 = Some o \/ check_temporary lim2 (Fin 1) i2 = Some o) /\ overload_duration lim1 lim2 i1 i2 = tl_dur (ov_limit o).
Proof.
  unfold overload_duration. destruct (check_temporary lim1 (Fin 1) i1) as [o1|], (check_temporary lim2 (Fin 1) i2) as [o2|].
  - intros _. destruct (Nat.min_dec (tl_dur (ov_limit o1)) (tl_dur (ov_limit o2))) as [->| ->]; eauto.
  - intros H. exists o1. split; [auto|]. lia.
  - intros H. exists o2. split; [auto|]. lia.
  - intros H. exfalso. apply H. apply Nat.min_id.
Qed.
(** A branch is overloaded iff a side has limits, a defined permanent limit, and a value at or above it. *)
Definition side_over (lim : option limits) (r i : dbl) : Prop := exists l, lim = Some l /\ ele (dmul (l_perm l) r) i.
Theorem C23_overloaded lim1 lim2 r i1 i2 : is_overloaded lim1 lim2 r i1 i2 = true <-> side_over lim1 r i1 \/ side_over lim2 r i2.
Proof.
  assert (forall lim i, check_permanent lim r i = true <-> side_over lim r i) as H.
  { intros [l|] i; simpl; [|split; [done|by intros (? & ? & _)]]. rewrite !andb_true_iff, !negb_true_iff, !is_nan_false, dle_spec. split.
    - intros [_ H]. by exists l.
    - intros (l' & [= <-] & H). split; [|done]. split; [intros E; rewrite E in H; destruct r; done|intros ->; by destruct (dmul (l_perm l) r)]. }
  unfold is_overloaded. rewrite orb_true_iff, !H. done.
Qed.
Example C23_case : accepted_limits ex_limits /\ ascending ex_limits /\ covered (Some ex_limits) (Fin 1300) /\
  check_temporary (Some ex_limits) (Fin 1) (Fin 1300) = Some (mkOv (mkTl "5'" (Fin 1400) 300 false) "20'" (Fin 1200)) /\
  overload_duration (Some ex_limits) None (Fin 1300) NaN = 300.
Proof.
  split; [apply C24_case|]. split; [apply ex_ascending|]. split.
  - split; [apply C24_case|]. split; [apply ex_ascending|]. split; [done|]. split.
    + intros t [->|[->|[->|?%elem_of_nil]%elem_of_cons]%elem_of_cons]%elem_of_cons; cbn [tl_dur]; pose proof umax_big; [lia|lia|lia|done].
    + eexists. split; [reflexivity|]. simpl. lra.
  - assert (check_temporary (Some ex_limits) (Fin 1) (Fin 1300) = Some (mkOv (mkTl "5'" (Fin 1400) 300 false) "20'" (Fin 1200))) as E by (vm_compute; reflexivity).
    split; [done|]. unfold overload_duration. rewrite E. cbn [ov_limit tl_dur]. change (check_temporary None (Fin 1) NaN) with (@None overload). cbv iota. pose proof umax_big. lia.
Qed.
Print Assumptions C24_accepted.
Print Assumptions C24_end_partial.
Print Assumptions C24_lost_limit_refuted.
Print Assumptions C24_add.
Print Assumptions C24_ensured.
Print Assumptions C23_temporary_limit.
Print Assumptions C23_no_overload_partial.
Print Assumptions C23_above_last_refuted.
Print Assumptions C23_duration_antitone_partial.
Print Assumptions C23_duration.
Print Assumptions C23_duration_reached.
Print Assumptions C23_overloaded.
