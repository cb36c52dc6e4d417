(** Properties C21 and C22: reactive limits. *)
From Coq Require Import Lqa Qabs.
From Verif Require Import Equip DblArith Curve CurveProofs.
Local Open Scope nat_scope.

(** ** C22 *)
Theorem C22_accepted_well_formed c : accepted c ->
  2 <= length c /\
  (forall i j e f, i < j -> c !! i = Some e -> c !! j = Some f -> elt (p_p e) (p_p f)) /\
  (forall e, e ∈ c -> defined (p_p e) /\ defined (p_minQ e) /\ defined (p_maxQ e)) /\
  (exists e f, e ∈ c /\ f ∈ c /\ cv_getMinP c = Ok (p_p e) /\ cv_getMaxP c = Ok (p_p f) /\ forall g, g ∈ c -> ele (p_p e) (p_p g) /\ ele (p_p g) (p_p f)).
Proof.
  intros [[H1 H2] H3]%accepted_wf. split; [done|]. split; [done|]. split; [done|].
  destruct (lookup_lt_is_Some_2 c 0) as [e He]; [lia|]. destruct (lookup_lt_is_Some_2 c (pred (length c))) as [f Hf]; [lia|].
  exists e, f. split; [by eapply elem_of_list_lookup_2|]. split; [by eapply elem_of_list_lookup_2|].
  unfold cv_getMinP, cv_getMaxP. rewrite last_lookup, Hf. split; [by destruct c; [|injection He as ->]|]. split; [done|].
  assert (forall g, g ∈ c -> ele (p_p g) (p_p g)) as Hr.
  { intros g Hg. destruct (H2 g Hg) as [D _]. destruct (p_p g); simpl; try done. apply Qle_refl. }
  intros g Hg. pose proof (Hr g Hg). apply elem_of_list_lookup in Hg as [i Hi]. split.
  - destruct (decide (i = 0)) as [->|]; [by assert (g = e) as -> by congruence|]. apply elt_ele, (H1 0 i); [lia|done|done].
  - destruct (decide (i = pred (length c))) as [->|]; [by assert (g = f) as -> by congruence|].
    apply elt_ele, (H1 i (pred (length c))); [apply lookup_lt_Some in Hi; lia|done|done].
Qed.
(** endPoint: accepted iff the values are defined and no point has that active power; the points are then those before and the
    new one, otherwise the same. *)
Theorem C22_end_point ops p n x r c' : ca_end_point p n x (ca_run ops).1 = (r, c') ->
  (r = Ok tt <-> defined p /\ defined n /\ defined x /\ forall e, e ∈ (ca_run ops).1 -> ~ deqv (p_p e) p) /\
  (r = Ok tt -> length c' = S (length (ca_run ops).1) /\ forall e, e ∈ c' <-> e = mkP p n x \/ e ∈ (ca_run ops).1) /\
  (r <> Ok tt -> c' = (ca_run ops).1).
Proof.
  intros E. destruct (end_point_cases p n x (ca_run ops).1) as [(m & E' & H)|(E' & H)]; [apply ca_run_wf|..]; rewrite E' in E; injection E as <- <-.
  - split; [split; [done|by intros ?%H]|]. done.
  - split; [done|]. split; [|done]. intros _. split; [apply cv_insert_length|]. intros e. apply cv_insert_elem.
Qed.
(** add: the curve has exactly the points of the adder; the adder starts again without points. *)
Theorem C22_add ops r c' : ca_add (ca_run ops).1 = (r, c') ->
  (2 <= length (ca_run ops).1 /\ r = Ok (ca_run ops).1 /\ c' = []) \/ (length (ca_run ops).1 < 2 /\ (exists m, r = Throw m) /\ c' = (ca_run ops).1).
Proof. unfold ca_add. case_bool_decide; intros [= <- <-]; [right|left]; repeat split; eauto; lia. Qed.
(** The order of the bounds is not checked: a curve with minQ > maxQ at every point is accepted. *)
Definition ex_bad_ops : list caop := [CEnd (Fin 0) (Fin 5) (Fin 1); CEnd (Fin 10) (Fin 5) (Fin 1); CAdd].
Theorem C22_bounds_order_refuted : exists c, accepted c /\ forall e, e ∈ c -> ~ ele (p_minQ e) (p_maxQ e).
Proof.
  exists [mkP (Fin 0) (Fin 5) (Fin 1); mkP (Fin 10) (Fin 5) (Fin 1)]. split; [exists ex_bad_ops; vm_compute; by left|].
  intros e [->|[->|?%elem_of_nil]%elem_of_cons]%elem_of_cons; [| |done]; intros H; simpl in H; lra.
Qed.
(** The fixed limits are checked. *)
Theorem C22_min_max n x l : mm_add n x = Ok l <-> l = (n, x) /\ ele n x.
Proof.
  unfold mm_add. destruct n as [| |a|], x as [| |b|]; simpl; try (split; [done|by intros [_ []]]); try (split; [by intros [= <-]|by intros [-> _]]).
  destruct (qltb b a) eqn:E.
  - split; [done|]. intros [_ H]. apply qltb_spec in E. lra.
  - split; [intros [= <-]; split; [done|]|by intros [-> _]]. apply Qnot_lt_le. intros H%qltb_spec. congruence.
Qed.
Definition ex_ops : list caop :=
  [CEnd (Fin 10) (Fin (-5)) (Fin 8); CEnd (Fin 0) (Fin (-10)) (Fin 10); CEnd (Fin 10) (Fin 1) (Fin 2); CEnd NaN (Fin 1) (Fin 2);
   CEnd (Fin 20) (Fin 0) (Fin 4); CAdd].
Definition ex_curve : curve := [mkP (Fin 0) (Fin (-10)) (Fin 10); mkP (Fin 10) (Fin (-5)) (Fin 8); mkP (Fin 20) (Fin 0) (Fin 4)].
Example C22_case : accepted ex_curve.
Proof. exists ex_ops. vm_compute. by left. Qed.

(** ** C21 *)
(** The two selections. *)
Notation bound_getter sel get := ((sel = p_minQ /\ get = cv_getMinQ) \/ (sel = p_maxQ /\ get = cv_getMaxQ)).
Lemma getter_eq sel (get : curve -> dbl -> result dbl) c p : bound_getter sel get -> get c p = cv_getQ sel c p.
Proof. by intros [[-> ->]|[-> ->]]. Qed.
(** At a point; below, above the curve. *)
Theorem C21_at_point sel get c e p : bound_getter sel get -> accepted c -> e ∈ c -> deqv (p_p e) p -> get c p = Ok (sel e).
Proof. intros G [[Hc _] _]%accepted_wf He Hd. rewrite (getter_eq _ _ _ _ G). by apply getQ_at. Qed.
Theorem C21_outside sel get c e p : bound_getter sel get -> accepted c -> e ∈ c ->
  (elt p (p_p e) /\ (forall f, f ∈ c -> ele (p_p e) (p_p f))) \/ (elt (p_p e) p /\ (forall f, f ∈ c -> ele (p_p f) (p_p e))) ->
  get c p = Ok (sel e).
Proof.
  intros G [[Hc _] _]%accepted_wf [i Hi]%elem_of_list_lookup Hd. rewrite (getter_eq _ _ _ _ G).
  assert (forall a b, ele a b -> ~ elt b a) as Hel.
  { intros a b H1 H2. destruct a, b; simpl in *; try done. lra. }
  destruct Hd as [[Hp Hm]|[Hp Hm]].
  - apply getQ_below; [done| |done]. destruct (decide (i = 0)) as [->|]; [done|]. exfalso.
    destruct (lookup_lt_is_Some_2 c 0) as [f Hf]; [apply lookup_lt_Some in Hi; lia|]. apply (Hel (p_p e) (p_p f)); [apply Hm; by eapply elem_of_list_lookup_2|].
    apply (Hc 0 i); [lia|done|done].
  - apply getQ_above; [done| |done]. rewrite last_lookup. pose proof (lookup_lt_Some _ _ _ Hi). destruct (decide (i = pred (length c))) as [->|]; [done|]. exfalso.
    destruct (lookup_lt_is_Some_2 c (pred (length c))) as [f Hf]; [lia|]. apply (Hel (p_p f) (p_p e)); [apply Hm; by eapply elem_of_list_lookup_2|].
    apply (Hc i (pred (length c))); [lia|done|done].
Qed.
(** Between neighbouring points with finite values: on the line through them, and between their bounds. *)
Local Open Scope Q_scope.
Theorem C21_between sel get c e1 e2 x1 y1 x2 y2 x : bound_getter sel get -> accepted c -> neighbours c e1 e2 ->
  p_p e1 = Fin x1 -> sel e1 = Fin y1 -> p_p e2 = Fin x2 -> sel e2 = Fin y2 -> x1 < x < x2 ->
  exists y, get c (Fin x) = Ok (Fin y) /\ (y - y1) * (x2 - x1) == (y2 - y1) * (x - x1) /\
    ((y1 <= y <= y2) \/ (y2 <= y <= y1)).
Proof.
  intros G [[Hc _] _]%accepted_wf Hn E1 F1 E2 F2 [L1 L2]. rewrite (getter_eq _ _ _ _ G).
  rewrite (getQ_between sel c e1 e2 (Fin x)); [|done|done|rewrite E1; done|rewrite E2; done].
  rewrite E1, E2, F1, F2. cbn [dplus dminus dneg ddiv dmul]. assert (Qeq_bool (x2 + - x1) 0 = false) as ->.
  { apply not_true_is_false. intros E%Qeq_bool_iff. lra. }
  cbn [dplus dminus dneg ddiv dmul]. eexists. split; [reflexivity|]. assert (~ x2 + - x1 == 0) by lra. split; [field; done|].
  assert (0 < / (x2 + - x1)) as P by (apply Qinv_lt_0_compat; lra).
  set (t := (x + - x1) * / (x2 + - x1)). assert (0 <= t) as T0 by (apply Qmult_le_0_compat; lra).
  assert (t <= 1) as T1. { assert (0 <= (x2 - x) * / (x2 + - x1)) as H' by (apply Qmult_le_0_compat; lra).
    assert (t + (x2 - x) * / (x2 + - x1) == 1) as H'' by (unfold t; field; done). lra. }
  assert ((y2 + - y1) / (x2 + - x1) * (x + - x1) == t * (y2 - y1)) as -> by (unfold t; field; done).
  destruct (Qlt_le_dec y1 y2); [left|right].
  - assert (0 <= t * (y2 - y1)) by (apply Qmult_le_0_compat; lra). assert (0 <= (1 - t) * (y2 - y1)) by (apply Qmult_le_0_compat; lra). lra.
  - assert (0 <= t * (y1 - y2)) by (apply Qmult_le_0_compat; lra). assert (0 <= (1 - t) * (y1 - y2)) by (apply Qmult_le_0_compat; lra). lra.
Qed.
(** The getters never throw, for any argument. *)
Theorem C21_total sel get c p : bound_getter sel get -> accepted c -> exists y, get c p = Ok y.
Proof.
  intros G [W Hl]%accepted_wf. rewrite (getter_eq _ _ _ _ G). destruct (decide (is_nan p = true)) as [Hn|Hn].
  - unfold cv_getQ. destruct c as [|e c]; [simpl in Hl; lia|]. apply is_nan_spec in Hn as ->.
    assert (cv_lower_bound (e :: c) NaN = 0%nat) as -> by (simpl; by destruct (p_p e)). simpl. destruct (dis_equal (p_p e) NaN); simpl; eauto.
  - apply not_true_is_false, is_nan_false in Hn. assert (c <> []) as Hne by (by intros ->; simpl in Hl; lia).
    destruct (position c p W Hne Hn) as [(e & He & Hd)|[(e & He & Hd)|[(e & He & Hd)|(e1 & e2 & H1 & H2 & H3)]]]; destruct W as [Hc _].
    + rewrite (getQ_at sel c e) by done. eauto.
    + rewrite (getQ_below sel c e) by done. eauto.
    + rewrite (getQ_above sel c e) by done. eauto.
    + rewrite (getQ_between sel c e1 e2) by done. eauto.
Qed.
(** A finite curve: the getters are finite and Lipschitz continuous in p, and in the order of the bounds at the points. *)
Theorem C21_continuous sel get c : bound_getter sel get -> accepted c -> finite_curve c ->
  (forall x, exists y, get c (Fin x) = Ok (Fin y)) /\
  exists K, forall x x' y y', get c (Fin x) = Ok (Fin y) -> get c (Fin x') = Ok (Fin y') -> Qabs (y' - y) <= K * Qabs (x' - x).
Proof.
  intros G [[Hc D] Hl]%accepted_wf F. destruct c as [|e c]; [simpl in Hl; lia|].
  assert (forall f, f ∈ e :: c -> finite (p_p f) /\ finite (sel f)) as Hf.
  { intros f H. destruct (F f H) as (F1 & F2 & F3). by destruct G as [[-> _]|[-> _]]. }
  assert (forall x, exists y, get (e :: c) (Fin x) = Ok (Fin y) /\ y == interp (val (p_p e)) (val (sel e)) (map (xy sel) c) x) as HI.
  { intros x. rewrite (getter_eq _ _ _ _ G). by apply getQ_interp. }
  split; [intros x; destruct (HI x) as (y & H & _); eauto|].
  destruct (interp_lipschitz (val (p_p e)) (val (sel e)) (map (xy sel) c)) as (K & HK & HL); [apply xincreasing_map; [done|intros f H; by apply Hf]|].
  exists K. intros x x' y y' H H'. destruct (HI x) as (z & Hz & Ez), (HI x') as (z' & Hz' & Ez').
  assert (y = z) as -> by congruence. assert (y' = z') as -> by congruence. rewrite Ez, Ez'.
  destruct (Qlt_le_dec x x') as [L|L].
  - specialize (HL x x' (Qlt_le_weak _ _ L)). rewrite (Qabs_pos (x' - x)) by lra. apply Qabs_Qle_condition. lra.
  - specialize (HL x' x L). rewrite (Qabs_neg (x' - x)) by lra. apply Qabs_Qle_condition. lra.
Qed.
Theorem C21_bounds_in_order c : accepted c -> finite_curve c -> (forall e, e ∈ c -> ele (p_minQ e) (p_maxQ e)) ->
  forall x, exists lo hi, cv_getMinQ c (Fin x) = Ok (Fin lo) /\ cv_getMaxQ c (Fin x) = Ok (Fin hi) /\ lo <= hi.
Proof.
  intros [[Hc D] Hl]%accepted_wf F H x. destruct c as [|e c]; [simpl in Hl; lia|].
  destruct (getQ_interp p_minQ c e x Hc) as (lo & Hlo & Elo); [intros f Hf; destruct (F f Hf) as (? & ? & ?); done|].
  destruct (getQ_interp p_maxQ c e x Hc) as (hi & Hhi & Ehi); [intros f Hf; destruct (F f Hf) as (? & ? & ?); done|].
  exists lo, hi. split; [done|]. split; [done|]. rewrite Elo, Ehi.
  assert (forall f, f ∈ e :: c -> val (p_minQ f) <= val (p_maxQ f)) as Hv.
  { intros f Hf. destruct (F f Hf) as (_ & F2%finite_val & F3%finite_val). specialize (H f Hf). rewrite F2, F3 in H. done. }
  apply interp_le; [apply xincreasing_map; [done|intros f Hf; by apply F]|apply Hv; by left|].
  assert (forall f, f ∈ c -> val (p_minQ f) <= val (p_maxQ f)) as Hv' by (intros f Hf; apply Hv; by right). clear -Hv'.
  induction c as [|f c IH]; simpl; constructor; [split; [done|apply Hv'; by left]|]. apply IH. intros g Hg. apply Hv'. by right.
Qed.
(** Infinite bounds are accepted by the adder, but then the interpolation is undefined: minQ = -infinity at both points. *)
Theorem C21_infinite_bounds_refuted : exists c x, accepted c /\ (forall e, e ∈ c -> p_minQ e = NInf) /\ cv_getMinQ c (Fin x) = Ok NaN.
Proof.
  exists [mkP (Fin 0) NInf (Fin 1); mkP (Fin 10) NInf (Fin 1)], 5. split; [exists [CEnd (Fin 0) NInf (Fin 1); CEnd (Fin 10) NInf (Fin 1); CAdd]; vm_compute; by left|].
  split; [|vm_compute; done]. by intros e [->|[->|?%elem_of_nil]%elem_of_cons]%elem_of_cons.
Qed.
Example C21_case : accepted ex_curve /\ finite_curve ex_curve /\ neighbours ex_curve (mkP (Fin 0) (Fin (-10)) (Fin 10)) (mkP (Fin 10) (Fin (-5)) (Fin 8)) /\
  exists y, cv_getMaxQ ex_curve (Fin (5#2)) = Ok (Fin y) /\ y == 19#2.
Proof.
  split; [apply C22_case|]. split; [by intros e [->|[->|[->|?%elem_of_nil]%elem_of_cons]%elem_of_cons]%elem_of_cons|]. split.
  - split; [by left|]. split; [by right; left|]. split; [simpl; lra|].
    intros e [->|[->|[->|?%elem_of_nil]%elem_of_cons]%elem_of_cons]%elem_of_cons; simpl; [lra|lra|lra|done].
  - eexists. split; [vm_compute; reflexivity|]. vm_compute. done.
Qed.

Print Assumptions C21_at_point.
Print Assumptions C21_outside.
Print Assumptions C21_between.
Print Assumptions C21_total.
Print Assumptions C21_continuous.
Print Assumptions C21_bounds_in_order.
Print Assumptions C21_infinite_bounds_refuted.
Print Assumptions C22_accepted_well_formed.
Print Assumptions C22_end_point.
Print Assumptions C22_add.
Print Assumptions C22_bounds_order_refuted.
Print Assumptions C22_min_max.
