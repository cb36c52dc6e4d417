From Coq Require Import Lqa.
From Verif Require Import Equip DblArith Curve.
Local Open Scope nat_scope.

(** ** The order *)
Lemma elt_trans a b c : elt a b -> elt b c -> elt a c.
Proof. destruct a, b, c; simpl; try done. apply Qlt_trans. Qed.
Lemma elt_irrefl a : ~ elt a a.
Proof. intros H. destruct a; simpl in H; try done. by apply Qlt_irrefl in H. Qed.
Lemma elt_asym a b : elt a b -> ~ elt b a.
Proof. intros H1 H2. by apply (elt_irrefl a), (elt_trans a b a). Qed.
Lemma elt_total a b : defined a -> defined b -> elt a b \/ deqv a b \/ elt b a.
Proof.
  destruct a as [| |x|], b as [| |y|]; simpl; try done; auto.
  intros _ _. destruct (Q_dec x y) as [[?|?]|?]; auto.
Qed.
Lemma deqv_sym a b : deqv a b -> deqv b a.
Proof. destruct a, b; simpl; try done. Qed.
Lemma elt_deqv_l a a' b : deqv a a' -> elt a b -> elt a' b.
Proof. destruct a, a', b; simpl; try done. by intros ->. Qed.
Lemma elt_deqv_r a b b' : deqv b b' -> elt a b -> elt a b'.
Proof. destruct a, b, b'; simpl; try done. by intros ->. Qed.
Lemma elt_not_deqv a b : elt a b -> ~ deqv a b.
Proof. intros H E. apply (elt_irrefl b). by eapply elt_deqv_l. Qed.
Lemma dlt_false_iff a b : dlt a b = false <-> ~ elt a b.
Proof. rewrite <- dlt_spec. destruct (dlt a b); split; congruence. Qed.
Lemma elt_ele a b : elt a b -> ele a b.
Proof. destruct a, b; simpl; try done. apply Qlt_le_weak. Qed.

(** ** Curves in increasing order *)
Definition increasing (c : curve) : Prop := forall i j e f, i < j -> c !! i = Some e -> c !! j = Some f -> elt (p_p e) (p_p f).
Definition keys_defined (c : curve) : Prop := forall e, e ∈ c -> defined (p_p e).
Lemma increasing_tail e c : increasing (e :: c) -> increasing c.
Proof. intros H i j x y Hij Hx Hy. apply (H (S i) (S j) x y); [lia|done|done]. Qed.
Lemma increasing_head e c f : increasing (e :: c) -> f ∈ c -> elt (p_p e) (p_p f).
Proof. intros H [j Hj]%elem_of_list_lookup. apply (H 0 (S j) e f); [lia|done|done]. Qed.
Lemma increasing_cons e c : increasing c -> (forall f, f ∈ c -> elt (p_p e) (p_p f)) -> increasing (e :: c).
Proof.
  intros H He [|i] [|j] x y Hij Hx Hy; simpl in *; [lia| |lia|apply (H i j); [lia|done|done]].
  injection Hx as <-. apply He, elem_of_list_lookup. eauto.
Qed.
Lemma cv_insert_elem e c x : x ∈ cv_insert e c <-> x = e \/ x ∈ c.
Proof.
  induction c as [|f c IH]; simpl; [rewrite elem_of_list_singleton, elem_of_nil; tauto|].
  destruct (dlt (p_p f) (p_p e)); rewrite !elem_of_cons; [rewrite IH|]; tauto.
Qed.
Lemma cv_insert_increasing e c : increasing c -> keys_defined c -> defined (p_p e) ->
  (forall f, f ∈ c -> ~ deqv (p_p f) (p_p e)) -> increasing (cv_insert e c).
Proof.
  induction c as [|f c IH]; simpl; intros H D De Hn.
  - apply increasing_cons; [done|]. by intros ? ?%elem_of_nil.
  - destruct (dlt (p_p f) (p_p e)) eqn:E.
    + apply dlt_spec in E. apply increasing_cons.
      * apply IH; [by eapply increasing_tail|intros x Hx; apply D; by right|done|intros x Hx; apply Hn; by right].
      * intros x [->|Hx]%cv_insert_elem; [done|]. by eapply increasing_head.
    + apply dlt_false_iff in E. apply increasing_cons; [done|].
      assert (elt (p_p e) (p_p f)) as Hef.
      { destruct (elt_total (p_p e) (p_p f)) as [?|[X|?]]; [done|apply D; by left|done| |done]. exfalso. apply (Hn f); [by left|]. by apply deqv_sym. }
      intros x [->|Hx]%elem_of_cons; [done|]. eapply elt_trans; [done|]. by eapply increasing_head.
Qed.
Lemma cv_insert_length e c : length (cv_insert e c) = S (length c).
Proof. induction c as [|f c IH]; simpl; [done|]. destruct (dlt (p_p f) (p_p e)); simpl; by rewrite ?IH. Qed.
Lemma cv_find_spec c p : keys_defined c -> defined p -> (exists e, cv_find c p = Some e) <-> exists e, e ∈ c /\ deqv (p_p e) p.
Proof.
  intros D Dp. unfold cv_find.
  assert (forall e, e ∈ c -> (negb (dlt (p_p e) p || dlt p (p_p e)) = true <-> deqv (p_p e) p)) as E.
  { intros e He. rewrite <- dis_equal_spec. unfold dis_equal. apply D in He. apply is_nan_false in He, Dp. by rewrite He, Dp. }
  split.
  - intros [e He]. apply last_Some_elem_of, elem_of_list_filter in He as [H1 H2]. exists e. split; [done|]. by apply E.
  - intros (e & He & Hd). destruct (last (filter _ c)) as [x|] eqn:L; [eauto|]. apply last_None in L.
    assert (e ∈ filter (fun e => negb (dlt (p_p e) p || dlt p (p_p e)) = true) c) as H by (apply elem_of_list_filter; split; [by apply E|done]).
    rewrite L in H. by apply elem_of_nil in H.
Qed.

(** ** The adder *)
Definition well_formed (c : curve) : Prop :=
  increasing c /\ forall e, e ∈ c -> defined (p_p e) /\ defined (p_minQ e) /\ defined (p_maxQ e).
Lemma wf_keys c : well_formed c -> keys_defined c.
Proof. intros [_ H] e He. by apply H. Qed.
Lemma end_point_cases p n x c : well_formed c ->
  (exists m, ca_end_point p n x c = (Throw m, c) /\ ~ (defined p /\ defined n /\ defined x /\ forall e, e ∈ c -> ~ deqv (p_p e) p)) \/
  (ca_end_point p n x c = (Ok tt, cv_insert (mkP p n x) c) /\ defined p /\ defined n /\ defined x /\ forall e, e ∈ c -> ~ deqv (p_p e) p).
Proof.
  intros W. unfold ca_end_point.
  destruct (is_nan p) eqn:Ep; [left; eexists; split; [done|]; apply is_nan_spec in Ep as ->; by intros [? _]|].
  destruct (is_nan n) eqn:En; [left; eexists; split; [done|]; apply is_nan_spec in En as ->; by intros (_ & ? & _)|].
  destruct (is_nan x) eqn:Ex; [left; eexists; split; [done|]; apply is_nan_spec in Ex as ->; by intros (_ & _ & ? & _)|].
  apply is_nan_false in Ep, En, Ex. destruct (cv_find c p) as [e|] eqn:E.
  - left. eexists. split; [done|]. intros (_ & _ & _ & H). destruct (proj1 (cv_find_spec c p (wf_keys c W) Ep)) as (f & Hf & Hd); [eauto|]. by apply (H f).
  - right. split; [done|]. repeat split; [done..|]. intros f Hf Hd.
    destruct (proj2 (cv_find_spec c p (wf_keys c W) Ep)) as [g Hg]; [eauto|]. congruence.
Qed.
Lemma end_point_wf p n x c : well_formed c -> well_formed (ca_end_point p n x c).2.
Proof.
  intros W. destruct (end_point_cases p n x c W) as [(m & -> & _)|(-> & Dp & Dn & Dx & H)]; [done|]. destruct W as [W1 W2]. split.
  - apply cv_insert_increasing; [done|intros e He; by apply W2|done|done].
  - intros e [->|He]%cv_insert_elem; [done|]. by apply W2.
Qed.
Lemma ca_run_wf ops : well_formed (ca_run ops).1 /\ forall c, c ∈ (ca_run ops).2 -> well_formed c /\ 2 <= length c.
Proof.
  unfold ca_run. assert (forall st, well_formed st.1 /\ (forall c, c ∈ st.2 -> well_formed c /\ 2 <= length c) ->
    well_formed (fold_left ca_step ops st).1 /\ forall c, c ∈ (fold_left ca_step ops st).2 -> well_formed c /\ 2 <= length c) as H.
  { induction ops as [|o ops IH]; intros st H; [done|]. simpl. apply IH. destruct H as [H1 H2], o as [p n x|]; simpl.
    - split; [by apply end_point_wf|done].
    - unfold ca_add. case_bool_decide as Hl; [done|]. simpl. split.
      + split; [by intros ? ? ? ? ? ?|]. by intros ? ?%elem_of_nil.
      + intros c [->|Hc]%elem_of_cons; [|by apply H2]. split; [done|lia]. }
  apply H. simpl. split; [split; [by intros ? ? ? ? ? ?|]|]; by intros ? ?%elem_of_nil.
Qed.
Lemma accepted_wf c : accepted c -> well_formed c /\ 2 <= length c.
Proof. intros [ops H]. by apply (proj2 (ca_run_wf ops)). Qed.

(** ** Lookup *)
Lemma lb_spec c p : cv_lower_bound c p <= length c /\ (forall j e, j < cv_lower_bound c p -> c !! j = Some e -> elt (p_p e) p) /\
  (forall e, c !! cv_lower_bound c p = Some e -> ~ elt (p_p e) p).
Proof.
  induction c as [|f c (IH0 & IH1 & IH2)]; simpl; [split; [lia|]; split; [lia|done]|]. destruct (dlt (p_p f) p) eqn:E.
  - split; [lia|]. split; [|done]. intros [|j] e Hj He; simpl in *; [injection He as <-; by apply dlt_spec|]. apply (IH1 j); [lia|done].
  - split; [lia|]. split; [lia|]. simpl. intros e [= <-]. by apply dlt_false_iff.
Qed.
Lemma lb_unique c p i : increasing c -> i <= length c -> (forall j e, j < i -> c !! j = Some e -> elt (p_p e) p) ->
  (forall e, c !! i = Some e -> ~ elt (p_p e) p) -> cv_lower_bound c p = i.
Proof.
  intros Hc Hi H1 H2. destruct (lb_spec c p) as (L0 & L1 & L2). destruct (Nat.lt_trichotomy (cv_lower_bound c p) i) as [H|[?|H]]; [|done|].
  - destruct (lookup_lt_is_Some_2 c (cv_lower_bound c p)) as [e He]; [lia|]. exfalso. by apply (L2 e He), (H1 _ _ H).
  - destruct (lookup_lt_is_Some_2 c i) as [e He]; [lia|]. exfalso. by apply (H2 e He), (L1 _ _ H).
Qed.
Lemma getQ_at sel c e p : increasing c -> e ∈ c -> deqv (p_p e) p -> cv_getQ sel c p = Ok (sel e).
Proof.
  intros Hc [i Hi]%elem_of_list_lookup Hd. unfold cv_getQ. rewrite (lb_unique c p i).
  - rewrite Hi. rewrite (proj2 (dis_equal_spec _ _) Hd). unfold vget. by rewrite Hi.
  - done.
  - apply lookup_lt_Some in Hi. lia.
  - intros j f Hj Hf. eapply elt_deqv_r; [done|]. by apply (Hc j i f e).
  - intros f Hf. assert (f = e) as -> by congruence. intros H. by apply elt_not_deqv in H.
Qed.
Lemma getQ_below sel c e p : increasing c -> c !! 0 = Some e -> elt p (p_p e) -> cv_getQ sel c p = Ok (sel e).
Proof.
  intros Hc H0 Hp. unfold cv_getQ. rewrite (lb_unique c p 0); [|done|lia|lia|].
  - rewrite H0. destruct (dis_equal (p_p e) p) eqn:E; [|by rewrite bool_decide_true].
    apply dis_equal_spec, deqv_sym in E. by apply elt_not_deqv in Hp.
  - intros f Hf. assert (f = e) as -> by congruence. by apply elt_asym.
Qed.
Lemma getQ_above sel c e p : increasing c -> last c = Some e -> elt (p_p e) p -> cv_getQ sel c p = Ok (sel e).
Proof.
  intros Hc H0 Hp. rewrite last_lookup in H0. pose proof (lookup_lt_Some _ _ _ H0) as Hl. unfold cv_getQ. rewrite (lb_unique c p (length c)).
  - rewrite (lookup_ge_None_2 c (length c)) by lia. rewrite bool_decide_false by lia. replace (length c - 1) with (pred (length c)) by lia. by rewrite H0.
  - done.
  - lia.
  - intros j f Hj Hf. destruct (decide (j = pred (length c))) as [->|]; [congruence|]. eapply elt_trans; [|done]. apply (Hc j (pred (length c)) f e); [lia|done|done].
  - intros f Hf. apply lookup_lt_Some in Hf. lia.
Qed.
(** Neighbours in the curve. *)
Definition neighbours (c : curve) (e1 e2 : point) : Prop :=
  e1 ∈ c /\ e2 ∈ c /\ elt (p_p e1) (p_p e2) /\ forall f, f ∈ c -> ~ (elt (p_p e1) (p_p f) /\ elt (p_p f) (p_p e2)).
Lemma neighbours_index c e1 e2 : increasing c -> neighbours c e1 e2 -> exists i, c !! i = Some e1 /\ c !! S i = Some e2.
Proof.
  intros Hc ([i Hi]%elem_of_list_lookup & [j Hj]%elem_of_list_lookup & Hlt & Hn). exists i. split; [done|].
  destruct (Nat.lt_trichotomy j i) as [H|[->|H]].
  - exfalso. apply (elt_asym _ _ Hlt). by apply (Hc j i).
  - exfalso. assert (e1 = e2) as -> by congruence. by apply elt_irrefl in Hlt.
  - destruct (decide (j = S i)) as [->|]; [done|]. exfalso. destruct (lookup_lt_is_Some_2 c (S i)) as [f Hf]; [apply lookup_lt_Some in Hj; lia|].
    apply (Hn f); [by eapply elem_of_list_lookup_2|]. split; [by apply (Hc i (S i)); [lia|..]|by apply (Hc (S i) j); [lia|..]].
Qed.
Lemma getQ_between sel c e1 e2 p : increasing c -> neighbours c e1 e2 -> elt (p_p e1) p -> elt p (p_p e2) ->
  cv_getQ sel c p = Ok (dplus (sel e1) (dmul (ddiv (dminus (sel e2) (sel e1)) (dminus (p_p e2) (p_p e1))) (dminus p (p_p e1)))).
Proof.
  intros Hc Hn H1 H2. destruct (neighbours_index c e1 e2 Hc Hn) as (i & Hi & Hj). unfold cv_getQ. rewrite (lb_unique c p (S i)).
  - rewrite Hj. destruct (dis_equal (p_p e2) p) eqn:E; [apply dis_equal_spec, deqv_sym in E; by apply elt_not_deqv in H2|].
    rewrite bool_decide_false by lia. replace (S i - 1) with i by lia. by rewrite Hi.
  - done.
  - apply lookup_lt_Some in Hj. lia.
  - intros j f Hlt Hf. destruct (decide (j = i)) as [->|]; [congruence|]. eapply elt_trans; [|done]. apply (Hc j i f e1); [lia|done|done].
  - intros f Hf. assert (f = e2) as -> by congruence. by apply elt_asym.
Qed.
(** Every defined value is at a point, outside, or between two neighbours. *)
Lemma position c p : well_formed c -> c <> [] -> defined p ->
  (exists e, e ∈ c /\ deqv (p_p e) p) \/ (exists e, c !! 0 = Some e /\ elt p (p_p e)) \/ (exists e, last c = Some e /\ elt (p_p e) p) \/
  (exists e1 e2, neighbours c e1 e2 /\ elt (p_p e1) p /\ elt p (p_p e2)).
Proof.
  intros [Hc D] Hne Dp. destruct (lb_spec c p) as (L0 & L1 & L2). set (i := cv_lower_bound c p) in *.
  destruct (c !! i) as [e2|] eqn:E2.
  - destruct (elt_total (p_p e2) p) as [H|[H|H]]; [by apply D; eapply elem_of_list_lookup_2|done| | |].
    + by apply L2 in H.
    + left. exists e2. split; [by eapply elem_of_list_lookup_2|done].
    + destruct (decide (i = 0)) as [E0|]; [right; left; exists e2; by rewrite <- E0|].
      destruct (lookup_lt_is_Some_2 c (i - 1)) as [e1 E1]; [apply lookup_lt_Some in E2; lia|].
      right; right; right. exists e1, e2. split; [|split; [apply (L1 (i - 1)); [lia|done]|done]].
      split; [by eapply elem_of_list_lookup_2|]. split; [by eapply elem_of_list_lookup_2|]. split; [apply (Hc (i - 1) i); [lia|done|done]|].
      intros f [k Hk]%elem_of_list_lookup [F1 F2]. destruct (decide (k <= i - 1)).
      * destruct (decide (k = i - 1)) as [->|]; [assert (f = e1) as -> by congruence; by apply elt_irrefl in F1|].
        apply (elt_asym _ _ F1), (Hc k (i - 1)); [lia|done|done].
      * destruct (decide (k = i)) as [->|]; [assert (f = e2) as -> by congruence; by apply elt_irrefl in F2|].
        apply (elt_asym _ _ F2), (Hc i k); [lia|done|done].
  - right; right; left. apply lookup_ge_None in E2. assert (length c <> 0) by (by destruct c). destruct (lookup_lt_is_Some_2 c (pred (length c))) as [e He]; [lia|].
    exists e. split; [by rewrite last_lookup|]. apply (L1 (pred (length c))); [lia|done].
Qed.

(** ** Finite curves *)
Definition finite (x : dbl) : Prop := match x with Fin _ => True | _ => False end.
Definition finite_curve (c : curve) : Prop := forall e, e ∈ c -> finite (p_p e) /\ finite (p_minQ e) /\ finite (p_maxQ e).
(** The value of a finite double. *)
Definition val (x : dbl) : Q := match x with Fin q => q | _ => 0 end.
Lemma finite_val x : finite x -> x = Fin (val x).
Proof. by destruct x. Qed.
Local Open Scope Q_scope.
(** The interpolation through the points (x1, y1) :: l. *)
Fixpoint interp (x1 y1 : Q) (l : list (Q * Q)) (x : Q) : Q :=
  match l with
  | [] => y1
  | (x2, y2) :: l' => if Qle_bool x x1 then y1 else if Qle_bool x x2 then y1 + (y2 - y1) / (x2 - x1) * (x - x1) else interp x2 y2 l' x
  end.
Fixpoint xincreasing (x1 : Q) (l : list (Q * Q)) : Prop := match l with [] => True | (x2, _) :: l' => x1 < x2 /\ xincreasing x2 l' end.
Definition xy (sel : point -> dbl) (e : point) : Q * Q := (val (p_p e), val (sel e)).

Lemma Qle_bool_case a b : (Qle_bool a b = true /\ a <= b) \/ (Qle_bool a b = false /\ b < a).
Proof.
  destruct (Qle_bool a b) eqn:E; [left; split; [done|by apply Qle_bool_iff]|right; split; [done|]].
  apply Qnot_le_lt. intros H%Qle_bool_iff. congruence.
Qed.
Lemma interp_left x1 y1 l x : x <= x1 -> interp x1 y1 l x == y1.
Proof. destruct l as [|[x2 y2] l]; simpl; [reflexivity|]. intros H. apply Qle_bool_iff in H. rewrite H. reflexivity. Qed.
Definition clamp (a b x : Q) : Q := if Qle_bool x a then a else if Qle_bool x b then x else b.
Lemma clamp_mono a b x x' : a <= b -> x <= x' -> 0 <= clamp a b x' - clamp a b x /\ clamp a b x' - clamp a b x <= x' - x.
Proof.
  intros Hab Hx. unfold clamp.
  destruct (Qle_bool_case x a) as [[E1 ?]|[E1 ?]], (Qle_bool_case x' a) as [[E2 ?]|[E2 ?]],
    (Qle_bool_case x b) as [[E3 ?]|[E3 ?]], (Qle_bool_case x' b) as [[E4 ?]|[E4 ?]]; rewrite ?E1, ?E2, ?E3, ?E4; lra.
Qed.
Lemma interp_sum x1 y1 x2 y2 l x : x1 < x2 ->
  interp x1 y1 ((x2, y2) :: l) x == y1 + (y2 - y1) / (x2 - x1) * (clamp x1 x2 x - x1) + (interp x2 y2 l x - y2).
Proof.
  intros H. simpl. unfold clamp. assert (~ x2 - x1 == 0) by lra.
  destruct (Qle_bool_case x x1) as [[-> ?]|[-> ?]].
  - rewrite interp_left by lra. ring.
  - destruct (Qle_bool_case x x2) as [[-> ?]|[-> ?]].
    + rewrite interp_left by lra. ring.
    + field. done.
Qed.
(** Lipschitz continuity of the interpolation. *)
Lemma interp_lipschitz x1 y1 l : xincreasing x1 l ->
  exists K, 0 <= K /\ forall x x', x <= x' -> - (K * (x' - x)) <= interp x1 y1 l x' - interp x1 y1 l x <= K * (x' - x).
Proof.
  revert x1 y1. induction l as [|[x2 y2] l IH]; intros x1 y1; simpl xincreasing.
  - intros _. exists 0. split; [lra|]. intros x x' H. simpl. lra.
  - intros [H Hi]. destruct (IH x2 y2 Hi) as (K & HK & HL). set (s := (y2 - y1) / (x2 - x1)).
    assert (exists A, 0 <= A /\ - A <= s <= A) as (A & HA & Hs).
    { destruct (Qlt_le_dec s 0); [exists (- s)|exists s]; lra. }
    exists (A + K). split; [lra|]. intros x x' Hx. rewrite !interp_sum by done. fold s.
    destruct (clamp_mono x1 x2 x x') as [C1 C2]; [lra|done|]. specialize (HL x x' Hx).
    set (d := clamp x1 x2 x' - clamp x1 x2 x) in *.
    assert (s * d <= A * (x' - x)) as U.
    { assert (0 <= A * (x' - x - d)) by (apply Qmult_le_0_compat; lra). assert (0 <= (A - s) * d) by (apply Qmult_le_0_compat; lra). lra. }
    assert (- (A * (x' - x)) <= s * d) as L.
    { assert (0 <= A * (x' - x - d)) by (apply Qmult_le_0_compat; lra). assert (0 <= (A + s) * d) by (apply Qmult_le_0_compat; lra). lra. }
    assert (s * d == s * (clamp x1 x2 x' - x1) - s * (clamp x1 x2 x - x1)) as E by (unfold d; ring). lra.
Qed.
(** Interpolation of bounds in order. *)
Lemma interp_le x1 y1 y1' l l' x : xincreasing x1 l -> y1 <= y1' -> Forall2 (fun a b => fst a = fst b /\ snd a <= snd b) l l' ->
  interp x1 y1 l x <= interp x1 y1' l' x.
Proof.
  intros Hi Hy F. revert x1 y1 y1' Hi Hy. induction F as [|[x2 y2] [x2' y2'] l l' [E1 E2] F IH]; intros x1 y1 y1' Hi Hy; simpl in *; [done|].
  subst x2'. destruct Hi as [H Hi]. destruct (Qle_bool_case x x1) as [[-> ?]|[-> ?]]; [done|].
  destruct (Qle_bool_case x x2) as [[-> ?]|[-> ?]]; [|by apply IH].
  assert (~ x2 - x1 == 0) by lra.
  assert (forall a b, a + (b - a) / (x2 - x1) * (x - x1) == (a * (x2 - x) + b * (x - x1)) / (x2 - x1)) as E by (intros; field; done).
  rewrite !E. apply Qmult_le_compat_r.
  - assert (0 <= (y1' - y1) * (x2 - x)) by (apply Qmult_le_0_compat; lra). assert (0 <= (y2' - y2) * (x - x1)) by (apply Qmult_le_0_compat; lra). lra.
  - apply Qlt_le_weak, Qinv_lt_0_compat. lra.
Qed.
Lemma lb_cons e c p : elt (p_p e) p -> cv_lower_bound (e :: c) p = S (cv_lower_bound c p).
Proof. intros H. simpl. apply dlt_spec in H. by rewrite H. Qed.
Lemma getQ_tail sel e f c p : elt (p_p e) p -> elt (p_p f) p -> cv_getQ sel (e :: f :: c) p = cv_getQ sel (f :: c) p.
Proof.
  intros He Hf. unfold cv_getQ. rewrite (lb_cons e (f :: c)) by done. rewrite (lb_cons f c) by done.
  rewrite !bool_decide_false by lia. simpl. unfold vget. simpl. rewrite Nat.sub_0_r. done.
Qed.
Lemma getQ_interp sel c e x : increasing (e :: c) -> (forall f, f ∈ e :: c -> finite (p_p f) /\ finite (sel f)) ->
  exists y, cv_getQ sel (e :: c) (Fin x) = Ok (Fin y) /\ y == interp (val (p_p e)) (val (sel e)) (map (xy sel) c) x.
Proof.
  revert e. induction c as [|f c IH]; intros e Hc Hf.
  - destruct (Hf e) as [F1%finite_val F2%finite_val]; [by left|]. exists (val (sel e)). simpl interp. split; [|reflexivity].
    destruct (elt_total (p_p e) (Fin x)) as [H|[H|H]]; [by rewrite F1|done|..].
    + rewrite (getQ_above sel [e] e) by done. by rewrite <- F2.
    + rewrite (getQ_at sel [e] e) by (done || by left). by rewrite <- F2.
    + rewrite (getQ_below sel [e] e) by done. by rewrite <- F2.
  - destruct (Hf e) as [F1%finite_val F2%finite_val]; [by left|]. destruct (Hf f) as [F3%finite_val F4%finite_val]; [by right; left|].
    assert (elt (p_p e) (p_p f)) as Hef by (eapply increasing_head; [done|by left]).
    assert (val (p_p e) < val (p_p f)) as Hv by (rewrite F1, F3 in Hef; done). simpl map. unfold xy at 1. simpl interp.
    destruct (Qle_bool_case x (val (p_p e))) as [[-> H]|[-> H]].
    + exists (val (sel e)). split; [|reflexivity]. destruct (elt_total (p_p e) (Fin x)) as [H'|[H'|H']]; [by rewrite F1|done|..].
      * rewrite F1 in H'. simpl in H'. lra.
      * rewrite (getQ_at sel _ e) by (done || by left). by rewrite <- F2.
      * rewrite (getQ_below sel _ e) by done. by rewrite <- F2.
    + assert (elt (p_p e) (Fin x)) as He by (by rewrite F1).
      destruct (Qle_bool_case x (val (p_p f))) as [[-> H1]|[-> H1]].
      * destruct (Qle_lt_or_eq _ _ H1) as [H2|H2].
        -- assert (elt (Fin x) (p_p f)) as Hxf by (by rewrite F3).
           rewrite (getQ_between sel (e :: f :: c) e f (Fin x)); [|done| |done|done].
           ++ rewrite F1, F2, F3, F4. cbn [dplus dminus dneg ddiv dmul val]. 
              assert (Qeq_bool (val (p_p f) + - val (p_p e)) 0 = false) as ->.
              { apply not_true_is_false. intros E%Qeq_bool_iff. lra. }
              cbn [dplus dminus dneg ddiv dmul val]. eexists. split; [reflexivity|]. unfold Qminus. reflexivity.
           ++ split; [by left|]. split; [by right; left|]. split; [done|].
              intros g [->|[->|Hg]%elem_of_cons]%elem_of_cons [G1 G2]; [by apply elt_irrefl in G1|by apply elt_irrefl in G2|].
              apply (elt_asym _ _ G2). eapply increasing_head; [by eapply increasing_tail|done].
        -- exists (val (sel f)). rewrite (getQ_at sel _ f); [|done|by right; left|rewrite F3; simpl; by symmetry]. split; [by rewrite <- F4|].
           rewrite H2. assert (~ val (p_p f) - val (p_p e) == 0) by lra. field. done.
      * rewrite getQ_tail; [|done|by rewrite F3]. apply IH; [by eapply increasing_tail|]. intros g Hg. apply Hf. by right.
Qed.
Lemma xincreasing_map sel e c : increasing (e :: c) -> (forall f, f ∈ e :: c -> finite (p_p f)) -> xincreasing (val (p_p e)) (map (xy sel) c).
Proof.
  revert e. induction c as [|f c IH]; intros e Hc Hf; simpl; [done|]. split.
  - assert (elt (p_p e) (p_p f)) as H by (eapply increasing_head; [done|by left]).
    rewrite (finite_val (p_p e)) in H by (apply Hf; by left). rewrite (finite_val (p_p f)) in H by (apply Hf; by right; left). done.
  - apply IH; [by eapply increasing_tail|]. intros g Hg. apply Hf. by right.
Qed.
