From Coq Require Import Lqa.
From Verif Require Import Equip DblArith NetIndex NetIndexProofs Curve CurveProofs Limits.
Local Open Scope nat_scope.

(** ** Names *)
Lemma name_exists_spec l n : name_exists l n = true <-> n ∈ map tl_name l.
Proof.
  unfold name_exists. rewrite existsb_exists, elem_of_list_fmap. split.
  - intros (t & Ht%elem_of_list_In & E%String.eqb_eq). exists t. auto.
  - intros (t & -> & Ht%elem_of_list_In). exists t. split; [done|]. apply String.eqb_refl.
Qed.
Lemma unique_name_shift c name f : forall i, unique_name_loop c name (S f) (S i) (nth_id name i) = unique_loop c name (S f) i.
Proof.
  induction f as [|f IH]; intros i.
  - cbn [unique_name_loop unique_loop]. fold (nth_id name i). destruct (c (nth_id name i)); auto.
  - change (unique_name_loop c name (S (S f)) (S i) (nth_id name i)) with
      (if c (nth_id name i) then unique_name_loop c name (S f) (S (S i)) (nth_id name (S i)) else Ok (nth_id name i)).
    rewrite IH. cbn [unique_loop]. done.
Qed.
Lemma unique_name_eq c name f : name <> "" -> unique_name_loop c name (S (S f)) 0 name = get_unique_id c (S f) name.
Proof.
  intros Hn. unfold get_unique_id. rewrite bool_decide_false by done.
  change (unique_name_loop c name (S (S f)) 0 name) with (if c name then unique_name_loop c name (S f) 1 (nth_id name 0) else Ok name).
  by rewrite unique_name_shift.
Qed.
Lemma unique_name_fresh l name : name <> "" -> exists u, check_unique_name l name true = Ok u /\ is_unique_id (name_exists l) name u.
Proof.
  intros Hn. unfold check_unique_name. rewrite bool_decide_false by done. rewrite unique_name_eq by done.
  destruct (get_unique_id_enough (name_exists l) (S (length l)) name (map tl_name l)) as [u Hu].
  - intros x. apply name_exists_spec.
  - rewrite map_length. lia.
  - exists u. split; [done|]. by eapply get_unique_id_ok.
Qed.

(** ** The map of the temporary limits *)
Definition dur_decreasing (l : tlimits) : Prop := forall i j t u, i < j -> l !! i = Some t -> l !! j = Some u -> tl_dur u < tl_dur t.
Lemma dd_tail t l : dur_decreasing (t :: l) -> dur_decreasing l.
Proof. intros H i j x y Hij Hx Hy. apply (H (S i) (S j) x y); [lia|done|done]. Qed.
Lemma dd_head t l u : dur_decreasing (t :: l) -> u ∈ l -> tl_dur u < tl_dur t.
Proof. intros H [j Hj]%elem_of_list_lookup. apply (H 0 (S j) t u); [lia|done|done]. Qed.
Lemma dd_cons t l : dur_decreasing l -> (forall u, u ∈ l -> tl_dur u < tl_dur t) -> dur_decreasing (t :: l).
Proof.
  intros H Ht [|i] [|j] x y Hij Hx Hy; simpl in *; [lia| |lia|apply (H i j); [lia|done|done]].
  injection Hx as <-. apply Ht, elem_of_list_lookup. eauto.
Qed.
Lemma emplace_absent t l u : (forall v, v ∈ l -> tl_dur v <> tl_dur t) -> u ∈ tl_emplace t l <-> u = t \/ u ∈ l.
Proof.
  induction l as [|v l IH]; simpl; intros H; [rewrite elem_of_list_singleton, elem_of_nil; tauto|].
  assert (tl_dur v <> tl_dur t) by (apply H; by left).
  destruct (Nat.ltb_spec (tl_dur t) (tl_dur v)).
  - rewrite !elem_of_cons, IH; [tauto|]. intros w Hw. apply H. by right.
  - destruct (Nat.ltb_spec (tl_dur v) (tl_dur t)); [|lia]. rewrite !elem_of_cons. tauto.
Qed.
Lemma emplace_present t l v : dur_decreasing l -> v ∈ l -> tl_dur v = tl_dur t -> tl_emplace t l = l.
Proof.
  induction l as [|w l IH]; simpl; intros D Hv E; [by apply elem_of_nil in Hv|].
  apply elem_of_cons in Hv as [<-|Hv].
  - rewrite !(proj2 (Nat.ltb_ge _ _)) by lia. done.
  - pose proof (dd_head _ _ _ D Hv). rewrite (proj2 (Nat.ltb_lt _ _)) by lia. f_equal. apply IH; [by eapply dd_tail|done|done].
Qed.
Lemma emplace_decreasing t l : dur_decreasing l -> dur_decreasing (tl_emplace t l).
Proof.
  induction l as [|v l IH]; simpl; intros D.
  - apply dd_cons; [done|]. by intros ? ?%elem_of_nil.
  - destruct (Nat.ltb_spec (tl_dur t) (tl_dur v)).
    + apply dd_cons; [apply IH; by eapply dd_tail|]. intros u Hu.
      destruct (decide (Exists (fun v => tl_dur v = tl_dur t) l)) as [Hx|Hx].
      * apply Exists_exists in Hx as (w & Hw & E). rewrite (emplace_present t l w) in Hu; [|by eapply dd_tail|done|done]. by eapply dd_head.
      * apply emplace_absent in Hu as [->|Hu]; [done|by eapply dd_head|]. intros w Hw E. apply Hx, Exists_exists. eauto.
    + destruct (Nat.ltb_spec (tl_dur v) (tl_dur t)); [|done]. apply dd_cons; [done|]. intros u [->|Hu]%elem_of_cons; [done|].
      etrans; [by eapply dd_head|done].
Qed.
Lemma emplace_sub t l u : u ∈ tl_emplace t l -> u = t \/ u ∈ l.
Proof.
  induction l as [|v l IH]; simpl; [rewrite elem_of_list_singleton; auto|].
  destruct (tl_dur t <? tl_dur v); [rewrite elem_of_cons; intros [->|?%IH]; rewrite elem_of_cons; tauto|].
  destruct (tl_dur v <? tl_dur t); [rewrite elem_of_cons; tauto|auto].
Qed.
Definition tl_ok (t : tlimit) : Prop := tl_name t <> "" /\ positive (tl_value t).
Lemma check_unique_name_cases l name ensure :
  (exists m, check_unique_name l name ensure = Throw m /\ name = "") \/
  (exists u, check_unique_name l name ensure = Ok u /\ name <> "" /\ if ensure then is_unique_id (name_exists l) name u else u = name).
Proof.
  destruct (decide (name = "")) as [->|Hn]; [left; eexists; split; [reflexivity|done]|]. right. destruct ensure.
  - destruct (unique_name_fresh l name Hn) as (u & Hu & Hf). eauto.
  - exists name. unfold check_unique_name. by rewrite bool_decide_false by done.
Qed.
Lemma end_limit_cases name v d fict ensure l :
  let '(r, l') := end_temporary_limit name v d fict ensure l in
  ((exists m, r = Throw m) /\ l' = l /\ ~ (positive v /\ d <> None /\ name <> "")) \/
  (exists u du, r = Ok u /\ positive v /\ d = Some du /\ name <> "" /\ u <> "" /\ (if ensure then is_unique_id (name_exists l) name u else u = name) /\
     l' = tl_emplace (mkTl u v du fict) l).
Proof.
  unfold end_temporary_limit. destruct (is_nan v) eqn:En.
  { left. split; [eauto|]. split; [done|]. apply is_nan_spec in En as ->. by intros [[] _]. }
  apply is_nan_false in En. destruct (dle v dzero) eqn:Ez.
  { left. split; [eauto|]. split; [done|]. apply dle_spec in Ez. intros [P _]. unfold positive, dzero in *. destruct v; simpl in *; try done. lra. }
  apply dle_false in Ez; [|done|done]. destruct d as [du|]; [|left; split; [eauto|]; split; [done|]; by intros (_ & ? & _)].
  destruct (check_unique_name_cases l name ensure) as [(m & -> & ->)|(u & -> & Hn & Hu)].
  - left. split; [eauto|]. split; [done|]. by intros (_ & _ & ?).
  - right. exists u, du. repeat split; auto. destruct ensure; [by apply is_unique_id_fresh in Hu as [_ ?]|congruence].
Qed.
Lemma la_run_app ops o : la_run (ops ++ [o]) = la_step (la_run ops) o.
Proof. unfold la_run. by rewrite fold_left_app. Qed.
Lemma la_inv ops : (dur_decreasing (l_temp (la_run ops).1) /\ forall t, t ∈ l_temp (la_run ops).1 -> tl_ok t) /\
  forall l, l ∈ (la_run ops).2 -> dur_decreasing (l_temp l) /\ (forall t, t ∈ l_temp l -> tl_ok t) /\ NoDup (map tl_name (l_temp l)) /\ ~ ele (l_perm l) (Fin 0).
Proof.
  assert (forall x r, checkPermanentLimit x = Ok r -> ~ ele x (Fin 0)) as Hperm.
  { intros x r. unfold checkPermanentLimit, check. destruct (dle x dzero) eqn:E; [done|]. intros _ H%dle_spec. unfold dzero in E. congruence. }
  assert (forall l seen, check_names seen l = Ok tt -> NoDup (map tl_name l) /\ forall t, t ∈ l -> tl_name t ∉ seen) as Hnames.
  { intros l. induction l as [|t l IH]; simpl; intros seen; [intros _; split; [constructor|by intros ? ?%elem_of_nil]|].
    case_bool_decide as Hin; [done|]. intros [H1 H2]%IH. split.
    - constructor; [|done]. intros (u & E & Hu)%elem_of_list_fmap. apply (H2 u Hu). rewrite <- E. by left.
    - intros u [->|Hu]%elem_of_cons; [done|]. intros X. apply (H2 u Hu). by right. }
  induction ops as [|o ops [[IH1 IH2] IH3]] using rev_ind; [split; [split|]; [by intros ? ? ? ? ? ?|by intros ? ?%elem_of_nil|by intros ? ?%elem_of_nil]|].
  rewrite la_run_app. destruct (la_run ops) as [a ls]. simpl in *. destruct o as [x|n v d f e| |x]; simpl.
  - auto.
  - split; [|done]. pose proof (end_limit_cases n v d f e (l_temp a)) as H. destruct (end_temporary_limit n v d f e (l_temp a)) as [r l'].
    destruct H as [(_ & -> & _)|(u & du & -> & Hp & -> & _ & Hu & _ & ->)]; [done|]. split; [by apply emplace_decreasing|].
    intros t [->|Ht]%emplace_sub; [split; done|auto].
  - unfold limits_add. destruct (checkPermanentLimit (l_perm a)) as [x| | |] eqn:Ep; try done.
    destruct (check_names [] (l_temp a)) as [[]| | |] eqn:Ec; try done. simpl. split; [done|].
    intros l [->|Hl]%elem_of_cons; [|auto]. apply Hnames in Ec as [Ec _]. split; [done|]. split; [done|]. split; [done|]. by eapply Hperm.
  - destruct ls as [|l ls]; [done|]. destruct (checkPermanentLimit x) as [r| | |] eqn:Ep; try done. simpl. split; [done|].
    intros l' [->|Hl]%elem_of_cons; [|apply IH3; by right]. simpl. destruct (IH3 l) as (H1 & H2 & H3 & _); [by left|]. repeat split; auto; [by apply H2|by apply H2|by eapply Hperm].
Qed.
Lemma accepted_limits_inv l : accepted_limits l ->
  dur_decreasing (l_temp l) /\ (forall t, t ∈ l_temp l -> tl_ok t) /\ NoDup (map tl_name (l_temp l)) /\ ~ ele (l_perm l) (Fin 0).
Proof. intros [ops H]. by apply (la_inv ops). Qed.
Lemma check_names_ok l : forall seen, check_names seen l = Ok tt <-> NoDup (map tl_name l) /\ forall t, t ∈ l -> tl_name t ∉ seen.
Proof.
  induction l as [|t l IH]; simpl; intros seen; [split; [intros _; split; [constructor|by intros ? ?%elem_of_nil]|done]|].
  case_bool_decide as Hin.
  - split; [done|]. intros [_ H]. exfalso. apply (H t); [by left|done].
  - rewrite IH. split.
    + intros [H1 H2]. split.
      * constructor; [|done]. intros (u & E & Hu)%elem_of_list_fmap. apply (H2 u Hu). rewrite <- E. by left.
      * intros u [->|Hu]%elem_of_cons; [done|]. intros X. apply (H2 u Hu). by right.
    + intros [[H0 H1]%NoDup_cons H2]. split; [done|]. intros u Hu [E|X]%elem_of_cons; [|by apply (H2 u); [right|]].
      apply H0. rewrite <- E. apply elem_of_list_fmap. eauto.
Qed.
Lemma check_names_throw l : forall seen, check_names seen l = Ok tt \/ exists m, check_names seen l = Throw m.
Proof. induction l as [|t l IH]; simpl; intros seen; [auto|]. case_bool_decide; eauto. Qed.

(** ** Overloads *)
(** The thresholds: the permanent limit, then the temporary limits in iteration order. *)
Definition thresholds (l : limits) : list dbl := l_perm l :: map tl_value (l_temp l).
(** The value lies in the k-th interval: at or above the k-th threshold, strictly below the next. *)
Definition in_interval (l : limits) (r i : dbl) (k : nat) : Prop :=
  exists lo hi, thresholds l !! k = Some lo /\ thresholds l !! S k = Some hi /\ ele (dmul lo r) i /\ elt i (dmul hi r).
Lemma loop_spec r i l : forall pn pl o, check_temporary_loop r i pn pl l = Some o <->
  exists k, in_interval (mkL pl l) r i k /\ (forall j, j < k -> ~ in_interval (mkL pl l) r i j) /\
    l !! k = Some (ov_limit o) /\ thresholds (mkL pl l) !! k = Some (ov_prev o) /\
    (pn :: map tl_name l) !! k = Some (ov_prev_name o).
Proof.
  induction l as [|t l IH]; intros pn pl o; simpl.
  - split; [done|]. intros (k & (lo & hi & _ & H & _) & _). simpl in H. destruct k; done.
  - assert (forall k, in_interval (mkL pl (t :: l)) r i (S k) <-> in_interval (mkL (tl_value t) l) r i k) as Sh by done.
    assert (in_interval (mkL pl (t :: l)) r i 0 <-> dle (dmul pl r) i && dlt i (dmul (tl_value t) r) = true) as Z.
    { rewrite andb_true_iff, dle_spec, dlt_spec. split.
      - by intros (lo & hi & [= <-] & [= <-] & H).
      - intros H. exists pl, (tl_value t). done. }
    destruct (dle (dmul pl r) i && dlt i (dmul (tl_value t) r)) eqn:E.
    + split.
      * intros [= <-]. exists 0. split; [by apply Z|]. split; [lia|]. done.
      * intros (k & Hk & Hm & H1 & H2 & H3). destruct k as [|k]; [|exfalso; apply (Hm 0); [lia|by apply Z]].
        simpl in *. destruct o. simpl in *. congruence.
    + rewrite IH. split.
      * intros (k & Hk & Hm & H1 & H2 & H3). exists (S k). split; [by apply Sh|]. split; [|done].
        intros [|j] Hj; [intros X%Z; done|]. rewrite Sh. apply Hm. lia.
      * intros (k & Hk & Hm & H1 & H2 & H3). destruct k as [|k]; [apply Z in Hk; done|]. exists k. split; [by apply Sh|]. split; [|done].
        intros j Hj. rewrite <- Sh. apply Hm. lia.
Qed.
Lemma check_temporary_spec l r i o : check_temporary (Some l) r i = Some o <->
  defined (l_perm l) /\ exists k, in_interval l r i k /\ (forall j, j < k -> ~ in_interval l r i j) /\
    l_temp l !! k = Some (ov_limit o) /\ thresholds l !! k = Some (ov_prev o) /\ ("" :: map tl_name (l_temp l)) !! k = Some (ov_prev_name o).
Proof.
  simpl. destruct (is_nan (l_perm l)) eqn:E1; simpl.
  { split; [done|]. intros [D _]. apply is_nan_spec in E1. done. }
  apply is_nan_false in E1. destruct (is_nan i) eqn:E2; simpl.
  { split; [done|]. intros (_ & k & (lo & hi & _ & _ & _ & H) & _). apply is_nan_spec in E2 as ->. by destruct (dmul hi r). }
  rewrite loop_spec. destruct l. simpl. split; [done|by intros [_ ?]].
Qed.
Definition ascending (l : limits) : Prop :=
  forall i j a b, i < j -> thresholds l !! i = Some a -> thresholds l !! j = Some b -> elt a b.
Lemma dmul_lt q a b : (0 < q)%Q -> elt a b -> elt (dmul a (Fin q)) (dmul b (Fin q)).
Proof.
  intros Hq. assert (qltb q 0 = false) as E1 by (destruct (qltb q 0) eqn:E; [apply qltb_spec in E; lra|done]).
  assert (qltb 0 q = true) as E2 by (by apply qltb_spec).
  destruct a as [| |x|], b as [| |y|]; simpl; rewrite ?E1, ?E2; simpl; try done. intros H. by apply Qmult_lt_compat_r.
Qed.
Lemma dmul_defined q a : (0 < q)%Q -> defined a -> defined (dmul a (Fin q)).
Proof.
  intros Hq. assert (qltb q 0 = false) as E1 by (destruct (qltb q 0) eqn:E; [apply qltb_spec in E; lra|done]).
  assert (qltb 0 q = true) as E2 by (by apply qltb_spec).
  destruct a as [| |x|]; simpl; rewrite ?E1, ?E2; simpl; done.
Qed.
Lemma ele_elt_trans a b c : ele a b -> elt b c -> elt a c.
Proof. destruct a, b, c; simpl; try done. apply Qle_lt_trans. Qed.
Lemma elt_ele_trans a b c : elt a b -> ele b c -> elt a c.
Proof. destruct a, b, c; simpl; try done. apply Qlt_le_trans. Qed.
Lemma ele_trans a b c : ele a b -> ele b c -> ele a c.
Proof. destruct a, b, c; simpl; try done. apply Qle_trans. Qed.
Lemma ele_elt_false a b : ele a b -> elt b a -> False.
Proof. intros H1 H2. apply (elt_irrefl a). by eapply ele_elt_trans. Qed.
Lemma interval_unique l q i i' j k : (0 < q)%Q -> ascending l -> ele i i' -> in_interval l (Fin q) i j -> in_interval l (Fin q) i' k -> j <= k.
Proof.
  intros Hq Ha Hi (lo & hi & H1 & H2 & H3 & H4) (lo' & hi' & H1' & H2' & H3' & H4').
  destruct (decide (j <= k)); [done|]. exfalso.
  assert (ele (dmul hi' (Fin q)) (dmul lo (Fin q))) as H.
  { destruct (decide (S k = j)) as [<-|].
    - assert (hi' = lo) as -> by congruence. apply (ele_not_elt _ _); [..|apply elt_irrefl];
        (destruct (dmul lo (Fin q)); simpl in *; done).
    - apply elt_ele, dmul_lt; [done|]. apply (Ha (S k) j); [lia|done|done]. }
  apply (ele_elt_false (dmul lo (Fin q)) i'); [by eapply ele_trans|]. by eapply elt_ele_trans.
Qed.
Lemma thresholds_defined l : defined (l_perm l) -> (forall t, t ∈ l_temp l -> positive (tl_value t)) -> forall k a, thresholds l !! k = Some a -> defined a.
Proof.
  intros D H [|k] a; simpl; [by intros [= <-]|]. rewrite list_lookup_fmap. intros (t & Ht & ->)%fmap_Some.
  apply elem_of_list_lookup_2, H in Ht. by destruct (tl_value t).
Qed.
Lemma interval_cover l q i top : (0 < q)%Q -> defined i -> (forall k a, thresholds l !! k = Some a -> defined a) ->
  last (thresholds l) = Some top -> ele (dmul (l_perm l) (Fin q)) i -> elt i (dmul top (Fin q)) -> exists k, in_interval l (Fin q) i k.
Proof.
  intros Hq Di D Hl Hlo Hhi. rewrite last_lookup in Hl. destruct l as [pl l]. simpl in Hlo. revert pl D Hl Hlo.
  induction l as [|t l IH]; intros pl D Hl Hlo.
  - simpl in Hl. injection Hl as <-. exfalso. by eapply ele_elt_false.
  - destruct (dlt i (dmul (tl_value t) (Fin q))) eqn:E.
    + apply dlt_spec in E. exists 0, pl, (tl_value t). done.
    + assert (defined (tl_value t)) as Dt by (by apply (D 1)). apply dlt_false in E; [|done|by apply dmul_defined].
      destruct (IH (tl_value t)) as [k Hk]; [intros k a; apply (D (S k))|simpl in *; done|done|]. exists (S k). done.
Qed.
