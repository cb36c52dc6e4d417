(** Proofs about the measurements of an equipment. *)
From Verif Require Export MeasureSpec.

(** * Both containers *)
Section generic.
Context {A : Type}.
Implicit Types (c : items A) (i j : item A) (l : list (item A)).
(** Addresses are distinct and below the next one; ids are unique. *)
Definition cinv c : Prop := NoDup (i_addr <$> c_items c) /\ (forall i, i ∈ c_items c -> i_addr i < c_next c) /\ ids_unique c.

Lemma find_some c id i : find_id c id = Some i -> i ∈ c_items c /\ i_id i = id.
Proof using. unfold find_id. destruct (list_find _ _) as [[n x]|] eqn:E; [|done]. intros [= ->]. apply list_find_Some in E as (E & H & _). split; [by eapply elem_of_list_lookup_2|done]. Qed.
Lemma find_none c id : find_id c id = None <-> forall i, i ∈ c_items c -> i_id i <> id.
Proof using. unfold find_id. rewrite fmap_None, list_find_None, Forall_forall. done. Qed.
Lemma id_free_iff c id : id_free c id = true <-> id = "" \/ ~ exists i, i ∈ c_items c /\ i_id i = id.
Proof using.
  unfold id_free. rewrite orb_true_iff, String.eqb_eq, bool_decide_eq_true, find_none. split; (intros [H|H]; [by left|right]).
  - intros (i & Hi & E). by apply (H i).
  - intros i Hi E. apply H. eauto.
Qed.
Lemma at_some c k i : item_at c k = Some i -> i ∈ c_items c /\ i_addr i = k.
Proof using. unfold item_at. destruct (list_find _ _) as [[n x]|] eqn:E; [|done]. intros [= ->]. apply list_find_Some in E as (E & H & _). split; [by eapply elem_of_list_lookup_2|done]. Qed.
Lemma at_none c k : item_at c k = None <-> ~ present c k.
Proof using. unfold item_at, present. rewrite fmap_None, list_find_None, Forall_forall. split; [intros H (i & Hi & E); by apply (H i)|intros H i Hi E; apply H; eauto]. Qed.
Lemma at_iff c k : (exists i, item_at c k = Some i) <-> present c k.
Proof using.
  destruct (item_at c k) as [i|] eqn:E; split; [intros _; exists i; by apply at_some in E|by eexists|by intros [? ?]|intros P; by apply at_none in E].
Qed.
Lemma addr_inj c i j : cinv c -> i ∈ c_items c -> j ∈ c_items c -> i_addr i = i_addr j -> i = j.
Proof using.
  intros (N & _) Hi Hj E. apply elem_of_list_lookup in Hi as [n Hn], Hj as [m Hm]. assert (n = m) as ->; [|congruence].
  eapply (NoDup_lookup _ _ _ (i_addr i) N); rewrite list_lookup_fmap; [by rewrite Hn|rewrite Hm; cbn; by rewrite E].
Qed.

(** ** put_item *)
Lemma put_items c id ps a : c_items (put_item c id ps a).2 = c_items c ++ [mkItem (c_next c) id ps a].
Proof using. done. Qed.
Lemma put_entered c id ps a : cinv c -> entered c (put_item c id ps a).2 (mkItem (c_next c) id ps a).
Proof using. intros (_ & L & _). split; [done|]. split; [done|]. intros j Hj. cbn [i_addr]. specialize (L j Hj). lia. Qed.
Lemma put_cinv c id ps a : cinv c -> id_free c id = true -> cinv (put_item c id ps a).2.
Proof using.
  intros (N & L & U) F. unfold cinv. rewrite put_items. cbn [c_next put_item snd]. split; [|split].
  - rewrite fmap_app. cbn [fmap list_fmap i_addr]. apply NoDup_app. split; [done|]. split; [|apply NoDup_singleton].
    intros x (i & -> & Hi)%elem_of_list_fmap E%elem_of_list_singleton. specialize (L i Hi). lia.
  - intros i [Hi| ->%elem_of_list_singleton]%elem_of_app; [specialize (L i Hi); lia|cbn; lia].
  - apply id_free_iff in F. intros n m i j Hn Hm E Ne. cbn [put_item snd c_items] in Hn, Hm. apply lookup_app_Some in Hn, Hm.
    destruct Hn as [Hn|[Ln Hn]], Hm as [Hm|[Lm Hm]].
    + by apply (U n m i j).
    + apply list_lookup_singleton_Some in Hm as [Zm <-]. cbn [i_id] in E. destruct F as [F|F]; [congruence|]. exfalso. apply F. exists i. split; [by eapply elem_of_list_lookup_2|done].
    + apply list_lookup_singleton_Some in Hn as [Zn <-]. cbn [i_id] in E, Ne. destruct F as [F|F]; [congruence|]. exfalso. apply F. exists j. split; [by eapply elem_of_list_lookup_2|done].
    + apply list_lookup_singleton_Some in Hn as [Zn <-], Hm as [Zm <-]. lia.
Qed.
(** The answer: the first with that id. *)
Lemma put_answer c id ps a : exists i, (put_item c id ps a).1 = Ok (i_addr i) /\ i_id i = id /\
  ((i = mkItem (c_next c) id ps a /\ ~ exists j, j ∈ c_items c /\ i_id j = id) \/ (i ∈ c_items c)).
Proof using.
  unfold put_item. cbn [fst]. destruct (find_id _ id) as [i|] eqn:E.
  - exists i. split; [done|]. destruct (find_some _ _ _ E) as [Hi Ei]. split; [done|]. cbn [c_items] in Hi.
    destruct (find_id c id) as [i0|] eqn:E0.
    + right. unfold find_id in E, E0. destruct (list_find _ (c_items c)) as [[n x]|] eqn:F; [|done]. cbn [c_items] in E. rewrite (list_find_app_l _ _ _ n x) in E by done. injection E as <-.
      apply list_find_Some in F as (F & _). by eapply elem_of_list_lookup_2.
    + left. rewrite find_none in E0. apply elem_of_app in Hi as [Hi|Hi%elem_of_list_singleton]; [by apply E0 in Hi|]. split; [done|]. intros (j & Hj & Ej). by apply (E0 j).
  - exfalso. rewrite find_none in E. apply (E (mkItem (c_next c) id ps a)); [|done]. cbn [c_items]. apply elem_of_app. right. apply elem_of_list_here.
Qed.

(** ** remove_item *)
Lemma erase_filter k l : NoDup (i_addr <$> l) -> erase k l = filter (fun i => i_addr i <> k) l.
Proof using.
  induction l as [|i l IH]; [done|]. rewrite fmap_cons. intros [N D]%NoDup_cons. cbn [erase]. destruct (Nat.eqb_spec (i_addr i) k) as [E|E].
  - rewrite filter_cons_False by (intros F; by apply F). symmetry. apply list_filter_all || idtac.
    clear IH D. induction l as [|j l IH]; [done|]. rewrite fmap_cons, not_elem_of_cons in N. destruct N as [N1 N2]. rewrite filter_cons_True by congruence. f_equal. by apply IH.
  - rewrite filter_cons_True by done. f_equal. by apply IH.
Qed.
Lemma erase_split k l : NoDup (i_addr <$> l) -> (exists i, i ∈ l /\ i_addr i = k) -> exists l1 i l2, i_addr i = k /\ l = l1 ++ i :: l2 /\ erase k l = l1 ++ l2 /\ forall j, j ∈ l1 ++ l2 -> i_addr j <> k.
Proof using.
  induction l as [|x l IH]; [by intros _ (i & Hi%elem_of_nil & _)|]. rewrite fmap_cons. intros [N D]%NoDup_cons H. cbn [erase]. destruct (Nat.eqb_spec (i_addr x) k) as [E|E].
  - exists [], x, l. split; [done|]. split; [done|]. split; [done|]. intros j Hj Ej. apply N. rewrite E, <- Ej. by apply elem_of_list_fmap_1.
  - destruct H as (i & [->|Hi]%elem_of_cons & Ei); [done|]. destruct IH as (l1 & y & l2 & Ey & El & Er & Ho); [done|eauto|]. exists (x :: l1), y, l2. split; [done|]. split; [by rewrite El|]. split; [by rewrite Er|].
    intros j [->|Hj]%elem_of_cons; [done|by apply Ho].
Qed.
Lemma remove_removed c k : cinv c -> present c k -> removed k c (remove_item c k).
Proof using. intros (N & _) P. split; [done|]. by apply erase_split. Qed.
Lemma ids_app l1 i l2 k (n : nat) : ids_unique (mkItems k (l1 ++ i :: l2) n) -> ids_unique (mkItems k (l1 ++ l2) n).
Proof using.
  intros U p q x y Hp Hq E Ne. cbn [c_items] in *.
  set (up := fun p => if decide (p < length l1) then p else S p).
  assert (T : forall p x, (l1 ++ l2) !! p = Some x -> (l1 ++ i :: l2) !! up p = Some x).
  { intros p0 x0 H. unfold up. destruct (decide _) as [L|L]; [by rewrite lookup_app_l in * by done|]. rewrite lookup_app_r in * by lia. by replace (S p0 - length l1) with (S (p0 - length l1)) by lia. }
  assert (up p = up q) as Eu by (eapply (U (up p) (up q) x y); [by apply T..|done|done]). unfold up in Eu. repeat destruct (decide _); lia.
Qed.
Lemma remove_cinv c k : cinv c -> cinv (remove_item c k).
Proof using.
  intros (N & L & U). destruct (item_at c k) as [i|] eqn:E.
  - destruct (erase_split k (c_items c) N) as (l1 & y & l2 & Ey & El & Er & Ho); [exists i; by apply at_some|].
    unfold cinv, remove_item. cbn [c_items c_next]. rewrite Er. rewrite El in N. split; [|split].
    + rewrite fmap_app in *. cbn [fmap list_fmap] in N. apply NoDup_app in N as (N1 & N2 & N3). apply NoDup_cons in N3 as [_ N3]. apply NoDup_app. split; [done|]. split; [|done].
      intros x Hx Hy. apply (N2 x Hx). by right.
    + intros j Hj. apply L. rewrite El. apply elem_of_app in Hj as [Hj|Hj]; apply elem_of_app; [by left|right; by right].
    + eapply (ids_app l1 y l2). intros p q x z. specialize (U p q x z). by rewrite El in U.
  - unfold cinv, remove_item. cbn [c_items c_next]. rewrite erase_filter by done. apply at_none in E.
    assert (filter (fun i => i_addr i <> k) (c_items c) = c_items c) as ->; [|by destruct c].
    clear -E. unfold present in E. induction (c_items c) as [|x l IH]; [done|]. rewrite filter_cons_True; [f_equal; apply IH; intros (i & Hi & Ei); apply E; exists i; split; [by right|done]|].
    intros Ex. apply E. exists x. split; [left|done].
Qed.

(** ** on_item *)
Lemma on_cases c k f : cinv c ->
  (~ present c k /\ on_item c k f = (UB, c)) \/
  (exists i, i ∈ c_items c /\ i_addr i = k /\
     ((exists i', f i = Ok i' /\ (on_item c k f).1 = Ok tt /\ (on_item c k f).2 = mkItems (c_cls c) ((fun j => if i_addr j =? k then i' else j) <$> c_items c) (c_next c)) \/
      (forall i', f i <> Ok i') /\ (on_item c k f).1 = match f i with Throw m => Throw m | UB => UB | _ => OutOfFuel end /\ (on_item c k f).2 = c)).
Proof using.
  intros I. unfold on_item. destruct (item_at c k) as [i|] eqn:E.
  - right. destruct (at_some _ _ _ E) as [Hi Ei]. exists i. split; [done|]. split; [done|]. destruct (f i) as [i'|m| |]; [left; by exists i'|right; done..].
  - left. split; [by apply at_none|done].
Qed.
Lemma map_changed c k i i' (P : item A -> item A -> Prop) : cinv c -> i ∈ c_items c -> i_addr i = k -> i_addr i' = k -> i_id i' = i_id i -> P i i' ->
  changed k c (mkItems (c_cls c) ((fun j => if i_addr j =? k then i' else j) <$> c_items c) (c_next c)) P.
Proof using.
  intros I Hi Ei Ea Ed Hp. split; [done|]. cbn [c_items]. apply Forall2_fmap_r. apply Forall_Forall2_diag, Forall_forall. intros j Hj. unfold compose. destruct (Nat.eqb_spec (i_addr j) k) as [E|E].
  - assert (j = i) as -> by (apply (addr_inj c); [done..|congruence]). split; [done|]. intros _. exact (conj Ea (conj Ed Hp)).
  - split; [done|]. by intros E'.
Qed.
Lemma changed_cinv c c' k P : cinv c -> c_next c' = c_next c -> changed k c c' P -> cinv c'.
Proof using.
  intros (N & L & U) En (_ & F). unfold cinv. rewrite En.
  assert (Fa : i_addr <$> c_items c' = i_addr <$> c_items c).
  { clear -F. induction F as [|i j l l' [H1 H2] F IH]; [done|]. rewrite !fmap_cons, IH. f_equal. destruct (decide (i_addr i = k)) as [E|E]; [destruct (H2 E); congruence|by rewrite (H1 E)]. }
  assert (Fi : i_id <$> c_items c' = i_id <$> c_items c).
  { clear -F. induction F as [|i j l l' [H1 H2] F IH]; [done|]. rewrite !fmap_cons, IH. f_equal. destruct (decide (i_addr i = k)) as [E|E]; [destruct (H2 E) as (_ & ? & _); congruence|by rewrite (H1 E)]. }
  split; [by rewrite Fa|]. split.
  - intros i Hi. assert (i_addr i ∈ i_addr <$> c_items c) as (j & E & Hj)%elem_of_list_fmap by (rewrite <- Fa; by apply elem_of_list_fmap_1). rewrite E. by apply L.
  - intros n m i j Hn Hm E Ne. assert (T : forall n i, c_items c' !! n = Some i -> exists i0, c_items c !! n = Some i0 /\ i_id i0 = i_id i).
    { intros n0 i0 H0. assert ((i_id <$> c_items c) !! n0 = Some (i_id i0)) as H by (rewrite <- Fi, list_lookup_fmap, H0; done). rewrite list_lookup_fmap in H. destruct (c_items c !! n0) as [y|]; [|done]. injection H as H. by exists y. }
    destruct (T n i Hn) as (i0 & Hi0 & E1), (T m j Hm) as (j0 & Hj0 & E2). apply (U n m i0 j0); congruence.
Qed.
Lemma find_iff c id i : cinv c -> id <> "" -> find_id c id = Some i <-> i ∈ c_items c /\ i_id i = id.
Proof using.
  intros (_ & _ & U) Ne. split; [apply find_some|]. intros [Hi Ei]. destruct (find_id c id) as [j|] eqn:E; [|rewrite find_none in E; by apply E in Hi].
  apply find_some in E as [Hj Ej]. apply elem_of_list_lookup in Hi as [n Hn], Hj as [m Hm]. assert (n = m) as ->; [eapply (U n m i j); congruence|congruence].
Qed.
End generic.

(** * Properties given to the adders *)
Lemma props_given_snoc l n x ps : props_given l ps -> props_given (l ++ [(n, x)]) (<[n := x]> ps).
Proof.
  intros H n' x'. destruct (decide (n' = n)) as [->|D].
  - rewrite lookup_insert. split.
    + intros [= <-]. exists l, []. split; [done|]. intros y Hy%elem_of_nil. done.
    + intros (l1 & l2 & E & F). destruct (decide (l2 = [])) as [->|N].
      * apply app_inj_tail in E as [_ E]. congruence.
      * exfalso. destruct (exists_last N) as (l3 & z & ->). rewrite app_comm_cons, app_assoc in E. apply app_inj_tail in E as [_ <-]. apply (F x). apply elem_of_app. right. by apply elem_of_list_here.
  - rewrite lookup_insert_ne by done. rewrite (H n' x'). split.
    + intros (l1 & l2 & -> & F). exists l1, (l2 ++ [(n, x)]). split; [by rewrite <- app_assoc|]. intros y [Hy|[= E _]%elem_of_list_singleton]%elem_of_app; [by apply (F y)|done].
    + intros (l1 & l2 & E & F). destruct (decide (l2 = [])) as [->|N].
      * apply app_inj_tail in E as [_ E]. congruence.
      * destruct (exists_last N) as (l3 & z & ->). rewrite app_comm_cons, app_assoc in E. apply app_inj_tail in E as [-> _]. exists l1, l3. split; [done|]. intros y Hy. apply (F y). apply elem_of_app. by left.
Qed.
Lemma adder_props_run l : forall l0 ps, props_given l0 ps -> (names_given l -> exists ps', adder_props l ps = Ok ps' /\ props_given (l0 ++ l) ps') /\ (~ names_given l -> exists t, adder_props l ps = Throw t).
Proof.
  induction l as [|[n x] l IH]; intros l0 ps G; cbn [adder_props].
  - split; [intros _; exists ps; by rewrite app_nil_r|]. intros H. exfalso. apply H. by intros x Hx%elem_of_nil.
  - destruct (String.eqb_spec n "") as [->|Ne].
    + split; [intros H; exfalso; apply (H x); left|by eexists].
    + destruct (IH (l0 ++ [(n, x)]) (<[n := x]> ps) (props_given_snoc _ _ _ _ G)) as [H1 H2]. rewrite <- app_assoc in H1. split.
      * intros H. apply H1. intros y Hy. apply (H y). by right.
      * intros H. apply H2. intros H'. apply H. intros y [[= E _]|Hy]%elem_of_cons; [done|by apply (H' y)].
Qed.
Lemma names_dec l : names_given l \/ ~ names_given l.
Proof.
  destruct (bool_decide ("" ∈ l.*1)) eqn:E; [apply bool_decide_eq_true in E; right|apply bool_decide_eq_false in E; left].
  - apply elem_of_list_fmap in E as ([a b] & Ea & Hb). cbn in Ea. subst a. intros H. by apply (H b).
  - intros x Hx. apply E. apply elem_of_list_fmap. by exists ("", x).
Qed.
Lemma props_empty : props_given [] ∅.
Proof. intros n x. rewrite lookup_empty. split; [done|]. intros (l1 & l2 & E & _). by destruct l1. Qed.
Lemma props_no_empty l ps : props_given l ps -> names_given l -> ps !! "" = None.
Proof. intros G N. destruct (ps !! "") as [x|] eqn:E; [|done]. apply G in E as (l1 & l2 & -> & _). exfalso. apply (N x). apply elem_of_app. right. left. Qed.

(** * Measurements *)
Lemma connectable_iff k : is_connectable k = true <-> k ∈ injections \/ k ∈ others.
Proof. rewrite <- elem_of_app, <- (bool_decide_eq_true (k ∈ injections ++ others)). by destruct k. Qed.
Lemma injection_iff k : is_injection k = true <-> k ∈ injections.
Proof. unfold is_injection. by rewrite bool_decide_eq_true. Qed.
Lemma injection_other k : k ∈ injections -> k ∈ others -> False.
Proof. rewrite <- (bool_decide_eq_true (k ∈ injections)), <- (bool_decide_eq_true (k ∈ others)). by destruct k. Qed.
Lemma check_side_iff k ty s : (check_side k ty s = Ok tt <-> side_fits k ty s) /\ (check_side k ty s = Ok tt \/ exists t, check_side k ty s = Throw t).
Proof.
  unfold check_side. destruct (is_connectable k) eqn:Ec; cbn [negb].
  2:{ split; [|right; by eexists]. split; [done|]. intros [[H _]|[H _]]; assert (is_connectable k = true) by (apply connectable_iff; auto); congruence. }
  apply connectable_iff in Ec. destruct (is_injection k) eqn:Ei.
  - assert (Hi := proj1 (injection_iff k) Ei). assert (No : k ∉ others) by (intros H; by eapply injection_other). destruct s as [s|].
    + rewrite bool_decide_true by done. cbn. split; [|right; by eexists]. split; [done|]. by intros [[_ ?]|[? _]].
    + rewrite bool_decide_false by (intros H; by apply H). cbn [andb]. rewrite andb_false_r. split; [|by left]. split; [intros _; by left|done].
  - assert (No : k ∉ injections) by (intros H; apply injection_iff in H; congruence). destruct Ec as [Ec|Ec]; [done|]. rewrite andb_false_r. cbn [negb andb]. rewrite andb_true_r.
    destruct s as [s|]; cbn.
    + split; [|by left]. split; [intros _; right; split; [done|by left]|done].
    + destruct (decide (ty = MOther)) as [->|Nt]; cbn.
      * split; [|by left]. split; [intros _; right; split; [done|by right]|done].
      * rewrite bool_decide_false by done. cbn. split; [|right; by eexists]. split; [done|]. intros [[? _]|[_ [?|?]]]; done.
Qed.
Lemma check_value_iff x v : (check_value x v = Ok tt <-> (v = true -> x <> None)) /\ (check_value x v = Ok tt \/ exists t, check_value x v = Throw t).
Proof. unfold check_value. destruct x as [x|], v; cbn; (split; [|first [by left|right; by eexists]]); split; try done. intros H. exfalso. by apply H. Qed.
(** The adder, as one decision. *)
Lemma m_add_cases c a : (m_accepted c a /\ exists ps ty, props_given (ma_props a) ps /\ names_given (ma_props a) /\ ma_type a = Some ty /\
    m_add c a = put_item c (ma_id a) ps (mkMeas ty (ma_side a) (ma_value a) (ma_std a) (ma_valid a))) \/
  (~ m_accepted c a /\ exists t, m_add c a = (Throw t, c)).
Proof.
  unfold m_add, m_accepted. destruct (adder_props_run (ma_props a) [] ∅ props_empty) as [P1 P2]. cbn [app] in P1.
  destruct (names_dec (ma_props a)) as [Hn|Hn]; [destruct (P1 Hn) as (ps & -> & G)|destruct (P2 Hn) as [t ->]; right; split; [by intros [? _]|cbn; by eexists]]. cbn [result_bind].
  destruct (id_free c (ma_id a)) eqn:Ef; [|right; split; [|cbn; by eexists]; intros (_ & H & _); apply id_free_iff in H; congruence]. apply id_free_iff in Ef. cbn [result_bind].
  destruct (ma_type a) as [ty|] eqn:Et; [|right; split; [by intros (_ & _ & ty & ? & _)|by eexists]].
  destruct (check_value_iff (ma_value a) (ma_valid a)) as [V1 V2]. destruct V2 as [V2|[t V2]]; rewrite V2; cbn [result_bind].
  2:{ right. split; [|by eexists]. intros (_ & _ & ty' & _ & H & _). apply V1 in H. congruence. }
  destruct (check_side_iff (c_cls c) ty (ma_side a)) as [S1 S2]. destruct S2 as [S2|[t S2]]; rewrite S2; cbn [result_bind].
  2:{ right. split; [|by eexists]. intros (_ & _ & ty' & E' & _ & H). injection E' as <-. apply S1 in H. congruence. }
  left. split; [|by exists ps, ty]. split; [done|]. split; [done|]. exists ty. split; [done|]. split; [by apply V1|by apply S1].
Qed.
Lemma forget_2 {B A} (r : result B * items A) : (forget r).2 = r.2.
Proof. done. Qed.
Lemma set_data_inv {A : Type} (f : A -> result A) (i i' : item A) : set_data f i = Ok i' -> exists a, f (i_data i) = Ok a /\ i' = mkItem (i_addr i) (i_id i) (i_props i) a.
Proof. unfold set_data. destruct (f (i_data i)) as [a| | |]; cbn; try done. intros [= <-]. by exists a. Qed.
Lemma m_other_calls c o k : cinv c -> m_target o = Some k ->
  (~ present c k /\ mstep o c = (UB, c)) \/
  (present c k /\ m_refused o /\ (exists t, (mstep o c).1 = Throw t) /\ (mstep o c).2 = c) \/
  (present c k /\ ~ m_refused o /\ (mstep o c).1 = Ok tt /\ changed k c (mstep o c).2 (m_effect o) /\ c_next (mstep o c).2 = c_next c).
Proof.
  intros I T. destruct o as [a|k0|k0 x|k0 x|k0 x|k0 n x|k0 n]; try discriminate T; injection T as ->; cbn [mstep].
  all: match goal with J : cinv ?c |- context [on_item ?c ?k ?f] => destruct (on_cases c k f J) as [[N ->]|(i & Hi & Ei & D)]; [by left|right]; assert (P : present c k) by (by exists i); destruct D as [(i' & Ef & -> & ->)|(Ef & -> & ->)] end.
  all: try (exfalso; eapply Ef; reflexivity).
  1-3: (right; apply set_data_inv in Ef as (b & Eb & ->); injection Eb as <-; split; [done|]; split; [by intros (? & ? & ?)|]; split; [done|]; split; [|done]; apply (map_changed c k i); done).
  - unfold put_property in Ef. destruct (String.eqb_spec n "") as [->|Ne]; [done|]. injection Ef as <-. right. split; [done|]. split; [intros (? & ? & [= ? ?]); done|]. split; [done|]. split; [|done].
    apply (map_changed c k i); [done..|]. unfold m_effect. cbn [i_data i_props]. split; [done|]. split; [done|]. split; [done|]. split; [by rewrite lookup_insert|]. intros n' D. by rewrite lookup_insert_ne.
  - unfold put_property in *. destruct (String.eqb_spec n "") as [->|Ne]; [|exfalso; by eapply Ef]. left. split; [done|]. split; [by exists k, x|]. split; [by eexists|done].
  - injection Ef as <-. right. split; [done|]. split; [by intros (? & ? & ?)|]. split; [done|]. split; [|done].
    apply (map_changed c k i); [done..|]. unfold m_effect. cbn [i_data i_props]. split; [done|]. split; [done|]. split; [done|]. split; [by rewrite lookup_delete|]. intros n' D. by rewrite lookup_delete_ne.
Qed.

(** * Discrete measurements *)
Lemma switch_iff k : is_switch k = true <-> k = CBusSwitch \/ k = CNodeSwitch.
Proof. destruct k; vm_compute; intuition (try done). Qed.
Lemma d_checks_iff k ty t : ((d_check_type k ty = Ok tt /\ d_check_tap k ty t = Ok tt) <-> tap_fits k ty t) /\
  (d_check_type k ty = Ok tt \/ exists e, d_check_type k ty = Throw e) /\ (d_check_tap k ty t = Ok tt \/ exists e, d_check_tap k ty t = Throw e).
Proof.
  split; [|split].
  - unfold tap_fits, d_check_type, d_check_tap. rewrite <- switch_iff. unfold is_transformer. split.
    + intros [H1 H2]. split; [|split].
      * intros ->. destruct (is_switch k); [done|discriminate H1].
      * intros -> ->. discriminate H2.
      * intros p ->. destruct k, p; cbn in H2; try discriminate H2; (left + right); (split; [done|]); apply (bool_decide_unpack _); by vm_compute.
    + intros (H1 & H2 & H3). split.
      * destruct ty; cbn; try done; [|by rewrite (H1 eq_refl)].
        destruct t as [p|]; [|exfalso; by apply H2]. destruct (H3 p eq_refl) as [[-> _]|[-> _]]; done.
      * destruct t as [p|]; [|rewrite bool_decide_false; [done|intros ->; by apply H2]]. destruct (H3 p eq_refl) as [[-> Hp]|[-> Hp]].
        -- cbn. rewrite !elem_of_cons in Hp. destruct Hp as [->|[->|Hp%elem_of_nil]]; done.
        -- cbn. rewrite !elem_of_cons in Hp. destruct Hp as [->|[->|[->|[->|[->|[->|Hp%elem_of_nil]]]]]]; done.
  - unfold d_check_type. repeat case_match; first [by left|right; by eexists].
  - unfold d_check_tap. repeat case_match; first [by left|right; by eexists].
Qed.
(** The type of a stored value. *)
Definition tagged (m : dmeas) : Prop := exists x, d_value m = Some x /\ d_vtype m = kind_of x.
Lemma d_add_cases c a : (d_accepted c a /\ exists ps ty x, props_given (da_props a) ps /\ names_given (da_props a) /\ da_type a = Some ty /\ da_value a = Some x /\
    d_add c a = put_item c (da_id a) ps (mkD ty (da_tap a) (kind_of x) (Some x) (da_valid a))) \/
  (~ d_accepted c a /\ (exists t, d_add c a = (Throw t, c)) /\ (da_type a = None -> ~ (names_given (da_props a) /\ id_free c (da_id a) = true))) \/
  (da_type a = None /\ names_given (da_props a) /\ id_free c (da_id a) = true /\ d_add c a = (UB, c)).
Proof.
  unfold d_add, d_accepted. destruct (adder_props_run (da_props a) [] ∅ props_empty) as [P1 P2]. cbn [app] in P1.
  destruct (names_dec (da_props a)) as [Hn|Hn]; [destruct (P1 Hn) as (ps & -> & G)|destruct (P2 Hn) as [t ->]; right; left; split; [by intros [? _]|split; [cbn; by eexists|by intros _ [? _]]]]. cbn [result_bind].
  destruct (id_free c (da_id a)) eqn:Ef; [|right; left; split; [|split; [cbn; by eexists|by intros _ [_ ?]]]; intros (_ & H & _); apply id_free_iff in H; congruence]. assert (Ef' := Ef). apply id_free_iff in Ef'. cbn [result_bind].
  destruct (da_type a) as [ty|] eqn:Et; [|by right; right].
  destruct (d_checks_iff (c_cls c) ty (da_tap a)) as (T1 & T2 & T3).
  destruct T2 as [T2|[t T2]]; rewrite T2; cbn [result_bind].
  2:{ right. left. split; [|split; [by eexists|done]]. intros (_ & _ & ty' & [= <-] & H & _). apply T1 in H as [H _]. congruence. }
  destruct T3 as [T3|[t T3]]; rewrite T3; cbn [result_bind].
  2:{ right. left. split; [|split; [by eexists|done]]. intros (_ & _ & ty' & [= <-] & H & _). apply T1 in H as [_ H]. congruence. }
  destruct (da_value a) as [x|] eqn:Ex.
  - left. split; [split; [done|]; split; [done|]; exists ty; split; [done|]; split; [by apply T1|done]|]. exists ps, ty, x. unfold d_check_value. rewrite bool_decide_true by (by eexists). cbn [result_bind].
    destruct x; done.
  - right. left. split; [by intros (_ & _ & ty' & _ & _ & ?)|]. split; [|done]. unfold d_check_value. rewrite bool_decide_false by (by intros [? ?]). destruct (da_valid a); cbn; by eexists.
Qed.
Lemma d_set_value_eq x m : d_set_value x m = Ok (mkD (d_type m) (d_tap m) (kind_of x) (Some x) (d_valid m)).
Proof. by destruct x. Qed.
Lemma d_other_calls c o k : cinv c -> d_target o = Some k ->
  (~ present c k /\ dstep o c = (UB, c)) \/
  (present c k /\ d_refused o /\ (exists t, (dstep o c).1 = Throw t) /\ (dstep o c).2 = c) \/
  (present c k /\ ~ d_refused o /\ (dstep o c).1 = Ok tt /\ changed k c (dstep o c).2 (d_effect o) /\ c_next (dstep o c).2 = c_next c).
Proof.
  intros I T. destruct o as [a|k0|k0 x|k0 x|k0 n x|k0 n]; try discriminate T; injection T as ->; cbn [dstep].
  all: match goal with J : cinv ?c |- context [on_item ?c ?k ?f] => destruct (on_cases c k f J) as [[N ->]|(i & Hi & Ei & D)]; [by left|right]; assert (P : present c k) by (by exists i); destruct D as [(i' & Ef & -> & ->)|(Ef & -> & ->)] end.
  - right. apply set_data_inv in Ef as (b & Eb & ->). rewrite d_set_value_eq in Eb. injection Eb as <-. split; [done|]. split; [by intros (? & ? & ?)|]. split; [done|]. split; [|done]. apply (map_changed c k i); done.
  - exfalso. unfold set_data in Ef. rewrite d_set_value_eq in Ef. eapply Ef. reflexivity.
  - right. apply set_data_inv in Ef as (b & Eb & ->). injection Eb as <-. split; [done|]. split; [by intros (? & ? & ?)|]. split; [done|]. split; [|done]. apply (map_changed c k i); done.
  - exfalso. eapply Ef. reflexivity.
  - unfold put_property in Ef. destruct (String.eqb_spec n "") as [->|Ne]; [done|]. injection Ef as <-. right. split; [done|]. split; [intros (? & ? & [= ? ?]); done|]. split; [done|]. split; [|done].
    apply (map_changed c k i); [done..|]. unfold d_effect. cbn [i_data i_props]. split; [done|]. split; [done|]. split; [done|]. split; [by rewrite lookup_insert|]. intros n' D. by rewrite lookup_insert_ne.
  - unfold put_property in *. destruct (String.eqb_spec n "") as [->|Ne]; [|exfalso; by eapply Ef]. left. split; [done|]. split; [by exists k, x|]. split; [by eexists|done].
  - injection Ef as <-. right. split; [done|]. split; [by intros (? & ? & ?)|]. split; [done|]. split; [|done].
    apply (map_changed c k i); [done..|]. unfold d_effect. cbn [i_data i_props]. split; [done|]. split; [done|]. split; [done|]. split; [by rewrite lookup_delete|]. intros n' D. by rewrite lookup_delete_ne.
  - exfalso. eapply Ef. reflexivity.
Qed.

(** * Histories *)
Lemma changed_forall {A : Type} k (c c' : items A) f (Q : item A -> Prop) : changed k c c' f -> (forall i j, i ∈ c_items c -> i_addr i = k -> Q i -> i_id j = i_id i -> f i j -> Q j) -> Forall Q (c_items c) -> Forall Q (c_items c').
Proof.
  intros (_ & F) H G. rewrite Forall_forall in *. intros j Hj. apply elem_of_list_lookup in Hj as [n Hn]. destruct (Forall2_lookup_r _ _ _ _ _ F Hn) as (i & Hi & H1 & H2).
  assert (Hi' : i ∈ c_items c) by (by eapply elem_of_list_lookup_2). destruct (decide (i_addr i = k)) as [E|E]; [destruct (H2 E) as (_ & E2 & E3); by apply (H i j); [..|apply G| |]|rewrite (H1 E); by apply G].
Qed.
Lemma remove_forall {A : Type} k (c : items A) (Q : item A -> Prop) : Forall Q (c_items c) -> Forall Q (c_items (remove_item c k)).
Proof. unfold remove_item. cbn [c_items]. induction (c_items c) as [|i l IH]; [done|]. intros [H1 H2]%Forall_cons. cbn [erase]. destruct (_ =? _); [done|]. apply Forall_cons. split; [done|by apply IH]. Qed.
Lemma empty_cinv {A : Type} k : cinv (@empty_of A k).
Proof. split; [apply NoDup_nil_2|]. split; [by intros i Hi%elem_of_nil|]. intros n m i j Hn. cbn [c_items empty_of] in Hn. by rewrite lookup_nil in Hn. Qed.
Definition m_item_ok (k : cls) (i : item meas) : Prop := side_fits k (m_type (i_data i)) (m_side (i_data i)) /\ i_props i !! "" = None.
Definition minv (k : cls) (c : items meas) : Prop := cinv c /\ c_cls c = k /\ Forall (m_item_ok k) (c_items c).
Lemma m_step_inv k c o : minv k c -> (mstep o c).1 <> UB -> minv k (mstep o c).2.
Proof.
  intros (I & <- & F) U. destruct (m_target o) as [p|] eqn:T.
  - destruct (m_other_calls c o p I T) as [[_ E]|[(_ & _ & _ & ->)|(_ & Nr & _ & C & En)]]; [by rewrite E in U|done|].
    split; [by eapply changed_cinv|]. split; [by destruct C|]. eapply changed_forall; [done| |done]. intros i j Hi Ep [H1 H2] _ (E1 & E2 & H). unfold m_item_ok. rewrite E1, E2. split; [done|].
    destruct o as [a|k0|k0 x|k0 x|k0 x|k0 n x|k0 n]; try discriminate T; try (destruct H as (-> & _); done).
    + destruct H as (_ & _ & H). rewrite H; [done|]. intros <-. apply Nr. by exists k0, x.
    + destruct H as (_ & H0 & H). destruct (decide (n = "")) as [->|D]; [done|by rewrite H].
  - destruct o as [a|p| | | | |]; try discriminate T.
    + cbn [mstep]. rewrite forget_2. destruct (m_add_cases c a) as [[Ha (ps & ty & G & N & Et & ->)]|[_ [t ->]]]; [|done].
      destruct Ha as (_ & Hf & ty' & Et' & Hv & Hs). rewrite Et in Et'. injection Et' as <-. split; [by apply put_cinv; [|apply id_free_iff]|]. split; [done|]. rewrite put_items. apply Forall_app. split; [done|].
      apply Forall_singleton. split; [done|]. by eapply props_no_empty.
    + cbn [mstep snd]. split; [by apply remove_cinv|]. split; [done|]. by apply remove_forall.
Qed.
Lemma m_reach_inv k c : m_reach k c -> minv k c.
Proof.
  intros R. unfold m_reach in R. revert R. apply (rtc_ind_r (fun c => minv k c)); [split; [apply empty_cinv|]; split; [done|apply Forall_nil_2]|]. intros c1 c2 _ (o & U & <-) H. by apply m_step_inv.
Qed.
Lemma m_careful_step k c o : minv k c -> Forall valid_has_value (c_items c) -> m_careful o c -> (mstep o c).1 <> UB -> Forall valid_has_value (c_items (mstep o c).2).
Proof.
  intros (I & <- & F) V Ca U. destruct (m_target o) as [p|] eqn:T.
  - destruct (m_other_calls c o p I T) as [[_ E]|[(_ & _ & _ & ->)|(_ & Nr & _ & C & En)]]; [by rewrite E in U|done|].
    eapply changed_forall; [done| |done]. intros i j Hi Ep Vi _ (E1 & E2 & H). unfold valid_has_value in *.
    destruct o as [a|k0|k0 x|k0 x|k0 x|k0 n x|k0 n]; try discriminate T; injection T as ->.
    + destruct H as (_ & -> & _ & ->). destruct x as [x|]; [done|]. cbn in Ca. by rewrite (Ca i Hi Ep).
    + destruct H as (_ & -> & _ & ->). done.
    + destruct H as (_ & -> & _ & ->). destruct x; [|done]. intros _. by apply (Ca i Hi Ep).
    + by destruct H as (-> & _).
    + by destruct H as (-> & _).
  - destruct o as [a|p| | | | |]; try discriminate T.
    + cbn [mstep]. rewrite forget_2. destruct (m_add_cases c a) as [[Ha (ps & ty & G & N & Et & ->)]|[_ [t ->]]]; [|done].
      destruct Ha as (_ & Hf & ty' & Et' & Hv & Hs). rewrite put_items. apply Forall_app. split; [done|]. by apply Forall_singleton.
    + cbn [mstep snd]. by apply remove_forall.
Qed.
Lemma m_careful_reach k c : rtc m_calls (empty_of k) c -> m_reach k c /\ Forall valid_has_value (c_items c).
Proof.
  apply (rtc_ind_r (fun c => m_reach k c /\ Forall valid_has_value (c_items c))); [split; [apply rtc_refl|apply Forall_nil_2]|]. intros c1 c2 _ (o & Ca & U & <-) [R V].
  split; [eapply rtc_r; [exact R|by exists o]|]. eapply m_careful_step; [by apply m_reach_inv|done..].
Qed.
Definition d_item_ok (k : cls) (i : item dmeas) : Prop := tagged (i_data i) /\ tap_fits k (d_type (i_data i)) (d_tap (i_data i)) /\ i_props i !! "" = None.
Definition dinv (k : cls) (c : items dmeas) : Prop := cinv c /\ c_cls c = k /\ Forall (d_item_ok k) (c_items c).
Lemma d_step_inv k c o : dinv k c -> (dstep o c).1 <> UB -> dinv k (dstep o c).2.
Proof.
  intros (I & <- & F) U. destruct (d_target o) as [p|] eqn:T.
  - destruct (d_other_calls c o p I T) as [[_ E]|[(_ & _ & _ & ->)|(_ & Nr & _ & C & En)]]; [by rewrite E in U|done|].
    split; [by eapply changed_cinv|]. split; [by destruct C|]. eapply changed_forall; [done| |done]. intros i j Hi Ep (H1 & H2 & H3) _ (E1 & E2 & H). unfold d_item_ok. rewrite E1, E2.
    destruct o as [a|k0|k0 x|k0 x|k0 n x|k0 n]; try discriminate T.
    + destruct H as (-> & Ev & Et & _). split; [by exists x|done].
    + destruct H as (-> & Ev & Et & _). split; [|done]. unfold tagged. by rewrite Ev, Et.
    + destruct H as (-> & _ & H). split; [done|]. split; [done|]. rewrite H; [done|]. intros <-. apply Nr. by exists k0, x.
    + destruct H as (-> & H0 & H). split; [done|]. split; [done|]. destruct (decide (n = "")) as [->|D]; [done|by rewrite H].
  - destruct o as [a|p| | | |]; try discriminate T.
    + cbn [dstep] in *. rewrite forget_2. destruct (d_add_cases c a) as [[Ha (ps & ty & x & G & N & Et & Ex & ->)]|[(_ & (t & ->) & _)|(_ & _ & _ & ->)]]; [|done|done].
      destruct Ha as (_ & Hf & ty' & Et' & Hs & _). rewrite Et in Et'. injection Et' as <-. split; [by apply put_cinv; [|apply id_free_iff]|]. split; [done|]. rewrite put_items. apply Forall_app. split; [done|].
      apply Forall_singleton. split; [by exists x|]. split; [done|]. by eapply props_no_empty.
    + cbn [dstep snd]. split; [by apply remove_cinv|]. split; [done|]. by apply remove_forall.
Qed.
Lemma d_reach_inv k c : d_reach k c -> dinv k c.
Proof.
  intros R. unfold d_reach in R. revert R. apply (rtc_ind_r (fun c => dinv k c)); [split; [apply empty_cinv|]; split; [done|apply Forall_nil_2]|]. intros c1 c2 _ (o & U & <-) H. by apply d_step_inv.
Qed.
Lemma d_careful_step k c o : dinv k c -> Forall (fun i => d_value (i_data i) <> Some (DText "")) (c_items c) -> d_careful o -> (dstep o c).1 <> UB -> Forall (fun i => d_value (i_data i) <> Some (DText "")) (c_items (dstep o c).2).
Proof.
  intros (I & <- & F) V Ca U. destruct (d_target o) as [p|] eqn:T.
  - destruct (d_other_calls c o p I T) as [[_ E]|[(_ & _ & _ & ->)|(_ & Nr & _ & C & En)]]; [by rewrite E in U|done|].
    eapply changed_forall; [done| |done]. intros i j Hi Ep Vi _ (E1 & E2 & H). cbv beta in *.
    destruct o as [a|k0|k0 x|k0 x|k0 n x|k0 n]; try discriminate T.
    + destruct H as (_ & -> & _). intros [= ->]. by apply Ca.
    + by destruct H as (_ & -> & _).
    + by destruct H as (-> & _).
    + by destruct H as (-> & _).
  - destruct o as [a|p| | | |]; try discriminate T.
    + cbn [dstep] in *. rewrite forget_2. destruct (d_add_cases c a) as [[Ha (ps & ty & x & G & N & Et & Ex & ->)]|[(_ & (t & ->) & _)|(_ & _ & _ & ->)]]; [|done|done].
      rewrite put_items. apply Forall_app. split; [done|]. apply Forall_singleton. cbn. cbn in Ca. congruence.
    + cbn [dstep snd]. by apply remove_forall.
Qed.
Lemma d_careful_reach k c : rtc d_calls (empty_of k) c -> d_reach k c /\ Forall (fun i => d_value (i_data i) <> Some (DText "")) (c_items c).
Proof.
  apply (rtc_ind_r (fun c => d_reach k c /\ Forall (fun i => d_value (i_data i) <> Some (DText "")) (c_items c))); [split; [apply rtc_refl|apply Forall_nil_2]|]. intros c1 c2 _ (o & Ca & U & <-) [R V].
  split; [eapply rtc_r; [exact R|by exists o]|]. eapply d_careful_step; [by apply d_reach_inv|done..].
Qed.

(** * Towards the file *)
Lemma pretty_go_ne (x : N) s : s <> "" -> pretty_N_go x s <> "".
Proof.
  revert s. induction (N.lt_wf_0 x) as [x _ IH]; intros s Hs. destruct (decide (0 < x)%N) as [P|P].
  - rewrite pretty_N_go_step by done. apply IH; [by apply N.div_lt|done].
  - assert (x = 0%N) as -> by lia. by rewrite pretty_N_go_0.
Qed.
Lemma pretty_pos_ne (p : positive) : pretty p <> "".
Proof.
  unfold pretty, pretty_positive, pretty, pretty_N. destruct (decide _) as [E|E]; [done|]. rewrite pretty_N_go_step by lia. by apply pretty_go_ne.
Qed.
Lemma pretty_int_ne (z : Z) : pretty z <> "".
Proof. destruct z as [|p|p]; [done| |done]. apply pretty_pos_ne. Qed.
Lemma m_child_ok k i : m_item_ok k i -> valid_has_value i -> measurement k (m_child i).
Proof.
  intros [S P] V. unfold measurement, m_child. do 6 eexists. split; [reflexivity|]. split; [reflexivity|]. split; [destruct (m_type (i_data i)); apply (bool_decide_unpack _); by vm_compute|]. split; [|done].
  destruct S as [[H ->]|[H S]]; [left; done|right]. split; [done|]. destruct (m_side (i_data i)) as [[]|]; [left; apply (bool_decide_unpack _); by vm_compute..|]. right. split; [done|]. destruct S as [S| ->]; done.
Qed.
Lemma d_child_ok k i : d_item_ok k i -> d_value (i_data i) <> Some (DText "") -> exists c, d_child i = Ok c /\ discrete k c /\ ch_fields c !! 0 = Some (VText (i_id i)).
Proof.
  intros ((x & Ev & Et) & (T1 & T2 & T3) & P) V.
  assert (exists t, value_written (i_data i) = Ok t /\ ((vtype_name (kind_of x) = "BOOLEAN" /\ (t = "true" \/ t = "false")) \/ (vtype_name (kind_of x) = "INT" /\ t <> "") \/ (vtype_name (kind_of x) = "STRING" /\ t <> ""))) as (t & Ew & Ht).
  { unfold value_written, as_bool, as_int, as_text. rewrite Et, Ev. destruct x as [b|z|s]; cbn.
    - exists (bool_text b). split; [done|]. left. split; [done|]. destruct b; auto.
    - exists (pretty z). split; [done|]. right. left. split; [done|]. apply pretty_int_ne.
    - exists s. split; [done|]. right. right. split; [done|]. congruence. }
  unfold d_child. rewrite Ew. cbn [result_bind]. eexists. split; [reflexivity|]. split; [|done]. unfold discrete. do 6 eexists. split; [reflexivity|]. split; [reflexivity|].
  split; [destruct (d_type (i_data i)); apply (bool_decide_unpack _); by vm_compute|]. split; [intros E; apply T1; by destruct (d_type (i_data i))|].
  split; [|split; [|split; [by rewrite Et|done]]].
  - intros E. assert (d_type (i_data i) = DTap) as Ed by (by destruct (d_type (i_data i))). specialize (T2 Ed). by destruct (d_tap (i_data i)) as [[]|].
  - destruct (d_tap (i_data i)) as [p|]; [right|by left]. destruct (T3 p eq_refl) as [[-> H]|[-> H]]; [left|right]; (split; [done|]); destruct p; apply (bool_decide_unpack _); first [by vm_compute|exfalso; apply (proj2 (bool_decide_eq_true _)) in H; vm_compute in H; discriminate H].
Qed.
Lemma unique_m c : cinv c -> unique_ids (m_child <$> c_items c).
Proof.
  intros (_ & _ & U) n m x y id Hn Hm E1 E2 Ne. rewrite list_lookup_fmap in Hn, Hm. destruct (c_items c !! n) as [i|] eqn:Ei; [|done]. destruct (c_items c !! m) as [j|] eqn:Ej; [|done].
  injection Hn as <-. injection Hm as <-. injection E1 as E1. injection E2 as E2. apply (U n m i j); congruence.
Qed.
Lemma d_children_ok k l : Forall (d_item_ok k) l -> Forall (fun i => d_value (i_data i) <> Some (DText "")) l -> exists cs, d_children l = Ok cs /\ Forall2 (fun i c => d_child i = Ok c /\ discrete k c /\ ch_fields c !! 0 = Some (VText (i_id i))) l cs.
Proof.
  induction l as [|i l IH]; [intros _ _; by exists []|]. intros [H1 H2]%Forall_cons [V1 V2]%Forall_cons. destruct (d_child_ok k i H1 V1) as (x & Ex & Hx). destruct (IH H2 V2) as (cs & Ec & Hc).
  exists (x :: cs). cbn [d_children]. rewrite Ex. cbn [result_bind]. rewrite Ec. split; [done|]. by constructor.
Qed.
