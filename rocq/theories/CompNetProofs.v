From stdpp Require Import gmap relations.
From Verif Require Import Base Equip Components ComponentsProofs CompNetSpec.

(** ** The classes of buses *)
Lemma rtsc_sym {A} (R : A -> A -> Prop) x y : rtsc R x y -> rtsc R y x.
Proof. induction 1 as [|x y z H _ IH]; [done|]. eapply rtc_r; [exact IH|]. destruct H; [by right|by left]. Qed.
Lemma rep_spec l x y : rep l x = rep l y <-> rtsc (fun a b => (a, b) ∈ l) x y.
Proof.
  revert x y. induction l as [|[a b] l IH]; intros x y.
  - cbn. split; [intros ->; done|]. intros H. induction H as [|x y z Hxy _ IH]; [done|]. destruct Hxy as [?|?]; set_solver.
  - cbn [rep]. assert (forall x y, rep l x = rep l y -> rtsc (fun a' b' => (a', b') ∈ (a, b) :: l) x y) as Hm.
    { intros u w H%IH. clear -H. induction H as [|u w z Huw _ IH]; [done|]. eapply rtc_l; [|exact IH].
      destruct Huw as [?|?]; [left|right]; by right. }
    assert (rtsc (fun a' b' => (a', b') ∈ (a, b) :: l) a b) as Hab by (apply rtc_once; left; left).
    assert (forall u w, rtsc (fun a' b' => (a', b') ∈ (a, b) :: l) u w -> rtsc (fun a' b' => (a', b') ∈ (a, b) :: l) w u) as Hsym
      by (intros ? ? ?; by apply rtsc_sym).
    split.
    + case_bool_decide as H1; case_bool_decide as H2; intros H.
      * apply Hm. congruence.
      * etrans; [apply Hm, H1|]. etrans; [exact Hab|]. by apply Hm.
      * etrans; [apply Hm, H|]. etrans; [apply Hsym, Hab|]. apply Hm. done.
      * by apply Hm.
    + intros H. induction H as [|u w z Huw _ IHr]; [done|]. etrans; [|exact IHr]. clear IHr.
      assert (forall p q, (p, q) ∈ (a, b) :: l -> (if bool_decide (rep l p = rep l a) then rep l b else rep l p) = (if bool_decide (rep l q = rep l a) then rep l b else rep l q)) as Hp.
      { intros p q [[= -> ->]|Hpq]%elem_of_cons.
        - rewrite bool_decide_eq_true_2 by done. by case_bool_decide.
        - assert (rep l p = rep l q) as -> by (apply IH, rtc_once; by left). done. }
      destruct Huw as [?|?]; [by apply Hp|symmetry; by apply Hp].
Qed.
Lemma closed_elem s v bs a b : (a, b) ∈ closed_pairs s v bs <-> cjoined s v a b /\ a ∈ bs /\ b ∈ bs.
Proof.
  unfold closed_pairs, cjoined. rewrite elem_of_app, elem_of_list_omap, elem_of_list_filter. split.
  - intros [([id [x y]] & Hin & E)|[[? ?] ?]]; [|cbn in *; auto]. apply elem_of_map_to_list in Hin. cbn in E. case_bool_decide as H; [|done]. injection E as -> ->. naive_solver.
  - intros [[(id & H1 & H2)|H] [Ha Hb]]; [|by right]. left. exists (id, (a, b)). split; [by apply elem_of_map_to_list|]. cbn. by rewrite bool_decide_eq_true_2.
Qed.
Lemma eqv_spec s v bs a b : eqv s v bs a b = true <-> rtsc (fun x y => cjoined s v x y /\ x ∈ bs /\ y ∈ bs) a b.
Proof.
  unfold eqv. rewrite bool_decide_eq_true, rep_spec. 
  assert (forall (R S : string -> string -> Prop), (forall x y, R x y <-> S x y) -> rtsc R a b <-> rtsc S a b) as Hx.
  { intros R S H. split; intros HR; (eapply rtc_subrel; [|exact HR]); intros ? ? [?|?]; [left|right|left|right]; by apply H. }
  apply Hx. intros x y. apply closed_elem.
Qed.
Lemma eqv_ext s v s' v' bs bs' : (forall a b, cjoined s v a b /\ a ∈ bs /\ b ∈ bs <-> cjoined s' v' a b /\ a ∈ bs' /\ b ∈ bs') ->
  forall a b, eqv s v bs a b = eqv s' v' bs' a b.
Proof.
  intros H a b. apply eq_true_iff_eq. rewrite !eqv_spec. split; intros HR; (eapply rtc_subrel; [|exact HR]); intros ? ? [?|?]; [left|right|left|right]; by apply H.
Qed.
Lemma eqv_refl s v bs a : eqv s v bs a a = true.
Proof. apply eqv_spec. done. Qed.
Lemma eqv_sym s v bs a b : eqv s v bs a b = true -> eqv s v bs b a = true.
Proof. rewrite !eqv_spec. intros. by apply rtsc_sym. Qed.
Lemma eqv_trans s v bs a b c : eqv s v bs a b = true -> eqv s v bs b c = true -> eqv s v bs a c = true.
Proof. rewrite !eqv_spec. intros. by etrans. Qed.

Lemma terms_elem s v c e i k : ((e, i), k) ∈ class_terms s v c <-> exists b, b ∈ c /\ on_bus s v e i k b.
Proof.
  unfold class_terms, on_bus. rewrite elem_of_list_In, in_flat_map. split.
  - intros ([e' [k' bs]] & Hin & H). apply elem_of_list_In, elem_of_map_to_list in Hin. apply elem_of_list_In, elem_of_list_omap in H as ([j b] & Hj & E). cbn in *.
    apply elem_of_lookup_imap in Hj as (j' & y & [= -> ->] & Hy). case_bool_decide as H; [|done]. injection E as -> -> ->. exists y. naive_solver.
  - intros (b & Hb & bs & H1 & H2 & H3). exists (e, (k, bs)). split; [by apply elem_of_list_In, elem_of_map_to_list|]. apply elem_of_list_In, elem_of_list_omap.
    exists (i, b). split; [apply elem_of_lookup_imap; eauto|]. cbn. by rewrite bool_decide_eq_true_2.
Qed.
Lemma terms_once s v c : NoDup (class_terms s v c).*1.
Proof.
  unfold class_terms. pose proof (NoDup_fst_map_to_list (cs_eq s)) as N. induction (map_to_list (cs_eq s)) as [|[e [k bs]] l IH]; [constructor|].
  cbn [flat_map fst snd]. rewrite fmap_app. cbn in N. apply NoDup_cons in N as [Hn N]. apply NoDup_app. split_and!; [| |by apply IH].
  - assert (forall (g : nat -> nat), (forall a b, g a = g b -> a = b) -> NoDup (omap (fun y : nat * string => if bool_decide (y.2 ∈ c /\ cv_conn v !! (e, y.1) = Some true) then Some ((e, y.1), k) else None)
      (imap (fun i b => (g i, b)) bs)).*1) as H; [|by apply (H id)].
    clear. induction bs as [|b bs IH]; intros g Hg; [constructor|]. rewrite imap_cons. cbn [omap list_omap fst snd].
    assert (forall a b, (g ∘ S) a = (g ∘ S) b -> a = b) as Hg' by (intros x y H; apply Hg in H; by injection H).
    specialize (IH _ Hg'). change (imap ((fun i b => (g i, b)) ∘ S) bs) with (imap (fun i b => ((g ∘ S) i, b)) bs). case_bool_decide; [|exact IH]. rewrite fmap_cons. apply NoDup_cons. split; [|exact IH].
    intros (x & E & Hx)%elem_of_list_fmap. apply elem_of_list_omap in Hx as ([j y] & Hj & E'). apply elem_of_lookup_imap in Hj as (n & z & [= -> ->] & _). cbn in E'.
    case_bool_decide; [|done]. injection E' as <-. cbn in E. injection E as E. by apply Hg in E.
  - intros [e' i] ([x k'] & E & Hx)%elem_of_list_fmap ([y k2] & E2 & Hy)%elem_of_list_fmap. cbn in E, E2. subst x y. apply Hn.
    apply elem_of_list_omap in Hx as ([j z] & _ & E). cbn in E. case_bool_decide; [|done]. injection E as <- <- <-.
    apply elem_of_list_In, in_flat_map in Hy as ([e' [k' bs']] & Hin & Hy). apply elem_of_list_In, elem_of_list_omap in Hy as ([j' z'] & _ & E). cbn in E.
    case_bool_decide; [|done]. injection E as <- <- <-. apply elem_of_list_fmap. exists (e', (k', bs')). split; [done|]. by apply elem_of_list_In.
Qed.
Lemma one_le {A} (l : list A) : (1 <=? length l) = true <-> exists x, x ∈ l.
Proof. destruct l as [|x l]; cbn; split; try done; [intros [y Hy]; by apply elem_of_nil in Hy|]. intros _. exists x. left. Qed.
Lemma two_le {A} (l : list A) x : NoDup l -> x ∈ l -> (2 <=? length l) = true <-> exists y, y ∈ l /\ y <> x.
Proof.
  intros N Hx. destruct l as [|y [|z l]]; [by apply elem_of_nil in Hx| |].
  - apply elem_of_list_singleton in Hx as <-. cbn. split; [done|]. intros (z & ->%elem_of_list_singleton & Hz). done.
  - split; [intros _|done]. apply NoDup_cons in N as [N _]. assert (y <> z) as Hyz by (intros ->; apply N; left).
    apply elem_of_cons in Hx as [->|Hx]; [exists z; split; [right; left|done]|]. exists y. split; [left|]. intros ->. by apply N.
Qed.
Lemma ncount_one P `{forall k, Decision (P k)} l : (1 <=? ncount P l) = true <-> exists t k, (t, k) ∈ l /\ P k.
Proof.
  unfold ncount. rewrite one_le. split.
  - intros ([t k] & [HP Hin]%elem_of_list_filter). eauto.
  - intros (t & k & Hin & HP). exists (t, k). by apply elem_of_list_filter.
Qed.
Lemma node_class_spec s c : node_class s c = true <-> exists b, b ∈ c /\ b ∈ cs_node s.
Proof. unfold node_class. rewrite existsb_exists. setoid_rewrite bool_decide_eq_true. by setoid_rewrite <- elem_of_list_In. Qed.
(** A class of places of one kind. *)
Definition pure (s : csh) (c : list string) : Prop := forall a b, a ∈ c -> b ∈ c -> a ∈ cs_node s <-> b ∈ cs_node s.
Lemma valid_spec s v c x : pure s c -> x ∈ c -> valid_class s v c = true <-> exists e i k, (exists b, b ∈ c /\ on_bus s v e i k b) /\
  ((x ∉ cs_node s /\ branchy k) \/
   (x ∈ cs_node s /\ k <> KInjection /\ exists e' i' k', (e', i') <> (e, i) /\ (exists b', b' ∈ c /\ on_bus s v e' i' k' b') /\ k' <> KBusbar)).
Proof.
  intros Pu Hx. unfold valid_class. cbv zeta. destruct (node_class s c) eqn:Hn.
  - apply node_class_spec in Hn as (y & Hy & Hn). apply (Pu y x Hy Hx) in Hn. set (l := class_terms s v c).
    assert (forall t k, (t, k) ∈ l -> branchy k -> (2 <=? ncount (fun k => k <> KBusbar) l) = true <-> exists t' k', t' <> t /\ (t', k') ∈ l /\ k' <> KBusbar) as H2.
    { intros t k Hin Hk. unfold ncount. rewrite (two_le _ (t, k)).
      - split.
        + intros ([t' k'] & [Hb H]%elem_of_list_filter & Hne). exists t', k'. split; [|done]. intros ->. apply Hne. f_equal.
          pose proof (terms_once s v c) as N. fold l in N. apply elem_of_list_lookup in H as [n Hn'], Hin as [m Hm].
          assert (n = m) as <-; [|congruence]. eapply NoDup_lookup; [exact N| |]; rewrite list_lookup_fmap, ?Hn', ?Hm; done.
        + intros (t' & k' & Hne & H & Hk'). exists (t', k'). split; [by apply elem_of_list_filter|]. congruence.
      - apply NoDup_filter. eapply NoDup_fmap_1. apply terms_once.
      - apply elem_of_list_filter. split; [|done]. cbn. intros ->. by destruct Hk as [?|[?|?]]. }
    rewrite orb_true_iff, !andb_true_iff, !ncount_one. split.
    + intros [[(t & k & Hin & ->) (t' & k' & Hin' & Hk')]|[(t & k & Hin & Hk) H]].
      * destruct t as [e i], t' as [e' i']. exists e, i, KBusbar. split; [by apply terms_elem|]. right. split; [done|]. split; [done|]. exists e', i', k'.
        split; [|split; [by apply terms_elem|done]]. intros [= -> ->]. apply Hk'. apply terms_elem in Hin as (b & _ & bs & E & _), Hin' as (b' & _ & bs' & E' & _). congruence.
      * apply (H2 t k Hin Hk) in H as (t' & k' & Hne & Hin' & Hk'). destruct t as [e i], t' as [e' i']. exists e, i, k. split; [by apply terms_elem|]. right. split; [done|].
        split; [by destruct Hk as [->|[->| ->]]|]. exists e', i', k'. split; [done|]. split; [by apply terms_elem|done].
    + intros (e & i & k & Hin & [[? _]|(_ & Hk & e' & i' & k' & Hne & Hin' & Hk')]); [done|]. apply terms_elem in Hin, Hin'. destruct (decide (k = KBusbar)) as [->|Hk2].
      * left. split; [by exists (e, i), KBusbar|]. by exists (e', i'), k'.
      * assert (branchy k) as Hb by (unfold branchy; destruct k; naive_solver). right. split; [by exists (e, i), k|]. apply (H2 (e, i) k Hin Hb). by exists (e', i'), k'.
  - assert (x ∉ cs_node s) as Hxn. { intros Hx'. apply not_true_iff_false in Hn. apply Hn, node_class_spec. eauto. }
    rewrite ncount_one. split.
    + intros ([e i] & k & Hin & Hk). exists e, i, k. split; [by apply terms_elem|]. by left.
    + intros (e & i & k & Hin & [[_ Hk]|[? _]]); [|done]. exists (e, i), k. split; [by apply terms_elem|done].
Qed.
Lemma terms_ext s v s' v' c : (forall e i k b, b ∈ c -> on_bus s v e i k b <-> on_bus s' v' e i k b) -> class_terms s v c ≡ₚ class_terms s' v' c.
Proof.
  intros H. apply NoDup_Permutation; [eapply NoDup_fmap_1; apply terms_once..|]. intros [[e i] k]. rewrite !terms_elem.
  split; intros (b & Hb & Ho); exists b; (split; [done|]); by apply H.
Qed.
Lemma ncount_perm P `{forall k, Decision (P k)} l l' : l ≡ₚ l' -> ncount P l = ncount P l'.
Proof. intros E. unfold ncount. by rewrite E. Qed.
Lemma node_class_ext s s' c : (forall b, b ∈ c -> b ∈ cs_node s <-> b ∈ cs_node s') -> node_class s c = node_class s' c.
Proof. intros H. apply eq_true_iff_eq. rewrite !node_class_spec. split; intros (b & Hb & Hn); exists b; (split; [done|]); by apply H. Qed.
Lemma valid_ext s v s' v' c : (forall e i k b, b ∈ c -> on_bus s v e i k b <-> on_bus s' v' e i k b) -> (forall b, b ∈ c -> b ∈ cs_node s <-> b ∈ cs_node s') ->
  valid_class s v c = valid_class s' v' c.
Proof. intros H Hn. apply (terms_ext s v s' v') in H. unfold valid_class. cbv zeta. by rewrite (node_class_ext s s' c Hn), !(ncount_perm _ _ _ H). Qed.
Lemma valid_some s v c : valid_class s v c = true -> exists e i k b, b ∈ c /\ on_bus s v e i k b.
Proof.
  assert (forall P `{forall k, Decision (P k)}, (1 <=? ncount P (class_terms s v c)) = true -> exists e i k b, b ∈ c /\ on_bus s v e i k b) as H.
  { intros P ? ([e i] & k & Hin & _)%ncount_one. apply terms_elem in Hin as (b & ? & ?). eauto 8. }
  unfold valid_class. cbv zeta. destruct (node_class s c); [|apply H]. rewrite orb_true_iff, !andb_true_iff. intros [[? _]|[? _]]; by eapply H.
Qed.

Section classes.
  Context (e : string -> string -> bool).
  Lemma classes_ext e' bs l : (forall a b, e a b = e' a b) -> classes e bs l = classes e' bs l.
  Proof.
    intros H. induction l as [|b l IH]; [done|]. cbn. rewrite IH. replace (existsb (e' b) l) with (existsb (e b) l).
    - destruct (existsb _ _); [done|]. f_equal. apply list_filter_iff. intros x. by rewrite H.
    - clear IH. induction l as [|x l IHl]; [done|]. cbn. by rewrite H, IHl.
  Qed.
  Lemma classes_in bs l c : c ∈ classes e bs l -> exists b, b ∈ l /\ c = filter (fun b' => e b b' = true) bs.
  Proof.
    induction l as [|b l IH]; [by intros ?%elem_of_nil|]. cbn. destruct (existsb (e b) l).
    - intros (b' & Hb & ->)%IH. exists b'. split; [by right|done].
    - intros [->|(b' & Hb & ->)%IH]%elem_of_cons; [exists b; split; [by left|done]|exists b'; split; [by right|done]].
  Qed.
  Context (Er : forall a, e a a = true) (Es : forall a b, e a b = true -> e b a = true) (Et : forall a b c, e a b = true -> e b c = true -> e a c = true).
  Lemma classes_cover bs l b : b ∈ l -> filter (fun b' => e b b' = true) bs ∈ classes e bs l.
  Proof.
    induction l as [|x l IH]; [by intros ?%elem_of_nil|]. cbn. intros [->|Hb]%elem_of_cons.
    - destruct (existsb (e x) l) eqn:E; [|by left]. apply existsb_exists in E as (y & Hy & Hxy). apply elem_of_list_In in Hy.
      assert (forall y, y ∈ l -> e x y = true -> filter (fun b' => e x b' = true) bs = filter (fun b' => e y b' = true) bs) as Hf.
      { intros z _ Hz. apply list_filter_iff. intros w. split; intros; eapply Et; eauto. }
      rewrite (Hf y Hy Hxy). clear -Hy Er Es Et. revert y Hy. induction l as [|z l IHl]; intros y Hy; [by apply elem_of_nil in Hy|].
      cbn. apply elem_of_cons in Hy as [->|Hy].
      + destruct (existsb (e z) l) eqn:E; [|by left]. apply existsb_exists in E as (w & Hw & Hzw). apply elem_of_list_In in Hw.
        rewrite (list_filter_iff (fun b' => e z b' = true) (fun b' => e w b' = true)); [by apply IHl|]. intros u. split; intros; eapply Et; eauto.
      + destruct (existsb (e z) l); [by apply IHl|]. right. by apply IHl.
    - destruct (existsb (e x) l); [by apply IH|]. right. by apply IH.
  Qed.
  Lemma classes_disjoint bs l i j c d b : classes e bs l !! i = Some c -> classes e bs l !! j = Some d -> b ∈ c -> b ∈ d -> i = j.
  Proof.
    revert i j. induction l as [|x l IH]; intros i j; [done|]. cbn. destruct (existsb (e x) l) eqn:E; [by apply IH|].
    assert (forall k c, classes e bs l !! k = Some c -> b ∈ filter (fun b' => e x b' = true) bs -> b ∈ c -> False) as Hno.
    { intros k c' Hk [Hb1 _]%elem_of_list_filter Hb2. apply elem_of_list_lookup_2, classes_in in Hk as (y & Hy & ->).
      apply elem_of_list_filter in Hb2 as [Hb2 _]. apply not_true_iff_false in E. apply E. apply existsb_exists. exists y.
      split; [by apply elem_of_list_In|]. eapply Et; [exact Hb1|by apply Es]. }
    destruct i as [|i], j as [|j]; cbn; [done| | |].
    - intros [= <-] Hd Hc' Hd'. exfalso. eauto.
    - intros Hc [= <-] Hc' Hd'. exfalso. eauto.
    - intros Hc Hd Hc' Hd'. f_equal. by eapply IH.
  Qed.
  (** An isolated bus whose class is not kept. *)
  Lemma classes_drop (P : list string -> bool) bs x : (forall b, b <> x -> e x b = false) -> P (filter (fun b' => e x b' = true) bs) = false -> forall l,
    filter (fun c => P c = true) (classes e (filter (fun b => b <> x) bs) (filter (fun b => b <> x) l)) = filter (fun c => P c = true) (classes e bs l).
  Proof.
    intros Hx HP l. induction l as [|b l IH]; [done|]. rewrite filter_cons. destruct (decide (b <> x)) as [Hb|Hb%dec_stable].
    - cbn. assert (e b x = false) as Hbx. { apply not_true_iff_false. intros H%Es. rewrite Hx in H by done. done. }
      replace (existsb (e b) (filter (fun b0 => b0 <> x) l)) with (existsb (e b) l).
      + destruct (existsb (e b) l); [exact IH|]. rewrite !filter_cons.
        replace (filter (fun b' => e b b' = true) (filter (fun b0 => b0 <> x) bs)) with (filter (fun b' => e b b' = true) bs).
        * destruct (decide _); [by rewrite IH|done].
        * rewrite list_filter_filter. apply list_filter_iff. intros y. split; [|naive_solver]. intros Hy. split; [done|]. intros ->. congruence.
      + clear IH. induction l as [|y l IHl]; [done|]. rewrite filter_cons. cbn. destruct (decide (y <> x)) as [Hy|Hy%dec_stable]; cbn; [by rewrite IHl|].
        subst y. by rewrite Hbx, IHl.
    - subst b. cbn. destruct (existsb (e x) l); [exact IH|]. rewrite filter_cons. rewrite decide_False by (rewrite HP; done). exact IH.
  Qed.
End classes.

(** ** The bus view *)
Record cwf (s : csh) : Prop := {
  w_vls : NoDup (map fst (cs_vls s));
  w_once : forall p q b, p ∈ cs_vls s -> q ∈ cs_vls s -> b ∈ p.2 -> b ∈ q.2 -> p = q;
  w_kind : forall p b, p ∈ cs_vls s -> b ∈ p.2 -> b ∈ cs_node s <-> p.1 ∈ cs_nb s;
  w_ic : forall a b, (a, b) ∈ cs_ic s -> exists p, p ∈ cs_vls s /\ a ∈ p.2 /\ b ∈ p.2;
  w_sw : forall id a b, cs_sw s !! id = Some (a, b) -> exists p, p ∈ cs_vls s /\ a ∈ p.2 /\ b ∈ p.2;
  w_eq : forall e k bs, cs_eq s !! e = Some (k, bs) -> bs <> [] /\ forall b, b ∈ bs -> bus_known s b;
  w_hv : forall id s1 s2, cs_hv s !! id = Some (s1, s2) -> s1 ∈ cs_at s /\ s2 ∈ cs_at s;
  w_at : forall st, st ∈ cs_at s -> exists bs, cs_eq s !! st = Some (KStation, bs);
  w_one : forall id id' s1 s2 t1 t2, cs_hv s !! id = Some (s1, s2) -> cs_hv s !! id' = Some (t1, t2) -> id <> id' ->
    s1 <> t1 /\ s1 <> t2 /\ s2 <> t1 /\ s2 <> t2
}.
Definition bview (s : csh) (v : cvar) : list (list string) := concat (map (fun p : string * list string => vl_view s v p.2) (cs_vls s)).

Lemma vl_view_in s v bs c : c ∈ vl_view s v bs -> exists b, b ∈ bs /\ c = filter (fun b' => eqv s v bs b b' = true) bs /\ valid_class s v c = true.
Proof. unfold vl_view. intros [Hv Hc]%elem_of_list_filter. apply classes_in in Hc as (b & Hb & ->). eauto. Qed.
Lemma vl_view_cover s v bs b : b ∈ bs -> valid_class s v (filter (fun b' => eqv s v bs b b' = true) bs) = true ->
  filter (fun b' => eqv s v bs b b' = true) bs ∈ vl_view s v bs.
Proof. intros Hb Hv. apply elem_of_list_filter. split; [done|]. apply classes_cover; eauto using eqv_refl, eqv_sym, eqv_trans. Qed.
Lemma filter_index {A} (P : A -> Prop) `{forall x, Decision (P x)} (l : list A) :
  (forall i x, filter P l !! i = Some x -> True) -> exists f : nat -> nat, (forall i j, f i = f j -> i = j) /\ forall i x, filter P l !! i = Some x -> l !! f i = Some x.
Proof.
  intros _. induction l as [|y l (f & Hf & Hl)]; [exists id; split; [done|]; by intros i x ?|]. rewrite filter_cons. destruct (decide (P y)).
  - exists (fun i => match i with 0 => 0 | S i => S (f i) end). split.
    + intros [|i] [|j]; try done. intros [= ?]. f_equal. by apply Hf.
    + intros [|i] x; cbn; [done|]. apply Hl.
  - exists (fun i => S (f i)). split; [intros i j [= ?]; by apply Hf|]. intros i x Hx. cbn. by apply Hl.
Qed.
Lemma vl_view_disjoint s v bs i j c d b : vl_view s v bs !! i = Some c -> vl_view s v bs !! j = Some d -> b ∈ c -> b ∈ d -> i = j.
Proof.
  unfold vl_view. destruct (filter_index (fun c => valid_class s v c = true) (classes (eqv s v bs) bs bs)) as (f & Hf & Hl); [done|].
  intros Hi%Hl Hj%Hl Hc Hd. apply Hf. eapply (classes_disjoint (eqv s v bs)); [apply eqv_sym|apply eqv_trans|exact Hi|exact Hj|exact Hc|exact Hd].
Qed.
Lemma concat_disjoint (L : list (list (list string))) :
  (forall i j x y c d b, L !! i = Some x -> L !! j = Some y -> c ∈ x -> d ∈ y -> b ∈ c -> b ∈ d -> i = j) ->
  (forall x, x ∈ L -> forall i j c d b, x !! i = Some c -> x !! j = Some d -> b ∈ c -> b ∈ d -> i = j) ->
  forall i j c d b, concat L !! i = Some c -> concat L !! j = Some d -> b ∈ c -> b ∈ d -> i = j.
Proof.
  induction L as [|x L IH]; intros H1 H2 i j c d b; [done|]. cbn. rewrite !lookup_app_Some.
  assert (forall j d, concat L !! j = Some d -> b ∈ d -> forall c, c ∈ x -> b ∈ c -> False) as Hno.
  { intros j' d' Hd Hb c' Hc Hbc. apply elem_of_list_lookup_2, elem_of_list_In, in_concat in Hd as (y & Hy & Hyd).
    apply elem_of_list_In, elem_of_list_lookup in Hy as [k Hk]. apply elem_of_list_In in Hyd.
    assert (0 = S k); [|done]. by eapply (H1 0 (S k) x y c' d' b). }
  intros [Hi|[Li Hi]] [Hj|[Lj Hj]] Hc Hd.
  - eapply (H2 x); eauto. left.
  - exfalso. apply (Hno _ _ Hj Hd c); [by eapply elem_of_list_lookup_2|done].
  - exfalso. apply (Hno _ _ Hi Hc d); [by eapply elem_of_list_lookup_2|done].
  - assert (i - length x = j - length x); [|lia]. eapply IH; eauto.
    + intros a a' y y' c' d' b' Ha Ha' ? ? ? ?. assert (S a = S a') as [= ->]; [|done]. by eapply (H1 (S a) (S a') y y' c' d' b').
    + intros y Hy. apply H2. by right.
Qed.
Lemma vls_once s i j p q b : cwf s -> cs_vls s !! i = Some p -> cs_vls s !! j = Some q -> b ∈ p.2 -> b ∈ q.2 -> i = j.
Proof.
  intros W Hi Hj Hp Hq. assert (p = q) as <-.
  { eapply (w_once _ W); eauto using elem_of_list_lookup_2. }
  pose proof (w_vls _ W) as N. eapply NoDup_lookup; [exact N| |]; rewrite list_lookup_fmap, ?Hi, ?Hj; done.
Qed.
Lemma class_sub s v bs c b : c ∈ vl_view s v bs -> b ∈ c -> b ∈ bs.
Proof. intros (b' & _ & -> & _)%vl_view_in [_ H]%elem_of_list_filter. done. Qed.
Lemma bview_disjoint s v : cwf s -> forall i j c d b, bview s v !! i = Some c -> bview s v !! j = Some d -> b ∈ c -> b ∈ d -> i = j.
Proof.
  intros W. apply concat_disjoint.
  - intros i j x y c d b. rewrite !list_lookup_fmap. intros (p & Hp & ->)%fmap_Some (q & Hq & ->)%fmap_Some Hc Hd Hbc Hbd.
    eapply (vls_once s i j p q b); eauto using class_sub.
  - intros x (p & -> & _)%elem_of_list_fmap. intros. by eapply vl_view_disjoint.
Qed.

(** Closed switches stay within a voltage level. *)
Lemma joined_within s v p a : cwf s -> p ∈ cs_vls s -> a ∈ p.2 -> forall b, rtsc (cjoined s v) a b ->
  b ∈ p.2 /\ rtsc (fun x y => cjoined s v x y /\ x ∈ p.2 /\ y ∈ p.2) a b.
Proof.
  intros W Hp Ha b H. revert b H. apply (rtc_ind_r (fun b => b ∈ p.2 /\ rtsc (fun x y => cjoined s v x y /\ x ∈ p.2 /\ y ∈ p.2) a b)); [done|].
  intros b c _ Hbc [Hb IH].
  assert (forall x y, cjoined s v x y -> x ∈ p.2 \/ y ∈ p.2 -> x ∈ p.2 /\ y ∈ p.2) as Hj.
  { intros x y Hxy Hor. assert (exists q, q ∈ cs_vls s /\ x ∈ q.2 /\ y ∈ q.2) as (q & Hq & Hx & Hy).
    { destruct Hxy as [(id & Hs & _)|Hs]; [by eapply (w_sw _ W)|by apply (w_ic _ W)]. }
    assert (p = q) as <-; [|done]. destruct Hor as [?|?]; by eapply (w_once _ W). }
  destruct Hbc as [H|H]; destruct (Hj _ _ H) as [? ?]; auto; (split; [done|]); (eapply rtc_r; [exact IH|]); [left|right]; done.
Qed.
Lemma bview_in s v c : c ∈ bview s v <-> exists p, p ∈ cs_vls s /\ c ∈ vl_view s v p.2.
Proof.
  unfold bview. rewrite elem_of_list_In, in_concat. split.
  - intros (x & Hx & Hc). apply elem_of_list_In, elem_of_list_fmap in Hx as (p & -> & Hp). exists p. split; [done|]. by apply elem_of_list_In.
  - intros (p & Hp & Hc). exists (vl_view s v p.2). split; [|by apply elem_of_list_In]. apply elem_of_list_In, elem_of_list_fmap. eauto.
Qed.
(** The buses of a merged bus are those linked by closed switches; a bus is in one iff it is energised. *)
Lemma bview_class s v c a : cwf s -> c ∈ bview s v -> a ∈ c -> forall b, b ∈ c <-> rtsc (cjoined s v) a b.
Proof.
  intros W (p & Hp & Hc)%bview_in Ha b. apply vl_view_in in Hc as (x & Hx & -> & _). apply elem_of_list_filter in Ha as [Hxa Ha].
  rewrite elem_of_list_filter. split.
  - intros [Hxb Hb]. assert (eqv s v p.2 a b = true) as E by (eapply eqv_trans; [by apply eqv_sym|done]).
    apply eqv_spec in E. eapply rtc_subrel; [|exact E]. intros ? ? [?|?]; [left|right]; naive_solver.
  - intros H. destruct (joined_within s v p a W Hp Ha b H) as [Hb H']. split; [|done]. eapply eqv_trans; [exact Hxa|]. by apply eqv_spec.
Qed.
Lemma vls_pure s p c : cwf s -> p ∈ cs_vls s -> (forall b, b ∈ c -> b ∈ p.2) -> pure s c.
Proof. intros W Hp Hc a b Ha Hb. by rewrite (w_kind _ W p a), (w_kind _ W p b) by auto. Qed.
Lemma bview_energised s v b : cwf s -> (exists c, c ∈ bview s v /\ b ∈ c) <-> energised s v b.
Proof.
  intros W. split.
  - intros (c & Hc & Hb). pose proof Hc as (p & Hp & Hc')%bview_in. assert (pure s c) as Pu. { eapply vls_pure; [done|done|]. intros y Hy. by eapply class_sub. }
    apply vl_view_in in Hc' as (x & Hx & Hcx & Hv).
    assert (forall e i k, (exists b, b ∈ c /\ on_bus s v e i k b) -> reaches s v b e i k) as HR.
    { intros e i k (b' & Hb' & Ho). exists b'. split; [|done]. by eapply bview_class. }
    apply (valid_spec s v c b Pu Hb) in Hv as (e & i & k & Hin & [[Hn Hk]|(Hn & Hk & e' & i' & k' & Hne & Hin' & Hk')]); exists e, i, k; (split; [by apply HR|]); [by left|].
    right. split; [done|]. split; [done|]. exists e', i', k'. split; [done|]. split; [by apply HR|done].
  - intros (e & i & k & Hr & Hor). pose proof Hr as (b' & H & Ho). pose proof Ho as (bs & He & Hi & _).
    destruct (w_eq _ W _ _ _ He) as [_ Hkn]. specialize (Hkn b' (elem_of_list_lookup_2 _ _ _ Hi)).
    apply Exists_exists in Hkn as (p & Hp & Hb'). apply rtsc_sym in H as H'. destruct (joined_within s v p b' W Hp Hb' b H') as [Hb H2].
    set (c := filter (fun y => eqv s v p.2 b y = true) p.2). assert (b ∈ c) as Hbc by (apply elem_of_list_filter; split; [apply eqv_refl|done]). exists c. split; [|done].
    apply bview_in. exists p. split; [done|]. apply vl_view_cover; [done|]. fold c.
    assert (forall e i k, reaches s v b e i k -> exists b, b ∈ c /\ on_bus s v e i k b) as HR.
    { intros e0 i0 k0 (y & Hy & Hoy). exists y. split; [|done]. destruct (joined_within s v p b W Hp Hb y Hy) as [Hyp Hy2]. apply elem_of_list_filter. split; [by apply eqv_spec|done]. }
    apply (valid_spec s v c b); [|done|].
    + eapply vls_pure; [done|exact Hp|]. intros y Hy. by apply elem_of_list_filter in Hy as [_ ?].
    + exists e, i, k. split; [by apply HR|]. destruct Hor as [[? ?]|(? & ? & e' & i' & k' & ? & ? & ?)]; [by left|]. right. split; [done|]. split; [done|].
      exists e', i', k'. split; [done|]. split; [by apply HR|done].
Qed.
