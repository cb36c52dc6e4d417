(** The links between nodes and between buses when equipments, buses and links come and go. *)
From Verif Require Import EquipNet EquipNetSpec EquipNetProofs.

(** ** Invariants of actions *)
Definition hoare {A} (I : net -> Prop) (m : nact A) (Q : A -> Prop) : Prop := forall nt, I nt -> I (m nt).2 /\ forall a nt', m nt = (Ok a, nt') -> Q a.
Section hoare.
  Context (I : net -> Prop).
  Lemma h_bind {A B} (m : nact A) (f : A -> nact B) Q R : hoare I m Q -> (forall a, Q a -> hoare I (f a) R) -> hoare I (nbind m f) R.
  Proof.
    intros Hm Hf nt Hn. unfold nbind. destruct (Hm nt Hn) as [H1 H2]. destruct (m nt) as [[a|e| |] nt']; cbn in *; [|done..].
    apply (Hf a); [by eapply H2|done].
  Qed.
  Lemma h_ret {A} (a : A) (Q : A -> Prop) : Q a -> hoare I (nret a) Q. Proof. intros HQ nt Hn. split; [done|]. by intros ? ? [= <- _]. Qed.
  Lemma h_throw {A} m (Q : A -> Prop) : hoare I (nthrow m) Q. Proof. intros nt Hn. by split. Qed.
  Lemma h_lift {A} (f : net -> result A) : hoare I (nlift f) (fun _ => True). Proof. intros nt Hn. by split. Qed.
  Lemma h_weaken {A} (m : nact A) (Q R : A -> Prop) : hoare I m Q -> (forall a, Q a -> R a) -> hoare I m R.
  Proof. intros H HQ nt Hn. destruct (H nt Hn) as [H1 H2]. split; [done|]. intros a nt' E. by eapply HQ, H2. Qed.
End hoare.

(** What the levels say. *)
Definition level_ok (x : string * level) : Prop :=
  match x.2 with
  | LNode vs es => forall e, e ∈ es -> is_Some (vs !! e.1) /\ is_Some (vs !! e.2)
  | LBus bs es => forall e, e ∈ es -> is_Some (bs !! e.1) /\ is_Some (bs !! e.2)
  end.
Definition ends_ok (nt : net) : Prop := forall vl x, n_levels nt !! vl = Some x -> level_ok x.
(** The links of the levels. *)
Definition links_of (x : string * level) : string * (list (nat * nat) + list (string * string)) :=
  (x.1, match x.2 with LNode _ es => inl es | LBus _ es => inr es end).
Definition links_are (L : gmap string (string * (list (nat * nat) + list (string * string)))) (nt : net) : Prop := links_of <$> n_levels nt = L.

Lemma ok_level vl : hoare ends_ok (nlevel vl) level_ok.
Proof. intros nt Hn. split; [done|]. unfold nlevel, nlift. intros x nt'. destruct (n_levels nt !! vl) as [y|] eqn:E; [|done]. intros [= <- <-]. by eapply Hn. Qed.
Lemma ok_put vl sub l : level_ok (sub, l) -> hoare ends_ok (nput vl sub l) (fun _ => True).
Proof. intros Hl nt Hn. split; [|done]. intros vl' x. cbn. intros [[_ <-]|[_ H]]%lookup_insert_Some; [done|]. by eapply Hn. Qed.
Lemma ok_same {A} (m : nact A) : (forall nt, n_levels (m nt).2 = n_levels nt) -> hoare ends_ok m (fun _ => True).
Proof. intros H nt Hn. split; [|done]. intros vl x. rewrite H. apply Hn. Qed.
Lemma is_level L vl : hoare (links_are L) (nlevel vl) (fun x => L !! vl = Some (links_of x)).
Proof.
  intros nt Hn. split; [done|]. unfold nlevel, nlift. intros x nt'. destruct (n_levels nt !! vl) as [y|] eqn:E; [|done]. intros [= <- <-].
  rewrite <- Hn, lookup_fmap, E. done.
Qed.
Lemma is_put L vl sub l : L !! vl = Some (links_of (sub, l)) -> hoare (links_are L) (nput vl sub l) (fun _ => True).
Proof. intros HL nt Hn. split; [|done]. unfold links_are, nput. cbn. by rewrite fmap_insert, Hn, insert_id. Qed.
Lemma is_same {A} L (m : nact A) : (forall nt, n_levels (m nt).2 = n_levels nt) -> hoare (links_are L) m (fun _ => True).
Proof. intros H nt Hn. split; [|done]. unfold links_are. by rewrite H. Qed.

(** Creations and removals of equipments, for both invariants at once: they change the terminals of nodes and of buses and drop nodes
    without terminal nor link. *)
Definition changed (l l' : level) : Prop :=
  match l, l' with
  | LNode vs es, LNode vs' es' => es' = es /\ forall n, linked es n = true -> is_Some (vs !! n) -> is_Some (vs' !! n)
  | LBus bs es, LBus bs' es' => es' = es /\ forall b, is_Some (bs !! b) -> is_Some (bs' !! b)
  | _, _ => False
  end.
Lemma linked_ends es e : e ∈ es -> linked es e.1 = true /\ linked es e.2 = true.
Proof.
  intros H. unfold linked. rewrite !existsb_exists. split; exists e; (split; [by apply elem_of_list_In|]); rewrite Nat.eqb_refl; [done|by rewrite orb_true_r].
Qed.
Lemma changed_ok sub l l' : level_ok (sub, l) -> changed l l' -> level_ok (sub, l').
Proof.
  destruct l as [vs es|bs es], l' as [vs' es'|bs' es']; cbn; try done; intros H [-> Hc] e He; destruct (H e He) as [H1 H2].
  - destruct (linked_ends es e He). auto.
  - auto.
Qed.
Lemma changed_links sub l l' : changed l l' -> links_of (sub, l') = links_of (sub, l).
Proof. destruct l as [vs es|bs es], l' as [vs' es'|bs' es']; cbn; try done; by intros [-> _]. Qed.
Lemma clean_kept vs es n : linked es n = true -> is_Some (vs !! n) -> is_Some (clean vs es !! n).
Proof. intros Hl [x Hx]. exists x. unfold clean. apply map_filter_lookup_Some. split; [done|]. by right. Qed.

Section both.
  Context (I : net -> Prop) (K : string -> string * level -> Prop)
    (i_level : forall vl, hoare I (nlevel vl) (K vl))
    (i_put : forall vl x l, K vl x -> changed x.2 l -> hoare I (nput vl x.1 l) (fun _ => True))
    (i_same : forall A (m : nact A), (forall nt, n_levels (m nt).2 = n_levels nt) -> hoare I m (fun _ => True)).
  Definition pure {A} (m : nact A) : Prop := hoare I m (fun _ => True).
  Lemma p_bind {A B} (m : nact A) (f : A -> nact B) : pure m -> (forall a, pure (f a)) -> pure (nbind m f).
  Proof. intros H1 H2. eapply h_bind; [exact H1|]. intros a _. apply H2. Qed.
  Lemma p_levelbind {B} vl (f : string * level -> nact B) : (forall x, K vl x -> pure (f x)) -> pure (nbind (nlevel vl) f).
  Proof. intros H. eapply h_bind; [apply i_level|]. intros x Hx. by apply H. Qed.
  Lemma p_level vl : pure (nlevel vl). Proof. eapply h_weaken; [apply i_level|done]. Qed.
  Ltac pure := repeat first [apply p_level | apply h_throw | apply h_ret; done | apply h_lift | apply i_same; done
    | match goal with |- pure (if ?x then _ else _) => destruct x | |- pure (match ?x with _ => _ end) => destruct x end
    | apply p_bind; [|intros ?]].
  Lemma p_check t : pure (check_terminal t). Proof. unfold check_terminal, nwork. pure. Qed.
  Lemma p_attach t : pure (attach t).
  Proof.
    unfold attach. apply p_bind; [apply p_check|intros _]. apply p_levelbind. intros [sub l] Hx. cbn [snd fst]. destruct l as [vs es|bs es], (t_place t) as [n|b c].
    - apply p_bind.
      + apply (i_put _ (sub, LNode vs es)); [done|]. cbn. split; [done|]. intros m _ Hm. destruct (vs !! n) eqn:E; [done|]. destruct (decide (n = m)) as [<-|]; [rewrite lookup_insert; eauto|by rewrite lookup_insert_ne].
      + intros _. assert (pure (nput (t_vl t) sub (LNode (<[n := Some (t_id t)]> vs) es) ;;n nwork)) as H.
        { apply p_bind; [|intros _; apply h_lift]. apply (i_put _ (sub, LNode vs es)); [done|]. cbn. split; [done|]. intros m _ Hm.
          destruct (decide (n = m)) as [<-|]; [rewrite lookup_insert; eauto|by rewrite lookup_insert_ne]. }
        destruct (vs !! n) as [[a|]|]; [apply h_throw|exact H|exact H].
    - apply h_ret. done.
    - apply h_ret. done.
    - destruct (bs !! b) as [l|] eqn:E; [|apply h_throw]. apply p_bind; [apply h_lift|intros _]. apply (i_put _ (sub, LBus bs es)); [done|]. cbn. split; [done|].
      intros m Hm. destruct (decide (b = m)) as [<-|]; [rewrite lookup_insert; eauto|by rewrite lookup_insert_ne].
  Qed.
  Lemma p_attach_all ts : pure (attach_all ts).
  Proof. induction ts as [|t ts IH]; cbn; [by apply h_ret|]. apply p_bind; [apply p_attach|done]. Qed.
  Lemma p_detach id k t : pure (detach id k t).
  Proof.
    unfold detach. apply p_levelbind. intros [sub l] Hx. cbn [snd fst]. destruct l as [vs es|bs es], (t_place t) as [n|b c]; try apply h_throw.
    - apply p_bind; [apply h_lift|intros _]. destruct (vs !! n) as [y|] eqn:E; [|apply h_throw]. apply (i_put _ (sub, LNode vs es)); [done|]. cbn. split; [done|].
      intros m Hl Hm. apply clean_kept; [done|]. destruct (decide (n = m)) as [<-|]; [rewrite lookup_insert; eauto|by rewrite lookup_insert_ne].
    - apply p_bind; [apply h_lift|intros _]. destruct (bs !! b) as [l|] eqn:E; [|apply h_throw]. destruct (erase_first (t_id t) l) as [l'|]; [|apply h_throw].
      apply p_bind; [|intros _; by apply i_same]. apply (i_put _ (sub, LBus bs es)); [done|]. cbn. split; [done|].
      intros m Hm. destruct (decide (b = m)) as [<-|]; [rewrite lookup_insert; eauto|by rewrite lookup_insert_ne].
  Qed.
  Lemma p_detach_all id k ts : pure (detach_all id k ts).
  Proof. revert k. induction ts as [|t ts IH]; intros k; cbn; [by apply h_ret|]. apply p_bind; [apply p_detach|intros _; apply IH]. Qed.
  Lemma p_each {A} (f : A -> nact unit) l : (forall a, pure (f a)) -> pure (each f l).
  Proof. intros H. induction l as [|a l IH]; cbn; [by apply h_ret|]. by apply p_bind. Qed.
  Lemma p_build_all ss : pure (build_all ss).
  Proof. induction ss as [|s ss IH]; cbn; [by apply h_ret|]. apply p_bind; [apply h_lift|intros p]. apply p_bind; [done|intros ps]. by apply h_ret. Qed.
  Lemma p_check_level sub s : pure (check_level sub s). Proof. unfold check_level. pure. Qed.
  Lemma p_remove id : pure (remove_equipment id).
  Proof.
    intros nt Hn. unfold remove_equipment. destruct (n_eqs nt !! id) as [[|t ts]|]; [done| |done].
    revert nt Hn. change (pure (detach_all id 0 (t :: ts) ;;n fun nt' => (Ok tt, mkNet (n_levels nt') (delete id (n_eqs nt')) (n_ids nt') (n_next nt') (n_work nt')))).
    apply p_bind; [apply p_detach_all|intros _]. by apply i_same.
  Qed.
  (** The equipments: creations and removals. *)
  Definition on_equipment (o : nop) : Prop := is_Some (creates o) \/ exists id, o = ORemove id.
  Lemma p_step o : on_equipment o -> pure (nstep o).
  Proof.
    intros [H|[id ->]]; [|apply p_remove]. destruct o as [| | | | | | | |id s|id s|id vl n|sub id s1 s2|sub id s1 s2 s3|]; try by destruct H. all: cbn [nstep].
    - unfold add_injection. pure. apply p_attach_all.
    - unfold add_regulated. pure. apply p_attach_all.
    - unfold add_busbar. pure. apply p_attach_all.
    - unfold add_branch. apply p_bind; [apply p_each; intros; apply p_check_level|intros _]. apply p_bind; [apply p_build_all|intros ps].
      apply p_bind; [apply p_each; intros; apply p_check|intros _]. pure. apply p_attach_all.
    - unfold add_three. do 3 (apply p_bind; [unfold check_leg; apply p_bind; [apply p_check_level|intros _]; pure|intros ?]).
      apply p_bind; [apply p_each; intros; apply p_check|intros _]. pure. apply p_attach_all.
  Qed.
End both.

Lemma equipment_ends o nt : on_equipment o -> ends_ok nt -> ends_ok (nstep o nt).2.
Proof.
  intros Ho Hn. apply (p_step ends_ok (fun _ => level_ok)); [apply ok_level| |intros A m H; by apply ok_same|done|done].
  intros vl [sub l] l' H1 H2. apply ok_put. by eapply changed_ok.
Qed.
Lemma equipment_links L o nt : on_equipment o -> links_are L nt -> links_are L (nstep o nt).2.
Proof.
  intros Ho Hn. apply (p_step (links_are L) (fun vl x => L !! vl = Some (links_of x))); [apply is_level| |intros A m H; by apply is_same|done|done].
  intros vl [sub l] l' H1 H2. apply is_put. rewrite H1. cbn [fst snd] in *. by rewrite (changed_links sub l l').
Qed.
Lemma touch_kept n vs m : is_Some (vs !! m) -> is_Some (touch n vs !! m).
Proof. intros H. unfold touch. destruct (vs !! n) eqn:E; [done|]. destruct (decide (n = m)) as [<-|]; [rewrite lookup_insert; eauto|by rewrite lookup_insert_ne]. Qed.
Lemma insert_kept (id : string) (y : list nat) (bs : gmap string (list nat)) (m : string) : is_Some (bs !! m) -> is_Some (<[id := y]> bs !! m).
Proof. intros H. destruct (decide (id = m)) as [<-|]; [rewrite lookup_insert; eauto|by rewrite lookup_insert_ne]. Qed.
Lemma touch_there n vs : is_Some (touch n vs !! n).
Proof. unfold touch. destruct (vs !! n) eqn:E; [by rewrite E|]. rewrite lookup_insert. eauto. Qed.
Lemma delete_sub {A} k (l : list A) x : x ∈ delete k l -> x ∈ l.
Proof. revert k. induction l as [|a l IH]; intros [|k]; cbn; try done; [by right|]. rewrite !elem_of_cons. intros [->|H]; [by left|right; by eapply IH]. Qed.
Lemma level_bind {B} vl (f : string * level -> nact B) : (forall x, level_ok x -> hoare ends_ok (f x) (fun _ => True)) -> hoare ends_ok (nbind (nlevel vl) f) (fun _ => True).
Proof. intros H. eapply h_bind; [apply ok_level|]. done. Qed.
Lemma then_bind {A B} (m : nact A) (f : A -> nact B) : hoare ends_ok m (fun _ => True) -> (forall a, hoare ends_ok (f a) (fun _ => True)) -> hoare ends_ok (nbind m f) (fun _ => True).
Proof. intros H1 H2. eapply h_bind; [exact H1|]. auto. Qed.
Lemma step_ends o nt : ends_ok nt -> ends_ok (nstep o nt).2.
Proof.
  intros Hn. assert (on_equipment o \/ hoare ends_ok (nstep o) (fun _ => True)) as [H|H]; [|by apply equipment_ends|by apply (H nt Hn)].
  destruct o as [vl sub b|vl id|vl id|vl n1 n2|vl k|vl b1 b2|vl k|b|id s|id s|id vl n|sub id s1 s2|sub id s1 s2 s3|id];
    try (left; left; cbn; by eexists); try (left; right; by eexists); right; cbn [nstep].
  - unfold add_level. apply then_bind; [apply h_lift|intros _]. apply ok_put. destruct b; cbn; intros e He; by apply elem_of_nil in He.
  - unfold add_bus. apply level_bind. intros [sub l] Hx. cbn [snd fst]. destruct l as [vs es|bs es]; [apply h_throw|]. apply then_bind; [apply h_lift|intros _].
    apply then_bind; [by apply ok_same|intros _]. apply ok_put. cbn in *. intros e He. destruct (Hx e He). split; by apply insert_kept.
  - unfold remove_bus. apply level_bind. intros [sub l] Hx. cbn [snd fst]. destruct l as [vs es|bs es]; [apply h_throw|]. destruct (bs !! id) as [l|]; [|apply h_throw].
    apply then_bind; [apply h_lift|intros _]. destruct (bool_decide (l <> [])); [apply h_throw|]. case_bool_decide as HE; [apply h_throw|]. apply then_bind; [|intros _; by apply ok_same].
    apply ok_put. cbn in *. intros e He. destruct (Hx e He). assert (~ (e.1 = id \/ e.2 = id)) as Hne. { intros Hc. apply HE, Exists_exists. eauto. }
    split; rewrite lookup_delete_ne; try done; intros Heq; apply Hne; auto.
  - unfold add_link. apply level_bind. intros [sub l] Hx. cbn [snd fst]. destruct l as [vs es|bs es]; [|apply h_throw]. apply ok_put. cbn in *.
    intros e [He| ->%elem_of_list_singleton]%elem_of_app; [destruct (Hx e He); split; by do 2 apply touch_kept|]. cbn. split; [apply touch_kept, touch_there|apply touch_there].
  - unfold remove_link. apply level_bind. intros [sub l] Hx. cbn [snd fst]. destruct l as [vs es|bs es]; [|apply h_throw]. apply ok_put. cbn in *.
    intros e He. destruct (Hx e (delete_sub _ _ _ He)). destruct (linked_ends _ _ He). split; by apply clean_kept.
  - unfold add_bus_link. apply level_bind. intros [sub l] Hx. cbn [snd fst]. destruct l as [vs es|bs es]; [apply h_throw|]. case_bool_decide as HE; [|apply h_throw]. apply ok_put. cbn in *.
    intros e [He| ->%elem_of_list_singleton]%elem_of_app; [by apply Hx|done].
  - unfold remove_bus_link. apply level_bind. intros [sub l] Hx. cbn [snd fst]. destruct l as [vs es|bs es]; [apply h_throw|]. apply ok_put. cbn in *.
    intros e He. apply Hx. by eapply delete_sub.
  - by apply ok_same.
Qed.
