From stdpp Require Import gmap relations.
From Verif Require Import Base Equip Components ComponentsProofs CompNetSpec CompNetProofs.

Lemma find_class (W : list (list string)) (b : string) i : (forall i j c d (b : string), W !! i = Some c -> W !! j = Some d -> b ∈ c -> b ∈ d -> i = j) ->
  (fst <$> list_find (fun c => b ∈ c) W) = Some i <-> exists c, W !! i = Some c /\ b ∈ c.
Proof.
  intros D. split.
  - intros ([j c] & E & ->)%fmap_Some. apply list_find_Some in E as (H1 & H2 & _). eauto.
  - intros (c & Hi & Hb). destruct (list_find_elem_of (fun c => b ∈ c) W c) as [[j d] E]; [by eapply elem_of_list_lookup_2|done|].
    rewrite E. apply list_find_Some in E as (H1 & H2 & _). cbn. f_equal. by eapply D.
Qed.
Lemma term_bus_spec s v t b i : cwf s -> term_bus v (bview s v) t b = Some i <-> cv_conn v !! t = Some true /\ exists c, bview s v !! i = Some c /\ b ∈ c.
Proof.
  intros W. unfold term_bus. rewrite <- (find_class (bview s v) b i (bview_disjoint s v W)).
  destruct (cv_conn v !! t) as [[]|]; naive_solver.
Qed.
Lemma pairs_elem {A} (l : list A) x y : (x, y) ∈ pairs l <-> exists i j, i < j /\ l !! i = Some x /\ l !! j = Some y.
Proof.
  induction l as [|z l IH]; cbn.
  - split; [by intros ?%elem_of_nil|]. intros (i & j & _ & H & _). done.
  - rewrite elem_of_app, IH, elem_of_list_fmap. split.
    + intros [(y' & [= -> ->] & Hy)|(i & j & ? & ? & ?)].
      * apply elem_of_list_lookup in Hy as [j Hj]. exists 0, (S j). split; [lia|done].
      * exists (S i), (S j). split; [lia|done].
    + intros (i & j & Hij & Hi & Hj). destruct i as [|i], j as [|j]; try lia.
      * cbn in *. injection Hi as ->. left. exists y. split; [done|]. by eapply elem_of_list_lookup_2.
      * right. exists i, j. split; [lia|done].
Qed.
Definition holds (W : list (list string)) (i : nat) (b : string) : Prop := exists c, W !! i = Some c /\ b ∈ c.
Lemma eq_links_elem s v i j : cwf s ->
  ((Some i, Some j) ∈ flat_map (eq_links v (bview s v)) (map_to_list (cs_eq s)) \/ (Some j, Some i) ∈ flat_map (eq_links v (bview s v)) (map_to_list (cs_eq s))) <->
  exists a b, holds (bview s v) i a /\ holds (bview s v) j b /\ clinked false s v a b.
Proof.
  intros W.
  assert (forall i j, (Some i, Some j) ∈ flat_map (eq_links v (bview s v)) (map_to_list (cs_eq s)) <->
    exists a b e m n, m < n /\ holds (bview s v) i a /\ holds (bview s v) j b /\ on_bus s v e m KBranch a /\ on_bus s v e n KBranch b) as H.
  { intros i' j'. rewrite elem_of_list_In, in_flat_map. split.
    - intros ([e [k bs]] & Hin & Hl). apply elem_of_list_In, elem_of_map_to_list in Hin. apply elem_of_list_In in Hl. unfold eq_links in Hl. cbn in Hl.
      destruct k; try by apply elem_of_nil in Hl. apply pairs_elem in Hl as (m & n & Hmn & Hm & Hn). rewrite list_lookup_imap in Hm, Hn.
      apply fmap_Some in Hm as (a & Ha & Hm). apply fmap_Some in Hn as (b & Hb & Hn).
      symmetry in Hm, Hn. apply (term_bus_spec s) in Hm as [Hc1 Hm]; [|done]. apply (term_bus_spec s) in Hn as [Hc2 Hn]; [|done].
      exists a, b, e, m, n. split_and!; try done; exists bs; done.
    - intros (a & b & e & m & n & Hmn & Hi & Hj & (bs & He & Hm & Hc1) & (bs' & He' & Hn & Hc2)). rewrite He in He'. injection He' as <-.
      exists (e, (KBranch, bs)). split; [by apply elem_of_list_In, elem_of_map_to_list|]. apply elem_of_list_In. unfold eq_links. cbn.
      apply pairs_elem. exists m, n. split; [done|]. rewrite !list_lookup_imap, Hm, Hn. cbn.
      split; f_equal; apply (term_bus_spec s); done. }
  rewrite !H. unfold clinked. split.
  - intros [(a & b & e & m & n & ? & ? & ? & ? & ?)|(a & b & e & m & n & ? & ? & ? & ? & ?)].
    + exists a, b. split_and!; try done. left. exists e, m, n. split; [lia|done].
    + exists b, a. split_and!; try done. left. exists e, n, m. split; [lia|done].
  - intros (a & b & Ha & Hb & [(e & m & n & Hmn & Hm & Hn)|[? _]]); [|done].
    destruct (decide (m < n)); [left; exists a, b, e, m, n; done|right; exists b, a, e, n, m]. split_and!; try done. lia.
Qed.
Lemma station_bus_spec s v st : cwf s -> st ∈ cs_at s -> exists o, station_bus s v (bview s v) st = Ok o /\
  forall i, o = Some i <-> exists b, holds (bview s v) i b /\ on_bus s v st 0 KStation b.
Proof.
  intros W Hat. destruct (w_at _ W _ Hat) as [bs He]. destruct (w_eq _ W _ _ _ He) as [Hne _]. unfold station_bus. rewrite He.
  destruct bs as [|b bs]; [done|]. eexists. split; [done|]. intros i. rewrite (term_bus_spec s) by done. split.
  - intros [Hc Hh]. exists b. split; [done|]. exists (b :: bs). done.
  - intros (b' & Hh & (bs' & He' & Hb' & Hc)). rewrite He in He'. injection He' as <-. injection Hb' as <-. done.
Qed.
Lemma hv_links_spec s v : cwf s -> forall l, (forall x, x ∈ l -> cs_hv s !! x.1 = Some x.2) -> exists h, hv_links s v (bview s v) l = Ok h /\
  forall i j, (Some i, Some j) ∈ h <-> exists id s1 s2 a b, (id, (s1, s2)) ∈ l /\ holds (bview s v) i a /\ holds (bview s v) j b /\
    on_bus s v s1 0 KStation a /\ on_bus s v s2 0 KStation b.
Proof.
  intros W l. induction l as [|[id [s1 s2]] l IH]; intros Hl.
  - exists []. split; [done|]. intros i j. split; [by intros ?%elem_of_nil|]. intros (? & ? & ? & ? & ? & ?%elem_of_nil & _). done.
  - destruct IH as (h & Eh & Hh); [intros x Hx; apply Hl; by right|]. pose proof (Hl (id, (s1, s2)) ltac:(left)) as Hid. cbn in Hid.
    destruct (w_hv _ W _ _ _ Hid) as [A1 A2]. destruct (station_bus_spec s v s1 W A1) as (o1 & E1 & H1). destruct (station_bus_spec s v s2 W A2) as (o2 & E2 & H2).
    exists ((o1, o2) :: h). cbn. rewrite E1. cbn. rewrite E2. cbn. rewrite Eh. cbn. split; [done|]. intros i j. rewrite elem_of_cons, Hh. split.
    + intros [[= <- <-]|(id' & t1 & t2 & a & b & Hin & ?)].
      * destruct (proj1 (H1 i) eq_refl) as (a & ? & ?). destruct (proj1 (H2 j) eq_refl) as (b & ? & ?). exists id, s1, s2, a, b. split_and!; try done. left.
      * exists id', t1, t2, a, b. split; [by right|done].
    + intros (id' & t1 & t2 & a & b & [[= -> -> ->]|Hin]%elem_of_cons & Ha & Hb & Oa & Ob).
      * left. f_equal; symmetry; [apply H1|apply H2]; eauto.
      * right. exists id', t1, t2, a, b. done.
Qed.
Lemma links_spec hv s v : cwf s -> exists links, all_links hv s v (bview s v) = Ok links /\
  Forall (fun l => (forall x, l.1 = Some x -> x < length (bview s v)) /\ (forall x, l.2 = Some x -> x < length (bview s v))) links /\
  forall i j, linked links i j <-> exists a b, holds (bview s v) i a /\ holds (bview s v) j b /\ clinked hv s v a b.
Proof.
  intros W. set (L := flat_map (eq_links v (bview s v)) (map_to_list (cs_eq s))).
  destruct (hv_links_spec s v W (map_to_list (cs_hv s))) as (h & Eh & Hh).
  { intros [id x] H%elem_of_map_to_list. done. }
  set (h' := if hv then h else []). exists (L ++ h'). split.
  { unfold all_links. destruct hv; [rewrite Eh|]; done. }
  assert (forall t b x, term_bus v (bview s v) t b = Some x -> x < length (bview s v)) as Hlt.
  { intros t b x (_ & c & Hc & _)%(term_bus_spec s); [|done]. by eapply lookup_lt_Some. }
  split.
  - apply Forall_app. split.
    + apply Forall_forall. intros [o1 o2] Hin. unfold L in Hin. apply elem_of_list_In, in_flat_map in Hin as ([e [k bs]] & _ & Hl).
      apply elem_of_list_In in Hl. unfold eq_links in Hl. cbn in Hl. destruct k; try by apply elem_of_nil in Hl.
      apply pairs_elem in Hl as (m & n & _ & Hm & Hn). rewrite list_lookup_imap in Hm, Hn.
      apply fmap_Some in Hm as (a & _ & ->). apply fmap_Some in Hn as (b & _ & ->). cbn. split; intros x; apply Hlt.
    + unfold h'. destruct hv; [|constructor]. clear -Eh Hlt. revert h Eh. induction (map_to_list (cs_hv s)) as [|x l IH]; intros h E.
      * cbn in E. injection E as <-. constructor.
      * cbn in E. destruct (station_bus s v (bview s v) x.2.1) as [b1| | |] eqn:E1; try done. cbn in E.
        destruct (station_bus s v (bview s v) x.2.2) as [b2| | |] eqn:E2; try done. cbn in E.
        destruct (hv_links s v (bview s v) l) as [r| | |]; try done. cbn in E. injection E as <-. constructor; [|by apply IH].
        unfold station_bus in E1, E2. cbn. split; intros y ->.
        -- destruct (cs_eq s !! x.2.1) as [[? [|? ?]]|]; try done. injection E1 as E1. by eapply Hlt.
        -- destruct (cs_eq s !! x.2.2) as [[? [|? ?]]|]; try done. injection E2 as E2. by eapply Hlt.
  - intros i j. unfold linked. rewrite !elem_of_app.
    assert (((Some i, Some j) ∈ h' \/ (Some j, Some i) ∈ h') <-> hv = true /\ exists a b id s1 s2, holds (bview s v) i a /\ holds (bview s v) j b /\
      (cs_hv s !! id = Some (s1, s2) \/ cs_hv s !! id = Some (s2, s1)) /\ on_bus s v s1 0 KStation a /\ on_bus s v s2 0 KStation b) as HH.
    { unfold h'. destruct hv; [|split; [by intros [?%elem_of_nil|?%elem_of_nil]|by intros [? _]]]. rewrite !Hh. split.
      - intros [(id & s1 & s2 & a & b & Hin%elem_of_map_to_list & ? & ? & ? & ?)|(id & s1 & s2 & a & b & Hin%elem_of_map_to_list & ? & ? & ? & ?)]; (split; [done|]).
        + exists a, b, id, s1, s2. split_and!; auto.
        + exists b, a, id, s2, s1. split_and!; auto.
      - intros [_ (a & b & id & s1 & s2 & Ha & Hb & [Hid|Hid] & Oa & Ob)].
        + left. exists id, s1, s2, a, b. split_and!; try done. by apply elem_of_map_to_list.
        + right. exists id, s2, s1, b, a. split_and!; try done. by apply elem_of_map_to_list. }
    pose proof (eq_links_elem s v i j W) as HE. fold L in HE. split.
    + intros H. assert (((Some i, Some j) ∈ L \/ (Some j, Some i) ∈ L) \/ ((Some i, Some j) ∈ h' \/ (Some j, Some i) ∈ h')) as [H'|H'] by tauto.
      * apply HE in H' as (a & b & Ha & Hb & [?|[? _]]); [|done]. exists a, b. split_and!; try done. by left.
      * apply HH in H' as (E & a & b & id & s1 & s2 & Ha & Hb & ?). exists a, b. split_and!; try done. right. split; [done|]. by exists id, s1, s2.
    + intros (a & b & Ha & Hb & [He|(E & id & s1 & s2 & Hx)]).
      * assert (((Some i, Some j) ∈ L \/ (Some j, Some i) ∈ L)); [|tauto]. apply HE. exists a, b. split_and!; try done. by left.
      * assert (((Some i, Some j) ∈ h' \/ (Some j, Some i) ∈ h')); [|tauto]. apply HH. split; [done|]. by exists a, b, id, s1, s2.
Qed.
Lemma number_buses_spec sl (W : list (list string)) num : (forall i j c d (b : string), W !! i = Some c -> W !! j = Some d -> b ∈ c -> b ∈ d -> i = j) -> length num = length W ->
  forall b k, number_buses sl W num !! b = Some k <-> sl b = true /\ exists i, holds W i b /\ num !! i = Some (Some k).
Proof.
  intros D L b k. unfold number_buses.
  assert (forall (c : list string) (o : option nat) (m : gmap string nat), foldl (fun m b => match o with Some k => if sl b then <[b := k]> m else m | None => m end) m c !! b
            = if decide (b ∈ c) then match o with Some k => if sl b then Some k else m !! b | None => m !! b end else m !! b) as Hin.
  { intros c o. induction c as [|x c IH]; intros m; [done|]. cbn [foldl]. rewrite IH. clear IH. destruct (decide (b = x)) as [->|Hne].
    - rewrite (decide_True (P := x ∈ x :: c)) by left. destruct (decide (x ∈ c)), o, (sl x); try done; by rewrite lookup_insert.
    - destruct (decide (b ∈ c)) as [Hb|Hb].
      + rewrite (decide_True (P := b ∈ x :: c)) by (by right). destruct o; [|done]. destruct (sl b); [done|]. destruct (sl x); [by rewrite lookup_insert_ne|done].
      + rewrite (decide_False (P := b ∈ x :: c)) by (by intros [?|?]%elem_of_cons). destruct o; [|done]. destruct (sl x); [by rewrite lookup_insert_ne|done]. }
  destruct (sl b) eqn:Hsl.
  2:{ split; [|by intros [? _]]. intros H. exfalso. revert H.
      assert (forall (l : list (list string * option nat)) (m : gmap string nat), m !! b = None ->
        foldl (fun m (x : list string * option nat) => foldl (fun m b => match x.2 with Some k => if sl b then <[b := k]> m else m | None => m end) m x.1) m l !! b = None) as H.
      { induction l as [|[c o] l IH]; intros m Hm; [done|]. cbn [foldl fst snd]. apply IH. rewrite Hin. destruct (decide _); [|done]. by destruct o. }
      rewrite H; [done|]. apply lookup_empty. }
  assert (forall (W : list (list string)) num (m : gmap string nat), length num = length W -> (forall i j c d (b : string), W !! i = Some c -> W !! j = Some d -> b ∈ c -> b ∈ d -> i = j) ->
    foldl (fun m (x : list string * option nat) => foldl (fun m b => match x.2 with Some k => if sl b then <[b := k]> m else m | None => m end) m x.1) m (zip W num) !! b = Some k <->
    (exists i, holds W i b /\ num !! i = Some (Some k)) \/ (m !! b = Some k /\ forall i k', holds W i b -> num !! i <> Some (Some k'))) as H.
  { clear D L W num. intros W. induction W as [|c W IH]; intros [|o num] m L D; try done.
    - cbn. split; [intros ?; right; split; [done|]; intros i k' (? & ? & _); done|]. intros [(i & (? & ? & _) & _)|[? _]]; done.
    - cbn. rewrite IH; [|by injection L|intros i j ? ? ? Hi Hj ? ?; by eapply (Nat.succ_inj i j), D]. rewrite Hin.
      assert (forall i, holds (c :: W) (S i) b <-> holds W i b) as HS by done.
      assert (holds (c :: W) 0 b <-> b ∈ c) as H0. { unfold holds. cbn. split; [by intros (? & [= <-] & ?)|intros ?; eauto]. }
      split.
      + intros [(i & Hi & Hn)|[Hm Hno]]; [left; exists (S i); done|].
        destruct (decide (b ∈ c)) as [Hb|Hb].
        * destruct o as [k0|]; [injection Hm as ->; left; exists 0; split; [by apply H0|done]|].
          right. split; [done|]. intros [|i] k'; [done|]. intros Hi. by apply Hno.
        * right. split; [done|]. intros [|i] k' Hi; [by apply H0 in Hi|]. by apply Hno.
      + intros [([|i] & Hi & Hn)|[Hm Hno]].
        * cbn in Hn. injection Hn as ->. apply H0 in Hi as Hb. right. rewrite decide_True by done. split; [done|].
          intros i k' Hh _. assert (0 = S i); [|done]. destruct Hh as (d & Hd & Hbd). by eapply (D 0 (S i) c d b).
        * left. exists i. done.
        * right. split; [|intros i k' Hi; by apply (Hno (S i))]. destruct (decide (b ∈ c)) as [Hb|Hb]; [|done].
          destruct o as [k0|]; [|done]. exfalso. apply (Hno 0 k0); [by apply H0|done]. }
  rewrite H by done. split; [intros [?|[? _]]; done|naive_solver].
Qed.
Lemma number_buses_ext sl sl' (W : list (list string)) num : (forall i b, holds W i b -> sl b = sl' b) -> number_buses sl W num = number_buses sl' W num.
Proof.
  intros H. unfold number_buses. generalize (∅ : gmap string nat). revert num. induction W as [|c W IH]; intros [|o num] m; try done. cbn [zip zip_with foldl fst snd].
  rewrite IH by (intros i b Hh; by apply (H (S i))). f_equal. assert (forall b, b ∈ c -> sl b = sl' b) as Hc by (intros b Hb; apply (H 0); by exists c).
  clear -Hc. revert m. induction c as [|b c IHc]; intros m; [done|]. cbn. rewrite (Hc b) by left. apply IHc. intros y Hy. apply Hc. by right.
Qed.
