From stdpp Require Import gmap relations.
From Verif Require Import Base Equip Components ComponentsProofs CompNetSpec CompNetProofs CompNetLinks.

Section inv.
  Context (order : nat * list nat * list (option nat) -> list nat) (sorted : forall r, sorted_components r (order r)).

  Definition plink (hv : bool) (s : csh) (v : cvar) (i j : nat) : Prop := exists a b, holds (bview s v) i a /\ holds (bview s v) j b /\ clinked hv s v a b.
  Lemma clinked_sym hv s v a b : clinked hv s v a b -> clinked hv s v b a.
  Proof.
    intros [(e & i & j & Hij & Hi & Hj)|(E & id & s1 & s2 & Hid & H1 & H2)]; [left; exists e, j, i; split; [lia|done]|].
    right. split; [done|]. exists id, s2, s1. split; [tauto|done].
  Qed.
  Lemma reaches_joined s v a b e i k : rtsc (cjoined s v) a b -> reaches s v a e i k -> reaches s v b e i k.
  Proof. intros H (y & Hy & Ho). exists y. split; [|done]. etrans; [apply rtsc_sym, H|done]. Qed.
  Lemma joined_node s v a b : cwf s -> rtsc (cjoined s v) a b -> a ∈ cs_node s -> bus_known s a -> b ∈ cs_node s.
  Proof.
    intros W H Ha (p & Hp & Hap)%Exists_exists. destruct (joined_within s v p a W Hp Hap b H) as [Hb _]. apply (w_kind _ W p b Hp Hb). by apply (w_kind _ W p a Hp Hap).
  Qed.
  Lemma energised_known s v b : cwf s -> energised s v b -> bus_known s b.
  Proof. intros W (c & Hc & Hb)%bview_energised; [|done]. apply bview_in in Hc as (p & Hp & Hc). apply Exists_exists. exists p. split; [done|]. by eapply class_sub. Qed.
  Lemma energised_joined s v a b : cwf s -> rtsc (cjoined s v) a b -> energised s v a -> energised s v b.
  Proof.
    intros W H (c & Hc & Ha)%bview_energised; [|done]. apply bview_energised; [done|]. exists c. split; [done|]. by apply (bview_class s v c a W Hc Ha).
  Qed.
  Lemma held_dec s v b : cwf s -> (exists j, holds (bview s v) j b) \/ ~ energised s v b.
  Proof.
    intros W. destruct (decide (Exists (fun c => b ∈ c) (bview s v))) as [H|H].
    - left. apply Exists_exists in H as (c & Hc & Hb). apply elem_of_list_lookup in Hc as [j Hj]. by exists j, c.
    - right. intros (c & Hc & Hb)%bview_energised; [|done]. apply H, Exists_exists. eauto.
  Qed.
  (** A place without bus reaches at most one terminal of a branch or station, and then no other feeder. *)
  Lemma dead_unique s v x e i k e' i' k' : ~ energised s v x -> reaches s v x e i k -> reaches s v x e' i' k' -> branchy k -> k' <> KBusbar -> (e', i') = (e, i).
  Proof.
    intros Hn Hr Hr' Hk Hk'. destruct (decide ((e', i') = (e, i))) as [?|Hne]; [done|]. exfalso. apply Hn. exists e, i, k. split; [done|].
    destruct (decide (x ∈ cs_node s)); [right|left; done]. split; [done|]. split; [by destruct Hk as [->|[->| ->]]|]. exists e', i', k'. done.
  Qed.
  Lemma plink_electrical hv s v i j : cwf s -> rtc (plink hv s v) i j -> forall a b, holds (bview s v) i a -> holds (bview s v) j b -> electrical hv s v a b.
  Proof.
    intros W H.
    assert (forall i a b, holds (bview s v) i a -> holds (bview s v) i b -> electrical hv s v a b) as Hsame.
    { intros k a b (c & Hc & Ha) (c' & Hc' & Hb). rewrite Hc in Hc'. injection Hc' as <-.
      apply elem_of_list_lookup_2 in Hc. apply (bview_class s v c a W Hc Ha) in Hb. eapply rtc_subrel; [|exact Hb]. intros ? ? [?|?]; auto. }
    induction H as [i|i k j (a' & b' & Ha' & Hb' & Hl) _ IH]; intros a b Ha Hb; [by eapply Hsame|].
    etrans; [by eapply (Hsame i a a')|]. eapply rtc_l; [right; right; exact Hl|]. by apply IH.
  Qed.
  Lemma on_bus_fun s v e i k b k' b' : on_bus s v e i k b -> on_bus s v e i k' b' -> k = k' /\ b = b'.
  Proof. intros (bs & E & H & _) (bs' & E' & H' & _). rewrite E in E'. injection E' as <- <-. rewrite H in H'. by injection H' as <-. Qed.
  Lemma on_reaches s v e i k b : on_bus s v e i k b -> reaches s v b e i k.
  Proof. intros H. by exists b. Qed.
  (** A place without bus that a path has come to: the path came by the only terminal it reaches, from a place that has a bus. *)
  Definition dead hv s v (i : nat) (x : string) : Prop := ~ energised s v x /\ exists y j e m, holds (bview s v) j y /\ rtc (plink hv s v) i j /\
    ((exists n, n <> m /\ reaches s v x e m KBranch /\ on_bus s v e n KBranch y) \/
     (hv = true /\ exists id e', (cs_hv s !! id = Some (e, e') \/ cs_hv s !! id = Some (e', e)) /\ reaches s v x e 0 KStation /\ on_bus s v e' 0 KStation y)).
  Lemma link_step hv s v i j y z : cwf s -> holds (bview s v) j y -> rtc (plink hv s v) i j -> clinked hv s v y z ->
    (exists k, holds (bview s v) k z /\ rtc (plink hv s v) i k) \/ dead hv s v i z.
  Proof.
    intros W Hj Hij Hl. destruct (held_dec s v z W) as [[k Hk]|Hn].
    - left. exists k. split; [done|]. eapply rtc_r; [exact Hij|]. by exists y, z.
    - right. split; [done|]. destruct Hl as [(e & m & n & Hmn & Hm & Hn')|(E & id & s1 & s2 & Hid & H1 & H2)].
      + exists y, j, e, n. split; [done|]. split; [done|]. left. exists m. split; [done|]. split; [by apply on_reaches|done].
      + exists y, j, s2, 0. split; [done|]. split; [done|]. right. split; [done|]. exists id, s1. split; [tauto|]. split; [by apply on_reaches|done].
  Qed.
  Lemma electrical_walk hv s v a b i : cwf s -> electrical hv s v a b -> holds (bview s v) i a ->
    (exists j, holds (bview s v) j b /\ rtc (plink hv s v) i j) \/ dead hv s v i b.
  Proof.
    intros W H Hi. revert b H. apply (rtc_ind_r (fun b => (exists j, holds (bview s v) j b /\ rtc (plink hv s v) i j) \/ dead hv s v i b)).
    { left. by exists i. }
    intros x z _ Hxz IH.
    assert (rtsc (cjoined s v) x z -> (exists j, holds (bview s v) j z /\ rtc (plink hv s v) i j) \/ dead hv s v i z) as HJ.
    { intros Hr. destruct IH as [(j & (c & Hc & Hx) & Hij)|(Hn & y & j & e & m & Hj & Hij & Hor)].
      - left. exists j. split; [|done]. exists c. split; [done|]. apply elem_of_list_lookup_2 in Hc. by apply (bview_class s v c x W Hc Hx).
      - right. split; [intros Hz; apply Hn; eapply energised_joined; [done|apply rtsc_sym, Hr|done]|]. exists y, j, e, m. split; [done|]. split; [done|].
        destruct Hor as [(n & ? & Hr' & ?)|(E & id & e' & ? & Hr' & ?)].
        + left. exists n. split; [done|]. split; [by eapply reaches_joined|done].
        + right. split; [done|]. exists id, e'. split; [done|]. split; [by eapply reaches_joined|done]. }
    destruct Hxz as [Hj|[Hj|Hl]]; [apply HJ, rtc_once; by left|apply HJ, rtc_once; by right|]. clear HJ.
    destruct IH as [(j & Hj & Hij)|(Hn & y & j & e & m & Hj & Hij & Hor)]; [by eapply link_step|].
    destruct Hor as [(n & Hnm & Hr & Ho)|(E & id & e' & Hid & Hr & Ho)].
    - destruct Hl as [(e2 & m2 & n2 & Hmn & Hm2 & Hn2)|(_ & id & s1 & s2 & Hid & H1 & H2)].
      + pose proof (dead_unique s v x e m KBranch e2 m2 KBranch Hn Hr (on_reaches _ _ _ _ _ _ Hm2) ltac:(by left) ltac:(done)) as [= -> ->].
        destruct (decide (n2 = n)) as [->|Hne].
        * destruct (on_bus_fun s v _ _ _ _ _ _ Ho Hn2) as [_ <-]. left. by exists j.
        * eapply (link_step hv s v i j y z); try done. left. exists e, n, n2. done.
      + pose proof (dead_unique s v x e m KBranch s1 0 KStation Hn Hr (on_reaches _ _ _ _ _ _ H1) ltac:(by left) ltac:(done)) as [= -> <-].
        destruct Hr as (u & _ & Hu). by destruct (on_bus_fun s v _ _ _ _ _ _ H1 Hu).
    - destruct Hl as [(e2 & m2 & n2 & Hmn & Hm2 & Hn2)|(_ & id2 & s1 & s2 & Hid2 & H1 & H2)].
      + pose proof (dead_unique s v x e 0 KStation e2 m2 KBranch Hn Hr (on_reaches _ _ _ _ _ _ Hm2) ltac:(right; by left) ltac:(done)) as [= -> ->].
        destruct Hr as (u & _ & Hu). by destruct (on_bus_fun s v _ _ _ _ _ _ Hm2 Hu).
      + pose proof (dead_unique s v x e 0 KStation s1 0 KStation Hn Hr (on_reaches _ _ _ _ _ _ H1) ltac:(right; by left) ltac:(done)) as [= ->].
        assert (s2 = e') as ->.
        { destruct (decide (id2 = id)) as [->|Hne].
          - destruct Hid as [Hid|Hid], Hid2 as [Hid2|Hid2]; congruence.
          - exfalso. destruct Hid as [Hid|Hid], Hid2 as [Hid2|Hid2]; destruct (w_one _ W _ _ _ _ _ _ Hid Hid2) as (? & ? & ? & ?); congruence. }
        destruct (on_bus_fun s v _ _ _ _ _ _ Ho H2) as [_ <-]. left. by exists j.
  Qed.
  Lemma electrical_plink hv s v a b : cwf s -> electrical hv s v a b -> energised s v b -> forall i, holds (bview s v) i a -> exists j, holds (bview s v) j b /\ rtc (plink hv s v) i j.
  Proof. intros W H Hb i Hi. destruct (electrical_walk hv s v a b i W H Hi) as [?|[Hn _]]; done. Qed.

  Record cres (hv : bool) (s : csh) (v : cvar) (num : list (option nat)) (sz : list nat) : Prop := {
    r_len : length num = length (bview s v);
    r_num : forall i, i < length (bview s v) -> exists k, num !! i = Some (Some k) /\ k < length sz;
    r_same : forall i j, i < length (bview s v) -> j < length (bview s v) -> (num !! i = num !! j <-> rtc (plink hv s v) i j);
    r_onto : forall k, k < length sz -> exists i, num !! i = Some (Some k);
    r_size : forall k n, sz !! k = Some n -> n = length (filter (fun o => o = Some k) num)
  }.
  Lemma compute_ok hv s v : cwf s -> exists num sz, compute order hv s v (bview s v) = Ok (num, sz) /\ cres hv s v num sz.
  Proof.
    intros W. destruct (links_spec hv s v W) as (links & El & Hb & Hl). unfold compute. rewrite El. cbn.
    set (adj := acm_fill (length (bview s v)) links).
    assert (length adj = length (bview s v)) as La by apply (acm_fill_edge _ links 0 0 Hb).
    assert (forall i j, aedge adj i j <-> plink hv s v i j) as He.
    { intros i j. subst adj. rewrite (proj2 (acm_fill_edge _ links i j Hb)). apply Hl. }
    assert (adj_bounded adj) as Bd.
    { intros i j (a & b & _ & (c & Hc & _) & _)%He. rewrite La. by eapply lookup_lt_Some. }
    assert (adj_symmetric adj) as Sy.
    { intros i j (a & b & Ha & Hb' & Hab)%He. apply He. exists b, a. split_and!; try done. by apply clinked_sym. }
    destruct (cc_total adj Bd Sy) as (r & Er & _ & Hf). destruct (Hf (order r) (sorted r)) as [[num sz] Ef]. rewrite Er. cbn. rewrite Ef.
    exists num, sz. split; [done|].
    destruct (cc_result_ok adj Bd Sy num sz) as [H1 H2 H3 H4 H5 H6 H7]; [by exists r, (order r)|]. rewrite La in *. split; try done.
    intros i j Hi Hj. rewrite H3 by done. split; intros HR; (eapply rtc_subrel; [|exact HR]); intros ? ? ?; by apply He.
  Qed.

  (** ** The invariant of the caches; [m]: the managers it covers *)
  Record cinv (m : bool -> Prop) (s : csh) (v : cvar) : Prop := {
    i_view : forall vl x, cv_view v !! vl = Some x -> exists bs, (vl, bs) ∈ cs_vls s /\ x = vl_view s v bs;
    i_mgr : forall hv, m hv -> comps hv v <> [] -> exists num, compute order hv s v (bview s v) = Ok (num, comps hv v) /\
                                                   nums hv v = number_buses (slot s) (bview s v) num
  }.
  (** The parts of a variant the computations depend on. *)
  Definition vsame (v v' : cvar) : Prop := cv_open v' = cv_open v /\ cv_conn v' = cv_conn v.
  Lemma vl_view_same s v v' bs : vsame v v' -> vl_view s v' bs = vl_view s v bs.
  Proof.
    intros [E1 E2]. unfold vl_view. rewrite (classes_ext (eqv s v' bs) (eqv s v bs)).
    - apply list_filter_iff. intros c. rewrite (valid_ext s v' s v); [done| |done]. intros e i k b _. unfold on_bus. by rewrite E2.
    - apply eqv_ext. intros a b. unfold cjoined. by rewrite E1.
  Qed.
  Lemma bview_same s v v' : vsame v v' -> bview s v' = bview s v.
  Proof. intros E. unfold bview. f_equal. apply map_ext. intros p. by apply vl_view_same. Qed.
  Lemma links_same hv s v v' W : vsame v v' -> all_links hv s v' W = all_links hv s v W.
  Proof.
    intros [_ E]. assert (forall t b, term_bus v' W t b = term_bus v W t b) as Ht by (intros; unfold term_bus; by rewrite E).
    unfold all_links. assert (forall l, hv_links s v' W l = hv_links s v W l) as ->.
    { induction l as [|x l IH]; [done|]. cbn. rewrite IH. assert (forall st, station_bus s v' W st = station_bus s v W st) as Hs.
      { intros st. unfold station_bus. destruct (cs_eq s !! st) as [[? [|? ?]]|]; try done. by rewrite Ht. } by rewrite !Hs. }
    f_equal. assert (flat_map (eq_links v' W) (map_to_list (cs_eq s)) = flat_map (eq_links v W) (map_to_list (cs_eq s))) as ->; [|done].
    apply flat_map_ext. intros x. unfold eq_links. destruct x.2.1; try done. f_equal. apply imap_ext. intros. by rewrite Ht.
  Qed.
  Lemma compute_same hv s v v' W : vsame v v' -> compute order hv s v' W = compute order hv s v W.
  Proof. intros E. unfold compute. by rewrite (links_same hv s v v'). Qed.

  Lemma force_ok m s : forall l v, cinv m s v -> cwf s -> (forall p, p ∈ l -> p ∈ cs_vls s) ->
    let f := force s v l in
    cinv m s f.1 /\ vsame v f.1 /\ (forall hv, comps hv f.1 = comps hv v /\ nums hv f.1 = nums hv v) /\ f.2 = concat (map (fun p => vl_view s v p.2) l).
  Proof.
    induction l as [|[vl bs] l IH]; intros v I W Hl; [by cbn|]. cbn. destruct (cv_view v !! vl) as [x|] eqn:Ev.
    - destruct (IH v I W) as (I' & S & C & F); [intros p Hp; apply Hl; by right|]. cbn. split_and!; try done; try apply S. rewrite F. f_equal.
      destruct (i_view _ _ _ I _ _ Ev) as (bs' & Hin & ->). assert ((vl, bs) = (vl, bs')) as [= ->]; [|done].
      pose proof (Hl (vl, bs) ltac:(left)) as Hin2. apply elem_of_list_lookup in Hin as [i Hi]. apply elem_of_list_lookup in Hin2 as [j Hj].
      assert (i = j) as <-; [|congruence]. eapply NoDup_lookup; [exact (w_vls _ W)| |]; rewrite list_lookup_fmap, ?Hi, ?Hj; done.
    - set (v1 := set_view v (<[vl := vl_view s v bs]> (cv_view v))).
      assert (vsame v v1) as S1 by done.
      assert (cinv m s v1) as I1.
      { split.
        - intros vl' x. unfold v1. cbn. intros [[<- <-]|[_ Hx]]%lookup_insert_Some.
          + exists bs. split; [apply Hl; left|]. symmetry. by apply vl_view_same.
          + destruct (i_view _ _ _ I _ _ Hx) as (bs' & ? & ->). exists bs'. split; [done|]. symmetry. by apply vl_view_same.
        - intros hv Hm Hc. rewrite (bview_same s v), (compute_same hv s v) by done.
          destruct hv; [apply (i_mgr _ _ _ I true Hm Hc)|apply (i_mgr _ _ _ I false Hm Hc)]. }
      destruct (IH v1 I1 W) as (I' & S & C & F); [intros p Hp; apply Hl; by right|]. cbn [fst snd map concat].
      change (force s (set_view v (<[vl := vl_view s v bs]> (cv_view v))) l) with (force s v1 l).
      split; [exact I'|]. split; [exact S|]. split.
      + intros hv. destruct (C hv) as [-> ->]. by destruct hv.
      + rewrite F. done.
  Qed.
  Lemma update_ok (m : bool -> Prop) hv s v : m hv -> cinv m s v -> cwf s -> exists v' num sz, update order hv s v = (Ok tt, v') /\ cinv m s v' /\ vsame v v' /\
    compute order hv s v (bview s v) = Ok (num, sz) /\ comps hv v' = sz /\ nums hv v' = number_buses (slot s) (bview s v) num /\ cres hv s v num sz.
  Proof.
    intros Hm I W. destruct (compute_ok hv s v W) as (num & sz & Ec & R). unfold update. destruct (comps hv v) as [|n l] eqn:Hc.
    - destruct (force_ok m s (cs_vls s) v I W) as (I' & S & C & F); [done|]. set (f := force s v (cs_vls s)) in *. cbv zeta.
      fold (bview s v) in F. rewrite F. rewrite (compute_same hv s v f.1) by done. rewrite Ec.
      eexists _, num, sz. split; [done|]. assert (vsame f.1 (set_mgr hv sz (number_buses (slot s) (bview s v) num) f.1)) as S1 by (by destruct hv).
      assert (vsame v (set_mgr hv sz (number_buses (slot s) (bview s v) num) f.1)) as S2. { destruct S, S1. split; congruence. }
      split_and!; try done; try (by destruct hv); try apply S2.
      split.
      + intros vl x Hx.
        assert (cv_view f.1 !! vl = Some x) as Hx' by (by destruct hv). destruct (i_view _ _ _ I' _ _ Hx') as (bs & Hin & ->).
        exists bs. split; [done|]. by rewrite (vl_view_same s f.1 (set_mgr _ _ _ _)).
      + intros hv' Hm' Hc'. rewrite (bview_same s v _ S2), (compute_same hv' s v _ _ S2).
        destruct (decide (hv' = hv)) as [->|Hne].
        * exists num. by destruct hv.
        * assert (comps hv' (set_mgr hv sz (number_buses (slot s) (bview s v) num) f.1) = comps hv' f.1) as E1 by (by destruct hv, hv').
          assert (nums hv' (set_mgr hv sz (number_buses (slot s) (bview s v) num) f.1) = nums hv' f.1) as E2 by (by destruct hv, hv').
          rewrite E1 in Hc' |- *. rewrite E2. destruct (i_mgr _ _ _ I' hv' Hm' Hc') as (num' & A & B).
          rewrite (bview_same s v) in A, B by done. rewrite (compute_same hv' s v) in A by done. by exists num'.
    - destruct (i_mgr _ _ _ I hv Hm) as (num' & A & B); [by rewrite Hc|]. rewrite Ec in A. injection A as <- E.
      exists v, num, sz. rewrite Hc in E. rewrite Hc. split_and!; try done. 
  Qed.
  (** What a query on a configured bus answers. *)
  Definition right_component (hv : bool) (s : csh) (v : cvar) (num : list (option nat)) (b : string) (o : option nat) : Prop :=
    forall k, o = Some k <-> exists i, holds (bview s v) i b /\ num !! i = Some (Some k).
  Lemma bus_component_ok (m : bool -> Prop) hv s v b : m hv -> cinv m s v -> cwf s -> slot s b = true -> exists v' num sz o, bus_component order hv s b v = (Ok o, v') /\ cinv m s v' /\ vsame v v' /\
    compute order hv s v (bview s v) = Ok (num, sz) /\ comps hv v' = sz /\ cres hv s v num sz /\ right_component hv s v num b o.
  Proof.
    intros Hm I W Hsl. destruct (update_ok m hv s v Hm I W) as (v' & num & sz & E & I' & S & Ec & C & N & R).
    unfold bus_component. rewrite E. rewrite N. exists v', num, sz, (number_buses (slot s) (bview s v) num !! b).
    assert (forall k, number_buses (slot s) (bview s v) num !! b = Some k <-> exists i, holds (bview s v) i b /\ num !! i = Some (Some k)) as HN.
    { intros k. rewrite number_buses_spec; [|by apply bview_disjoint|apply R]. rewrite Hsl. naive_solver. }
    split_and!; try done; try apply S. f_equal. destruct (number_buses (slot s) (bview s v) num !! b) as [k|] eqn:Ek; [|done].
    unfold get_component. destruct (proj1 (HN k) eq_refl) as (i & (c & Hc & _) & Hi). destruct (r_num _ _ _ _ _ R i) as (k' & Hk' & Hlt); [by eapply lookup_lt_Some|].
    rewrite Hi in Hk'. injection Hk' as <-. rewrite C. by destruct (Nat.ltb_spec k (length sz)); [|lia].
  Qed.
End inv.
