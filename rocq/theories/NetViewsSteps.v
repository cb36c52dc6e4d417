(** The invariants of [NetViewsProofs] hold along every history; what happens to the references. *)
From stdpp Require Import gmap pretty.
From Verif Require Import Base Equip NetViews NetViewsSpec NetViewsProofs.

Section steps.
  Context {T C : Type} (calc : view -> string -> T -> gmap string C).
  Notation st_t := (vst T C).

  (** ** Queries *)
  Lemma level_bus_ok vw vl id (st : st_t) i v : base st -> e_cur st = Some i -> e_vars st !! i = Some v -> is_Some (vs_nb (e_sh st) !! vl) ->
    exists o st', level_bus calc vw vl id st = (Ok o, st') /\ base st' /\ grows st st' /\ (forall P D, fresh calc P D st -> fresh calc P D st') /\
      (forall a, o = Some a -> a.2 = id /\ exists c, bus_ref st' i vl vw a c) /\
      (forall P D t, fresh calc P D st -> vv_topo v !! vl = Some t -> ~ D i vl -> is_Some o <-> is_Some (calc vw vl t !! id)) /\
      (forall P D t a, fresh calc P D st -> vv_topo v !! vl = Some t -> ~ D i vl -> o = Some a -> exists c, bus_ref st' i vl vw a c /\ calc vw vl t !! id = Some c).
  Proof using.
    intros B Hc Hi Hn. unfold level_bus. destruct (level_cache_ok calc vw vl st i v B Hc Hi Hn) as (g & st1 & v1 & E & B1 & G1 & Hi1 & L1 & [m Hm] & F1).
    rewrite (abind_Ok _ _ _ _ _ E). rewrite (abind_Ok ashared _ st1 (e_sh st1) st1 eq_refl). rewrite Hm.
    exists (match m !! id with Some _ => Some (g, id) | None => None end), st1. split; [done|]. split; [done|]. split; [done|]. split; [done|].
    assert (forall a, match m !! id with Some _ => Some (g, id) | None => None end = Some a -> exists c, a = (g, id) /\ m !! id = Some c) as HA.
    { intros a Ha. destruct (m !! id) as [c|]; [|done]. injection Ha as <-. eauto. }
    assert (forall P D t, fresh calc P D st -> vv_topo v !! vl = Some t -> ~ D i vl -> m = calc vw vl t) as HM.
    { intros P D t F Ht ND. destruct (grows_at _ _ _ _ G1 Hi) as (v1' & Hv1 & (Gt & _)). rewrite Hi1 in Hv1. injection Hv1 as <-.
      pose proof (f_lev _ _ _ _ (F1 P D F) i v1 vl vw g t Hi1 L1) as H. rewrite Gt in H. specialize (H Ht ND). congruence. }
    split; [|split].
    - intros a (c & -> & Hid)%HA. split; [done|]. exists c, v1, m. done.
    - intros P D t F Ht ND. rewrite <- (HM P D t F Ht ND). destruct (m !! id); split; intros [? ?]; eauto; done.
    - intros P D t a F Ht ND Ha. destruct (HA a Ha) as (c & -> & Hid). exists c. split; [exists v1, m; done|]. by rewrite <- (HM P D t F Ht ND).
  Qed.
  Lemma net_bus_ok vw id (st : st_t) i v : base st -> e_cur st = Some i -> e_vars st !! i = Some v ->
    exists o st' v', net_bus calc vw id st = (Ok o, st') /\ base st' /\ swells st st' /\ e_vars st' !! i = Some v' /\
      (vw = BusView -> vv_bb v' = vv_bb v) /\ (named calc -> forall P, fresh calc P clean st -> fresh calc P clean st') /\
      (vw = BusBreakerView /\ id ∈ vs_conf (e_sh st) /\ o = Some (FConf id) /\ st' = st \/
       ~ (vw = BusBreakerView /\ id ∈ vs_conf (e_sh st)) /\ exists m, net_cached vw v' = Some m /\ o = FCalc <$> m !! id).
  Proof using.
    intros B Hc Hi. unfold net_bus. rewrite (abind_Ok ashared _ st (e_sh st) st eq_refl). case_bool_decide as Hd.
    - exists (Some (FConf id)), st, v. split; [done|]. split; [done|]. split; [apply swells_refl|]. split; [done|]. split; [done|]. split; [done|]. left. naive_solver.
    - destruct (net_cache_ok calc vw st i v B Hc Hi) as (m & st' & v' & E & B' & S & Hi' & Hm & Hb & F). rewrite (abind_Ok _ _ _ _ _ E).
      exists (FCalc <$> m !! id), st', v'. split; [done|]. split; [done|]. split; [done|]. split; [done|]. split; [done|]. split; [done|]. right. split; [done|]. by exists m.
  Qed.
  Lemma no_variant {A} (m : vvar T -> act (vsh C) (vvar T) A) (st : st_t) : e_cur st = None -> abind aget m st = (Throw "Variant index not set", st).
  Proof using. intros Hc. apply abind_Throw. unfold aget. apply abind_Throw. unfold aindex. by rewrite Hc. Qed.
  Lemma net_bus_none vw id (st : st_t) : e_cur st = None -> (net_bus calc vw id st).2 = st.
  Proof using.
    intros Hc. unfold net_bus. rewrite (abind_Ok ashared _ st (e_sh st) st eq_refl). case_bool_decide; [done|]. unfold net_cache.
    by rewrite (abind_Throw _ _ _ _ _ (no_variant _ st Hc)).
  Qed.
  Lemma level_bus_none vw vl id (st : st_t) : e_cur st = None -> (level_bus calc vw vl id st).2 = st.
  Proof using. intros Hc. unfold level_bus, level_cache. by rewrite (abind_Throw _ _ _ _ _ (no_variant _ st Hc)). Qed.
  Lemma amap_snd {A B} (f : A -> B) (m : act (vsh C) (vvar T) A) st : (amap f m st).2 = (m st).2.
  Proof using. unfold amap, abind. destruct (m st) as [[]?]; done. Qed.

  (** ** Every variant gets a topology *)
  Definition retopo (vl : string) (f : string -> T) (st : st_t) : st_t := mkE (e_sh st) (map_imap (fun i v => Some (set_topo vl (f i) v)) (e_vars st)) (e_cur st).
  Lemma retopo_back vl f st j u' : e_vars (retopo vl f st) !! j = Some u' -> exists u, e_vars st !! j = Some u /\ u' = set_topo vl (f j) u.
  Proof using. unfold retopo. cbn [e_vars]. rewrite map_lookup_imap. destruct (e_vars st !! j) as [u|]; [|done]. cbn. intros [= <-]. eauto. Qed.
  Lemma retopo_some vl f st j : is_Some (e_vars (retopo vl f st) !! j) <-> is_Some (e_vars st !! j).
  Proof using. unfold retopo. cbn [e_vars]. rewrite map_lookup_imap. destruct (e_vars st !! j) as [u|]; cbn; split; intros [? ?]; eauto; done. Qed.
  Lemma retopo_ewf vl f (st : st_t) : ewf st -> ewf (retopo vl f st).
  Proof using. intros [W1 W2]. split; [by apply retopo_some|]. intros j Hj. apply retopo_some. by apply W2. Qed.
  Lemma retopo_base vl f st : base st -> is_Some (vs_nb (e_sh st) !! vl) -> base (retopo vl f st).
  Proof using.
    intros B Hn. apply (base_sub st); try done.
    - apply retopo_ewf, B.
    - intros j u' x (u & Hu & ->)%retopo_back. cbn [set_topo vv_topo]. rewrite lookup_insert_is_Some. change (e_sh (retopo vl f st)) with (e_sh st). rewrite (b_topo _ B j u x Hu).
      destruct (decide (vl = x)) as [->|N]; split; [done|by left|by intros [?|[_ ?]]|by right].
    - intros j u' (u & Hu & ->)%retopo_back. right. exists u. split; [done|]. split; [done|]. by right.
  Qed.
  Lemma retopo_fresh vl f st (P : Prop) : base st -> fresh calc P clean st -> (P -> forall i v, e_vars st !! i = Some v -> vv_bb v = None) ->
    fresh calc P (fun j x => x = vl) (retopo vl f st).
  Proof using.
    intros B F HP. apply (fresh_sub calc P clean _ st); [done|done|done|]. intros j u' (u & Hu & ->)%retopo_back. right. exists u. split; [done|]. split; [done|]. split; [|split].
    - intros x vw g Hk Nx. split; [|by intros ?]. cbn [set_topo vv_topo]. by rewrite lookup_insert_ne.
    - right. split; [done|]. intros H. by destruct (H vl).
    - intros H. left. cbn. by eapply HP.
  Qed.
  Lemma quiet_fresh vl f st (P : Prop) : base st -> fresh calc P clean st -> (P -> forall i v, e_vars st !! i = Some v -> vv_bb v = None) ->
    (forall i v, e_vars st !! i = Some v -> (forall vw, vv_lev v !! (vl, vw) = None) /\ vv_bus v = None) -> fresh calc P clean (retopo vl f st).
  Proof using.
    intros B F HP HQ. apply (fresh_sub calc P clean _ st); [done|done|done|]. intros j u' (u & Hu & ->)%retopo_back. right. exists u. destruct (HQ j u Hu) as [Hl Hb].
    split; [done|]. split; [done|]. split; [|split].
    - intros x vw g Hk _. split; [|by intros ?]. cbn [set_topo vv_topo vv_lev] in *. rewrite lookup_insert_ne; [done|]. intros <-. by rewrite Hl in Hk.
    - left. exact Hb.
    - intros H. left. cbn. by eapply HP.
  Qed.
  Lemma attach_ok vl f st i : base st -> is_Some (vs_nb (e_sh st) !! vl) -> e_cur st = Some i ->
    exists st', vcall calc (VAttach vl f) st = (Ok tt, st') /\ base st' /\ e_cur st' = e_cur st /\
      (forall j u, e_vars st !! j = Some u -> exists u', e_vars st' !! j = Some u' /\
         (forall x vw, x <> vl -> vv_lev u' !! (x, vw) = vv_lev u !! (x, vw)) /\
         (forall x vw g, vv_lev u !! (x, vw) = Some g -> vs_heap (e_sh st') !! g = if bool_decide (x = vl) then None else vs_heap (e_sh st) !! g)) /\
      (forall P : Prop, (P -> forall i v, e_vars st !! i = Some v -> vv_bb v = None) -> fresh calc P clean st -> fresh calc P clean st').
  Proof using.
    intros B Hn Hc. cbn [vcall]. unfold on_level. rewrite (abind_Ok ashared _ st (e_sh st) st eq_refl). rewrite bool_decide_eq_true_2 by done.
    unfold abind at 1. change (mkE (e_sh st) _ (e_cur st)) with (retopo vl f st). set (st0 := retopo vl f st).
    assert (base st0) as B0 by (by apply retopo_base).
    unfold aforeach. rewrite (abind_Ok aindex _ st0 i st0) by (unfold aindex; change (e_cur st0) with (e_cur st); by rewrite Hc).
    set (l := map fst (map_to_list (e_vars st0))).
    assert (forall j, j ∈ l <-> is_Some (e_vars st0 !! j)) as Hl.
    { intros j. unfold l. split.
      - intros (x & -> & Hx)%elem_of_list_fmap. destruct x as [k y]. apply elem_of_map_to_list in Hx. eauto.
      - intros [y Hy]. apply elem_of_list_fmap. exists (j, y). split; [done|]. by apply elem_of_map_to_list. }
    destruct (loop_ok calc vl l st0 B0) as (st' & E & B' & S' & N' & Cf' & V' & F').
    { unfold l. apply NoDup_fst_map_to_list. }
    { intros j. by apply Hl. }
    rewrite E. cbv beta iota. change (e_cur st0) with (e_cur st) in B', F'. rewrite Hc in B', F'.
    exists (mkE (e_sh st') (e_vars st') (Some i)). split; [done|]. split; [done|]. split; [by rewrite Hc|]. split.
    - intros j u Hu. assert (e_vars st0 !! j = Some (set_topo vl (f j) u)) as Hu0. { unfold st0, retopo. cbn [e_vars]. by rewrite map_lookup_imap, Hu. }
      destruct (V' j _ Hu0) as (u' & Hu' & _ & _ & L1 & _ & H'). exists u'. split; [done|]. split; [done|].
      intros x vw g Hg. cbn [e_sh]. rewrite (H' x vw g Hg). assert (j ∈ l) as Hj by (apply Hl; eauto).
      destruct (decide (x = vl)) as [->|Nx]; [by rewrite !bool_decide_eq_true_2|]. rewrite !bool_decide_eq_false_2; [done|done|by intros [? _]].
    - intros P HP F. eapply (fresh_sub calc P (fun j x => x = vl /\ ~ (j ∈ l /\ x = vl)) _ (mkE (e_sh st') (e_vars st') (Some i))); [|done|done|].
      + apply F'; [|by apply retopo_fresh]. intros HPP j u (u0 & Hu0 & ->)%retopo_back. cbn. by eapply HP.
      + intros j u' Hj. right. exists u'. split; [done|]. split; [done|].
        assert (forall x, ~ (x = vl /\ ~ (j ∈ l /\ x = vl))) as HD. { intros x [-> H]. apply H. split; [|done]. apply Hl. apply S'. cbn in Hj. eauto. }
        split; [by split|]. split; [right; split; [done|]; intros _; split; [done|]|intros _; right; split; [done|]]; (split; [done|]; intros; by left).
  Qed.
  Lemma change_ok vl t st i v : is_Some (vs_nb (e_sh st) !! vl) -> e_cur st = Some i -> e_vars st !! i = Some v ->
    vcall calc (VChange vl t) st = (Ok tt, changed vl (fun v => <[vl := t]> (vv_topo v)) st i v).
  Proof using.
    intros Hn Hc Hi. cbn [vcall]. unfold on_level. rewrite (abind_Ok ashared _ st (e_sh st) st eq_refl). rewrite bool_decide_eq_true_2 by done.
    rewrite (abind_Ok _ _ _ _ _ (aget_here _ _ _ Hc Hi)). rewrite (abind_Ok _ _ _ _ _ (aput_here _ _ _ _ Hc Hi)).
    rewrite (invalidate_changed vl _ i (set_topo vl t v)); [|done|cbn; by rewrite lookup_insert]. unfold changed. cbn [e_sh e_vars e_cur set_topo vv_topo vv_lev vv_bb]. by rewrite insert_insert.
  Qed.

  (** ** Variants *)
  Lemma free_gone v (s : vsh C) k g : vv_lev (T:=T) v !! k = Some g -> vs_heap (free (Some v) s) !! g = None.
  Proof using.
    intros Hk. unfold free. cbn [vs_heap]. apply map_filter_lookup_None. right. intros x _ H. apply H. cbn [fst]. apply elem_of_list_fmap. exists (k, g). split; [done|]. by apply elem_of_map_to_list.
  Qed.
  Lemma free_kept v (s : vsh C) g : (forall k, vv_lev (T:=T) v !! k <> Some g) -> vs_heap (free (Some v) s) !! g = vs_heap s !! g.
  Proof using.
    intros Hk. unfold free. cbn [vs_heap]. destruct (vs_heap s !! g) as [b|] eqn:E.
    - apply map_filter_lookup_Some. split; [done|]. intros (x & Ex & Hx)%elem_of_list_fmap. destruct x as [k y]. cbn in Ex. subst y. apply elem_of_map_to_list in Hx. by apply (Hk k).
    - apply map_filter_lookup_None. by left.
  Qed.
  Lemma free_sub o (s : vsh C) : vs_heap (free (T:=T) o s) ⊆ vs_heap s.
  Proof using. destruct o as [v|]; [|done]. cbn. apply map_filter_subseteq. Qed.
  Lemma free_rest o (s : vsh C) : vs_nb (free (T:=T) o s) = vs_nb s /\ vs_conf (free o s) = vs_conf s /\ vs_next (free o s) = vs_next s.
  Proof using. by destruct o. Qed.
  Lemma free_other (st : st_t) i j u k g : base st -> e_vars st !! j = Some u -> j <> i -> vv_lev u !! k = Some g -> vs_heap (free (e_vars st !! i) (e_sh st)) !! g = vs_heap (e_sh st) !! g.
  Proof using.
    intros B Hj N Hk. destruct (e_vars st !! i) as [v|] eqn:Hi; [|done]. apply free_kept. intros k' Hk'. destruct (b_uniq _ B _ _ _ _ _ _ _ Hj Hi Hk Hk') as [-> _]. done.
  Qed.

  (** ** Steps *)
  Lemma same_sub st (st' : st_t) (P : Prop) : e_vars st' = e_vars st -> vs_heap (e_sh st') = vs_heap (e_sh st) -> vs_nb (e_sh st') = vs_nb (e_sh st) -> vs_next (e_sh st') = vs_next (e_sh st) ->
    (forall i, e_cur st' = Some i -> is_Some (e_vars st' !! i)) -> base st -> base st' /\ (fresh calc P clean st -> fresh calc P clean st').
  Proof using.
    intros Ev Eh En Ex Hc B. assert (owned_same st st') as HO. { intros j u k g _ _. by rewrite Eh. } split.
    - apply (base_sub st); try done.
      + split; [rewrite Ev; exact (proj1 (b_wf _ B))|done].
      + intros vl nb. by rewrite En.
      + by rewrite Eh.
      + intros j u x. rewrite Ev, En. apply B.
      + intros j u. rewrite Ev. intros Hu. right. exists u. split; [done|]. split; [done|]. by right.
    - intros F. apply (fresh_sub calc P clean _ st); [done|done|intros x y; by rewrite En|]. intros j u. rewrite Ev. intros Hu. right. exists u. split; [done|]. split; [done|]. split; [done|].
      assert (data_same calc st st' u u) as DS. { split; [done|]. intros vl nb t. rewrite En. by left. }
      split; right; by split.
  Qed.
  Lemma step_ok (st : st_t) o : base st -> base (vstep calc st o).2 /\
    (named calc -> forall P : Prop, fresh_safe calc st o -> (P -> still_safe calc st o) -> fresh calc P clean st -> fresh calc P clean (vstep calc st o).2).
  Proof using.
    intros B. assert (forall i, e_cur st = Some i -> is_Some (e_vars st !! i)) as HW by apply B.
    destruct o as [c|src tgt ow|id|id]; cbn [vstep estep].
    - destruct c as [vl nb t|id|id|vl t|vl f|vl f|vw vl id|vw id].
      + (* a level *)
        cbn [vcall]. case_bool_decide as Hn; [by split|]. cbn [snd]. set (st' := mkE _ _ _).
        assert (vs_nb (e_sh st) !! vl = None) as Hn' by (by apply eq_None_not_Some).
        assert (forall j u', e_vars st' !! j = Some u' -> exists u, e_vars st !! j = Some u /\ u' = set_topo vl t u) as Back.
        { intros j u'. unfold st'. cbn [e_vars]. rewrite lookup_fmap. intros (u & -> & ?)%fmap_Some. eauto. }
        assert (forall x y, vs_nb (e_sh st) !! x = Some y -> vs_nb (e_sh st') !! x = Some y) as HN.
        { intros x y Hx. unfold st'. cbn [e_sh vs_nb]. rewrite lookup_insert_ne; [done|]. intros ->. congruence. }
        split.
        * apply (base_sub st); try done.
          -- split; unfold st'; cbn [e_vars e_cur].
             ++ rewrite lookup_fmap. destruct (proj1 (b_wf _ B)) as [x ->]. cbn. eauto.
             ++ intros i Hi. rewrite lookup_fmap. destruct (HW i Hi) as [x ->]. cbn. eauto.
          -- intros j u' x (u & Hu & ->)%Back. unfold st'. cbn. rewrite !lookup_insert_is_Some. by rewrite (b_topo _ B j u x Hu).
          -- intros j u' (u & Hu & ->)%Back. right. exists u. split; [done|]. split; [done|]. by right.
        * intros _ P Hs _ F. cbn in Hs. apply (fresh_sub calc P clean _ st); [done|done|exact HN|]. intros j u' (u & Hu & ->)%Back. right. exists u. split; [done|]. split; [done|].
          assert (data_same calc st st' u (set_topo vl t u)) as DS.
          { split; [done|]. intros x y z. unfold st'. cbn. intros [[<- <-]|[N Hx]]%lookup_insert_Some Ht; [right; intros vw; rewrite lookup_insert in Ht; by injection Ht as <-|].
            rewrite lookup_insert_ne in Ht by done. by left. }
          split; [|split; right; by split]. intros x vw g Hk _. split; [|by intros ?]. cbn. rewrite lookup_insert_ne; [done|]. intros <-.
          pose proof (b_lev _ B j u vl vw g Hu Hk) as [? H]. by rewrite Hn' in H.
      + split; [by apply (same_sub st _ True)|]. intros _ P _ _. by apply same_sub.
      + split; [by apply (same_sub st _ True)|]. intros _ P _ _. by apply same_sub.
      + (* a change in the working variant *)
        destruct (decide (is_Some (vs_nb (e_sh st) !! vl))) as [Hn|Hn].
        2:{ cbn [vcall]. unfold on_level. rewrite (abind_Ok ashared _ st (e_sh st) st eq_refl). rewrite bool_decide_eq_false_2 by done. by split. }
        destruct (e_cur st) as [i|] eqn:Hc.
        2:{ cbn [vcall]. unfold on_level. rewrite (abind_Ok ashared _ st (e_sh st) st eq_refl). rewrite bool_decide_eq_true_2 by done. rewrite (no_variant _ st Hc). by split. }
        destruct (HW i eq_refl) as [v Hi]. rewrite (change_ok vl t st i v Hn Hc Hi). cbn [snd]. split.
        * apply changed_base; [done|done|]. intros x. rewrite lookup_insert_is_Some. rewrite (b_topo _ B i v x Hi).
          destruct (decide (vl = x)) as [->|N]; split; [done|by left|by intros [?|[_ ?]]|by right].
        * intros _ P _ HP F.
          eapply (fresh_sub calc P (fun j x => clean j x /\ ~ (j = i /\ x = vl)) _ (changed vl (fun v => <[vl := t]> (vv_topo v)) st i v)); [|done|done|].
          -- apply changed_fresh; [done|done| |intros x Nx; by apply lookup_insert_ne|done]. intros H. apply (HP H). by exists i.
          -- intros j u' Hj. right. exists u'. split; [done|]. split; [done|].
             assert (forall x, ~ (clean j x /\ ~ (j = i /\ x = vl))) as HD by (by intros x [[] _]).
             split; [by split|]. split; [right; split; [done|]; intros _; split; [done|]|intros _; right; split; [done|]]; (split; [done|]; intros; by left).
      + (* a change in every variant *)
        destruct (decide (is_Some (vs_nb (e_sh st) !! vl))) as [Hn|Hn].
        2:{ cbn [vcall]. unfold on_level. rewrite (abind_Ok ashared _ st (e_sh st) st eq_refl). rewrite bool_decide_eq_false_2 by done. by split. }
        destruct (e_cur st) as [i|] eqn:Hc.
        * destruct (attach_ok vl f st i B Hn Hc) as (st' & E & B' & _ & _ & F'). rewrite E. cbn [snd]. split; [done|]. intros _ P _ HP F. apply F'; [|done]. intros H. by destruct (HP H).
        * split; [|intros _ P Hs; cbn in Hs; by rewrite Hc in Hs]. cbn [vcall]. unfold on_level. rewrite (abind_Ok ashared _ st (e_sh st) st eq_refl). rewrite bool_decide_eq_true_2 by done.
          unfold abind at 1. change (mkE (e_sh st) _ (e_cur st)) with (retopo vl f st). unfold aforeach.
          rewrite (abind_Throw aindex _ (retopo vl f st) "Variant index not set" (retopo vl f st)) by (unfold aindex; change (e_cur (retopo vl f st)) with (e_cur st); by rewrite Hc).
          cbn [snd]. by apply retopo_base.
      + (* no invalidation *)
        cbn [vcall]. unfold on_level. rewrite (abind_Ok ashared _ st (e_sh st) st eq_refl). case_bool_decide as Hn; [|by split].
        cbn [snd]. change (mkE (e_sh st) _ (e_cur st)) with (retopo vl f st). split; [by apply retopo_base|]. intros _ P Hs HP F. apply quiet_fresh; [done|done| |done]. intros H. by destruct (HP H).
      + cbn [vcall]. unfold on_level. rewrite (abind_Ok ashared _ st (e_sh st) st eq_refl). case_bool_decide as Hn; [|by split]. rewrite amap_snd.
        destruct (e_cur st) as [i|] eqn:Hc; [|rewrite level_bus_none by done; by split]. destruct (HW i eq_refl) as [v Hi].
        destruct (level_bus_ok vw vl id st i v B Hc Hi Hn) as (o & st' & E & B' & _ & F & _). rewrite E. split; [done|]. intros _ P _ _. apply F.
      + cbn [vcall]. rewrite amap_snd. destruct (e_cur st) as [i|] eqn:Hc; [|rewrite net_bus_none by done; by split]. destruct (HW i eq_refl) as [v Hi].
        destruct (net_bus_ok vw id st i v B Hc Hi) as (o & st' & v' & E & B' & _ & _ & _ & F & _). rewrite E. split; [done|]. intros N P _ _. by apply F.
    - destruct (e_vars st !! src) as [v|] eqn:Hsrc; [|by split]. destruct (_ && _); [by split|]. cbn [snd]. set (st' := mkE _ _ _).
      assert (forall j u', e_vars st' !! j = Some u' -> j = tgt /\ vv_topo u' = vv_topo v /\ blank u' \/ j <> tgt /\ e_vars st !! j = Some u') as Back.
      { intros j u'. unfold st'. cbn [e_vars]. intros [[<- <-]|[N Hj]]%lookup_insert_Some; [left|right]; by repeat split. }
      destruct (free_rest (e_vars st !! tgt) (e_sh st)) as (En & _ & Ex).
      assert (owned_same st st') as HO.
      { intros j u' k g Hj Hk. destruct (Back j u' Hj) as [(_ & _ & (E & _))|[N Hu]]; [by rewrite E, lookup_empty in Hk|]. by eapply free_other. }
      split.
      + apply (base_sub st); try done.
        * apply base_ewf_insert, B.
        * intros x y. unfold st'. cbn [e_sh]. by rewrite En.
        * apply free_sub.
        * intros j u' x Hj. unfold st'. cbn [e_sh]. rewrite En. destruct (Back j u' Hj) as [(_ & Et & _)|[N Hu]]; [rewrite Et; by apply (b_topo _ B src)|by apply (b_topo _ B j)].
        * intros j u' [(_ & _ & Hb)|[N Hu]]%Back; [by left|]. right. exists u'. split; [done|]. split; [done|]. by right.
      + intros _ P _ _ F. apply (fresh_sub calc P clean _ st); [done|done|intros x y; unfold st'; cbn [e_sh]; by rewrite En|]. intros j u' [(_ & _ & Hb)|[N Hu]]%Back; [by left|]. right. exists u'. split; [done|]. split; [done|].
        assert (data_same calc st st' u' u') as DS. { split; [done|]. intros x y z. unfold st'. cbn [e_sh]. rewrite En. by left. }
        split; [by split|]. split; right; by split.
    - case_bool_decide as Hi0; [by split|]. destruct (e_vars st !! id) as [v|] eqn:Hid; [|by split]. cbn [fst snd e_vars e_cur]. set (st' := mkE _ _ _).
      assert (forall j u', e_vars st' !! j = Some u' -> j <> id /\ e_vars st !! j = Some u') as Back.
      { intros j u'. unfold st'. cbn [e_vars]. intros [N Hj]%lookup_delete_Some. done. }
      assert (owned_same st st') as HO.
      { intros j u' k g Hj Hk. destruct (Back j u' Hj) as [N Hu]. unfold st'. cbn [e_sh]. rewrite <- Hid. by eapply free_other. }
      split.
      + apply (base_sub st); try done.
        * split; unfold st'; cbn [e_vars e_cur].
          -- rewrite lookup_delete_ne by done. exact (proj1 (b_wf _ B)).
          -- intros j. case_bool_decide as Hcur; [done|]. intros Hj. rewrite lookup_delete_ne by congruence. auto.
        * exact (free_sub (Some v) (e_sh st)).
        * intros j u' x [N Hu]%Back. by apply (b_topo _ B j).
        * intros j u' [N Hu]%Back. right. exists u'. split; [done|]. split; [done|]. by right.
      + intros _ P _ _ F. apply (fresh_sub calc P clean _ st); [done|done|done|]. intros j u' [N Hu]%Back. right. exists u'. split; [done|]. split; [done|].
        assert (data_same calc st st' u' u') as DS. { split; [done|]. intros x y z. by left. }
        split; [by split|]. split; right; by split.
    - destruct (e_vars st !! id) as [v|] eqn:Hid; [|by split]. cbn [snd].
      assert (forall i, Some id = Some i -> is_Some (e_vars st !! i)) as H by (intros i [= <-]; eauto).
      split; [by apply (same_sub st _ True)|]. intros _ P _ _. by apply same_sub.
  Qed.

  Lemma new_ok : base (vnew : st_t) /\ forall P, fresh calc P clean (vnew : st_t).
  Proof using.
    assert (forall i v, e_vars (vnew : st_t) !! i = Some v -> i = initial_variant /\ v = mkVV ∅ ∅ None None) as HV.
    { intros i v. unfold vnew, enew. cbn [e_vars]. intros [<- <-]%lookup_singleton_Some. done. }
    split.
    - split.
      + split; unfold vnew, enew; cbn [e_vars e_cur]; [eexists; apply lookup_singleton|]. intros i [= <-]. eexists. apply lookup_singleton.
      + intros g [x Hx]. unfold vnew, enew in Hx; cbn [e_sh vs_heap] in Hx; by rewrite lookup_empty in Hx.
      + intros i v k g [-> ->]%HV Hk. cbn [vv_lev] in Hk; by rewrite lookup_empty in Hk.
      + intros i i' v v' k k' g [-> ->]%HV _ Hk. cbn [vv_lev] in Hk; by rewrite lookup_empty in Hk.
      + intros i v vl [-> ->]%HV. unfold vnew, enew; cbn [vv_topo e_sh vs_nb]. rewrite !lookup_empty. split; intros [? ?]; done.
      + intros i v vl vw g [-> ->]%HV Hk. cbn [vv_lev] in Hk; by rewrite lookup_empty in Hk.
      + intros i v [-> ->]%HV m id a Hm. done.
    - intros P. split.
      + intros i v vl vw g t [-> ->]%HV Hk. cbn [vv_lev] in Hk; by rewrite lookup_empty in Hk.
      + intros i v [-> ->]%HV _ m ? ? ? ? ? Hm. done.
      + intros _ i v [-> ->]%HV. split; [intros m ? ? Hm|intros m ? ? ? ? ? Hm]; done.
  Qed.
  Lemma reach_base safe (st : st_t) : vreach calc safe st -> base st.
  Proof using. induction 1 as [|st o H IH Hs]; [apply new_ok|]. by apply step_ok. Qed.
  Lemma reach_fresh (st : st_t) : named calc -> vreach calc (fresh_safe calc) st -> fresh calc False clean st.
  Proof using. intros N. induction 1 as [|st o H IH Hs]; [apply new_ok|]. apply step_ok; [by eapply reach_base|done|done|done|done]. Qed.
  Lemma reach_still (st : st_t) : named calc -> vreach calc (still_safe calc) st -> fresh calc True clean st.
  Proof using. intros N. induction 1 as [|st o H IH Hs]; [apply new_ok|]. apply step_ok; [by eapply reach_base|done|by apply Hs|done|done]. Qed.

  (** ** References *)
  Lemma deref_ref (st : st_t) i vl vw a c : bus_ref st i vl vw a c -> deref a st = (Ok c, st).
  Proof using. intros (v & m & _ & _ & Hm & Hc). unfold deref. by rewrite Hm, Hc. Qed.
  Definition dead (st : st_t) (a : nat * string) : Prop := vs_heap (e_sh st) !! a.1 = None /\ a.1 < vs_next (e_sh st).
  Lemma deref_dead (st : st_t) a : dead st a -> deref a st = (UB, st).
  Proof using. intros [H _]. unfold deref. by rewrite H. Qed.
  Lemma step_keeps (st : st_t) o i vl vw a c : base st -> bus_ref st i vl vw a c -> ~ touches st o i vl -> bus_ref (vstep calc st o).2 i vl vw a c.
  Proof using.
    intros B R NT. pose proof R as (v & m & Hi & Hl & Hm & Hx). assert (forall i, e_cur st = Some i -> is_Some (e_vars st !! i)) as HW by apply B.
    destruct o as [[vl' nb t|id|id|vl' t|vl' f|vl' f|vw' vl' id|vw' id]|src tgt ow|id|id]; cbn [vstep estep touches] in *.
    - cbn [vcall]. case_bool_decide as Hn; [done|]. cbn [snd]. exists (set_topo vl' t v), m. cbn. rewrite lookup_fmap, Hi. done.
    - by exists v, m.
    - by exists v, m.
    - destruct (decide (is_Some (vs_nb (e_sh st) !! vl'))) as [Hn|Hn].
      2:{ cbn [vcall]. unfold on_level. rewrite (abind_Ok ashared _ st (e_sh st) st eq_refl). by rewrite bool_decide_eq_false_2. }
      destruct (e_cur st) as [j|] eqn:Hc.
      2:{ cbn [vcall]. unfold on_level. rewrite (abind_Ok ashared _ st (e_sh st) st eq_refl). rewrite bool_decide_eq_true_2 by done. by rewrite (no_variant _ st Hc). }
      destruct (HW j eq_refl) as [w Hw]. rewrite (change_ok vl' t st j w Hn Hc Hw). cbn [snd]. set (st' := changed _ _ _ _ _).
      assert (exists v', e_vars st' !! i = Some v' /\ vv_lev v' !! (vl, vw) = Some a.1) as (v' & Hv' & Hl').
      { unfold st', changed. cbn [e_vars]. destruct (decide (j = i)) as [->|N].
        - rewrite Hi in Hw. injection Hw as <-. rewrite lookup_insert. eexists. split; [done|]. cbn [vv_lev]. apply kept_lookup. split; [done|]. intros ->. by apply NT.
        - rewrite lookup_insert_ne by done. by exists v. }
      exists v', m. split; [done|]. split; [done|]. split; [|done]. rewrite <- Hm. by eapply (changed_owned vl' _ st j w B Hw).
    - destruct (decide (is_Some (vs_nb (e_sh st) !! vl'))) as [Hn|Hn].
      2:{ cbn [vcall]. unfold on_level. rewrite (abind_Ok ashared _ st (e_sh st) st eq_refl). by rewrite bool_decide_eq_false_2. }
      destruct (e_cur st) as [j|] eqn:Hc.
      + destruct (attach_ok vl' f st j B Hn Hc) as (st' & E & _ & _ & V & _). rewrite E. cbn [snd]. destruct (V i v Hi) as (v' & Hv' & L & HH).
        exists v', m. split; [done|]. split; [rewrite L by congruence; done|]. split; [|done]. rewrite (HH vl vw a.1 Hl). rewrite bool_decide_eq_false_2 by congruence. done.
      + cbn [vcall]. unfold on_level. rewrite (abind_Ok ashared _ st (e_sh st) st eq_refl). rewrite bool_decide_eq_true_2 by done.
        unfold abind at 1. change (mkE (e_sh st) _ (e_cur st)) with (retopo vl' f st). unfold aforeach.
        rewrite (abind_Throw aindex _ (retopo vl' f st) "Variant index not set" (retopo vl' f st)) by (unfold aindex; change (e_cur (retopo vl' f st)) with (e_cur st); by rewrite Hc).
        cbn [snd]. exists (set_topo vl' (f i) v), m. unfold retopo. cbn [e_vars e_sh]. by rewrite map_lookup_imap, Hi.
    - cbn [vcall]. unfold on_level. rewrite (abind_Ok ashared _ st (e_sh st) st eq_refl). case_bool_decide as Hn; [|done].
      cbn [snd]. exists (set_topo vl' (f i) v), m. cbn [e_vars e_sh]. by rewrite map_lookup_imap, Hi.
    - cbn [vcall]. unfold on_level. rewrite (abind_Ok ashared _ st (e_sh st) st eq_refl). case_bool_decide as Hn; [|done]. rewrite amap_snd.
      destruct (e_cur st) as [j|] eqn:Hc; [|by rewrite level_bus_none]. destruct (HW j eq_refl) as [w Hj].
      destruct (level_bus_ok vw' vl' id st j w B Hc Hj Hn) as (o & st' & E & _ & G & _). rewrite E. eapply swells_ref; [by apply grows_swells|done].
    - cbn [vcall]. rewrite amap_snd. destruct (e_cur st) as [j|] eqn:Hc; [|by rewrite net_bus_none]. destruct (HW j eq_refl) as [w Hj].
      destruct (net_bus_ok vw' id st j w B Hc Hj) as (o & st' & v' & E & _ & S & _). rewrite E. by eapply swells_ref.
    - destruct (e_vars st !! src) as [w|] eqn:Hsrc; [|done]. destruct (_ && _); [done|]. cbn [snd]. exists v, m. cbn [e_vars e_sh]. rewrite lookup_insert_ne by done.
      split; [done|]. split; [done|]. split; [|done]. by rewrite (free_other st tgt i v (vl, vw)).
    - case_bool_decide as Hi0; [done|]. destruct (e_vars st !! id) as [w|] eqn:Hid; [|done]. cbn [fst snd e_vars e_cur]. exists v, m. cbn [e_vars e_sh]. rewrite lookup_delete_ne by done.
      split; [done|]. split; [done|]. split; [|done]. rewrite <- Hid. by rewrite (free_other st id i v (vl, vw)).
    - destruct (e_vars st !! id) as [w|] eqn:Hid; [|done]. by exists v, m.
  Qed.
  Lemma step_kills (st : st_t) o i vl vw a c : base st -> bus_ref st i vl vw a c -> touches st o i vl -> (vstep calc st o).1 = Ok tt -> dead (vstep calc st o).2 a.
  Proof using.
    intros B R NT. pose proof R as (v & m & Hi & Hl & Hm & Hx). assert (forall i, e_cur st = Some i -> is_Some (e_vars st !! i)) as HW by apply B.
    assert (a.1 < vs_next (e_sh st)) as Hlt by (apply (b_lt _ B); eauto).
    destruct o as [[vl' nb t|id|id|vl' t|vl' f|vl' f|vw' vl' id|vw' id]|src tgt ow|id|id]; cbn [vstep estep touches] in *; try done.
    - destruct NT as [-> Hc]. destruct (decide (is_Some (vs_nb (e_sh st) !! vl))) as [Hn|Hn].
      2:{ cbn [vcall]. unfold on_level. rewrite (abind_Ok ashared _ st (e_sh st) st eq_refl). by rewrite bool_decide_eq_false_2. }
      rewrite (change_ok vl t st i v Hn Hc Hi). intros _. cbn [snd]. split; [|done]. unfold changed. cbn [e_sh vs_heap]. rewrite !drop_lookup.
      destruct vw; [by rewrite bool_decide_eq_true_2|]. case_bool_decide; [done|]. by rewrite bool_decide_eq_true_2.
    - subst vl'. destruct (decide (is_Some (vs_nb (e_sh st) !! vl))) as [Hn|Hn].
      2:{ cbn [vcall]. unfold on_level. rewrite (abind_Ok ashared _ st (e_sh st) st eq_refl). by rewrite bool_decide_eq_false_2. }
      destruct (e_cur st) as [j|] eqn:Hc.
      + destruct (attach_ok vl f st j B Hn Hc) as (st' & E & B' & _ & V & _). rewrite E. cbn [snd]. intros _. destruct (V i v Hi) as (v' & Hv' & L & HH). split.
        * rewrite (HH vl vw a.1 Hl). by rewrite bool_decide_eq_true_2.
        * assert (vs_next (e_sh st') = vs_next (e_sh st)) as ->; [|done]. revert E. cbn [vcall]. unfold on_level. rewrite (abind_Ok ashared _ st (e_sh st) st eq_refl). rewrite bool_decide_eq_true_2 by done.
          unfold abind at 1. unfold aforeach, abind, aindex. cbn [e_cur]. rewrite Hc.
          assert (forall l (s s' : st_t) r, foreach_loop (invalidate vl) l s = (r, s') -> vs_next (e_sh s') = vs_next (e_sh s)) as KK.
          { clear. induction l as [|k l IH]; intros s s' r E; cbn [foreach_loop] in E; [by injection E as <- <-|].
            destruct (e_vars s !! k) as [vk|] eqn:Ek.
            - rewrite (invalidate_changed vl (mkE (e_sh s) (e_vars s) (Some k)) k vk eq_refl Ek) in E. by apply IH in E.
            - unfold invalidate in E. cbn in E. unfold abind, aget, abind, aindex in E. cbn in E. rewrite Ek in E. by injection E as <- <-. }
          destruct (foreach_loop _ _ _) as [r s'] eqn:El. intros E. injection E as _ <-. cbn [e_sh]. apply (KK _ _ _ _ El).
      + cbn [vcall]. unfold on_level. rewrite (abind_Ok ashared _ st (e_sh st) st eq_refl). rewrite bool_decide_eq_true_2 by done.
        unfold abind at 1. unfold aforeach, abind at 1, aindex. cbn [e_cur]. by rewrite Hc.
    - subst tgt. destruct (e_vars st !! src) as [w|] eqn:Hsrc; [|done]. destruct (_ && _); [done|]. intros _. cbn [snd]. unfold dead. cbn [e_sh]. rewrite Hi.
      split; [by eapply free_gone|done].
    - subst id. case_bool_decide as Hi0; [done|]. rewrite Hi. cbn [fst snd e_vars e_cur]. intros _. unfold dead. cbn [e_sh]. split; [by eapply free_gone|done].
  Qed.
  Lemma step_dead (st : st_t) o a : base st -> dead st a -> dead (vstep calc st o).2 a.
  Proof using.
    intros B [Hd Hlt]. pose proof (step_ok st o B) as [B' _].
    assert (forall vl l (s s' : st_t) r, foreach_loop (invalidate vl) l s = (r, s') -> dead s a -> dead s' a) as KK.
    { clear. intros vl. induction l as [|k l IH]; intros s s' r E Hd; cbn [foreach_loop] in E; [by injection E as <- <-|].
      destruct (e_vars s !! k) as [vk|] eqn:Ek.
      - rewrite (invalidate_changed vl (mkE (e_sh s) (e_vars s) (Some k)) k vk eq_refl Ek) in E. apply IH in E; [done|]. destruct Hd as [Hd Hlt]. split; [|done].
        unfold changed. cbn [e_sh vs_heap]. rewrite !drop_lookup. by repeat case_bool_decide.
      - unfold invalidate in E. cbn in E. unfold abind, aget, abind, aindex in E. cbn in E. rewrite Ek in E. by injection E as <- <-. }
    assert (forall vw vl (s s' : st_t) r, level_cache calc vw vl s = (r, s') -> dead s a -> dead s' a) as KL.
    { clear. intros vw vl s s' r E [Hd Hlt]. unfold level_cache, abind, aget, abind, aindex in E. destruct (e_cur s) as [j|] eqn:Ej; [|by injection E as <- <-].
      destruct (e_vars s !! j) as [w|] eqn:Ew; [|by injection E as <- <-]. destruct (vv_lev w !! (vl, vw)); [by injection E as <- <-|]. destruct (vv_topo w !! vl) as [t|]; [|by injection E as <- <-].
      unfold ashared, aset, aput, abind, aindex in E. cbn in E. rewrite Ej in E. cbn in E. rewrite Ew in E. cbn in E. injection E as <- <-. split; cbn [e_sh vs_heap vs_next]; [|lia]. rewrite lookup_insert_ne by lia. done. }
    assert (forall vw l m (s s' : st_t) r, fill calc vw l m s = (r, s') -> dead s a -> dead s' a) as KF.
    { intros vw. induction l as [|[x nb] l IH]; intros m s s' r E Hs; cbn [fill] in E; [by injection E as <- <-|]. destruct (in_view vw nb); [|by eapply IH].
      unfold abind at 1 in E. destruct (level_cache calc vw x s) as [[g| | |] s1] eqn:E1; [|by injection E as <- <-; eapply KL..]. apply KL in E1; [|done].
      unfold abind, ashared in E. destruct (vs_heap (e_sh s1) !! g); [|by injection E as <- <-]. by eapply IH. }
    destruct o as [[vl' nb t|id|id|vl' t|vl' f|vl' f|vw' vl' id|vw' id]|src tgt ow|id|id]; cbn [vstep estep] in *.
    - cbn [vcall]. by case_bool_decide.
    - done.
    - done.
    - cbn [vcall]. unfold on_level, abind at 1, ashared. case_bool_decide; [|done]. destruct (e_cur st) as [j|] eqn:Hc; [|by rewrite (no_variant _ st Hc)].
      destruct (proj2 (b_wf _ B) j Hc) as [w Hw]. rewrite (abind_Ok _ _ _ _ _ (aget_here _ _ _ Hc Hw)). rewrite (abind_Ok _ _ _ _ _ (aput_here _ _ _ _ Hc Hw)).
      rewrite (invalidate_changed vl' _ j (set_topo vl' t w)); [|done|cbn; by rewrite lookup_insert]. split; [|done]. unfold changed. cbn [snd e_sh vs_heap]. rewrite !drop_lookup. by repeat case_bool_decide.
    - cbn [vcall]. unfold on_level, abind at 1, ashared. case_bool_decide; [|done]. unfold abind at 1, aforeach, abind, aindex. cbn [e_cur]. destruct (e_cur st); [|done]. 
      destruct (foreach_loop _ _ _) as [r s'] eqn:El. cbn [snd]. apply KK in El; done.
    - cbn [vcall]. unfold on_level, abind at 1, ashared. by case_bool_decide.
    - cbn [vcall]. unfold on_level, abind at 1, ashared. case_bool_decide; [|done]. rewrite amap_snd. unfold level_bus, abind at 1. destruct (level_cache calc vw' vl' st) as [[g| | |] s1] eqn:E1; [|by eapply KL..].
      apply KL in E1; [|done]. unfold abind, ashared. by destruct (vs_heap _ !! g).
    - cbn [vcall]. rewrite amap_snd. unfold net_bus, abind at 1, ashared. case_bool_decide; [done|]. unfold abind at 1.
      assert (dead (net_cache calc vw' st).2 a) as H'.
      { unfold net_cache. destruct (e_cur st) as [j|] eqn:Hc; [|by rewrite (no_variant _ st Hc)]. destruct (proj2 (b_wf _ B) j Hc) as [w Hw].
        rewrite (abind_Ok _ _ _ _ _ (aget_here _ _ _ Hc Hw)). destruct (net_cached vw' w); [done|]. unfold abind at 1, ashared. unfold abind at 1.
        destruct (fill calc vw' _ ∅ st) as [[m| | |] s1] eqn:E1; [|by eapply KF..]. apply KF in E1; [|done]. unfold abind, aget, aput, abind, aindex.
        destruct (e_cur s1) as [k|] eqn:Ek; [|done]. destruct (e_vars s1 !! k) as [u|] eqn:Eu; [|done]. rewrite Ek. cbn. rewrite Eu. done. }
      destruct (net_cache calc vw' st) as [[m| | |] s1]; done.
    - destruct (e_vars st !! src) as [w|] eqn:Hsrc; [|done]. destruct (_ && _); [done|]. cbn [snd]. destruct (free_rest (e_vars st !! tgt) (e_sh st)) as (_ & _ & Ex). split; cbn [e_sh]; [|by rewrite Ex].
      destruct (vs_heap (free (e_vars st !! tgt) (e_sh st)) !! a.1) eqn:E; [|done]. by rewrite (lookup_weaken _ _ _ _ E (free_sub _ _)) in Hd.
    - case_bool_decide; [done|]. destruct (e_vars st !! id) as [w|] eqn:Hid; [|done]. cbn [fst snd e_vars e_cur]. split; cbn [e_sh]; [|done].
      destruct (vs_heap (free (Some w) (e_sh st)) !! a.1) eqn:E; [|done]. by rewrite (lookup_weaken _ _ _ _ E (free_sub _ _)) in Hd.
    - by destruct (e_vars st !! id).
  Qed.
End steps.
