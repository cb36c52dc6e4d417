(** The listings of a network, from those of its levels. *)
From stdpp Require Import gmap pretty.
From Verif Require Import Base Graph GraphSpec GraphProofs Equip NodeTopo NodeTopoSpec NodeTopoProofs NodeTopoInv NodeTopoConn NodeTopoProps BusTopo BusTopoSpec
  BusTopoProofs BusTopoInv BusTopoView BusTopoProps NodeViews NodeViewsSpec NodeViewsProofs NodeViewsProps BusViews BusViewsSpec BusViewsProofs BusViewsProps BusViewsBlank BusFreshProofs BusRef NetList NetListSpec.
From Verif Require NodeFreshProofs VisitProofs NetViewsProofs.

Definition outs {A} (f : lrange (list A)) (l : vlevel) : list A := match (f l).1 with Ok xs => xs | _ => [] end.
Lemma flat_eq {A} (f : lrange (list A)) ls : Forall (fun p : string * vlevel => exists xs, (f p.2).1 = Ok xs) ls ->
  net_flat f ls = (Ok (concat ((fun p : string * vlevel => pair p.1 <$> outs f p.2) <$> ls)), (fun p => (p.1, (f p.2).2)) <$> ls).
Proof.
  induction 1 as [|[vl l] ls [xs Hx] _ IH]; [done|]. cbn [net_flat]. rewrite IH. rewrite !fmap_cons. cbn [concat fst snd] in *.
  unfold outs at 2. destruct (f l) as [r l']. cbn [fst snd] in *. by subst r.
Qed.
Lemma flat_elem {A} (f : lrange (list A)) ls vl x :
  (vl, x) ∈ concat ((fun p : string * vlevel => pair p.1 <$> outs f p.2) <$> ls) <-> exists l, (vl, l) ∈ ls /\ x ∈ outs f l.
Proof.
  rewrite elem_of_list_In, in_concat. split.
  - intros (xs & H1 & H2). apply elem_of_list_In in H1, H2. apply elem_of_list_fmap in H1 as ([v l] & -> & Hp).
    apply elem_of_list_fmap in H2 as (y & [= -> ->] & Hy). eauto.
  - intros (l & Hl & Hx). exists (pair vl <$> outs f l). rewrite <- !elem_of_list_In. split.
    + apply elem_of_list_fmap. by exists (vl, l).
    + apply elem_of_list_fmap. eauto.
Qed.
Lemma flat_nodup {A} (f : lrange (list A)) ls : NoDup ls.*1 -> Forall (fun p : string * vlevel => NoDup (outs f p.2)) ls ->
  NoDup (concat ((fun p : string * vlevel => pair p.1 <$> outs f p.2) <$> ls)).
Proof.
  induction ls as [|[vl l] ls IH]; intros N H; [constructor|]. cbn in N. apply NoDup_cons in N as [Hn N]. apply Forall_cons in H as [Hl H].
  rewrite fmap_cons. cbn [concat fst snd]. apply NoDup_app. split; [apply NoDup_fmap; [by intros ? ? [=]|done]|]. split; [|by apply IH].
  intros [v x] H1 H2. apply elem_of_list_fmap in H1 as (y & [= -> ->] & _). apply flat_elem in H2 as (l' & Hl' & _).
  apply Hn, elem_of_list_fmap. by exists (vl, l').
Qed.
Lemma count_eq ls : forall n, Forall (fun p : string * vlevel => lv_switch_count p.2 = (Ok (length (outs lv_switches p.2)), p.2)) ls ->
  count_loop ls n = (Ok (n + length (concat ((fun p : string * vlevel => pair p.1 <$> outs lv_switches p.2) <$> ls))), ls).
Proof.
  induction ls as [|[vl l] ls IH]; intros n H; [by rewrite Nat.add_0_r|]. apply Forall_cons in H as [Hl H]. cbn [count_loop snd] in *. rewrite Hl, IH by done.
  rewrite fmap_cons. cbn [concat fst snd]. rewrite app_length. rewrite fmap_length.
  by rewrite Nat.add_assoc.
Qed.

(** A level. *)
Lemma raised_switches vl p l : raised vl p l -> exists ks, lv_switches l = (Ok ks, l) /\ lv_switch_count l = (Ok (length ks), l) /\ NoDup ks /\
  forall id, id ∈ ks <-> shows_switch p l id.
Proof.
  intros [P st W E|P st B Hc E].
  - destruct (C85_switches P st W) as (N & H & Hn & _). exists (bw_switches (e_sh st)). split; [done|]. split; [|done].
    cbn [lv_switch_count]. do 2 f_equal. rewrite Hn, <- size_dom, <- (size_list_to_set (C := gset string)) by done. f_equal. apply leibniz_equiv.
    intros k. rewrite elem_of_dom, elem_of_list_to_set. by rewrite H.
  - destruct (C84_retained P st B Hc) as ((ks & E1 & E2 & N & H) & _). exists ks. cbn [lv_switches lv_switch_count]. unfold of_nb. rewrite E1, E2. done.
Qed.

Lemma live_buses (st : bbst) : shok (e_sh st) -> exists l, bw_buses (e_sh st) = Ok l /\ NoDup l /\ forall b, b ∈ l <-> is_bus (e_sh st) b.
Proof.
  intros S.
  destruct (VisitProofs.vertex_objects_eq (e_sh st) S) as (us & E & N & H). unfold bw_buses. rewrite E, bw_names_eq by (intros; by apply H).
  eexists. split; [done|]. split.
  - apply NoDup_omap_inj; [done|]. intros u u' b _ _. by apply live_inj.
  - intros b. rewrite elem_of_list_omap. split; [intros (u & _ & Hu); by exists u|]. intros [u Hu]. exists u. split; [|done]. apply H. eauto.
Qed.
Lemma merged_same st v c st' b : binv st -> bb_cache st = (Ok c, st') -> cached st v c st' -> is_bus (e_sh st) b -> (bb_merged b st).1 = (bb_merged b st').1.
Proof.
  intros I E C Hb. destruct (merged_again st v c st' b C Hb) as (u & -> & L). unfold bb_merged.
  destruct (configured_eq st b (bi_sh _ I)) as [(u' & x & E' & L' & _)|(m & _ & Hn)]; [|done].
  rewrite (abind_Ok _ _ _ _ _ E'), (abind_Ok _ _ _ _ _ E). assert (u' = u) as -> by (eapply live_inj; [apply I|done|done]). done.
Qed.
Lemma merged_listed st v : binv st -> working st v -> well_numbered st ->
  exists (K : gset string) st', bb_merged_ids st = (Ok K, st') /\ same_but_merged st st' /\
    (forall k, k ∈ K -> exists n : N, k = bb_id (e_sh st) +:+ "_" +:+ pretty n) /\
    (forall k, k ∈ K <-> exists b, is_bus (e_sh st) b /\ (bb_merged b st).1 = Ok (Some k)).
Proof.
  intros I W WN. destruct (query_cached st v I WN W) as (c & st' & E & C). pose proof C as (_ & SB & CG & _).
  destruct (cg_num _ _ _ _ CG) as [n Hn]. exists (dom (mc_id c)), st'. split; [unfold bb_merged_ids; by rewrite (abind_Ok _ _ _ _ _ E)|].
  split; [done|]. split; [intros k; rewrite elem_of_dom, Hn; intros (j & _ & ->); by exists (N.of_nat j)|]. intros k. rewrite elem_of_dom. split.
  - intros [us Hus]. destruct (good_key (e_sh st) v c k us (bi_sh _ I) CG Hus) as (u & b & L & Hk). exists b.
    assert (is_bus (e_sh st) b) as Hb by (by exists u). split; [done|]. rewrite (merged_same st v c st' b I E C Hb).
    destruct (merged_again st v c st' b C Hb) as (u' & -> & L'). assert (u' = u) as -> by (eapply live_inj; [apply I|done|done]). cbn. by rewrite Hk.
  - intros (b & Hb & Ek). rewrite (merged_same st v c st' b I E C Hb) in Ek. destruct (merged_again st v c st' b C Hb) as (u & Em & L). rewrite Em in Ek. injection Ek as Ek.
    destruct (good_members (e_sh st) v c u b k (bi_sh _ I) CG L Ek) as (us & ? & _). eauto.
Qed.
(** The cells of the other variants are left alone. *)
Definition aside {A} (m : bbact A) : Prop := forall st, e_cur (m st).2 = e_cur st /\ forall j, e_cur st <> Some j -> e_vars (m st).2 !! j = e_vars st !! j.
Lemma aside_bind {A B} (m : bbact A) (f : A -> bbact B) : aside m -> (forall a, aside (f a)) -> aside (abind m f).
Proof.
  intros H1 H2 st. unfold abind. destruct (H1 st) as [E1 K1]. destruct (m st) as [[a|e| |] s]; cbn in *; try done. destruct (H2 a s) as [E2 K2].
  split; [congruence|]. intros j Hj. rewrite K2 by congruence. by apply K1.
Qed.
Lemma aside_put v : aside (aput v).
Proof.
  intros st. unfold aput, abind, aindex. destruct (e_cur st) as [i|] eqn:Ec; [|done]. destruct (e_vars st !! i); [|cbn; done]. cbn. split; [done|].
  intros j Hj. rewrite lookup_insert_ne; [done|congruence].
Qed.
Lemma aside_get : aside aget.
Proof. intros st. unfold aget, abind, aindex. destruct (e_cur st) as [i|] eqn:Ec; [|done]. by destruct (e_vars st !! i). Qed.
Lemma aside_bgact {A} (f : graph nat string -> graph nat string * result A) : aside (bgact f).
Proof. intros st. unfold bgact. by destruct (f _). Qed.
Lemma aside_pure {A} (m : bbact A) : (forall st, (m st).2 = st) -> aside m. Proof. intros H st. by rewrite H. Qed.
Lemma aside_merged_ids : aside bb_merged_ids.
Proof.
  unfold bb_merged_ids, bb_cache, bb_update.
  repeat first [apply aside_get|apply aside_put|apply aside_bgact|apply aside_pure; by intros ?|match goal with |- aside (match ?x with _ => _ end) => destruct x end
    |apply aside_bind; [|intros ?]].
Qed.
Lemma unc_listed st v : bb_reach bus_safe st -> working st v -> bv_cache v = None -> well_numbered st ->
  exists (K : gset string) st', bb_merged_ids st = (Ok K, st') /\ same_but_merged st st' /\
    (forall k, k ∈ K -> exists n : N, k = bb_id (e_sh st) +:+ "_" +:+ pretty n) /\
    (forall k, k ∈ K <-> exists b, is_bus (e_sh st) b /\ (bb_merged b st).1 = Ok (Some k)).
Proof.
  intros R W Hn WN. destruct (near_blank st v W Hn) as [N W']. destruct (merged_listed (blank st) v (bus_reach_weak st R) W' WN) as (K & s1 & E & SB & H1 & H2).
  destruct (near_Ok _ _ _ _ _ nearly_merged_ids N E) as (s2 & E2 & N2). exists K, s2. split; [done|]. split.
  - destruct (aside_merged_ids st) as [Ec Ej]. rewrite E2 in Ec, Ej. cbn [snd] in Ec, Ej. destruct N2 as (S2 & C2 & V2).
    unfold same_but_merged in *. cbv zeta in *. rewrite S2 in SB. destruct SB as (B1 & B2 & B3 & B4 & B5 & B6 & B7 & B8 & B9). split_and!; try done.
    intros i. destruct (decide (e_cur st = Some i)) as [Hi|Hi].
    + specialize (B9 i). rewrite (V2 i) in B9 by congruence. change (e_vars (blank st)) with (blankv <$> e_vars st) in B9. rewrite lookup_fmap in B9.
      destruct (e_vars st !! i) as [w|]; cbn [fmap option_fmap option_map] in B9; [|done]. destruct (e_vars s2 !! i) as [w'|]; [|done].
      destruct B9 as (O1 & O2 & O3 & _). split; [done|]. split; [done|]. split; [done|]. congruence.
    + rewrite Ej by done. by destruct (e_vars st !! i).
  - split; [exact H1|]. intros k. rewrite H2. assert (forall b, (bb_merged b (blank st)).1 = (bb_merged b st).1) as HM by (intros b; apply (nearly_merged b), N).
    split; intros (b & Hb & Hk); exists b; (split; [done|]); [by rewrite <- HM|by rewrite HM].
Qed.

Lemma level_buses vw l : up_to_date vw l -> exists ks l', lv_buses vw l = (Ok ks, l') /\ level_alike l l' /\ NoDup ks /\ (forall k, k ∈ ks <-> has_bus vw l k) /\
  (vw = BusView -> forall k, k ∈ ks -> exists n : N, k = (match l with VB st => bb_id (e_sh st) | VN st => nb_id (e_sh st) end) +:+ "_" +:+ pretty n).
Proof.
  destruct l as [st|st]; cbn [up_to_date].
  - intros (v & W & WN & R). destruct vw; cbn [lv_buses has_bus].
    + assert (exists (K : gset string) st', bb_merged_ids st = (Ok K, st') /\ same_but_merged st st' /\
        (forall k, k ∈ K -> exists n : N, k = bb_id (e_sh st) +:+ "_" +:+ pretty n) /\
        (forall k, k ∈ K <-> exists b, is_bus (e_sh st) b /\ (bb_merged b st).1 = Ok (Some k))) as (K & st' & E & SB & H1 & H2).
      { destruct R as [R|[R Hn]]; [eapply merged_listed; [by apply reach_binv|done|done]|by eapply unc_listed]. }
      exists (elements K), (VB st'). unfold of_bb, amap. rewrite (abind_Ok _ _ _ _ _ E). split; [done|]. split; [done|]. split; [apply NoDup_elements|]. split.
      * intros k. rewrite elem_of_elements, H2. split; intros (b & H); exists b.
        -- destruct H as [Hb Hk]. destruct (bb_merged b st) as [r s]. cbn in Hk. subst r. eauto.
        -- destruct H as (s & Hb & Hk). split; [done|]. by rewrite Hk.
      * intros _ k. rewrite elem_of_elements. apply H1.
    + assert (shok (e_sh st)) as S by (destruct R as [R|[R _]]; [apply (bi_sh _ (reach_binv _ R))|apply (bi_sh _ (bus_reach_weak _ R))]).
      destruct (live_buses st S) as (ks & E & N & H). exists ks, (VB st). rewrite E. split; [done|]. split; [apply sbm_refl|]. done.
  - intros (i & v & Hc & Hi & R).
    assert (exists m st', nb_buses vw st = (Ok m, st') /\ same_but_cache st st' /\
      (forall k b, m !! k = Some b -> cb_id b = k /\ exists n, in_bus vw (nbg st) (nv_sw v) n /\ bus_of vw (nbg st) (nv_sw v) (nb_id (e_sh st)) n b) /\
      (forall n, in_bus vw (nbg st) (nv_sw v) n -> exists k b, m !! k = Some b /\ bus_of vw (nbg st) (nv_sw v) (nb_id (e_sh st)) n b)) as (m & st' & E & SC & H1 & H2).
    { destruct R as [R|[R Hn]]; [by apply (buses_answer vw st i v (reach_fresh _ R) Hc Hi)|by apply (NodeFreshProofs.unc_buses vw st i v (reach_any _ R) Hc Hi)]. }
    exists (map_to_list m).*1, (VN st'). split.
    { destruct vw; cbn [lv_buses]; unfold of_nb, amap; by rewrite (abind_Ok _ _ _ _ _ E). }
    assert (forall k, k ∈ (map_to_list m).*1 <-> has_bus vw (VN st) k) as HB.
    { intros k. transitivity (is_Some (m !! k)).
      - rewrite elem_of_list_fmap. split.
        + intros ([k' b] & -> & Hb). apply elem_of_map_to_list in Hb. eauto.
        + intros [b Hb]. exists (k, b). split; [done|]. by apply elem_of_map_to_list.
      - assert (has_bus vw (VN st) k <-> exists n, in_bus vw (nbg st) (nv_sw v) n /\ bus_name vw (nbg st) (nv_sw v) (nb_id (e_sh st)) n k) as ->.
        { split.
          - intros H. assert (exists i v n, e_cur st = Some i /\ e_vars st !! i = Some v /\ in_bus vw (nbg st) (nv_sw v) n /\ bus_name vw (nbg st) (nv_sw v) (nb_id (e_sh st)) n k)
              as (i' & v' & n & Hc' & Hi' & ? & ?) by (by destruct vw). assert (i' = i) as -> by congruence. assert (v' = v) as -> by congruence. eauto.
          - intros (n & ? & ?). destruct vw; exists i, v, n; done. }
        split.
        + intros [b Hb]. destruct (H1 k b Hb) as (<- & n & Hn & Bo). exists n. split; [done|]. apply Bo.
        + intros (n & Hn & Hk). destruct (H2 n Hn) as (k' & b & Hb & Bo). destruct (H1 k' b Hb) as [<- _]. destruct Bo as [Hk' _].
          assert (k = cb_id b) as -> by (by eapply bus_name_fun). eauto. }
    split_and!.
    + destruct SC as (Sh & Hc' & Hv). cbn [level_alike]. split; [apply Sh|]. split; [done|]. intros id. unfold pos. rewrite Hc'. rewrite Hc.
      destruct (Hv i) as [(w & w' & -> & -> & -> & _)|[-> ->]]; done.
    + apply NoDup_fst_map_to_list.
    + done.
    + intros -> k Hk. apply HB in Hk as (i' & v' & n & _ & _ & _ & x & _ & ->). by exists (N.of_nat x).
Qed.
