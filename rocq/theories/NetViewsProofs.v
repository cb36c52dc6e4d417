(** Invariants of the caches of [NetViews]: which BusCache objects exist and who owns them, what the caches contain. *)
From Coq Require Import Ascii.
From stdpp Require Import gmap pretty.
From Verif Require Import Base Equip NetViews NetViewsSpec.

Section proofs.
  Context {T C : Type} (calc : view -> string -> T -> gmap string C).
  Notation st_t := (vst T C).
  Notation act_t := (act (vsh C) (vvar T)).

  Lemma aget_here (st : st_t) i v : e_cur st = Some i -> e_vars st !! i = Some v -> aget st = (Ok v, st).
  Proof using. intros Hc Hi. unfold aget, abind, aindex. rewrite Hc. cbv beta iota. by rewrite Hi. Qed.
  Lemma aput_here (st : st_t) i v w : e_cur st = Some i -> e_vars st !! i = Some v -> aput w st = (Ok tt, mkE (e_sh st) (<[i := w]> (e_vars st)) (e_cur st)).
  Proof using. intros Hc Hi. unfold aput, abind, aindex. rewrite Hc. cbv beta iota. by rewrite Hi, Hc. Qed.

  (** ** The invariants *)
  Definition entries (vw : view) (st : st_t) (v : vvar T) : Prop := forall m id a, net_cached vw v = Some m -> m !! id = Some a ->
    a.2 = id /\ exists vl b nb, vs_nb (e_sh st) !! vl = Some nb /\ in_view vw nb = true /\ vv_lev v !! (vl, vw) = Some a.1 /\ vs_heap (e_sh st) !! a.1 = Some b /\ is_Some (b !! id).
  Definition complete (vw : view) (st : st_t) (v : vvar T) : Prop := forall m vl nb t id c, net_cached vw v = Some m ->
    vs_nb (e_sh st) !! vl = Some nb -> in_view vw nb = true -> vv_topo v !! vl = Some t -> calc vw vl t !! id = Some c ->
    exists g, vv_lev v !! (vl, vw) = Some g /\ m !! id = Some (g, id).
  Record base (st : st_t) : Prop := mkBase {
    b_wf : ewf st;
    b_lt : forall g, is_Some (vs_heap (e_sh st) !! g) -> g < vs_next (e_sh st);
    b_own : forall i v k g, e_vars st !! i = Some v -> vv_lev v !! k = Some g -> is_Some (vs_heap (e_sh st) !! g);
    b_uniq : forall i i' v v' k k' g, e_vars st !! i = Some v -> e_vars st !! i' = Some v' -> vv_lev v !! k = Some g -> vv_lev v' !! k' = Some g -> i = i' /\ k = k';
    b_topo : forall i v vl, e_vars st !! i = Some v -> is_Some (vv_topo v !! vl) <-> is_Some (vs_nb (e_sh st) !! vl);
    b_lev : forall i v vl vw g, e_vars st !! i = Some v -> vv_lev v !! (vl, vw) = Some g -> is_Some (vs_nb (e_sh st) !! vl);
    b_bus : forall i v, e_vars st !! i = Some v -> entries BusView st v }.
  Record fresh (strict : Prop) (D : string -> string -> Prop) (st : st_t) : Prop := mkFresh {
    f_lev : forall i v vl vw g t, e_vars st !! i = Some v -> vv_lev v !! (vl, vw) = Some g -> vv_topo v !! vl = Some t -> ~ D i vl ->
      vs_heap (e_sh st) !! g = Some (calc vw vl t);
    f_bus : forall i v, e_vars st !! i = Some v -> (forall vl, ~ D i vl) -> complete BusView st v;
    f_bb : strict -> forall i v, e_vars st !! i = Some v -> entries BusBreakerView st v /\ complete BusBreakerView st v }.
  Definition clean : string -> string -> Prop := fun _ _ => False.

  (** Only caches grow. *)
  Definition grows_var (v v' : vvar T) : Prop := vv_topo v' = vv_topo v /\ vv_lev v ⊆ vv_lev v' /\ vv_bus v' = vv_bus v /\ vv_bb v' = vv_bb v.
  Record grows (st st' : st_t) : Prop := mkGrows {
    g_nb : vs_nb (e_sh st') = vs_nb (e_sh st);
    g_conf : vs_conf (e_sh st') = vs_conf (e_sh st);
    g_cur : e_cur st' = e_cur st;
    g_heap : vs_heap (e_sh st) ⊆ vs_heap (e_sh st');
    g_vars : forall j, option_Forall2 grows_var (e_vars st !! j) (e_vars st' !! j) }.
  Lemma grows_var_refl v : grows_var v v.
  Proof using. by repeat split. Qed.
  Lemma grows_refl st : grows st st.
  Proof using. split; try done. intros j. destruct (e_vars st !! j); constructor. apply grows_var_refl. Qed.
  Lemma grows_var_trans a b c : grows_var a b -> grows_var b c -> grows_var a c.
  Proof using. intros (?&?&?&?) (?&?&?&?). repeat split; try congruence. by etrans. Qed.
  Lemma grows_trans a b c : grows a b -> grows b c -> grows a c.
  Proof using.
    intros [] []. split; try congruence; [by etrans|]. intros j. specialize (g_vars0 j). specialize (g_vars1 j).
    destruct g_vars0 as [x y H|]; inversion g_vars1; subst; constructor. by eapply grows_var_trans.
  Qed.
  Lemma grows_at st st' i v : grows st st' -> e_vars st !! i = Some v -> exists v', e_vars st' !! i = Some v' /\ grows_var v v'.
  Proof using. intros G Hv. pose proof (g_vars _ _ G i) as H. rewrite Hv in H. inversion H; subst. eauto. Qed.
  Lemma grows_only st st' : grows st st' -> only_caches st st'.
  Proof using.
    intros []. split; [done|]. split; [done|]. split; [done|]. intros i. specialize (g_vars0 i). destruct g_vars0 as [x y (H & _)|]; cbn; congruence.
  Qed.
  Lemma entries_grows vw st st' v v' : grows st st' -> grows_var v v' -> entries vw st v -> entries vw st' v'.
  Proof using.
    intros [] (?&L&B1&B2) E m id a Hm Ha. assert (net_cached vw v = Some m) as Hm' by (destruct vw; cbn in *; congruence).
    destruct (E m id a Hm' Ha) as (? & vl & b & nb & Hnb & Hvw & H1 & H2 & ?). split; [done|]. exists vl, b, nb. split; [congruence|]. split; [done|]. split; [by eapply lookup_weaken|]. split; [by eapply lookup_weaken|done].
  Qed.
  Lemma complete_grows vw st st' v v' : grows st st' -> grows_var v v' -> complete vw st v -> complete vw st' v'.
  Proof using.
    intros [] (E1&L&B1&B2) E m vl nb t id c Hm Hn Hvw Ht Hc. assert (net_cached vw v = Some m) as Hm' by (destruct vw; cbn in *; congruence).
    rewrite g_nb0 in Hn. rewrite E1 in Ht. destruct (E m vl nb t id c Hm' Hn Hvw Ht Hc) as (g & H1 & H2). exists g. split; [by eapply lookup_weaken|done].
  Qed.

  (** ** The cache of a level *)
  Lemma level_cache_ok vw vl st i v : base st -> e_cur st = Some i -> e_vars st !! i = Some v -> is_Some (vs_nb (e_sh st) !! vl) ->
    exists g st' v', level_cache calc vw vl st = (Ok g, st') /\ base st' /\ grows st st' /\ e_vars st' !! i = Some v' /\ vv_lev v' !! (vl, vw) = Some g /\
      is_Some (vs_heap (e_sh st') !! g) /\ (forall P D, fresh P D st -> fresh P D st').
  Proof using.
    intros B Hc Hi Hn. unfold level_cache. rewrite (abind_Ok _ _ _ _ _ (aget_here _ _ _ Hc Hi)).
    destruct (vv_lev v !! (vl, vw)) as [g|] eqn:El.
    - exists g, st, v. split; [done|]. split; [done|]. split; [apply grows_refl|]. split; [done|]. split; [done|]. split; [by eapply b_own|done].
    - destruct (proj2 (b_topo _ B i v vl Hi) Hn) as [t Ht]. rewrite Ht. unfold abind at 1, ashared at 1. unfold abind at 1, aset at 1.
      set (s := e_sh st) in *. set (k := vs_next s). set (s' := mkVS _ _ _ _).
      rewrite (abind_Ok _ _ _ tt (mkE s' (<[i := mkVV (vv_topo v) (<[(vl, vw) := k]> (vv_lev v)) (vv_bus v) (vv_bb v)]> (e_vars st)) (e_cur st)));
        [|exact (aput_here (mkE s' (e_vars st) (e_cur st)) i v _ Hc Hi)].
      set (w := mkVV _ _ _ _). set (st' := mkE s' _ _).
      assert (vs_heap s !! k = None) as Hk. { destruct (vs_heap s !! k) eqn:E; [|done]. assert (k < k); [|lia]. apply (b_lt _ B). eexists. exact E. }
      assert (forall j u q, e_vars st !! j = Some u -> vv_lev u !! q <> Some k) as Hfr.
      { intros j u q Hj Hq. destruct (b_own _ B _ _ _ _ Hj Hq) as [x Hx]. unfold s in Hk. congruence. }
      assert (grows_var v w) as Gv. { repeat split. cbn. by apply insert_subseteq. }
      assert (grows st st') as G.
      { split; try done; cbn; [by apply insert_subseteq|]. intros j. destruct (decide (j = i)) as [->|Nj].
        - rewrite Hi, lookup_insert. by constructor.
        - rewrite lookup_insert_ne by done. destruct (e_vars st !! j); constructor. apply grows_var_refl. }
      assert (forall j u, e_vars st' !! j = Some u -> exists u0, e_vars st !! j = Some u0 /\ grows_var u0 u /\ forall q, vv_lev u !! q = vv_lev u0 !! q \/ j = i /\ q = (vl, vw) /\ vv_lev u !! q = Some k) as Back.
      { intros j u. cbn. intros [[<- <-]|[Nj Hj]]%lookup_insert_Some.
        - exists v. split; [done|]. split; [done|]. intros q. destruct (decide (q = (vl, vw))) as [->|Nq]; [right; split; [done|]; split; [done|]; unfold w; cbn [vv_lev]; by rewrite lookup_insert|left; unfold w; cbn [vv_lev]; by rewrite lookup_insert_ne].
        - exists u. split; [done|]. split; [apply grows_var_refl|]. by left. }
      exists k, st', w. split; [done|].
      split.
      { destruct B as [[W1 W2] B2 B3 B4 B5 B6 B7]. split.
        - split; cbn.
          + destruct (decide (i = initial_variant)) as [->|N]; [rewrite lookup_insert; eauto|rewrite lookup_insert_ne by done; done].
          + intros j Hj. destruct (decide (i = j)) as [->|N]; [rewrite lookup_insert; eauto|rewrite lookup_insert_ne by done; auto].
        - cbn. intros g Hg. destruct (decide (g = k)) as [->|N]; [lia|]. rewrite lookup_insert_ne in Hg by done. apply B2 in Hg. fold s in Hg. fold k in Hg. lia.
        - intros j u q g Hj Hq. destruct (Back j u Hj) as (u0 & Hu0 & _ & HQ). cbn. destruct (HQ q) as [E|(_ & _ & E)].
          + rewrite E in Hq. destruct (decide (g = k)) as [->|N]; [by destruct (Hfr _ _ _ Hu0 Hq)|]. rewrite lookup_insert_ne by done. eauto.
          + rewrite E in Hq. injection Hq as <-. rewrite lookup_insert. eauto.
        - intros j j' u u' q q' g Hj Hj' Hq Hq'. destruct (Back j u Hj) as (u0 & Hu0 & _ & HQ), (Back j' u' Hj') as (u0' & Hu0' & _ & HQ').
          destruct (HQ q) as [E|(-> & -> & E)], (HQ' q') as [E'|(-> & -> & E')].
          + rewrite E in Hq. rewrite E' in Hq'. eauto.
          + exfalso. eapply (Hfr j u0 q); [done|]. congruence.
          + exfalso. eapply (Hfr j' u0' q'); [done|]. congruence.
          + done.
        - intros j u x Hj. destruct (Back j u Hj) as (u0 & Hu0 & (Et & _) & _). rewrite Et. cbn. by eapply B5.
        - intros j u x y g Hj Hq. destruct (Back j u Hj) as (u0 & Hu0 & _ & HQ). cbn. destruct (HQ (x, y)) as [E|(_ & [= -> ->] & _)]; [|done]. rewrite E in Hq. eauto.
        - intros j u Hj. destruct (Back j u Hj) as (u0 & Hu0 & Gu & _). eapply entries_grows; [exact G|exact Gu|]. eauto. }
      split; [done|]. split; [cbn; by rewrite lookup_insert|]. split; [cbn; by rewrite lookup_insert|]. split; [cbn; rewrite lookup_insert; eauto|].
      intros P D [F1 F2 F3]. split.
      + intros j u x y g t' Hj Hq Ht' ND. destruct (Back j u Hj) as (u0 & Hu0 & (Et & _) & HQ). rewrite Et in Ht'. cbn. destruct (HQ (x, y)) as [E|(-> & [= -> ->] & E)].
        * rewrite E in Hq. rewrite lookup_insert_ne; [eauto|]. intros <-. by destruct (Hfr _ _ _ Hu0 Hq).
        * rewrite E in Hq. injection Hq as <-. rewrite Hi in Hu0. injection Hu0 as <-. rewrite Ht in Ht'. injection Ht' as <-. by rewrite lookup_insert.
      + intros j u Hj ND. destruct (Back j u Hj) as (u0 & Hu0 & Gu & _). eapply complete_grows; [exact G|exact Gu|]. eauto.
      + intros HP j u Hj. destruct (Back j u Hj) as (u0 & Hu0 & Gu & _). destruct (F3 HP j u0 Hu0). split; [eapply entries_grows|eapply complete_grows]; eauto.
  Qed.

  (** ** The cache of the network *)
  Definition entries_of (vw : view) (st : st_t) (v : vvar T) (m : gmap string (nat * string)) : Prop := forall id a, m !! id = Some a ->
    a.2 = id /\ exists vl b nb, vs_nb (e_sh st) !! vl = Some nb /\ in_view vw nb = true /\ vv_lev v !! (vl, vw) = Some a.1 /\ vs_heap (e_sh st) !! a.1 = Some b /\ is_Some (b !! id).
  Lemma entries_of_grows vw st st' v v' m : grows st st' -> grows_var v v' -> entries_of vw st v m -> entries_of vw st' v' m.
  Proof using.
    intros [] (?&L&B1&B2) E id a Ha. destruct (E id a Ha) as (? & vl & b & nb & Hnb & Hvw & H1 & H2 & ?). split; [done|]. exists vl, b, nb.
    split; [congruence|]. split; [done|]. split; [by eapply lookup_weaken|]. split; [by eapply lookup_weaken|done].
  Qed.
  Lemma fill_ok vw l : forall m st i v, base st -> e_cur st = Some i -> e_vars st !! i = Some v -> (forall vl nb, (vl, nb) ∈ l -> vs_nb (e_sh st) !! vl = Some nb) ->
    entries_of vw st v m ->
    exists m' st' v', fill calc vw l m st = (Ok m', st') /\ base st' /\ grows st st' /\ e_vars st' !! i = Some v' /\ entries_of vw st' v' m' /\ m ⊆ m' /\
      (forall vl nb, (vl, nb) ∈ l -> in_view vw nb = true -> exists g b, vv_lev v' !! (vl, vw) = Some g /\ vs_heap (e_sh st') !! g = Some b /\ forall id, is_Some (b !! id) -> is_Some (m' !! id)) /\
      (forall P D, fresh P D st -> fresh P D st').
  Proof using.
    induction l as [|[vl nb] l IH]; intros m st i v B Hc Hi Hl E; cbn [fill].
    - exists m, st, v. split; [done|]. split; [done|]. split; [apply grows_refl|]. split; [done|]. split; [done|]. split; [done|]. split; [|done].
      intros ? ? H. by apply elem_of_nil in H.
    - destruct (in_view vw nb) eqn:Ev.
      + destruct (level_cache_ok vw vl st i v B Hc Hi) as (g & st1 & v1 & E1 & B1 & G1 & Hi1 & L1 & [b Hb] & F1); [exists nb; apply Hl; by left|].
        rewrite (abind_Ok _ _ _ _ _ E1). unfold abind at 1, ashared at 1. rewrite Hb.
        destruct (grows_at _ _ _ _ G1 Hi) as (v1' & Hv1 & Gv1). rewrite Hi1 in Hv1. injection Hv1 as <-.
        destruct (IH (m ∪ map_imap (fun id _ => Some (g, id)) b) st1 i v1 B1) as (m' & st' & v' & E2 & B2 & G2 & Hi2 & En & Hs & HA & F2).
        { by rewrite (g_cur _ _ G1). }
        { done. }
        { intros x y Hx. rewrite (g_nb _ _ G1). eapply Hl. by right. }
        { intros id a [Ha|[_ Ha]]%lookup_union_Some_raw.
          - by eapply entries_of_grows.
          - rewrite map_lookup_imap in Ha. destruct (b !! id) eqn:Eb; [|done]. cbn in Ha. injection Ha as <-. split; [done|]. exists vl, b, nb. split; [rewrite (g_nb _ _ G1); apply Hl; by left|]. split; [done|]. split; [done|]. split; [done|]. by rewrite Eb. }
        exists m', st', v'. split; [exact E2|]. split; [done|]. split; [by eapply grows_trans|]. split; [done|]. split; [done|].
        assert (m ⊆ m ∪ map_imap (fun id (_ : C) => Some (g, id)) b) as Hsu by apply map_union_subseteq_l.
        split; [by etrans|]. split.
        { intros x y [[= -> ->]|Hx]%elem_of_cons Hy; [|by eapply HA].
          destruct (grows_at _ _ _ _ G2 Hi1) as (v2 & Hv2 & (_ & L2 & _)). rewrite Hi2 in Hv2. injection Hv2 as <-. exists g, b. split; [by eapply lookup_weaken|].
          split; [eapply lookup_weaken; [exact Hb|apply (g_heap _ _ G2)]|]. intros id [c Hcx].
          assert (is_Some ((m ∪ map_imap (fun id (_ : C) => Some (g, id)) b) !! id)) as [a Ha].
          { apply lookup_union_is_Some. right. rewrite map_lookup_imap, Hcx. cbn. eauto. }
          exists a. by eapply lookup_weaken. }
        auto.
      + destruct (IH m st i v B Hc Hi) as (m' & st' & v' & E2 & B2 & G2 & Hi2 & En & Hs & HA & F2); [|done|].
        { intros x y Hx. eapply Hl. by right. }
        exists m', st', v'. split; [exact E2|]. split; [done|]. split; [done|]. split; [done|]. split; [done|]. split; [done|]. split; [|done].
        intros x y [[= -> ->]|Hx]%elem_of_cons Hy; [congruence|by eapply HA].
  Qed.

  (** Caches appear, nothing else changes. *)
  Record swells (st st' : st_t) : Prop := mkSwells {
    w_nb : vs_nb (e_sh st') = vs_nb (e_sh st);
    w_conf : vs_conf (e_sh st') = vs_conf (e_sh st);
    w_cur : e_cur st' = e_cur st;
    w_heap : vs_heap (e_sh st) ⊆ vs_heap (e_sh st');
    w_vars : forall j, option_Forall2 (fun v v' => vv_topo v' = vv_topo v /\ vv_lev v ⊆ vv_lev v') (e_vars st !! j) (e_vars st' !! j) }.
  Lemma grows_swells st st' : grows st st' -> swells st st'.
  Proof using. intros []. split; try done. intros j. destruct (g_vars0 j) as [x y (? & ? & _)|]; by constructor. Qed.
  Lemma swells_refl st : swells st st.
  Proof using. apply grows_swells, grows_refl. Qed.
  Lemma swells_only st st' : swells st st' -> only_caches st st'.
  Proof using.
    intros []. split; [done|]. split; [done|]. split; [done|]. intros i. specialize (w_vars0 i). destruct w_vars0 as [x y (H & _)|]; cbn; congruence.
  Qed.
  Lemma swells_ref st st' i vl vw a c : swells st st' -> bus_ref st i vl vw a c -> bus_ref st' i vl vw a c.
  Proof using.
    intros [] (v & m & H1 & H2 & H3 & H4). specialize (w_vars0 i). rewrite H1 in w_vars0. inversion w_vars0 as [x y (? & L) E1 E2|]; subst.
    exists y, m. split; [done|]. split; [by eapply lookup_weaken|]. split; [by eapply lookup_weaken|done].
  Qed.

  Lemma net_cached_set vw c (v : vvar T) : net_cached vw (net_set vw c v) = c.
  Proof using. by destruct vw. Qed.
  Lemma net_set_topo vw c (v : vvar T) : vv_topo (net_set vw c v) = vv_topo v.
  Proof using. by destruct vw. Qed.
  Lemma net_set_lev vw c (v : vvar T) : vv_lev (net_set vw c v) = vv_lev v.
  Proof using. by destruct vw. Qed.
  Lemma base_ewf_insert (st : st_t) i v (sh : vsh C) : ewf st -> ewf (mkE sh (<[i := v]> (e_vars st)) (e_cur st)).
  Proof using.
    intros [W1 W2]. split; cbn.
    - destruct (decide (i = initial_variant)) as [->|N]; [rewrite lookup_insert; eauto|by rewrite lookup_insert_ne].
    - intros j Hj. destruct (decide (i = j)) as [->|N]; [rewrite lookup_insert; eauto|rewrite lookup_insert_ne by done; auto].
  Qed.

  (** ** Names *)
  Fixpoint has_us (s : string) : bool := match s with "" => false | String c s' => bool_decide (c = "_"%char) || has_us s' end.
  Lemma has_us_app a b : has_us (a +:+ String "_" b) = true.
  Proof using. induction a as [|c a IH]; [done|]. change (String c a +:+ String "_" b) with (String c (a +:+ String "_" b)). cbn [has_us]. rewrite IH. by rewrite orb_true_r. Qed.
  Lemma go_us (x : N) s : has_us s = false -> has_us (pretty_N_go x s) = false.
  Proof using.
    revert s. induction (N.lt_wf_0 x) as [x _ IH]; intros s Hs. destruct (decide (0 < x)%N) as [P|P].
    - rewrite pretty_N_go_step by done. apply IH; [by apply N.div_lt|]. cbn [has_us]. rewrite Hs. unfold pretty_N_char. by repeat case_match.
    - assert (x = 0%N) as -> by lia. by rewrite pretty_N_go_0.
  Qed.
  Lemma pretty_us (n : N) : has_us (pretty n) = false.
  Proof using. unfold pretty, pretty_N. destruct (decide _); [done|]. by apply go_us. Qed.
  Lemma name_level a : forall b (n k : N), a +:+ "_" +:+ pretty n = b +:+ "_" +:+ pretty k -> a = b.
  Proof using.
    induction a as [|c a IH]; intros [|d b] n k H; [done| | |].
    - exfalso. change ("" +:+ "_" +:+ pretty n) with (String "_" (pretty n)) in H.
      change (String d b +:+ "_" +:+ pretty k) with (String d (b +:+ String "_" (pretty k))) in H. injection H as _ H. pose proof (pretty_us n) as U. rewrite H in U. by rewrite has_us_app in U.
    - exfalso. change ("" +:+ "_" +:+ pretty k) with (String "_" (pretty k)) in H.
      change (String c a +:+ "_" +:+ pretty n) with (String c (a +:+ String "_" (pretty n))) in H. injection H as _ H. pose proof (pretty_us k) as U. rewrite <- H in U. by rewrite has_us_app in U.
    - change (String c a +:+ "_" +:+ pretty n) with (String c (a +:+ "_" +:+ pretty n)) in H.
      change (String d b +:+ "_" +:+ pretty k) with (String d (b +:+ "_" +:+ pretty k)) in H. injection H as -> H. f_equal. by eapply IH.
  Qed.
  Lemma named_level vw vw' vl vl' t t' id : named calc -> is_Some (calc vw vl t !! id) -> is_Some (calc vw' vl' t' !! id) -> vl = vl'.
  Proof using. intros N [n H1]%N [n' H2]%N. rewrite H1 in H2. by eapply name_level. Qed.

  (** ** The cache of the network *)
  Lemma net_cache_ok vw st i v : base st -> e_cur st = Some i -> e_vars st !! i = Some v ->
    exists m st' v', net_cache calc vw st = (Ok m, st') /\ base st' /\ swells st st' /\ e_vars st' !! i = Some v' /\ net_cached vw v' = Some m /\
      (vw = BusView -> vv_bb v' = vv_bb v) /\
      (named calc -> forall P, fresh P clean st -> fresh P clean st').
  Proof using.
    intros B Hc Hi. unfold net_cache. rewrite (abind_Ok _ _ _ _ _ (aget_here _ _ _ Hc Hi)).
    destruct (net_cached vw v) as [m|] eqn:Em.
    { exists m, st, v. split; [done|]. split; [done|]. split; [apply swells_refl|]. done. }
    rewrite (abind_Ok ashared _ st (e_sh st) st eq_refl).
    destruct (fill_ok vw (map_to_list (vs_nb (e_sh st))) ∅ st i v B Hc Hi) as (m & st1 & v1 & E1 & B1 & G1 & Hi1 & En & _ & HA & F1).
    { intros vl nb H%elem_of_map_to_list. done. }
    { intros id a Ha. by rewrite lookup_empty in Ha. }
    rewrite (abind_Ok _ _ _ _ _ E1). assert (e_cur st1 = Some i) as Hc1 by (by rewrite (g_cur _ _ G1)).
    rewrite (abind_Ok _ _ _ _ _ (aget_here _ _ _ Hc1 Hi1)). rewrite (abind_Ok _ _ _ _ _ (aput_here _ _ _ _ Hc1 Hi1)).
    set (w := net_set vw (Some m) v1). set (st' := mkE _ _ _).
    assert (forall j u, e_vars st' !! j = Some u -> j = i /\ u = w \/ j <> i /\ e_vars st1 !! j = Some u) as Back.
    { intros j u. unfold st'. cbn [e_vars]. intros [[<- <-]|[Nj Hj]]%lookup_insert_Some; [by left|right]. by split. }
    assert (forall j u, e_vars st' !! j = Some u -> exists u0, e_vars st1 !! j = Some u0 /\ vv_topo u = vv_topo u0 /\ vv_lev u = vv_lev u0) as Back2.
    { intros j u [[-> ->]|[_ H]]%Back; [|by exists u]. exists v1. split; [done|]. unfold w. by rewrite net_set_topo, net_set_lev. }
    assert (entries vw st' w) as Ew. { intros m' id a Hm' Ha. unfold w in *. rewrite net_cached_set in Hm'. injection Hm' as <-. rewrite net_set_lev. by apply En. }
    exists m, st', w. split; [done|]. split.
    { destruct B1 as [W1 B2 B3 B4 B5 B6 B7]. split.
      - by apply base_ewf_insert.
      - done.
      - intros j u k g Hj Hk. destruct (Back2 j u Hj) as (u0 & H1 & H2 & H3). rewrite H3 in Hk. by eapply B3.
      - intros j j' u u' k k' g Hj Hj' Hk Hk'. destruct (Back2 j u Hj) as (u0 & H1 & H2 & H3). destruct (Back2 j' u' Hj') as (u0' & H1' & H2' & H3').
        rewrite H3 in Hk. rewrite H3' in Hk'. by eapply (B4 j j' u0 u0').
      - intros j u vl Hj. destruct (Back2 j u Hj) as (u0 & H1 & H2 & H3). rewrite H2. by apply (B5 j u0).
      - intros j u vl vw' g Hj Hk. destruct (Back2 j u Hj) as (u0 & H1 & H2 & H3). rewrite H3 in Hk. by eapply B6.
      - intros j u [[-> ->]|[_ Hj]]%Back; [|by apply (B7 j)]. destruct vw; [done|]. intros m' id a Hm' Ha. destruct (B7 i v1 Hi1 m' id a Hm' Ha) as (? & vl & b & nb & ? & ? & ? & ? & ?). split; [done|]. exists vl, b, nb. done. }
    assert (swells st st') as SW.
    { destruct (grows_swells _ _ G1) as [S1 S2 S3 S4 S5]. split; try done. intros j. unfold st'. cbn [e_vars]. destruct (decide (j = i)) as [->|Nj].
      - rewrite lookup_insert. specialize (S5 i). rewrite Hi, Hi1 in S5. rewrite Hi. constructor. inversion S5; subst. unfold w. by rewrite net_set_topo, net_set_lev.
      - by rewrite lookup_insert_ne. }
    split; [exact SW|]. split; [unfold st'; cbn [e_vars]; by rewrite lookup_insert|]. split; [apply net_cached_set|].
    destruct (grows_at _ _ _ _ G1 Hi) as (v1' & Hv1 & (Gt & _ & _ & Gb)). rewrite Hi1 in Hv1. injection Hv1 as <-.
    split; [intros ->; exact Gb|].
    intros N P F. destruct (F1 P clean F) as [Fa Fb Fc]. 
    assert (complete vw st' w) as Cw.
    { intros m' vl nb t id c Hm' Hnb Hin Ht Hcalc. unfold w in *. rewrite net_cached_set in Hm'. injection Hm' as <-. rewrite net_set_topo in Ht. rewrite net_set_lev.
      change (vs_nb (e_sh st')) with (vs_nb (e_sh st1)) in Hnb. destruct (HA vl nb) as (g & b & Hg & Hb & Hid); [|done|].
      { apply elem_of_map_to_list. by rewrite <- (g_nb _ _ G1). }
      assert (b = calc vw vl t) as ->. { pose proof (Fa i v1 vl vw g t Hi1 Hg Ht (fun H => H)) as H. congruence. }
      destruct (Hid id) as [a Ha]; [eauto|]. exists g. split; [done|]. destruct (En id a Ha) as (Ea & vl' & b' & nb' & _ & _ & Hl' & Hb' & Hid').
      destruct (proj2 (b_topo _ B1 i v1 vl' Hi1) (b_lev _ B1 _ _ _ _ _ Hi1 Hl')) as [t' Ht'].
      assert (b' = calc vw vl' t') as ->. { pose proof (Fa i v1 vl' vw _ t' Hi1 Hl' Ht' (fun H => H)) as H. congruence. }
      assert (vl = vl') as <-. { apply (named_level vw vw vl vl' t t' id N); [by rewrite Hcalc|done]. }
      destruct a as [a1 a2]. cbn [fst snd] in *. rewrite Hg in Hl'. injection Hl' as ->. by subst. }
    split.
    - intros j u vl vw' g t Hj Hk Ht _. destruct (Back2 j u Hj) as (u0 & H1 & H2 & H3). rewrite H2 in Ht. rewrite H3 in Hk. exact (Fa j u0 vl vw' g t H1 Hk Ht (fun H => H)).
    - intros j u [[-> ->]|[_ Hj]]%Back _; [|exact (Fb j u Hj (fun _ H => H))]. destruct vw; [exact Cw|]. exact (Fb i v1 Hi1 (fun _ H => H)).
    - intros HP j u [[-> ->]|[_ Hj]]%Back; [|by apply (Fc HP j)]. destruct vw; [|by split]. exact (Fc HP i v1 Hi1).
  Qed.

  (** ** Steps that drop caches *)
  Definition blank (v : vvar T) : Prop := vv_lev v = ∅ /\ vv_bus v = None /\ vv_bb v = None.
  Definition data_same (st st' : st_t) (u u' : vvar T) : Prop := vv_lev u' = vv_lev u /\ forall vl nb t, vs_nb (e_sh st') !! vl = Some nb -> vv_topo u' !! vl = Some t ->
    vs_nb (e_sh st) !! vl = Some nb /\ vv_topo u !! vl = Some t \/ forall vw, calc vw vl t = ∅.
  Definition owned_same (st st' : st_t) : Prop := forall j u' k g, e_vars st' !! j = Some u' -> vv_lev u' !! k = Some g -> vs_heap (e_sh st') !! g = vs_heap (e_sh st) !! g.
  Lemma base_sub st st' : base st -> ewf st' -> (forall vl nb, vs_nb (e_sh st) !! vl = Some nb -> vs_nb (e_sh st') !! vl = Some nb) ->
    vs_next (e_sh st') = vs_next (e_sh st) -> vs_heap (e_sh st') ⊆ vs_heap (e_sh st) -> owned_same st st' ->
    (forall j u' vl, e_vars st' !! j = Some u' -> is_Some (vv_topo u' !! vl) <-> is_Some (vs_nb (e_sh st') !! vl)) ->
    (forall j u', e_vars st' !! j = Some u' -> blank u' \/ exists u, e_vars st !! j = Some u /\ vv_lev u' ⊆ vv_lev u /\ (vv_bus u' = None \/ vv_bus u' = vv_bus u /\ vv_lev u' = vv_lev u)) ->
    base st'.
  Proof using.
    intros [W B2 B3 B4 B5 B6 B7] W' HN Hx Hh HO HT HV.
    assert (forall j u' k g, e_vars st' !! j = Some u' -> vv_lev u' !! k = Some g -> exists u, e_vars st !! j = Some u /\ vv_lev u !! k = Some g) as HL.
    { intros j u' k g Hj Hk. destruct (HV j u' Hj) as [(E & _)|(u & Hu & L & _)]; [by rewrite E, lookup_empty in Hk|]. exists u. split; [done|]. by eapply lookup_weaken. }
    split.
    - done.
    - intros g [x Hg]. rewrite Hx. apply B2. exists x. by eapply lookup_weaken.
    - intros j u' k g Hj Hk. rewrite (HO _ _ _ _ Hj Hk). destruct (HL _ _ _ _ Hj Hk) as (u & ? & ?). eauto.
    - intros j j' u u' k k' g Hj Hj' Hk Hk'. destruct (HL _ _ _ _ Hj Hk) as (w & ? & ?). destruct (HL _ _ _ _ Hj' Hk') as (w' & ? & ?). by eapply (B4 j j' w w').
    - done.
    - intros j u vl vw g Hj Hk. destruct (HL _ _ _ _ Hj Hk) as (w & ? & ?). destruct (B6 j w vl vw g) as [? ?]; eauto.
    - intros j u' Hj m id a Hm Ha. destruct (HV j u' Hj) as [(_ & E & _)|(u & Hu & L & [E|[E El]])]; [cbn in Hm; congruence..|].
      destruct (B7 j u Hu m id a) as (H1 & vl & b & nb & Hnb & Hvw & H2 & H3 & H4); [cbn in *; congruence|done|]. split; [done|]. exists vl, b, nb. rewrite El. split; [by apply HN|]. split; [done|]. split; [done|]. split; [|done].
      rewrite (HO j u' (vl, BusView) a.1 Hj); [done|]. by rewrite El.
  Qed.
  Lemma fresh_sub (P : Prop) (D D' : string -> string -> Prop) st st' : fresh P D st -> owned_same st st' -> (forall vl nb, vs_nb (e_sh st) !! vl = Some nb -> vs_nb (e_sh st') !! vl = Some nb) ->
    (forall j u', e_vars st' !! j = Some u' -> blank u' \/ exists u, e_vars st !! j = Some u /\ vv_lev u' ⊆ vv_lev u /\
      (forall vl vw g, vv_lev u' !! (vl, vw) = Some g -> ~ D' j vl -> vv_topo u' !! vl = vv_topo u !! vl /\ ~ D j vl) /\
      (vv_bus u' = None \/ vv_bus u' = vv_bus u /\ ((forall vl, ~ D' j vl) -> (forall vl, ~ D j vl) /\ data_same st st' u u')) /\
      (P -> vv_bb u' = None \/ vv_bb u' = vv_bb u /\ data_same st st' u u')) ->
    fresh P D' st'.
  Proof using.
    intros [F1 F2 F3] HO HN HV.
    assert (forall vw u u', net_cached vw u' = net_cached vw u -> data_same st st' u u' -> complete vw st u -> complete vw st' u') as HC.
    { intros vw u u' E (El & HD) Hcomp m vl nb t id c Hm Hn Hin Ht Hcalc. rewrite E in Hm. destruct (HD vl nb t Hn Ht) as [[Hn' Ht']|He]; [|by rewrite He, lookup_empty in Hcalc].
      rewrite El. by eapply Hcomp. }
    split.
    - intros j u' vl vw g t Hj Hk Ht ND. rewrite (HO _ _ _ _ Hj Hk). destruct (HV j u' Hj) as [(E & _)|(u & Hu & L & Ha & _)]; [by rewrite E, lookup_empty in Hk|].
      destruct (Ha vl vw g Hk ND) as [Et ND']. rewrite Et in Ht. eapply F1; [exact Hu| |exact Ht|exact ND']. by eapply lookup_weaken.
    - intros j u' Hj ND. destruct (HV j u' Hj) as [(_ & E & _)|(u & Hu & L & _ & [E|[E Hd]] & _)]; [intros m ? ? ? ? ? Hm; cbn in Hm; congruence..|].
      destruct (Hd ND) as [ND' DS]. apply (HC BusView u u'); [done|done|]. by apply (F2 j).
    - intros HP j u' Hj. destruct (HV j u' Hj) as [(_ & _ & E)|(u & Hu & L & _ & _ & Hb)]; [split; [intros m ? ? Hm|intros m ? ? ? ? ? Hm]; cbn in Hm; congruence|].
      destruct (Hb HP) as [E|[E DS]]; [split; [intros m ? ? Hm|intros m ? ? ? ? ? Hm]; cbn in Hm; congruence|]. destruct (F3 HP j u Hu) as [Fe Fc]. split.
      + intros m id a Hm Ha. cbn in Hm. rewrite E in Hm. destruct (Fe m id a Hm Ha) as (H1 & vl & b & nb & Hnb & Hvw & H2 & H3 & H4). split; [done|]. exists vl, b, nb. destruct DS as [El _]. rewrite El. split; [by apply HN|]. split; [done|]. split; [done|]. split; [|done].
        rewrite (HO j u' (vl, BusBreakerView) a.1 Hj); [done|]. by rewrite El.
      + apply (HC BusBreakerView u u'); done.
  Qed.

  Lemma drop_lookup o (h : gmap nat (gmap string C)) g : drop o h !! g = if bool_decide (o = Some g) then None else h !! g.
  Proof using.
    destruct o as [k|]; cbn; [|done]. case_bool_decide as E; [injection E as ->; apply lookup_delete|]. apply lookup_delete_ne. congruence.
  Qed.
  Lemma invalidate_eq vl (st : st_t) i v : e_cur st = Some i -> e_vars st !! i = Some v ->
    invalidate vl st = (Ok tt, mkE (mkVS (vs_nb (e_sh st)) (vs_conf (e_sh st)) (drop (vv_lev v !! (vl, BusView)) (drop (vv_lev v !! (vl, BusBreakerView)) (vs_heap (e_sh st)))) (vs_next (e_sh st)))
      (<[i := mkVV (vv_topo v) (delete (vl, BusView) (delete (vl, BusBreakerView) (vv_lev v))) None (vv_bb v)]> (e_vars st)) (e_cur st)).
  Proof using.
    intros Hc Hi. unfold invalidate. rewrite (abind_Ok _ _ _ _ _ (aget_here _ _ _ Hc Hi)). unfold abind at 1, ashared at 1. unfold abind at 1, aset at 1.
    by rewrite (aput_here _ i v).
  Qed.
  Lemma dropped_sub o o' (h : gmap nat (gmap string C)) : drop o (drop o' h) ⊆ h.
  Proof using. apply map_subseteq_spec. intros g b. rewrite !drop_lookup. by repeat case_bool_decide. Qed.
  (** The state after a level changed and its caches were dropped in one variant. *)
  Definition changed (vl : string) (f : vvar T -> gmap string T) (st : st_t) (i : string) (v : vvar T) : st_t :=
    mkE (mkVS (vs_nb (e_sh st)) (vs_conf (e_sh st)) (drop (vv_lev v !! (vl, BusView)) (drop (vv_lev v !! (vl, BusBreakerView)) (vs_heap (e_sh st)))) (vs_next (e_sh st)))
      (<[i := mkVV (f v) (delete (vl, BusView) (delete (vl, BusBreakerView) (vv_lev v))) None (vv_bb v)]> (e_vars st)) (e_cur st).
  Lemma kept_lookup (vl : string) (L : gmap (string * view) nat) (x : string) (vw : view) (g : nat) : delete (vl, BusView) (delete (vl, BusBreakerView) L) !! (x, vw) = Some g <-> L !! (x, vw) = Some g /\ x <> vl.
  Proof using.
    rewrite !lookup_delete_Some. split.
    - intros (N1 & N2 & H). split; [done|]. intros ->. by destruct vw.
    - intros (H & N). split; [congruence|]. split; [congruence|done].
  Qed.
  Lemma changed_back vl f st i v j u' : e_vars st !! i = Some v -> e_vars (changed vl f st i v) !! j = Some u' ->
    exists u, e_vars st !! j = Some u /\ (j = i /\ u = v /\ u' = mkVV (f v) (delete (vl, BusView) (delete (vl, BusBreakerView) (vv_lev v))) None (vv_bb v) \/ j <> i /\ u' = u).
  Proof using.
    intros Hi. unfold changed. cbn [e_vars]. intros [[<- <-]|[Nj Hj]]%lookup_insert_Some; [exists v; split; [done|]; by left|]. exists u'. split; [done|]. by right.
  Qed.
  Lemma changed_owned vl f st i v : base st -> e_vars st !! i = Some v -> owned_same st (changed vl f st i v).
  Proof using.
    intros B Hi j u' [x vw] g Hj Hk. unfold changed. cbn [e_sh vs_heap]. rewrite !drop_lookup.
    destruct (changed_back _ _ _ _ _ _ _ Hi Hj) as (u & Hu & D).
    assert (vv_lev u !! (x, vw) = Some g /\ (j = i -> x <> vl)) as [Hg HN].
    { destruct D as [(-> & -> & ->)|(N & ->)]; [|done]. cbn [vv_lev] in Hk. apply kept_lookup in Hk as [? ?]. done. }
    rewrite !bool_decide_eq_false_2; [done|..]; intros E; destruct (b_uniq _ B _ _ _ _ _ _ _ Hi Hu E Hg) as [-> [= -> _]]; by apply HN.
  Qed.
  Lemma changed_base vl f st i v : base st -> e_vars st !! i = Some v -> (forall x, is_Some (f v !! x) <-> is_Some (vs_nb (e_sh st) !! x)) -> base (changed vl f st i v).
  Proof using.
    intros B Hi HT. apply (base_sub st); try done.
    - apply base_ewf_insert. apply B.
    - apply dropped_sub.
    - by apply changed_owned.
    - intros j u' x Hj. destruct (changed_back _ _ _ _ _ _ _ Hi Hj) as (u & Hu & [(-> & -> & ->)|(N & ->)]); [apply HT|]. by apply (b_topo _ B j).
    - intros j u' Hj. right. destruct (changed_back _ _ _ _ _ _ _ Hi Hj) as (u & Hu & D). exists u. split; [done|]. destruct D as [(-> & -> & ->)|(N & ->)].
      + cbn [vv_lev vv_bus]. split; [|by left]. etrans; apply delete_subseteq.
      + split; [done|]. by right.
  Qed.
  Lemma changed_fresh vl f st i v (P : Prop) (D : string -> string -> Prop) : base st -> e_vars st !! i = Some v -> (P -> vv_bb v = None) -> (forall x, x <> vl -> f v !! x = vv_topo v !! x) ->
    fresh P D st -> fresh P (fun j x => D j x /\ ~ (j = i /\ x = vl)) (changed vl f st i v).
  Proof using.
    intros B Hi HP HT F. apply (fresh_sub P D _ st); [done|by apply changed_owned|done|].
    intros j u' Hj. right. destruct (changed_back _ _ _ _ _ _ _ Hi Hj) as (u & Hu & Ds). exists u. split; [done|].
    destruct Ds as [(-> & -> & ->)|(N & ->)]; cbn [vv_lev vv_bus vv_topo vv_bb].
    - split; [etrans; apply delete_subseteq|]. split; [|split; [by left|intros H; left; auto]].
      intros x vw g Hk ND. apply kept_lookup in Hk as [Hk Nx]. split; [by apply HT|]. intros Hd. apply ND. split; [done|]. by intros [_ ?].
    - assert (data_same st (changed vl f st i v) u u) as DS. { split; [done|]. intros x nb t Hn Ht. by left. }
      assert (forall x, ~ (D j x /\ ~ (j = i /\ x = vl)) -> ~ D j x) as ND. { intros x H Hd. apply H. split; [done|]. by intros [-> _]. }
      split; [done|]. split; [|split; [right; split; [done|]|by right]].
      + intros x vw g Hk H. split; [done|by apply ND].
      + intros H. split; [intros x; by apply ND|done].
  Qed.
  Lemma invalidate_changed vl (st : st_t) i v : e_cur st = Some i -> e_vars st !! i = Some v -> invalidate vl st = (Ok tt, changed vl vv_topo st i v).
  Proof using. apply invalidate_eq. Qed.

  (** ** Every variant *)
  Lemma loop_ok vl l : forall (st : st_t), base st -> NoDup l -> (forall i, i ∈ l -> is_Some (e_vars st !! i)) -> 
    exists st', foreach_loop (invalidate vl) l st = (Ok tt, st') /\ base (mkE (e_sh st') (e_vars st') (e_cur st)) /\
      (forall j, is_Some (e_vars st' !! j) <-> is_Some (e_vars st !! j)) /\
      vs_nb (e_sh st') = vs_nb (e_sh st) /\ vs_conf (e_sh st') = vs_conf (e_sh st) /\
      (forall j u, e_vars st !! j = Some u -> exists u', e_vars st' !! j = Some u' /\ vv_topo u' = vv_topo u /\ vv_bb u' = vv_bb u /\
         (forall x vw, x <> vl -> vv_lev u' !! (x, vw) = vv_lev u !! (x, vw)) /\ (forall vw, j ∈ l -> vv_lev u' !! (vl, vw) = None) /\
         (forall x vw g, vv_lev u !! (x, vw) = Some g -> vs_heap (e_sh st') !! g = if bool_decide (x = vl /\ j ∈ l) then None else vs_heap (e_sh st) !! g)) /\
      (forall (P : Prop) (D : string -> string -> Prop), (P -> forall i v, e_vars st !! i = Some v -> vv_bb v = None) -> fresh P D st -> fresh P (fun j x => D j x /\ ~ (j ∈ l /\ x = vl)) (mkE (e_sh st') (e_vars st') (e_cur st))).
  Proof using.
    induction l as [|i l IH]; intros st B ND Hl; cbn [foreach_loop].
    - exists st. split; [done|]. split; [by destruct st|]. split; [done|]. split; [done|]. split; [done|]. split.
      + intros j u Hu. exists u. split; [done|]. split; [done|]. split; [done|]. split; [done|]. split; [intros vw H; by apply elem_of_nil in H|].
        intros x vw g Hg. rewrite bool_decide_eq_false_2; [done|]. intros [_ H]. by apply elem_of_nil in H.
      + intros P D _ F. destruct st. eapply (fresh_sub P D _ _ _ F); [done|done|]. intros j u' Hj. right. exists u'. split; [done|]. split; [done|].
        split; [|split; [right; split; [done|]; intros H; split|right; split; [done|]]].
        * intros x vw g Hk H. split; [done|]. intros Hd. apply H. split; [done|]. intros [Hx _]. by apply elem_of_nil in Hx.
        * intros x Hd. apply (H x). split; [done|]. intros [Hx _]. by apply elem_of_nil in Hx.
        * split; [done|]. intros; by left.
        * split; [done|]. intros; by left.
    - apply NoDup_cons in ND as [Ni ND]. destruct (Hl i) as [v Hi]; [by left|].
      assert (base (mkE (e_sh st) (e_vars st) (Some i))) as Bi.
      { destruct B as [[W1 W2] B2 B3 B4 B5 B6 B7]. split; try done. split; [done|]. cbn. intros j [= <-]. by rewrite Hi. }
      rewrite (invalidate_changed vl (mkE (e_sh st) (e_vars st) (Some i)) i v eq_refl Hi).
      set (st1 := changed vl vv_topo _ i v).
      assert (base st1) as B1. { apply changed_base; [done|done|]. intros x. by apply (b_topo _ B i). }
      assert (forall j, is_Some (e_vars st1 !! j) <-> is_Some (e_vars st !! j)) as HS.
      { intros j. unfold st1, changed. cbn [e_vars]. destruct (decide (i = j)) as [->|N]; [rewrite lookup_insert, Hi; split; eauto|by rewrite lookup_insert_ne]. }
      destruct (IH st1 B1 ND) as (st' & E & B' & S' & N' & Cf' & V' & F').
      { intros j Hj. apply HS, Hl. by right. }
      exists st'. split; [exact E|].
      assert (base (mkE (e_sh st') (e_vars st') (e_cur st))) as B2.
      { destruct B' as [[W1 W2] C2 C3 C4 C5 C6 C7]. split; try done. split; [done|]. cbn. intros j Hj. apply S', HS. destruct B as [[_ W] _ _ _ _ _ _]. auto. }
      split; [done|]. split; [intros j; by rewrite S', HS|]. split; [done|]. split; [done|].
      split.
      + intros j u Hu. destruct (decide (j = i)) as [->|Nj].
        * rewrite Hi in Hu. injection Hu as <-.
          destruct (V' i (mkVV (vv_topo v) (delete (vl, BusView) (delete (vl, BusBreakerView) (vv_lev v))) None (vv_bb v))) as (u' & Hu' & T' & Bb' & L1 & L2 & H').
          { unfold st1, changed. cbn [e_vars]. by rewrite lookup_insert. }
          cbn [vv_topo vv_lev vv_bb] in *.
          exists u'. split; [done|]. split; [done|]. split; [done|]. split; [|split].
          -- intros x vw Nx. rewrite L1 by done. rewrite !lookup_delete_ne by congruence. done.
          -- intros vw _. destruct (vv_lev u' !! (vl, vw)) as [g|] eqn:Eg; [|done]. exfalso.
             destruct (decide (i ∈ l)) as [?|_]; [done|].
             assert (forall l' (s s' : st_t), foreach_loop (invalidate vl) l' s = (Ok tt, s') -> i ∉ l' -> e_vars s' !! i = e_vars s !! i) as KK.
             { clear. induction l' as [|k l' IH]; intros s s' E Nk; cbn [foreach_loop] in E; [by injection E as <-|].
               apply not_elem_of_cons in Nk as [Nk Nl]. unfold invalidate in E. cbn in E. unfold abind, aget, aput, abind, aindex, ashared, aset in E. cbn in E.
               destruct (e_vars s !! k) as [vk|] eqn:Ek; cbn in E; [|done]. rewrite Ek in E. cbn in E. apply IH in E; [|done]. rewrite E. cbn [e_vars]. by rewrite lookup_insert_ne. }
             rewrite (KK l st1 st' E Ni) in Hu'. unfold st1, changed in Hu'. cbn [e_vars] in Hu'. rewrite lookup_insert in Hu'. injection Hu' as <-. cbn [vv_lev] in Eg. apply kept_lookup in Eg as [_ ?]. done.
          -- intros x vw g Hg. destruct (decide (x = vl)) as [->|Nx].
             ++ rewrite bool_decide_eq_true_2 by (split; [done|by left]).
                assert (vs_heap (e_sh st1) !! g = None) as H1.
                { unfold st1, changed. cbn [e_sh vs_heap]. rewrite !drop_lookup. destruct vw; [by rewrite bool_decide_eq_true_2|]. case_bool_decide; [done|]. by rewrite bool_decide_eq_true_2. }
                destruct (vs_heap (e_sh st') !! g) as [b|] eqn:Eb; [|done]. exfalso.
                assert (forall l' (s s' : st_t), foreach_loop (invalidate vl) l' s = (Ok tt, s') -> vs_heap (e_sh s') ⊆ vs_heap (e_sh s)) as KK.
                { clear. induction l' as [|k l' IH]; intros s s' E; cbn [foreach_loop] in E; [by injection E as <-|].
                  unfold invalidate in E. cbn in E. unfold abind, aget, aput, abind, aindex, ashared, aset in E. cbn in E.
                  destruct (e_vars s !! k) as [vk|] eqn:Ek; cbn in E; [|done]. rewrite Ek in E. cbn in E. apply IH in E. etrans; [exact E|]. cbn [e_sh vs_heap]. apply dropped_sub. }
                pose proof (KK _ _ _ E) as Hsub. by rewrite (lookup_weaken _ _ _ _ Eb Hsub) in H1.
             ++ rewrite bool_decide_eq_false_2 by (by intros [? _]). rewrite (H' x vw g) by (apply kept_lookup; done).
                rewrite bool_decide_eq_false_2 by (by intros [? _]).
                pose proof (changed_owned vl vv_topo (mkE (e_sh st) (e_vars st) (Some i)) i v Bi Hi i) as HO. eapply HO; [unfold changed; cbn [e_vars]; by rewrite lookup_insert|]. cbn [vv_lev]. by apply kept_lookup.
        * destruct (V' j u) as (u' & Hu' & T' & Bb' & L1 & L2 & H').
          { unfold st1, changed. cbn [e_vars]. by rewrite lookup_insert_ne. }
          exists u'. split; [done|]. split; [done|]. split; [done|]. split; [done|]. split.
          -- intros vw [->|Hj]%elem_of_cons; [done|]. by apply L2.
          -- intros x vw g Hg. rewrite (H' x vw g Hg). case_bool_decide as H1.
             ++ destruct H1 as [-> H1]. rewrite bool_decide_eq_true_2; [done|]. split; [done|by right].
             ++ rewrite bool_decide_eq_false_2 by (intros [-> [->|?]%elem_of_cons]; [done|by apply H1]).
                pose proof (changed_owned vl vv_topo (mkE (e_sh st) (e_vars st) (Some i)) i v Bi Hi j) as HO. eapply HO; [unfold changed; cbn [e_vars]; by rewrite lookup_insert_ne|done].
      + intros P D HP F. eapply (fresh_sub P (fun j x => (D j x /\ ~ (j = i /\ x = vl)) /\ ~ (j ∈ l /\ x = vl)) _ (mkE (e_sh st') (e_vars st') (e_cur st1))); [apply F'|done|done|].
        * intros HPP j u Hj. unfold st1, changed in Hj. cbn [e_vars] in Hj. apply lookup_insert_Some in Hj as [[<- <-]|[_ Hj]]; [cbn [vv_bb]|]; by eapply HP.
        * apply changed_fresh; [done|done|intros HPP; by eapply HP|done|]. destruct st. by destruct F.
        * intros j u' Hj. right. exists u'. split; [done|]. split; [done|].
          assert (forall x, ~ (D j x /\ ~ (j ∈ i :: l /\ x = vl)) -> ~ ((D j x /\ ~ (j = i /\ x = vl)) /\ ~ (j ∈ l /\ x = vl))) as HD.
          { intros x H [[Hd H1] H2]. apply H. split; [done|]. intros [[->|?]%elem_of_cons ->]; [by apply H1|by apply H2]. }
          split; [|split; [right; split; [done|]; intros H; split|right; split; [done|]]].
          -- intros x vw g Hk H. split; [done|by apply HD].
          -- intros x. by apply HD.
          -- split; [done|]. intros; by left.
          -- split; [done|]. intros; by left.
  Qed.
End proofs.
