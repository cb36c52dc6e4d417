(** Visitors receive what they must (C68). *)
From stdpp Require Import gmap pretty.
From Verif Require Import Base Graph GraphSpec GraphProofs Equip NodeTopo NodeTopoSpec NodeTopoInv BusTopo BusTopoProofs BusTopoInv BusTopoView
  BusValuesSpec Visit VisitSpec.
From Verif Require Import BusTopoSpec.

(** ** One terminal *)
Lemma owned_at es t : owned es t -> exists e, es !! nt_id t = Some e /\ eq_type e = nt_type t /\ nt_side t < arity (nt_type t) /\
  forall s, s < arity (nt_type t) -> eq_at e s = Ok (mkNT (nt_id t) s (nt_type t)).
Proof.
  intros (e & He & W & Ht). exists e. split; [done|]. unfold well_made in W. rewrite W in Ht.
  apply elem_of_list_fmap in Ht as (s & Et & Hs). apply elem_of_seq in Hs. assert (eq_type e = nt_type t) as Ety by (by rewrite Et).
  split; [done|]. rewrite <- Ety. split; [rewrite Et; cbn; lia|]. intros s' Hs'. unfold eq_at. rewrite W, list_lookup_fmap.
  rewrite lookup_seq_lt by done. cbn. by rewrite Ety.
Qed.
Lemma term_eta t : t = mkNT (nt_id t) (nt_side t) (nt_type t).
Proof. by destruct t. Qed.
Lemma side_eq t s : t = mkNT (nt_id t) s (nt_type t) <-> nt_side t = s.
Proof. destruct t as [i k ty]. cbn. split; [by intros [= ->]|by intros ->]. Qed.
Lemma branch_side_ok (es : gmap string equipment) t e : es !! nt_id t = Some e -> arity (nt_type t) = 2 -> nt_side t < 2 ->
  (forall s, s < arity (nt_type t) -> eq_at e s = Ok (mkNT (nt_id t) s (nt_type t))) ->
  exists s, branch_side e t = Ok s /\ side_number s = nt_side t.
Proof.
  intros He Ha Hs Hat. unfold branch_side. rewrite (Hat 0) by lia. cbn [result_bind]. case_bool_decide as H0.
  { apply side_eq in H0. by exists ONE. }
  rewrite (Hat 1) by lia. cbn [result_bind]. case_bool_decide as H1.
  { apply side_eq in H1. by exists TWO. }
  exfalso. rewrite side_eq in H0. rewrite side_eq in H1. lia.
Qed.
Lemma three_side_ok (es : gmap string equipment) t e : es !! nt_id t = Some e -> arity (nt_type t) = 3 -> nt_side t < 3 ->
  (forall s, s < arity (nt_type t) -> eq_at e s = Ok (mkNT (nt_id t) s (nt_type t))) ->
  exists s, three_side e t = Ok s /\ side_number s = nt_side t.
Proof.
  intros He Ha Hs Hat. unfold three_side. rewrite (Hat 0) by lia. cbn [result_bind]. case_bool_decide as H0.
  { symmetry in H0. apply side_eq in H0. by exists ONE. }
  rewrite (Hat 1) by lia. cbn [result_bind]. case_bool_decide as H1.
  { symmetry in H1. apply side_eq in H1. by exists TWO. }
  rewrite (Hat 2) by lia. cbn [result_bind]. case_bool_decide as H2.
  { symmetry in H2. apply side_eq in H2. by exists THREE. }
  exfalso. assert (nt_side t <> 0) by (intros ?%side_eq; congruence). assert (nt_side t <> 1) by (intros ?%side_eq; congruence).
  assert (nt_side t <> 2) by (intros ?%side_eq; congruence). lia.
Qed.
Lemma call_for_ok es t : owned es t -> exists c, call_for es t = Ok c /\ describes t c.
Proof.
  intros (e & He & Ety & Hs & Hat)%owned_at. unfold call_for. rewrite He, Ety.
  destruct (nt_type t) eqn:E; try (eexists; split; [reflexivity|]; by constructor).
  - destruct (branch_side_ok es t e He) as (s & -> & Hn); rewrite ?E; try done. eexists. split; [reflexivity|]. by constructor.
  - destruct (branch_side_ok es t e He) as (s & -> & Hn); rewrite ?E; try done. eexists. split; [reflexivity|]. by constructor.
  - destruct (three_side_ok es t e He) as (s & -> & Hn); rewrite ?E; try done. eexists. split; [reflexivity|]. by constructor.
Qed.

(** ** Visiting a list of terminals *)
Lemma visit_ok {A} es (vis : A -> vcall -> result A) ts a : (forall t, t ∈ ts -> owned es t) ->
  exists cs, Forall2 describes ts cs /\ receives vis cs a (visit_equipments es vis ts a).
Proof.
  revert a. induction ts as [|t ts IH]; intros a H.
  { exists []. split; [constructor|constructor]. }
  destruct (call_for_ok es t) as (c & Ec & Hc); [apply H; by left|]. cbn [visit_equipments]. rewrite Ec. cbn [result_bind].
  destruct (vis a c) as [a'|m| |] eqn:Ev; cbn [result_bind].
  - destruct (IH a') as (cs & HF & HR); [intros t' ?; apply H; by right|]. exists (c :: cs). split; [by constructor|]. by eapply rc_next.
  - destruct (IH a) as (cs & HF & _); [intros t' ?; apply H; by right|]. exists (c :: cs). split; [by constructor|]. by apply rc_stop.
  - destruct (IH a) as (cs & HF & _); [intros t' ?; apply H; by right|]. exists (c :: cs). split; [by constructor|]. by apply rc_stop.
  - destruct (IH a) as (cs & HF & _); [intros t' ?; apply H; by right|]. exists (c :: cs). split; [by constructor|]. by apply rc_stop.
Qed.
Lemma terminal_visitor_ok {A} es (f : A -> nterm -> result A) t c a : owned es t -> describes t c -> terminal_visitor es f a c = f a t.
Proof.
  intros (e & He & Ety & Hs & Hat)%owned_at D. destruct D as [E|E|E|E|E|s E Es|E|E|E|s E Es|s E Es]; cbn; rewrite He; cbn [result_bind];
    rewrite E in *; cbn [arity] in *.
  all: try (rewrite (Hat 0) by lia; cbn [result_bind]; f_equal; symmetry; rewrite <- E; apply side_eq; lia).
  - destruct s; cbn in Es; [rewrite (Hat 0) by lia|rewrite (Hat 1) by lia|lia]; cbn [result_bind]; f_equal; symmetry; rewrite <- E; apply side_eq; lia.
  - destruct s; cbn in Es; [rewrite (Hat 0) by lia|rewrite (Hat 1) by lia|rewrite (Hat 2) by lia]; cbn [result_bind]; f_equal; symmetry; rewrite <- E; apply side_eq; lia.
  - destruct s; cbn in Es; [rewrite (Hat 0) by lia|rewrite (Hat 1) by lia|lia]; cbn [result_bind]; f_equal; symmetry; rewrite <- E; apply side_eq; lia.
Qed.
Lemma visit_terminals {A} es (f : A -> nterm -> result A) ts a : (forall t, t ∈ ts -> owned es t) ->
  receives f ts a (visit_equipments es (terminal_visitor es f) ts a).
Proof.
  revert a. induction ts as [|t ts IH]; intros a H; [constructor|].
  assert (owned es t) as Ho by (apply H; by left).
  destruct (call_for_ok es t Ho) as (c & Ec & Hc). cbn [visit_equipments]. rewrite Ec. cbn [result_bind].
  rewrite (terminal_visitor_ok es f t c a Ho Hc). destruct (f a t) as [a'|m| |] eqn:Ef; cbn [result_bind].
  - eapply rc_next; [exact Ef|]. apply IH. intros t' ?. apply H. by right.
  - by apply rc_stop.
  - by apply rc_stop.
  - by apply rc_stop.
Qed.
Lemma visit_app {A} es (vis : A -> vcall -> result A) l l' a :
  visit_equipments es vis (l ++ l') a = (let! a' := visit_equipments es vis l a in visit_equipments es vis l' a').
Proof.
  revert a. induction l as [|t l IH]; intros a; [done|]. cbn [visit_equipments app]. destruct (call_for es t); cbn [result_bind]; try done.
  destruct (vis a _); cbn [result_bind]; try done. 
Qed.
Lemma visits_list {A} es P (vis : A -> vcall -> result A) ts a : NoDup ts -> (forall t, t ∈ ts <-> P t) -> (forall t, P t -> owned es t) ->
  visits_each P vis a (visit_equipments es vis ts a).
Proof.
  intros ND HP Ho. destruct (visit_ok es vis ts a) as (cs & HF & HR); [intros t Ht; by apply Ho, HP|]. exists ts, cs. done.
Qed.

(** ** Bus-breaker levels *)
Lemma bus_terms_eq st i v u l : e_cur st = Some i -> e_vars st !! i = Some v -> bv_terms v !! u = Some l -> bus_terms u st = (Ok l, st).
Proof. intros Hc Hi Hl. unfold bus_terms. rewrite (abind_Ok _ _ _ _ _ (aget_eq _ _ _ Hc Hi)). by rewrite Hl. Qed.
Lemma merged_loop_eq {A} es (vis : A -> vcall -> result A) st i v us a : e_cur st = Some i -> e_vars st !! i = Some v ->
  (forall u, u ∈ us -> is_Some (bv_terms v !! u)) ->
  exists ls, Forall2 (fun u l => bv_terms v !! u = Some l) us ls /\
    merged_loop es vis us a st = (visit_equipments es vis (concat ls) a, st).
Proof.
  intros Hc Hi. revert a. induction us as [|u us IH]; intros a H.
  { exists []. split; [constructor|done]. }
  destruct (H u) as [l Hl]; [by left|].
  assert (forall b, exists ls, Forall2 (fun u l => bv_terms v !! u = Some l) us ls /\ merged_loop es vis us b st = (visit_equipments es vis (concat ls) b, st)) as IH'.
  { intros b. apply IH. intros u' Hu'. apply H. by right. }
  cbn [merged_loop]. rewrite (abind_Ok _ _ _ _ _ (bus_terms_eq st i v u l Hc Hi Hl)).
  destruct (visit_equipments es vis l a) as [a'|m| |] eqn:Ev; unfold abind at 1, alift.
  - destruct (IH' a') as (ls & HF & E). exists (l :: ls). split; [by constructor|]. rewrite E. cbn [concat]. rewrite visit_app, Ev. done.
  - destruct (IH' a) as (ls & HF & E). exists (l :: ls). split; [by constructor|]. cbn [concat]. rewrite visit_app, Ev. done.
  - destruct (IH' a) as (ls & HF & E). exists (l :: ls). split; [by constructor|]. cbn [concat]. rewrite visit_app, Ev. done.
  - destruct (IH' a) as (ls & HF & E). exists (l :: ls). split; [by constructor|]. cbn [concat]. rewrite visit_app, Ev. done.
Qed.
Lemma level_terms_eq st i v us : e_cur st = Some i -> e_vars st !! i = Some v -> (forall u, u ∈ us -> is_Some (bv_terms v !! u)) ->
  exists ls, Forall2 (fun u l => bv_terms v !! u = Some l) us ls /\ level_terms (Some <$> us) st = (Ok (concat ls), st).
Proof.
  intros Hc Hi. induction us as [|u us IH]; intros H.
  { exists []. split; [constructor|done]. }
  destruct (H u) as [l Hl]; [by left|]. destruct IH as (ls & HF & E); [intros u' Hu'; apply H; by right|].
  exists (l :: ls). split; [by constructor|]. cbn [fmap list_fmap level_terms].
  rewrite (abind_Ok _ _ _ _ _ (bus_terms_eq st i v u l Hc Hi Hl)). rewrite (abind_Ok _ _ _ _ _ E). done.
Qed.
Lemma concat_terms s v us ls : vok s v -> NoDup us -> Forall2 (fun u l => bv_terms v !! u = Some l) us ls ->
  NoDup (concat ls) /\ forall t, t ∈ concat ls <-> exists u l, u ∈ us /\ bv_terms v !! u = Some l /\ t ∈ l.
Proof.
  intros IV ND HF. induction HF as [|u l us ls Hl HF IH].
  { split; [constructor|]. intros t. split; [by intros ?%elem_of_nil|]. by intros (u & l & ?%elem_of_nil & _). }
  apply NoDup_cons in ND as [Hn ND]. destruct (IH ND) as [N Hm]. cbn [concat]. split.
  - apply NoDup_app. split; [by eapply (vk_nodup _ _ IV)|]. split; [|done]. intros t Ht (u' & l' & Hu' & Hl' & Ht')%Hm.
    apply Hn. by rewrite (vk_uniq _ _ IV u u' l l' t Hl Hl' Ht Ht').
  - intros t. rewrite elem_of_app, Hm. split.
    + intros [Ht|(u' & l' & Hu' & ?)]; [exists u, l; split; [by left|done]|exists u', l'; split; [by right|done]].
    + intros (u' & l' & [->|Hu']%elem_of_cons & Hl' & Ht); [left; by rewrite Hl in Hl'; injection Hl' as <-|right; by exists u', l'].
Qed.
Lemma vertex_objects_eq s : shok s -> exists us, vertex_objects (bb_graph s) = Some <$> us /\ NoDup us /\ forall u, u ∈ us <-> is_Some (bb_live s !! u).
Proof.
  intros S.
  assert (forall x u, g_vertices (bb_graph s) !! x = Some (Some (Some u)) <-> on_vertex s u x) as HV.
  { intros x u. unfold on_vertex. rewrite abs_vertices. destruct (g_vertices (bb_graph s) !! x) as [[o|]|]; cbn; split; try done; congruence. }
  assert (forall x, g_vertices (bb_graph s) !! x = Some (Some None) -> False) as HN.
  { intros x Hx. destruct (sk_obj _ S x None) as (u & b & [=] & _). rewrite abs_vertices, Hx. done. }
  assert (exists us, vertex_objects (bb_graph s) = Some <$> us /\ NoDup us /\ forall u, u ∈ us <-> exists x, g_vertices (bb_graph s) !! x = Some (Some (Some u))) as (us & E & ND & H).
  { assert (forall x y u, g_vertices (bb_graph s) !! x = Some (Some (Some u)) -> g_vertices (bb_graph s) !! y = Some (Some (Some u)) -> x = y) as HI.
    { intros x y u Hx%HV Hy%HV. by eapply obj_inj. }
    unfold vertex_objects. clear HV. revert HN HI. generalize (g_vertices (bb_graph s)) as l. induction l as [|o l IH]; intros HN HI.
    { exists []. split; [done|]. split; [constructor|]. intros u. split; [by intros ?%elem_of_nil|]. intros [x Hx]. done. }
    destruct IH as (us & E & ND & H); [intros x Hx; by apply (HN (Datatypes.S x))|intros x y u Hx Hy; injection (HI (Datatypes.S x) (Datatypes.S y) u Hx Hy) as <-; done|].
    destruct o as [[u|]|].
    - exists (u :: us). cbn. rewrite E. split; [done|]. split.
      + constructor; [|done]. intros (x & Hx)%H. by specialize (HI 0 (Datatypes.S x) u eq_refl Hx).
      + intros u'. rewrite elem_of_cons, H. split.
        * intros [->|[x Hx]]; [by exists 0|by exists (Datatypes.S x)].
        * intros [[|x] Hx]; [left; by injection Hx|right; by exists x].
    - exfalso. by apply (HN 0).
    - exists us. cbn. split; [done|]. split; [done|]. intros u'. rewrite H. split; [intros [x Hx]; by exists (Datatypes.S x)|].
      intros [[|x] Hx]; [done|by exists x]. }
  exists us. split; [done|]. split; [done|]. intros u. rewrite H. split.
  - intros [x Hx%HV]. destruct (sk_obj _ S x _ Hx) as (u' & b & [= <-] & L & _). eauto.
  - intros [b Hb]. destruct (sk_live _ S u b Hb) as ((x & Hx & _) & _). exists x. by apply HV.
Qed.

Section bus_breaker.
  Context {A : Type} (es : gmap string equipment) (vis : A -> vcall -> result A) (a : A) (st : bbst) (v : bbvar) (I : binv st) (W : working st v).
  Lemma configured_bus b : is_bus (e_sh st) b -> exists u l, bb_configured b st = (Ok u, st) /\ bus_terms u st = (Ok l, st) /\ NoDup l /\
    (forall t, t ∈ l -> known v t) /\ forall t, t ∈ l <-> hangs (e_sh st) v b t.
  Proof using All.
    intros Hb. destruct W as (i & Hc & Hi). pose proof (proj1 (bi_vars _ I) i v Hi) as IV.
    destruct (configured_eq st b (bi_sh _ I)) as [(u & x & E & L & _)|(m & _ & Hn)]; [|done].
    destruct (proj2 (vk_terms _ _ IV u)) as [l Hl]; [eauto|]. exists u, l. split; [done|]. split; [by eapply bus_terms_eq|].
    split; [by eapply (vk_nodup _ _ IV)|]. split; [intros t Ht; by eapply (vk_known _ _ IV)|]. intros t. split; [intros Ht; by exists u, l|].
    intros (u' & l' & L' & Hl' & Ht). assert (u' = u) as -> by (by eapply live_inj; [apply I|..]). congruence.
  Qed.
  Lemma configured_all_ok b : is_bus (e_sh st) b -> (forall t, hangs (e_sh st) v b t -> owned es t) ->
    exists r, configured_visit_all es vis b a st = (r, st) /\ visits_each (hangs (e_sh st) v b) vis a r.
  Proof using All.
    intros Hb Ho. destruct (configured_bus b Hb) as (u & l & E1 & E2 & ND & _ & Hl). eexists. split.
    - unfold configured_visit_all. rewrite (abind_Ok _ _ _ _ _ E1), (abind_Ok _ _ _ _ _ E2). reflexivity.
    - by apply visits_list.
  Qed.
  Lemma filter_ok l : (forall t, t ∈ l -> known v t) -> NoDup l -> exists lc, filter_connected v l = Ok lc /\ NoDup lc /\ forall t, t ∈ lc <-> t ∈ l /\ connected v t.
  Proof using All.
    induction l as [|t l IH]; intros K ND.
    { exists []. split; [done|]. split; [constructor|]. intros t. split; [by intros ?%elem_of_nil|]. by intros [?%elem_of_nil _]. }
    apply NoDup_cons in ND as [Hn ND]. destruct IH as (lc & E & N & H); [intros t' ?; apply K; by right|done|].
    destruct (K t) as [[[c b] Hx] _]; [by left|]. cbn [filter_connected]. rewrite Hx, E. cbn [result_bind]. destruct c.
    - exists (t :: lc). split; [done|]. split; [constructor; [rewrite H; tauto|done]|]. intros t'. rewrite !elem_of_cons, H. split; [|tauto].
      intros [->|?]; [split; [by left|by exists b]|tauto].
    - exists lc. split; [done|]. split; [done|]. intros t'. rewrite elem_of_cons, H. split; [tauto|].
      intros [[->|?] C]; [|done]. destruct C as [b' C]. congruence.
  Qed.
  Lemma configured_connected_ok b : is_bus (e_sh st) b -> (forall t, hangs (e_sh st) v b t -> owned es t) ->
    exists r, configured_visit_connected es vis b a st = (r, st) /\ visits_each (fun t => hangs (e_sh st) v b t /\ connected v t) vis a r.
  Proof using All.
    intros Hb Ho. destruct (configured_bus b Hb) as (u & l & E1 & E2 & ND & K & Hl). destruct (filter_ok l K ND) as (lc & E & N & H).
    destruct W as (i & Hc & Hi). eexists. split.
    - unfold configured_visit_connected. rewrite (abind_Ok _ _ _ _ _ E1), (abind_Ok _ _ _ _ _ E2), (abind_Ok _ _ _ _ _ (aget_eq _ _ _ Hc Hi)).
      unfold alift, abind. rewrite E. reflexivity.
    - apply visits_list; [done|intros t; by rewrite H, Hl|]. intros t [? _]. by apply Ho.
  Qed.
  Lemma bb_level_ok : (forall b t, hangs (e_sh st) v b t -> owned es t) ->
    exists r, bb_visit_level es vis a st = (r, st) /\ visits_each (fun t => exists b, hangs (e_sh st) v b t) vis a r.
  Proof using All.
    intros Ho. destruct (vertex_objects_eq (e_sh st) (bi_sh _ I)) as (us & E & ND & H). destruct W as (i & Hc & Hi).
    pose proof (proj1 (bi_vars _ I) i v Hi) as IV.
    destruct (level_terms_eq st i v us Hc Hi) as (ls & HF & El); [intros u ?%H; by apply (vk_terms _ _ IV)|].
    destruct (concat_terms _ v us ls IV ND HF) as [N Hm]. eexists. split.
    - unfold bb_visit_level. rewrite (abind_Ok (ashared) _ st (e_sh st) st eq_refl). rewrite E. rewrite (abind_Ok _ _ _ _ _ El). reflexivity.
    - apply visits_list; [done|..].
      + intros t. rewrite Hm. split.
        * intros (u & l & [b Hb]%H & Hl & Ht). exists b, u, l. done.
        * intros (b & u & l & L & Hl & Ht). exists u, l. split; [|done]. apply H. eauto.
      + intros t [b Hb]. by apply (Ho b).
  Qed.
End bus_breaker.

Section merged.
  Context {A : Type} (es : gmap string equipment) (vis : A -> vcall -> result A) (a : A) (st0 : bbst) (v : bbvar) (I0 : binv st0).
  Lemma merged_all_ok c st k us : cached st0 v c st -> mc_id c !! k = Some us ->
    exists r ls, merged_visit_all es vis k a st = (r, st) /\ r = visit_equipments es vis (concat ls) a /\
      NoDup (concat ls) /\ forall t, t ∈ concat ls <-> exists u l, u ∈ us /\ bv_terms v !! u = Some l /\ t ∈ l.
  Proof using All.
    intros C Hk. pose proof C as (I & SB & CG & i & Hc & Hi & Hv). pose proof (proj1 (bi_vars _ I0) i v Hi) as IV.
    destruct (members_known (e_sh st0) v c k us (bi_sh _ I0) IV CG Hk) as [ND Hkn].
    assert (bb_by_id k st = (Ok (Some us), st)) as Eb by (unfold bb_by_id; rewrite (abind_Ok _ _ _ _ _ (cached_cache _ _ _ _ C)), Hk; done).
    assert (e_cur st = Some i) as Hc' by (by rewrite (sbm_cur _ _ SB)).
    destruct (merged_loop_eq es vis st i (bv_set_cache (Some c) v) us a Hc' Hv) as (ls & HF & E).
    { intros u Hu. destruct (Hkn u Hu) as (l & Hl & _). exists l. exact Hl. }
    destruct (concat_terms _ v us ls IV ND) as [N Hm]; [eapply Forall2_impl; [exact HF|]; intros u l Hl; exact Hl|].
    eexists. exists ls. split; [|split; [reflexivity|done]]. unfold merged_visit_all. rewrite (abind_Ok _ _ _ _ _ Eb). exact E.
  Qed.
End merged.
