(** Proofs about [CalcBusXml]: the topology built from a file. *)
From stdpp Require Import gmap pretty sorting.
From Verif Require Import Base Graph GraphSpec GraphProofs GraphTraverse GraphPaths GraphMore Equip NodeTopo NodeTopoSpec NodeTopoProofs NodeTopoInv NodeTopoConn CalcBusXmlSpec.

Definition obj (s : sgraph nterm string) (n : nat) : option nterm := mjoin (s_vertices s !! n).
Lemma obj_term s n t : obj s n = Some t <-> term_at s n t.
Proof. unfold obj, term_at. destruct (s_vertices s !! n) as [[x|]|]; simpl; split; congruence. Qed.
Lemma add_vertex_obj (g : graph nterm string) n : ginv g -> exists g', g_add_vertex_if_not_present g n = (g', Ok tt) /\ ginv g' /\
  s_edges (abs g') = s_edges (abs g) /\ is_Some (s_vertices (abs g') !! n) /\
  (forall x, is_Some (s_vertices (abs g) !! x) -> is_Some (s_vertices (abs g') !! x)) /\ (forall x, obj (abs g') x = obj (abs g) x).
Proof.
  intros I. destruct (add_vertex_if_eq g n I) as (g' & E & I' & He & Hn & Hk & Ha & Hb). exists g'. split; [done|]. split; [done|]. split; [done|]. split; [done|].
  split; [intros x Hx; by rewrite Hk|]. intros x.
  destruct (g_add_vertex_if_ok g n I) as [_ H]. rewrite E in H. cbn [fst snd] in H. simpl in H. destruct H as [_ [[Hs ->]|[Hs ->]]]; [done|].
  unfold obj. cbn [s_vertices]. destruct (decide (x = n)) as [->|Hx]; [|by rewrite lookup_insert_ne]. rewrite lookup_insert.
  by rewrite Hs.
Qed.

Notation vars1 sw := ({[initial_variant := mkNV sw None None]} : gmap string nbvar).
Record prog (ids : gset string) (done : list nbop) (st : nbst) (sw : gmap string (bool * bool)) : Prop := {
  pr_reach : nb_reach fresh_safe st;
  pr_cur : e_cur st = Some initial_variant;
  pr_vars : e_vars st = vars1 sw;
  pr_term : forall n t, term_at (nbg st) n t <-> NAttach n t ∈ done;
  pr_int : forall a b, (exists e, s_edges (nbg st) !! e = Some (a, b, None)) <-> NAddInternal a b ∈ done;
  pr_edge : forall id a b, (exists e, s_edges (nbg st) !! e = Some (a, b, Some id)) <-> exists k p, NAddSwitch id k p a b ∈ done;
  pr_pos : forall id p, sw !! id = Some p <-> exists k a b, NAddSwitch id k p a b ∈ done;
  pr_ids : forall id, id ∈ nb_ids (e_sh st) -> id ∈ ids \/ exists k p a b, NAddSwitch id k p a b ∈ done
}.
Lemma prog_no_caches ids done st sw : prog ids done st sw -> no_caches st.
Proof. intros P i v. rewrite (pr_vars _ _ _ _ P). intros [<- <-]%lookup_singleton_Some. done. Qed.
Lemma prog_get ids done st sw : prog ids done st sw -> e_vars st !! initial_variant = Some (mkNV sw None None).
Proof. intros P. rewrite (pr_vars _ _ _ _ P). apply lookup_singleton. Qed.

(** Edges after one more. *)
Lemma edge_new {B} (m : gmap nat (nat * nat * B)) e x y : m !! e = None -> (exists e', <[e := x]> m !! e' = Some y) <-> y = x \/ exists e', m !! e' = Some y.
Proof.
  intros Hn. split.
  - intros (e' & H). destruct (decide (e' = e)) as [->|]; [rewrite lookup_insert in H; left; congruence|]. rewrite lookup_insert_ne in H by done. eauto.
  - intros [->|(e' & H)]; [exists e; by rewrite lookup_insert|]. exists e'. rewrite lookup_insert_ne; [done|]. intros <-. congruence.
Qed.

Lemma attach_prog ids done st sw n t : prog ids done st sw -> (forall t', NAttach n t' ∉ done) ->
  exists st', nb_call (NAttach n t) st = (Ok tt, st') /\ prog ids (NAttach n t :: done) st' sw.
Proof.
  intros P Hn. pose proof (reach_fresh _ (pr_reach _ _ _ _ P)) as I. pose proof (si_g _ (ni_sh _ _ I)) as Ig.
  destruct (add_vertex_obj (nb_graph (e_sh st)) n Ig) as (g1 & E1 & I1 & H1 & L1 & K1 & O1).
  destruct (vertex_object_eq g1 n) as [(o & Eo & Ho)|(m & _ & Ho)]; [|destruct L1; congruence].
  assert (o = None) as ->.
  { destruct o as [t'|]; [|done]. exfalso. apply (Hn t'), (pr_term _ _ _ _ P), obj_term. unfold nbg. rewrite <- O1. unfold obj. by rewrite Ho. }
  destruct (set_object_eq g1 n (Some t) I1 L1) as (g2 & E2 & I2 & A2).
  assert (nb_attach n t st = (Ok tt, mkE (nb_set_graph (e_sh st) g2) (vars1 sw) (Some initial_variant))) as E.
  { unfold nb_attach. gstep E1. gstep (f_equal (pair g1) Eo). cbv beta iota. gstep E2. unfold nb_invalidate_all, abind, aindex. cbn [e_cur e_sh e_vars].
    rewrite (pr_cur _ _ _ _ P). cbn [e_cur e_sh e_vars]. rewrite (pr_vars _ _ _ _ P), map_fmap_singleton. done. }
  eexists. split; [exact E|].
  assert (forall x, obj (abs g2) x = if decide (x = n) then Some t else obj (nbg st) x) as HO.
  { intros x. unfold obj at 1. rewrite A2. cbn [s_vertices]. destruct (decide (x = n)) as [->|Hx]; [by rewrite lookup_insert|].
    rewrite lookup_insert_ne by done. apply O1. }
  assert (s_edges (abs g2) = s_edges (nbg st)) as HE by (rewrite A2; exact H1).
  split; unfold nbg; cbn [e_sh e_cur e_vars nb_set_graph nb_graph nb_ids].
  - assert (nb_step st (ECall (NAttach n t)) = nb_attach n t st) as Es by done. pose proof (nr_step fresh_safe st (ECall (NAttach n t)) (pr_reach _ _ _ _ P)) as HR.
    rewrite Es, E in HR. apply HR. left. rewrite (pr_cur _ _ _ _ P). eauto.
  - done.
  - done.
  - intros x t'. rewrite <- obj_term, HO, elem_of_cons. destruct (decide (x = n)) as [->|Hx].
    + split; [intros [= ->]; by left|]. intros [[= ->]|H]; [done|]. by destruct (Hn t').
    + rewrite obj_term, (pr_term _ _ _ _ P). naive_solver.
  - intros a b. rewrite HE, elem_of_cons, <- (pr_int _ _ _ _ P). unfold nbg. naive_solver.
  - intros id a b. rewrite HE. pose proof (pr_edge _ _ _ _ P id a b) as H. unfold nbg in H. rewrite H. setoid_rewrite elem_of_cons. naive_solver.
  - intros id p. rewrite (pr_pos _ _ _ _ P). setoid_rewrite elem_of_cons. naive_solver.
  - intros id Hid. destruct (pr_ids _ _ _ _ P id Hid) as [?|(k & p & a & b & H)]; [by left|right]. exists k, p, a, b. by right.
Qed.

Lemma internal_prog ids done st sw n1 n2 : prog ids done st sw ->
  exists st', nb_call (NAddInternal n1 n2) st = (Ok tt, st') /\ prog ids (NAddInternal n1 n2 :: done) st' sw.
Proof.
  intros P. pose proof (reach_fresh _ (pr_reach _ _ _ _ P)) as I. pose proof (si_g _ (ni_sh _ _ I)) as Ig.
  destruct (add_vertex_obj (nb_graph (e_sh st)) n1 Ig) as (g1 & E1 & I1 & H1 & L1 & K1 & O1).
  destruct (add_vertex_obj g1 n2 I1) as (g2 & E2 & I2 & H2 & L2 & K2 & O2).
  destruct (add_edge_eq g2 n1 n2 None I2) as (g3 & e & E3 & I3 & F3 & A3); [by apply K2|done|].
  assert (nb_add_internal n1 n2 st = (Ok tt, mkE (nb_set_graph (e_sh st) g3) (vars1 sw) (Some initial_variant))) as E.
  { unfold nb_add_internal. gstep E1. gstep E2. gstep E3. unfold nb_invalidate.
    match goal with |- abind _ _ ?s = _ => assert (aget s = (Ok (mkNV sw None None), s)) as Eg end.
    { unfold aget, abind, aindex. cbn [e_cur e_vars]. rewrite (pr_cur _ _ _ _ P). cbn [e_cur e_vars]. by rewrite (prog_get _ _ _ _ P). }
    rewrite (abind_Ok _ _ _ _ _ Eg). unfold aput, abind, aindex. cbn [e_cur e_vars e_sh]. rewrite (pr_cur _ _ _ _ P). cbn [e_cur e_vars e_sh].
    rewrite (prog_get _ _ _ _ P), (pr_vars _ _ _ _ P), insert_singleton. done. }
  eexists. split; [exact E|].
  assert (s_edges (abs g3) = <[e := (n1, n2, None)]> (s_edges (nbg st))) as HE by (rewrite A3; cbn [s_edges]; by rewrite H2, H1).
  assert (s_edges (nbg st) !! e = None) as Hfr by (unfold nbg; by rewrite <- H1, <- H2).
  assert (forall x, obj (abs g3) x = obj (nbg st) x) as HO.
  { intros x. transitivity (obj (abs g2) x); [unfold obj; by rewrite A3|]. by rewrite O2, O1. }
  split; cbn [e_sh e_cur e_vars nb_set_graph nb_graph nb_ids].
  - assert (nb_step st (ECall (NAddInternal n1 n2)) = nb_add_internal n1 n2 st) as Es by done. pose proof (nr_step fresh_safe st (ECall (NAddInternal n1 n2)) (pr_reach _ _ _ _ P)) as HR.
    rewrite Es, E in HR. apply HR. intros j w Hw _. by eapply prog_no_caches.
  - done.
  - done.
  - intros x t'. rewrite <- obj_term. unfold nbg. cbn [e_sh nb_set_graph nb_graph]. rewrite HO, obj_term, (pr_term _ _ _ _ P), elem_of_cons. naive_solver.
  - intros a b. unfold nbg. cbn [e_sh nb_set_graph nb_graph]. rewrite HE, (edge_new _ _ _ _ Hfr), (pr_int _ _ _ _ P), elem_of_cons. naive_solver.
  - intros id a b. unfold nbg. cbn [e_sh nb_set_graph nb_graph]. rewrite HE, (edge_new _ _ _ _ Hfr), (pr_edge _ _ _ _ P). setoid_rewrite elem_of_cons. naive_solver.
  - intros id p. rewrite (pr_pos _ _ _ _ P). setoid_rewrite elem_of_cons. naive_solver.
  - intros id Hid. destruct (pr_ids _ _ _ _ P id Hid) as [?|(k & p & a & b & H)]; [by left|right]. exists k, p, a, b. by right.
Qed.

Lemma switch_prog ids done st sw id k p n1 n2 : prog ids done st sw -> id <> "" -> id ∉ ids -> (forall k' p' a b, NAddSwitch id k' p' a b ∉ done) ->
  exists st', nb_call (NAddSwitch id k p n1 n2) st = (Ok tt, st') /\ prog ids (NAddSwitch id k p n1 n2 :: done) st' (<[id := p]> sw).
Proof.
  intros P Hne Hid Hnew. pose proof (reach_fresh _ (pr_reach _ _ _ _ P)) as I. pose proof (ni_sh _ _ I) as IS. pose proof (si_g _ IS) as Ig.
  assert (id ∉ nb_ids (e_sh st)) as Hni.
  { intros H. destruct (pr_ids _ _ _ _ P id H) as [?|(k' & p' & a & b & H')]; [done|]. by eapply Hnew. }
  destruct (add_vertex_obj (nb_graph (e_sh st)) n1 Ig) as (g1 & E1 & I1 & H1 & L1 & K1 & O1).
  destruct (add_vertex_obj g1 n2 I1) as (g2 & E2 & I2 & H2 & L2 & K2 & O2).
  destruct (add_edge_eq g2 n1 n2 (Some id) I2) as (g3 & e & E3 & I3 & F3 & A3); [by apply K2|done|].
  assert (nb_add_switch id k p n1 n2 st = (Ok tt, mkE (mkNB (nb_id (e_sh st)) g3 (<[id := e]> (nb_sw (e_sh st))) (<[id := k]> (nb_kind (e_sh st))) ({[id]} ∪ nb_ids (e_sh st)))
       (vars1 (<[id := p]> sw)) (Some initial_variant))) as E.
  { unfold nb_add_switch.
    erewrite abind_Ok; [|unfold nb_index_add; rewrite !bool_decide_false by done; reflexivity].
    gstep E1. gstep E2. gstep E3.
    cbn [e_sh e_vars e_cur nb_set_graph nb_sw nb_kind nb_ids nb_graph nb_id].
    destruct (nb_sw (e_sh st) !! id) as [e'|] eqn:Hsw.
    { exfalso. apply Hni. apply (si_ids _ IS), (si_kind _ IS). eauto. }
    rewrite (pr_cur _ _ _ _ P), (pr_vars _ _ _ _ P), map_fmap_singleton. done. }
  eexists. split; [exact E|].
  assert (s_edges (abs g3) = <[e := (n1, n2, Some id)]> (s_edges (nbg st))) as HE by (rewrite A3; cbn [s_edges]; by rewrite H2, H1).
  assert (s_edges (nbg st) !! e = None) as Hfr by (unfold nbg; by rewrite <- H1, <- H2).
  assert (forall x, obj (abs g3) x = obj (nbg st) x) as HO.
  { intros x. transitivity (obj (abs g2) x); [unfold obj; by rewrite A3|]. by rewrite O2, O1. }
  split; cbn [e_sh e_cur e_vars nb_set_graph nb_graph nb_ids].
  - assert (nb_step st (ECall (NAddSwitch id k p n1 n2)) = nb_add_switch id k p n1 n2 st) as Es by done.
    pose proof (nr_step fresh_safe st (ECall (NAddSwitch id k p n1 n2)) (pr_reach _ _ _ _ P)) as HR.
    rewrite Es, E in HR. apply HR. by eapply prog_no_caches.
  - done.
  - done.
  - intros x t'. rewrite <- obj_term. unfold nbg. cbn [e_sh nb_graph]. rewrite HO, obj_term, (pr_term _ _ _ _ P), elem_of_cons. naive_solver.
  - intros a b. unfold nbg. cbn [e_sh nb_graph]. rewrite HE, (edge_new _ _ _ _ Hfr), (pr_int _ _ _ _ P), elem_of_cons. naive_solver.
  - intros id' a b. unfold nbg. cbn [e_sh nb_graph]. rewrite HE, (edge_new _ _ _ _ Hfr), (pr_edge _ _ _ _ P). setoid_rewrite elem_of_cons. naive_solver.
  - intros id' p'. destruct (decide (id' = id)) as [->|Hd].
    + rewrite lookup_insert. split; [intros [= ->]; exists k, n1, n2; by left|]. intros (k' & a & b & [H|H]%elem_of_cons); [congruence|]. by destruct (Hnew k' p' a b).
    + rewrite lookup_insert_ne by done. rewrite (pr_pos _ _ _ _ P). setoid_rewrite elem_of_cons. naive_solver.
  - intros id' [->%elem_of_singleton|H]%elem_of_union; [right; exists k, p, n1, n2; by left|].
    destruct (pr_ids _ _ _ _ P id' H) as [?|(k' & p' & a & b & H')]; [by left|right]. exists k', p', a, b. by right.
Qed.

Definition same_place (o o' : nbop) : Prop :=
  match o, o' with
  | NAttach n _, NAttach n' _ => n = n'
  | NAddSwitch id _ _ _ _, NAddSwitch id' _ _ _ _ => id = id'
  | _, _ => False
  end.
Definition of_file (ids : gset string) (o : nbop) : Prop :=
  match o with NAttach _ _ | NAddInternal _ _ => True | NAddSwitch id _ _ _ _ => id <> "" /\ id ∉ ids | _ => False end.
Lemma build_ok ids ops : forall done st sw, prog ids done st sw ->
  (forall o, o ∈ ops -> of_file ids o) ->
  (forall x y o o', ops !! x = Some o -> ops !! y = Some o' -> same_place o o' -> x = y) ->
  (forall o o', o ∈ ops -> o' ∈ done -> ~ same_place o o') ->
  exists st' sw' done', built st ops st' /\ prog ids done' st' sw' /\ (forall o, o ∈ done' <-> o ∈ ops \/ o ∈ done).
Proof.
  induction ops as [|o ops IH]; intros done st sw P HF HD HN.
  { exists st, sw, done. split; [done|]. split; [done|]. intros o. split; [by right|]. intros [H|H]; [by apply elem_of_nil in H|done]. }
  assert (exists st1 sw1, nb_call o st = (Ok tt, st1) /\ prog ids (o :: done) st1 sw1) as (st1 & sw1 & E & P1).
  { pose proof (HF o ltac:(by left)) as Ho.
    assert (forall o', o' ∈ done -> ~ same_place o o') as Hn by (intros o'; apply HN; by left).
    destruct o as [id k p n1 n2| |n1 n2| |n t| | | | | | |]; try done.
    - destruct Ho as [Ho1 Ho2]. destruct (switch_prog ids done st sw id k p n1 n2 P Ho1 Ho2) as (st1 & E1 & P1); [|by exists st1, (<[id := p]> sw)].
      intros k' p' a b H. by apply (Hn _ H).
    - destruct (internal_prog ids done st sw n1 n2 P) as (st1 & E1 & P1). by exists st1, sw.
    - destruct (attach_prog ids done st sw n t P) as (st1 & E1 & P1); [|by exists st1, sw]. intros t' H. by apply (Hn _ H). }
  destruct (IH (o :: done) st1 sw1 P1) as (st' & sw' & done' & HB & P' & HM).
  - intros o' H. apply HF. by right.
  - intros x y o1 o2 Hx Hy Hs. assert (S x = S y) as [= ->]; [|done]. by eapply (HD (S x) (S y)).
  - intros o1 o2 H1 [->|H2]%elem_of_cons Hs; [|by eapply HN; [right; exact H1|exact H2|]].
    apply elem_of_list_lookup in H1 as [x Hx]. by pose proof (HD (S x) 0 o1 o Hx eq_refl Hs).
  - exists st', sw', done'. split; [by exists st1|]. split; [done|]. intros o'. rewrite HM, !elem_of_cons. naive_solver.
Qed.

Lemma prog_new vl ids : prog ids [] (nb_new vl ids {[initial_variant]} (Some initial_variant)) ∅.
Proof.
  assert (forall n, s_vertices (abs (g_init : graph nterm string)) !! n = None) as Ev by (intros n; by rewrite abs_vertices).
  assert (forall e, s_edges (abs (g_init : graph nterm string)) !! e = None) as Ee by (intros e; by rewrite abs_edges).
  split; unfold nb_new, nbg; cbn [e_sh e_cur e_vars nb_graph nb_ids].
  - apply nr_new; [set_solver|]. intros i [= <-]. set_solver.
  - done.
  - unfold set_to_map. by rewrite elements_singleton.
  - intros n t. unfold term_at. rewrite Ev. split; [done|]. intros H. by apply elem_of_nil in H.
  - intros a b. split; [intros (e & H)|intros H; by apply elem_of_nil in H]. by rewrite Ee in H.
  - intros id a b. split; [intros (e & H)|intros (? & ? & H); by apply elem_of_nil in H]. by rewrite Ee in H.
  - intros id p. rewrite lookup_empty. split; [done|]. intros (? & ? & ? & H). by apply elem_of_nil in H.
  - intros id H. by left.
Qed.

Definition edge_has (s : sgraph nterm string) (a b : nat) (ob : option string) : Prop := exists e, s_edges s !! e = Some (a, b, ob).
Lemma link_has vw s sw a b : link vw s sw a b <-> exists ob, (edge_has s a b ob \/ edge_has s b a ob) /\
  match ob with None => True | Some id => exists open retained, sw !! id = Some (open, retained) /\ conducts vw open retained end.
Proof.
  unfold link, sjoins, edge_has. split.
  - intros (e & ob & [H|H] & Hc); exists ob; (split; [|done]); [left|right]; by exists e.
  - intros (ob & [[e H]|[e H]] & Hc); exists e, ob; (split; [|done]); [by left|by right].
Qed.
Lemma edge_on s n : on_edge s n <-> exists b ob, edge_has s n b ob \/ edge_has s b n ob.
Proof.
  unfold on_edge, sjoins, edge_has. split.
  - intros (e & b & ob & [H|H]); exists b, ob; [left|right]; by exists e.
  - intros (b & ob & [[e H]|[e H]]); exists e, b, ob; [by left|by right].
Qed.

Lemma describes_copy st i v vl ids ops : ninv false st -> e_cur st = Some i -> e_vars st !! i = Some v ->
  describes (nbg st) (nv_sw v) (nb_kind (e_sh st)) ops ->
  (forall id, is_Some (nb_kind (e_sh st) !! id) -> id <> "" /\ id ∉ ids) ->
  exists st' v', built (nb_new vl ids {[initial_variant]} (Some initial_variant)) ops st' /\ nb_reach fresh_safe st' /\
    e_cur st' = Some initial_variant /\ e_vars st' !! initial_variant = Some v' /\ copy_of (nbg st) (nv_sw v) (nbg st') (nv_sw v').
Proof.
  intros I Hc Hi [HG HU] Hids. pose proof (ni_sh _ _ I) as IS.
  destruct (build_ok ids ops [] _ ∅ (prog_new vl ids)) as (st' & sw' & done & HB & P & HM).
  - intros o Ho. apply HG in Ho. destruct o; try done. cbn [given of_file] in *. apply Hids. destruct Ho as (_ & _ & ->). eauto.
  - intros x y o o' Hx Hy Hs. assert (o' = o) as ->.
    { apply elem_of_list_lookup_2, HG in Hx as Gx. apply elem_of_list_lookup_2, HG in Hy as Gy.
      destruct o; try done; destruct o'; try done; cbn [same_place given] in *; subst.
      - destruct Gx as ((e & G1) & G2 & G3), Gy as ((e' & G1') & G2' & G3').
        pose proof (si_edge _ IS _ _ _ _ G1). pose proof (si_edge _ IS _ _ _ _ G1'). assert (e' = e) as -> by congruence. congruence.
      - unfold term_at in *. congruence. }
    destruct (HU x y o Hx Hy) as [?|(a & b & ->)]; [done|]. done.
  - intros o o' _ H. by apply elem_of_nil in H.
  - assert (forall o, o ∈ done <-> given (nbg st) (nv_sw v) (nb_kind (e_sh st)) o) as HA.
    { intros o. rewrite HM, HG. split; [intros [?|H]; [done|by apply elem_of_nil in H]|by left]. }
    assert (forall a b ob, edge_has (nbg st') a b ob <-> edge_has (nbg st) a b ob) as HE.
    { intros a b [id|].
      - unfold edge_has at 1. rewrite (pr_edge _ _ _ _ P). setoid_rewrite HA. cbn [given]. split; [by intros (k & p & H & _)|]. intros [e H].
        assert (is_Some (nb_kind (e_sh st) !! id)) as [k Hk] by (apply (si_kind _ IS); apply (si_edge _ IS) in H; eauto).
        destruct (proj2 (vi_dom _ _ _ (ni_var _ _ I i v Hi) id) ltac:(eauto)) as [p Hp]. exists k, p. split; [by exists e|done].
      - unfold edge_has at 1. rewrite (pr_int _ _ _ _ P), HA. done. }
    assert (forall a b id, edge_has (nbg st) a b (Some id) -> sw' !! id = nv_sw v !! id) as HP.
    { intros a b id [e He].
      assert (is_Some (nb_kind (e_sh st) !! id)) as [k Hk] by (apply (si_kind _ IS); apply (si_edge _ IS) in He; eauto).
      destruct (proj2 (vi_dom _ _ _ (ni_var _ _ I i v Hi) id) ltac:(eauto)) as [p Hp]. rewrite Hp. apply (pr_pos _ _ _ _ P). exists k, a, b. apply HA. cbn [given]. eauto. }
    exists st', (mkNV sw' None None). split; [done|]. split; [apply P|]. split; [apply P|]. split; [by eapply prog_get|]. split.
    + intros n t. rewrite (pr_term _ _ _ _ P), HA. done.
    + intros vw a b. rewrite !link_has. cbn [nv_sw]. setoid_rewrite HE. split; intros (ob & He & Hcd); exists ob; (split; [done|]); (destruct ob as [id|]; [|done]).
      * destruct He as [He|He]; by rewrite <- (HP _ _ _ He).
      * destruct He as [He|He]; by rewrite (HP _ _ _ He).
    + intros n. rewrite !edge_on. by setoid_rewrite HE.
Qed.
