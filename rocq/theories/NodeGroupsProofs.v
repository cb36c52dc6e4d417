(** Proofs about [NodeGroups]. *)
From stdpp Require Import gmap pretty.
From Verif Require Import Base Graph GraphSpec GraphProofs GraphTraverse GraphMore Equip NodeTopo NodeTopoSpec NodeTopoProofs NodeTopoInv NodeTopoConn NodeGroups NodeGroupsSpec.

Section eq.
  Context (g : graph nterm string) (v : nbvar).
  Hypothesis HI : ginv g.
  Hypothesis HA : sw_alive (nv_sw v) g.
  Notation s := (abs g).
  Notation sw := (nv_sw v).
  Notation f := (eq_go g (Ok v)).

  Lemma eq_open_joins a e b ob : sjoins s a e b ob ->
    exists o, eq_open g (Ok v) e = Ok o /\
      (o = false <-> match ob with None => True | Some id => exists open ret, sw !! id = Some (open, ret) /\ conducts BusView open ret end).
  Proof using HA.
    intros Hj. unfold eq_open. destruct (edge_object_eq g e) as [(x & y & o & E & He)|(m & _ & He)]; [|unfold sjoins in Hj; rewrite He in Hj; naive_solver].
    rewrite E. cbn [result_bind]. assert (o = ob) as -> by (unfold sjoins in Hj; rewrite He in Hj; naive_solver).
    destruct ob as [id|]; [|by exists false]. cbn [result_bind]. destruct (HA _ _ _ _ He) as [[op ret] Hs]. rewrite Hs. exists op. split; [done|]. cbn [fst]. split.
    - intros ->. exists false, ret. done.
    - intros (op' & ret' & [= <- <-] & Hc). by apply Hc.
  Qed.
  Lemma vertex_live a e b ob : sjoins s a e b ob -> exists o, g_vertex_object g b = Ok o /\ s_vertices s !! b = Some o.
  Proof using HI.
    intros Hj. destruct (vertex_object_eq g b) as [H|(m & _ & H)]; [done|].
    assert (on_edge s b) as Hb. { exists e, a, ob. unfold sjoins in *. tauto. }
    apply on_edge_live in Hb as [? Hb]; [congruence|done].
  Qed.
  Lemma sgo_free a b : sgo s f a b <-> free_step s sw a b.
  Proof using HI HA.
    unfold sgo, free_step, link. split.
    - intros (e & ob & Hj & Hf). destruct (eq_open_joins _ _ _ _ Hj) as (o & Eo & Ho). destruct (vertex_live _ _ _ _ Hj) as (t & Et & Ht).
      unfold eq_go in Hf. rewrite Eo, Et in Hf. destruct o, t; try done. split; [exists e, ob; split; [done|by apply Ho]|].
      intros (t & Ht'). unfold term_at in Ht'. congruence.
    - intros ((e & ob & Hj & Hc) & Hn). exists e, ob. split; [done|]. destruct (eq_open_joins _ _ _ _ Hj) as (o & Eo & Ho).
      destruct (vertex_live _ _ _ _ Hj) as (t & Et & Ht). apply Ho in Hc as ->. unfold eq_go. rewrite Eo, Et. destruct t as [t|]; [|done]. destruct Hn. by exists t.
  Qed.

  (** What a call of the traverser records. *)
  Definition found (c : nat * nat * nat) : option nat :=
    match eq_open g (Ok v) c.1.2 with Ok false => match g_vertex_object g c.2 with Ok (Some _) => Some c.2 | _ => None end | _ => None end.
  Lemma fold_found log r : (forall c, c ∈ log -> exists ob, sjoins s c.1.1 c.1.2 c.2 ob) ->
    foldl (fun s c => eq_upd g (Ok v) s c.1.1 c.1.2 c.2) (Ok r) log =
      Ok (match last (omap found log) with Some m => Some m | None => r end).
  Proof using HI HA.
    revert r. induction log as [|c log IH]; intros r H; [done|]. cbn [foldl].
    destruct (H c) as [ob Hj]; [by left|]. destruct (eq_open_joins _ _ _ _ Hj) as (o & Eo & _). destruct (vertex_live _ _ _ _ Hj) as (t & Et & _).
    assert (eq_upd g (Ok v) (Ok r) c.1.1 c.1.2 c.2 = Ok (match found c with Some m => Some m | None => r end)) as ->.
    { unfold eq_upd, found. rewrite Eo. cbn [result_bind]. destruct o; [done|]. rewrite Et. cbn [result_bind]. by destruct t. }
    rewrite IH by (intros c' Hc'; apply H; by right). cbn [omap list_omap]. destruct (found c) as [m|]; [|done].
    rewrite last_cons. by destruct (last (omap found log)).
  Qed.

  Lemma nearest_exists n m : same_node BusView s sw n m -> m <> n -> has_terminal s m -> exists m', nearest s sw n m'.
  Proof using.
    clear HI HA.
    intros Hm Hne Ht. assert (forall x, rtc (free_step s sw) n x -> same_node BusView s sw x m -> exists m', nearest s sw n m') as H.
    { intros x Hx Hxm. revert Hx. induction Hxm as [x|x y z Hxy _ IH]; intros Hx.
      - exfalso. apply rtc_inv_r in Hx as [->|(y & _ & _ & Hn)]; [done|]. done.
      - destruct (decide (y = n)) as [->|Hyn]; [by apply IH|].
        assert (Decision (has_terminal s y)) as D.
        { destruct (s_vertices s !! y) as [[t|]|] eqn:E; [left; by exists t|right|right]; intros (t & Ht'); unfold term_at in Ht'; congruence. }
        destruct D as [Hy|Hy]; [exists y; split; [done|]; split; [done|]; by exists x|]. apply IH; [done|done|done|]. eapply rtc_r; [exact Hx|]. by split. }
    apply (H n); [done|done].
  Qed.
  Lemma free_same a b : rtc (free_step s sw) a b -> same_node BusView s sw a b.
  Proof using. intros H. eapply rtc_subrel; [|exact H]. by intros x y [? _]. Qed.
  Lemma nearest_same n m : nearest s sw n m -> same_node BusView s sw n m.
  Proof using. intros (_ & _ & a & Ha & Hl). eapply rtc_r; [by apply free_same|done]. Qed.

  Lemma equivalent_ok n : is_Some (s_vertices s !! n) ->
    exists enc r, g_traverse (eq_visit g (Ok v)) g n (Ok None) = ((g_adjacency g).1, Ok (enc, Ok r)) /\
      match r with Some m => nearest s sw n m | None => ~ exists m, nearest s sw n m end.
  Proof using HI HA.
    intros Hn. destruct (traverse_enc_ok g f (eq_upd g (Ok v)) n (replicate (length (g_vertices g)) false) (Ok None) HI Hn) as (r & log & E1 & E2 & _ & Hr & Hlog & _ & Htg & Hask & Hcall).
    { by rewrite replicate_length. }
    { intros x y Hx. apply lookup_replicate in Hx as [? _]. done. }
    assert (forall w, r !! w = Some true <-> rtc (free_step s sw) n w) as Hr'.
    { intros w. rewrite Hr. assert (rtc (sgo s f) n w <-> rtc (free_step s sw) n w) as ->.
      { split; intros H; (eapply rtc_subrel; [|exact H]; intros ? ?; apply sgo_free). }
      split; [intros [H|H]; [|done]|by right]. apply lookup_replicate in H as [? _]. done. }
    rewrite (fold_found log None) in E1.
    2:{ intros c Hc. by apply Hlog. }
    exists r, (last (omap found log)). unfold g_traverse.
    change (eq_visit g (Ok v)) with (ptrav f (eq_upd g (Ok v))).
    destruct (g_traverse_enc (ptrav f (eq_upd g (Ok v))) g n (replicate (length (g_vertices g)) false) (Ok None)) as [g' rr] eqn:ET.
    cbn [fst snd] in E1, E2. subst g' rr. split; [by destruct (last (omap found log))|].
    destruct (last (omap found log)) as [m|] eqn:EL.
    - assert (m ∈ omap found log) as Hm by (apply last_Some_elem_of in EL; done).
      apply elem_of_list_omap in Hm as ([[a e] b] & Hc & Hf). destruct (Hlog _ Hc) as [ob Hj]. destruct (Hcall _ _ _ Hc) as [Ha Hb].
      cbn [fst snd] in *. destruct (eq_open_joins _ _ _ _ Hj) as (o & Eo & Ho). destruct (vertex_live _ _ _ _ Hj) as (t & Et & Ht).
      unfold found in Hf. cbn [fst snd] in Hf. rewrite Eo, Et in Hf. destruct o; [done|]. destruct t as [t|]; [|done]. injection Hf as <-.
      split; [done|]. split; [by exists t|]. exists a. split; [by apply Hr'|]. exists e, ob. split; [done|]. by apply Ho.
    - intros (m & Hne & [t Ht] & a & Ha & e & ob & Hj & Hc). apply last_None in EL.
      assert ((a, e, m) ∈ log) as Hin.
      { apply (Hask a e m ob); [by apply Hr'| |done|].
        - intros Hx. apply lookup_replicate in Hx as [? _]. done.
        - rewrite Hr'. intros Hx. apply rtc_inv_r in Hx as [->|(y & _ & _ & Hn')]; [done|]. apply Hn'. by exists t. }
      assert (m ∈ omap found log) as Hm; [|rewrite EL in Hm; by apply elem_of_nil in Hm].
      apply elem_of_list_omap. exists (a, e, m). split; [done|]. destruct (eq_open_joins _ _ _ _ Hj) as (o & Eo & Ho).
      destruct (vertex_live _ _ _ _ Hj) as (t' & Et & Ht'). unfold found. cbn [fst snd]. rewrite Eo, Et. apply Ho in Hc as ->.
      unfold term_at in Ht. assert (t' = Some t) as -> by congruence. done.
  Qed.
End eq.

Lemma nb_equivalent_ok b n st i v : ninv b st -> e_cur st = Some i -> e_vars st !! i = Some v -> is_Some (s_vertices (nbg st) !! n) ->
  exists r st', nb_equivalent n st = (Ok r, st') /\ ninv b st' /\ same_but_cache st st' /\ e_vars st' = e_vars st /\
    match r with Some m => nearest (nbg st) (nv_sw v) n m | None => ~ exists m, nearest (nbg st) (nv_sw v) n m end.
Proof.
  intros I Hc Hi Hn. unfold nb_equivalent.
  assert (aget st = (Ok v, st)) as ->.
  { unfold aget, abind, aindex. rewrite Hc. cbv beta iota. by rewrite Hi. }
  cbn [fst]. destruct (equivalent_ok (nb_graph (e_sh st)) v (si_g _ (ni_sh _ _ I)) (vinv_alive _ _ _ (ni_sh _ _ I) (ni_var _ _ I i v Hi)) n Hn) as (enc & r & E & H).
  exists r, (mkE (nb_set_graph (e_sh st) (g_adjacency (nb_graph (e_sh st))).1) (e_vars st) (e_cur st)).
  assert (same_sh (e_sh st) (nb_set_graph (e_sh st) (g_adjacency (nb_graph (e_sh st))).1)) as S.
  { unfold same_sh. cbn [nb_set_graph nb_id nb_sw nb_kind nb_ids nb_graph]. repeat (split; [done|]). apply same_graph_adj, I. }
  split. { unfold abind, gact. rewrite E. reflexivity. }
  split. { split; [exact (ni_wf _ _ I)|by eapply same_sh_inv, I|]. intros j w Hw. eapply same_sh_vinv; [exact S|]. by apply (ni_var _ _ I j w). }
  split. { split; [done|]. split; [done|]. intros j. cbn [e_vars]. destruct (e_vars st !! j) as [w|] eqn:Ej; [left; by exists w, w|by right]. }
  done.
Qed.

(** The state during the loop: same topology and positions as at the start. *)
Definition lookup_nodes (acc : gmap string (gset nat)) (k : string) (n : nat) : Prop := exists N, acc !! k = Some N /\ n ∈ N.
Definition nonempty (acc : gmap string (gset nat)) : Prop := forall k N, acc !! k = Some N -> N <> ∅.
Definition node_in (st : nbst) (v : nbvar) (k : string) (n : nat) : Prop :=
  in_bus BusView (nbg st) (nv_sw v) n /\ bus_name BusView (nbg st) (nv_sw v) (nb_id (e_sh st)) n k.

Lemma node_in_same st v k n m : same_node BusView (nbg st) (nv_sw v) n m -> node_in st v k n -> node_in st v k m.
Proof.
  intros H [[H1 H2] H3]. split; [|by eapply bus_name_same]. split; [by eapply same_node_on_edge|by eapply valid_same].
Qed.
Lemma node_in_sbc st st' i v v' k n : same_but_cache st st' -> e_vars st !! i = Some v -> e_vars st' !! i = Some v' ->
  node_in st' v' k n <-> node_in st v k n.
Proof.
  intros S Hi Hi'. destruct (sbc_graph _ _ S) as [Eg _]. destruct (sbc_cur_var _ _ i v S Hi) as (w & Hw & Es). assert (w = v') as -> by congruence.
  destruct S as ((Eid & _) & _). unfold node_in. rewrite Eg, Es, Eid. done.
Qed.

Lemma bus_of_node_ninv vw n st : ninv true st -> (nb_bus_of_node vw n st).1 <> UB /\ ninv true (nb_bus_of_node vw n st).2.
Proof.
  intros I. pose proof (bus_of_node_tri (ninv true) vw n true st I ltac:(done) st eq_refl) as T.
  destruct (nb_bus_of_node vw n st) as [[ob|e| |] st']; cbn [fst snd]; (split; [done|]); naive_solver.
Qed.

Lemma add_node_ok n m acc st i v : ninv true st -> e_cur st = Some i -> e_vars st !! i = Some v -> is_Some (s_vertices (nbg st) !! m) ->
  nonempty acc ->
  exists acc' st', add_node n m acc st = (Ok acc', st') /\ ninv true st' /\ same_but_cache st st' /\ nonempty acc' /\
    forall k x, lookup_nodes acc' k x <-> lookup_nodes acc k x \/ (x = n /\ node_in st v k m).
Proof.
  intros I Hc Hi Hm Hne. destruct (right_answer BusView m st (or_introl I) ltac:(eauto) Hm) as (ob & st' & E & S & R).
  destruct (bus_of_node_ninv BusView m st I) as [_ I']. rewrite E in I'. cbn [snd] in I'.
  destruct R as (i' & v' & Hc' & Hi' & R). assert (i' = i) as -> by congruence. assert (v' = v) as -> by congruence.
  unfold add_node. rewrite (abind_Ok _ _ _ _ _ E). eexists _, st'. split; [reflexivity|]. split; [done|]. split; [done|].
  destruct ob as [b|].
  - destruct R as [R1 [R2 _]]. split.
    + intros k N. destruct (decide (k = cb_id b)) as [->|Hk]; [rewrite lookup_insert; intros [= <-]; set_solver|rewrite lookup_insert_ne by done; apply Hne].
    + intros k x. unfold lookup_nodes. destruct (decide (k = cb_id b)) as [->|Hk].
      * rewrite lookup_insert. split.
        -- intros (N & [= <-] & [->%elem_of_singleton|Hx]%elem_of_union); [right; by repeat split; destruct R1|].
           left. destruct (acc !! cb_id b) as [N|] eqn:EN; [by exists N|]. simpl in Hx. set_solver.
        -- intros H. eexists. split; [done|]. apply elem_of_union. destruct H as [(N & EN & Hx)|[-> _]]; [right; by rewrite EN|left; set_solver].
      * rewrite lookup_insert_ne by done. split; [by left|]. intros [?|[_ [_ Hk']]]; [done|]. destruct Hk. by eapply bus_name_fun.
  - split; [done|]. intros k x. split; [by left|]. intros [?|[_ [Hin _]]]; [done|]. done.
Qed.

Lemma nodes_loop_ok ns : forall acc st i v, ninv true st -> e_cur st = Some i -> e_vars st !! i = Some v ->
  (forall n, n ∈ ns -> is_Some (s_vertices (nbg st) !! n)) -> nonempty acc ->
  exists acc' st', nodes_loop ns acc st = (Ok acc', st') /\ same_but_cache st st' /\ nonempty acc' /\
    forall k x, lookup_nodes acc' k x <-> lookup_nodes acc k x \/ (x ∈ ns /\ node_in st v k x).
Proof.
  induction ns as [|n ns IH]; intros acc st i v I Hc Hi Hns Hne.
  { exists acc, st. split; [done|]. split; [by eapply sbc_refl|]. split; [done|]. intros k x. split; [by left|]. intros [?|[Hx _]]; [done|]. by apply elem_of_nil in Hx. }
  (* what remains after a step *)
  assert (Hk : forall acc1 st1, ninv true st1 -> same_but_cache st st1 -> nonempty acc1 ->
    (forall k x, lookup_nodes acc1 k x <-> lookup_nodes acc k x \/ (x = n /\ node_in st v k n)) ->
    exists acc' st', nodes_loop ns acc1 st1 = (Ok acc', st') /\ same_but_cache st st' /\ nonempty acc' /\
      forall k x, lookup_nodes acc' k x <-> lookup_nodes acc k x \/ (x ∈ n :: ns /\ node_in st v k x)).
  { intros acc1 st1 I1 S1 Hne1 H1. destruct (sbc_cur_var _ _ i v S1 Hi) as (v1 & Hi1 & _).
    destruct (IH acc1 st1 i v1) as (acc' & st' & E & S & Hne' & H); [done|by rewrite (sbc_cur _ _ S1)|done| |done|].
    { intros m Hm. destruct (sbc_graph _ _ S1) as [-> _]. apply Hns. by right. }
    exists acc', st'. split; [done|]. split; [by eapply sbc_trans|]. split; [done|]. intros k x.
    rewrite H, H1, elem_of_cons, (node_in_sbc _ _ _ _ _ _ _ S1 Hi Hi1). naive_solver. }
  cbn [nodes_loop]. rewrite (abind_Ok ashared _ st (e_sh st) st eq_refl).
  destruct (Hns n) as [o Ho]; [by left|]. destruct (vertex_object_eq (nb_graph (e_sh st)) n) as [(o' & E & Ho')|(m & _ & Ho')]; [|unfold nbg in Ho; congruence].
  assert (o' = o) as -> by (unfold nbg in Ho; congruence). unfold abind at 1, alift at 1. rewrite E. destruct o as [t|].
  - destruct (add_node_ok n n acc st i v I Hc Hi ltac:(eauto) Hne) as (acc1 & st1 & E1 & I1 & S1 & Hne1 & H1).
    rewrite (abind_Ok _ _ _ _ _ E1). by apply Hk.
  - destruct (nb_equivalent_ok true n st i v I Hc Hi ltac:(eauto)) as (r & st1 & E1 & I1 & S1 & Ev1 & H1).
    rewrite (abind_Ok _ _ _ _ _ E1). destruct r as [m|].
    + assert (same_node BusView (nbg st) (nv_sw v) n m) as Hnm by (by eapply nearest_same).
      destruct (sbc_graph _ _ S1) as [Eg _].
      destruct (add_node_ok n m acc st1 i v I1) as (acc1 & st2 & E2 & I2 & S2 & Hne2 & H2); [by rewrite (sbc_cur _ _ S1)|by rewrite Ev1| |done|].
      { rewrite Eg. destruct H1 as (_ & [t Ht] & _). unfold term_at in Ht. rewrite Ht. eauto. }
      rewrite (abind_Ok _ _ _ _ _ E2). apply Hk; [done|by eapply sbc_trans|done|]. intros k x. rewrite H2.
      rewrite (node_in_sbc st st1 i v v k m S1 Hi) by (by rewrite Ev1).
      assert (node_in st v k m <-> node_in st v k n) as ->; [|done].
      split; apply node_in_same; [by apply same_node_sym|done].
    + apply Hk; [done|done|done|]. intros k x. split; [by left|]. intros [?|[_ [[_ Hv] _]]]; [done|]. exfalso.
      assert (exists m, same_node BusView (nbg st) (nv_sw v) n m /\ has_terminal (nbg st) m) as (m & Hm & Ht).
      { destruct Hv as [(a & b & ta & tb & Ha & _ & Hta & _)|(a & b & ta & tb & _ & Ha & _ & Hta & _)]; exists a; (split; [done|by exists ta]). }
      apply H1. apply (nearest_exists (nb_graph (e_sh st)) v n m); [done| |done].
      intros ->. destruct Ht as [t Ht]. unfold term_at in Ht. congruence.
Qed.

Lemma nodes_by_bus_ok st i v : ninv true st -> e_cur st = Some i -> e_vars st !! i = Some v ->
  exists m st', nb_nodes_by_bus st = (Ok m, st') /\ same_but_cache st st' /\ nonempty m /\ forall k n, lookup_nodes m k n <-> node_in st v k n.
Proof.
  intros I Hc Hi. unfold nb_nodes_by_bus. rewrite (abind_Ok ashared _ st (e_sh st) st eq_refl).
  assert (Hv : forall n, n ∈ g_get_vertices (nb_graph (e_sh st)) <-> is_Some (s_vertices (nbg st) !! n)).
  { intros n. apply g_get_vertices_spec. }
  destruct (nodes_loop_ok (g_get_vertices (nb_graph (e_sh st))) ∅ st i v I Hc Hi) as (m & st' & E & S & Hne & H); [intros; by apply Hv|by intros k N|].
  exists m, st'. split; [done|]. split; [done|]. split; [done|]. intros k n. rewrite H. split.
  - intros [(N & HN & _)|[_ ?]]; [by rewrite lookup_empty in HN|done].
  - intros Hn. right. split; [|done]. apply Hv. apply on_edge_live; [exact (si_g _ (ni_sh _ _ I))|]. by destruct Hn as [[? _] _].
Qed.
