(** Proofs about [BusValues]. *)
From stdpp Require Import gmap pretty.
From Verif Require Import Base Graph GraphSpec GraphProofs GraphTraverse GraphPaths GraphMore Equip NodeTopo NodeTopoSpec NodeTopoProofs NodeTopoInv NodeTopoConn NodeGroups NodeGroupsSpec NodeGroupsProofs BusValues BusValuesSpec.

(** ** Traversals that stop at the first find *)
Section stop.
  Context {V E X : Type} (f : nat -> nat -> nat -> bool) (w : nat -> nat -> nat -> option X).
  Context (vs : list (option (option V))) (es : list (option (edge E))) (adj : list (list nat)).
  Definition strav (s : option X) (a e b : nat) : option X * bool :=
    match s with Some x => (Some x, false) | None => match w a e b with Some x => (Some x, false) | None => (None, f a e b) end end.
  Definition supd (s : option X) (a e b : nat) : option X := match s with Some x => Some x | None => w a e b end.
  Hypothesis Hw : forall a e b x, w a e b = Some x -> f a e b = false.
  Hypothesis Hadj : forall v l e, adj !! v = Some l -> e ∈ l -> exists ed, es !! e = Some (Some ed) /\ (e_v1 ed = v \/ e_v2 ed = v).
  Hypothesis Hlive : forall e ed, es !! e = Some (Some ed) ->
    (exists o, vs !! e_v1 ed = Some (Some o)) /\ (exists o, vs !! e_v2 ed = Some (Some o)).

  Definition edges_live (l : list nat) : Prop := forall e, e ∈ l -> exists ed, es !! e = Some (Some ed).
  Lemma enc_some (enc : list bool) e ed : es !! e = Some (Some ed) -> length enc = length vs -> is_Some (enc !! e_v1 ed) /\ is_Some (enc !! e_v2 ed).
  Proof using Hlive.
    intros He Hl. destruct (Hlive e ed He) as [[o1 H1] [o2 H2]]. split; apply lookup_lt_is_Some; rewrite Hl; by eapply lookup_lt_Some.
  Qed.

  Lemma found_loop rec l enc x : edges_live l -> length enc = length vs -> trav_edges strav es rec l enc (Some x) = Ok (enc, Some x).
  Proof using Hlive.
    intros Hv Hl. induction l as [|e l IH]; [done|]. cbn [trav_edges]. destruct (Hv e) as [ed He]; [by left|]. rewrite He.
    destruct (enc_some enc e ed He Hl) as [[b1 E1] [b2 E2]]. rewrite E1.
    assert (edges_live l) as Hv' by (intros e' He'; apply Hv; by right). cbn [strav].
    destruct b1; [rewrite E2; destruct b2|]; by apply IH.
  Qed.

  Definition keeps (rec : nat -> list bool -> option X -> result (list bool * option X)) : Prop :=
    forall v enc s enc2 s2, length enc = length vs -> rec v enc s = Ok (enc2, s2) -> length enc2 = length vs /\ forall x, s = Some x -> s2 = Some x.
  Lemma keeps_loop rec l : keeps rec -> forall enc s enc2 s2, length enc = length vs ->
    trav_edges (ptrav f supd) es rec l enc s = Ok (enc2, s2) -> length enc2 = length vs /\ forall x, s = Some x -> s2 = Some x.
  Proof using.
    clear Hw Hadj Hlive.
    intros K. induction l as [|e l IH]; intros enc s enc2 s2 Hl; [by intros [= <- <-]|]. cbn [trav_edges].
    destruct (es !! e) as [[ed|]|]; [|done|done].
    assert (forall a b, match ptrav f supd s a e b with
        | (s', true) => let! r := rec b (<[b := true]> enc) s' in trav_edges (ptrav f supd) es rec l r.1 r.2
        | (s', false) => trav_edges (ptrav f supd) es rec l enc s' end = Ok (enc2, s2) -> length enc2 = length vs /\ forall x, s = Some x -> s2 = Some x) as Hk.
    { intros a b. unfold ptrav at 1. destruct (f a e b).
      - destruct (rec b (<[b:=true]> enc) (supd s a e b)) as [[enc1 s1]|?| |] eqn:Er; [|done|done|done]. cbn [result_bind fst snd]. intros H.
        destruct (K _ _ _ _ _ ltac:(by rewrite insert_length) Er) as [Hl1 H1]. destruct (IH _ _ _ _ Hl1 H) as [Hl2 H2]. split; [done|].
        intros x ->. by apply H2, H1.
      - intros H. destruct (IH _ _ _ _ Hl H) as [Hl2 H2]. split; [done|]. intros x ->. by apply H2. }
    destruct (enc !! e_v1 ed) as [[]|]; [|apply Hk|done]. destruct (enc !! e_v2 ed) as [[]|]; [by apply IH|apply Hk|done].
  Qed.
  Lemma keeps_rec n : keeps (trav_rec (ptrav f supd) vs es adj n).
  Proof using.
    clear Hw Hadj Hlive.
    induction n as [|n IH]; intros v enc s enc2 s2 Hl; [done|]. cbn [trav_rec]. destruct (vs !! v) as [[?|]|]; [|done|done].
    destruct (adj !! v) as [l|]; [|done]. destruct (vset enc v true) as [enc'|?| |] eqn:Ev; [|done|done|done].
    apply keeps_loop; [done|]. unfold vset in Ev. destruct (decide (v < length enc)); [|done]. injection Ev as <-. by rewrite insert_length.
  Qed.

  Definition agrees (rec1 rec2 : nat -> list bool -> option X -> result (list bool * option X)) : Prop :=
    forall v enc enc2 s2, length enc = length vs -> rec2 v enc None = Ok (enc2, s2) ->
      exists enc1, rec1 v enc None = Ok (enc1, s2) /\ length enc1 = length vs /\ (s2 = None -> enc1 = enc2).
  Lemma agrees_loop rec1 rec2 l : keeps rec2 -> agrees rec1 rec2 -> edges_live l -> forall enc enc2 s2, length enc = length vs ->
    trav_edges (ptrav f supd) es rec2 l enc None = Ok (enc2, s2) ->
      exists enc1, trav_edges strav es rec1 l enc None = Ok (enc1, s2) /\ length enc1 = length vs /\ (s2 = None -> enc1 = enc2).
  Proof using Hw Hlive.
    intros K G. induction l as [|e l IH]; intros Hv enc enc2 s2 Hl.
    { intros [= <- <-]. exists enc. done. }
    assert (edges_live l) as Hv' by (intros e' He'; apply Hv; by right). specialize (IH Hv').
    cbn [trav_edges]. destruct (es !! e) as [[ed|]|]; [|done|done].
    assert (forall a b, match ptrav f supd None a e b with
        | (s', true) => let! r := rec2 b (<[b := true]> enc) s' in trav_edges (ptrav f supd) es rec2 l r.1 r.2
        | (s', false) => trav_edges (ptrav f supd) es rec2 l enc s' end = Ok (enc2, s2) ->
      exists enc1, match strav None a e b with
        | (s', true) => let! r := rec1 b (<[b := true]> enc) s' in trav_edges strav es rec1 l r.1 r.2
        | (s', false) => trav_edges strav es rec1 l enc s' end = Ok (enc1, s2) /\ length enc1 = length vs /\ (s2 = None -> enc1 = enc2)) as Hk.
    { intros a b. unfold ptrav at 1. cbn [strav supd]. destruct (w a e b) as [x|] eqn:Ew.
      - rewrite (Hw _ _ _ _ Ew). intros H. destruct (keeps_loop rec2 l K _ _ _ _ Hl H) as [_ H']. rewrite (H' x eq_refl).
        exists enc. rewrite found_loop by done. done.
      - destruct (f a e b); [|by apply IH].
        destruct (rec2 b (<[b:=true]> enc) None) as [[enc3 s3]|?| |] eqn:Er; [|done|done|done]. cbn [result_bind fst snd]. intros H.
        assert (length (<[b:=true]> enc) = length vs) as Hl' by (by rewrite insert_length).
        destruct (G _ _ _ _ Hl' Er) as (enc1 & E1 & Hl1 & H1). rewrite E1. cbn [result_bind fst snd].
        destruct (K _ _ _ _ _ Hl' Er) as [Hl3 _]. destruct s3 as [x|].
        + destruct (keeps_loop rec2 l K _ _ _ _ Hl3 H) as [_ H']. rewrite (H' x eq_refl). exists enc1. rewrite found_loop by done. done.
        + rewrite (H1 eq_refl). by apply IH. }
    destruct (enc !! e_v1 ed) as [[]|]; [|apply Hk|done]. destruct (enc !! e_v2 ed) as [[]|]; [by apply IH|apply Hk|done].
  Qed.
  Lemma agrees_rec n : agrees (trav_rec strav vs es adj n) (trav_rec (ptrav f supd) vs es adj n).
  Proof using Hw Hadj Hlive.
    induction n as [|n IH]; intros v enc enc2 s2 Hl; [done|]. cbn [trav_rec]. destruct (vs !! v) as [[?|]|]; [|done|done].
    destruct (adj !! v) as [l|] eqn:Ea; [|done]. destruct (vset enc v true) as [enc'|?| |] eqn:Ev; [|done|done|done].
    apply agrees_loop; [apply keeps_rec|done| |].
    - intros e He. destruct (Hadj v l e Ea He) as (ed & ? & _). eauto.
    - unfold vset in Ev. destruct (decide (v < length enc)); [|done]. injection Ev as <-. by rewrite insert_length.
  Qed.
End stop.

Lemma traverse_stop {V E X} (g : graph V E) f (w : nat -> nat -> nat -> option X) v enc2 s2 :
  ginv g -> (forall a e b x, w a e b = Some x -> f a e b = false) ->
  (g_traverse (ptrav f (supd w)) g v None).2 = Ok (enc2, s2) ->
  exists enc1, g_traverse (strav f w) g v None = ((g_adjacency g).1, Ok (enc1, s2)).
Proof.
  intros I Hw. unfold g_traverse, g_traverse_enc. destruct (g_check_vertex g v); [|done|done|done].
  destruct (g_adjacency_ok g I) as (H1 & H2 & H3 & _). destruct (g_adjacency g) as [g' r]. cbn [fst snd] in *. subst r. rewrite H2, H3.
  destruct (adj_facts g I) as (F1 & F2 & F3 & F4). intros H.
  assert (length (resize (length (g_vertices g)) false (replicate (length (g_vertices g)) false)) = length (g_vertices g)) as Hl by (by rewrite resize_length).
  destruct (agrees_rec f w (g_vertices g) (g_edges g) _ Hw F2 (inv_edges g I) _ _ _ _ _ Hl H) as (enc1 & En & _).
  cbn [snd] in En. exists enc1. by rewrite En.
Qed.

(** Traversers that answer the same. *)
Section ext.
  Context {V E X : Type} (t1 t2 : X -> nat -> nat -> nat -> X * bool).
  Hypothesis Ht : forall s a e b, t1 s a e b = t2 s a e b.
  Lemma trav_rec_ext (vs : list (option (option V))) (es : list (option (edge E))) adj k : forall x en s0,
    trav_rec t1 vs es adj k x en s0 = trav_rec t2 vs es adj k x en s0.
  Proof using Ht.
    induction k as [|k IH]; intros x en s0; [done|]. cbn [trav_rec]. destruct (vs !! x) as [[?|]|]; [|done|done].
    destruct (adj !! x) as [l|]; [|done]. destruct (vset en x true) as [en'|?| |]; [|done|done|done]. revert en' s0.
    induction l as [|e l IHl]; intros en' s0; [done|]. cbn [trav_edges]. destruct (es !! e) as [[ed|]|]; [|done|done].
    assert (forall a b, match t1 s0 a e b with
      | (s', true) => let! r := trav_rec t1 vs es adj k b (<[b := true]> en') s' in trav_edges t1 es (trav_rec t1 vs es adj k) l r.1 r.2
      | (s', false) => trav_edges t1 es (trav_rec t1 vs es adj k) l en' s' end =
      match t2 s0 a e b with
      | (s', true) => let! r := trav_rec t2 vs es adj k b (<[b := true]> en') s' in trav_edges t2 es (trav_rec t2 vs es adj k) l r.1 r.2
      | (s', false) => trav_edges t2 es (trav_rec t2 vs es adj k) l en' s' end) as Hk.
    { intros a b. rewrite Ht. destruct (t2 s0 a e b) as [s' []]; [|by apply IHl]. rewrite IH.
      destruct (trav_rec t2 vs es adj k b (<[b:=true]> en') s') as [[? ?]|?| |]; [|done|done|done]. cbn [result_bind fst snd]. by apply IHl. }
    destruct (en' !! e_v1 ed) as [[]|]; [|apply Hk|done]. destruct (en' !! e_v2 ed) as [[]|]; [by apply IHl|apply Hk|done].
  Qed.
  Lemma traverse_ext (g : graph V E) v s0 : g_traverse t1 g v s0 = g_traverse t2 g v s0.
  Proof using Ht.
    unfold g_traverse, g_traverse_enc. destruct (g_check_vertex g v); [|done|done|done].
    destruct (g_adjacency g) as [g' [adj|?| |]]; [|done|done|done]. by rewrite trav_rec_ext.
  Qed.
End ext.

(** ** The terminal found *)
Section ft.
  Context (g : graph nterm string) (v : nbvar).
  Hypothesis HI : ginv g.
  Hypothesis HA : sw_alive (nv_sw v) g.
  Notation s := (abs g).
  Notation sw := (nv_sw v).
  Notation f := (eq_go g (Ok v)).
  Definition wft (_ e b : nat) : option (result nterm) := ft_found g (Ok v) e b.

  Lemma ft_strav s0 a e b : ft_visit g (Ok v) s0 a e b = strav f wft s0 a e b.
  Proof using.
    clear HI HA.
    unfold ft_visit, strav, wft, ft_found, eq_go. destruct s0; [done|]. destruct (eq_open g (Ok v) e) as [[]|?| |]; try done.
    destruct (g_vertex_object g b) as [[]|?| |]; done.
  Qed.
  Lemma wft_stops a e b x : wft a e b = Some x -> f a e b = false.
  Proof using.
    clear HI HA.
    unfold wft, ft_found, eq_go. destruct (eq_open g (Ok v) e) as [[]|?| |]; try done. by destruct (g_vertex_object g b) as [[]|?| |].
  Qed.

  Lemma fold_first log r :
    foldl (fun s c => supd wft s c.1.1 c.1.2 c.2) r log = match r with Some x => Some x | None => head (omap (fun c => wft c.1.1 c.1.2 c.2) log) end.
  Proof using.
    clear HI HA.
    revert r. induction log as [|c log IH]; intros r; [by destruct r|]. cbn [foldl]. rewrite IH. destruct r as [x|]; [done|]. cbn [supd omap list_omap].
    by destruct (wft c.1.1 c.1.2 c.2).
  Qed.

  Lemma ft_ok n : is_Some (s_vertices s !! n) ->
    exists enc r, g_traverse (ft_visit g (Ok v)) g n None = ((g_adjacency g).1, Ok (enc, r)) /\
      match r with Some x => exists m t, x = Ok t /\ nearest s sw n m /\ term_at s m t | None => ~ exists m, nearest s sw n m end.
  Proof using HI HA.
    intros Hn. destruct (traverse_enc_ok g f (supd wft) n (replicate (length (g_vertices g)) false) None HI Hn) as (r & log & E1 & E2 & _ & Hr & Hlog & _ & Htg & Hask & Hcall).
    { by rewrite replicate_length. }
    { intros x y Hx. apply lookup_replicate in Hx as [? _]. done. }
    assert (forall w, r !! w = Some true <-> rtc (free_step s sw) n w) as Hr'.
    { intros w. rewrite Hr. assert (rtc (sgo s f) n w <-> rtc (free_step s sw) n w) as ->.
      { split; intros H; (eapply rtc_subrel; [|exact H]; intros ? ?; apply (sgo_free g v HI HA)). }
      split; [intros [H|H]; [|done]|by right]. apply lookup_replicate in H as [? _]. done. }
    rewrite fold_first in E1. destruct (traverse_stop g f wft n _ _ HI wft_stops E1) as [enc Et].
    exists enc, (head (omap (fun c => wft c.1.1 c.1.2 c.2) log)). split.
    { rewrite <- Et. apply traverse_ext. apply ft_strav. }
    destruct (head (omap (fun c => wft c.1.1 c.1.2 c.2) log)) as [x|] eqn:EL.
    - assert (x ∈ omap (fun c => wft c.1.1 c.1.2 c.2) log) as Hm by (destruct (omap _ log); simplify_eq/=; by left).
      apply elem_of_list_omap in Hm as ([[a e] b] & Hc & Hf). destruct (Hlog _ Hc) as [ob Hj]. destruct (Hcall _ _ _ Hc) as [Ha Hb].
      cbn [fst snd] in *. destruct (eq_open_joins g v HA _ _ _ _ Hj) as (o & Eo & Ho). destruct (vertex_live g HI _ _ _ _ Hj) as (t & Et' & Ht).
      unfold wft, ft_found in Hf. rewrite Eo, Et' in Hf. destruct o; [done|]. destruct t as [t|]; [|done]. injection Hf as <-.
      exists b, t. split; [done|]. split; [|done]. split; [done|]. split; [by exists t|]. exists a. split; [by apply Hr'|]. exists e, ob. split; [done|]. by apply Ho.
    - intros (m & Hne & [t Ht] & a & Ha & e & ob & Hj & Hc).
      assert ((a, e, m) ∈ log) as Hin.
      { apply (Hask a e m ob); [by apply Hr'| |done|].
        - intros Hx. apply lookup_replicate in Hx as [? _]. done.
        - rewrite Hr'. intros Hx. apply rtc_inv_r in Hx as [->|(y & _ & _ & Hn')]; [done|]. apply Hn'. by exists t. }
      destruct (eq_open_joins g v HA _ _ _ _ Hj) as (o & Eo & Ho).
      destruct (vertex_live g HI _ _ _ _ Hj) as (t' & Et' & Ht'). apply Ho in Hc as ->.
      unfold term_at in Ht. assert (t' = Some t) as -> by congruence.
      assert (Ok t ∈ omap (fun c => wft c.1.1 c.1.2 c.2) log) as Hm.
      { apply elem_of_list_omap. exists (a, e, m). split; [done|]. cbn [fst snd]. unfold wft, ft_found. by rewrite Eo, Et'. }
      destruct (omap _ log); [by apply elem_of_nil in Hm|done].
  Qed.
End ft.

(** findTerminal for a bus [b] of node [n], from node [n0] of the bus. *)
Lemma find_terminal_ok vw st i v vl n n0 b :
  ninv false st -> e_cur st = Some i -> e_vars st !! i = Some v ->
  in_bus vw (nbg st) (nv_sw v) n -> bus_of vw (nbg st) (nv_sw v) vl n b -> same_node vw (nbg st) (nv_sw v) n n0 ->
  exists r st', find_terminal n0 (cb_terms b) st = (Ok r, st') /\ nbg st' = nbg st /\ e_vars st' = e_vars st /\ e_cur st' = e_cur st /\
    match cb_terms b with
    | t :: _ => r = Some t
    | [] => match r with
            | Some t => exists m, nearest (nbg st) (nv_sw v) n0 m /\ term_at (nbg st) m t
            | None => ~ exists m, nearest (nbg st) (nv_sw v) n0 m
            end
    end.
Proof.
  intros I Hc Hi Hin Hb Hn0. destruct (cb_terms b) as [|t ts]; cbn [find_terminal]; [|by exists (Some t), st].
  assert (aget st = (Ok v, st)) as ->.
  { unfold aget, abind, aindex. rewrite Hc. cbv beta iota. by rewrite Hi. }
  assert (is_Some (s_vertices (nbg st) !! n0)) as Hl.
  { apply on_edge_live; [exact (si_g _ (ni_sh _ _ I))|]. eapply same_node_on_edge; [exact Hn0|apply Hin]. }
  cbn [fst]. destruct (ft_ok (nb_graph (e_sh st)) v (si_g _ (ni_sh _ _ I)) (vinv_alive _ _ _ (ni_sh _ _ I) (ni_var _ _ I i v Hi)) n0 Hl) as (enc & r & E & H).
  unfold abind, gact. rewrite E. cbn [snd].
  destruct r as [x|].
  - destruct H as (m & t & -> & Hm & Ht). eexists (Some t), _. split; [reflexivity|]. unfold nbg. cbn [e_sh nb_set_graph nb_graph].
    split; [by apply same_graph_adj, I|]. split; [done|]. split; [done|]. eauto.
  - eexists None, _. split; [reflexivity|]. unfold nbg. cbn [e_sh nb_set_graph nb_graph].
    split; [by apply same_graph_adj, I|]. done.
Qed.

Section set.
  Context {A : Type} (neg : A -> bool).
  Lemma check_ok x : acceptable neg x -> check_voltage neg x = Ok tt.
  Proof. intros H. unfold check_voltage. destruct x as [a|]; [|done]. by rewrite (H a eq_refl). Qed.
  Lemma terms_set_ok ts x : forall f, acceptable neg x ->
    exists f', terms_set neg ts x f = (Ok tt, f') /\ (forall t, t ∈ ts -> f' t = x) /\ (forall t, t ∉ ts -> f' t = f t).
  Proof.
    induction ts as [|t ts IH]; intros f Hx; cbn [terms_set].
    { exists f. split; [done|]. split; [|done]. intros t Ht. by apply elem_of_nil in Ht. }
    unfold nt_set_v. rewrite check_ok by done. destruct (IH (nt_set t x f) Hx) as (f' & -> & H1 & H2). exists f'. split; [done|]. split.
    - intros t' Ht'. destruct (decide (t' ∈ ts)) as [Hin|Hin]; [by apply H1|]. rewrite H2 by done. apply elem_of_cons in Ht' as [->|?]; [|done].
      unfold nt_set. by rewrite decide_True.
    - intros t' [Hne Hn]%not_elem_of_cons. rewrite H2 by done. unfold nt_set. by rewrite decide_False.
  Qed.
  Lemma merged_set_ok us x : forall f, acceptable neg x ->
    exists f', merged_set neg us x f = (Ok tt, f') /\ (forall u, u ∈ us -> f' u = x) /\ (forall u, u ∉ us -> f' u = f u).
  Proof.
    induction us as [|u us IH]; intros f Hx; cbn [merged_set].
    { exists f. split; [done|]. split; [|done]. intros t Ht. by apply elem_of_nil in Ht. }
    unfold conf_set. rewrite check_ok by done.
    destruct (IH (fun u' => if decide (u' = u) then x else f u') Hx) as (f' & -> & H1 & H2). exists f'. split; [done|]. split.
    - intros t' Ht'. destruct (decide (t' ∈ us)) as [Hin|Hin]; [by apply H1|]. rewrite H2 by done. apply elem_of_cons in Ht' as [->|?]; [|done].
      by rewrite decide_True.
    - intros t' [Hne Hn]%not_elem_of_cons. rewrite H2 by done. by rewrite decide_False.
  Qed.
  Lemma check_refused x : ~ acceptable neg x -> exists m, check_voltage neg x = Throw m.
  Proof.
    intros H. unfold check_voltage. destruct x as [a|].
    - destruct (neg a) eqn:E; [by eexists|]. exfalso. apply H. by intros a' [= <-].
    - exfalso. by apply H.
  Qed.
  Lemma merged_get_all us (f : nat -> option A) x : us <> [] -> (forall u, u ∈ us -> f u = x) -> merged_get us f = x.
  Proof.
    intros Hne H. destruct x as [a|].
    - destruct us as [|u us]; [done|]. cbn [merged_get]. rewrite H by (by left). done.
    - clear Hne. induction us as [|u us IH]; [done|]. cbn [merged_get]. rewrite H by (by left). apply IH. intros u' Hu'. apply H. by right.
  Qed.
  Lemma merged_get_ext us (f f' : nat -> option A) : (forall u, u ∈ us -> f' u = f u) -> merged_get us f' = merged_get us f.
  Proof.
    induction us as [|u us IH]; intros H; [done|]. cbn [merged_get]. rewrite H by (by left). rewrite IH; [done|]. intros u' Hu'. apply H. by right.
  Qed.
End set.

Lemma terms_of vw s sw vl n b t : bus_of vw s sw vl n b -> t ∈ cb_terms b <-> exists m, same_node vw s sw n m /\ term_at s m t.
Proof.
  intros (_ & l & _ & Hl & ->). rewrite elem_of_list_omap. unfold term_at. split.
  - intros (m & Hm & E). exists m. split; [by apply Hl|]. by destruct (s_vertices s !! m) as [[?|]|]; simpl in E; simplify_eq.
  - intros (m & Hm & E). exists m. split; [by apply Hl|]. by rewrite E.
Qed.
Lemma link_view s sw a b : link BusBreakerView s sw a b -> link BusView s sw a b.
Proof. intros (e & ob & Hj & H). exists e, ob. split; [done|]. destruct ob as [id|]; [|done]. destruct H as (o & r & Hs & Ho & _). by exists o, r. Qed.
Lemma same_view vw s sw a b : same_node vw s sw a b -> same_node BusView s sw a b.
Proof. destruct vw; [done|]. intros H. eapply rtc_subrel; [|exact H]. intros x y. apply link_view. Qed.

(** The terminal a bus reads is in its electrical node. *)
Lemma read_near vw st i v vl n n0 b r st' :
  ninv false st -> e_cur st = Some i -> e_vars st !! i = Some v ->
  in_bus vw (nbg st) (nv_sw v) n -> bus_of vw (nbg st) (nv_sw v) vl n b -> same_node vw (nbg st) (nv_sw v) n n0 ->
  find_terminal n0 (cb_terms b) st = (Ok r, st') ->
  match r with
  | Some t => exists m, same_node BusView (nbg st) (nv_sw v) n m /\ term_at (nbg st) m t
  | None => forall m t, same_node BusView (nbg st) (nv_sw v) n m -> ~ term_at (nbg st) m t
  end.
Proof.
  intros I Hc Hi Hin Hb Hn0 E. destruct (find_terminal_ok vw st i v vl n n0 b I Hc Hi Hin Hb Hn0) as (r' & st1 & E' & _ & _ & _ & H).
  rewrite E in E'. injection E' as <- <-. destruct (cb_terms b) as [|t ts] eqn:Eb.
  - destruct r as [t|].
    + destruct H as (m & Hm & Ht). exists m. split; [|done]. apply nearest_same in Hm. etrans; [by eapply same_view|exact Hm].
    + intros m t Hm Ht. apply H. apply (nearest_exists (nb_graph (e_sh st)) v n0 m); [|intros ->|by exists t].
      * etrans; [|exact Hm]. apply same_node_sym. by eapply same_view.
      * assert (t ∈ cb_terms b) as Hx by (eapply terms_of; [exact Hb|]; by exists n0). rewrite Eb in Hx. by apply elem_of_nil in Hx.
  - subst r. assert (t ∈ cb_terms b) as Ht by (rewrite Eb; by left). apply (terms_of _ _ _ _ _ _ _ Hb) in Ht as (m & Hm & Ht).
    exists m. split; [|done]. by eapply same_view.
Qed.
