(** Merged buses: correctness of updateCache (C33). *)
From stdpp Require Import gmap pretty sorting.
From Verif Require Import Base Graph GraphSpec GraphProofs GraphTraverse GraphPaths GraphMore Equip NodeTopo NodeTopoProofs NodeTopoInv BusTopo BusTopoSpec.

Notation BG := (graph nat string).
Notation SG := (sgraph nat string).

(** Graphs equal up to the adjacency cache. *)
Definition sameg (g g' : BG) : Prop := g_vertices g' = g_vertices g /\ g_edges g' = g_edges g /\ ginv g'.
Lemma sameg_refl g : ginv g -> sameg g g.
Proof. done. Qed.
Lemma sameg_trans g g' g'' : sameg g g' -> sameg g' g'' -> sameg g g''.
Proof. intros (? & ? & ?) (? & ? & ?). split; [congruence|]. split; [congruence|done]. Qed.
Lemma sameg_abs g g' : sameg g g' -> abs g' = abs g.
Proof.
  intros (E1 & E2 & _). apply sgraph_eq; intros i; [by rewrite !abs_vertices, E1|by rewrite !abs_edges, E2].
Qed.
Lemma edge_live (g : BG) e a b o : ginv g -> s_edges (abs g) !! e = Some (a, b, o) ->
  is_Some (s_vertices (abs g) !! a) /\ is_Some (s_vertices (abs g) !! b).
Proof.
  intros I. rewrite abs_edges. destruct (g_edges g !! e) as [[ed|]|] eqn:E; simpl; try done.
  unfold ends. intros [= <- <- <-]. destruct (inv_edges g I e ed E) as [[o1 H1] [o2 H2]].
  rewrite !abs_vertices, H1, H2. simpl. split; eauto.
Qed.
Lemma sameg_adj g : ginv g -> sameg g (g_adjacency g).1.
Proof. intros I. destruct (g_adjacency_ok g I) as (_ & H2 & H3 & H4 & H5). done. Qed.

(** ** Counting branches *)
Section count.
  Context (v : bbvar).
  Definition known (t : nterm) : Prop := is_Some (bv_conn v !! t) /\ nt_type t <> BUSBAR_SECTION.
  Lemma branch_count1_ok t : known t -> exists n, branch_count1 v t = Ok n /\ (1 <= n <-> connected v t /\ is_branch t).
  Proof.
    intros [[[c i] E] Ht]. unfold branch_count1, connected, is_branch. rewrite E. destruct c.
    2:{ exists 0. split; [done|]. split; [lia|]. intros [[x [=]] _]. }
    destruct (nt_type t) eqn:Et; try done; eexists; (split; [reflexivity|]); (split; [intros H|intros [_ H]]);
      first [lia | (split; [eauto|tauto]) | (exfalso; naive_solver)].
  Qed.
  Lemma branch_count_ok ts : (forall t, t ∈ ts -> known t) ->
    exists n, branch_count v ts = Ok n /\ (1 <= n <-> exists t, t ∈ ts /\ connected v t /\ is_branch t).
  Proof.
    induction ts as [|t ts IH]; intros H.
    { exists 0. split; [done|]. split; [lia|]. intros (t & Ht & _). by apply elem_of_nil in Ht. }
    destruct (branch_count1_ok t) as (n & E & Hn); [apply H; by left|].
    destruct IH as (m & E' & Hm); [intros t' Ht'; apply H; by right|].
    exists (n + m). cbn [branch_count]. rewrite E. cbn [result_bind]. rewrite E'. cbn [result_bind]. split; [done|]. split.
    - intros Hs. destruct (decide (1 <= n)) as [L|L].
      + exists t. split; [by left|]. by apply Hn.
      + destruct (proj1 Hm) as (t' & ? & ?); [lia|]. exists t'. split; [by right|done].
    - intros (t' & [->|Ht']%elem_of_cons & Hc); [apply Hn in Hc; lia|]. assert (1 <= m) by (apply Hm; eauto). lia.
  Qed.
  Lemma branch_counts_ok us : (forall u, u ∈ us -> exists l, bv_terms v !! u = Some l /\ forall t, t ∈ l -> known t) ->
    exists n, branch_counts v us = Ok n /\
      (1 <= n <-> exists u l t, u ∈ us /\ bv_terms v !! u = Some l /\ t ∈ l /\ connected v t /\ is_branch t).
  Proof.
    induction us as [|u us IH]; intros H.
    { exists 0. split; [done|]. split; [lia|]. intros (u & l & t & Hu & _). by apply elem_of_nil in Hu. }
    destruct (H u) as (l & El & Hl); [by left|].
    destruct (branch_count_ok l Hl) as (n & E & Hn).
    destruct IH as (m & E' & Hm); [intros u' Hu'; apply H; by right|].
    exists (n + m). cbn [branch_counts]. rewrite El, E. cbn [result_bind]. rewrite E'. cbn [result_bind]. split; [done|]. split.
    - intros Hs. destruct (decide (1 <= n)) as [L|L].
      + apply Hn in L as (t & ? & ?). exists u, l, t. split; [by left|]. done.
      + destruct (proj1 Hm) as (u' & l' & t' & ? & ?); [lia|]. exists u', l', t'. split; [by right|done].
    - intros (u' & l' & t' & [->|Hu']%elem_of_cons & Hl' & Ht & Hc).
      + rewrite El in Hl'. injection Hl' as <-. assert (1 <= n) by (apply Hn; eauto). lia.
      + assert (1 <= m) by (apply Hm; exists u', l', t'; done). lia.
  Qed.
End count.

(** ** The loop of updateCache *)
Section loop.
  Context (vl : string) (v : bbvar) (s : SG).
  Definition obj (x u : nat) : Prop := s_vertices s !! x = Some (Some u).
  Definition vlink (x y : nat) : Prop := exists e k, sjoins s x e y (Some k) /\ bv_open v !! k = Some false.
  Definition vval (x : nat) : Prop :=
    exists y u l t, rtc vlink x y /\ obj y u /\ bv_terms v !! u = Some l /\ t ∈ l /\ connected v t /\ is_branch t.

  (** The objects are alive. *)
  Record sound : Prop := {
    so_obj : forall x o, s_vertices s !! x = Some o -> exists u l, o = Some u /\ bv_terms v !! u = Some l /\ forall t, t ∈ l -> known v t;
    so_inj : forall x y u, obj x u -> obj y u -> x = y;
    so_edge : forall e a b o, s_edges s !! e = Some (a, b, o) -> exists k, o = Some k /\ is_Some (bv_open v !! k)
  }.

  Lemma vlink_sym x y : vlink x y -> vlink y x.
  Proof. intros (e & k & [H|H] & Ho); exists e, k; (split; [|done]); [right|left]; done. Qed.
  Lemma vgroup_sym x y : rtc vlink x y -> rtc vlink y x.
  Proof. apply rtc_sym, vlink_sym. Qed.

  Definition group_of (x : nat) (us : list nat) : Prop := NoDup us /\ forall u, u ∈ us <-> exists y, rtc vlink x y /\ obj y u.

  Record cache_good (c : mcache) : Prop := {
    cg_map : forall u k, mc_map c !! u = Some k -> exists x us, obj x u /\ vval x /\ mc_id c !! k = Some us /\ group_of x us;
    cg_has : forall x u, obj x u -> vval x -> is_Some (mc_map c !! u);
    cg_id : forall k us, mc_id c !! k = Some us -> us <> [] /\ forall u, u ∈ us -> mc_map c !! u = Some k;
    cg_num : exists n, forall k, is_Some (mc_id c !! k) <-> exists j, j < n /\ k = merged_id vl j
  }.

  Record minv (cap : nat) (enc : list bool) (n : nat) (c : mcache) : Prop := {
    mi_len : length enc = cap;
    mi_closed : forall x y, enc !! x = Some true -> vlink x y -> enc !! y = Some true;
    mi_map : forall u k, mc_map c !! u = Some k -> exists x us, obj x u /\ enc !! x = Some true /\ vval x /\ mc_id c !! k = Some us /\ group_of x us;
    mi_has : forall x u, enc !! x = Some true -> obj x u -> vval x -> is_Some (mc_map c !! u);
    mi_id : forall k us, mc_id c !! k = Some us -> us <> [] /\ forall u, u ∈ us -> mc_map c !! u = Some k;
    mi_num : forall k, is_Some (mc_id c !! k) <-> exists j, j < n /\ k = merged_id vl j
  }.

  Lemma merged_id_inj j j' : merged_id vl j = merged_id vl j' -> j = j'.
  Proof. apply name_inj. Qed.

  Lemma fill_lookup (k : string) us (m : gmap nat string) u :
    foldl (fun m u => match m !! u with Some _ => m | None => <[u := k]> m end) m us !! u =
      match m !! u with Some k' => Some k' | None => if bool_decide (u ∈ us) then Some k else None end.
  Proof.
    revert m. induction us as [|w us IH]; intros m; cbn [foldl].
    { destruct (m !! u); [done|]. rewrite bool_decide_eq_false_2; [done|]. apply not_elem_of_nil. }
    rewrite IH. destruct (m !! w) as [k'|] eqn:Ew.
    - destruct (m !! u) as [k''|] eqn:Eu; [done|]. rewrite (bool_decide_ext (u ∈ us) (u ∈ w :: us)); [done|]. rewrite elem_of_cons.
      split; [by right|]. intros [->|?]; [congruence|done].
    - destruct (decide (w = u)) as [->|Hne].
      + rewrite lookup_insert, Ew. rewrite bool_decide_eq_true_2; [done|by left].
      + rewrite lookup_insert_ne by done. destruct (m !! u); [done|]. rewrite (bool_decide_ext (u ∈ us) (u ∈ w :: us)); [done|]. rewrite elem_of_cons.
        split; [by right|]. intros [->|?]; [congruence|done].
  Qed.

  Section graph.
    Context (HS : sound).
    Lemma link_eval g x e y ob : abs g = s -> ginv g -> sjoins s x e y ob ->
      exists k (o : bool) u, ob = Some k /\ bv_open v !! k = Some o /\ obj y u /\ mv_edge v g e y = Ok (if o then None else Some u).
    Proof.
      intros Ha I Hj.
      assert (exists a b, s_edges s !! e = Some (a, b, ob) /\ (a = y \/ b = y)) as (a & b & He & Hab) by (destruct Hj; eauto).
      destruct (so_edge HS e a b ob He) as (k & -> & [o Ho]).
      assert (exists u, obj y u) as [u Hu].
      { assert (is_Some (s_vertices s !! y)) as [w Hw].
        { destruct (edge_live g e a b (Some k) I) as [H1 H2]; [by rewrite Ha|]. rewrite Ha in H1, H2. destruct Hab as [<-|<-]; done. }
        destruct (so_obj HS y w Hw) as (u & l & -> & _). by exists u. }
      exists k, o, u. split; [done|]. split; [done|]. split; [done|]. unfold mv_edge.
      destruct (edge_object_eq g e) as [(a' & b' & o' & -> & He')|(m & _ & He')]; rewrite Ha, He in He'; [|done].
      injection He' as <- <- <-. rewrite Ho. destruct o; [done|].
      destruct (vertex_object_eq g y) as [(w & -> & Hw)|(m & _ & Hw)]; rewrite Ha in Hw; unfold obj in Hu; rewrite Hu in Hw; [|done].
      by injection Hw as <-.
    Qed.
    Lemma sgo_vlink g x y : abs g = s -> ginv g -> sgo s (mv_go v g) x y <-> vlink x y.
    Proof.
      intros Ha I. split.
      - intros (e & ob & Hj & Hgo). destruct (link_eval g x e y ob Ha I Hj) as (k & o & u & -> & Ho & Hu & E).
        unfold mv_go in Hgo. rewrite E in Hgo. destruct o; [done|]. exists e, k. done.
      - intros (e & k & Hj & Ho). exists e, (Some k). split; [done|].
        destruct (link_eval g x e y _ Ha I Hj) as (k' & o & u & [= <-] & Ho' & Hu & E). unfold mv_go. rewrite E.
        rewrite Ho in Ho'. by injection Ho' as <-.
    Qed.
    Lemma rtc_sgo g x y : abs g = s -> ginv g -> rtc (sgo s (mv_go v g)) x y <-> rtc vlink x y.
    Proof.
      intros Ha I. split; induction 1 as [|a b c H _ IH]; try apply rtc_refl; (eapply rtc_l; [|exact IH]); by apply (sgo_vlink g).
    Qed.
    (** What the visitor accumulates. *)
    Lemma replay g (log : list (nat * nat * nat)) us0 : abs g = s -> ginv g -> (forall c, c ∈ log -> exists ob, sjoins s c.1.1 c.1.2 c.2 ob) ->
      exists us, foldl (fun st c => mv_upd v g st c.1.1 c.1.2 c.2) (Ok us0) log = Ok (us0 ++ us) /\
        Forall2 obj (map snd (filter (fun c => mv_go v g c.1.1 c.1.2 c.2 = true) log)) us.
    Proof.
      intros Ha I. revert us0. induction log as [|c log IH]; intros us0 H.
      { exists []. rewrite app_nil_r. split; [done|]. constructor. }
      destruct (H c) as [ob Hj]; [by left|]. destruct (link_eval g _ _ _ _ Ha I Hj) as (k & o & u & -> & Ho & Hu & E).
      cbn [foldl]. unfold mv_upd at 2. cbn [result_bind]. rewrite E. cbn [result_bind]. rewrite filter_cons.
      assert (mv_go v g c.1.1 c.1.2 c.2 = negb o) as Eg by (unfold mv_go; rewrite E; by destruct o). destruct o.
      - destruct (IH us0) as (us & E1 & F); [intros; apply H; by right|]. exists us. split; [done|]. rewrite decide_False by (by rewrite Eg). done.
      - destruct (IH (us0 ++ [u])) as (us & E1 & F); [intros; apply H; by right|]. exists (u :: us). rewrite <- app_assoc in E1.
        split; [done|]. rewrite decide_True by done. simpl. by constructor.
    Qed.

    Lemma resize_enc {St} (trav : St -> nat -> nat -> nat -> St * bool) (g : BG) x enc st : ginv g ->
      g_traverse_enc trav g x enc st = g_traverse_enc trav g x (resize (length (g_vertices g)) false enc) st.
    Proof.
      intros I. unfold g_traverse_enc. destruct (g_check_vertex g x); try done.
      destruct (g_adjacency_ok g I) as (H1 & H2 & H3 & _). destruct (g_adjacency g) as [g' r]. cbn [fst snd] in *. rewrite H2.
      destruct r; [|done..]. by rewrite resize_idemp.
    Qed.

    Lemma forall2_obj xs us : Forall2 (obj) xs us -> NoDup xs -> NoDup us /\ forall u, u ∈ us <-> exists x, x ∈ xs /\ obj x u.
    Proof.
      induction 1 as [|x u xs us Hx F IH]; intros ND.
      { split; [constructor|]. intros u. split; [by intros ?%elem_of_nil|]. by intros (x & ?%elem_of_nil & _). }
      apply NoDup_cons in ND as [N1 N2]. destruct (IH N2) as [IH1 IH2]. split.
      - apply NoDup_cons. split; [|done]. rewrite IH2. intros (y & Hy & Ho). assert (y = x) as -> by (by eapply (so_inj HS)). done.
      - intros w. rewrite elem_of_cons, IH2. split.
        + intros [->|(y & Hy & Ho)]; [exists x|exists y]; (split; [|done]); [by left|by right].
        + intros (y & [->|Hy]%elem_of_cons & Ho); [left; unfold obj in *; congruence|right; eauto].
    Qed.

    Lemma mb_loop_ok l g enc n c : abs g = s -> ginv g -> minv (length (g_vertices g)) enc n c ->
      (forall x, x ∈ l -> is_Some (s_vertices s !! x)) ->
      exists g' c' enc' n', mb_loop vl v l g enc n c = (g', Ok c') /\ sameg g g' /\ minv (length (g_vertices g)) enc' n' c' /\
        (forall x, enc !! x = Some true -> enc' !! x = Some true) /\ forall x, x ∈ l -> enc' !! x = Some true.
    Proof.
      revert g enc n c. induction l as [|x l IH]; intros g enc n c Ha I J HL.
      { exists g, c, enc, n. split; [done|]. split; [done|]. split; [done|]. split; [done|]. by intros x ?%elem_of_nil. }
      destruct (HL x) as [o Ho]; [by left|]. destruct (so_obj HS x o Ho) as (u & lt & -> & Elt & Hkn).
      assert (x < length (g_vertices g)) as Hlt.
      { rewrite <- Ha, abs_vertices in Ho. destruct (g_vertices g !! x) eqn:Ex; [|done]. by apply lookup_lt_Some in Ex. }
      cbn [mb_loop]. destruct (enc !! x) as [b|] eqn:Ee.
      2:{ apply lookup_ge_None in Ee. rewrite (mi_len _ _ _ _ J) in Ee. lia. }
      assert (forall y, y ∈ l -> is_Some (s_vertices s !! y)) as HL' by (intros; apply HL; by right).
      destruct b.
      { destruct (IH g enc n c Ha I J HL') as (g' & c' & enc' & n' & E & SGg & J' & M1 & M2). exists g', c', enc', n'.
        do 4 (split; [done|]). intros y [->|Hy]%elem_of_cons; auto. }
      destruct (vertex_object_eq g x) as [(w & -> & Hw)|(m & _ & Hw)]; rewrite Ha, Ho in Hw; [|done]. injection Hw as <-.
      destruct (traverse_enc_ok g (mv_go v g) (mv_upd v g) x enc (Ok [u]) I) as (r & log & E1 & E2 & Hlr & Hr & Hlog & Hnd & Htg & _).
      { rewrite Ha. eauto. }
      { apply J. }
      { rewrite Ha. intros a b Hea Hab. apply sgo_vlink in Hab; [|done|done]. by eapply (mi_closed _ _ _ _ J). }
      change (mv_visit v g) with (ptrav (mv_go v g) (mv_upd v g)).
      destruct (g_traverse_enc (ptrav (mv_go v g) (mv_upd v g)) g x enc (Ok [u])) as [g' rr] eqn:ET. cbn [fst snd] in E1, E2. subst rr.
      rewrite Ha in Hlog. destruct (replay g log [u] Ha I Hlog) as (us & Eus & F). rewrite Eus. clear Eus.
      assert (forall y, (enc !! y = Some true \/ rtc (sgo (abs g) (mv_go v g)) x y) <-> enc !! y = Some true \/ rtc (vlink) x y) as HR.
      { intros y. rewrite Ha. by rewrite (rtc_sgo g x y Ha I). }
      assert (forall y, rtc (vlink) x y -> enc !! y <> Some true) as Hout.
      { intros y Hy He. apply vgroup_sym in Hy. assert (enc !! x = Some true); [|congruence]. clear -Hy He J.
        induction Hy as [|a b c' Hab _ IH]; [done|]. apply IH. by eapply (mi_closed _ _ _ _ J). }
      assert (group_of x ([u] ++ us)) as HG.
      { destruct (forall2_obj (x :: map snd (filter (fun c => mv_go v g c.1.1 c.1.2 c.2 = true) log)) ([u] ++ us)) as [N Hu].
        - by constructor.
        - apply NoDup_cons. split; [|done]. rewrite Htg. tauto.
        - split; [done|]. intros w. rewrite Hu. split.
          + intros (y & [->|Hy]%elem_of_cons & Hyw); [exists x; split; [apply rtc_refl|done]|]. exists y. split; [|done].
            rewrite Htg, HR in Hy. destruct Hy as [[Hy|Hy] [_ Hn]]; [by destruct Hn|done].
          + intros (y & Hy & Hyw). exists y. split; [|done]. rewrite elem_of_cons, Htg, HR.
            destruct (decide (y = x)); [by left|right]. split; [by right|]. split; [done|]. by apply Hout. }
      pose proof (sameg_adj g I) as SGg. rewrite <- E2 in SGg. clear E2.
      pose proof HG as [HG1 HG2].
      destruct (branch_counts_ok v ([u] ++ us)) as (m & Em & Hm).
      { intros w Hw. apply HG2 in Hw as (y & _ & Hy). destruct (so_obj HS y _ Hy) as (w' & l' & [= <-] & El & Hk). eauto. }
      assert (1 <= m <-> vval x) as Hval.
      { rewrite Hm. unfold vval. split.
        - intros (w & l' & t & Hw & Hl & Ht & Hc). apply HG2 in Hw as (y & Hy & Hyw). exists y, w, l', t. done.
        - intros (y & w & l' & t & Hy & Hyw & Hl & Ht & Hc). exists w, l', t. split; [|done]. apply HG2. eauto. }
      cbn [result_bind fst snd]. unfold merged_valid. rewrite Em. cbn [result_map result_bind].
      assert (forall y, r !! y = Some true <-> enc !! y = Some true \/ rtc (vlink) x y) as Hr' by (intros y; by rewrite Hr, HR).
      assert (forall y z, r !! y = Some true -> vlink y z -> r !! z = Some true) as Hcl.
      { intros y z. rewrite !Hr'. intros [H|H] Hyz; [left; by eapply (mi_closed _ _ _ _ J)|right; by eapply rtc_r]. }
      assert (forall y, rtc (vlink) x y -> vval y <-> vval x) as Hvv.
      { intros y Hy. split; intros (z & H1 & H2 & H3 & H4 & H5); exists z, H1, H2, H3; (split; [|done]).
        - by eapply rtc_transitive.
        - apply vgroup_sym in Hy. by eapply rtc_transitive. }
      pose proof (sameg_abs g g' SGg) as Ea'. destruct SGg as (Gv & Ge & Gi).
      destruct (1 <=? m) eqn:Elm; [apply Nat.leb_le in Elm|apply Nat.leb_gt in Elm].
      - (* a new merged bus *)
        assert (mc_id c !! merged_id vl n = None) as Hfresh.
        { destruct (mc_id c !! merged_id vl n) eqn:Ek; [|done]. exfalso.
          destruct (proj1 (mi_num _ _ _ _ J (merged_id vl n))) as (j & Hj & E); [eauto|]. apply merged_id_inj in E. lia. }
        assert (forall w, w ∈ [u] ++ us -> mc_map c !! w = None) as Hnew.
        { intros w Hw. destruct (mc_map c !! w) as [k|] eqn:Ek; [|done]. exfalso.
          destruct (mi_map _ _ _ _ J w k Ek) as (y & us' & Hy & He & _). apply HG2 in Hw as (z & Hz & Hzw).
          assert (z = y) as -> by (by eapply (so_inj HS)). by apply (Hout y). }
        destruct (IH g' r (S n) (add_merged vl n ([u] ++ us) c)) as (g'' & c' & enc' & n' & E & SG' & J' & M1 & M2).
        + by rewrite Ea'.
        + done.
        + rewrite Gv. assert (vval x) as Hvx by (by apply Hval). unfold add_merged. rewrite Hfresh. split; cbn [mc_map mc_id].
          * rewrite Hlr. apply J.
          * done.
          * intros w k. rewrite fill_lookup. destruct (mc_map c !! w) as [k'|] eqn:Ek.
            -- intros [= <-]. destruct (mi_map _ _ _ _ J w k' Ek) as (y & us' & Hy & He & Hv & Hi & Hg). exists y, us'.
               split; [done|]. split; [apply Hr'; by left|]. split; [done|]. split; [|done]. rewrite lookup_insert_ne; [done|]. congruence.
            -- case_bool_decide as Hw; [|done]. intros [= <-]. pose proof Hw as Hw'. apply HG2 in Hw' as (y & Hy & Hyw).
               exists y, ([u] ++ us). split; [done|]. split; [apply Hr'; by right|]. split; [by apply Hvv|]. rewrite lookup_insert. split; [done|].
               split; [done|]. intros w'. rewrite HG2. split; intros (z & Hz & ?); exists z; (split; [|done]).
               ++ apply vgroup_sym in Hy. by eapply rtc_transitive.
               ++ by eapply rtc_transitive.
          * intros y w Hy Hyw Hv. rewrite fill_lookup. destruct (mc_map c !! w) eqn:Ek; [eauto|]. apply Hr' in Hy as [Hy|Hy].
            -- destruct (mi_has _ _ _ _ J y w Hy Hyw Hv). congruence.
            -- rewrite bool_decide_eq_true_2; [eauto|]. apply HG2. eauto.
          * intros k us'. rewrite lookup_insert_Some. intros [[<- <-]|[Hne Hk]].
            -- split; [done|]. intros w Hw. rewrite fill_lookup, (Hnew w Hw). by rewrite bool_decide_eq_true_2.
            -- destruct (mi_id _ _ _ _ J k us' Hk) as [H1 H2]. split; [done|]. intros w Hw. rewrite fill_lookup, (H2 w Hw). done.
          * intros k. destruct (decide (merged_id vl n = k)) as [<-|Hne].
            -- rewrite lookup_insert. split; [|eauto]. intros _. exists n. split; [lia|done].
            -- rewrite lookup_insert_ne by done. rewrite (mi_num _ _ _ _ J). split; intros (j & Hj & ->); exists j; (split; [|done]); [lia|].
               assert (j <> n) by congruence. lia.
        + done.
        + exists g'', c', enc', n'. split; [exact E|]. split; [by eapply sameg_trans|]. rewrite Gv in J'. split; [done|]. split.
          * intros y Hy. apply M1, Hr'. by left.
          * intros y [->|Hy]%elem_of_cons; [apply M1, Hr'; right; apply rtc_refl|by apply M2].
      - destruct (IH g' r n c) as (g'' & c' & enc' & n' & E & SG' & J' & M1 & M2).
        + by rewrite Ea'.
        + done.
        + rewrite Gv. assert (~ vval x) as Hvx. { intros H%Hval. lia. } split.
          * rewrite Hlr. apply J.
          * done.
          * intros w k Hk. destruct (mi_map _ _ _ _ J w k Hk) as (y & us' & Hy & He & Hv & Hi & Hg). exists y, us'.
            split; [done|]. split; [apply Hr'; by left|]. done.
          * intros y w Hy Hyw Hv. apply Hr' in Hy as [Hy|Hy]; [by eapply (mi_has _ _ _ _ J)|]. destruct Hvx. by apply (Hvv y).
          * apply J.
          * apply J.
        + done.
        + exists g'', c', enc', n'. split; [exact E|]. split; [by eapply sameg_trans|]. rewrite Gv in J'. split; [done|]. split.
          * intros y Hy. apply M1, Hr'. by left.
          * intros y [->|Hy]%elem_of_cons; [apply M1, Hr'; right; apply rtc_refl|by apply M2].
    Qed.

    (** The first vertex decides whether [encountered] is long enough. *)
    Lemma compute_start g : abs g = s -> ginv g ->
      (forall x, head (g_get_vertices g) = Some x -> x < g_vertex_count g) ->
      compute_merged vl v g = mb_loop vl v (g_get_vertices g) g (replicate (length (g_vertices g)) false) 0 (mkMC ∅ ∅).
    Proof.
      intros Ha I Hh. unfold compute_merged. destruct (g_get_vertices g) as [|x l] eqn:El; [done|].
      specialize (Hh x eq_refl). assert (is_Some (s_vertices (abs g) !! x)) as Hx. { apply g_get_vertices_spec. rewrite El. by left. }
      assert (x < length (g_vertices g)) as Hlt.
      { destruct Hx as [o Ho]. rewrite abs_vertices in Ho. destruct (g_vertices g !! x) eqn:Ex; [|done]. by apply lookup_lt_Some in Ex. }
      cbn [mb_loop]. rewrite !lookup_replicate_2 by done. destruct (g_vertex_object g x) as [[u|]| | |]; try done.
      rewrite (resize_enc _ g x (replicate (g_vertex_count g) false) _ I). rewrite resize_replicate. done.
    Qed.
    Lemma compute_oob g x : head (g_get_vertices g) = Some x -> g_vertex_count g <= x -> compute_merged vl v g = (g, UB).
    Proof.
      intros Hh Hle. unfold compute_merged. destruct (g_get_vertices g) as [|y l]; [done|]. injection Hh as ->.
      cbn [mb_loop]. assert (replicate (g_vertex_count g) false !! x = None) as -> by (apply lookup_replicate_None; lia). done.
    Qed.

    Lemma compute_ok g : abs g = s -> ginv g -> (forall x, head (g_get_vertices g) = Some x -> x < g_vertex_count g) ->
      exists g' c, compute_merged vl v g = (g', Ok c) /\ sameg g g' /\ cache_good c.
    Proof.
      intros Ha I Hh. rewrite (compute_start g Ha I Hh).
      destruct (mb_loop_ok (g_get_vertices g) g (replicate (length (g_vertices g)) false) 0 (mkMC ∅ ∅) Ha I)
        as (g' & c & enc & n & E & SGg & J & _ & M).
      - split.
        + by rewrite replicate_length.
        + intros x y [? _]%lookup_replicate_1. done.
        + intros u k H. cbn in H. by rewrite lookup_empty in H.
        + intros x u [? _]%lookup_replicate_1. done.
        + intros u k H. cbn in H. by rewrite lookup_empty in H.
        + intros k. cbn. rewrite lookup_empty. split; [by intros []|]. intros (j & ? & _). lia.
      - intros x Hx. apply g_get_vertices_spec in Hx. by rewrite Ha in Hx.
      - exists g', c. split; [done|]. split; [done|]. split.
        + intros u k Hk. destruct (mi_map _ _ _ _ J u k Hk) as (x & us & H1 & _ & H2 & H3 & H4). exists x, us. done.
        + intros x u Hx Hv. eapply (mi_has _ _ _ _ J x u); [|done|done]. apply M, g_get_vertices_spec. rewrite Ha. unfold obj in Hx. eauto.
        + apply J.
        + exists n. apply J.
    Qed.
  End graph.
End loop.
