(** Proofs for C71. *)
From stdpp Require Import gmap.
From Verif Require Import Base Graph GraphSpec GraphProofs Equip NodeTopo NodeTopoSpec NodeTopoInv NodeTopoConn NodeTopoProofs BusTopo BusTopoSpec
  BusTopoProofs BusTopoInv BusTopoView Visit VisitProofs BusRef BusRefSpec.

Lemma amap_Ok {S V A B} (f : A -> B) (m : act S V A) st a st' : m st = (Ok a, st') -> amap f m st = (Ok (f a), st').
Proof. intros E. unfold amap. by rewrite (abind_Ok _ _ _ _ _ E). Qed.

(** ** Bus-breaker levels *)
Section bb.
  Context (st : bbst) (v : bbvar) (I : binv st) (W : working st v) (WN : well_numbered st).
  Lemma merged_of_cached c st' u b k : cached st v c st' -> bb_live (e_sh st) !! u = Some b -> mc_map c !! u = Some k -> merged_of st v b st' k.
  Proof using All.
    intros C L Hk. pose proof C as (_ & _ & CG & _). split; [apply (good_valid (e_sh st) v c u b (bi_sh _ I) CG L); eauto|].
    destruct (good_members (e_sh st) v c u b k (bi_sh _ I) CG L Hk) as (us & Hus & _ & HM). exists us. split; [|done].
    unfold bb_by_id. by rewrite (abind_Ok _ _ _ _ _ (cached_cache _ _ _ _ C)), Hus.
  Qed.
  Lemma not_merged c st' u b : cached st v c st' -> bb_live (e_sh st) !! u = Some b -> mc_map c !! u = None -> ~ in_bus_view (e_sh st) v b.
  Proof using All.
    intros (_ & _ & CG & _) L Hk H. apply (good_valid (e_sh st) v c u b (bi_sh _ I) CG L) in H as [k Hk']. congruence.
  Qed.
  Lemma terminal_first t b : bv_conn v !! t = Some (true, b) -> is_bus (e_sh st) b ->
    exists c st' u, bb_terminal_bus t st = (Ok (mc_map c !! u), st') /\ cached st v c st' /\ bb_live (e_sh st) !! u = Some b.
  Proof using All.
    intros Hx Hb. pose proof W as (i & Hc & Hi). unfold bb_terminal_bus. rewrite (abind_Ok _ _ _ _ _ (bt_get_eq _ _ _ _ _ Hc Hi Hx)). cbn [fst snd].
    by apply merged_cached.
  Qed.
  Lemma terminal_again c st' t b u : cached st v c st' -> bv_conn v !! t = Some (true, b) -> bb_live (e_sh st) !! u = Some b ->
    bb_terminal_bus t st' = (Ok (mc_map c !! u), st').
  Proof using All.
    intros C Hx L. pose proof C as (_ & SB & _ & i & Hc & Hi & Hi'). unfold bb_terminal_bus.
    rewrite (abind_Ok (bt_get t) _ st' (true, b) st').
    - cbn [fst snd]. destruct (merged_again st v c st' b C) as (u' & E & L'); [by exists u|].
      assert (u' = u) as -> by (by eapply live_inj; [apply I|..]). done.
    - apply (bt_get_eq st' i (bv_set_cache (Some c) v)); [by rewrite (sbm_cur _ _ SB)|done|done].
  Qed.
  Lemma terminal_merged t c b : bv_conn v !! t = Some (c, b) -> (c = true -> is_bus (e_sh st) b) ->
    exists ok st', bb_terminal_bus t st = (Ok ok, st') /\ same_but_merged st st' /\
      match ok with None => c = false \/ ~ in_bus_view (e_sh st) v b | Some k => c = true /\ merged_of st v b st' k end.
  Proof using All.
    intros Hx Hb. destruct c.
    - destruct (terminal_first t b Hx (Hb eq_refl)) as (c & st' & u & E & C & L). exists (mc_map c !! u), st'. split; [done|].
      split; [by destruct C as (_ & ? & _)|]. destruct (mc_map c !! u) as [k|] eqn:Ek; [split; [done|]; by eapply merged_of_cached|].
      right. by eapply not_merged.
    - exists None, st. pose proof W as (i & Hc & Hi). unfold bb_terminal_bus. rewrite (abind_Ok _ _ _ _ _ (bt_get_eq _ _ _ _ _ Hc Hi Hx)).
      split; [done|]. split; [apply sbm_refl|]. by left.
  Qed.
  Lemma terminal_configured t c b : bv_conn v !! t = Some (c, b) -> (c = true -> is_bus (e_sh st) b) ->
    bb_terminal_configured t st = (Ok (if c then Some b else None), st).
  Proof using All.
    intros Hx Hb. pose proof W as (i & Hc & Hi). unfold bb_terminal_configured. rewrite (abind_Ok _ _ _ _ _ (bt_get_eq _ _ _ _ _ Hc Hi Hx)). cbn [fst snd].
    destruct c; [|done]. destruct (configured_eq st b (bi_sh _ I)) as [(u & x & E & _)|(m & _ & Hn)]; [|by destruct (Hn (Hb eq_refl))].
    by rewrite (abind_Ok _ _ _ _ _ E).
  Qed.

  Lemma first_bus_none c st' ts b u : cached st v c st' -> (forall t, t ∈ ts -> bv_conn v !! t = Some (true, b)) -> bb_live (e_sh st) !! u = Some b ->
    mc_map c !! u = None -> first_bus ts st' = (Ok None, st').
  Proof using All.
    intros C Hts L Hn. induction ts as [|t ts IH]; [done|]. cbn [first_bus].
    rewrite (abind_Ok _ _ _ _ _ (terminal_again c st' t b u C (Hts t ltac:(by left)) L)), Hn. apply IH. intros t' ?. apply Hts. by right.
  Qed.
  Lemma bus_to_view_ok b : is_bus (e_sh st) b -> terminals_know st v b ->
    exists ok st', bus_to_view b st = (Ok ok, st') /\ same_but_merged st st' /\
      match ok with
      | None => (forall t, hangs (e_sh st) v b t -> ~ connected v t) \/ ~ in_bus_view (e_sh st) v b
      | Some k => merged_of st v b st' k
      end.
  Proof using All.
    intros Hb HK. destruct (configured_bus (A:=unit) ∅ (fun a _ => Ok a) tt st v I W b Hb) as (u & l & E1 & E2 & ND & K & Hl).
    destruct (filter_ok (A:=unit) ∅ (fun a _ => Ok a) tt st v I W l K ND) as (lc & E & N & H). pose proof W as (i & Hc & Hi).
    assert (bus_to_view b st = first_bus lc st) as ->.
    { unfold bus_to_view. rewrite (abind_Ok _ _ _ _ _ E1), (abind_Ok _ _ _ _ _ E2), (abind_Ok _ _ _ _ _ (aget_eq _ _ _ Hc Hi)).
      unfold alift, abind. by rewrite E. }
    assert (forall t, t ∈ lc -> bv_conn v !! t = Some (true, b)) as HK'.
    { intros t Ht. apply H in Ht as [Ht Hcn]. apply HK; [by apply Hl|done]. }
    destruct lc as [|t lc].
    - exists None, st. split; [done|]. split; [apply sbm_refl|]. left. intros t Ht Hcn. apply (not_elem_of_nil t), H. split; [by apply Hl|done].
    - destruct (terminal_first t b (HK' t ltac:(by left)) Hb) as (c & st' & u' & Et & C & L). cbn [first_bus]. rewrite (abind_Ok _ _ _ _ _ Et).
      assert (same_but_merged st st') as SB by (by destruct C as (_ & ? & _)). destruct (mc_map c !! u') as [k|] eqn:Ek.
      + exists (Some k), st'. rewrite (terminal_again c st' t b u' C (HK' t ltac:(by left)) L), Ek. split; [done|]. split; [done|].
        by eapply merged_of_cached.
      + exists None, st'. split; [eapply first_bus_none; [done| |done|done]; intros t' ?; apply HK'; by right|]. split; [done|]. right.
        by eapply not_merged.
  Qed.
End bb.

(** ** Networks *)
Lemma only_caches_refl net : only_caches net net.
Proof. split; [done|]. split; [done|]. intros vl. destruct (bn_levels net !! vl) as [[st|st]|]; [apply sbm_refl|done|done]. Qed.
Lemma only_caches_bb net vl st st' : bn_levels net !! vl = Some (VB st) -> same_but_merged st st' -> only_caches net (set_level net vl (VB st')).
Proof.
  intros Hl SB. split; [done|]. split; [done|]. intros vl'. cbn [set_level bn_levels]. destruct (decide (vl' = vl)) as [->|Hne].
  - by rewrite Hl, lookup_insert.
  - rewrite lookup_insert_ne by done. by apply only_caches_refl.
Qed.
Lemma only_caches_nb net vl st st' : bn_levels net !! vl = Some (VN st) -> same_but_cache st st' -> only_caches net (set_level net vl (VN st')).
Proof.
  intros Hl SB. split; [done|]. split; [done|]. intros vl'. cbn [set_level bn_levels]. destruct (decide (vl' = vl)) as [->|Hne].
  - rewrite Hl, lookup_insert. split; [by apply sbc_graph|]. split; [by apply sbc_cur|]. intros id. by apply sbc_pos.
  - rewrite lookup_insert_ne by done. by apply only_caches_refl.
Qed.

Lemma find_known net id rid e : designates net id rid e -> bn_find net id = Ok (Some (rid, e)).
Proof.
  intros (Hr & Ho & Ha). unfold bn_find. assert (default id (bn_alias net !! id) = rid) as -> by (destruct Ha as [[-> ->]| ->]; done).
  by rewrite bool_decide_eq_false_2, Ho by done.
Qed.
Lemma find_unknown net id : unknown net id -> bn_find net id = Ok None.
Proof.
  intros (Hi & Hu). unfold bn_find. destruct (bn_alias net !! id) as [rid|] eqn:E.
  - destruct Hu as [Hr Hu]. change (default id (Some rid)) with rid. rewrite bool_decide_eq_false_2 by done. by rewrite Hu.
  - change (default id None) with id. rewrite bool_decide_eq_false_2 by done. by rewrite Hu.
Qed.

Lemma choose_ok net t lvl : lvl <> NODE_BREAKER -> in_place net t ->
  exists r net', choose_bus net t lvl = (Ok r, net') /\ only_caches net net' /\ right_bus net net' t lvl r.
Proof.
  intros Hl HP. unfold in_place in HP. destruct (bn_levels net !! tr_vl t) as [[st|st]|] eqn:Ev; [| |done].
  - destruct HP as (H & WN & v & c & b & W & Hx & Hb). apply reach_binv in H. unfold choose_bus. destruct lvl; [done|..].
    + pose proof (terminal_configured st v H W WN (tr_term t) c b Hx Hb) as E. unfold term_bus_breaker_view. rewrite Ev. unfold on_bb.
      rewrite (amap_Ok _ _ _ _ _ E). do 2 eexists. split; [reflexivity|]. split; [apply (only_caches_bb _ _ st); [done|apply sbm_refl]|].
      unfold right_bus. cbn [set_level bn_levels]. rewrite Ev, lookup_insert. exists v, c, b. split; [done|]. split; [done|].
      destruct c; cbn; [done|by left].
    + destruct (terminal_merged st v H W WN (tr_term t) c b Hx Hb) as (ok & st' & E & SB & HR). unfold term_bus_view. rewrite Ev. unfold on_bb.
      rewrite (amap_Ok _ _ _ _ _ E). do 2 eexists. split; [reflexivity|]. split; [by apply (only_caches_bb _ _ st)|].
      unfold right_bus. cbn [set_level bn_levels]. rewrite Ev, lookup_insert. exists v, c, b. split; [done|]. split; [done|].
      destruct ok as [k|]; cbn; [by destruct HR as [-> ?]|]. destruct HR as [?|?]; [by left|by right].
  - destruct HP as (H & Hc & Ht). apply reach_fresh in H. unfold choose_bus.
    assert (is_Some (s_vertices (nbg st) !! tr_node t)) as Hn by (unfold term_at in Ht; rewrite Ht; eauto).
    destruct lvl; [done|..].
    + destruct (right_answer BusBreakerView (tr_node t) st (or_introl H) Hc Hn) as (ob & st' & E & SB & R).
      unfold term_bus_breaker_view. rewrite Ev. unfold on_nb. rewrite (amap_Ok _ _ _ _ _ E). do 2 eexists. split; [reflexivity|].
      split; [by apply (only_caches_nb _ _ st)|]. unfold right_bus. cbn [set_level bn_levels]. rewrite Ev, lookup_insert. destruct ob; cbn; done.
    + destruct (right_answer BusView (tr_node t) st (or_introl H) Hc Hn) as (ob & st' & E & SB & R).
      unfold term_bus_view. rewrite Ev. unfold on_nb. rewrite (amap_Ok _ _ _ _ _ E). do 2 eexists. split; [reflexivity|].
      split; [by apply (only_caches_nb _ _ st)|]. unfold right_bus. cbn [set_level bn_levels]. rewrite Ev, lookup_insert. destruct ob; cbn; done.
Qed.
