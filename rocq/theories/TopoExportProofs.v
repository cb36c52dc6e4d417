(** What the export of a node-breaker level writes, and that the import of it is a copy. *)
From Coq Require String Ascii NArith.
From stdpp Require Import gmap pretty sorting.
From Verif Require Import Base Graph GraphSpec GraphProofs GraphMore Equip NodeTopo NodeTopoSpec NodeTopoProofs NodeTopoInv NodeTopoConn
  BusTopo BusTopoSpec BusTopoProofs BusTopoInv BusTopoView BusValuesSpec BusValuesProofs TopoExport TopoExportSpec TopoImportProofs.

(** *** The order of the keys *)
Lemma leb_cons c s d t : Is_true (String.leb (String c s) (String d t)) <->
  (Ascii.N_of_ascii c < Ascii.N_of_ascii d)%N \/ (c = d /\ Is_true (String.leb s t)).
Proof.
  unfold String.leb. cbn [String.compare]. unfold Ascii.compare. destruct (N.compare_spec (Ascii.N_of_ascii c) (Ascii.N_of_ascii d)) as [E|E|E].
  - assert (c = d) as ->. { rewrite <- (Ascii.ascii_N_embedding c), <- (Ascii.ascii_N_embedding d). by rewrite E. }
    split; [by right|]. intros [H|[_ H]]; [lia|done].
  - split; [by left|done].
  - split; [done|]. intros [H|[-> _]]; lia.
Qed.
#[global] Instance key_le_trans : Transitive key_le.
Proof.
  unfold key_le. intros a. induction a as [|c a IH]; intros b d H1 H2.
  - by destruct d.
  - destruct b as [|c' b]; [done|]. destruct d as [|c'' d]; [by destruct H2|]. rewrite leb_cons in *.
    destruct H1 as [H1|[-> H1]], H2 as [H2|[-> H2]]; [left; lia|by left|by left|right; split; [done|by eapply IH]].
Qed.
#[global] Instance key_le_total : Total key_le.
Proof.
  unfold key_le. intros a. induction a as [|c a IH]; intros b; [left; by destruct b|]. destruct b as [|d b]; [by right|]. rewrite !leb_cons.
  destruct (N.lt_total (Ascii.N_of_ascii c) (Ascii.N_of_ascii d)) as [H|[H|H]]; [by left; left| |by right; left].
  assert (c = d) as ->. { rewrite <- (Ascii.ascii_N_embedding c), <- (Ascii.ascii_N_embedding d). by rewrite H. }
  destruct (IH b); [left; by right|right; by right].
Qed.
Lemma in_order_elem {A} (m : gmap string A) k : k ∈ in_order m <-> is_Some (m !! k).
Proof.
  unfold in_order. rewrite (merge_sort_Permutation key_le). rewrite elem_of_list_fmap. split.
  - intros ([k' a] & -> & H). apply elem_of_map_to_list in H. eauto.
  - intros [a H]. exists (k, a). split; [done|]. by apply elem_of_map_to_list.
Qed.
Lemma in_order_nodup {A} (m : gmap string A) : NoDup (in_order m).
Proof. unfold in_order. rewrite (merge_sort_Permutation key_le). apply NoDup_fst_map_to_list. Qed.
Lemma in_order_head {A} (m : gmap string A) k l : in_order m = k :: l -> is_Some (m !! k) /\ forall k', is_Some (m !! k') -> key_le k k'.
Proof.
  intros E. split; [apply in_order_elem; rewrite E; by left|]. intros k' Hk'. apply in_order_elem in Hk'.
  pose proof (StronglySorted_merge_sort key_le (map fst (map_to_list m))) as S. fold (in_order m) in S. rewrite E in S, Hk'.
  apply elem_of_cons in Hk' as [->|Hk']; [by destruct (total key_le k k)|]. apply StronglySorted_inv in S as [_ S]. rewrite Forall_forall in S. by apply S.
Qed.

(** *** Queries change caches only *)
Definition quiet (st0 st : nbst) : Prop := ninv true st /\ same_but_cache st0 st.

Lemma Forall2_In {A B} (P : A -> B -> Prop) l l' : Forall2 P l l' -> forall y, y ∈ l' -> exists x, x ∈ l /\ P x y.
Proof.
  induction 1 as [|a b l l' H _ IH]; intros y Hy; [by apply elem_of_nil in Hy|]. apply elem_of_cons in Hy as [->|Hy]; [exists a; split; [by left|done]|].
  destruct (IH y Hy) as (x & ? & ?). exists x. split; [by right|done].
Qed.
Lemma Forall2_In_l {A B} (P : A -> B -> Prop) l l' : Forall2 P l l' -> forall x, x ∈ l -> exists y, y ∈ l' /\ P x y.
Proof.
  induction 1 as [|a b l l' H _ IH]; intros y Hy; [by apply elem_of_nil in Hy|]. apply elem_of_cons in Hy as [->|Hy]; [exists b; split; [by left|done]|].
  destruct (IH y Hy) as (x & ? & ?). exists x. split; [by right|done].
Qed.

Section export.
  Context (st0 : nbst) (i : string) (v : nbvar).
  Hypothesis I0 : ninv true st0.
  Hypothesis Hcur : e_cur st0 = Some i.
  Hypothesis Hvar : e_vars st0 !! i = Some v.
  Notation g := (nbg st0).
  Notation sw := (nv_sw v).
  Notation vl := (nb_id (e_sh st0)).

  Lemma quiet_refl : quiet st0 st0.
  Proof using I0. split; [done|by eapply sbc_refl]. Qed.
  Lemma quiet_var st : quiet st0 st -> nbg st = g /\ nb_id (e_sh st) = vl /\ nb_sw (e_sh st) = nb_sw (e_sh st0) /\ exists w, e_cur st = Some i /\ e_vars st !! i = Some w /\ nv_sw w = sw.
  Proof using Hcur Hvar.
    intros [_ S]. split; [by apply sbc_graph|]. destruct (sbc_cur_var _ _ _ _ S Hvar) as (w & Hw & Es).
    pose proof (sbc_cur _ _ S) as Ec. destruct S as [SS _]. destruct SS as (H1 & H2 & H3 & H4 & _).
    split; [done|]. split; [done|]. exists w. rewrite Ec. done.
  Qed.
  Lemma quiet_live st n : quiet st0 st -> is_Some (s_vertices g !! n) -> is_Some (g_vertices (nb_graph (e_sh st)) !! n).
  Proof using Hcur Hvar.
    intros Q [o Ho]. destruct (quiet_var st Q) as (Eg & _). rewrite <- Eg in Ho. unfold nbg in Ho. rewrite abs_vertices in Ho.
    destruct (g_vertices (nb_graph (e_sh st)) !! n); [eauto|done].
  Qed.

  Lemma cache_q vw st : quiet st0 st -> exists c st' cap, nb_cache vw st = (Ok c, st') /\ quiet st0 st' /\ cache_ok vw vl sw g cap c /\
    (forall n, is_Some (s_vertices g !! n) -> n < cap).
  Proof using Hcur Hvar I0.
    intros Q. destruct (quiet_var st Q) as (Eg & El & _ & w & Hc & Hw & Es). destruct (NodeTopoConn.cache_eq vw st i w (proj1 Q) Hc Hw) as (c & st' & E & I' & S & CK).
    rewrite Es, Eg, El in CK. exists c, st', (length (g_vertices (nb_graph (e_sh st)))). split; [done|]. split; [|split; [done|]].
    - split; [done|]. eapply sbc_trans; [apply Q|done].
    - intros n Hn. destruct (quiet_live st n Q Hn) as [? H]. by apply lookup_lt_Some in H.
  Qed.
  Lemma cache_named vw cap c n : cache_ok vw vl sw g cap c -> in_bus vw g sw n -> exists k, named vw vl g sw n k.
  Proof using.
    clear I0. intros CK Hn. destruct (bc_node c !! n) as [[k|]|] eqn:Ek; [apply (ck_node _ _ _ _ _ _ CK) in Ek; by exists k| |]; exfalso;
    (apply (not_not_least (same_node vw g sw n) n); [apply rtc_refl|]; intros [m Hm];
     assert (bus_name vw g sw vl n (vl +:+ "_" +:+ pretty (N.of_nat m))) as Hname by (by exists m);
     pose proof (proj2 (ck_node _ _ _ _ _ _ CK n _) (conj Hn Hname)); congruence).
  Qed.
  Lemma named_ex vw n : in_bus vw g sw n -> exists k, named vw vl g sw n k.
  Proof using Hcur Hvar I0. intros Hn. destruct (cache_q vw st0 quiet_refl) as (c & st' & cap & _ & _ & CK & _). by eapply cache_named. Qed.
  Lemma cache_ids vw cap c k : cache_ok vw vl sw g cap c -> is_Some (bc_id c !! k) <-> exists n, named vw vl g sw n k.
  Proof using.
    clear I0. intros CK. split.
    - intros [b Hb]. destruct (ck_id _ _ _ _ _ _ CK k b Hb) as (<- & n & Hn & Hb' & _). by exists n.
    - intros (n & Hn & Hk). by apply (ck_has _ _ _ _ _ _ CK n).
  Qed.
  Lemma in_bus_dec vw n : in_bus vw g sw n \/ ~ in_bus vw g sw n.
  Proof using Hcur Hvar I0.
    destruct (cache_q vw st0 quiet_refl) as (c & st' & cap & _ & _ & CK & _).
    destruct (bc_node c !! n) as [[k|]|] eqn:Ek; [left; by apply (proj1 (ck_node _ _ _ _ _ _ CK n k) Ek)| |]; right; intros H;
    destruct (cache_named _ _ _ _ CK H) as [k Hk]; apply (ck_node _ _ _ _ _ _ CK n k) in Hk; congruence.
  Qed.

  Lemma bus_q vw n st : quiet st0 st -> is_Some (s_vertices g !! n) ->
    exists ob st', nb_bus_of_node vw n st = (Ok ob, st') /\ quiet st0 st' /\
      match ob with Some b => named vw vl g sw n (cb_id b) | None => ~ in_bus vw g sw n end.
  Proof using Hcur Hvar I0.
    intros Q Hn. destruct (cache_q vw st Q) as (c & st' & cap & E & Q' & CK & Hcap). unfold nb_bus_of_node. rewrite (abind_Ok _ _ _ _ _ E).
    pose proof (Hcap n Hn) as Hlt. rewrite <- (ck_len _ _ _ _ _ _ CK) in Hlt. apply lookup_lt_is_Some in Hlt as [o Ho]. rewrite Ho.
    destruct o as [k|].
    - pose proof (proj1 (ck_node _ _ _ _ _ _ CK n k) Ho) as Hk. destruct (ck_has _ _ _ _ _ _ CK n k (proj1 Hk) (proj2 Hk)) as [b Hb].
      rewrite Hb. exists (Some b), st'. split; [done|]. split; [done|]. destruct (ck_id _ _ _ _ _ _ CK k b Hb) as (-> & _). done.
    - exists None, st'. split; [done|]. split; [done|]. intros H. destruct (cache_named _ _ _ _ CK H) as [k Hk].
      apply (ck_node _ _ _ _ _ _ CK n k) in Hk. congruence.
  Qed.

  (** *** getConnectableBus *)
  Lemma first_of {X} (w : nat -> nat -> nat -> option X) log r :
    foldl (fun s c => supd w s c.1.1 c.1.2 c.2) r log = match r with Some x => Some x | None => head (omap (fun c => w c.1.1 c.1.2 c.2) log) end.
  Proof using.
    clear I0. revert r. induction log as [|c log IH]; intros r; [by destruct r|]. cbn [foldl]. rewrite IH. destruct r as [x|]; [done|]. cbn [supd omap list_omap].
    by destruct (w c.1.1 c.1.2 c.2).
  Qed.
  Lemma conn_q vw n st : quiet st0 st -> is_Some (s_vertices g !! n) ->
    exists oc st', nb_connectable vw n st = (Ok oc, st') /\ quiet st0 st' /\ connectable_of vw vl g sw n (cb_id <$> oc).
  Proof using Hcur Hvar I0.
    intros Q Hn. destruct (bus_q vw n st Q Hn) as (ob & st1 & E1 & Q1 & H1). unfold nb_connectable. rewrite (abind_Ok _ _ _ _ _ E1).
    destruct ob as [b|]. { exists (Some b), st1. split; [done|]. split; [done|]. left. split; [apply H1|done]. }
    destruct (cache_q vw st1 Q1) as (c & st2 & cap & E2 & Q2 & CK & Hcap). rewrite (abind_Ok _ _ _ _ _ E2).
    destruct (quiet_var st2 Q2) as (Eg & _). pose proof (si_g _ (ni_sh _ _ (proj1 Q2))) as G2. set (gr := nb_graph (e_sh st2)) in *.
    assert (abs gr = g) as Eg' by exact Eg.
    set (w := fun (_ _ b : nat) => cn_found c b). set (f := fun (_ _ b : nat) => match cn_found c b with Some _ => false | None => true end).
    assert (forall m, is_Some (s_vertices g !! m) -> (cn_found c m = None /\ ~ in_bus vw g sw m) \/
              exists b k, cn_found c m = Some (Ok b) /\ bc_id c !! k = Some b /\ named vw vl g sw m k) as HF.
    { intros m Hm. unfold cn_found. pose proof (Hcap m Hm) as Hlt. rewrite <- (ck_len _ _ _ _ _ _ CK) in Hlt. apply lookup_lt_is_Some in Hlt as [o Ho]. rewrite Ho.
      destruct o as [k|].
      - right. pose proof (proj1 (ck_node _ _ _ _ _ _ CK m k) Ho) as Hk. destruct (ck_has _ _ _ _ _ _ CK m k (proj1 Hk) (proj2 Hk)) as [b Hb].
        exists b, k. rewrite Hb. done.
      - left. split; [done|]. intros H. destruct (cache_named _ _ _ _ CK H) as [k Hk]. apply (ck_node _ _ _ _ _ _ CK m k) in Hk. congruence. }
    assert (exists enc r, g_traverse (cn_visit c) gr n None = ((g_adjacency gr).1, Ok (enc, r)) /\
      match r with Some x => exists m k b, x = Ok b /\ wired g n m /\ bc_id c !! k = Some b /\ named vw vl g sw m k | None => forall m, wired g n m -> ~ in_bus vw g sw m end) as (enc & r & Et & Hr).
    { destruct (traverse_enc_ok gr f (supd w) n (replicate (length (g_vertices gr)) false) None G2) as (r & log & T1 & T2 & _ & Hr & Hlog & _ & Htg & Hask & Hcall).
      { by rewrite Eg'. }
      { by rewrite replicate_length. }
      { intros x y Hx. apply lookup_replicate in Hx as [? _]. done. }
      rewrite Eg' in *.
      assert (forall x, r !! x = Some true <-> rtc (sgo g f) n x) as Hr'.
      { intros x. rewrite Hr. split; [intros [H|H]; [|done]|by right]. apply lookup_replicate in H as [? _]. done. }
      rewrite first_of in T1. assert (forall a e b x, w a e b = Some x -> f a e b = false) as Hwf by (unfold w, f; intros a e b x Hx; by rewrite Hx).
      destruct (traverse_stop gr f w n _ _ G2 Hwf T1) as [enc Et].
      exists enc, (head (omap (fun c => w c.1.1 c.1.2 c.2) log)). split.
      { rewrite <- Et. apply traverse_ext. intros s0 a e b. unfold cn_visit, strav, w, f. destruct s0; [done|]. by destruct (cn_found c b). }
      assert (forall x, rtc (sgo g f) n x -> wired g n x) as Hwr.
      { intros x Hx. eapply rtc_subrel; [|exact Hx]. intros a b (e & ob & Hj & _). by exists e, ob. }
      assert (forall a e b ob, sjoins g a e b ob -> is_Some (s_vertices g !! b)) as Hlv.
      { intros a e b ob Hj. rewrite <- Eg'. eapply on_edge_live; [exact G2|]. rewrite Eg'. exists e, a, ob. unfold sjoins in *. tauto. }
      destruct (head (omap (fun c => w c.1.1 c.1.2 c.2) log)) as [x|] eqn:EL.
      - assert (x ∈ omap (fun c => w c.1.1 c.1.2 c.2) log) as Hm by (destruct (omap _ log); simplify_eq/=; by left).
        apply elem_of_list_omap in Hm as ([[a e] b] & Hc & Hf). destruct (Hlog _ Hc) as [ob Hj]. destruct (Hcall _ _ _ Hc) as [Ha Hb]. cbn [fst snd] in *.
        unfold w in Hf. destruct (HF b (Hlv _ _ _ _ Hj)) as [[Hn' _]|(b' & k & Hb' & Hid & Hk)]; [congruence|]. rewrite Hb' in Hf. injection Hf as <-.
        exists b, k, b'. split; [done|]. split; [|done]. eapply rtc_r; [apply Hwr, Hr'; exact Ha|]. by exists e, ob.
      - assert (forall x, wired g n x -> rtc (sgo g f) n x /\ cn_found c x = None) as Hall.
        { apply (rtc_ind_r (fun x => rtc (sgo g f) n x /\ cn_found c x = None) n).
          - split; [apply rtc_refl|]. destruct (HF n Hn) as [[? _]|(b' & k & _ & _ & Hk)]; [done|]. destruct H1. apply Hk.
          - intros a b Ha (e & ob & Hj) [IHa _]. assert (cn_found c b = None) as Hb.
            { destruct (cn_found c b) as [x|] eqn:Ex; [|done]. exfalso. destruct (r !! b) as [[]|] eqn:Er.
              - apply Hr' in Er. apply rtc_inv_r in Er as [<-|(y & _ & e' & ob' & _ & Hf)].
                + destruct (HF n Hn) as [[? _]|(b' & k & _ & _ & Hk)]; [congruence|]. destruct H1. apply Hk.
                + unfold f in Hf. by rewrite Ex in Hf.
              - assert ((a, e, b) ∈ log) as Hin by (apply (Hask a e b ob); [by apply Hr'|intros Hx'; by apply lookup_replicate in Hx' as [? _]|done|congruence]).
                assert (x ∈ omap (fun c => w c.1.1 c.1.2 c.2) log) as Hm by (apply elem_of_list_omap; exists (a, e, b); done).
                destruct (omap _ log); [by apply elem_of_nil in Hm|done].
              - assert ((a, e, b) ∈ log) as Hin by (apply (Hask a e b ob); [by apply Hr'|intros Hx'; by apply lookup_replicate in Hx' as [? _]|done|congruence]).
                assert (x ∈ omap (fun c => w c.1.1 c.1.2 c.2) log) as Hm by (apply elem_of_list_omap; exists (a, e, b); done).
                destruct (omap _ log); [by apply elem_of_nil in Hm|done]. }
            split; [|done]. eapply rtc_r; [exact IHa|]. exists e, ob. split; [done|]. unfold f. by rewrite Hb. }
        intros m Hm. destruct (Hall m Hm) as [Hm' Ef]. assert (is_Some (s_vertices g !! m)) as Hlm.
        { apply rtc_inv_r in Hm as [<-|(y & _ & e & ob & Hj)]; [done|]. by eapply Hlv. }
        destruct (HF m Hlm) as [[_ ?]|(b' & k & Hb & _)]; [done|congruence]. }
    set (st3 := mkE (nb_set_graph (e_sh st2) (g_adjacency gr).1) (e_vars st2) (e_cur st2)).
    assert (quiet st0 st3) as Q3.
    { pose proof (same_graph_adj gr G2) as SG. assert (same_sh (e_sh st2) (nb_set_graph (e_sh st2) (g_adjacency gr).1)) as SS by done.
      destruct Q2 as [I2 S2]. split.
      - split; cbn [e_sh e_vars e_cur].
        + destruct (ni_wf _ _ I2) as [W1 W2]. split; [exact W1|exact W2].
        + eapply same_sh_inv; [exact SS|apply I2].
        + intros j x Hx. eapply same_sh_vinv; [exact SS|]. by apply (ni_var _ _ I2 j x).
      - eapply sbc_trans; [exact S2|]. split; [done|]. split; [done|]. unfold st3. cbn [e_vars]. intros j. destruct (e_vars st2 !! j) as [x|]; [left; by exists x, x|by right]. }
    erewrite abind_Ok; [|eapply gact_eq; exact Et]. cbn [snd]. fold st3. destruct r as [x|].
    - destruct Hr as (m & k & b & -> & Hm & Hid & Hk). exists (Some b), st3. rewrite (abind_Ok (alift (Ok b)) _ st3 b st3 eq_refl). split; [done|]. split; [done|].
      right; left. split; [done|]. exists m. split; [done|]. destruct (ck_id _ _ _ _ _ _ CK k b Hid) as (-> & _). done.
    - destruct (in_order (bc_id c)) as [|k l] eqn:Eo.
      + exists None, st3. split; [done|]. split; [done|]. intros m Hm. destruct (cache_named _ _ _ _ CK Hm) as [k Hk].
        assert (k ∈ in_order (bc_id c)) as H by (apply in_order_elem; eapply cache_ids; [exact CK|]; by exists m). rewrite Eo in H. by apply elem_of_nil in H.
      + destruct (in_order_head _ _ _ Eo) as [[b Hb] Hl]. exists (bc_id c !! k), st3. split; [done|]. split; [done|]. rewrite Hb. cbn [fmap option_fmap option_map].
        right; right. split; [done|]. destruct (ck_id _ _ _ _ _ _ CK k b Hb) as (-> & _). split; [eapply cache_ids; [exact CK|]; eauto|].
        intros k' Hk'. apply Hl. by eapply cache_ids.
  Qed.

  (** *** The terminals *)
  Definition term_written (vw : view) (x : nat * nterm) (y : nterm * option string * option string) : Prop :=
    y.1.1 = x.2 /\ match y.1.2 with Some k => named vw vl g sw x.1 k | None => ~ in_bus vw g sw x.1 end /\ connectable_of vw vl g sw x.1 y.2.
  Lemma terms_q vw ts : forall st, quiet st0 st -> (forall n t, (n, t) ∈ ts -> is_Some (s_vertices g !! n)) ->
    exists r st', nb_export_terms vw ts st = (Ok r, st') /\ quiet st0 st' /\ Forall2 (term_written vw) ts r.
  Proof using Hcur Hvar I0.
    induction ts as [|[n t] ts IH]; intros st Q Hts; cbn [nb_export_terms].
    { exists [], st. split; [done|]. split; [done|constructor]. }
    assert (is_Some (s_vertices g !! n)) as Hn by (eapply Hts; by left).
    destruct (bus_q vw n st Q Hn) as (ob & st1 & E1 & Q1 & H1). rewrite (abind_Ok _ _ _ _ _ E1).
    destruct (conn_q vw n st1 Q1 Hn) as (oc & st2 & E2 & Q2 & H2). rewrite (abind_Ok _ _ _ _ _ E2).
    destruct (IH st2 Q2) as (r & st3 & E3 & Q3 & H3). { intros n' t' H. eapply Hts. by right. }
    rewrite (abind_Ok _ _ _ _ _ E3). eexists _, st3. split; [reflexivity|]. split; [done|]. constructor; [|done].
    split; [done|]. split; [|done]. cbn. by destruct ob.
  Qed.

  (** *** The switches *)
  Definition sw_written (id : string) (o : bool) (k1 k2 : string) : Prop :=
    exists e a b, s_edges g !! e = Some (a, b, Some id) /\ sw !! id = Some (o, true) /\ named BusBreakerView vl g sw a k1 /\ named BusBreakerView vl g sw b k2.
  Lemma end_q (first : bool) id o e a b st : quiet st0 st -> s_edges g !! e = Some (a, b, Some id) -> sw !! id = Some (o, true) ->
    exists k st', nb_switch_bus first id st = (Ok k, st') /\ quiet st0 st' /\ named BusBreakerView vl g sw (if first then a else b) k.
  Proof using Hcur Hvar I0.
    intros Q He Hs. destruct (quiet_var st Q) as (Eg & _ & _ & w & Hc & Hw & Es). pose proof He as He'. rewrite <- Eg in He'. unfold nbg in He'.
    unfold nb_switch_bus. rewrite (abind_Ok ashared _ st (e_sh st) st eq_refl). rewrite (si_edge _ (ni_sh _ _ (proj1 Q)) _ _ _ _ He').
    assert (exists ed, g_edges (nb_graph (e_sh st)) !! e = Some (Some ed) /\ e_v1 ed = a /\ e_v2 ed = b /\ e_obj ed = Some id) as (ed & Hed & <- & <- & Ho).
    { rewrite abs_edges in He'. destruct (g_edges (nb_graph (e_sh st)) !! e) as [[ed|]|]; simpl in He'; [|done|done]. injection He' as <- <- <-. by exists ed. }
    assert (g_check_edge (nb_graph (e_sh st)) e = Ok ed) as Ech.
    { pose proof (check_edge_spec (nb_graph (e_sh st)) e) as C. rewrite Hed in C. destruct (g_check_edge (nb_graph (e_sh st)) e); simpl in C; naive_solver. }
    assert (g_edge_object (nb_graph (e_sh st)) e = Ok (Some id)) as -> by (unfold g_edge_object; rewrite Ech; cbn; by rewrite Ho).
    rewrite (abind_Ok (alift (Ok (Some id))) _ st (Some id) st eq_refl).
    assert (sw_get id st = (Ok (o, true), st)) as Eg2.
    { unfold sw_get. unfold aget, abind, aindex. rewrite Hc. cbv beta iota. rewrite Hw. unfold alift. by rewrite Es, Hs. }
    rewrite (abind_Ok _ _ _ _ _ Eg2). cbn [snd].
    assert ((if first then g_vertex1 (nb_graph (e_sh st)) e else g_vertex2 (nb_graph (e_sh st)) e) = Ok (if first then e_v1 ed else e_v2 ed)) as ->
      by (unfold g_vertex1, g_vertex2; destruct first; by rewrite Ech).
    rewrite (abind_Ok (alift (Ok (if first then e_v1 ed else e_v2 ed))) _ st (if first then e_v1 ed else e_v2 ed) st eq_refl).
    set (x := if first then e_v1 ed else e_v2 ed). assert (on_edge g x) as Hon.
    { subst x. destruct first; [exists e, (e_v2 ed), (Some id)|exists e, (e_v1 ed), (Some id)]; unfold sjoins; tauto. }
    assert (is_Some (s_vertices g !! x)) as Hx by (apply on_edge_live; [exact (si_g _ (ni_sh _ _ I0))|done]).
    destruct (bus_q BusBreakerView x st Q Hx) as (ob & st' & E & Q' & H). rewrite (abind_Ok _ _ _ _ _ E). destruct ob as [k|]; [by exists (cb_id k), st'|].
    destruct H. by split.
  Qed.
  Lemma sws_q l : forall st, quiet st0 st -> (forall id, Some id ∈ l -> exists e a b, s_edges g !! e = Some (a, b, Some id)) ->
    exists r st', nb_export_switches l st = (Ok r, st') /\ quiet st0 st' /\ (NoDup (omap (fun x => x) l) -> NoDup (map (fun w => w.1.1.1) r)) /\
      (forall id o k1 k2, (id, o, k1, k2) ∈ r -> Some id ∈ l /\ sw_written id o k1 k2) /\
      (forall id o, Some id ∈ l -> sw !! id = Some (o, true) -> exists k1 k2, (id, o, k1, k2) ∈ r).
  Proof using Hcur Hvar I0.
    induction l as [|[id|] l IH]; intros st Q Hl; cbn [nb_export_switches].
    - exists [], st. split; [done|]. split; [done|]. split; [constructor|]. split; [intros ???? H; by apply elem_of_nil in H|intros ?? H; by apply elem_of_nil in H].
    - destruct (Hl id) as (e & a & b & He); [by left|]. destruct (quiet_var st Q) as (Eg & _ & _ & w & Hc & Hw & Es).
      assert (exists p, sw !! id = Some p) as [[o r] Hp].
      { apply (vinv_alive _ _ _ (ni_sh _ _ I0) (ni_var _ _ I0 i v Hvar)) in He. exact He. }
      assert (sw_get id st = (Ok (o, r), st)) as Eg2.
      { unfold sw_get. unfold aget, abind, aindex. rewrite Hc. cbv beta iota. rewrite Hw. unfold alift. by rewrite Es, Hp. }
      rewrite (abind_Ok _ _ _ _ _ Eg2). cbn [fst snd]. destruct r.
      + destruct (end_q true id o e a b st Q He Hp) as (k1 & st1 & E1 & Q1 & H1). rewrite (abind_Ok _ _ _ _ _ E1).
        destruct (end_q false id o e a b st1 Q1 He Hp) as (k2 & st2 & E2 & Q2 & H2). rewrite (abind_Ok _ _ _ _ _ E2).
        destruct (IH st2 Q2) as (r & st3 & E3 & Q3 & ND & H3 & H4). { intros id' H. apply Hl. by right. }
        rewrite (abind_Ok _ _ _ _ _ E3). eexists _, st3. split; [reflexivity|]. split; [done|]. split; [|split].
        * cbn [omap list_omap map fst]. intros [Hn N]%NoDup_cons. constructor; [|by apply ND]. intros H. apply Hn.
          apply elem_of_list_fmap in H as ([[[id' o'] c1] c2] & -> & H). apply H3 in H as [H _]. apply elem_of_list_omap. by exists (Some id').
        * intros id' o' c1 c2 [[= -> -> -> ->]|H]%elem_of_cons; [split; [by left|]; by exists e, a, b|]. apply H3 in H as [H ?]. split; [by right|done].
        * intros id' o' [[= ->]|H]%elem_of_cons Hs; [rewrite Hs in Hp; injection Hp as ->; exists k1, k2; by left|]. destruct (H4 id' o' H Hs) as (c1 & c2 & K). exists c1, c2. by right.
      + destruct (IH st Q) as (r & st3 & E3 & Q3 & ND & H3 & H4). { intros id' H. apply Hl. by right. }
        exists r, st3. split; [done|]. split; [done|]. split; [|split].
        * cbn [omap list_omap]. intros [_ N]%NoDup_cons. by apply ND.
        * intros id' o' c1 c2 H. apply H3 in H as [H ?]. split; [by right|done].
        * intros id' o' [[= ->]|H]%elem_of_cons Hs; [congruence|]. eauto.
    - destruct (IH st Q) as (r & st3 & E3 & Q3 & ND & H3 & H4). { intros id' H. apply Hl. by right. }
      exists r, st3. split; [done|]. split; [done|]. split; [|split].
      + cbn [omap list_omap]. exact ND.
      + intros id' o' c1 c2 H. apply H3 in H as [H ?]. split; [by right|done].
      + intros id' o' [[=]|H]%elem_of_cons Hs. eauto.
  Qed.

  (** *** The file *)
  Record file_of (vw : view) (ts : list (nat * nterm)) (x : xlevel) : Prop := {
    fo_buses : NoDup (x_buses x);
    fo_bus : forall k, k ∈ x_buses x <-> exists n, named vw vl g sw n k;
    fo_sws : NoDup (map (fun w => w.1.1.1) (x_sws x));
    fo_sw : forall id o k1 k2, (id, o, k1, k2) ∈ x_sws x <-> vw = BusBreakerView /\ sw_written id o k1 k2;
    fo_terms : Forall2 (term_written vw) ts (x_terms x)
  }.
  Lemma edge_list st : quiet st0 st -> NoDup (omap (fun x => x) (omap (fmap e_obj) (g_edges (nb_graph (e_sh st))))) /\
    forall id, Some id ∈ omap (fmap e_obj) (g_edges (nb_graph (e_sh st))) <-> exists e a b, s_edges g !! e = Some (a, b, Some id).
  Proof using Hcur Hvar.
    intros Q. destruct (quiet_var st Q) as (Eg & _). pose proof (si_edge _ (ni_sh _ _ (proj1 Q))) as SE.
    assert (forall id e, (exists ed, g_edges (nb_graph (e_sh st)) !! e = Some (Some ed) /\ e_obj ed = Some id) <-> exists a b, s_edges g !! e = Some (a, b, Some id)) as HE.
    { intros id e. rewrite <- Eg. unfold nbg. rewrite abs_edges. split.
      - intros (ed & -> & Ho). exists (e_v1 ed), (e_v2 ed). simpl. unfold ends. by rewrite Ho.
      - intros (a & b & He). destruct (g_edges (nb_graph (e_sh st)) !! e) as [[ed|]|]; simpl in He; [|done|done]. injection He as <- <- <-. by exists ed. }
    fold (nbg st) in SE. rewrite Eg in SE. split.
    - assert (forall l : list (option (edge string)), (forall e e' ed ed' id, l !! e = Some (Some ed) -> l !! e' = Some (Some ed') -> e_obj ed = Some id -> e_obj ed' = Some id -> e = e') ->
        NoDup (omap (fun x => x) (omap (fmap e_obj) l))) as HN.
      { induction l as [|x l IHl]; intros HU; [constructor|]. assert (NoDup (omap (fun x => x) (omap (fmap e_obj) l))) as N.
        { apply IHl. intros e e' ed ed' id H1 H2 H3 H4. assert (S e = S e') as [= ->]; [|done]. eapply HU; [exact H1|exact H2|exact H3|exact H4]. }
        destruct x as [ed|]; [|exact N]. cbn [omap list_omap fmap option_fmap option_map]. destruct (e_obj ed) as [id|] eqn:Eo; [|exact N]. constructor; [|exact N].
        intros H. apply elem_of_list_omap in H as (y & H & ->). apply elem_of_list_omap in H as (y & H & Hy). destruct y as [ed'|]; [|done]. simpl in Hy. injection Hy as Hy.
        apply elem_of_list_lookup in H as [j Hj]. assert (0 = S j); [|done]. eapply HU; [reflexivity|exact Hj|exact Eo|done]. }
      apply HN. intros e e' ed ed' id H1 H2 H3 H4. destruct (proj1 (HE id e)) as (a & b & K1); [eauto|]. destruct (proj1 (HE id e')) as (a' & b' & K2); [eauto|].
      apply SE in K1. apply SE in K2. congruence.
    - intros id. rewrite elem_of_list_omap. split.
      + intros ([ed|] & H & Hy); [|done]. simpl in Hy. injection Hy as Hy. apply elem_of_list_lookup in H as [e He]. exists e. apply HE. eauto.
      + intros (e & H). apply HE in H as (ed & H & Ho). exists (Some ed). split; [by eapply elem_of_list_lookup_2|]. simpl. by rewrite Ho.
  Qed.
  Lemma export_q vw ts : (forall n t, (n, t) ∈ ts -> is_Some (s_vertices g !! n)) ->
    exists x st, nb_export vw ts st0 = (Ok x, st) /\ quiet st0 st /\ file_of vw ts x.
  Proof using Hcur Hvar I0.
    intros Hts. unfold nb_export. destruct (cache_q vw st0 quiet_refl) as (c & st1 & cap & E1 & Q1 & CK & _).
    assert (nb_buses vw st0 = (Ok (bc_id c), st1)) as E1' by (unfold nb_buses; by rewrite (abind_Ok _ _ _ _ _ E1)). rewrite (abind_Ok _ _ _ _ _ E1').
    assert (exists sws st2, (match vw with BusView => aret [] | BusBreakerView => do! s := ashared in nb_export_switches (omap (fmap e_obj) (g_edges (nb_graph s))) end) st1 = (Ok sws, st2) /\
      quiet st0 st2 /\ NoDup (map (fun w => w.1.1.1) sws) /\ (forall id o k1 k2, (id, o, k1, k2) ∈ sws <-> vw = BusBreakerView /\ sw_written id o k1 k2)) as (sws & st2 & E2 & Q2 & N2 & H2).
    { destruct vw.
      - exists [], st1. split; [done|]. split; [done|]. split; [constructor|]. intros. split; [intros H; by apply elem_of_nil in H|by intros [? _]].
      - destruct (edge_list st1 Q1) as [N HE]. destruct (sws_q (omap (fmap e_obj) (g_edges (nb_graph (e_sh st1)))) st1 Q1) as (r & st2 & E2 & Q2 & N2 & H2 & H3).
        { intros id H. by apply HE. }
        exists r, st2. split; [by rewrite (abind_Ok ashared _ st1 (e_sh st1) st1 eq_refl)|]. split; [done|]. split; [by apply N2|]. intros id o k1 k2. split.
        + intros H. split; [done|]. by apply H2.
        + intros (_ & e & a & b & He & Hs & K1 & K2). destruct (H3 id o) as (c1 & c2 & H); [apply HE; eauto|done|].
          destruct (proj2 (H2 _ _ _ _ H)) as (e' & a' & b' & He' & _ & L1 & L2).
          assert (e' = e) as ->. { pose proof (si_edge _ (ni_sh _ _ I0) _ _ _ _ He). pose proof (si_edge _ (ni_sh _ _ I0) _ _ _ _ He'). congruence. }
          rewrite He in He'. injection He' as <- <-. rewrite (bus_name_fun _ _ _ _ _ _ _ (proj2 K1) (proj2 L1)). by rewrite (bus_name_fun _ _ _ _ _ _ _ (proj2 K2) (proj2 L2)). }
    rewrite (abind_Ok _ _ _ _ _ E2). destruct (terms_q vw ts st2 Q2 Hts) as (r & st3 & E3 & Q3 & H3). rewrite (abind_Ok _ _ _ _ _ E3).
    eexists _, st3. split; [reflexivity|]. split; [done|]. split; cbn [x_buses x_sws x_terms]; [apply in_order_nodup| |done|done|done].
    intros k. rewrite in_order_elem. by eapply cache_ids.
  Qed.

  (** *** The copy *)
  Lemma named_fun vw n k k' : named vw vl g sw n k -> named vw vl g sw n k' -> k = k'.
  Proof using. clear I0. intros [_ H] [_ H']. by eapply bus_name_fun. Qed.
  Lemma named_same vw n n' k : named vw vl g sw n k -> named vw vl g sw n' k -> same_node vw g sw n n'.
  Proof using. clear I0. intros [_ H] [_ H']. by eapply bus_name_inj. Qed.
  Lemma conn_on vw n k oc : named vw vl g sw n k -> connectable_of vw vl g sw n oc -> oc = Some k.
  Proof using.
    clear I0. intros H HC. destruct oc as [k'|]; [|destruct (HC n); apply H]. destruct HC as [[_ HC]|[[HC _]|[HC _]]].
    - by rewrite (named_fun _ _ _ _ H HC).
    - destruct HC. apply H.
    - destruct (HC n (rtc_refl _ _)). apply H.
  Qed.
  Lemma conn_some vw n m oc : in_bus vw g sw m -> connectable_of vw vl g sw n oc -> exists k m', oc = Some k /\ named vw vl g sw m' k.
  Proof using.
    clear I0. intros H HC. destruct oc as [k'|]; [|by destruct (HC m)]. exists k'. destruct HC as [[_ HC]|[(_ & m' & _ & HC)|[_ [[m' HC] _]]]]; eauto.
  Qed.
  Lemma doc_of_file vw ts x ids : file_of vw ts x -> equipments g ts -> one_node g -> new_ids vw vl g sw ids ->
    (ts = [] \/ exists n, in_bus vw g sw n) -> doc_ok ids x.
  Proof using.
    clear I0. intros [F1 F2 F3 F4 F5] [E1 E2] ON [N1 N2] HB. split.
    - done.
    - intros k Hk. apply F2 in Hk as [n Hn]. split; [|by eapply N1]. destruct Hn as [_ (m & _ & ->)]. by destruct vl.
    - done.
    - intros id o k1 k2 H. apply F4 in H as (-> & e & a & b & He & Hs & K1 & K2). destruct (N2 id o) as (H1 & H2 & H3); [by split|].
      split; [done|]. split; [done|]. split; [intros [n Hn]%F2; by eapply H3|]. split; apply F2; eauto.
    - assert (map (fun w => w.1.1) (x_terms x) = map snd ts) as ->.
      { clear -F5. induction F5 as [|a b l l' [H _] _ IH]; [done|]. cbn [map]. by rewrite IH, H. }
      assert (forall n n' t, (n, t) ∈ ts -> (n', t) ∈ ts -> n = n') as HU.
      { intros n n' t [H _]%E2 [H' _]%E2. by eapply ON. }
      clear -E1 HU. induction ts as [|[n t] ts IH]; [constructor|]. apply NoDup_cons in E1 as [Hn E1]. cbn [map snd]. constructor.
      + intros H. apply elem_of_list_fmap in H as ([n' t'] & -> & H). cbn [snd] in *. rewrite (HU n n' t') in Hn; [done|by left|by right].
      + apply IH; [done|]. intros a b c H H'. eapply HU; right; done.
    - intros y Hy. destruct (Forall2_In _ _ _ F5 y Hy) as ([n t] & Hin & W1 & W2 & W3). 
      destruct y as [[t' ob] oc]. cbn [fst snd] in *. subst t'. destruct (proj1 (E2 n t) Hin) as [_ Hf]. split; [exact Hf|].
      destruct ob as [k|].
      + exists true, k. rewrite (conn_on _ _ _ _ W2 W3). split; [|apply F2; eauto]. split; [done|]. split; [done|]. by left.
      + destruct HB as [->|[m Hm]]; [by apply elem_of_nil in Hin|]. destruct (conn_some _ _ _ _ Hm W3) as (k & m' & -> & Hk).
        exists false, k. split; [|apply F2; eauto]. split; [done|]. split; [done|]. by right.
  Qed.
End export.

(** Joined buses of a level read. *)
Lemma joined_between s v b1 b2 : joined s v b1 b2 <-> exists id, bv_open v !! id = Some false /\ (lies_between s id b1 b2 \/ lies_between s id b2 b1).
Proof.
  unfold joined, lies_between, sjoins. split.
  - intros (id & e & x1 & x2 & u1 & u2 & [He|He] & Ho & R); exists id; (split; [done|]); [left; exists e, x1, x2, u1, u2; tauto|right; exists e, x2, x1, u2, u1; tauto].
  - intros (id & Ho & [(e & x1 & x2 & u1 & u2 & He & R)|(e & x1 & x2 & u1 & u2 & He & R)]);
    [exists id, e, x1, x2, u1, u2; tauto|exists id, e, x2, x1, u2, u1; tauto].
Qed.

Lemma copy_ok vw st0 i v ts x ids st2 v2 : ninv true st0 -> e_cur st0 = Some i -> e_vars st0 !! i = Some v ->
  file_of st0 v vw ts x -> equipments (nbg st0) ts -> one_node (nbg st0) ->
  doc_ok ids x -> built ids (x_buses x) (x_sws x) (map doc_conn (x_terms x)) st2 v2 ->
  copied vw (nb_id (e_sh st0)) (nbg st0) (nv_sw v) (e_sh st2) v2.
Proof.
  intros I0 Hc Hi F [E1 E2] ON D B. set (g := nbg st0) in *. set (sw := nv_sw v) in *. set (vl := nb_id (e_sh st0)) in *.
  pose proof F as [F1 F2 F3 F4 F5]. fold g sw vl in F2.
  assert (forall id o, written_switch vw sw id o -> exists k1 k2, (id, o, k1, k2) ∈ x_sws x) as HW. {
    intros id o [-> Hs]. assert (is_Some (nb_sw (e_sh st0) !! id)) as [e He].
    { apply (si_kind _ (ni_sh _ _ I0)). apply (vi_dom _ _ _ (ni_var _ _ I0 i v Hi)). fold sw. rewrite Hs. eauto. }
    destruct (si_sw _ (ni_sh _ _ I0) _ _ He) as (a & b & He'). fold (nbg st0) in He'. fold g in He'.
    destruct (named_ex st0 i v I0 Hc Hi BusBreakerView a) as [ka Ka]; [split; [|done]; exists e, b, (Some id); unfold sjoins; tauto|].
    destruct (named_ex st0 i v I0 Hc Hi BusBreakerView b) as [kb Kb]; [split; [|done]; exists e, a, (Some id); unfold sjoins; tauto|].
    exists ka, kb. apply F4. split; [done|]. by exists e, a, b. }
  assert (forall n t k, term_at g n t -> is_feeder t -> named vw vl g sw n k -> (t, true, k) ∈ map doc_conn (x_terms x)) as Hon. {
    intros n t k Ht Hf Hk. destruct (Forall2_In_l _ _ _ F5 (n, t)) as ([[t' ob] oc] & Hy & W1 & W2 & W3); [by apply E2|]. cbn [fst snd] in *. subst t'.
    destruct ob as [k'|]; [|destruct W2; apply Hk]. assert (k' = k) as -> by (by eapply named_fun).
    apply elem_of_list_fmap. exists (t, Some k, oc). split; [|done]. rewrite (conn_on _ _ _ _ _ _ Hk W3). done. }
  assert (forall t c k, (t, c, k) ∈ map doc_conn (x_terms x) -> exists n, term_at g n t /\ is_feeder t /\
     (named vw vl g sw n k /\ c = true \/ ~ in_bus vw g sw n /\ c = false)) as Hcon. {
    intros t c k H. apply elem_of_list_fmap in H as ([[t' ob] oc] & [= -> -> ->] & Hy).
    destruct (Forall2_In _ _ _ F5 _ Hy) as ([n t0] & Hin & W1 & W2 & W3). cbn [fst snd] in *. subst t0. apply E2 in Hin as [Ht Hf]. exists n. split; [done|]. split; [done|].
    destruct ob as [k'|]; [left|right; split; [done|by apply bool_decide_eq_false_2; intros []]].
    rewrite (conn_on _ _ _ _ _ _ W2 W3). split; [done|]. apply bool_decide_eq_true_2. eauto. }
  split.
  - intros k. by rewrite (bd_bus _ _ _ _ _ _ B), F2.
  - intros id o. rewrite (bd_open _ _ _ _ _ _ B). split; [|apply HW]. intros (k1 & k2 & H). apply F4 in H as (-> & e & a & b & _ & Hs & _). by split.
  - intros id o e a b ka kb [-> Hs] He Ka Kb. apply (bd_between _ _ _ _ _ _ B). exists o. apply F4. split; [done|]. by exists e, a, b.
  - intros n1 n2 k1 k2 H1 H2. split.
    + intros HS. revert n1 n2 H1 H2. induction HS as [k|k k' k'' HJ _ IH]; intros n1 n2 H1 H2.
      * eapply same_view. by eapply named_same.
      * apply joined_between in HJ as (id & Ho & HJ).
        assert (exists a b, vw = BusBreakerView /\ link BusView g sw a b /\ named vw vl g sw a k /\ named vw vl g sw b k') as (a & b & Ev & Hl & Ha & Hb).
        { assert (forall b1 b2, lies_between (e_sh st2) id b1 b2 -> vw = BusBreakerView /\ exists e a b, s_edges g !! e = Some (a, b, Some id) /\ sw !! id = Some (false, true) /\
             named vw vl g sw a b1 /\ named vw vl g sw b b2) as HL.
          { intros b1 b2 H. apply (bd_between _ _ _ _ _ _ B) in H as [o H]. assert (o = false) as ->.
            { assert (bv_open v2 !! id = Some o) as Ho' by (apply (bd_open _ _ _ _ _ _ B); eauto). congruence. }
            apply F4 in H as (-> & e & a & b & He & Hs & K1 & K2). split; [done|]. by exists e, a, b. }
          destruct HJ as [HJ|HJ]; apply HL in HJ as (Ev & e & a & b & He & Hs & Ka & Kb); [exists a, b|exists b, a]; (split; [done|]; split; [|done]);
          exists e, (Some id); (split; [unfold sjoins; tauto|]); exists false, true; (split; [done|]); split; done. }
        trans a; [eapply same_view; by eapply named_same|]. eapply rtc_l; [exact Hl|]. by apply IH.
    + intros HS. revert k1 k2 H1 H2. destruct vw.
      * intros k1 k2 H1 H2. assert (k1 = k2) as ->; [|apply rtc_refl]. eapply bus_name_fun; [|apply H2]. eapply bus_name_same; [exact HS|apply H1].
      * induction HS as [n|a b c HL HS IH]; intros k1 k2 H1 H2.
        { rewrite (named_fun _ _ _ _ _ _ H1 H2). apply rtc_refl. }
        assert (on_edge g b) as Hb. { destruct HL as (e & ob & Hj & _). exists e, a, ob. unfold sjoins in *. tauto. }
        destruct (named_ex st0 i v I0 Hc Hi BusBreakerView b) as [kb Kb]; [by split|]. specialize (IH kb k2 Kb H2).
        destruct HL as (e & ob & Hj & Hx).
        assert (link BusBreakerView g sw a b \/ exists id, ob = Some id /\ sw !! id = Some (false, true)) as [Hl|(id & -> & Hs)].
        { destruct ob as [id|]; [|left; by exists e, None]. destruct Hx as (o & r & Hs & Ho & _). subst o. destruct r; [right; eauto|]. left. exists e, (Some id). split; [done|]. by exists false, false. }
        -- assert (k1 = kb) as ->; [|done]. eapply bus_name_fun; [|apply Kb]. eapply bus_name_same; [by apply rtc_once|apply H1].
        -- eapply rtc_l; [|exact IH]. apply joined_between. exists id. split.
           ++ apply (bd_open _ _ _ _ _ _ B). apply HW. by split.
           ++ destruct Hj as [He|He]; [left|right]; apply (bd_between _ _ _ _ _ _ B); exists false; apply F4; (split; [done|]); [exists e, a, b|exists e, b, a]; done.
  - intros n t k Ht Hf Hk. pose proof (Hon n t k Ht Hf Hk) as H. split.
    + by apply (bd_conn _ _ _ _ _ _ B).
    + intros b. rewrite (bd_hangs _ _ _ _ _ _ B). split; [|intros ->; eauto]. intros [c H']. apply (bd_conn _ _ _ _ _ _ B) in H, H'. congruence.
  - intros n t Ht Hf Hn. destruct (Forall2_In_l _ _ _ F5 (n, t)) as (y & Hy & W1 & W2 & W3); [by apply E2|].
    assert (doc_conn y ∈ map doc_conn (x_terms x)) as HD by (by apply elem_of_list_fmap_1). destruct y as [[t' ob] oc]. cbn [fst snd] in *. subst t'.
    destruct ob as [k'|]; [destruct Hn; apply W2|]. unfold doc_conn in HD. cbn [fst snd] in HD. rewrite bool_decide_eq_false_2 in HD by (intros []; done).
    assert (exists k, oc = Some k) as [k ->].
    { destruct (dk_term _ _ D _ Hy) as (_ & c & b & (_ & Hb & _) & _). eauto. }
    exists k. split; [done|]. assert ((t, false, k) ∈ map doc_conn (x_terms x)) as HC by exact HD. apply (bd_conn _ _ _ _ _ _ B) in HC. split; [done|].
    intros b. rewrite (bd_hangs _ _ _ _ _ _ B). split; [|intros ->; eauto]. intros [c H']. apply (bd_conn _ _ _ _ _ _ B) in H'. congruence.
  - intros b t H. apply (bd_hangs _ _ _ _ _ _ B) in H as [c H]. apply Hcon in H as (n & ? & ? & _). eauto.
Qed.

(** ** Bus-breaker levels at the bus-branch level *)
Lemma bterms_q st v c st1 ts : cached st v c st1 -> (forall t, t ∈ ts -> exists c b, bv_conn v !! t = Some (c, b) /\ is_bus (e_sh st) b) ->
  exists r, bb_export_terms ts st1 = (Ok r, st1) /\
    Forall2 (fun t y => exists cn b u, bv_conn v !! t = Some (cn, b) /\ bb_live (e_sh st) !! u = Some b /\
               y = (t, if cn : bool then mc_map c !! u else None, mc_map c !! u)) ts r.
Proof.
  intros C. pose proof C as (I1 & SB & CG & i & Hc & Hi & Hv). induction ts as [|t ts IH]; intros Hts; cbn [bb_export_terms].
  { exists []. split; [done|constructor]. }
  destruct (Hts t ltac:(by left)) as (cn & b & Hx & Hb). destruct (merged_again st v c st1 b C Hb) as (u & E & L).
  assert (bt_get t st1 = (Ok (cn, b), st1)) as Eg. { apply (bt_get_eq st1 i (bv_set_cache (Some c) v)); [|done|done]. by rewrite (sbm_cur _ _ SB). }
  assert (bb_terminal_bus t st1 = (Ok (if cn then mc_map c !! u else None), st1)) as E1.
  { unfold bb_terminal_bus. rewrite (abind_Ok _ _ _ _ _ Eg). cbn [fst snd]. by destruct cn. }
  rewrite (abind_Ok _ _ _ _ _ E1), (abind_Ok _ _ _ _ _ Eg). cbn [snd]. rewrite (abind_Ok _ _ _ _ _ E).
  destruct IH as (r & Er & HF). { intros t' Ht'. apply Hts. by right. }
  rewrite (abind_Ok _ _ _ _ _ Er). eexists. split; [reflexivity|]. constructor; [|done]. by exists cn, b, u.
Qed.

Lemma bb_copy_ok st v ts ids : bb_reach bb_safe st -> working st v -> well_numbered st ->
  NoDup ts -> (forall t, t ∈ ts <-> exists b, hangs (e_sh st) v b t) ->
  (forall b t, hangs (e_sh st) v b t -> (exists c, bv_conn v !! t = Some (c, b)) /\ in_bus_view (e_sh st) v b) ->
  (forall j, bb_id (e_sh st) +:+ "_" +:+ pretty (N.of_nat j) ∉ ids) ->
  exists x st1 st2 v2, bb_export ts st = (Ok x, st1) /\ same_but_merged st st1 /\ bb_import x (bb_blank (bb_id (e_sh st)) ids) = (Ok tt, st2) /\
    bb_reach bb_safe st2 /\ well_numbered st2 /\ working st2 v2 /\ merged_copy (e_sh st) v (e_sh st2) v2.
Proof.
  intros HR W WN ND Hts Hh Hids. pose proof (reach_binv _ HR) as I. pose proof (bi_sh _ I) as S.
  destruct (query_cached st v I WN W) as (c & st1 & E & C). pose proof C as (_ & SB & CG & _).
  assert (forall b t, hangs (e_sh st) v b t -> is_bus (e_sh st) b) as Hbus by (intros b t (u & l & L & _); by exists u).
  destruct (bterms_q st v c st1 ts C) as (r & Er & HF).
  { intros t Ht. apply Hts in Ht as [b Hb]. destruct (Hh b t Hb) as [[cn Hc] _]. exists cn, b. split; [done|]. by eapply Hbus. }
  set (x := mkXL (in_order (mc_id c)) [] r).
  assert (bb_export ts st = (Ok x, st1)) as Ex by (unfold bb_export; by rewrite (abind_Ok _ _ _ _ _ E), (abind_Ok _ _ _ _ _ Er)).
  assert (forall t b, hangs (e_sh st) v b t -> exists cn u k, bv_conn v !! t = Some (cn, b) /\ bb_live (e_sh st) !! u = Some b /\ mc_map c !! u = Some k /\
            k ∈ in_order (mc_id c) /\ (t, if cn : bool then Some k else None, Some k) ∈ r) as HA.
  { intros t b Hb. destruct (Forall2_In_l _ _ _ HF t) as (y & Hy & cn & b' & u & Hc & L & ->); [apply Hts; eauto|].
    destruct (Hh b t Hb) as [[cn' Hc'] Hv]. assert (b' = b) as -> by congruence. destruct (proj2 (good_valid _ _ _ _ _ S CG L) Hv) as [k Hk].
    exists cn, u, k. rewrite Hk in Hy. do 3 (split; [done|]). split; [|done]. apply in_order_elem.
    destruct (good_members _ _ _ _ _ _ S CG L Hk) as (us & ? & _). eauto. }
  assert (forall y, y ∈ r -> exists t b, y.1.1 = t /\ t ∈ ts /\ hangs (e_sh st) v b t) as HB.
  { intros y Hy. destruct (Forall2_In _ _ _ HF y Hy) as (t & Ht & cn & b & u & Hc & L & ->). pose proof Ht as Ht'. apply Hts in Ht' as [b' Hb']. by exists t, b'. }
  assert (map (fun w => w.1.1) r = ts) as Emap.
  { clear -HF. induction HF as [|t y ts r (cn & b & u & _ & _ & ->) _ IH]; [done|]. cbn [map fst]. by rewrite IH. }
  assert (forall y t, y ∈ r -> y.1.1 = t -> forall y', y' ∈ r -> y'.1.1 = t -> y = y') as HU.
  { rewrite <- Emap in ND. clear -ND. induction r as [|z r IH]; intros y t Hy Ht y' Hy' Ht'; [by apply elem_of_nil in Hy|].
    cbn [map] in ND. apply NoDup_cons in ND as [Hz ND]. apply elem_of_cons in Hy as [->|Hy], Hy' as [->|Hy'].
    - done.
    - destruct Hz. apply elem_of_list_fmap. exists y'. split; [congruence|done].
    - destruct Hz. apply elem_of_list_fmap. exists y. split; [congruence|done].
    - by eapply IH. }
  assert (doc_ok ids x) as D.
  { unfold x. split; cbn [x_buses x_sws x_terms]; [apply in_order_nodup| |constructor|intros ???? H; by apply elem_of_nil in H|by rewrite Emap|].
    - intros k Hk. apply in_order_elem in Hk. destruct (cg_num _ _ _ _ CG) as [n Hn]. destruct (proj1 (Hn k) Hk) as (j & _ & ->). split; [|apply Hids].
      unfold merged_id. by destruct (bb_id (e_sh st)).
    - intros y Hy. destruct (HB y Hy) as (t & b & Et & Ht & Hb). destruct (HA t b Hb) as (cn & u & k & Hc & L & Hk & Ho & Hin).
      rewrite (HU _ _ Hy Et _ Hin eq_refl). cbn [fst snd]. split.
      + destruct Hb as (w & l & Lw & Hl & Htl). destruct W as (i & Hci & Hi). by destruct (vk_known _ _ (proj1 (bi_vars _ I) i v Hi) w l t Hl Htl) as [_ ?].
      + exists cn, k. split; [|done]. split; [done|]. split; [done|]. destruct cn; [by left|by right]. }
  destruct (import_ok (bb_id (e_sh st)) ids x D) as (st2 & v2 & E2 & B). unfold x in B. cbn [x_buses x_sws x_terms] in B.
  assert (forall t b cn u k, hangs (e_sh st) v b t -> bv_conn v !! t = Some (cn, b) -> bb_live (e_sh st) !! u = Some b -> mc_map c !! u = Some k ->
            bv_conn v2 !! t = Some (cn, k) /\ forall k', hangs (e_sh st2) v2 k' t <-> k' = k) as HT.
  { intros t b cn u k Hb Hc L Hk. destruct (HA t b Hb) as (cn' & u' & k' & Hc' & L' & Hk' & Ho & Hin). assert (cn' = cn) as -> by congruence.
    assert (u' = u) as -> by (eapply live_inj; [exact S|done|done]). assert (k' = k) as -> by congruence.
    assert ((t, cn, k) ∈ map doc_conn r) as HD.
    { apply elem_of_list_fmap. eexists. split; [|exact Hin]. unfold doc_conn. cbn [fst snd default]. destruct cn; [by rewrite bool_decide_eq_true_2 by eauto|by rewrite bool_decide_eq_false_2 by (intros []; done)]. }
    split; [by apply (bd_conn _ _ _ _ _ _ B)|]. intros k'. rewrite (bd_hangs _ _ _ _ _ _ B). split; [|intros ->; eauto].
    intros [c' H]. apply (bd_conn _ _ _ _ _ _ B) in H, HD. congruence. }
  exists x, st1, st2, v2. split; [done|]. split; [done|]. split; [done|]. split; [apply B|]. split; [by eapply built_numbered|].
  split; [exists initial_variant; split; [apply B|by eapply built_lookup]|]. split.
  - intros id. destruct (bv_open v2 !! id) as [o|] eqn:Eo; [|done]. apply (bd_open _ _ _ _ _ _ B) in Eo as (b1 & b2 & H). by apply elem_of_nil in H.
  - intros k Hk. apply (bd_bus _ _ _ _ _ _ B) in Hk. apply in_order_elem in Hk as [us Hus]. destruct (good_key _ _ _ _ _ S CG Hus) as (u & b & L & Hk).
    destruct (proj1 (good_valid _ _ _ _ _ S CG L) ltac:(eauto)) as (b' & t & Hs & Hb' & Hcn & Hbr).
    destruct (HA t b' Hb') as (cn & u' & k' & Hc & L' & Hk' & _ & _). assert (k = k') as <- by (by apply (good_same _ _ _ _ _ _ _ _ _ S CG L Hk L' Hk')).
    destruct (HT t b' cn u' k Hb' Hc L' Hk') as [H1 H2]. exists k, t. split; [apply rtc_refl|]. split; [by apply H2|]. split; [|done].
    destruct Hcn as [b'' Hcn]. exists k. assert (cn = true) as -> by congruence. done.
  - intros b t Hb. destruct (HA t b Hb) as (cn & u & k & Hc & L & Hk & _ & _). exists k. by apply (HT t b cn u k).
  - intros b t Hb. destruct (HA t b Hb) as (cn & u & k & Hc & L & Hk & _ & _). destruct (HT t b cn u k Hb Hc L Hk) as [H1 _].
    unfold connected. rewrite H1, Hc. split; intros [? [= -> _]]; eauto.
  - intros k t H. apply (bd_hangs _ _ _ _ _ _ B) in H as [c' H]. apply elem_of_list_fmap in H as (y & [= -> _ _] & Hy).
    destruct (HB y Hy) as (t & b & <- & _ & Hb). eauto.
  - intros t1 t2 b1 b2 k1 k2 H1 H2 K1 K2.
    destruct (HA t1 b1 H1) as (cn1 & u1 & k1' & Hc1 & L1 & Hk1 & _ & _). destruct (HA t2 b2 H2) as (cn2 & u2 & k2' & Hc2 & L2 & Hk2 & _ & _).
    apply (HT t1 b1 cn1 u1 k1' H1 Hc1 L1 Hk1) in K1 as ->. apply (HT t2 b2 cn2 u2 k2' H2 Hc2 L2 Hk2) in K2 as ->.
    exact (good_same _ _ _ _ _ _ _ _ _ S CG L1 Hk1 L2 Hk2).
Qed.
