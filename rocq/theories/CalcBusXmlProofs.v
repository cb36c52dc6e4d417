(** Proofs about [CalcBusXml]. *)
From stdpp Require Import gmap pretty sorting.
From Verif Require Import Base Graph GraphSpec GraphProofs GraphTraverse GraphPaths GraphMore Equip NodeTopo NodeTopoSpec NodeTopoProofs NodeTopoInv NodeTopoConn NodeGroups NodeGroupsSpec NodeGroupsProofs BusValues BusValuesSpec BusValuesProofs CalcBusXml CalcBusXmlSpec.

(** ** A filled cache stays *)
Definition held (c : bcache) (st : nbst) : Prop := exists i v, e_cur st = Some i /\ e_vars st !! i = Some v /\ nv_bus v = Some c.
Definition kp {A} (c : bcache) (m : nbact A) : Prop := forall st, held c st -> held c (m st).2.

Lemma aget_eq (st : nbst) i v : e_cur st = Some i -> e_vars st !! i = Some v -> aget st = (Ok v, st).
Proof. intros Hc Hi. unfold aget, abind, aindex. rewrite Hc. cbv beta iota. by rewrite Hi. Qed.
Lemma cache_held c st : held c st -> nb_cache BusView st = (Ok c, st).
Proof.
  intros (i & v & Hc & Hi & Hb). unfold nb_cache.
  assert (nb_update BusView st = (Ok tt, st)) as E.
  { unfold nb_update. rewrite (abind_Ok _ _ _ _ _ (aget_eq _ _ _ Hc Hi)). cbn [nv_cache]. by rewrite Hb. }
  rewrite (abind_Ok _ _ _ _ _ E), (abind_Ok _ _ _ _ _ (aget_eq _ _ _ Hc Hi)). cbn [nv_cache]. by rewrite Hb.
Qed.
Lemma kp_bind {A B} c (m : nbact A) (f : A -> nbact B) : kp c m -> (forall a, kp c (f a)) -> kp c (abind m f).
Proof.
  intros Hm Hf st H. specialize (Hm st H). unfold abind. destruct (m st) as [[a|e| |] st']; [by apply Hf|done|done|done].
Qed.
Lemma kp_pure {A} c (m : nbact A) : (forall st, (m st).2 = st) -> kp c m.
Proof. intros E st H. by rewrite E. Qed.
Lemma kp_gact {A} c (f : graph nterm string -> graph nterm string * result A) : kp c (gact f).
Proof.
  intros st (i & v & Hc & Hi & Hb). unfold gact. destruct (f (nb_graph (e_sh st))) as [g' r]. cbn [snd]. exists i, v. done.
Qed.
Lemma kp_node c n : kp c (nb_bus_of_node BusView n).
Proof. intros st H. unfold nb_bus_of_node. rewrite (abind_Ok _ _ _ _ _ (cache_held _ _ H)). done. Qed.
Lemma kp_equivalent c n : kp c (nb_equivalent n).
Proof. intros st H. unfold nb_equivalent. refine (kp_bind c _ _ (kp_gact c _) _ st H). intros a. by apply kp_pure. Qed.
Lemma kp_add_node c n m acc : kp c (add_node n m acc).
Proof. unfold add_node. apply kp_bind; [apply kp_node|]. intros b. by apply kp_pure. Qed.
Lemma kp_loop c ns : forall acc, kp c (nodes_loop ns acc).
Proof.
  induction ns as [|n ns IH]; intros acc; cbn [nodes_loop]; [by apply kp_pure|].
  apply kp_bind; [by apply kp_pure|]. intros s. apply kp_bind; [by apply kp_pure|]. intros [t|].
  - apply kp_bind; [apply kp_add_node|]. intros acc'. apply IH.
  - apply kp_bind; [apply kp_equivalent|]. intros [m|]; [|apply IH]. apply kp_bind; [apply kp_add_node|]. intros acc'. apply IH.
Qed.
Lemma kp_nodes_by_bus c : kp c nb_nodes_by_bus.
Proof. unfold nb_nodes_by_bus. apply kp_bind; [by apply kp_pure|]. intros s. apply kp_loop. Qed.

Lemma held_query n st0 r st : ninv true st0 -> nb_bus_of_node BusView n st0 = (Ok r, st) ->
  exists c i v, held c st /\ ninv true st /\ same_but_cache st0 st /\ e_cur st = Some i /\ e_vars st !! i = Some v /\
    cache_ok BusView (nb_id (e_sh st)) (nv_sw v) (nbg st) (length (g_vertices (nb_graph (e_sh st)))) c.
Proof.
  intros I E.
  assert (exists i v, e_cur st0 = Some i /\ e_vars st0 !! i = Some v) as (i & v & Hc & Hi).
  { unfold nb_bus_of_node, nb_cache, nb_update, aget in E. destruct (e_cur st0) as [i|] eqn:Hc.
    - destruct (proj2 (ni_wf _ _ I) i Hc) as [v Hv]. by exists i, v.
    - unfold abind, aindex in E. rewrite Hc in E. done. }
  destruct (cache_eq BusView st0 i v I Hc Hi) as (c & st1 & E1 & I1 & S1 & CK).
  unfold nb_bus_of_node in E. rewrite (abind_Ok _ _ _ _ _ E1) in E. unfold alift in E.
  assert (st1 = st) as -> by congruence.
  destruct (sbc_cur_var _ _ i v S1 Hi) as (v1 & Hi1 & Es). assert (e_cur st = Some i) as Hc1 by (by rewrite (sbc_cur _ _ S1)).
  assert (held c st) as Hh.
  { exists i, v1. split; [done|]. split; [done|]. unfold nb_cache in E1.
    destruct (nb_update_eq BusView st0 true I) as [(? & _)|(j & w & Hj & Hw & [(c' & Hcc & Eu)|(Hcc & s' & c' & _ & _ & Eu)])]; [congruence| |];
    rewrite (abind_Ok _ _ _ _ _ Eu) in E1.
    - assert (j = i) as -> by congruence. assert (w = v) as -> by congruence.
      rewrite (abind_Ok _ _ _ _ _ (aget_eq _ _ _ Hc Hi)) in E1. rewrite Hcc in E1. unfold alift in E1. injection E1 as <- <-.
      assert (v1 = v) as -> by congruence. exact Hcc.
    - assert (j = i) as -> by congruence. assert (w = v) as -> by congruence.
      match type of E1 with (abind _ _ ?s = _) => set (sx := s) in * end.
      assert (e_cur sx = Some i) as Hcx by done.
      assert (e_vars sx !! i = Some (nv_set_cache BusView (Some c') v)) as Hix by (apply lookup_insert).
      rewrite (abind_Ok _ _ _ _ _ (aget_eq _ _ _ Hcx Hix)) in E1. rewrite nv_set_same in E1. unfold alift in E1.
      injection E1 as <- Esx. rewrite <- Esx, Hix in Hi1. injection Hi1 as <-. done. }
  exists c, i, v1. split; [done|]. split; [done|]. split; [done|]. split; [done|]. split; [done|].
  pose proof S1 as (Ss & _). destruct Ss as (Eid & _ & _ & _ & Hg). rewrite Es, Eid.
  destruct (sbc_graph st0 st S1) as [Eg _]. rewrite Eg. destruct Hg as (Hgv & _). by rewrite Hgv.
Qed.

(** ** Writing *)
Section write.
  Context {A : Type} (fv fa : nterm -> option A).
  Definition entry (c : bcache) (kN : string * gset nat) : option (xbus A) :=
    match bc_id c !! kN.1 with
    | Some b =>
      match cb_get_v (head (cb_terms b)) fv, cb_get_v (head (cb_terms b)) fa with
      | None, None => None
      | v, a => Some (mkXB v a (merge_sort le (elements kN.2)))
      end
    | None => None
    end.
  Lemma xb_write_ok c st l : held c st -> (forall k b, bc_id c !! k = Some b -> cb_terms b <> []) ->
    xb_write l fv fa st = (Ok (omap (entry c) l), st).
  Proof.
    intros H HT. induction l as [|[k N] l IH]; [done|]. cbn [xb_write omap list_omap].
    assert (nb_bus_of_id BusView k st = (Ok (bc_id c !! k), st)) as E.
    { unfold nb_bus_of_id. by rewrite (abind_Ok _ _ _ _ _ (cache_held _ _ H)). }
    rewrite (abind_Ok _ _ _ _ _ E).
    assert (entry c (k, N) = match bc_id c !! k with Some b =>
      match cb_get_v (head (cb_terms b)) fv, cb_get_v (head (cb_terms b)) fa with
      | None, None => None
      | v, a => Some (mkXB v a (merge_sort le (elements N)))
      end | None => None end) as -> by done.
    destruct (bc_id c !! k) as [b|] eqn:Hk.
    - specialize (HT k b Hk). destruct (cb_terms b) as [|t ts] eqn:Et; [done|].
      set (n := hd 0 (merge_sort le (elements N))).
      assert (cb_values n b fv fa st = (Ok (fv t, fa t), st)) as Ev.
      { unfold cb_values. rewrite Et. cbn [find_terminal]. done. }
      cbn [head cb_get_v].
      assert (forall x : option (xbus A), (do! va := cb_values n b fv fa in
         aret match va with (None, None) => None | (v, a) => Some (mkXB v a (merge_sort le (elements N))) end) st
         = (Ok match fv t, fa t with None, None => None | v, a => Some (mkXB v a (merge_sort le (elements N))) end, st)) as Ex.
      { intros _. rewrite (abind_Ok _ _ _ _ _ Ev). unfold aret. by destruct (fv t), (fa t). }
      rewrite (abind_Ok _ _ _ _ _ (Ex None)), (abind_Ok _ _ _ _ _ IH). unfold aret. by destruct (fv t), (fa t).
    - rewrite (abind_Ok (aret None) _ st None st eq_refl), (abind_Ok _ _ _ _ _ IH). done.
  Qed.
End write.

(** ** Reading *)
Lemma xb_find_ok ns : forall st i v n0, ninv true st -> e_cur st = Some i -> e_vars st !! i = Some v ->
  in_bus BusView (nbg st) (nv_sw v) n0 ->
  (forall n, n ∈ ns -> same_node BusView (nbg st) (nv_sw v) n0 n) -> (exists n, n ∈ ns /\ has_terminal (nbg st) n) ->
  exists b st', xb_find ns st = (Ok (Some b), st') /\ ninv true st' /\ same_but_cache st st' /\ bus_of BusView (nbg st) (nv_sw v) (nb_id (e_sh st)) n0 b.
Proof.
  induction ns as [|n ns IH]; intros st i v n0 I Hc Hi Hin Hs (m & Hm & Ht); [by apply elem_of_nil in Hm|].
  cbn [xb_find]. rewrite (abind_Ok ashared _ st (e_sh st) st eq_refl).
  assert (same_node BusView (nbg st) (nv_sw v) n0 n) as Hn by (apply Hs; by left).
  assert (is_Some (s_vertices (nbg st) !! n)) as [o Ho].
  { apply on_edge_live; [exact (si_g _ (ni_sh _ _ I))|]. eapply same_node_on_edge; [exact Hn|apply Hin]. }
  destruct (vertex_object_eq (nb_graph (e_sh st)) n) as [(o' & E & Ho')|(e & _ & Ho')]; [|unfold nbg in Ho; congruence].
  assert (o' = o) as -> by (unfold nbg in Ho; congruence). unfold abind at 1, alift at 1. rewrite E. destruct o as [t|].
  - destruct (right_answer BusView n st (or_introl I) ltac:(eauto) ltac:(eauto)) as (ob & st' & Eb & S & R).
    destruct (bus_of_node_ninv BusView n st I) as [_ I']. rewrite Eb in I'. cbn [snd] in I'.
    destruct R as (i' & v' & Hc' & Hi' & R). assert (i' = i) as -> by congruence. assert (v' = v) as -> by congruence.
    rewrite (abind_Ok _ _ _ _ _ Eb). destruct ob as [b|].
    + exists b, st'. split; [done|]. split; [done|]. split; [done|]. destruct R as [_ R]. eapply bus_of_same; [|exact R]. by apply same_node_sym.
    + exfalso. apply R. destruct Hin as [H1 H2]. split; [by eapply same_node_on_edge|by eapply valid_same].
  - apply (IH st i v n0); try done.
    + intros n' Hn'. apply Hs. by right.
    + exists m. split; [|done]. apply elem_of_cons in Hm as [->|?]; [|done]. destruct Ht as [t Ht]. unfold term_at in Ht. congruence.
Qed.

Lemma set_angle_ok {A} b (x : option A) f :
  (forall t, t ∈ cb_terms b -> cb_set_angle b x f t = x) /\ (forall t, t ∉ cb_terms b -> cb_set_angle b x f t = f t).
Proof.
  unfold cb_set_angle. revert f. induction (cb_terms b) as [|t ts IH]; intros f; cbn [foldl].
  { split; [|done]. intros t Ht. by apply elem_of_nil in Ht. }
  destruct (IH (nt_set t x f)) as [H1 H2]. split.
  - intros t' Ht'. destruct (decide (t' ∈ ts)) as [Hin|Hin]; [by apply H1|]. rewrite H2 by done.
    apply elem_of_cons in Ht' as [->|?]; [|done]. unfold nt_set. by rewrite decide_True.
  - intros t' Ht'. apply not_elem_of_cons in Ht' as [Hne Hin]. rewrite H2 by done. unfold nt_set. by rewrite decide_False.
Qed.

(** The nodes of the element are those of one bus. *)
Definition one_bus (s : sgraph nterm string) (sw : gmap string (bool * bool)) (ns : list nat) : Prop :=
  exists n0, in_bus BusView s sw n0 /\ forall n, n ∈ ns <-> same_node BusView s sw n0 n.
Lemma one_bus_eq s sw ns ns' n : one_bus s sw ns -> one_bus s sw ns' -> n ∈ ns -> n ∈ ns' -> forall m, m ∈ ns <-> m ∈ ns'.
Proof.
  intros (a & _ & Ha) (b & _ & Hb) Hn Hn' m. apply Ha in Hn. apply Hb in Hn'. rewrite Ha, Hb.
  assert (same_node BusView s sw a b) as Hab by (etrans; [exact Hn|by apply same_node_sym]).
  split; intros H; [etrans; [by apply same_node_sym|exact H]|by etrans].
Qed.

Lemma xb_read_ok {A} (neg : A -> bool) xs : forall fv fa st i v, ninv true st -> e_cur st = Some i -> e_vars st !! i = Some v -> one_node (nbg st) ->
  (forall x, x ∈ xs -> acceptable neg (xb_v x) /\ one_bus (nbg st) (nv_sw v) (xb_nodes x)) ->
  (forall p q x y n, xs !! p = Some x -> xs !! q = Some y -> n ∈ xb_nodes x -> n ∈ xb_nodes y -> p = q) ->
  exists fv' fa' st', xb_read neg xs fv fa st = (Ok (fv', fa'), st') /\ ninv true st' /\ same_but_cache st st' /\
    (forall x n t, x ∈ xs -> n ∈ xb_nodes x -> term_at (nbg st) n t -> fv' t = xb_v x /\ fa' t = xb_angle x) /\
    (forall t, (forall x n, x ∈ xs -> n ∈ xb_nodes x -> ~ term_at (nbg st) n t) -> fv' t = fv t /\ fa' t = fa t).
Proof.
  induction xs as [|x xs IH]; intros fv fa st i v I Hc Hi HO HX HD.
  { exists fv, fa, st. split; [done|]. split; [done|]. split; [by eapply sbc_refl|]. split; [|done]. intros x n t Hx. by apply elem_of_nil in Hx. }
  cbn [xb_read]. destruct (HX x) as [Hacc (n0 & Hin & Hns)]; [by left|].
  destruct (xb_find_ok (xb_nodes x) st i v n0 I Hc Hi Hin) as (b & st1 & E1 & I1 & S1 & Hb).
  { intros n Hn. by apply Hns. }
  { destruct Hin as [_ Hv].
    destruct Hv as [(a & _ & ta & _ & Ha & _ & Hta & _)|(a & _ & ta & _ & _ & Ha & _ & Hta & _)]; exists a; (split; [by apply Hns|by exists ta]). }
  rewrite (abind_Ok _ _ _ _ _ E1). unfold cb_set_v.
  destruct (terms_set_ok neg (cb_terms b) (xb_v x) fv Hacc) as (fv1 & -> & F1 & F2). cbv beta iota.
  destruct (set_angle_ok b (xb_angle x) fa) as [G1 G2]. set (fa1 := cb_set_angle b (xb_angle x) fa) in *.
  destruct (sbc_cur_var _ _ i v S1 Hi) as (v1 & Hi1 & Es). destruct (sbc_graph _ _ S1) as [Eg _].
  destruct (IH fv1 fa1 st1 i v1) as (fv' & fa' & st' & E & I' & S' & R1 & R2); [done|by rewrite (sbc_cur _ _ S1)|done|by rewrite Eg| | |].
  { intros y Hy. rewrite Eg, Es. apply HX. by right. }
  { intros p q y z n Hp Hq. intros Hn1 Hn2. assert (S p = S q) as [= ->]; [|done]. by eapply (HD (S p) (S q) y z n). }
  exists fv', fa', st'. split; [done|]. split; [done|]. split; [by eapply sbc_trans|]. rewrite Eg in R1, R2.
  assert (forall t, t ∈ cb_terms b <-> exists m, m ∈ xb_nodes x /\ term_at (nbg st) m t) as HT.
  { intros t. rewrite (terms_of _ _ _ _ _ _ t Hb). split; intros (m & Hm & ?); (exists m; split; [by apply Hns|done]). }
  split.
  - intros y n t Hy Hn Ht. apply elem_of_cons in Hy as [->|Hy]; [|by eapply R1].
    assert (t ∈ cb_terms b) as Htb by (apply HT; by exists n). destruct (R2 t) as [-> ->]; [|by rewrite F1, G1].
    intros z m Hz Hm Hmt. assert (m = n) as -> by (by eapply HO). apply elem_of_list_lookup in Hz as [q Hq].
    by pose proof (HD 0 (S q) x z n eq_refl Hq Hn Hm).
  - intros t Ht. destruct (R2 t) as [-> ->].
    { intros z m Hz. apply Ht. by right. }
    assert (t ∉ cb_terms b) as Htb. { intros (m & Hm & Hmt)%HT. eapply Ht; [by left|exact Hm|exact Hmt]. }
    by rewrite F2, G2.
Qed.

(** ** Both *)
Lemma omap_distinct {A B} (f : A -> option B) (R : B -> B -> Prop) l : NoDup l ->
  (forall a b x y, a ∈ l -> b ∈ l -> f a = Some x -> f b = Some y -> R x y -> a = b) ->
  forall p q x y, omap f l !! p = Some x -> omap f l !! q = Some y -> R x y -> p = q.
Proof.
  induction 1 as [|a l Ha _ IH]; intros HR p q x y Hp Hq Hxy; [done|].
  assert (forall p q x y, omap f l !! p = Some x -> omap f l !! q = Some y -> R x y -> p = q) as IH'.
  { apply IH. intros a' b' x' y' H1 H2. apply HR; by right. }
  cbn [omap list_omap] in Hp, Hq. fold (omap f l) in Hp, Hq. destruct (f a) as [z|] eqn:Ez; [|by eapply IH'].
  destruct p as [|p], q as [|q]; cbn in Hp, Hq; [done| | |f_equal; by eapply IH'].
  - injection Hp as ->. apply elem_of_list_lookup_2, elem_of_list_omap in Hq as (b & Hb & Eb). exfalso. apply Ha.
    rewrite (HR a b x y); [done|by left|by right|done|done|done].
  - injection Hq as ->. apply elem_of_list_lookup_2, elem_of_list_omap in Hp as (b & Hb & Eb). exfalso. apply Ha.
    rewrite <- (HR b a x y); [done|by right|by left|done|done|done].
Qed.
Lemma copy_same s sw s' sw' vw a b : copy_of s sw s' sw' -> same_node vw s' sw' a b <-> same_node vw s sw a b.
Proof. intros C. split; intros H; (eapply rtc_subrel; [|exact H]; intros x y; apply (cp_link _ _ _ _ C)). Qed.
Lemma copy_in_bus s sw s' sw' vw n : copy_of s sw s' sw' -> in_bus vw s' sw' n <-> in_bus vw s sw n.
Proof.
  intros C. unfold in_bus. rewrite (cp_edge _ _ _ _ C). assert (valid_group vw s' sw' n <-> valid_group vw s sw n) as ->; [|done].
  destruct vw; [|done]. unfold valid_group. setoid_rewrite (copy_same _ _ _ _ _ _ _ C). setoid_rewrite (cp_term _ _ _ _ C). done.
Qed.
Lemma copy_one_bus s sw s' sw' ns : copy_of s sw s' sw' -> one_bus s sw ns -> one_bus s' sw' ns.
Proof.
  intros C (n0 & Hin & H). exists n0. split; [by apply (copy_in_bus _ _ _ _ _ _ C)|]. intros n. rewrite H. symmetry. apply (copy_same _ _ _ _ _ _ _ C).
Qed.
Lemma copy_one_node s sw s' sw' : copy_of s sw s' sw' -> one_node s -> one_node s'.
Proof. intros C H n n' t Hn Hn'. apply (H n n' t); by apply (cp_term _ _ _ _ C). Qed.
Lemma ninv_weak st : ninv true st -> ninv false st.
Proof. intros [W S V]. split; [done|done|]. intros i v Hi. destruct (V i v Hi) as [H1 H2 H3]. split; done. Qed.
Lemma elem_nodes (N : gset nat) n : n ∈ merge_sort le (elements N) <-> n ∈ N.
Proof. by rewrite (merge_sort_Permutation le), elem_of_elements. Qed.

Section both.
  Context {A : Type} (neg : A -> bool) (fv fa : nterm -> option A).
  Context (st st1 st' : nbst) (i i' : string) (v v' : nbvar) (c : bcache) (m : gmap string (gset nat)) (l : list (string * gset nat)).
  Hypothesis I : ninv true st.
  Hypothesis Hc : e_cur st = Some i.
  Hypothesis Hi : e_vars st !! i = Some v.
  Hypothesis Hh : held c st.
  Hypothesis CK : cache_ok BusView (nb_id (e_sh st)) (nv_sw v) (nbg st) (length (g_vertices (nb_graph (e_sh st)))) c.
  Hypothesis Em : nb_nodes_by_bus st = (Ok m, st1).
  Hypothesis Hl : l ≡ₚ map_to_list m.
  Hypothesis HO : one_node (nbg st).
  Hypothesis I' : ninv true st'.
  Hypothesis Hc' : e_cur st' = Some i'.
  Hypothesis Hi' : e_vars st' !! i' = Some v'.
  Hypothesis C : copy_of (nbg st) (nv_sw v) (nbg st') (nv_sw v').
  Hypothesis Hacc : forall t, acceptable neg (fv t).

  Lemma nodes_ok : (forall k N, m !! k = Some N -> N <> ∅) /\ (forall k n, lookup_nodes m k n <-> node_in st v k n).
  Proof using I Hc Hi Em.
    destruct (nodes_by_bus_ok st i v I Hc Hi) as (m0 & st2 & E & S & Hne & H). rewrite Em in E. injection E as <- <-. done.
  Qed.
  Lemma terms_ne k b : bc_id c !! k = Some b -> cb_terms b <> [].
  Proof using CK.
    intros Hk. destruct (ck_id _ _ _ _ _ _ CK k b Hk) as (_ & n & [_ Hv] & Hb) . intros Hn.
    assert (exists t, t ∈ cb_terms b) as [t Ht]; [|rewrite Hn in Ht; by apply elem_of_nil in Ht].
    destruct Hv as [(a & _ & ta & _ & Ha & _ & Hta & _)|(a & _ & ta & _ & _ & Ha & _ & Hta & _)]; exists ta; (eapply terms_of; [exact Hb|]; by exists a).
  Qed.
  Lemma entry_nodes kN x : kN ∈ l -> entry fv fa c kN = Some x ->
    m !! kN.1 = Some kN.2 /\ (forall n, n ∈ xb_nodes x <-> node_in st v kN.1 n) /\ one_bus (nbg st) (nv_sw v) (xb_nodes x) /\ acceptable neg (xb_v x).
  Proof using All.
    destruct kN as [k N]. intros Hin Hx. rewrite Hl in Hin. apply elem_of_map_to_list in Hin. cbn [fst snd].
    destruct nodes_ok as [HN HL]. split; [done|].
    assert (xb_nodes x = merge_sort le (elements N) /\ acceptable neg (xb_v x)) as [Ex Hax].
    { unfold entry in Hx. cbn [fst snd] in Hx. destruct (bc_id c !! k) as [b|]; [|done].
      assert (acceptable neg (cb_get_v (head (cb_terms b)) fv)) as Ha by (destruct (head (cb_terms b)); [apply Hacc|done]).
      destruct (cb_get_v (head (cb_terms b)) fv), (cb_get_v (head (cb_terms b)) fa); simplify_eq; done. }
    assert (forall n, n ∈ xb_nodes x <-> node_in st v k n) as Hn.
    { intros n. rewrite Ex, elem_nodes, <- HL. split; [intros H; by exists N|]. intros (N' & E & H). by simplify_eq. }
    split; [done|]. split; [|done]. destruct (set_choose_L N (HN k N Hin)) as [n0 Hn0].
    assert (node_in st v k n0) as Hk by (apply HL; by exists N). exists n0. split; [apply Hk|]. intros n. rewrite Hn. split.
    - intros [_ H]. destruct Hk as [_ Hk]. by eapply bus_name_inj.
    - intros H. by eapply node_in_same.
  Qed.

  Lemma both_ok : exists xs fv' fa' st3, xb_write l fv fa st1 = (Ok xs, st1) /\
    xb_read neg xs (fun _ => None) (fun _ => None) st' = (Ok (fv', fa'), st3) /\ ninv true st3 /\ same_but_cache st' st3 /\
    (forall n b t0, nb_bus_of_node BusView n st = (Ok (Some b), st) -> head (cb_terms b) = Some t0 ->
       forall n' t, same_node BusView (nbg st) (nv_sw v) n n' -> term_at (nbg st) n' t -> fv' t = fv t0 /\ fa' t = fa t0) /\
    (forall n t, ~ in_bus BusView (nbg st) (nv_sw v) n -> term_at (nbg st) n t -> fv' t = None /\ fa' t = None).
  Proof using All.
    assert (held c st1) as Hh1. { pose proof (kp_nodes_by_bus c st Hh) as H. by rewrite Em in H. }
    pose proof (xb_write_ok fv fa c st1 l Hh1 terms_ne) as EW. set (xs := omap (entry fv fa c) l) in *.
    assert (forall x, x ∈ xs -> exists kN, kN ∈ l /\ entry fv fa c kN = Some x) as HX.
    { intros x Hx. apply elem_of_list_omap in Hx as (kN & ? & ?). eauto. }
    assert (NoDup l) as ND by (rewrite Hl; apply NoDup_map_to_list).
    destruct (xb_read_ok neg xs (fun _ => None) (fun _ => None) st' i' v' I' Hc' Hi') as (fv' & fa' & st3 & ER & I3 & S3 & R1 & R2).
    { by eapply copy_one_node. }
    { intros x (kN & H1 & H2)%HX. destruct (entry_nodes kN x H1 H2) as (_ & _ & Ho & Ha). split; [done|]. by eapply copy_one_bus. }
    { assert (forall p q x y, xs !! p = Some x -> xs !! q = Some y -> (exists n, n ∈ xb_nodes x /\ n ∈ xb_nodes y) -> p = q) as HD.
      2:{ intros p q x y n Hp Hq H1 H2. eapply HD; [exact Hp|exact Hq|by exists n]. }
      apply (omap_distinct (entry fv fa c) (fun x y => exists n, n ∈ xb_nodes x /\ n ∈ xb_nodes y)); [done|].
      intros [k N] [k' N'] x y H1 H2 E1 E2 (n & Hn1 & Hn2).
      destruct (entry_nodes _ _ H1 E1) as (L1 & M1 & _). destruct (entry_nodes _ _ H2 E2) as (L2 & M2 & _). cbn [fst snd] in *.
      apply M1 in Hn1 as [_ Hn1]. apply M2 in Hn2 as [_ Hn2]. assert (k = k') as -> by (by eapply bus_name_fun). congruence. }
    exists xs, fv', fa', st3. split; [done|]. split; [done|]. split; [done|]. split; [done|].
    assert (forall n t, term_at (nbg st) n t -> (forall x, x ∈ xs -> n ∉ xb_nodes x) -> fv' t = None /\ fa' t = None) as HN.
    { intros n t Ht Hn. apply R2. intros x n' Hx Hn' Ht'. apply (cp_term _ _ _ _ C) in Ht'. assert (n' = n) as -> by (by eapply HO). by eapply Hn. }
    split.
    - intros n b t0 Eb Et0 n' t Hs Ht.
      unfold nb_bus_of_node in Eb. rewrite (abind_Ok _ _ _ _ _ (cache_held _ _ Hh)) in Eb. unfold alift in Eb.
      destruct (bc_node c !! n) as [[k|]|] eqn:Ek; [|done|done]. destruct (bc_id c !! k) as [b'|] eqn:Hk; [|done]. injection Eb as ->.
      pose proof (proj1 (ck_node _ _ _ _ _ _ CK n k) Ek) as Hnk.
      assert (node_in st v k n') as Hn' by (by eapply node_in_same).
      destruct nodes_ok as [_ HL]. destruct (proj2 (HL k n') Hn') as (N & HmN & HnN).
      assert ((k, N) ∈ l) as HkN by (rewrite Hl; by apply elem_of_map_to_list).
      assert (entry fv fa c (k, N) = match fv t0, fa t0 with None, None => None | x, a => Some (mkXB x a (merge_sort le (elements N))) end) as Een.
      { unfold entry. cbn [fst snd]. rewrite Hk, Et0. done. }
      destruct (entry fv fa c (k, N)) as [x|] eqn:Ee.
      + assert (x ∈ xs) as Hx by (apply elem_of_list_omap; eauto).
        assert (x = mkXB (fv t0) (fa t0) (merge_sort le (elements N))) as -> by (destruct (fv t0), (fa t0); congruence).
        apply (R1 _ n' t Hx); [cbn [xb_nodes]; by apply elem_nodes|]. by apply (cp_term _ _ _ _ C).
      + destruct (HN n' t Ht) as [-> ->].
        * intros x (kN & H1 & H2)%HX. destruct (entry_nodes _ _ H1 H2) as (L1 & M1 & _). rewrite M1. intros Hx. destruct kN as [k' N']. cbn [fst snd] in *.
          assert (k' = k) as -> by (eapply bus_name_fun; [apply Hx|apply Hn']). assert (N' = N) as -> by congruence. congruence.
        * destruct (fv t0), (fa t0); done.
    - intros n t Hn Ht. apply (HN n t Ht). intros x (kN & H1 & H2)%HX. destruct (entry_nodes _ _ H1 H2) as (_ & M1 & _). rewrite M1. by intros [? _].
  Qed.
End both.
