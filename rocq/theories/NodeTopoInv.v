(** Invariants of node-breaker voltage levels over histories. *)
From stdpp Require Import gmap pretty.
From Verif Require Import Base Graph GraphSpec GraphProofs GraphTraverse GraphPaths GraphMore Equip NodeTopo NodeTopoSpec NodeTopoProofs.

Notation G := (graph nterm string).

(** ** Triples: [P] before, [Q] after a normal return, [X] after an exception; undefined behaviour never happens. *)
Definition tri {S V A} (X P : est S V -> Prop) (m : act S V A) (Q : A -> est S V -> Prop) : Prop :=
  forall st, P st -> match m st with (Ok a, st') => Q a st' | (Throw _, st') => X st' | _ => False end.
Section tri.
  Context {S V : Type}.
  Implicit Types X P : est S V -> Prop.
  Lemma tri_bind {A B} X P (m : act S V A) Q (f : A -> act S V B) R :
    tri X P m Q -> (forall a, tri X (Q a) (f a) R) -> tri X P (abind m f) R.
  Proof. intros H1 H2 st HP. specialize (H1 st HP). unfold abind. destruct (m st) as [[a|e| |] st']; try done. by apply H2. Qed.
  Lemma tri_conseq {A} X P P' (m : act S V A) (Q Q' : A -> est S V -> Prop) :
    tri X P m Q -> (forall st, P' st -> P st) -> (forall a st, Q a st -> Q' a st) -> tri X P' m Q'.
  Proof. intros H HP HQ st H'. specialize (H st (HP st H')). destruct (m st) as [[a|e| |] st']; auto. Qed.
  Lemma tri_ret {A} X P (a : A) (Q : A -> est S V -> Prop) : (forall st, P st -> Q a st) -> tri X P (aret a) Q.
  Proof. intros H st. apply H. Qed.
  Lemma tri_throw {A} X P e (Q : A -> est S V -> Prop) : (forall st, P st -> X st) -> tri X P (athrow e) Q.
  Proof. intros H st. apply H. Qed.
  Lemma tri_shared X P : tri X P ashared (fun s st => P st /\ s = e_sh st).
  Proof. intros st HP. done. Qed.
  Lemma tri_pre {A} X P (m : act S V A) Q : (forall st, P st -> tri X (fun st' => st' = st) m Q) -> tri X P m Q.
  Proof. intros H st HP. exact (H st HP st eq_refl). Qed.
  Lemma tri_get X P : (forall st, P st -> ewf st /\ X st) ->
    tri X P aget (fun v st => P st /\ exists i, e_cur st = Some i /\ e_vars st !! i = Some v).
  Proof.
    intros H st HP. destruct (H st HP) as [W HX]. destruct (aget_ok st W) as [(i & v & Hc & Hv & ->)|(_ & m & ->)]; [|done].
    split; [done|]. eauto.
  Qed.
  Lemma tri_use {A} X P (m : act S V A) Q st : tri X P m Q -> P st ->
    (m st).1 <> UB /\ (m st).1 <> OutOfFuel /\
    (forall a, (m st).1 = Ok a -> Q a (m st).2) /\ (is_throw (m st).1 = true -> X (m st).2).
  Proof.
    intros H HP. specialize (H st HP). destruct (m st) as [[a|e| |] st']; simpl; try done.
    split_and!; [done|done| |done]. by intros ? [= <-].
  Qed.
  Lemma tri_use' {A} X P (m : act S V A) st : tri X P m (fun _ => X) -> P st ->
    (m st).1 <> UB /\ (m st).1 <> OutOfFuel /\ X (m st).2.
  Proof.
    intros H HP. specialize (H st HP). destruct (m st) as [[a|e| |] st']; simpl; done.
  Qed.
End tri.

(** ** Graph operations, in explicit form *)
Section gops.
  Context {V E : Type}.
  Implicit Types g : graph V E.
  Lemma add_vertex_if_eq g n : ginv g -> exists g', g_add_vertex_if_not_present g n = (g', Ok tt) /\ ginv g' /\
    s_edges (abs g') = s_edges (abs g) /\ is_Some (s_vertices (abs g') !! n) /\
    (forall m, is_Some (s_vertices (abs g) !! m) -> s_vertices (abs g') !! m = s_vertices (abs g) !! m) /\
    (is_Some (s_vertices (abs g) !! n) -> abs g' = abs g) /\
    (s_vertices (abs g) !! n = None -> s_vertices (abs g') !! n = Some None).
  Proof.
    intros I. destruct (g_add_vertex_if_ok g n I) as [I' H]. destruct (g_add_vertex_if_not_present g n) as [g' r]. cbn [fst snd] in *.
    simpl in H. destruct H as [Hr H]. destruct r as [[]| | |]; try done. exists g'. split; [done|]. split; [done|].
    destruct H as [[H ->]|[H E']]; [split_and!; try done; intros; by destruct H, (s_vertices (abs g) !! n)|].
    rewrite E'. cbn [s_edges s_vertices]. rewrite lookup_insert. split_and!; [done|eauto| | |done].
    - intros m Hm. rewrite lookup_insert_ne; [done|]. intros <-. rewrite H in Hm. by destruct Hm.
    - rewrite H. by intros [].
  Qed.
  Lemma add_edge_eq g a b ob : ginv g -> is_Some (s_vertices (abs g) !! a) -> is_Some (s_vertices (abs g) !! b) ->
    exists g' e, g_add_edge g a b ob = (g', Ok e) /\ ginv g' /\ s_edges (abs g) !! e = None /\
      abs g' = mkS (s_vertices (abs g)) (<[e := (a, b, ob)]> (s_edges (abs g))).
  Proof.
    intros I Ha Hb. destruct (g_add_edge_ok g a b ob I) as [I' H]. destruct (g_add_edge g a b ob) as [g' r]. cbn [fst snd] in *.
    destruct H as [(_ & _ & e & [Hf _] & Hr & E')|([H|H] & _)]; [|destruct Ha; congruence|destruct Hb; congruence].
    destruct r as [e'| | |]; simpl in Hr; simplify_eq. exists g', e. done.
  Qed.
  Lemma remove_edge_eq g e a b ob : ginv g -> s_edges (abs g) !! e = Some (a, b, ob) ->
    exists g', g_remove_edge g e = (g', Ok ob) /\ ginv g' /\ abs g' = mkS (s_vertices (abs g)) (delete e (s_edges (abs g))).
  Proof.
    intros I He. destruct (g_remove_edge_ok g e I) as [I' H]. destruct (g_remove_edge g e) as [g' r]. cbn [fst snd] in *.
    destruct H as [(ed & Hed & Hr & E')|(H & _)]; [|congruence].
    rewrite He in Hed. injection Hed as <-. destruct r as [o| | |]; simpl in Hr; simplify_eq. exists g'. done.
  Qed.
  Lemma clean_eq g : ginv g -> exists g', g_remove_isolated g = (g', Ok tt) /\ ginv g' /\ s_edges (abs g') = s_edges (abs g) /\
    (forall v o, s_vertices (abs g) !! v = Some (Some o) -> s_vertices (abs g') !! v = Some (Some o)).
  Proof.
    intros I. destruct (g_remove_isolated_ok g I) as [I' (Hr & He & Hv)]. destruct (g_remove_isolated g) as [g' r]. cbn [fst snd] in *.
    destruct r as [[]| | |]; simpl in Hr; try done. exists g'. split; [done|]. split; [done|]. split; [done|].
    intros v o Ho. destruct (Hv v) as [[[Hi _] _]|[_ H]]; congruence.
  Qed.
  Lemma set_object_eq g n ob : ginv g -> is_Some (s_vertices (abs g) !! n) ->
    exists g', g_set_vertex_object g n ob = (g', Ok tt) /\ ginv g' /\ abs g' = mkS (<[n := ob]> (s_vertices (abs g))) (s_edges (abs g)).
  Proof.
    intros I Hn. destruct (g_set_vertex_object_ok g n ob I) as [I' H]. destruct (g_set_vertex_object g n ob) as [g' r]. cbn [fst snd] in *.
    destruct H as [(_ & Hr & E')|(H & _)]; [|destruct Hn; congruence]. destruct r as [[]| | |]; simpl in Hr; try done. exists g'. done.
  Qed.
  Lemma vertex_object_eq g n : (exists o, g_vertex_object g n = Ok o /\ s_vertices (abs g) !! n = Some o) \/
    (exists m, g_vertex_object g n = Throw m /\ s_vertices (abs g) !! n = None).
  Proof.
    unfold g_vertex_object. pose proof (check_vertex_spec g n) as C. rewrite abs_vertices.
    destruct (g_check_vertex g n) as [o|m| |]; simpl; try done.
    - left. exists o. rewrite C. done.
    - right. exists m. split; [done|]. by destruct (g_vertices g !! n) as [[]|].
  Qed.
  Lemma edge_object_eq g e : (exists a b o, g_edge_object g e = Ok o /\ s_edges (abs g) !! e = Some (a, b, o)) \/
    (exists m, g_edge_object g e = Throw m /\ s_edges (abs g) !! e = None).
  Proof.
    unfold g_edge_object. pose proof (check_edge_spec g e) as C. rewrite abs_edges.
    destruct (g_check_edge g e) as [ed|m| |]; simpl; try done.
    - left. rewrite C. simpl. unfold ends. eauto 10.
    - right. exists m. rewrite C. done.
  Qed.
  (** The capacity is a function of the live vertices. *)
  Lemma cap_abs g g' : ginv g -> ginv g' -> s_vertices (abs g') = s_vertices (abs g) -> length (g_vertices g') = length (g_vertices g).
  Proof.
    assert (forall g g', ginv g -> s_vertices (abs g') = s_vertices (abs g) -> length (g_vertices g) <= length (g_vertices g')) as H.
    { clear g g'. intros g g' I Ha. destruct (g_vertices g) as [|x l _] eqn:El using rev_ind; [simpl; lia|].
      pose proof (inv_last g I) as HL. rewrite El, last_snoc in HL. destruct x as [o|]; [|done].
      assert (s_vertices (abs g) !! length l = Some o) as Ho. { rewrite abs_vertices, El, lookup_app_r, Nat.sub_diag by done. done. }
      rewrite <- Ha, abs_vertices in Ho. rewrite app_length. simpl. destruct (g_vertices g' !! length l) eqn:Hl; [|done].
      apply lookup_lt_Some in Hl. lia. }
    intros I I' Ha. apply Nat.le_antisymm; [apply H; [done|by rewrite Ha]|by apply H].
  Qed.
End gops.

(** ** The invariant *)
(** The part about the graph and the table of the switches. *)
Record shinv (s : nbsh) : Prop := {
  si_g : ginv (nb_graph s);
  si_edge : forall e a b id, s_edges (abs (nb_graph s)) !! e = Some (a, b, Some id) -> nb_sw s !! id = Some e;
  si_sw : forall id e, nb_sw s !! id = Some e -> exists a b, s_edges (abs (nb_graph s)) !! e = Some (a, b, Some id);
  si_kind : forall id, is_Some (nb_sw s !! id) <-> is_Some (nb_kind s !! id);
  si_ids : forall id, is_Some (nb_kind s !! id) -> id ∈ nb_ids s
}.
(** A cache, if any, is usable. *)
Definition cache_wf (c : bcache) : Prop := forall n k, bc_node c !! n = Some (Some k) -> is_Some (bc_id c !! k).
Definition coherent (s : nbsh) (v : nbvar) : Prop :=
  forall vw c, nv_cache vw v = Some c -> cache_ok vw (nb_id s) (nv_sw v) (abs (nb_graph s)) (length (g_vertices (nb_graph s))) c.
(** [b]: the caches are up to date. *)
Record vinv (b : bool) (s : nbsh) (v : nbvar) : Prop := {
  vi_dom : forall id, is_Some (nv_sw v !! id) <-> is_Some (nb_kind s !! id);
  vi_wf : forall vw c, nv_cache vw v = Some c -> cache_wf c;
  vi_coh : b = true -> coherent s v
}.
Record ninv (b : bool) (st : nbst) : Prop := {
  ni_wf : ewf st;
  ni_sh : shinv (e_sh st);
  ni_var : everywhere (vinv b) st
}.

Lemma vinv_alive b s v : shinv s -> vinv b s v -> sw_alive (nv_sw v) (nb_graph s).
Proof. intros S I e a b' id He. apply (vi_dom _ _ _ I), (si_kind _ S). apply (si_edge _ S) in He. eauto. Qed.

(** Shared attributes equal up to the adjacency cache of the graph. *)
Definition same_sh (s s' : nbsh) : Prop :=
  nb_id s' = nb_id s /\ nb_sw s' = nb_sw s /\ nb_kind s' = nb_kind s /\ nb_ids s' = nb_ids s /\ same_graph (nb_graph s) (nb_graph s').
Lemma same_sh_refl s : shinv s -> same_sh s s.
Proof. intros S. unfold same_sh. do 4 (split; [done|]). apply same_graph_refl, S. Qed.
Lemma same_sh_trans s s' s'' : same_sh s s' -> same_sh s' s'' -> same_sh s s''.
Proof.
  intros (? & ? & ? & ? & ?) (? & ? & ? & ? & ?). unfold same_sh. split_and!; try congruence. by eapply same_graph_trans.
Qed.
Lemma same_sh_inv s s' : same_sh s s' -> shinv s -> shinv s'.
Proof.
  intros (E1 & E2 & E3 & E4 & (Gv & Ge & Ga & Gi & _)) [I1 I2 I3 I4 I5].
  split; rewrite ?E1, ?E2, ?E3, ?E4, ?Ga; done.
Qed.
Lemma same_sh_vinv b s s' v : same_sh s s' -> vinv b s v -> vinv b s' v.
Proof.
  intros (E1 & E2 & E3 & E4 & (Gv & Ge & Ga & Gi & _)) [I1 I2 I3]. split; [by rewrite E3|done|].
  intros Hb vw c Hc. specialize (I3 Hb vw c Hc). by rewrite E1, Ga, Gv.
Qed.
Lemma cache_ok_wf vw vl sw s cap c : cache_ok vw vl sw s cap c -> cache_wf c.
Proof. intros H n k Hk. apply (ck_node _ _ _ _ _ _ H) in Hk as [H1 H2]. by apply (ck_has _ _ _ _ _ _ H n k). Qed.
Lemma nv_set_sw vw c v : nv_sw (nv_set_cache vw c v) = nv_sw v.
Proof. by destruct vw. Qed.
Lemma nv_set_same vw c v : nv_cache vw (nv_set_cache vw c v) = c.
Proof. by destruct vw. Qed.
Lemma nv_set_cases vw vw' c v : nv_cache vw' (nv_set_cache vw c v) = if decide (vw = vw') then c else nv_cache vw' v.
Proof. by destruct vw, vw'. Qed.
Lemma nv_set_inv vw c v s b : vinv b s v -> cache_ok vw (nb_id s) (nv_sw v) (abs (nb_graph s)) (length (g_vertices (nb_graph s))) c ->
  vinv b s (nv_set_cache vw (Some c) v).
Proof.
  intros [I1 I2 I3] Hc. split.
  - by rewrite nv_set_sw.
  - intros vw' c'. rewrite nv_set_cases. case_decide; [|apply I2]. intros [= <-]. by eapply cache_ok_wf.
  - intros Hb vw' c'. rewrite nv_set_cases, nv_set_sw. case_decide as E; [|by apply I3]. intros [= <-]. by rewrite <- E.
Qed.
Lemma invalid_inv b b' s v : vinv b s v -> vinv b' s (nv_invalidate v).
Proof. intros [I1 _ _]. split; [done|by intros []|by intros _ []]. Qed.

Lemma everywhere_insert {S V} (P : S -> V -> Prop) s (m : gmap string V) i v c :
  (forall j w, m !! j = Some w -> P s w) -> P s v -> everywhere P (mkE s (<[i := v]> m) c).
Proof. intros H Hv j w. simpl. intros [[_ <-]|[_ Hw]]%lookup_insert_Some; eauto. Qed.

Lemma ewf_insert {S V} (s s' : S) (m : gmap string V) c i v : ewf (mkE s m c) -> is_Some (m !! i) -> ewf (mkE s' (<[i := v]> m) c).
Proof.
  intros [W1 W2] Hi. simpl in *. split; simpl.
  - destruct (decide (i = initial_variant)) as [->|]; [rewrite lookup_insert|rewrite lookup_insert_ne by done]; eauto.
  - intros j Hj. destruct (decide (i = j)) as [->|]; [rewrite lookup_insert; eauto|rewrite lookup_insert_ne by done; eauto].
Qed.
Lemma ewf_fmap {S V} (s s' : S) (m : gmap string V) c (f : V -> V) : ewf (mkE s m c) -> ewf (mkE s' (f <$> m) c).
Proof.
  intros [W1 W2]. split; simpl in *; [|intros j Hj]; rewrite lookup_fmap, fmap_is_Some; auto.
Qed.

(** ** updateCache *)
Lemma nb_update_eq vw st b : ninv b st ->
  (e_cur st = None /\ exists m, nb_update vw st = (Throw m, st)) \/
  (exists i v, e_cur st = Some i /\ e_vars st !! i = Some v /\
    ((exists c, nv_cache vw v = Some c /\ nb_update vw st = (Ok tt, st)) \/
     (nv_cache vw v = None /\ exists s' c, same_sh (e_sh st) s' /\
        cache_ok vw (nb_id (e_sh st)) (nv_sw v) (nbg st) (length (g_vertices (nb_graph (e_sh st)))) c /\
        nb_update vw st = (Ok tt, mkE s' (<[i := nv_set_cache vw (Some c) v]> (e_vars st)) (e_cur st))))).
Proof.
  intros [W S Hv]. unfold nb_update. destruct (aget_ok st W) as [(i & v & Hc & Hi & E)|(Hc & m & E)].
  2:{ left. split; [done|]. exists m. by rewrite (abind_Throw _ _ _ _ _ E). }
  right. exists i, v. split; [done|]. split; [done|]. rewrite (abind_Ok _ _ _ _ _ E). destruct (nv_cache vw v) as [c|] eqn:Ec.
  { left. by exists c. }
  right. split; [done|]. rewrite (abind_Ok ashared _ st (e_sh st) st eq_refl).
  pose proof (vinv_alive _ _ _ S (Hv i v Hi)) as HA.
  destruct (compute_cache_ok vw (nb_id (e_sh st)) (nv_sw v) (nb_graph (e_sh st)) (si_g _ S) HA) as (g' & c & E1 & SG & CK).
  exists (nb_set_graph (e_sh st) g'), c. split; [done|]. split; [done|].
  unfold abind at 1, gact. rewrite E1. cbv beta iota zeta. unfold aput, abind, aindex. cbn [e_cur]. rewrite Hc. cbv beta iota.
  cbn [e_vars e_sh e_cur]. by rewrite Hi.
Qed.

(** States that differ by the caches of the working variant only. *)
Definition same_but_cache (st st' : nbst) : Prop :=
  same_sh (e_sh st) (e_sh st') /\ e_cur st' = e_cur st /\
  forall j, (exists v v', e_vars st !! j = Some v /\ e_vars st' !! j = Some v' /\ nv_sw v' = nv_sw v /\ (Some j <> e_cur st -> v' = v)) \/
            (e_vars st !! j = None /\ e_vars st' !! j = None).
Lemma sbc_refl b st : ninv b st -> same_but_cache st st.
Proof.
  intros I. split; [apply same_sh_refl, I|]. split; [done|]. intros j. destruct (e_vars st !! j) as [v|]; [left|by right].
  exists v, v. done.
Qed.

Lemma update_tri (X : nbst -> Prop) vw b st0 : ninv b st0 -> X st0 ->
  tri X (fun st => st = st0) (nb_cache vw) (fun c st => ninv b st /\ same_but_cache st0 st /\ cache_wf c /\
     exists i v, e_cur st0 = Some i /\ e_vars st0 !! i = Some v /\ match nv_cache vw v with Some c' => c = c' | None =>
        cache_ok vw (nb_id (e_sh st0)) (nv_sw v) (nbg st0) (length (g_vertices (nb_graph (e_sh st0)))) c end).
Proof.
  intros I HX st ->. unfold nb_cache. destruct (nb_update_eq vw st0 b I) as [(Hc & m & E)|(i & v & Hc & Hi & [(c & Hv & E)|(Hv & s' & c & S & CK & E)])].
  - by rewrite (abind_Throw _ _ _ _ _ E).
  - rewrite (abind_Ok _ _ _ _ _ E). unfold aget, abind, aindex. rewrite Hc, Hi, Hv. cbn. split; [done|]. split; [by eapply sbc_refl|].
    split; [by eapply (vi_wf _ _ _ (ni_var _ _ I i v Hi))|]. exists i, v. rewrite Hv. done.
  - rewrite (abind_Ok _ _ _ _ _ E). unfold aget, abind, aindex. cbn [e_cur e_vars]. rewrite Hc. cbv beta iota. cbn [e_cur e_vars]. rewrite lookup_insert, nv_set_same.
    cbv beta iota. unfold alift.
    destruct I as [W Sh Hvv]. split; [|split; [|split]].
    + split.
      * destruct st0 as [s0 m0 c0]. cbn in *. eapply ewf_insert; [rewrite <- Hc; exact W|]. eauto.
      * simpl. by eapply same_sh_inv.
      * apply everywhere_insert.
        -- intros j w Hw. eapply same_sh_vinv; [exact S|]. eauto.
        -- eapply same_sh_vinv; [exact S|]. apply nv_set_inv; [eauto|done].
    + split; [done|]. split; [by rewrite Hc|]. cbn [e_vars]. intros j. destruct (decide (i = j)) as [<-|Hne].
      * left. exists v. rewrite lookup_insert. eexists. split; [done|]. split; [done|]. rewrite nv_set_sw. split; [done|].
        rewrite Hc. congruence.
      * rewrite lookup_insert_ne by done. destruct (e_vars st0 !! j) as [w|]; [left; by exists w, w|by right].
    + by eapply cache_ok_wf.
    + exists i, v. rewrite Hv. done.
Qed.

(** The cache returned, in a state whose caches are up to date. *)
Lemma cache_tri (X : nbst -> Prop) vw st0 : ninv true st0 -> X st0 ->
  tri X (fun st => st = st0) (nb_cache vw) (fun c st => ninv true st /\ same_but_cache st0 st /\
     exists i v, e_cur st0 = Some i /\ e_vars st0 !! i = Some v /\
        cache_ok vw (nb_id (e_sh st0)) (nv_sw v) (nbg st0) (length (g_vertices (nb_graph (e_sh st0)))) c).
Proof.
  intros I HX. eapply tri_conseq; [by apply (update_tri X vw true st0)|done|].
  intros c st (H1 & H2 & _ & i & v & Hc & Hi & Hv). split; [done|]. split; [done|]. exists i, v. split; [done|]. split; [done|].
  destruct (nv_cache vw v) as [c'|] eqn:E; [|done]. subst c'. eapply (vi_coh _ _ _ (ni_var _ _ I i v Hi)); done.
Qed.

(** getBus(node). *)
Lemma bus_of_node_tri (X : nbst -> Prop) vw n b st0 : ninv b st0 -> (forall st, ninv b st -> same_but_cache st0 st -> X st) ->
  tri X (fun st => st = st0) (nb_bus_of_node vw n) (fun ob st => ninv b st /\ same_but_cache st0 st).
Proof.
  intros I HX. unfold nb_bus_of_node. eapply tri_bind; [apply (update_tri X vw b st0); [done|by apply HX, (sbc_refl b)]|].
  intros c st (H1 & H2 & H3 & _). unfold alift. destruct (bc_node c !! n) as [[k|]|] eqn:E; [|done|by apply HX].
  destruct (H3 n k E) as [x ->]. done.
Qed.

Lemma bus_of_id_tri (X : nbst -> Prop) vw k b st0 : ninv b st0 -> (forall st, ninv b st -> same_but_cache st0 st -> X st) ->
  tri X (fun st => st = st0) (nb_bus_of_id vw k) (fun ob st => ninv b st /\ same_but_cache st0 st).
Proof.
  intros I HX. unfold nb_bus_of_id. eapply tri_bind; [apply (update_tri X vw b st0); [done|by apply HX, (sbc_refl b)]|].
  intros c. apply tri_ret. intros st (H1 & H2 & _). done.
Qed.

(** ** Switch operations *)
Lemma sw_get_tri (X : nbst -> Prop) id b st0 : ninv b st0 -> X st0 -> is_Some (nb_kind (e_sh st0) !! id) ->
  tri X (fun st => st = st0) (sw_get id)
    (fun p st => st = st0 /\ exists i v, e_cur st0 = Some i /\ e_vars st0 !! i = Some v /\ nv_sw v !! id = Some p).
Proof.
  intros I HX Hk. unfold sw_get. eapply tri_bind; [apply tri_get; intros st ->; split; [apply I|done]|].
  intros v st (-> & i & Hc & Hi). unfold alift. destruct (proj2 (vi_dom _ _ _ (ni_var _ _ I i v Hi) id) Hk) as [p Hp]. rewrite Hp.
  split; [done|]. eauto.
Qed.

(** Writing the positions of a switch of the working variant, then invalidating. *)
Definition sw_write (id : string) (p : bool * bool) : nbact unit := sw_put id p ;;! nb_invalidate.
Lemma sw_write_eq id p st i v : e_cur st = Some i -> e_vars st !! i = Some v ->
  sw_write id p st = (Ok tt, mkE (e_sh st) (<[i := mkNV (<[id := p]> (nv_sw v)) None None]> (e_vars st)) (e_cur st)).
Proof.
  intros Hc Hi. unfold sw_write, sw_put, nb_invalidate, aput, aget, aindex, abind.
  repeat (progress (rewrite ?Hc, ?Hi; cbn [e_cur e_vars e_sh nv_sw]; cbv beta iota; rewrite ?lookup_insert)).
  rewrite insert_insert. done.
Qed.
Lemma sw_write_inv b id p st i v : ninv b st -> is_Some (nb_kind (e_sh st) !! id) -> e_cur st = Some i -> e_vars st !! i = Some v ->
  ninv b (mkE (e_sh st) (<[i := mkNV (<[id := p]> (nv_sw v)) None None]> (e_vars st)) (e_cur st)).
Proof.
  intros [W S Hv] Hk Hc Hi. split.
  - destruct st as [s m c]. simpl in *. eapply ewf_insert; [exact W|eauto].
  - done.
  - apply everywhere_insert; [exact Hv|]. split; simpl.
    + intros id'. rewrite <- (vi_dom _ _ _ (Hv i v Hi)). destruct (decide (id = id')) as [<-|]; [|by rewrite lookup_insert_ne].
      rewrite lookup_insert. split; [|eauto]. intros _. by apply (vi_dom _ _ _ (Hv i v Hi)).
    + by intros [].
    + by intros _ [].
Qed.
Lemma set_open_eq id x st i v p : e_cur st = Some i -> e_vars st !! i = Some v -> nv_sw v !! id = Some p ->
  sw_set_open id x st = if decide (p.1 = x) then (Ok tt, st) else sw_write id (x, p.2) st.
Proof.
  intros Hc Hi Hp. unfold sw_set_open. unfold abind at 1, sw_get, aget, aindex, abind, alift. rewrite Hc, Hi, Hp. cbv beta iota.
  case_bool_decide; case_decide; done.
Qed.
Lemma set_retained_eq id x st i v p : e_cur st = Some i -> e_vars st !! i = Some v -> nv_sw v !! id = Some p ->
  sw_set_retained id x st = if decide (p.2 = x) then (Ok tt, st) else sw_write id (p.1, x) st.
Proof.
  intros Hc Hi Hp. unfold sw_set_retained. unfold abind at 1, sw_get, aget, aindex, abind, alift. rewrite Hc, Hi, Hp. cbv beta iota.
  case_bool_decide; case_decide; done.
Qed.

(** ** Reaching the switch and the terminal *)
Lemma on_switch_tri b id (m : nbact unit) st0 : ninv b st0 ->
  (is_Some (nb_kind (e_sh st0) !! id) -> tri (ninv b) (fun st => st = st0) m (fun _ => ninv b)) ->
  tri (ninv b) (fun st => st = st0) (on_switch id m) (fun _ => ninv b).
Proof.
  intros I H. unfold on_switch. eapply tri_bind; [apply tri_shared|]. intros s st [-> ->].
  case_bool_decide as Hk; [by apply H|done].
Qed.
Lemma set_open_tri b id x st0 : ninv b st0 -> is_Some (nb_kind (e_sh st0) !! id) ->
  tri (ninv b) (fun st => st = st0) (sw_set_open id x) (fun _ => ninv b).
Proof.
  intros I Hk st ->. destruct (aget_ok st0 (ni_wf _ _ I)) as [(i & v & Hc & Hi & E)|(Hc & m & E)].
  - destruct (proj2 (vi_dom _ _ _ (ni_var _ _ I i v Hi) id) Hk) as [p Hp]. rewrite (set_open_eq _ _ _ _ _ _ Hc Hi Hp). case_decide; [done|].
    rewrite (sw_write_eq _ _ _ _ _ Hc Hi). by apply sw_write_inv.
  - unfold sw_set_open, sw_get. unfold abind at 1 2. by rewrite E.
Qed.
Lemma set_retained_tri b id x st0 : ninv b st0 -> is_Some (nb_kind (e_sh st0) !! id) ->
  tri (ninv b) (fun st => st = st0) (sw_set_retained id x) (fun _ => ninv b).
Proof.
  intros I Hk st ->. destruct (aget_ok st0 (ni_wf _ _ I)) as [(i & v & Hc & Hi & E)|(Hc & m & E)].
  - destruct (proj2 (vi_dom _ _ _ (ni_var _ _ I i v Hi) id) Hk) as [p Hp]. rewrite (set_retained_eq _ _ _ _ _ _ Hc Hi Hp). case_decide; [done|].
    rewrite (sw_write_eq _ _ _ _ _ Hc Hi). by apply sw_write_inv.
  - unfold sw_set_retained, sw_get. unfold abind at 1 2. by rewrite E.
Qed.

(** ** Topology changes *)
Lemma gact_eq {A} (f : G -> G * result A) st g' r : f (nb_graph (e_sh st)) = (g', r) ->
  gact f st = (r, mkE (nb_set_graph (e_sh st) g') (e_vars st) (e_cur st)).
Proof. intros E. unfold gact. by rewrite E. Qed.

Ltac gstep E := erewrite abind_Ok; [|eapply gact_eq; exact E].

Lemma no_cache_inv b s s' v f : vinv b s v -> no_cache v ->
  (forall id, is_Some (f (nv_sw v) !! id) <-> is_Some (nb_kind s' !! id)) ->
  vinv b s' (mkNV (f (nv_sw v)) (nv_bus v) (nv_bb v)).
Proof. intros [I1 I2 I3] [H1 H2] Hd. rewrite H1, H2. split; [done|by intros []|by intros _ []]. Qed.
(** Adding switches: the caches are kept. *)
Lemma keep_cache_inv s s' v f : vinv false s v ->
  (forall id, is_Some (f (nv_sw v) !! id) <-> is_Some (nb_kind s' !! id)) ->
  vinv false s' (mkNV (f (nv_sw v)) (nv_bus v) (nv_bb v)).
Proof. intros [I1 I2 I3] Hd. split; [done| |done]. intros vw. apply (I2 vw). Qed.
Lemma change_inv b s s' v f : vinv b s v -> (b = true -> no_cache v) ->
  (forall id, is_Some (f (nv_sw v) !! id) <-> is_Some (nb_kind s' !! id)) ->
  vinv b s' (mkNV (f (nv_sw v)) (nv_bus v) (nv_bb v)).
Proof. intros I H Hd. destruct b; [by eapply no_cache_inv; eauto|by eapply keep_cache_inv; eauto]. Qed.
Lemma change_inv0 b s s' v : vinv b s v -> (b = true -> no_cache v) -> nb_kind s' = nb_kind s -> vinv b s' v.
Proof. intros I H E. assert (v = mkNV (nv_sw v) (nv_bus v) (nv_bb v)) as -> by (by destruct v).
  apply (change_inv b s s' v (fun x => x)); [done|done|]. rewrite E. apply I. Qed.

Lemma add_switch_eq b id k p n1 n2 st : ninv b st ->
  (exists m, nb_add_switch id k p n1 n2 st = (Throw m, st)) \/
  (id ∉ nb_ids (e_sh st) /\ exists g' e, ginv g' /\ s_edges (nbg st) !! e = None /\
     s_edges (abs g') = <[e := (n1, n2, Some id)]> (s_edges (nbg st)) /\
     (forall m, is_Some (s_vertices (nbg st) !! m) -> s_vertices (abs g') !! m = s_vertices (nbg st) !! m) /\
     nb_add_switch id k p n1 n2 st = (Ok tt, mkE (mkNB (nb_id (e_sh st)) g' (<[id := e]> (nb_sw (e_sh st))) (<[id := k]> (nb_kind (e_sh st))) ({[id]} ∪ nb_ids (e_sh st)))
       ((fun v => mkNV (<[id := p]> (nv_sw v)) (nv_bus v) (nv_bb v)) <$> e_vars st) (e_cur st))).
Proof.
  intros [W S Hv]. unfold nb_add_switch.
  destruct (decide (id = "")) as [Hd|Hd].
  { left. eexists. apply abind_Throw. unfold nb_index_add. by rewrite bool_decide_true. }
  destruct (decide (id ∈ nb_ids (e_sh st))) as [Hid|Hid].
  { left. eexists. apply abind_Throw. unfold nb_index_add. by rewrite bool_decide_false, bool_decide_true. }
  right. split; [done|].
  destruct (add_vertex_if_eq (nb_graph (e_sh st)) n1 (si_g _ S)) as (g1 & E1 & I1 & H1 & L1 & K1 & _).
  destruct (add_vertex_if_eq g1 n2 I1) as (g2 & E2 & I2 & H2 & L2 & K2 & _).
  destruct (add_edge_eq g2 n1 n2 (Some id) I2) as (g3 & e & E3 & I3 & F3 & A3); [by rewrite K2|done|].
  exists g3, e. split; [done|]. split; [by unfold nbg; rewrite <- H1, <- H2|].
  split; [rewrite A3; simpl; by rewrite H2, H1|].
  split. { intros m Hm. rewrite A3. simpl. unfold nbg in *. rewrite K2; [by apply K1|]. by rewrite K1. }
  erewrite abind_Ok; [|unfold nb_index_add; rewrite !bool_decide_false by done; reflexivity].
  gstep E1.
  gstep E2.
  gstep E3.
  cbn [e_sh e_vars e_cur nb_set_graph nb_sw nb_kind nb_ids nb_graph nb_id].
  destruct (nb_sw (e_sh st) !! id) as [e'|] eqn:Hsw; [|done].
  exfalso. apply Hid. apply (si_ids _ S), (si_kind _ S). eauto.
Qed.

Lemma add_switch_tri b id k p n1 n2 st0 : ninv b st0 -> (b = true -> forall i v, e_vars st0 !! i = Some v -> no_cache v) ->
  tri (ninv b) (fun st => st = st0) (nb_add_switch id k p n1 n2) (fun _ => ninv b).
Proof.
  intros I Hs st ->. destruct (add_switch_eq b id k p n1 n2 st0 I) as [[m ->]|(Hid & g' & e & Ig & He & HE & HV & ->)]; [done|].
  destruct I as [W S Hv]. split.
  - destruct st0. by eapply ewf_fmap.
  - split; cbn [e_sh nb_graph nb_sw nb_kind nb_ids].
    + done.
    + intros e' a b' id'. rewrite HE. intros [[<- [= _ _ <-]]|[Hne Hl]]%lookup_insert_Some; [by rewrite lookup_insert|].
      apply (si_edge _ S) in Hl. rewrite lookup_insert_ne; [done|]. intros <-. apply Hid, (si_ids _ S), (si_kind _ S). eauto.
    + intros id' e' [[<- <-]|[Hne Hl]]%lookup_insert_Some; rewrite HE.
      * rewrite lookup_insert. eauto.
      * apply (si_sw _ S) in Hl as (a & b' & Hl). exists a, b'. rewrite lookup_insert_ne; [done|]. unfold nbg in He. congruence.
    + intros id'. destruct (decide (id = id')) as [<-|]; [rewrite !lookup_insert; split; eauto|]. rewrite !lookup_insert_ne by done. apply S.
    + intros id'. destruct (decide (id = id')) as [<-|]; [set_solver|]. rewrite lookup_insert_ne by done. intros H%(si_ids _ S). set_solver.
  - intros i v'. cbn [e_vars e_sh]. rewrite lookup_fmap. intros (v & Hi & ->)%fmap_Some.
    apply (change_inv b (e_sh st0) _ v (fun sw => <[id := p]> sw)); [eauto|eauto|].
    intros id'. cbn [nb_kind]. destruct (decide (id = id')) as [<-|]; [rewrite !lookup_insert; split; eauto|].
    rewrite !lookup_insert_ne by done. apply (vi_dom _ _ _ (Hv i v Hi)).
Qed.

Lemma remove_switch_eq b id st : ninv b st ->
  (nb_sw (e_sh st) !! id = None /\ exists m, nb_remove_switch id st = (Throw m, st)) \/
  (exists e a b' g', nb_sw (e_sh st) !! id = Some e /\ s_edges (nbg st) !! e = Some (a, b', Some id) /\
     ginv g' /\ s_edges (abs g') = delete e (s_edges (nbg st)) /\
     (forall v o, s_vertices (nbg st) !! v = Some (Some o) -> s_vertices (abs g') !! v = Some (Some o)) /\
     nb_remove_switch id st = (Ok tt, mkE (mkNB (nb_id (e_sh st)) g' (delete id (nb_sw (e_sh st))) (delete id (nb_kind (e_sh st))) (nb_ids (e_sh st) ∖ {[id]}))
       ((fun v => mkNV (delete id (nv_sw v)) (nv_bus v) (nv_bb v)) <$> e_vars st) (e_cur st))).
Proof.
  intros [W S Hv]. unfold nb_remove_switch. rewrite (abind_Ok ashared _ st (e_sh st) st eq_refl).
  destruct (nb_sw (e_sh st) !! id) as [e|] eqn:Hsw; [|left; split; [done|by eexists]]. right.
  destruct (si_sw _ S id e Hsw) as (a & b' & He).
  destruct (remove_edge_eq (nb_graph (e_sh st)) e a b' (Some id) (si_g _ S) He) as (g1 & E1 & I1 & A1).
  destruct (clean_eq g1 I1) as (g2 & E2 & I2 & H2 & V2).
  exists e, a, b', g2. split; [done|]. split; [done|]. split; [done|].
  split; [rewrite H2, A1; done|]. split; [intros v o Ho; apply V2; by rewrite A1|].
  gstep E1. unfold nb_clean.
  gstep E2.
  unfold abind, nb_index_remove. done.
Qed.
Lemma remove_switch_tri b id st0 : ninv b st0 -> (b = true -> forall i v, e_vars st0 !! i = Some v -> no_cache v) ->
  tri (ninv b) (fun st => st = st0) (nb_remove_switch id) (fun _ => ninv b).
Proof.
  intros I Hs st ->. destruct (remove_switch_eq b id st0 I) as [(_ & m & ->)|(e & a & b' & g' & Hsw & He & Ig & HE & HV & ->)]; [done|].
  destruct I as [W S Hv]. split.
  - destruct st0. by eapply ewf_fmap.
  - split; cbn [e_sh nb_graph nb_sw nb_kind nb_ids].
    + done.
    + intros e' a' b'' id'. rewrite HE. intros [Hne Hl]%lookup_delete_Some. apply (si_edge _ S) in Hl as Hl'.
      rewrite lookup_delete_ne; [done|]. intros <-. congruence.
    + intros id' e' [Hne Hl]%lookup_delete_Some. destruct (si_sw _ S _ _ Hl) as (a' & b'' & Hl'). exists a', b''. rewrite HE.
      rewrite lookup_delete_ne; [done|]. intros <-. unfold nbg in He. congruence.
    + intros id'. destruct (decide (id = id')) as [<-|]; [rewrite !lookup_delete; split; by intros []|]. rewrite !lookup_delete_ne by done. apply S.
    + intros id'. destruct (decide (id = id')) as [<-|]; [rewrite lookup_delete; by intros []|]. rewrite lookup_delete_ne by done.
      intros H%(si_ids _ S). set_solver.
  - intros i v'. cbn [e_vars e_sh]. rewrite lookup_fmap. intros (v & Hi & ->)%fmap_Some.
    apply (change_inv b (e_sh st0) _ v (fun sw => delete id sw)); [eauto|eauto|].
    intros id'. cbn [nb_kind]. destruct (decide (id = id')) as [<-|]; [rewrite !lookup_delete; split; by intros []|].
    rewrite !lookup_delete_ne by done. apply (vi_dom _ _ _ (Hv i v Hi)).
Qed.

(** A change of the graph followed by the invalidation of the working variant. *)
Lemma set_graph_inv s g' : shinv s -> ginv g' ->
  (forall e a b id, s_edges (abs g') !! e = Some (a, b, Some id) <-> s_edges (abs (nb_graph s)) !! e = Some (a, b, Some id)) ->
  shinv (nb_set_graph s g').
Proof.
  intros [I1 I2 I3 I4 I5] Ig HE. split; cbn [nb_set_graph nb_graph nb_sw nb_kind nb_ids].
  - done.
  - intros e a b id H%HE. by eapply I2.
  - intros id e H. apply I3 in H as (a & b & H). exists a, b. by apply HE.
  - done.
  - done.
Qed.
Lemma invalidate_tri b st0 st1 g' : ninv b st0 -> (b = true -> forall i v, e_vars st0 !! i = Some v -> e_cur st0 <> Some i -> no_cache v) ->
  st1 = mkE (nb_set_graph (e_sh st0) g') (e_vars st0) (e_cur st0) -> ginv g' ->
  (forall e a b id, s_edges (abs g') !! e = Some (a, b, Some id) <-> s_edges (nbg st0) !! e = Some (a, b, Some id)) ->
  tri (ninv b) (fun st => st = st1) nb_invalidate (fun _ => ninv b).
Proof.
  intros [W S Hv] Hs -> Ig HE st ->. unfold nb_invalidate, aget, aput, aindex, abind. cbn [e_cur e_vars e_sh].
  pose proof (set_graph_inv _ g' S Ig HE) as S'.
  destruct (e_cur st0) as [i|] eqn:Hc.
  - destruct W as [W1 W2]. destruct (W2 i Hc) as [v Hi]. cbn [e_cur e_vars e_sh]. rewrite Hi. cbv beta iota. cbn [e_cur e_vars e_sh].
    rewrite Hi. split.
    + destruct st0 as [s m c]. simpl in *. eapply (ewf_insert s); [|eauto]. split; simpl; [done|]. by rewrite <- Hc.
    + done.
    + intros j w. cbn [e_vars e_sh]. intros [[<- <-]|[Hne Hw]]%lookup_insert_Some.
      * eapply invalid_inv. eapply (change_inv0 false (e_sh st0)); [|done|done]. destruct (Hv i v Hi); split; done.
      * eapply change_inv0; [exact (Hv j w Hw)| |done]. intros Hb. eapply Hs; [done|exact Hw|]. congruence.
  - split; [|done|].
    + destruct W as [W1 W2]. split; simpl; [exact W1|done].
    + intros j w Hw. eapply change_inv0; [exact (Hv j w Hw)| |done]. intros Hb. eapply Hs; [done|exact Hw|done].
Qed.

Lemma add_internal_tri b n1 n2 st0 : ninv b st0 -> (b = true -> forall i v, e_vars st0 !! i = Some v -> e_cur st0 <> Some i -> no_cache v) ->
  tri (ninv b) (fun st => st = st0) (nb_add_internal n1 n2) (fun _ => ninv b).
Proof.
  intros I Hs st ->. pose proof (si_g _ (ni_sh _ _ I)) as Ig. unfold nb_add_internal.
  destruct (add_vertex_if_eq (nb_graph (e_sh st0)) n1 Ig) as (g1 & E1 & I1 & H1 & L1 & K1 & _).
  destruct (add_vertex_if_eq g1 n2 I1) as (g2 & E2 & I2 & H2 & L2 & K2 & _).
  destruct (add_edge_eq g2 n1 n2 None I2) as (g3 & e & E3 & I3 & F3 & A3); [by rewrite K2|done|].
  gstep E1.
  gstep E2.
  gstep E3.
  refine (invalidate_tri b st0 _ g3 I Hs _ I3 _ _ eq_refl); [done|].
  intros e' a b' id. rewrite A3. simpl. rewrite H2, H1. unfold nbg. destruct (decide (e = e')) as [<-|]; [|by rewrite lookup_insert_ne].
  rewrite lookup_insert. rewrite <- H1, <- H2, F3. done.
Qed.

(** removeInternalConnections. *)
Lemma remove_internal_loop_ok n1 n2 m i g : ginv g -> length (g_edges g) = i + m ->
  exists g', remove_internal_loop n1 n2 (seq i m) g = (g', Ok tt) /\ ginv g' /\ s_vertices (abs g') = s_vertices (abs g) /\
    (forall e a b id, s_edges (abs g') !! e = Some (a, b, Some id) <-> s_edges (abs g) !! e = Some (a, b, Some id)) /\
    (forall e a b, s_edges (abs g') !! e = Some (a, b, None) <->
       s_edges (abs g) !! e = Some (a, b, None) /\ ~ (i <= e /\ ((a = n1 /\ b = n2) \/ (a = n2 /\ b = n1)))).
Proof.
  revert i g. induction m as [|m IH]; intros i g I Hl.
  { exists g. split; [done|]. split; [done|]. split; [done|]. split; [done|]. intros e a b. split; [|naive_solver].
    intros He. split; [done|]. intros [Hi _]. rewrite abs_edges in He. destruct (g_edges g !! e) eqn:E; [|done].
    apply lookup_lt_Some in E. lia. }
  cbn [seq remove_internal_loop]. destruct (lookup_lt_is_Some_2 (g_edges g) i) as [x Hx]; [lia|]. rewrite Hx.
  assert (forall e a b, e <> i -> (S i <= e /\ ((a = n1 /\ b = n2) \/ (a = n2 /\ b = n1))) <-> (i <= e /\ ((a = n1 /\ b = n2) \/ (a = n2 /\ b = n1)))) as Harith.
  { intros e a b Hne. split; (intros [? ?]; split; [lia|done]). }
  destruct x as [ed|].
  - destruct (is_internal n1 n2 ed) eqn:Hint.
    + assert (s_edges (abs g) !! i = Some (e_v1 ed, e_v2 ed, None)) as He.
      { rewrite abs_edges, Hx. simpl. unfold ends. unfold is_internal in Hint. by destruct (e_obj ed). }
      destruct (remove_edge_eq g i _ _ _ I He) as (g1 & E1 & I1 & A1). rewrite E1.
      assert (length (g_edges g1) = S i + m \/ m = 0) as Hl1.
      { unfold g_remove_edge, g_check_edge in E1. rewrite Hx in E1. cbv beta iota in E1. cbn [result_bind] in E1.
        revert E1. case_decide; intros E1; simplify_eq; unfold g_invalidate; cbn [g_edges].
        - right. lia.
        - left. rewrite insert_length. lia. }
      destruct m as [|m'].
      * exists g1. cbn [seq remove_internal_loop]. split; [done|]. split; [done|]. rewrite A1. cbn [s_vertices s_edges]. split; [done|]. split.
        -- intros e a b id. rewrite lookup_delete_Some. split; [by intros [_ ?]|]. intros H. split; [congruence|done].
        -- intros e a b. rewrite lookup_delete_Some. split.
           ++ intros [Hne H]. split; [done|]. intros [Hi _]. rewrite abs_edges in H. destruct (g_edges g !! e) eqn:E; [|done].
              apply lookup_lt_Some in E. lia.
           ++ intros [H Hn]. split; [|done]. intros <-. apply Hn. split; [done|]. rewrite He in H. injection H as <- <-.
              unfold is_internal in Hint. destruct (e_obj ed); [done|].
              apply orb_true_iff in Hint as [Hint|Hint]; apply andb_true_iff in Hint as [?%Nat.eqb_eq ?%Nat.eqb_eq]; auto.
      * destruct Hl1 as [Hl1|?]; [|done]. destruct (IH (S i) g1 I1 Hl1) as (g' & E' & I' & V' & S' & N').
        exists g'. split; [exact E'|]. split; [done|]. rewrite V', A1. split; [done|]. split.
        -- intros e a b id. rewrite S', A1. cbn [s_edges]. rewrite lookup_delete_Some. split; [by intros [_ ?]|]. intros H. split; [congruence|done].
        -- intros e a b. rewrite N', A1. cbn [s_edges]. rewrite lookup_delete_Some. split.
           ++ intros [[Hne H] Hn]. split; [done|]. by rewrite <- Harith.
           ++ intros [H Hn]. destruct (decide (e = i)) as [->|Hne].
              { exfalso. apply Hn. split; [done|]. rewrite He in H. injection H as <- <-.
                unfold is_internal in Hint. destruct (e_obj ed); [done|].
                apply orb_true_iff in Hint as [Hint|Hint]; apply andb_true_iff in Hint as [?%Nat.eqb_eq ?%Nat.eqb_eq]; auto. }
              split; [done|]. by rewrite Harith.
    + destruct (IH (S i) g I) as (g' & E' & I' & V' & S' & N'); [lia|]. exists g'. split; [exact E'|]. split; [done|]. split; [done|]. split; [done|].
      intros e a b. rewrite N'. destruct (decide (e = i)) as [->|Hne]; [|by rewrite (Harith e a b)].
      split; [|intros [H _]; split; [done|lia]]. intros [H _]. split; [done|]. intros [_ Hab].
      rewrite abs_edges, Hx in H. simpl in H. unfold ends in H. injection H as <- <- Ho. unfold is_internal in Hint. rewrite Ho in Hint.
      apply orb_false_iff in Hint as [H1 H2]. apply andb_false_iff in H1, H2. rewrite !Nat.eqb_neq in H1, H2. lia.
  - destruct (IH (S i) g I) as (g' & E' & I' & V' & S' & N'); [lia|]. exists g'. split; [exact E'|]. split; [done|]. split; [done|]. split; [done|].
    intros e a b. rewrite N'. destruct (decide (e = i)) as [->|Hne]; [|by rewrite (Harith e a b)].
    rewrite abs_edges, Hx. simpl. naive_solver.
Qed.

Lemma remove_internal_tri b n1 n2 st0 : ninv b st0 -> (b = true -> forall i v, e_vars st0 !! i = Some v -> e_cur st0 <> Some i -> no_cache v) ->
  tri (ninv b) (fun st => st = st0) (nb_remove_internal n1 n2) (fun _ => ninv b).
Proof.
  intros I Hs st ->. pose proof (si_g _ (ni_sh _ _ I)) as Ig. unfold nb_remove_internal.
  rewrite (abind_Ok ashared _ st0 (e_sh st0) st0 eq_refl). destruct (existsb _ _); [|done].
  destruct (remove_internal_loop_ok n1 n2 (length (g_edges (nb_graph (e_sh st0)))) 0 (nb_graph (e_sh st0)) Ig) as (g1 & E1 & I1 & _ & H1 & _); [done|].
  destruct (clean_eq g1 I1) as (g2 & E2 & I2 & H2 & V2).
  gstep E1. unfold nb_clean.
  gstep E2.
  refine (invalidate_tri b st0 _ g2 I Hs _ I2 _ _ eq_refl); [done|].
  intros e a b' id. rewrite H2. apply H1.
Qed.

Lemma attach_tri b n t st0 : ninv b st0 -> (b = true -> e_cur st0 = None -> forall i v, e_vars st0 !! i = Some v -> no_cache v) ->
  tri (ninv b) (fun st => st = st0) (nb_attach n t) (fun _ => ninv b).
Proof.
  intros I Hs st ->. destruct I as [W S Hv]. pose proof (si_g _ S) as Ig. unfold nb_attach.
  destruct (add_vertex_if_eq (nb_graph (e_sh st0)) n Ig) as (g1 & E1 & I1 & H1 & L1 & K1 & A1 & N1).
  gstep E1.
  destruct (vertex_object_eq g1 n) as [(o & Eo & Ho)|(m & _ & Ho)]; [|destruct L1; congruence].
  gstep (f_equal (pair g1) Eo).
  destruct o as [t'|].
  - assert (abs g1 = nbg st0) as HA.
    { apply A1. apply not_eq_None_Some. intros E. apply N1 in E. congruence. }
    assert (length (g_vertices g1) = length (g_vertices (nb_graph (e_sh st0)))) as HL by (apply cap_abs; [done|done|by rewrite HA]).
    cbn. split; cbn [e_sh e_vars e_cur].
    + destruct W as [W1 W2]; split; [exact W1|exact W2].
    + apply (set_graph_inv (e_sh st0) g1); [done|done|]. by rewrite HA.
    + intros i v Hi. destruct (Hv i v Hi) as [D1 D2 D3]. split; [done|done|]. intros Hb vw c Hc. specialize (D3 Hb vw c Hc).
      unfold nb_set_graph. cbn [nb_id nb_graph e_sh]. rewrite HL, HA. exact D3.
  - destruct (set_object_eq g1 n (Some t) I1 L1) as (g2 & E2 & I2 & A2).
    gstep E2.
    assert (shinv (nb_set_graph (e_sh st0) g2)) as S2.
    { apply set_graph_inv; [done|done|]. intros e a b' id. rewrite A2. simpl. by rewrite H1. }
    unfold nb_invalidate_all, abind, aindex. cbn [e_cur e_sh e_vars]. destruct (e_cur st0) as [i|] eqn:Hc.
    + cbn [e_cur e_sh e_vars]. split.
      * destruct st0 as [s m c]. simpl in *. eapply ewf_fmap. rewrite <- Hc. exact W.
      * exact S2.
      * intros j w. cbn [e_vars e_sh]. rewrite lookup_fmap. intros (v & Hj & ->)%fmap_Some. apply (invalid_inv false).
        eapply (change_inv0 false (e_sh st0)); [|done|done]. destruct (Hv j v Hj); split; done.
    + split; cbn [e_cur e_sh e_vars].
      * destruct W as [W1 W2]. split; [exact W1|done].
      * exact S2.
      * intros j w Hw. eapply (change_inv0 b (e_sh st0)); [eauto| |done]. eauto.
Qed.

Lemma detach_tri b n st0 : ninv b st0 -> tri (ninv b) (fun st => st = st0) (nb_detach n) (fun _ => ninv b).
Proof.
  intros I st ->. destruct I as [W S Hv] eqn:EI. pose proof (si_g _ S) as Ig. unfold nb_detach.
  rewrite (abind_Ok ashared _ st0 (e_sh st0) st0 eq_refl).
  destruct (vertex_object_eq (nb_graph (e_sh st0)) n) as [(o & Eo & Ho)|(m & Eo & Ho)]; rewrite Eo; [|done].
  destruct o as [t|]; [|done]. unfold nb_invalidate_all. unfold abind at 1 2. unfold aindex. destruct (e_cur st0) as [i|] eqn:Hc; [|done].
  destruct (set_object_eq (nb_graph (e_sh st0)) n None Ig) as (g1 & E1 & I1 & A1); [eauto|].
  destruct (clean_eq g1 I1) as (g2 & E2 & I2 & H2 & V2).
  gstep E1. unfold nb_clean.
  erewrite gact_eq; [|exact E2]. cbn [e_sh e_vars e_cur]. split.
  - destruct st0 as [s m c]. simpl in *. eapply ewf_fmap. exact W.
  - apply (set_graph_inv (e_sh st0) g2); [done|done|]. intros e a b' id. rewrite H2, A1. done.
  - intros j w. cbn [e_vars e_sh]. rewrite lookup_fmap. intros (v & Hj & ->)%fmap_Some. apply (invalid_inv false).
    eapply (change_inv0 false (e_sh st0)); [|done|done]. destruct (Hv j v Hj); split; done.
Qed.
