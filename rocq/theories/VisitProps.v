(** C68: visitors of buses and voltage levels. *)
From stdpp Require Import gmap pretty sorting.
From Verif Require Import Base Graph GraphSpec GraphProofs Equip NodeTopo NodeTopoSpec NodeTopoInv NodeTopoProps BusTopo BusTopoSpec BusTopoProofs
  BusTopoInv BusTopoView BusTopoProps BusValuesSpec TopoExport TopoExportProps Visit VisitSpec VisitProofs.

(** Whatever the visitor does with them, the calls it receives describe the terminals in their order. *)
Theorem C68_calls : forall A es (vis : A -> vcall -> result A) ts a, (forall t, t ∈ ts -> owned es t) ->
  exists cs, Forall2 describes ts cs /\ receives vis cs a (visit_equipments es vis ts a).
Proof. intros. by apply visit_ok. Qed.
Print Assumptions C68_calls.
(** A visitor of terminals (AbstractTerminalTopologyVisitor) receives the very terminals. *)
Theorem C68_terminals : forall A es (f : A -> nterm -> result A) ts a, (forall t, t ∈ ts -> owned es t) ->
  receives f ts a (visit_equipments es (terminal_visitor es f) ts a).
Proof. intros. by apply visit_terminals. Qed.
Print Assumptions C68_terminals.

(** A configured bus: its terminals, connected or not; then the connected ones only.  The network does not change. *)
Theorem C68_configured : forall A es (vis : A -> vcall -> result A) a st v b,
  bb_reach bb_safe st -> working st v -> is_bus (e_sh st) b -> (forall t, BusTopoSpec.hangs (e_sh st) v b t -> owned es t) ->
  (exists r, configured_visit_all es vis b a st = (r, st) /\ visits_each (hangs (e_sh st) v b) vis a r) /\
  (exists r, configured_visit_connected es vis b a st = (r, st) /\ visits_each (fun t => hangs (e_sh st) v b t /\ connected v t) vis a r).
Proof.
  intros A es vis a st v b H W Hb Ho. apply reach_binv in H. split; [by apply configured_all_ok|by apply configured_connected_ok].
Qed.
Print Assumptions C68_configured.

(** A merged bus: the terminals of the configured buses linked by closed switches. *)
Theorem C68_merged_partial : forall A es (vis : A -> vcall -> result A) a st v b k st1,
  bb_reach bb_safe st -> working st v -> well_numbered st -> is_bus (e_sh st) b -> bb_merged b st = (Ok (Some k), st1) ->
  (forall b' t, hangs (e_sh st) v b' t -> owned es t) ->
  (exists r, merged_visit_all es vis k a st1 = (r, st1) /\
     visits_each (fun t => exists b', same_bus (e_sh st) v b b' /\ hangs (e_sh st) v b' t) vis a r) /\
  (exists r, merged_visit_connected es vis k a st1 = (r, st1) /\
     visits_each (fun t => exists b', same_bus (e_sh st) v b b' /\ hangs (e_sh st) v b' t /\ connected v t) vis a r).
Proof.
  intros A es vis a st v b k st1 H W WN Hb E1 Ho. split.
  - apply reach_binv in H.
    destruct (merged_cached st v b H WN W Hb) as (c & st' & u & E & C & L). rewrite E1 in E. injection E as Ek <-.
    pose proof C as (_ & _ & CG & _). destruct (good_members (e_sh st) v c u b k (bi_sh _ H) CG L (eq_sym Ek)) as (us & Hus & ND & HM).
    destruct (merged_all_ok es vis a st v H c st1 k us C Hus) as (r & ls & Er & -> & N & Hls). eexists. split; [exact Er|].
    apply visits_list; [done|..].
    + intros t. rewrite Hls. split.
      * intros (w & lw & Hw & Hlw & Ht). apply HM in Hw as (b' & Lb & Hs). exists b'. split; [done|]. by exists w, lw.
      * intros (b' & Hs & (w & lw & Lw & Hlw & Ht)). exists w, lw. split; [|done]. apply HM. eauto.
    + intros t (b' & _ & Ht). by apply (Ho b').
  - destruct (C33_terminals_partial st v b k st1 H W WN Hb E1) as (l & El & ND & Hl). eexists. split.
    + unfold merged_visit_connected. rewrite (abind_Ok _ _ _ _ _ El). reflexivity.
    + apply visits_list; [done|done|]. intros t (b' & _ & Ht & _). by apply (Ho b').
Qed.
Print Assumptions C68_merged_partial.

(** A whole level: every terminal once. *)
Theorem C68_bus_level : forall A es (vis : A -> vcall -> result A) a st v,
  bb_reach bb_safe st -> working st v -> (forall b t, hangs (e_sh st) v b t -> owned es t) ->
  exists r, bb_visit_level es vis a st = (r, st) /\ visits_each (fun t => exists b, hangs (e_sh st) v b t) vis a r.
Proof. intros A es vis a st v H W Ho. apply reach_binv in H. by apply bb_level_ok. Qed.
Print Assumptions C68_bus_level.

Lemma NoDup_omap_at {A B} (f : A -> option B) l : (forall x y z, f x = Some z -> f y = Some z -> x = y) -> NoDup l -> NoDup (omap f l).
Proof.
  intros HI ND. induction ND as [|x l Hx ND IH]; [constructor|]. cbn. destruct (f x) as [z|] eqn:E; [|done]. constructor; [|done].
  intros (y & Hy & Ey)%elem_of_list_omap. by rewrite (HI x y z E Ey) in Hx.
Qed.
Theorem C68_node_level : forall A es (vis : A -> vcall -> result A) a st,
  one_node (nbg st) -> (forall n t, term_at (nbg st) n t -> owned es t) ->
  exists r, nb_visit_level es vis a st = (r, st) /\ visits_each (fun t => exists n, term_at (nbg st) n t) vis a r.
Proof.
  intros A es vis a st ON Ho. eexists. split; [reflexivity|].
  assert (forall n t, g_vertices (nb_graph (e_sh st)) !! n = Some (Some (Some t)) <-> term_at (nbg st) n t) as HT.
  { intros n t. unfold term_at, nbg. rewrite abs_vertices. destruct (g_vertices (nb_graph (e_sh st)) !! n) as [[o|]|]; cbn; split; try done; congruence. }
  assert (forall x y t, g_vertices (nb_graph (e_sh st)) !! x = Some (Some (Some t)) -> g_vertices (nb_graph (e_sh st)) !! y = Some (Some (Some t)) -> x = y) as HI.
  { intros x y t Hx%HT Hy%HT. by eapply ON. }
  apply visits_list; [| |intros t [n Hn]; by eapply Ho].
  - revert HI. clear. generalize (g_vertices (nb_graph (e_sh st))) as l. induction l as [|o l IH]; intros HI; [constructor|].
    assert (NoDup (omap id (omap id l))) as N by (apply IH; intros x y t Hx Hy; by injection (HI (S x) (S y) t Hx Hy)).
    destruct o as [[t|]|]; cbn; [|done|done]. constructor; [|done]. intros (o & Ho & Eo)%elem_of_list_omap.
    apply elem_of_list_omap in Ho as (p & Hp & Ep). cbn in Eo, Ep. subst p. subst o. apply elem_of_list_lookup in Hp as [x Hx].
    by specialize (HI 0 (S x) t eq_refl Hx).
  - intros t. rewrite elem_of_list_omap. split.
    + intros (o & (p & Hp & Ep)%elem_of_list_omap & Eo). cbn in Eo, Ep. subst p. subst o. apply elem_of_list_lookup in Hp as [x Hx].
      exists x. by apply HT.
    + intros (n & Hn%HT). exists (Some t). split; [|done]. apply elem_of_list_omap. exists (Some (Some t)). split; [|done].
      apply elem_of_list_lookup. by exists n.
Qed.
Print Assumptions C68_node_level.

(** A calculated bus: the terminals of its nodes.  Both visits are the same. *)
Theorem C68_calculated_partial : forall A es (vis : A -> vcall -> result A) a vw st i v n,
  nb_reach fresh_safe st -> e_cur st = Some i -> e_vars st !! i = Some v -> one_node (nbg st) -> (forall m t, term_at (nbg st) m t -> owned es t) ->
  in_bus vw (nbg st) (nv_sw v) n ->
  exists k r st', bus_name vw (nbg st) (nv_sw v) (nb_id (e_sh st)) n k /\
    calculated_visit_all es vis vw k a st = (r, st') /\ calculated_visit_connected es vis vw k a st = (r, st') /\
    visits_each (fun t => exists m, same_node vw (nbg st) (nv_sw v) n m /\ term_at (nbg st) m t) vis a r.
Proof.
  intros A es vis a vw st i v n H Hc Hi ON Ho Hn. destruct (C30_buses vw st i v H Hc Hi) as (m & st' & E & H1 & H2).
  destruct (H2 n Hn) as (k & b & Hk & B). exists k. destruct (H1 k b Hk) as [Ek _].
  assert (nb_bus_of_id vw k st = (Ok (Some b), st')) as Eb.
  { unfold nb_buses, abind, aret in E. unfold nb_bus_of_id, abind, aret. destruct (nb_cache vw st) as [[c|?| |] s]; try done.
    injection E as <- <-. by rewrite Hk. }
  eexists. exists st'. split; [destruct B as [B _]; by rewrite Ek in B|]. split; [|split].
  - unfold calculated_visit_all. rewrite (abind_Ok _ _ _ _ _ Eb). reflexivity.
  - unfold calculated_visit_connected. rewrite (abind_Ok _ _ _ _ _ Eb). reflexivity.
  - apply visits_list.
    + destruct B as (_ & nodes & ND & _ & ->). apply NoDup_omap_at; [|done]. intros x y t Hx Hy. apply (ON x y t); unfold term_at;
        [destruct (s_vertices (nbg st) !! x) as [[?|]|]|destruct (s_vertices (nbg st) !! y) as [[?|]|]]; cbn in *; congruence.
    + intros t. by eapply C30_terminals.
    + intros t (x & _ & Hx). by eapply Ho.
Qed.
Print Assumptions C68_calculated_partial.

(** *** Concrete networks *)
Definition record (cs : list vcall) (c : vcall) : result (list vcall) := Ok (cs ++ [c]).
Definition eq1 (id : string) (ty : ctype) : equipment := mkEquipment ty ((fun s => mkNT id s ty) <$> seq 0 (arity ty)).
Definition es68 : gmap string equipment :=
  {["L" := eq1 "L" LINE; "D" := eq1 "D" LOAD; "E" := eq1 "E" LOAD; "S" := eq1 "S" BUSBAR_SECTION;
    "T" := eq1 "T" THREE_WINDINGS_TRANSFORMER]}.
Lemma owned_dec es t : match es !! nt_id t with
  | Some e => bool_decide (eq_terms e = ((fun s => mkNT (nt_id t) s (eq_type e)) <$> seq 0 (arity (eq_type e))) /\ t ∈ eq_terms e) | None => false end = true ->
  owned es t.
Proof. unfold owned, well_made. destruct (es !! nt_id t) as [e|]; [|done]. intros [H1 H2]%bool_decide_eq_true. by exists e. Qed.

(** A closed switch joins "A" and "B", an open one "B" and "C"; leg 2 of "T" hangs disconnected on "B". *)
Definition leg (s : nat) : nterm := mkNT "T" s THREE_WINDINGS_TRANSFORMER.
Definition bb68 : bbst := bb_run bb0
  [ECall (BAddBus "A"); ECall (BAddBus "B"); ECall (BAddBus "C"); ECall (BNewTerminal (mkNT "L" 1 LINE) "A" true);
   ECall (BNewTerminal (bload "D") "B" true); ECall (BNewTerminal (leg 1) "B" false); ECall (BNewTerminal (leg 2) "C" true);
   ECall (BAddSwitch "S1" false "A" "B"); ECall (BAddSwitch "S2" true "B" "C")].
Lemma bb68_safe : bb_reach bb_safe bb68.
Proof.
  apply bb_run_reach; [|apply bb0_reach]. do 7 (split; [exact I|]).
  split; [apply no_merged_test; vm_compute; reflexivity|]. split; [apply no_merged_test; vm_compute; reflexivity|]. exact I.
Qed.
Example C68_case : bb_reach bb_safe bb68 /\ well_numbered bb68 /\
  (exists v, working bb68 v /\ map_Forall (fun _ l => Forall (owned es68) l) (bv_terms v)) /\
  is_bus (e_sh bb68) "A" /\ is_bus (e_sh bb68) "B" /\
  (configured_visit_all es68 record "B" [] bb68).1 = Ok [VLoad "D"; VThreeWindingsTransformer "T" TWO] /\
  (configured_visit_connected es68 record "B" [] bb68).1 = Ok [VLoad "D"] /\
  (bb_merged "A" bb68).1 = Ok (Some "VL_0") /\
  (merged_visit_all es68 record "VL_0" [] bb68).1 = Ok [VLine "L" TWO; VLoad "D"; VThreeWindingsTransformer "T" TWO] /\
  (merged_visit_connected es68 record "VL_0" [] bb68).1 = Ok [VLine "L" TWO; VLoad "D"] /\
  (bb_visit_level es68 record [] bb68).1 = Ok [VLine "L" TWO; VLoad "D"; VThreeWindingsTransformer "T" TWO; VThreeWindingsTransformer "T" THREE] /\
  (bb_visit_level es68 (terminal_visitor es68 (fun ts t => Ok (ts ++ [t]))) [] bb68).1 = Ok [mkNT "L" 1 LINE; bload "D"; leg 1; leg 2].
Proof.
  split; [apply bb68_safe|]. split; [apply numbered_run; [apply reach_binv, bb68_safe|vm_compute; reflexivity]|].
  split.
  { eexists. split; [exists initial_variant; split; [reflexivity|vm_compute; reflexivity]|]. cbn [bv_terms]. intros u l Hl.
    apply elem_of_map_to_list in Hl. revert Hl.
    match goal with |- context [map_to_list ?m] => let x := eval vm_compute in (map_to_list m) in change (map_to_list m) with x end.
    intros Hl. repeat (apply elem_of_cons in Hl as [Hl|Hl]; [injection Hl as -> ->; repeat constructor; apply owned_dec; vm_compute; reflexivity|]).
    by apply elem_of_nil in Hl. }
  split; [exists 0; vm_compute; reflexivity|]. split; [exists 1; vm_compute; reflexivity|].
  repeat (split; [vm_compute; reflexivity|]). vm_compute; reflexivity.
Qed.

(** In a node-breaker level, visitConnectedOrConnectableEquipments misses the connectable equipments: the line "L", behind an open breaker,
    has the bus "VL_0" as its connectable bus and is not visited.  A configured bus visits such terminals (C68_configured). *)
Theorem C68_connectable_refuted : exists st n t b st1 cs, nb_reach fresh_safe st /\ one_node (nbg st) /\
  (forall m u, term_at (nbg st) m u -> owned es68 u) /\ term_at (nbg st) n t /\
  nb_connectable BusView n st = (Ok (Some b), st1) /\ (calculated_visit_all es68 record BusView (cb_id b) [] st1).1 = Ok cs /\
  ~ exists c, c ∈ cs /\ describes t c.
Proof.
  assert (nb_reach fresh_safe nb1) as H by exact (proj1 C31_case).
  exists nb1, 2, (line "L"), (mkCB "VL_0" [sec "S"; load "D"]). eexists. exists [VBusbarSection "S"; VLoad "D"].
  split; [done|]. split; [apply one_node_dec; vm_compute; reflexivity|]. split.
  { intros m u Hm. assert (u ∈ [sec "S"; load "D"; line "L"]) as Hu.
    { unfold term_at in Hm. destruct m as [|[|[|m]]]; [vm_compute in Hm; injection Hm as <-; set_solver..|].
      exfalso. unfold nbg in Hm. rewrite abs_vertices in Hm. revert Hm. rewrite (lookup_ge_None_2 (g_vertices (nb_graph (e_sh nb1)))); [done|]. vm_compute. lia. }
    repeat (apply elem_of_cons in Hu as [->|Hu]; [apply owned_dec; vm_compute; reflexivity|]). by apply elem_of_nil in Hu. }
  split; [vm_compute; reflexivity|]. split; [vm_compute; reflexivity|]. split; [vm_compute; reflexivity|].
  intros (c & Hc & D). inversion D; subst; try done. set_solver.
Qed.
Print Assumptions C68_connectable_refuted.
Example C68_node_case : (nb_visit_level es68 record [] nb1).1 = Ok [VBusbarSection "S"; VLoad "D"; VLine "L" ONE] /\
  (calculated_visit_all es68 record BusView "VL_0" [] nb1).1 = Ok [VBusbarSection "S"; VLoad "D"] /\
  (calculated_visit_connected es68 record BusBreakerView "VL_2" [] nb1).1 = Ok [VLine "L" ONE].
Proof. split; [vm_compute; reflexivity|]. split; vm_compute; reflexivity. Qed.
(** A terminal which is not one of those of its equipment is refused (an assertion of getSide). *)
Example C68_refused : (exists m, visit_equipments es68 record [mkNT "L" 2 LINE] [] = Throw m).
Proof. eexists. vm_compute. reflexivity. Qed.
