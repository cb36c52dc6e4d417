(** C87: the equipments that a bus lists. *)
From stdpp Require Import gmap pretty sorting.
From Verif Require Import Base Graph GraphSpec GraphProofs Equip NodeTopo NodeTopoSpec NodeTopoInv NodeTopoProps BusTopo BusTopoSpec BusTopoProofs
  BusTopoInv BusTopoView BusTopoProps BusValuesSpec TopoExport TopoExportProps Visit VisitSpec VisitProofs VisitProps BusLists BusListsSpec BusListsProofs.

(** A configured bus: the equipments connected to it.  The network does not change. *)
Theorem C87_configured : forall cs g st v b, bb_reach bb_safe st -> working st v -> is_bus (e_sh st) b ->
  exists l, configured_list cs g b st = (Ok l, st) /\ lists_each cs g (fun t => hangs (e_sh st) v b t /\ connected v t) l.
Proof.
  intros cs g st v b I%reach_binv W Hb. destruct (configured_bus (A:=unit) ∅ (fun a _ => Ok a) tt st v I W b Hb) as (u & l & E1 & E2 & ND & K & Hl).
  pose proof W as (i & Hc & Hi). destruct (filter_ok (A:=unit) ∅ (fun a _ => Ok a) tt st v I W l K ND) as (lc & E3 & ND' & Hlc). eexists. split.
  - unfold configured_list. rewrite (abind_Ok _ _ _ _ _ E1), (abind_Ok _ _ _ _ _ E2), (abind_Ok _ _ _ _ _ (aget_eq _ _ _ Hc Hi)).
    unfold abind, alift. rewrite E3. reflexivity.
  - apply all_lists; [done|]. intros t. by rewrite Hlc, Hl.
Qed.
(** A merged bus: the equipments connected to the configured buses linked by closed switches. *)
Theorem C87_merged_partial : forall cs g st v b k st1,
  bb_reach bb_safe st -> working st v -> well_numbered st -> is_bus (e_sh st) b -> bb_merged b st = (Ok (Some k), st1) ->
  exists l, merged_list cs g k st1 = (Ok l, st1) /\
    lists_each cs g (fun t => exists b', same_bus (e_sh st) v b b' /\ hangs (e_sh st) v b' t /\ connected v t) l.
Proof.
  intros cs g st v b k st1 H W WN Hb E1. destruct (C33_terminals_partial st v b k st1 H W WN Hb E1) as (l & El & ND & Hl).
  eexists. split; [|by apply all_lists]. unfold merged_list, amap. rewrite (abind_Ok _ _ _ _ _ El). reflexivity.
Qed.
(** A calculated bus of a node-breaker level: the equipments of its nodes. *)
Theorem C87_calculated_partial : forall cs g vw st i v n,
  nb_reach fresh_safe st -> e_cur st = Some i -> e_vars st !! i = Some v -> one_node (nbg st) -> in_bus vw (nbg st) (nv_sw v) n ->
  exists k b st', bus_name vw (nbg st) (nv_sw v) (nb_id (e_sh st)) n k /\ nb_bus_of_id vw k st = (Ok (Some b), st') /\
    lists_each cs g (fun t => exists m, same_node vw (nbg st) (nv_sw v) n m /\ term_at (nbg st) m t) (calculated_list cs g b).
Proof.
  intros cs g vw st i v n H Hc Hi ON Hn. destruct (C30_buses vw st i v H Hc Hi) as (m & st' & E & H1 & H2).
  destruct (H2 n Hn) as (k & b & Hk & B). exists k, b, st'. destruct (H1 k b Hk) as [Ek _].
  split; [destruct B as [B _]; by rewrite Ek in B|]. split.
  { unfold nb_buses, abind, aret in E. unfold nb_bus_of_id, abind, aret. destruct (nb_cache vw st) as [[c|?| |] s]; try done.
    injection E as <- <-. by rewrite Hk. }
  apply all_lists; [|intros t; by eapply C30_terminals].
  destruct B as (_ & nodes & ND & _ & ->). apply NoDup_omap_at; [|done]. intros x y t Hx Hy. apply (ON x y t); unfold term_at;
    [destruct (s_vertices (nbg st) !! x) as [[?|]|]|destruct (s_vertices (nbg st) !! y) as [[?|]|]]; cbn in *; congruence.
Qed.

(** What a list says: an equipment is in it if and only if it is of the class asked for and has a terminal on the bus... *)
Theorem C87_listed : forall cs g P l id, lists_each cs g P l -> id ∈ l <-> wanted cs g id /\ exists t, P t /\ nt_id t = id.
Proof. intros. by apply lists_in. Qed.
(** ...once, if no equipment of that class has two terminals there, as for the injections... *)
Theorem C87_once : forall cs g (P : nterm -> Prop) l,
  (forall t t', P t -> P t' -> nt_id t = nt_id t' -> wanted cs g (nt_id t) -> t = t') -> lists_each cs g P l -> NoDup l.
Proof. intros cs g P l. apply lists_once. Qed.
(** ...and an equipment with a terminal on the bus is in the lists of one getter only, unless it is a busbar section, which is in none. *)
Theorem C87_getters : forall cs (P : nterm -> Prop) (ls : getter -> list string) t c,
  (forall g, lists_each cs g P (ls g)) -> P t -> cs !! nt_id t = Some c ->
  (c <> BusbarSection -> exists g, nt_id t ∈ ls g /\ forall g', nt_id t ∈ ls g' -> g' = g) /\
  (c = BusbarSection -> forall g, nt_id t ∉ ls g).
Proof.
  intros cs P ls t c H HP Hc. split.
  - intros [g [Hg Hu]]%getter_of. exists g. split.
    + apply (lists_in _ _ _ _ _ (H g)). split; [by exists c|eauto].
    + intros g' [(c' & E & N) _]%(lists_in _ _ _ _ _ (H g')). rewrite Hc in E. injection E as <-. by apply Hu.
  - intros -> g [(c' & E & N) _]%(lists_in _ _ _ _ _ (H g)). rewrite Hc in E. injection E as <-. inversion N.
Qed.

(** *** Concrete networks *)
(** "A" carries both ends of the line "L", the load "D" and the tie line "X"; the load "E" hangs disconnected. *)
Definition cs87 : gmap string eclass := {["L" := Line; "X" := TieLine; "D" := Load; "E" := Load]}.
Definition bb87 : bbst := bb_run bb0
  [ECall (BAddBus "A"); ECall (BAddBus "B"); ECall (BNewTerminal (mkNT "L" 0 LINE) "A" true); ECall (BNewTerminal (mkNT "L" 1 LINE) "A" true);
   ECall (BNewTerminal (bload "D") "A" true); ECall (BNewTerminal (mkNT "X" 0 LINE) "A" true); ECall (BNewTerminal (bload "E") "A" false)].
Lemma bb87_safe : bb_reach bb_safe bb87.
Proof. apply bb_run_reach; [|apply bb0_reach]. do 7 (split; [exact I|]). exact I. Qed.
(** A line whose ends are both on the bus is listed twice: a caller that sums over getLines() counts it twice. *)
Theorem C87_twice_refuted : exists cs st v b l, bb_reach bb_safe st /\ working st v /\ is_bus (e_sh st) b /\
  configured_list cs GetLines b st = (Ok l, st) /\ ~ NoDup l.
Proof.
  assert (exists v, working bb87 v) as [v W] by (eexists; exists initial_variant; split; [reflexivity|vm_compute; reflexivity]).
  assert (is_bus (e_sh bb87) "A") as Hb by (exists 0; vm_compute; reflexivity).
  assert ((configured_list cs87 GetLines "A" bb87).1 = Ok ["L"; "L"; "X"]%string) as E by (vm_compute; reflexivity).
  destruct (C87_configured cs87 GetLines bb87 v "A" bb87_safe W Hb) as (l & El & _). rewrite El in E. injection E as ->.
  exists cs87, bb87, v, "A"%string. eexists. split; [apply bb87_safe|]. split; [done|]. split; [done|]. split; [exact El|].
  rewrite NoDup_ListNoDup. inversion 1 as [|? ? Hn]. apply Hn. by left.
Qed.
Example C87_case : exists v, working bb87 v /\ is_bus (e_sh bb87) "A" /\
  (configured_list cs87 GetLines "A" bb87).1 = Ok ["L"; "L"; "X"]%string /\ (configured_list cs87 GetLoads "A" bb87).1 = Ok ["D"%string] /\
  (configured_list cs87 GetLoads "B" bb87).1 = Ok [].
Proof. eexists. split; [exists initial_variant; split; [reflexivity|vm_compute; reflexivity]|]. split; [exists 0; vm_compute; reflexivity|]. repeat split; vm_compute; reflexivity. Qed.
Print Assumptions C87_configured.
Print Assumptions C87_merged_partial.
Print Assumptions C87_calculated_partial.
Print Assumptions C87_listed.
Print Assumptions C87_once.
Print Assumptions C87_getters.
Print Assumptions C87_twice_refuted.
