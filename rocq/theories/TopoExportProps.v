(** C60: a voltage level exported at a coarser topology level, and what an import reads of it. *)
From Coq Require Import Ascii.
From stdpp Require Import gmap pretty.
From Verif Require Import Base Graph GraphSpec Equip NodeTopo NodeTopoSpec NodeTopoProofs NodeTopoInv NodeTopoConn NodeTopoProps
  BusTopo BusTopoSpec BusTopoInv BusTopoView BusTopoProps BusValuesSpec BusValuesProofs TopoExport TopoExportSpec TopoImportProofs TopoExportProofs.

(** A node-breaker level exported at the bus-breaker or bus-branch level is imported without exception, and the level read is a copy:
    same buses, same switches, same links, terminals connected to the same buses.  Histories as for C31.  The ids must be new, and a level
    that holds equipments must hold a bus. *)
Theorem C60_copy_partial : forall vw st i v ts ids,
  nb_reach fresh_safe st -> e_cur st = Some i -> e_vars st !! i = Some v -> one_node (nbg st) -> equipments (nbg st) ts ->
  new_ids vw (nb_id (e_sh st)) (nbg st) (nv_sw v) ids -> (ts = [] \/ exists n, in_bus vw (nbg st) (nv_sw v) n) ->
  exists x st1 st2 v2, nb_export vw ts st = (Ok x, st1) /\ nbg st1 = nbg st /\ (forall id, pos st1 id = pos st id) /\
    bb_import x (bb_blank (nb_id (e_sh st)) ids) = (Ok tt, st2) /\ bb_reach bb_safe st2 /\ well_numbered st2 /\ working st2 v2 /\
    copied vw (nb_id (e_sh st)) (nbg st) (nv_sw v) (e_sh st2) v2.
Proof.
  intros vw st i v ts ids HR Hc Hi ON EQ NI HB. apply reach_fresh in HR.
  destruct (export_q st i v HR Hc Hi vw ts) as (x & st1 & E & [_ S] & F).
  { intros n t H. apply EQ in H as [H _]. unfold term_at in H. rewrite H. eauto. }
  assert (doc_ok ids x) as D by by eapply doc_of_file.
  destruct (import_ok (nb_id (e_sh st)) ids x D) as (st2 & v2 & E2 & B).
  exists x, st1, st2, v2. split; [done|]. split; [by apply sbc_graph|]. split; [intros id; by apply sbc_pos|]. split; [done|].
  split; [apply B|]. split; [by eapply built_numbered|]. split; [exists initial_variant; split; [apply B|by eapply built_lookup]|].
  by eapply copy_ok.
Qed.
Print Assumptions C60_copy_partial.

(** getConnectableBus of a node. *)
Theorem C60_connectable_partial : forall vw st i v n,
  nb_reach fresh_safe st -> e_cur st = Some i -> e_vars st !! i = Some v -> is_Some (s_vertices (nbg st) !! n) ->
  exists oc st', nb_connectable vw n st = (Ok oc, st') /\ nbg st' = nbg st /\ (forall id, pos st' id = pos st id) /\
    connectable_of vw (nb_id (e_sh st)) (nbg st) (nv_sw v) n (cb_id <$> oc).
Proof.
  intros vw st i v n HR Hc Hi Hn. apply reach_fresh in HR.
  destruct (conn_q st i v HR Hc Hi vw n st (quiet_refl st HR) Hn) as (oc & st' & E & [_ S] & H).
  exists oc, st'. split; [done|]. split; [by apply sbc_graph|]. split; [intros id; by apply sbc_pos|]. done.
Qed.
Print Assumptions C60_connectable_partial.

(** The buses of the bus view of the level read: a terminal that had a bus in the view exported has one exactly when its electrical node
    holds a branch terminal, and two terminals have the same bus exactly when their nodes were the same electrical node. *)
Theorem C60_bus_view_partial : forall vw st i v ts ids x st1 st2,
  nb_reach fresh_safe st -> e_cur st = Some i -> e_vars st !! i = Some v -> one_node (nbg st) -> equipments (nbg st) ts ->
  new_ids vw (nb_id (e_sh st)) (nbg st) (nv_sw v) ids ->
  nb_export vw ts st = (Ok x, st1) -> bb_import x (bb_blank (nb_id (e_sh st)) ids) = (Ok tt, st2) ->
  forall n t, term_at (nbg st) n t -> is_feeder t -> in_bus vw (nbg st) (nv_sw v) n ->
  exists ok st3, bb_terminal_bus t st2 = (Ok ok, st3) /\
    (is_Some ok <-> exists n' t', same_node BusView (nbg st) (nv_sw v) n n' /\ term_at (nbg st) n' t' /\ NodeTopoSpec.is_branch t') /\
    forall n' t', term_at (nbg st) n' t' -> is_feeder t' -> in_bus vw (nbg st) (nv_sw v) n' ->
      exists ok' st4, bb_terminal_bus t' st3 = (Ok ok', st4) /\
        (is_Some ok -> ok = ok' <-> same_node BusView (nbg st) (nv_sw v) n n').
Proof.
  intros vw st i v ts ids x st1 st2 HR Hc Hi ON EQ NI EX EI n t Ht Hf Hn.
  destruct (C60_copy_partial vw st i v ts ids HR Hc Hi ON EQ NI ltac:(eauto)) as (x' & st1' & st2' & v2 & EX' & _ & _ & EI' & R2 & WN & W & CP).
  rewrite EX in EX'. injection EX' as <- <-. rewrite EI in EI'. injection EI' as <-. apply reach_fresh in HR. pose proof (reach_binv _ R2) as I2.
  set (g := nbg st) in *. set (sw := nv_sw v) in *. set (vl := nb_id (e_sh st)) in *.
  assert (forall n' t', term_at g n' t' -> is_feeder t' -> in_bus vw g sw n' -> exists k, named vw vl g sw n' k /\ is_bus (e_sh st2) k /\ bv_conn v2 !! t' = Some (true, k)) as HT.
  { intros n' t' Ht' Hf' Hn'. destruct (named_ex st i v HR Hc Hi vw n' Hn') as [k Hk]. destruct (cp_on _ _ _ _ _ _ CP n' t' k Ht' Hf' Hk) as [Hb _].
    exists k. split; [done|]. split; [apply CP; eauto|]. done. }
  destruct (HT n t Ht Hf Hn) as (k & Hk & Bk & Ck). pose proof W as (j & Hj & Hv2).
  destruct (merged_cached st2 v2 k I2 WN W Bk) as (c & st3 & u & E & C & L). pose proof C as (I3 & SB & CG & _).
  exists (mc_map c !! u), st3. split; [|split].
  - unfold bb_terminal_bus. rewrite (abind_Ok _ _ _ _ _ (bt_get_eq _ _ _ _ _ Hj Hv2 Ck)). done.
  - rewrite (good_valid _ _ _ _ _ (bi_sh _ I2) CG L). split.
    + intros (b' & t' & HS & Hh & Hcn & Hbr). destruct (cp_only _ _ _ _ _ _ CP b' t' Hh) as (Hf' & n' & Ht').
      destruct (in_bus_dec st i v HR Hc Hi vw n') as [Hn'|Hn'].
      * destruct (HT n' t' Ht' Hf' Hn') as (k' & Hk' & _ & Ck'). destruct (cp_on _ _ _ _ _ _ CP n' t' k' Ht' Hf' Hk') as [_ Hx]. apply Hx in Hh as ->.
        exists n', t'. split; [by eapply (cp_same _ _ _ _ _ _ CP)|]. split; [done|]. unfold NodeTopoSpec.is_branch. destruct Hbr as [->|[->|[->|[->| ->]]]]; set_solver.
      * destruct (cp_off _ _ _ _ _ _ CP n' t' Ht' Hf' Hn') as (k' & _ & Ck' & _). destruct Hcn as [k'' Hcn]. congruence.
    + intros (n' & t' & HS & Ht' & Hbr). assert (in_bus vw g sw n') as Hn'.
      { destruct Hn as [Hn1 Hn2]. split; [by eapply same_node_on_edge|]. destruct vw; [|done]. by eapply valid_same. }
      assert (is_feeder t') as Hf'. { unfold is_feeder, NodeTopoSpec.is_branch in *. intros Ex. rewrite Ex in Hbr. by apply elem_of_list_In in Hbr as [|[|[|[|[|[]]]]]]. }
      destruct (HT n' t' Ht' Hf' Hn') as (k' & Hk' & _ & Ck'). exists k', t'. split; [by apply (cp_same _ _ _ _ _ _ CP n n')|].
      split; [by apply (cp_on _ _ _ _ _ _ CP n' t' k')|]. split; [by exists k'|]. unfold NodeTopoSpec.is_branch in Hbr. unfold BusTopoSpec.is_branch.
      rewrite !elem_of_cons, elem_of_nil in Hbr. tauto.
  - intros n' t' Ht' Hf' Hn'. destruct (HT n' t' Ht' Hf' Hn') as (k' & Hk' & Bk' & Ck').
    destruct (merged_again st2 v2 c st3 k' C Bk') as (u' & E' & L'). exists (mc_map c !! u'), st3. split.
    + unfold bb_terminal_bus. assert (bt_get t' st3 = (Ok (true, k'), st3)) as Eg.
      { destruct C as (_ & _ & _ & j' & Hj' & Hv' & Hv3). assert (j' = j) as -> by congruence.
        apply (bt_get_eq st3 j (bv_set_cache (Some c) v2)); [|done|done]. by rewrite (sbm_cur _ _ SB). }
      rewrite (abind_Ok _ _ _ _ _ Eg). done.
    + intros [m Hm]. rewrite <- (cp_same _ _ _ _ _ _ CP n n' k k' Hk Hk'). split.
      * intros Em. rewrite Hm in Em. by apply (good_same _ _ _ _ _ _ _ _ _ (bi_sh _ I2) CG L Hm L' (eq_sym Em)).
      * intros HS. assert (is_Some (mc_map c !! u')) as [m' Hm'].
        { apply (good_valid _ _ _ _ _ (bi_sh _ I2) CG L'). assert (is_Some (mc_map c !! u)) as HV by eauto. apply (good_valid _ _ _ _ _ (bi_sh _ I2) CG L) in HV as (b & tt' & HV & R).
          exists b, tt'. split; [|done]. trans k; [|done]. revert HS. apply rtc_sym. intros a b0 HJ. unfold joined in *. destruct HJ as (s0 & e & x1 & x2 & u1 & u2 & HJ & R'). exists s0, e, x2, x1, u2, u1. split; [|tauto]. unfold sjoins in *. tauto. }
        rewrite Hm, Hm'. f_equal. by apply (good_same _ _ _ _ _ _ _ _ _ (bi_sh _ I2) CG L Hm L' Hm').
Qed.
Print Assumptions C60_bus_view_partial.

(** A bus-breaker level exported at the bus-branch level.  Every terminal must be on a bus of the bus view. *)
Theorem C60_merged_partial : forall st v ts ids,
  bb_reach bb_safe st -> working st v -> well_numbered st -> NoDup ts -> (forall t, t ∈ ts <-> exists b, hangs (e_sh st) v b t) ->
  (forall b t, hangs (e_sh st) v b t -> (exists c, bv_conn v !! t = Some (c, b)) /\ in_bus_view (e_sh st) v b) ->
  (forall j, bb_id (e_sh st) +:+ "_" +:+ pretty (N.of_nat j) ∉ ids) ->
  exists x st1 st2 v2, bb_export ts st = (Ok x, st1) /\ same_but_merged st st1 /\
    bb_import x (bb_blank (bb_id (e_sh st)) ids) = (Ok tt, st2) /\ bb_reach bb_safe st2 /\ well_numbered st2 /\ working st2 v2 /\
    merged_copy (e_sh st) v (e_sh st2) v2.
Proof. exact bb_copy_ok. Qed.
Print Assumptions C60_merged_partial.

(** *** Concrete levels *)
(** A busbar section (node 0), a line (1) behind a closed retained breaker, a load (2) behind a closed disconnector, another one (3) behind
    an open breaker, a load (5) that nothing joins. *)
Definition ops60 : list (eop nbop) :=
  [ECall (NAttach 0 (sec "S")); ECall (NAttach 1 (line "L")); ECall (NAttach 2 (load "D")); ECall (NAttach 3 (load "G")); ECall (NAttach 5 (load "I"));
   ECall (NAddSwitch "B1" BREAKER (false, true) 0 1); ECall (NAddSwitch "B2" DISCONNECTOR (false, false) 0 2);
   ECall (NAddSwitch "B3" BREAKER (true, false) 2 3)].
Definition nb60 : nbst := nb_run nb0 ops60.
Definition ts60 : list (nat * nterm) := [(1, line "L"); (2, load "D"); (3, load "G"); (5, load "I")].
Ltac fresh_ops := apply fresh_run; [apply nb_new_reach|];
  repeat (split; [first [left; vm_compute; by eauto | apply no_caches_dec; vm_compute; reflexivity]|]); exact I.
Lemma nb60_reach : nb_reach fresh_safe nb60.
Proof. fresh_ops. Qed.
Lemma one_node_dec st : bool_decide (map_Forall (fun n o => map_Forall (fun n' o' => o = o' -> o = None \/ n = n') (s_vertices (nbg st))) (s_vertices (nbg st))) = true -> one_node (nbg st).
Proof.
  intros HF%bool_decide_eq_true n n' t Hn Hn'. destruct (HF n _ Hn n' _ Hn' eq_refl) as [Hx|Hx]; [discriminate Hx|exact Hx].
Qed.
Definition listed (ts : list (nat * nterm)) (n : nat) (o : option nterm) : Prop :=
  match o with Some t => is_feeder t -> (n, t) ∈ ts | None => True end.
#[global] Instance listed_dec ts n o : Decision (listed ts n o).
Proof. unfold listed, is_feeder. destruct o; apply _. Defined.
Lemma equipments_dec st ts : bool_decide (NoDup ts /\ map_Forall (listed ts) (s_vertices (nbg st)) /\
  Forall (fun x => s_vertices (nbg st) !! x.1 = Some (Some x.2) /\ nt_type x.2 <> BUSBAR_SECTION) ts) = true -> equipments (nbg st) ts.
Proof.
  intros (H1 & H2 & H3)%bool_decide_eq_true. split; [done|]. intros n t. split.
  - intros H. rewrite Forall_forall in H3. exact (H3 _ H).
  - intros [Ht Hf]. exact (H2 n _ Ht Hf).
Qed.
(** No switch is named like a bus of VL. *)
Lemma new_ids_dec vw st v ids : nb_id (e_sh st) = "VL" ->
  bool_decide (map_Forall (fun id (_ : bool * bool) => id <> "" /\ id ∉ ids /\ String.get 2 id <> Some "_"%char) (nv_sw v)) = true ->
  bool_decide (set_Forall (fun k : string => String.get 2 k <> Some "_"%char) ids) = true ->
  new_ids vw (nb_id (e_sh st)) (nbg st) (nv_sw v) ids.
Proof.
  intros E HS%bool_decide_eq_true HI%bool_decide_eq_true. rewrite E.
  assert (forall n k, named vw "VL" (nbg st) (nv_sw v) n k -> String.get 2 k = Some "_"%char) as HN by by intros n k (_ & m & _ & ->).
  split.
  - intros n k Hk Hin. by apply (HI k Hin), (HN n).
  - intros id o [_ Hs]. destruct (HS id _ Hs) as (H1 & H2 & H3). split; [done|]. split; [done|]. intros n Hn. by apply H3, (HN n).
Qed.
(** A node with a bus, computed. *)
Lemma has_bus_dec vw n st i v : nb_reach fresh_safe st -> e_cur st = Some i -> e_vars st !! i = Some v -> is_Some (s_vertices (nbg st) !! n) ->
  match (nb_bus_of_node vw n st).1 with Ok (Some _) => true | _ => false end = true -> in_bus vw (nbg st) (nv_sw v) n.
Proof.
  intros HR Hc Hv Hl HB. apply reach_fresh in HR. destruct (bus_q st i v HR Hc Hv vw n st (quiet_refl _ HR) Hl) as (ob & st' & E & _ & H).
  rewrite E in HB. cbn [fst] in HB. destruct ob as [b|]; [|done]. apply H.
Qed.
Lemma case60 : exists v, e_vars nb60 !! initial_variant = Some v /\ nv_sw v = list_to_map [("B1", (false, true)); ("B2", (false, false)); ("B3", (true, false))].
Proof.
  assert (bool_decide ((nv_sw <$> e_vars nb60 !! initial_variant) = Some (list_to_map [("B1", (false, true)); ("B2", (false, false)); ("B3", (true, false))])) = true) as HV
    by (vm_compute; reflexivity).
  apply bool_decide_eq_true in HV. apply fmap_Some in HV as (v & H1 & H2). exists v. exact (conj H1 (eq_sym H2)).
Qed.
Lemma ids60 vw v : nv_sw v = list_to_map [("B1", (false, true)); ("B2", (false, false)); ("B3", (true, false))] ->
  new_ids vw (nb_id (e_sh nb60)) (nbg nb60) (nv_sw v) {["VL"]}.
Proof. intros HV. apply new_ids_dec; [reflexivity|rewrite HV; vm_compute; reflexivity|vm_compute; reflexivity]. Qed.
Lemma bus60 vw : match (nb_bus_of_node vw 0 nb60).1 with Ok (Some _) => true | _ => false end = true.
Proof. destruct vw; vm_compute; reflexivity. Qed.
Lemma live60 : is_Some (s_vertices (nbg nb60) !! 0).
Proof. vm_compute. eauto. Qed.
Lemma cur60 : e_cur nb60 = Some initial_variant.
Proof. vm_compute. reflexivity. Qed.
Example C60_case : nb_reach fresh_safe nb60 /\ one_node (nbg nb60) /\ equipments (nbg nb60) ts60 /\
  (exists v, e_cur nb60 = Some initial_variant /\ e_vars nb60 !! initial_variant = Some v /\
     forall vw, new_ids vw (nb_id (e_sh nb60)) (nbg nb60) (nv_sw v) {["VL"]} /\ exists n, in_bus vw (nbg nb60) (nv_sw v) n) /\
  (nb_export BusBreakerView ts60 nb60).1 = Ok (mkXL ["VL_0"; "VL_1"; "VL_3"] [("B1", false, "VL_0", "VL_1")]
     [(line "L", Some "VL_1", Some "VL_1"); (load "D", Some "VL_0", Some "VL_0"); (load "G", Some "VL_3", Some "VL_3"); (load "I", None, Some "VL_0")]) /\
  (nb_export BusView ts60 nb60).1 = Ok (mkXL ["VL_0"] []
     [(line "L", Some "VL_0", Some "VL_0"); (load "D", Some "VL_0", Some "VL_0"); (load "G", None, Some "VL_0"); (load "I", None, Some "VL_0")]).
Proof.
  split; [apply nb60_reach|]. split; [apply one_node_dec; vm_compute; reflexivity|]. split; [apply equipments_dec; vm_compute; reflexivity|]. split.
  - destruct case60 as (v & Ev & HV). exists v. split; [exact cur60|]. split; [exact Ev|]. intros vw. split; [exact (ids60 vw v HV)|].
    exists 0. exact (has_bus_dec vw 0 nb60 _ v nb60_reach cur60 Ev live60 (bus60 vw)).
  - split; vm_compute; reflexivity.
Qed.

(** The condition on the ids: a retained switch named like a bus, and the file is refused. *)
Definition nb60i : nbst := nb_run nb0 [ECall (NAttach 0 (sec "S")); ECall (NAttach 1 (line "L")); ECall (NAddSwitch "VL_0" BREAKER (false, true) 0 1)].
Definition ts60i : list (nat * nterm) := [(1, line "L")].
Definition imported (vw : view) (ts : list (nat * nterm)) (st : nbst) : result unit :=
  match (nb_export vw ts st).1 with Ok x => (bb_import x (bb_blank "VL" {["VL"]})).1 | _ => UB end.
Lemma imported_throw vw ts st : match imported vw ts st with Throw _ => true | _ => false end = true ->
  exists x st1 m, nb_export vw ts st = (Ok x, st1) /\ (bb_import x (bb_blank "VL" {["VL"]})).1 = Throw m.
Proof.
  unfold imported. destruct (nb_export vw ts st) as [[x| | |] st1]; cbn [fst]; try discriminate.
  destruct (bb_import x (bb_blank "VL" {["VL"]})).1 as [|m| |] eqn:E; try discriminate. intros _. by exists x, st1, m.
Qed.
Theorem C60_ids_refuted : exists st ts x st1 m, nb_reach fresh_safe st /\ one_node (nbg st) /\ equipments (nbg st) ts /\ nb_id (e_sh st) = "VL" /\
  nb_export BusBreakerView ts st = (Ok x, st1) /\ (bb_import x (bb_blank "VL" {["VL"]})).1 = Throw m.
Proof.
  destruct (imported_throw BusBreakerView ts60i nb60i) as (x & st1 & m & E1 & E2); [vm_compute; reflexivity|].
  exists nb60i, ts60i, x, st1, m. split; [fresh_ops|]. split; [apply one_node_dec; vm_compute; reflexivity|]. split; [apply equipments_dec; vm_compute; reflexivity|].
  split; [reflexivity|]. exact (conj E1 E2).
Qed.
Print Assumptions C60_ids_refuted.

(** The condition on the buses: a load that nothing joins, no bus, and the file is refused. *)
Definition nb60n : nbst := nb_run nb0 [ECall (NAttach 0 (load "D"))].
Definition ts60n : list (nat * nterm) := [(0, load "D")].
Lemma case60n : exists v, e_vars nb60n !! initial_variant = Some v /\ nv_sw v = ∅.
Proof.
  assert (bool_decide ((nv_sw <$> e_vars nb60n !! initial_variant) = Some ∅) = true) as HV by (vm_compute; reflexivity).
  apply bool_decide_eq_true in HV. apply fmap_Some in HV as (v & H1 & H2). exists v. exact (conj H1 (eq_sym H2)).
Qed.
Lemma ids60n v : nv_sw v = ∅ -> new_ids BusView (nb_id (e_sh nb60n)) (nbg nb60n) (nv_sw v) {["VL"]}.
Proof. intros HV. apply new_ids_dec; [reflexivity|rewrite HV; vm_compute; reflexivity|vm_compute; reflexivity]. Qed.
Theorem C60_no_bus_refuted : exists vw st ts x st1 m, nb_reach fresh_safe st /\ one_node (nbg st) /\ equipments (nbg st) ts /\
  (exists v, e_vars st !! initial_variant = Some v /\ new_ids vw (nb_id (e_sh st)) (nbg st) (nv_sw v) {["VL"]}) /\ nb_id (e_sh st) = "VL" /\
  nb_export vw ts st = (Ok x, st1) /\ (bb_import x (bb_blank "VL" {["VL"]})).1 = Throw m.
Proof.
  destruct (imported_throw BusView ts60n nb60n) as (x & st1 & m & E1 & E2); [vm_compute; reflexivity|].
  exists BusView, nb60n, ts60n, x, st1, m. split; [fresh_ops|]. split; [apply one_node_dec; vm_compute; reflexivity|]. split; [apply equipments_dec; vm_compute; reflexivity|].
  split.
  { destruct case60n as (v & Ev & HV). exists v. split; [exact Ev|]. exact (ids60n v HV). }
  split; [reflexivity|]. exact (conj E1 E2).
Qed.
Print Assumptions C60_no_bus_refuted.

(** The bus view itself is not kept: a busbar section and a load are a bus of the node-breaker level and no bus of the level read, for
    both levels of export. *)
Definition nb60v : nbst := nb_run nb0 [ECall (NAttach 0 (sec "S")); ECall (NAttach 1 (load "D")); ECall (NAddSwitch "B" BREAKER (false, false) 0 1)].
Definition ts60v : list (nat * nterm) := [(1, load "D")].
Definition bus_after (vw : view) (ts : list (nat * nterm)) (st : nbst) (t : nterm) : result (option string) :=
  match (nb_export vw ts st).1 with Ok x => match bb_import x (bb_blank "VL" {["VL"]}) with (Ok _, st2) => (bb_terminal_bus t st2).1 | _ => UB end | _ => UB end.
Lemma bus_after_ok vw ts st t o : bus_after vw ts st t = Ok o ->
  exists x st1 st2, nb_export vw ts st = (Ok x, st1) /\ bb_import x (bb_blank "VL" {["VL"]}) = (Ok tt, st2) /\ (bb_terminal_bus t st2).1 = Ok o.
Proof.
  unfold bus_after. destruct (nb_export vw ts st) as [[x| | |] st1]; cbn [fst]; try discriminate.
  destruct (bb_import x (bb_blank "VL" {["VL"]})) as [[[]| | |] st2] eqn:E; try discriminate. intros H. by exists x, st1, st2.
Qed.
Theorem C60_bus_lost_refuted : forall vw, exists st ts n t b x st1 st2, nb_reach fresh_safe st /\ one_node (nbg st) /\ equipments (nbg st) ts /\ term_at (nbg st) n t /\ is_feeder t /\
  nb_id (e_sh st) = "VL" /\ (nb_bus_of_node BusView n st).1 = Ok (Some b) /\
  nb_export vw ts st = (Ok x, st1) /\ bb_import x (bb_blank "VL" {["VL"]}) = (Ok tt, st2) /\ (bb_terminal_bus t st2).1 = Ok None.
Proof.
  intros vw. destruct (bus_after_ok vw ts60v nb60v (load "D") None) as (x & st1 & st2 & E1 & E2 & E3); [destruct vw; vm_compute; reflexivity|].
  exists nb60v, ts60v, 1, (load "D"), (mkCB "VL_0" [sec "S"; load "D"]), x, st1, st2. split; [fresh_ops|]. split; [apply one_node_dec; vm_compute; reflexivity|].
  split; [apply equipments_dec; vm_compute; reflexivity|]. split; [vm_compute; reflexivity|]. split; [discriminate|]. split; [reflexivity|]. split; [vm_compute; reflexivity|]. exact (conj E1 (conj E2 E3)).
Qed.
Print Assumptions C60_bus_lost_refuted.
(** A line alone on its electrical node has no bus in the node-breaker level and one in the level read at the bus-breaker level. *)
Definition nb60l : nbst := nb_run nb0 [ECall (NAttach 1 (line "L")); ECall (NAddSwitch "B" BREAKER (false, false) 0 1)].
Definition ts60l : list (nat * nterm) := [(1, line "L")].
Theorem C60_bus_gained_refuted : exists st ts n t k x st1 st2, nb_reach fresh_safe st /\ one_node (nbg st) /\ equipments (nbg st) ts /\ term_at (nbg st) n t /\ is_feeder t /\
  nb_id (e_sh st) = "VL" /\ (nb_bus_of_node BusView n st).1 = Ok None /\
  nb_export BusBreakerView ts st = (Ok x, st1) /\ bb_import x (bb_blank "VL" {["VL"]}) = (Ok tt, st2) /\ (bb_terminal_bus t st2).1 = Ok (Some k).
Proof.
  destruct (bus_after_ok BusBreakerView ts60l nb60l (line "L") (Some "VL_0")) as (x & st1 & st2 & E1 & E2 & E3); [vm_compute; reflexivity|].
  exists nb60l, ts60l, 1, (line "L"), "VL_0", x, st1, st2. split; [fresh_ops|]. split; [apply one_node_dec; vm_compute; reflexivity|].
  split; [apply equipments_dec; vm_compute; reflexivity|]. split; [vm_compute; reflexivity|]. split; [discriminate|]. split; [reflexivity|]. split; [vm_compute; reflexivity|]. exact (conj E1 (conj E2 E3)).
Qed.
Print Assumptions C60_bus_gained_refuted.

(** C60_merged_partial: bus B joins the line of A; the load of B is kept on the merged bus. *)
Definition bb60 : bbst := bb_run bb0
  [ECall (BAddBus "A"); ECall (BAddBus "B"); ECall (BNewTerminal (bline "L") "A" true); ECall (BNewTerminal (bload "D") "B" true);
   ECall (BNewTerminal (bload "E") "B" false); ECall (BAddSwitch "S1" false "A" "B")].
Lemma bb60_safe : bb_reach bb_safe bb60.
Proof. apply bb_run_reach; [|apply bb0_reach]. do 5 (split; [exact I|]). split; [apply no_merged_test; vm_compute; reflexivity|]. exact I. Qed.
Lemma bb60_numbered : well_numbered bb60.
Proof. apply numbered_run; [apply reach_binv, bb60_safe|]. vm_compute. reflexivity. Qed.
Lemma bb60_bus b : b = "A" \/ b = "B" -> is_bus (e_sh bb60) b /\ (bb_merged b bb60).1 = Ok (Some "VL_0").
Proof. intros [->| ->]; (split; [|vm_compute; reflexivity]); [exists 0|exists 1]; vm_compute; reflexivity. Qed.
Lemma bb60_var : exists v, working bb60 v /\ bv_terms v = {[0 := [bline "L"]; 1 := [bload "D"; bload "E"]]} /\
  bv_conn v = {[bline "L" := (true, "A"); bload "D" := (true, "B"); bload "E" := (false, "B")]}.
Proof.
  assert (bool_decide (((fun v => (bv_terms v, bv_conn v)) <$> e_vars bb60 !! initial_variant) =
    Some ({[0 := [bline "L"]; 1 := [bload "D"; bload "E"]]}, {[bline "L" := (true, "A"); bload "D" := (true, "B"); bload "E" := (false, "B")]})) = true) as HV by (vm_compute; reflexivity).
  apply bool_decide_eq_true in HV. apply fmap_Some in HV as (v & H1 & H2). injection H2 as H2 H3. exists v.
  exact (conj (ex_intro _ initial_variant (conj eq_refl H1)) (conj (eq_sym H2) (eq_sym H3))).
Qed.
Lemma bb60_live : bb_live (e_sh bb60) = {[0 := "A"; 1 := "B"]}.
Proof. apply (bool_decide_unpack _). vm_compute. exact I. Qed.
Lemma bb60_hangs s v : bb_live s = {[0 := "A"; 1 := "B"]} -> bv_terms v = {[0 := [bline "L"]; 1 := [bload "D"; bload "E"]]} ->
  forall b t, hangs s v b t <-> b = "A" /\ t = bline "L" \/ b = "B" /\ (t = bload "D" \/ t = bload "E").
Proof.
  intros HL HT b t. unfold hangs. rewrite HL, HT. split.
  - intros (u & l & Hu & Hl & Ht). destruct (decide (u = 0)) as [->|Hu0]; [|destruct (decide (u = 1)) as [->|Hu1]].
    + rewrite lookup_insert in Hu. rewrite lookup_insert in Hl. injection Hu as <-. injection Hl as <-. rewrite elem_of_list_singleton in Ht. by left.
    + rewrite lookup_insert_ne, lookup_singleton in Hu by lia. rewrite lookup_insert_ne, lookup_singleton in Hl by lia. injection Hu as <-. injection Hl as <-.
      rewrite !elem_of_cons, elem_of_nil in Ht. right. split; [done|]. tauto.
    + rewrite lookup_insert_ne, lookup_singleton_ne in Hu by lia. discriminate Hu.
  - intros [[-> ->]|[-> Ht]].
    + exists 0, [bline "L"]. rewrite !lookup_insert. split; [done|]. split; [done|]. by left.
    + exists 1, [bload "D"; bload "E"]. rewrite !lookup_insert_ne, !lookup_singleton by lia. split; [done|]. split; [done|]. rewrite !elem_of_cons. tauto.
Qed.
Example C60_merged_case : bb_reach bb_safe bb60 /\ well_numbered bb60 /\
  (exists v, working bb60 v /\ (forall t, t ∈ [bline "L"; bload "D"; bload "E"] <-> exists b, hangs (e_sh bb60) v b t) /\
     forall b t, hangs (e_sh bb60) v b t -> (exists c, bv_conn v !! t = Some (c, b)) /\ in_bus_view (e_sh bb60) v b) /\
  (bb_export [bline "L"; bload "D"; bload "E"] bb60).1 =
  Ok (mkXL ["VL_0"] [] [(bline "L", Some "VL_0", Some "VL_0"); (bload "D", Some "VL_0", Some "VL_0"); (bload "E", None, Some "VL_0")]).
Proof.
  split; [exact bb60_safe|]. split; [exact bb60_numbered|]. split; [|vm_compute; reflexivity].
  destruct bb60_var as (v & W & V1 & V2). exists v. split; [exact W|].
  pose proof bb60_live as HL. pose proof bb60_bus as HB. pose proof bb60_safe as HR. pose proof bb60_numbered as HN. generalize dependent bb60. intros st W HL HB HR HN.
  pose proof (bb60_hangs _ v HL V1) as HH. split.
  - intros t. rewrite !elem_of_cons, elem_of_nil. split.
    + intros [->|[->|[->|[]]]]; [exists "A"|exists "B"|exists "B"]; apply HH; tauto.
    + intros [b Hb]. apply HH in Hb. tauto.
  - intros b t Hb. apply HH in Hb. split.
    + rewrite V2. destruct Hb as [[-> ->]|[-> [->| ->]]]; [exists true|exists true|exists false]; vm_compute; reflexivity.
    + destruct (HB b ltac:(tauto)) as [HB1 HB2]. destruct (merged_cached st v b (reach_binv _ HR) HN W HB1) as (c & st3 & u & E & C & L). rewrite E in HB2. cbn [fst] in HB2.
      apply (good_valid _ _ _ _ _ (bi_sh _ (reach_binv _ HR)) (proj1 (proj2 (proj2 C))) L). injection HB2 as ->. eauto.
Qed.
(** Its condition: a bus without branch is not written, its load neither has a bus nor a connectable bus, and the file is refused. *)
Definition imported_bb (ts : list nterm) (st : bbst) : result unit :=
  match (bb_export ts st).1 with Ok x => (bb_import x (bb_blank "VL" {["VL"]})).1 | _ => UB end.
Theorem C60_merged_refuted : exists st v ts x st1 m, bb_reach bb_safe st /\ working st v /\ well_numbered st /\ NoDup ts /\
  (forall t, t ∈ ts <-> exists b, hangs (e_sh st) v b t) /\ (forall b t, hangs (e_sh st) v b t -> exists c, bv_conn v !! t = Some (c, b)) /\
  bb_export ts st = (Ok x, st1) /\ (bb_import x (bb_blank "VL" {["VL"]})).1 = Throw m.
Proof.
  set (st := bb_run bb0 [ECall (BAddBus "A"); ECall (BNewTerminal (bload "D") "A" true)]).
  assert (match imported_bb [bload "D"] st with Throw _ => true | _ => false end = true) as HT by (vm_compute; reflexivity).
  assert (bb_reach bb_safe st) as HR by (apply bb_run_reach; [|apply bb0_reach]; do 2 (split; [exact I|]); exact I).
  assert (match e_vars st !! initial_variant with Some v => bool_decide (bv_terms v = {[0 := [bload "D"]]} /\ bv_conn v = {[bload "D" := (true, "A")]}) | None => false end = true)
    as HV by (vm_compute; reflexivity).
  assert (bb_live (e_sh st) = {[0 := "A"]}) as HL by (apply (bool_decide_unpack _); vm_compute; exact I).
  assert (well_numbered st) as WN by (apply numbered_run; [by apply reach_binv|vm_compute; reflexivity]).
  assert (e_cur st = Some initial_variant) as Hc by reflexivity. clearbody st.
  destruct (e_vars st !! initial_variant) as [v|] eqn:Ev; [|discriminate HV]. apply bool_decide_eq_true in HV as [V1 V2].
  unfold imported_bb in HT. destruct (bb_export [bload "D"] st) as [[x| | |] st1] eqn:Ex; cbn [fst] in HT; try discriminate HT.
  destruct (bb_import x (bb_blank "VL" {["VL"]})).1 as [|m| |] eqn:E; try discriminate HT.
  assert (forall b t, hangs (e_sh st) v b t <-> b = "A" /\ t = bload "D") as HH.
  { intros b t. unfold hangs. rewrite HL, V1. split.
    - intros (u & l & [<- <-]%lookup_singleton_Some & Hl & Ht). rewrite lookup_singleton in Hl. injection Hl as <-. apply elem_of_list_singleton in Ht. done.
    - intros [-> ->]. exists 0, [bload "D"]. rewrite !lookup_singleton. split; [done|]. split; [done|]. by left. }
  exists st, v, [bload "D"], x, st1, m. split; [done|]. split; [by exists initial_variant|]. split; [done|]. split; [repeat constructor; by intros ?%elem_of_nil|].
  split; [intros t; rewrite elem_of_list_singleton; split; [intros ->; exists "A"; by apply HH|intros [b Hb]; by apply HH in Hb as [_ ->]]|].
  split; [intros b t [-> ->]%HH; exists true; rewrite V2; by rewrite lookup_singleton|]. done.
Qed.
Print Assumptions C60_merged_refuted.
