(** C65: the voltages of the buses of a node-breaker voltage level written to a file and read back. *)
From stdpp Require Import gmap pretty sorting.
From Verif Require Import Base Graph GraphSpec Equip NodeTopo NodeTopoSpec NodeTopoProofs NodeTopoInv NodeTopoConn NodeTopoProps NodeGroups NodeGroupsSpec NodeGroupsProofs BusValues BusValuesSpec BusValuesProofs BusValuesProps CalcBusXml CalcBusXmlSpec CalcBusXmlProofs CalcBusXmlBuild.

(** The topology: the calls that a file describing a voltage level makes on a new one, in any order, all succeed and give the same
    terminals on the same nodes and the same connections.  Identifiers are not empty and not used yet. *)
Theorem C65_topology : forall st i v vl ids ops,
  nb_reach any_safe st -> e_cur st = Some i -> e_vars st !! i = Some v ->
  describes (nbg st) (nv_sw v) (nb_kind (e_sh st)) ops ->
  (forall id, is_Some (nb_kind (e_sh st) !! id) -> id <> "" /\ id ∉ ids) ->
  exists st' v', built (nb_new vl ids {[initial_variant]} (Some initial_variant)) ops st' /\ nb_reach fresh_safe st' /\
    e_cur st' = Some initial_variant /\ e_vars st' !! initial_variant = Some v' /\ copy_of (nbg st) (nv_sw v) (nbg st') (nv_sw v').
Proof. intros st i v vl ids ops H. apply reach_any in H. by apply describes_copy. Qed.
Print Assumptions C65_topology.

(** What a bus answers when all the terminals of its electrical node hold the same value. *)
Lemma read_all {A} vw st n i v (f : nterm -> option A) x : ninv true st -> e_cur st = Some i -> e_vars st !! i = Some v -> in_bus vw (nbg st) (nv_sw v) n ->
  (forall n' t, same_node BusView (nbg st) (nv_sw v) n n' -> term_at (nbg st) n' t -> f t = x) ->
  (x = None \/ exists n' t, same_node BusView (nbg st) (nv_sw v) n n' /\ term_at (nbg st) n' t) ->
  forall b st4, nb_bus_of_node vw n st = (Ok (Some b), st4) -> reads st4 n b f x.
Proof.
  intros I Hc Hi Hin Hf Hx b st4 E.
  destruct (right_answer vw n st (or_introl I) ltac:(eauto)) as (ob & st5 & E5 & S & R).
  { apply on_edge_live; [exact (si_g _ (ni_sh _ _ I))|]. apply Hin. }
  rewrite E in E5. injection E5 as <- <-. destruct R as (i' & v' & Hc' & Hi' & _ & Hb).
  assert (i' = i) as -> by congruence. assert (v' = v) as -> by congruence.
  destruct (bus_of_node_ninv vw n st I) as [_ I4]. rewrite E in I4. cbn [snd] in I4. apply ninv_weak in I4.
  destruct (sbc_cur_var _ _ i v S Hi) as (v4 & Hi4 & Es). destruct (sbc_graph _ _ S) as [Eg _].
  assert (e_cur st4 = Some i) as Hc4 by (by rewrite (sbc_cur _ _ S)).
  rewrite <- Eg, <- Es in Hin, Hb, Hf, Hx.
  destruct (find_terminal_ok vw st4 i v4 _ n n b I4 Hc4 Hi4 Hin Hb (rtc_refl _ _)) as (r & st' & Er & H1 & H2 & H3 & _).
  pose proof (read_near vw st4 i v4 _ n n b r st' I4 Hc4 Hi4 Hin Hb (rtc_refl _ _) Er) as RN.
  exists r, st'. split; [done|]. split; [|done]. destruct r as [t|]; cbn [cb_get_v].
  - destruct RN as (m & Hm & Ht). by eapply Hf.
  - destruct Hx as [->|(n' & t & Hn' & Ht)]; [done|]. by destruct (RN n' t).
Qed.
Lemma query_in {A} vw st n i v (fv fa : nterm -> option A) x a : ninv true st -> e_cur st = Some i -> e_vars st !! i = Some v -> in_bus vw (nbg st) (nv_sw v) n ->
  (forall n' t, same_node BusView (nbg st) (nv_sw v) n n' -> term_at (nbg st) n' t -> fv t = x /\ fa t = a) ->
  ((x = None /\ a = None) \/ exists n' t, same_node BusView (nbg st) (nv_sw v) n n' /\ term_at (nbg st) n' t) ->
  exists b st4, nb_bus_of_node vw n st = (Ok (Some b), st4) /\ reads st4 n b fv x /\ reads st4 n b fa a.
Proof.
  intros I Hc Hi Hin Hf Hx.
  destruct (right_answer vw n st (or_introl I) ltac:(eauto)) as (ob & st4 & E & S & R).
  { apply on_edge_live; [exact (si_g _ (ni_sh _ _ I))|]. apply Hin. }
  destruct R as (i' & v' & Hc' & Hi' & R). assert (i' = i) as -> by congruence. assert (v' = v) as -> by congruence.
  destruct ob as [b|]; [|done]. exists b, st4. split; [done|]. split.
  - refine (read_all vw st n i v fv x I Hc Hi Hin _ _ b st4 E); [|naive_solver]. intros n' t H1 H2. by eapply Hf.
  - refine (read_all vw st n i v fa a I Hc Hi Hin _ _ b st4 E); [|naive_solver]. intros n' t H1 H2. by eapply Hf.
Qed.

(** The voltage and the angle of every bus of the bus view are the same after writing and reading, whatever the order of the elements.
    The bus-breaker buses inside it all answer the values of the bus of the bus view; those outside any bus of the bus view answer NaN.
    Histories as for C31: switches change while no cache is held.  The buses are those of the bus view at the time of the export. *)
Theorem C65_values_partial : forall {A} (neg : A -> bool) st0 n0 ob0 st i v m st1 l fv fa st' i' v',
  nb_reach fresh_safe st0 -> nb_bus_of_node BusView n0 st0 = (Ok ob0, st) -> e_cur st = Some i -> e_vars st !! i = Some v ->
  one_node (nbg st) -> (forall t, acceptable neg (fv t)) ->
  nb_nodes_by_bus st = (Ok m, st1) -> l ≡ₚ map_to_list m ->
  nb_reach fresh_safe st' -> e_cur st' = Some i' -> e_vars st' !! i' = Some v' -> copy_of (nbg st) (nv_sw v) (nbg st') (nv_sw v') ->
  exists xs fv' fa' st3,
    xb_write l fv fa st1 = (Ok xs, st1) /\
    xb_read neg xs (fun _ => None) (fun _ => None) st' = (Ok (fv', fa'), st3) /\ nbg st3 = nbg st' /\ (forall id, pos st3 id = pos st' id) /\
    (forall n b x a, nb_bus_of_node BusView n st = (Ok (Some b), st) -> reads st n b fv x -> reads st n b fa a ->
       (exists b' st4, nb_bus_of_node BusView n st3 = (Ok (Some b'), st4) /\ reads st4 n b' fv' x /\ reads st4 n b' fa' a) /\
       (forall n', same_node BusView (nbg st) (nv_sw v) n n' ->
          exists b' st4, nb_bus_of_node BusBreakerView n' st3 = (Ok (Some b'), st4) /\ reads st4 n' b' fv' x /\ reads st4 n' b' fa' a)) /\
    (forall n, on_edge (nbg st) n -> ~ in_bus BusView (nbg st) (nv_sw v) n ->
       exists b' st4, nb_bus_of_node BusBreakerView n st3 = (Ok (Some b'), st4) /\ reads st4 n b' fv' None /\ reads st4 n b' fa' None).
Proof.
  intros A neg st0 n0 ob0 st i v m st1 l fv fa st' i' v' H0 E0 Hc Hi HO Hacc Em Hl H' Hc' Hi' C.
  apply reach_fresh in H0. apply reach_fresh in H'.
  destruct (held_query n0 st0 ob0 st H0 E0) as (c & j & w & Hh & I & S0 & Hj & Hw & CK).
  assert (j = i) as -> by congruence. assert (w = v) as -> by congruence.
  destruct (both_ok neg fv fa st st1 st' i i' v v' c m l I Hc Hi Hh CK Em Hl HO H' Hc' Hi' C Hacc) as (xs & fv' & fa' & st3 & EW & ER & I3 & S3 & R1 & R2).
  exists xs, fv', fa', st3. split; [done|]. split; [done|]. destruct (sbc_graph _ _ S3) as [Eg _]. split; [done|].
  split; [intros id; by apply sbc_pos|].
  destruct (sbc_cur_var _ _ i' v' S3 Hi') as (v3 & Hi3 & Es). assert (e_cur st3 = Some i') as Hc3 by (by rewrite (sbc_cur _ _ S3)).
  rewrite <- Eg, <- Es in C. split.
  - intros n b x a Eb (r & st4 & Er & Ex & _) (r' & st4' & Er' & Ea & _).
    assert (in_bus BusView (nbg st) (nv_sw v) n /\ bus_of BusView (nbg st) (nv_sw v) (nb_id (e_sh st)) n b) as [Hin Hb].
    { destruct (decide (is_Some (s_vertices (nbg st) !! n))) as [Hn|Hn].
      - destruct (right_answer BusView n st (or_introl I) ltac:(eauto) Hn) as (ob & st5 & E5 & _ & R).
        rewrite Eb in E5. injection E5 as <- <-. destruct R as (i2 & v2 & Hc2 & Hi2 & R). assert (i2 = i) as -> by congruence. by assert (v2 = v) as -> by congruence.
      - exfalso. unfold nb_bus_of_node in Eb. rewrite (abind_Ok _ _ _ _ _ (cache_held _ _ Hh)) in Eb. unfold alift in Eb.
        destruct (bc_node c !! n) as [[k|]|] eqn:Ek; [|done|done]. pose proof (proj1 (ck_node _ _ _ _ _ _ CK n k) Ek) as [[Ho _] _].
        apply Hn. apply on_edge_live; [exact (si_g _ (ni_sh _ _ I))|done]. }
    pose proof (C59_bus_view_terminals _ _ _ _ _ Hin Hb) as Hne. destruct (cb_terms b) as [|t0 ts] eqn:Et; [done|].
    cbn [find_terminal] in Er, Er'. injection Er as <- _. injection Er' as <- _. cbn [cb_get_v] in Ex, Ea.
    assert (Hall : forall n' t, same_node BusView (nbg st) (nv_sw v) n n' -> term_at (nbg st) n' t -> fv' t = x /\ fa' t = a).
    { rewrite <- Ex, <- Ea. apply (R1 n b t0); [done|by rewrite Et]. }
    assert (exists n' t, same_node BusView (nbg st) (nv_sw v) n n' /\ term_at (nbg st) n' t) as (m0 & tm & Hm0 & Htm).
    { assert (t0 ∈ cb_terms b) as Ht0 by (rewrite Et; by left). apply (terms_of _ _ _ _ _ _ _ Hb) in Ht0 as (m0 & ? & ?). by exists m0, t0. }
    split.
    + apply (query_in BusView st3 n i' v3 fv' fa' x a I3 Hc3 Hi3).
      * by apply (copy_in_bus _ _ _ _ _ _ C).
      * intros n' t H1 H2. apply (Hall n' t); [by apply (copy_same _ _ _ _ _ _ _ C)|by apply (cp_term _ _ _ _ C)].
      * right. exists m0, tm. split; [by apply (copy_same _ _ _ _ _ _ _ C)|by apply (cp_term _ _ _ _ C)].
    + intros n' Hn'. apply (query_in BusBreakerView st3 n' i' v3 fv' fa' x a I3 Hc3 Hi3).
      * apply (copy_in_bus _ _ _ _ _ _ C). split; [|done]. eapply same_node_on_edge; [exact Hn'|apply Hin].
      * intros n2 t H1 H2. apply (Hall n2 t); [|by apply (cp_term _ _ _ _ C)]. etrans; [exact Hn'|]. by apply (copy_same _ _ _ _ _ _ _ C).
      * right. exists m0, tm. split; [|by apply (cp_term _ _ _ _ C)]. apply (copy_same _ _ _ _ _ _ _ C). etrans; [apply same_node_sym; exact Hn'|done].
  - intros n Hon Hn. apply (query_in BusBreakerView st3 n i' v3 fv' fa' None None I3 Hc3 Hi3).
    + apply (copy_in_bus _ _ _ _ _ _ C). by split.
    + intros n' t H1 H2. apply (copy_same _ _ _ _ _ _ _ C) in H1. apply (cp_term _ _ _ _ C) in H2. apply (R2 n' t); [|done].
      intros [Ho Hv]. apply Hn. split; [done|]. eapply valid_same; [|exact Hv]. by apply same_node_sym.
    + by left.
Qed.
Print Assumptions C65_values_partial.

(** An element of the file whose nodes are in no bus changes nothing: the others are read as without it. *)
Theorem C65_skipped : forall {A} (neg : A -> bool) st i v x xs fv fa,
  nb_reach fresh_safe st -> e_cur st = Some i -> e_vars st !! i = Some v ->
  (forall n, n ∈ xb_nodes x -> is_Some (s_vertices (nbg st) !! n) /\ ~ in_bus BusView (nbg st) (nv_sw v) n) ->
  exists st1, nbg st1 = nbg st /\ (forall id, pos st1 id = pos st id) /\ xb_read neg (x :: xs) fv fa st = xb_read neg xs fv fa st1.
Proof.
  intros A neg st i v x xs fv fa R Hc Hi Hns. apply reach_fresh in R as I. cbn [xb_read].
  assert (exists st1, xb_find (xb_nodes x) st = (Ok None, st1) /\ same_but_cache st st1) as (st1 & E & S).
  { revert Hns. generalize (xb_nodes x). clear R. intros ns. revert st v I Hc Hi. induction ns as [|n ns IH]; intros st v I Hc Hi Hns; cbn [xb_find].
    { exists st. split; [done|]. by eapply sbc_refl. }
    rewrite (abind_Ok ashared _ st (e_sh st) st eq_refl). destruct (Hns n) as [[o Ho] Hn]; [by left|].
    destruct (vertex_object_eq (nb_graph (e_sh st)) n) as [(o' & E & Ho')|(e & _ & Ho')]; [|unfold nbg in Ho; congruence].
    assert (o' = o) as -> by (unfold nbg in Ho; congruence). unfold abind at 1, alift at 1. rewrite E. destruct o as [t|].
    - destruct (right_answer BusView n st (or_introl I) ltac:(eauto) ltac:(eauto)) as (ob & st' & Eb & S & R).
      destruct (bus_of_node_ninv BusView n st I) as [_ I']. rewrite Eb in I'. cbn [snd] in I'.
      destruct R as (i' & v' & Hc' & Hi' & R). assert (i' = i) as -> by congruence. assert (v' = v) as -> by congruence.
      rewrite (abind_Ok _ _ _ _ _ Eb). destruct ob as [b|]; [by destruct R|].
      destruct (sbc_cur_var _ _ i v S Hi) as (v1 & Hi1 & Es). destruct (sbc_graph _ _ S) as [Eg _].
      destruct (IH st' v1 I') as (st1 & E1 & S1); [by rewrite (sbc_cur _ _ S)|done| |].
      { intros n' Hn'. rewrite Eg, Es. apply Hns. by right. }
      exists st1. split; [done|]. by eapply sbc_trans.
    - apply (IH st v); [done..|]. intros n' Hn'. apply Hns. by right. }
  exists st1. destruct (sbc_graph _ _ S) as [Eg _]. split; [done|]. split; [intros id; by apply sbc_pos|]. by rewrite (abind_Ok _ _ _ _ _ E).
Qed.
Print Assumptions C65_skipped.

(** An element with a negative voltage, for a bus, is refused; so is an element whose first node does not exist. *)
Theorem C65_refused : forall {A} (neg : A -> bool) st i v x xs fv fa,
  nb_reach fresh_safe st -> e_cur st = Some i -> e_vars st !! i = Some v ->
  (~ acceptable neg (xb_v x) /\ (exists n0, in_bus BusView (nbg st) (nv_sw v) n0 /\ (forall n, n ∈ xb_nodes x -> same_node BusView (nbg st) (nv_sw v) n0 n)) /\
     (exists n, n ∈ xb_nodes x /\ has_terminal (nbg st) n)) \/
  (exists n, head (xb_nodes x) = Some n /\ s_vertices (nbg st) !! n = None) ->
  exists m, (xb_read neg (x :: xs) fv fa st).1 = Throw m.
Proof.
  intros A neg st i v x xs fv fa R Hc Hi [(Hx & (n0 & Hin & Hns) & Ht)|(n & Hn & Hd)]; cbn [xb_read].
  - apply reach_fresh in R as I. destruct (xb_find_ok (xb_nodes x) st i v n0 I Hc Hi Hin Hns Ht) as (b & st' & E & _ & _ & Hb). rewrite (abind_Ok _ _ _ _ _ E).
    destruct (C59_refused neg b (xb_v x) fv (C59_bus_view_terminals _ _ _ _ _ Hin Hb)) as [H _]. destruct (H Hx) as [m ->]. by exists m.
  - destruct (xb_nodes x) as [|n' ns]; [done|]. injection Hn as ->. cbn [xb_find].
    destruct (vertex_object_eq (nb_graph (e_sh st)) n) as [(o' & E & Ho')|(e & E & Ho')]; [unfold nbg in Hd; congruence|].
    unfold abind, ashared, alift. rewrite E. by exists e.
Qed.
Print Assumptions C65_refused.

(** ** A case *)
Definition ops65 : list nbop :=
  [NAttach 0 (sec "S"); NAttach 2 (line "L"); NAttach 3 (load "D"); NAddSwitch "B1" BREAKER (false, true) 0 1;
   NAddSwitch "B2" BREAKER (false, true) 1 2; NAddSwitch "B3" BREAKER (false, false) 2 3; NAddInternal 5 6; NAddSwitch "B4" BREAKER (true, false) 2 5;
   NAttach 6 (load "E")].
Definition nb65 : nbst := nb_run nb0 (ECall <$> ops65).
Definition nb65q : nbst := (nb_bus_of_node BusView 0 nb65).2.
Lemma nb65_reach : nb_reach fresh_safe nb65.
Proof.
  apply fresh_run; [apply nb_new_reach|]. do 3 (split; [left; vm_compute; eauto|]).
  do 3 (split; [apply no_caches_dec; vm_compute; reflexivity|]). split; [intros i v Hv _; revert i v Hv; apply no_caches_dec; vm_compute; reflexivity|].
  split; [apply no_caches_dec; vm_compute; reflexivity|]. split; [left; vm_compute; eauto|done].
Qed.
(** The file of [fv], [fa] and the values read from it. *)
Definition file65 (fv fa : nterm -> option Z) : option (list (xbus Z)) :=
  match nb_nodes_by_bus nb65q with
  | (Ok m, st1) => match (xb_write (map_to_list m) fv fa st1).1 with Ok xs => Some xs | _ => None end
  | _ => None
  end.
Definition again65 (fv fa : nterm -> option Z) : option ((nterm -> option Z) * (nterm -> option Z)) :=
  match file65 fv fa with
  | Some xs => match (xb_read pos_z xs all_nan all_nan nb65).1 with Ok r => Some r | _ => None end
  | None => None
  end.
Definition v65 : nterm -> option Z := setting BusView 3 nb65 (Some 400%Z) all_nan.
Definition a65 : nterm -> option Z := setting BusView 3 nb65 (Some (-2)%Z) all_nan.
Definition a65' : nterm -> option Z := fun t => if decide (t = sec "S") then Some (-2)%Z else None.
Example C65_case :
  nb_reach fresh_safe nb65 /\ (nb_bus_of_node BusView 0 nb65).1 = Ok (Some (mkCB "VL_0" [sec "S"; line "L"; load "D"])) /\
  file65 v65 a65' = Some [mkXB (Some 400%Z) (Some (-2)%Z) [0; 1; 2; 3]] /\ file65 all_nan all_nan = Some [] /\
  match again65 v65 a65' with
  | Some (fv', fa') => reading BusView 0 nb65 fv' = Some (Some 400%Z) /\ reading BusView 0 nb65 fa' = Some (Some (-2)%Z) /\
      reading BusBreakerView 1 nb65 fv' = Some (Some 400%Z) /\ reading BusBreakerView 5 nb65 fv' = Some None
  | None => False
  end.
Proof. split; [apply nb65_reach|]. vm_compute. done. Qed.
Example C65_elements_case :
  (xb_read pos_z [mkXB (Some 1%Z) None [5; 6]; mkXB (Some 2%Z) None [0]] all_nan all_nan nb65).1 <> UB /\
  match (xb_read pos_z [mkXB (Some 1%Z) None [5; 6]; mkXB (Some 2%Z) None [0]] all_nan all_nan nb65).1 with
  | Ok (fv, _) => fv (sec "S") = Some 2%Z /\ fv (load "E") = None | _ => False end /\
  (xb_read pos_z [mkXB (Some (-1))%Z None [0]] all_nan all_nan nb65).1 = Throw "voltage cannot be < 0".
Proof. vm_compute. done. Qed.
Fixpoint all_ok (st : nbst) (ops : list nbop) : bool :=
  match ops with [] => true | o :: ops' => match nb_call o st with (Ok _, st1) => all_ok st1 ops' | _ => false end end.
Lemma built_run ops : forall st, all_ok st ops = true -> built st ops (nb_run st (ECall <$> ops)).
Proof.
  induction ops as [|o ops IH]; intros st H; [done|]. cbn [all_ok] in H. destruct (nb_call o st) as [[[]| | |] st1] eqn:E; try done.
  exists st1. split; [done|]. specialize (IH st1 H). unfold nb_run in *. cbn [fmap list_fmap foldl].
  assert ((nb_step st (ECall o)).2 = st1) as -> by (change (nb_step st (ECall o)) with (nb_call o st); by rewrite E). exact IH.
Qed.
Definition attached65 : list (nat * nterm) := [(0, sec "S"); (2, line "L"); (3, load "D"); (6, load "E")].
Definition switches65 : list (nat * nat * string * option (bool * bool) * option swkind) :=
  [(0, 1, "B1", Some (false, true), Some BREAKER); (1, 2, "B2", Some (false, true), Some BREAKER);
   (2, 3, "B3", Some (false, false), Some BREAKER); (2, 5, "B4", Some (true, false), Some BREAKER)].
Example C65_describes_case : exists v, e_vars nb65 !! initial_variant = Some v /\
  describes (nbg nb65) (nv_sw v) (nb_kind (e_sh nb65)) ops65 /\ built nb0 ops65 nb65.
Proof.
  assert (is_Some (e_vars nb65 !! initial_variant)) as [v Hv] by (vm_compute; eauto). exists v. split; [exact Hv|].
  assert (forall id, nv_sw v !! id = pos nb65 id) as HP by (intros id; symmetry; by eapply (working_pos nb65 initial_variant v id)). clear Hv.
  split; [split|].
  - intros o. split.
    + intros H. unfold ops65 in H.
      repeat (apply elem_of_cons in H as [->|H];
        [first [vm_compute; reflexivity | split; [first [exists 0; vm_compute; reflexivity|exists 1; vm_compute; reflexivity|exists 2; vm_compute; reflexivity|exists 4; vm_compute; reflexivity]|split; [rewrite HP|]; vm_compute; reflexivity] | exists 3; vm_compute; reflexivity]|]).
      by apply elem_of_nil in H.
    + assert (map_Forall (fun n x => match x with Some t => bool_decide ((n, t) ∈ attached65) | None => true end = true) (s_vertices (nbg nb65))) as HV.
      { apply (bool_decide_unpack _). vm_compute. exact I. }
      assert (map_Forall (fun _ (x : nat * nat * option string) => match x.2 with
        | Some id => bool_decide ((x.1, id, pos nb65 id, nb_kind (e_sh nb65) !! id) ∈ switches65) | None => bool_decide (x.1 = (5, 6)) end = true) (s_edges (nbg nb65))) as HE.
      { apply (bool_decide_unpack _). vm_compute. exact I. }
      destruct o as [id k p n1 n2| |n1 n2| |n t| | | | | | |]; intros H; try (exfalso; exact H).
      * destruct H as ((e & He) & Hp & Hk). apply HE in He. cbn [fst snd] in He. apply bool_decide_eq_true in He. rewrite HP in Hp. rewrite Hp, Hk in He. clear Hp Hk HV HE HP. unfold switches65 in He.
        repeat (apply elem_of_cons in He as [[= -> -> -> -> ->]|He]; [first [exact (elem_of_list_lookup_2 ops65 3 _ eq_refl)|exact (elem_of_list_lookup_2 ops65 4 _ eq_refl)|exact (elem_of_list_lookup_2 ops65 5 _ eq_refl)|exact (elem_of_list_lookup_2 ops65 7 _ eq_refl)]|]).
        by apply elem_of_nil in He.
      * destruct H as (e & He). apply HE in He. cbn [fst snd] in He. apply bool_decide_eq_true in He. clear HV HE HP. injection He as -> ->. exact (elem_of_list_lookup_2 ops65 6 _ eq_refl).
      * apply HV in H. cbv beta iota in H. apply bool_decide_eq_true in H. clear HV HE HP. unfold attached65 in H.
        repeat (apply elem_of_cons in H as [[= -> ->]|H]; [first [exact (elem_of_list_lookup_2 ops65 0 _ eq_refl)|exact (elem_of_list_lookup_2 ops65 1 _ eq_refl)|exact (elem_of_list_lookup_2 ops65 2 _ eq_refl)|exact (elem_of_list_lookup_2 ops65 8 _ eq_refl)]|]).
        by apply elem_of_nil in H.
  - clear HP. intros x y o Hx Hy. left. eapply (NoDup_lookup ops65); [|exact Hx|exact Hy]. unfold ops65.
    repeat (apply NoDup_cons; split; [by repeat (apply not_elem_of_cons; split; [discriminate|]); apply not_elem_of_nil|]). apply NoDup_nil. exact I.
  - apply built_run. vm_compute. reflexivity.
Qed.

(** The file keeps one voltage for each bus of the bus view: the voltages of the bus-breaker buses inside it are lost when they differ,
    and so is the one of a bus-breaker bus outside the bus view. *)
Definition w65 : nterm -> option Z := setting BusBreakerView 3 nb65 (Some 400%Z) all_nan.
Definition u65 : nterm -> option Z := setting BusBreakerView 5 nb65 (Some 400%Z) all_nan.
Theorem C65_bus_breaker_refuted : exists fv fv' fa' n,
  nb_reach fresh_safe nb65 /\ again65 fv all_nan = Some (fv', fa') /\
  reading BusBreakerView n nb65 fv = Some (Some 400%Z) /\ reading BusBreakerView n nb65 fv' = Some None.
Proof.
  assert (match again65 w65 all_nan with Some (fv', _) => reading BusBreakerView 3 nb65 fv' = Some None | None => False end) as H by (vm_compute; reflexivity).
  destruct (again65 w65 all_nan) as [[fv' fa']|] eqn:E; [|destruct H]. exists w65, fv', fa', 3.
  split; [apply nb65_reach|]. split; [exact E|]. split; [vm_compute; reflexivity|exact H].
Qed.
Print Assumptions C65_bus_breaker_refuted.
Example C65_outside_case : reading BusBreakerView 6 nb65 u65 = Some (Some 400%Z) /\ reading BusView 6 nb65 u65 = None /\ file65 u65 all_nan = Some [].
Proof. vm_compute. done. Qed.
Lemma setting_acceptable vw n st x f : acceptable pos_z x -> (forall t, acceptable pos_z (f t)) -> forall t, acceptable pos_z (setting vw n st x f t).
Proof.
  intros Hx Hf t. unfold setting. destruct (nb_bus_of_node vw n st).1 as [[b|]| | |]; try apply Hf.
  unfold cb_set_v. destruct (terms_set_ok pos_z (cb_terms b) x f Hx) as (f' & -> & F1 & F2). cbn [snd].
  destruct (decide (t ∈ cb_terms b)) as [H|H]; [by rewrite F1|]. rewrite F2 by done. apply Hf.
Qed.
Example C65_one_node_case : one_node (nbg nb65) /\ forall t, acceptable pos_z (v65 t).
Proof.
  split.
  - assert (forall n t, term_at (nbg nb65) n t -> (n, t) ∈ attached65) as HT.
    { assert (map_Forall (fun n x => match x with Some t => bool_decide ((n, t) ∈ attached65) | None => true end = true) (s_vertices (nbg nb65))) as HV.
      { apply (bool_decide_unpack _). vm_compute. exact I. }
      intros n t H. apply HV in H. by apply bool_decide_eq_true in H. }
    intros n n' t H1%HT H2%HT. clear HT. unfold attached65 in *. set_unfold in H1. set_unfold in H2. naive_solver.
  - unfold v65. generalize nb65. intros st. apply (setting_acceptable BusView 3 st).
    + intros a Ha. injection Ha as <-. reflexivity.
    + intros t a Ha. discriminate Ha.
Qed.
