(** Property C81: typed lookups and collections. *)
From Verif Require Import Base NetIndex NetIndexProofs Ranges Catalog CatalogSpec CatalogProofs.

(** Each call succeeds, or throws and changes nothing. *)
Theorem C81_defined st o : creach st -> cop_ok st o -> (exists x, (cstep st o).1 = Ok x) \/ (exists m, (cstep st o).1 = Throw m) /\ (cstep st o).2 = st.
Proof. intros W%creach_wf H. by apply step_fine. Qed.
(** For each X, getXs() of the network gives exactly the living objects that are X, each once; getXCount() is their number; getX(s) gives the object named
    [s] when it is an X and throws otherwise. *)
Theorem C81_collections st g : creach st ->
  NoDup (n_all g st) /\ (forall p, p ∈ n_all g st <-> is_a st (announced g) p) /\ n_count g st = length (n_all g st) /\
  (forall s p, n_get g st s = Ok p <-> name_of st s p /\ is_a st (announced g) p) /\
  (forall s, (exists m, n_get g st s = Throw m) <-> ~ exists p, name_of st s p /\ is_a st (announced g) p).
Proof.
  intros W%creach_wf. split; [by apply NoDup_n_all|]. split; [intros p; by apply elem_of_n_all|]. split; [apply n_count_length|].
  assert (g_class g = announced g) as Eg by (by destruct g). unfold n_get. rewrite Eg.
  split; intros s.
  - intros p. destruct (get_as_spec st (announced g) s W) as [(q & -> & H1 & H2)|((m & ->) & H)].
    + split; [intros [= <-]; done|]. intros [H3 _]. f_equal. by eapply name_unique.
    + split; [done|]. intros [H1 H2]. by destruct (H p H1).
  - destruct (get_as_spec st (announced g) s W) as [(q & -> & H1 & H2)|((m & ->) & H)].
    + split; [by intros [? ?]|]. intros N. destruct N. eauto.
    + split; [|eauto]. intros _ (p & H1 & H2). by destruct (H p H1).
Qed.
(** Two getters of which one announces a base of the class of the other agree. *)
Theorem C81_subclass st g h s p : creach st -> kind_of (announced g) (announced h) -> n_get g st s = Ok p -> n_get h st s = Ok p /\ p ∈ n_all h st.
Proof.
  intros R K H. destruct (C81_collections st g R) as (_ & _ & _ & Hg & _). destruct (C81_collections st h R) as (_ & Hm & _ & Hh & _).
  apply Hg in H as [H1 (c & i & Ho & Kc)]. assert (is_a st (announced h) p) as Hp by (exists c, i; split; [done|]; by eapply rtc_transitive). split; [by apply Hh|by apply Hm].
Qed.
(** getConnectables<T>() of the network. *)
Theorem C81_connectables st t : creach st -> NoDup (n_connectables t st) /\ forall p, p ∈ n_connectables t st <-> is_a st t p.
Proof.
  intros W%creach_wf. unfold n_connectables. split; [apply NoDup_filter; by apply NoDup_n_objects|]. intros p. rewrite elem_of_list_filter, elem_of_n_objects, <- is_a_class by done.
  split; [by intros [? _]|]. intros H. split; [done|]. apply is_a_live; [done|]. destruct H as (c & s & Ho & K). exists c, s. split; [done|].
  destruct Ho as (o & Ho & Ht & _). destruct (cw_ty _ W p (o_type o)) as (d & Hd & E); [unfold ty; by rewrite Ho|]. apply derives_kind. by destruct c.
Qed.
(** getConnectables<T>() of a voltage level, iterated once: the ids of the equipments of type T that have a terminal in it, each once. *)
Theorem C81_level st t v : creach st -> exists out, v_connectables t st v = Ok out /\ v_count t st v = Ok (length out) /\ NoDup out /\
  forall s, s ∈ out <-> exists p c, object st p c s /\ kind_of c t /\ in_level st p v.
Proof.
  intros W%creach_wf. destruct (v_connectables_spec st t v W) as (out & E & N & H). exists out. split; [done|]. split; [unfold v_count; by rewrite E|]. done.
Qed.
(** getConnectable<T>(s) of a voltage level: the equipment of type T named [s] if it has a terminal in the level, nothing if the object named [s] is not a T or does
    not exist, an exception if it is elsewhere (or if [s] is empty and names nothing). *)
Theorem C81_level_get st t v s : creach st -> kind_of t CConnectable ->
  (forall p, v_get t st v s = Ok (Some p) <-> name_of st s p /\ is_a st t p /\ in_level st p v) /\
  (v_get t st v s = Ok None <-> (forall p, name_of st s p -> ~ is_a st t p) /\ (s = "" -> exists p, name_of st s p)) /\
  ((exists m, v_get t st v s = Throw m) <-> (exists p, name_of st s p /\ is_a st t p /\ ~ in_level st p v) \/ (s = "" /\ forall p, ~ name_of st s p)).
Proof.
  intros W%creach_wf Kt. destruct (find_as_spec st t s W) as [(q & E & H1 & H2)|[(E & Hs & Hn)|((m & E) & -> & Hn)]].
  - destruct (v_get_found st t v q s W Kt E H2) as [[Hl Eg]|[Hl [m Eg]]]; rewrite Eg.
    + split; [|split].
      * intros p. split; [intros [= <-]; done|]. intros (H3 & _). do 2 f_equal. by eapply name_unique.
      * split; [done|]. intros [H _]. by destruct (H q H1).
      * split; [by intros [? ?]|]. intros [(p & H3 & _ & H5)|[-> H]]; [|by destruct (H q)]. destruct H5. by rewrite (name_unique st s p q).
    + split; [|split].
      * intros p. split; [done|]. intros (H3 & _ & H5). destruct Hl. by rewrite (name_unique st s q p).
      * split; [done|]. intros [H _]. by destruct (H q H1).
      * split; [|eauto]. intros _. left. eauto.
  - assert (v_get t st v s = Ok None) as -> by (unfold v_get; by rewrite E). split; [|split].
    + intros p. split; [done|]. intros (H1 & H2 & _). by destruct (Hn p H1).
    + split; [done|done].
    + split; [by intros [? ?]|]. intros [(p & H1 & H2 & _)|[Hs' H]]; [by destruct (Hn p H1)|]. destruct (Hs Hs') as [p Hp]. by destruct (H p).
  - assert (exists m, v_get t st v "" = Throw m) as [m' ->] by (unfold v_get; rewrite E; cbn; eauto). split; [|split].
    + intros p. split; [done|]. intros (H1 & _). by destruct (Hn p).
    + split; [done|]. intros [_ H]. destruct (H eq_refl) as [p Hp]. by destruct (Hn p).
    + split; [|eauto]. intros _. right. done.
Qed.
(** getTwoWindingsTransformers() and getThreeWindingsTransformers() of a substation, iterated once: the ids of the transformers all the terminals of which are in
    the substation; a transformer is never half in it. *)
Theorem C81_substation st t s : creach st -> t = CTwoWindingsTransformer \/ t = CThreeWindingsTransformer -> exists out, s_transformers t st s = Ok out /\ NoDup out /\
  forall x, x ∈ out <-> exists p, object st p t x /\ forall k v, terminal_in st p k v -> c_sub st !! v = Some s.
Proof.
  intros W%creach_wf Ht. destruct (s_transformers_spec st t s W) as (out & E & N & H). exists out. split; [done|]. split; [done|]. intros x. rewrite H. split.
  - intros (v & Hv & p & c & Ho & K & k & Hk). assert (c = t) as ->.
    { apply derives_kind in K. assert (concreteb c = true) as Hc by (eapply concrete_of; [done|]; apply object_cls; eauto). destruct Ht as [-> | ->]; destruct c; try (vm_compute in Hc; discriminate); vm_compute in K; try discriminate; done. }
    exists p. split; [done|]. destruct Hk as (l & Hl & Hk). destruct (cw_same _ W p l t Hl) as [s' Hs']; [apply object_cls; eauto|done|].
    intros k' v' (l' & Hl' & Hk'). assert (l' = l) as -> by congruence. rewrite (Hs' v'); [|by eapply elem_of_list_lookup_2]. rewrite <- (Hs' v); [done|by eapply elem_of_list_lookup_2].
  - intros (p & Ho & Hall). assert (has_cls st p t) as Hc by (apply object_cls; eauto). destruct (terms_of_class _ _ _ W Hc) as (l & Hl & Ll); [by destruct Ht as [-> | ->]|].
    destruct l as [|v l]; [by destruct Ht as [-> | ->]|]. exists v. assert (terminal_in st p 0 v) as Hv by (by exists (v :: l)). split; [by apply (Hall 0)|].
    exists p, t. split; [done|]. split; [apply rtc_refl|]. by exists 0.
Qed.
(** getTerminal(side) and getSide(terminal) are inverse of each other; getSide refuses the terminals of the other equipments. *)
Theorem C81_sides st p c s : creach st -> object st p c s ->
  (kind_of c CBranch -> (forall k, k < 2 -> b_terminal st p k = Ok (p, k)) /\ (forall k, k < 2 -> b_side st p (p, k) = Ok k) /\ forall q k, q <> p -> exists m, b_side st p (q, k) = Throw m) /\
  (c = CThreeWindingsTransformer -> (forall k, k < 3 -> t_terminal st p k = Ok (p, k)) /\ (forall k, k < 3 -> t_side st p (p, k) = Ok k) /\ forall q k, q <> p -> exists m, t_side st p (q, k) = Throw m).
Proof.
  intros W%creach_wf Ho. assert (has_cls st p c) as Hc by (apply object_cls; eauto). assert (derives 5 c CConnectable = true -> exists l, c_terms st !! p = Some l /\ length l = arity c) as Ht by (by apply terms_of_class).
  pose proof (concrete_of _ _ _ W Hc) as Cc. split.
  - intros K%derives_kind. assert (arity c = 2 /\ derives 5 c CConnectable = true) as [A D] by (destruct c; try (vm_compute in Cc; discriminate); vm_compute in K; try discriminate; done).
    destruct (Ht D) as (l & Hl & Ll). rewrite A in Ll. assert (forall k, k < 2 -> b_terminal st p k = Ok (p, k)) as Hb.
    { intros k Hk. unfold b_terminal. rewrite bool_decide_true by done. destruct (lookup_lt_is_Some_2 l k) as [v Hv]; [lia|]. by rewrite (level_of_spec _ _ _ _ _ Hl Hv). }
    split; [done|]. unfold b_side. rewrite (Hb 0), (Hb 1) by lia. cbn [result_bind]. split.
    + intros [|[|k]] Hk; [|rewrite bool_decide_false by congruence|lia]; by rewrite bool_decide_true.
    + intros q k Hq. rewrite !bool_decide_false by congruence. eauto.
  - intros ->. destruct (Ht eq_refl) as (l & Hl & Ll). cbn [arity] in Ll. assert (forall k, k < 3 -> t_terminal st p k = Ok (p, k)) as Hb.
    { intros k Hk. unfold t_terminal. rewrite bool_decide_true by done. destruct (lookup_lt_is_Some_2 l k) as [v Hv]; [lia|]. by rewrite (level_of_spec _ _ _ _ _ Hl Hv). }
    split; [done|]. unfold t_side. rewrite (Hb 0), (Hb 1), (Hb 2) by lia. cbn [result_bind]. split.
    + intros [|[|[|k]]] Hk; [|rewrite bool_decide_false by congruence|rewrite !bool_decide_false by congruence|lia]; by rewrite bool_decide_true.
    + intros q k Hq. rewrite !bool_decide_false by congruence. eauto.
Qed.
(** getTerminal(id of a voltage level) of a branch: the terminal in that level when there is exactly one. *)
Theorem C81_terminal_at st p c i s : creach st -> object st p c i -> kind_of c CBranch ->
  (forall k, b_terminal_at st p s = Ok (p, k) <-> (exists v d, terminal_in st p k v /\ object st v d s) /\ forall k' v, k' <> k -> terminal_in st p k' v -> ~ exists d, object st v d s) /\
  ((exists x, b_terminal_at st p s = Ok x) \/ exists m, b_terminal_at st p s = Throw m).
Proof.
  intros W%creach_wf Ho K. assert (has_cls st p c) as Hc by (apply object_cls; eauto). pose proof (concrete_of _ _ _ W Hc) as Cc. apply derives_kind in K.
  assert (arity c = 2 /\ derives 5 c CConnectable = true) as [A D] by (destruct c; try (vm_compute in Cc; discriminate); vm_compute in K; try discriminate; done).
  destruct (terms_of_class _ _ _ W Hc D) as (l & Hl & Ll). rewrite A in Ll. destruct l as [|v1 [|v2 [|? ?]]]; try done. unfold b_terminal_at.
  rewrite (level_of_spec st p 0 _ v1 Hl eq_refl). cbn [result_bind]. rewrite (level_of_spec st p 1 _ v2 Hl eq_refl). cbn [result_bind].
  assert (forall v, v ∈ [v1; v2] -> (exists d, object st v d s) <-> id_at st v = s) as Hid.
  { intros v Hv. assert (is_Some (c_att st !! v)) as (d & Hd & _)%(cw_att _ W) by (by eapply (cw_in _ W)). apply object_cls in Hd as (s' & o & H1 & H2 & H3). unfold id_at. rewrite H1. split.
    - intros (d' & o' & H1' & _ & H3'). congruence.
    - intros <-. exists d, o. done. }
  assert (forall k v, terminal_in st p k v <-> (k = 0 /\ v = v1) \/ (k = 1 /\ v = v2)) as Hin.
  { intros k v. unfold terminal_in. rewrite Hl. split.
    - intros (l & [= <-] & H). destruct k as [|[|k]]; cbn in H; [injection H; auto|injection H; auto|]. done.
    - intros [[-> ->]|[-> ->]]; eauto. }
  pose proof (Hid v1 ltac:(left)) as Hid1. pose proof (Hid v2 ltac:(right; left)) as Hid2.
  assert (forall k, ((exists v d, terminal_in st p k v /\ object st v d s) <-> (k = 0 /\ id_at st v1 = s) \/ (k = 1 /\ id_at st v2 = s))) as He.
  { intros k. split.
    - intros (v & d & [[-> ->]|[-> ->]]%Hin & Hd); [left|right]; (split; [done|]); [apply Hid1|apply Hid2]; eauto.
    - intros [[-> [d H]%Hid1]|[-> [d H]%Hid2]]; [exists v1, d|exists v2, d]; (split; [apply Hin; auto|done]). }
  assert (forall k, k < 2 -> (forall k' v, k' <> k -> terminal_in st p k' v -> ~ exists d, object st v d s) <-> id_at st (if decide (k = 0) then v2 else v1) <> s) as Hu.
  { intros k Hk. split.
    - intros H. destruct k as [|[|k]]; [| |lia]; cbn; intros E.
      + apply (H 1 v2); [done|apply Hin; auto|by apply Hid2].
      + apply (H 0 v1); [done|apply Hin; auto|by apply Hid1].
    - intros H k' v Hk' Ht. apply Hin in Ht as [[-> ->]|[-> ->]].
      + rewrite Hid1. destruct k as [|[|k]]; [done|done|lia].
      + rewrite Hid2. destruct k as [|[|k]]; [done|done|lia]. }
  split.
  - intros k. rewrite He. destruct (bool_decide (id_at st v1 = s)) eqn:E1, (bool_decide (id_at st v2 = s)) eqn:E2; cbn [andb]; rewrite ?bool_decide_eq_true, ?bool_decide_eq_false in *.
    + split; [done|]. intros [[[-> _]|[-> _]] H]; apply Hu in H; try lia; cbn in H; done.
    + split; [intros [= <-]; split; [auto|]; apply Hu; [lia|done]|]. intros [[[-> _]|[-> ?]] _]; done.
    + split; [intros [= <-]; split; [auto|]; apply Hu; [lia|done]|]. intros [[[-> ?]|[-> _]] _]; done.
    + split; [done|]. intros [[[-> ?]|[-> ?]] _]; done.
  - destruct (bool_decide (id_at st v1 = s)), (bool_decide (id_at st v2 = s)); cbn [andb]; eauto.
Qed.
(** getCountries(): the countries of the substations, each once. *)
Theorem C81_countries st k : creach st -> k ∈ n_countries st <-> exists s i, object st s CSubstation i /\ c_country st !! s = Some k.
Proof.
  intros W%creach_wf. unfold n_countries. rewrite countries_fold. split.
  - intros [H|(s & _ & H)]; [by apply elem_of_empty in H|]. exists s. pose proof (cw_country _ W _ _ H) as [i Hi]%object_cls. eauto.
  - intros (s & i & Hi & H). right. exists s. split; [|done]. apply elem_of_n_all; [done|]. exists CSubstation, i. split; [done|apply rtc_refl].
Qed.

(** A network with a substation of two levels, a line between them and a load; the aliases of a level are known to the network and to the adder of the line, not to
    getTerminal. *)
Definition case_ops : list cop :=
  [QSubstation "S" false; QLevel 1 true "VL1" false; QLevel 1 false "VL2" false; QAlias 2 "A1" "" false; QLine false "A1" "VL2" "L" false; QLine true "VL1" "VL2" "TL" false;
   QTwo 1 "VL1" "VL2" "T" false; QThree 1 "VL1" "VL1" "VL2" "T3" false; QInjection CLoad 2 "LD" false; QCountry 1 (Some "FR"); QInjection CVscConverterStation 3 "C" false;
   QOther CSwitch "SW" false].
Definition runs (ops : list cop) : cat := foldl (fun st o => (cstep st o).2) (cat_init "N") ops.
Definition is_ab (st : cat) (t : cls) (p : nat) : bool := has_class st t p.
Definition cop_okb (st : cat) (o : cop) : bool :=
  match o with
  | QSubstation _ _ | QLine _ _ _ _ _ => true
  | QCountry s _ | QLevel s _ _ _ | QTwo s _ _ _ _ | QThree s _ _ _ _ _ => is_ab st CSubstation s
  | QInjection c v _ _ => derives 5 c CInjection && concreteb c && is_ab st CVoltageLevel v
  | QOther c _ _ => bool_decide (c ∈ [CConfiguredBus; CSwitch; CHvdcLine])
  | QRemove p => is_ab st CConnectable p || is_ab st CSwitch p || is_ab st CHvdcLine p
  | QAlias p _ _ _ | QUnalias p _ => is_ab st CIdentifiable p
  end.
Fixpoint all_okb (st : cat) (ops : list cop) : bool := match ops with [] => true | o :: ops' => cop_okb st o && all_okb (cstep st o).2 ops' end.
Lemma cop_okb_sound st o : creach st -> cop_okb st o = true -> cop_ok st o.
Proof.
  intros W%creach_wf. destruct o; cbn [cop_okb cop_ok]; unfold is_ab; rewrite <- ?(is_a_class _ _ _ W); try done.
  - intros [[H1 H2]%andb_true_iff H3]%andb_true_iff. split; [by apply derives_kind|]. split; [by apply concreteb_spec|by apply is_a_class].
  - apply bool_decide_eq_true.
  - intros [[H|H]%orb_true_iff|H]%orb_true_iff; apply is_a_class in H; auto.
Qed.
Lemma runs_reach ops : forall st, creach st -> all_okb st ops = true -> creach (foldl (fun st o => (cstep st o).2) st ops).
Proof.
  induction ops as [|o ops IH]; intros st R H; [done|]. cbn [all_okb foldl] in *. apply andb_true_iff in H as [H1 H2]. apply IH; [|done]. apply creach_step; [done|]. by apply cop_okb_sound.
Qed.
Lemma case_reach : creach (runs case_ops).
Proof. apply runs_reach; [by apply creach_init|]. vm_compute. reflexivity. Qed.
Theorem C81_terminal_alias_refuted : exists st v p, creach st /\ n_get GVoltageLevel st "A1" = Ok v /\ n_get GBranch st "L" = Ok p /\ terminal_in st p 0 v /\ b_terminal_at st p "VL1" = Ok (p, 0) /\
  exists m, b_terminal_at st p "A1" = Throw m.
Proof.
  exists (runs case_ops), 2, 4. split; [apply case_reach|]. split; [vm_compute; reflexivity|]. split; [vm_compute; reflexivity|]. split; [exists [2; 3]; split; vm_compute; reflexivity|].
  split; [vm_compute; reflexivity|]. eexists. vm_compute. reflexivity.
Qed.
Example C81_case : let st := runs case_ops in
  n_all GLine st = [4; 5] /\ n_all GBranch st = [4; 5; 6] /\ n_count GBranch st = 3 /\ n_all GVoltageLevel st = [3; 2] /\ n_get GLine st "TL" = Ok 5 /\ is_throw (n_get GLine st "T") = true /\
  v_connectables CConnectable st 2 = Ok ["L"; "TL"; "T"; "T3"; "LD"] /\ v_connectables CBranch st 3 = Ok ["L"; "TL"; "T"] /\ v_get CConnectable st 2 "T3" = Ok (Some 7) /\
  is_throw (v_get CInjection st 2 "C") = true /\ v_get CLoad st 2 "C" = Ok None /\ s_transformers CTwoWindingsTransformer st 1 = Ok ["T"] /\ s_transformers CThreeWindingsTransformer st 1 = Ok ["T3"] /\
  t_side st 7 (7, 2) = Ok 2 /\ b_terminal_at st 6 "VL2" = Ok (6, 1) /\ elements (n_countries st) = ["FR"] /\ n_all GHvdcConverterStation st = [9] /\ n_count GIdentifiable st = 11 /\
  n_all GLine (cstep st (QRemove 5)).2 = [4] /\ v_connectables CBranch (cstep st (QRemove 5)).2 3 = Ok ["L"; "T"].
Proof. vm_compute. repeat split. Qed.
Print Assumptions C81_defined.
Print Assumptions C81_collections.
Print Assumptions C81_subclass.
Print Assumptions C81_connectables.
Print Assumptions C81_level.
Print Assumptions C81_level_get.
Print Assumptions C81_substation.
Print Assumptions C81_sides.
Print Assumptions C81_terminal_at.
Print Assumptions C81_countries.
Print Assumptions C81_terminal_alias_refuted.
