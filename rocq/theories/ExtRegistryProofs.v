From Verif Require Import ExtRegistry ExtRegistrySpec.

(** ** Registration *)
Lemma register_spec rg p rg' r : register rg p = (rg', r) ->
  (rg_providers rg !! p_name p = None /\ r = Ok tt /\ rg' = mkReg (<[p_name p := p]> (rg_providers rg)) (rg_libraries rg) (rg_mappings rg)) \/
  (is_Some (rg_providers rg !! p_name p) /\ is_throw r = true /\ rg' = rg).
Proof. unfold register. destruct (rg_providers rg !! p_name p) eqn:E; intros [= <- <-]; [right|left]; eauto. Qed.

Lemma register_all_frame ps : forall rg rg' r, register_all rg ps = (rg', r) ->
  rg_libraries rg' = rg_libraries rg /\ rg_mappings rg' = rg_mappings rg /\ (r = Ok tt \/ is_throw r = true) /\
  (forall n p, rg_providers rg !! n = Some p -> rg_providers rg' !! n = Some p) /\
  (forall n p, rg_providers rg' !! n = Some p -> rg_providers rg !! n = Some p \/ (p ∈ ps /\ p_name p = n)).
Proof.
  induction ps as [|p ps IH]; intros rg rg' r; simpl.
  - intros [= <- <-]. split_and!; [done|done|by left|done|by left].
  - destruct (register rg p) as [rg1 r1] eqn:E. apply register_spec in E as [(En & -> & ->)|([q Eq] & Ht & ->)].
    + intros H. apply IH in H as (L & M & Hr & K & N). cbn in *. split_and!; [done|done|done| |].
      * intros n q Hq. apply K. rewrite lookup_insert_ne; [done|]. intros Hx. congruence.
      * intros n q Hq. apply N in Hq as [Hq|[Hq Hn]]; [|right; split; [by right|done]].
        destruct (decide (p_name p = n)) as [<-|Hne]; [rewrite lookup_insert in Hq; injection Hq as <-; right; split; [by left|done]|].
        rewrite lookup_insert_ne in Hq by done. by left.
    + destruct r1; try done. intros [= <- <-]. split_and!; eauto.
Qed.

Lemma register_all_ok ps : forall rg,
  snd (register_all rg ps) = Ok tt <-> NoDup (p_name <$> ps) /\ (forall p, p ∈ ps -> rg_providers rg !! p_name p = None).
Proof.
  induction ps as [|p ps IH]; intros rg; simpl.
  - split; [|done]. intros _. split; [constructor|]. intros p Hp. by apply elem_of_nil in Hp.
  - destruct (register rg p) as [rg1 r1] eqn:E. apply register_spec in E as [(En & -> & ->)|([q Eq] & Ht & ->)].
    + rewrite IH. cbn. rewrite NoDup_cons. split.
      * intros [Hnd Hf]. split_and!; [|done|].
        -- intros Hin. apply elem_of_list_fmap in Hin as (q & Hq & Hin). specialize (Hf q Hin).
           rewrite <- Hq, lookup_insert in Hf. done.
        -- intros q Hq. apply elem_of_cons in Hq as [->|Hq]; [done|]. specialize (Hf q Hq).
           apply lookup_insert_None in Hf as [Hf _]. done.
      * intros [[Hni Hnd] Hf]. split; [done|]. intros q Hq. rewrite lookup_insert_ne; [apply Hf; by right|].
        intros Hn. apply Hni. rewrite Hn. by apply elem_of_list_fmap_1.
    + split.
      * destruct r1; done.
      * intros [_ Hf]. rewrite (Hf p) in Eq by (by left). done.
Qed.

Lemma register_all_all ps : forall rg rg', register_all rg ps = (rg', Ok tt) ->
  forall p, p ∈ ps -> rg_providers rg' !! p_name p = Some p.
Proof.
  induction ps as [|p ps IH]; intros rg rg' H q Hq; simpl in H; [by apply elem_of_nil in Hq|].
  destruct (register rg p) as [rg1 r1] eqn:E. apply register_spec in E as [(En & -> & ->)|([q' Eq] & Ht & ->)]; [|by destruct r1].
  apply elem_of_cons in Hq as [->|Hq]; [|by eapply IH].
  apply register_all_frame in H as (_ & _ & _ & K & _). apply K. cbn. by rewrite lookup_insert.
Qed.

(** ** One library *)
Definition lib_providers (path : string) (k : nat) (names : list string) : list provider :=
  (fun n => mkProvider n (Some (path, k))) <$> names.
Lemma lib_names path k names : p_name <$> lib_providers path k names = names.
Proof. unfold lib_providers. rewrite <- list_fmap_compose. induction names as [|n l IH]; [done|]. cbn. by f_equal. Qed.
Lemma elem_lib path k names p : p ∈ lib_providers path k names <-> p_name p ∈ names /\ p_code p = Some (path, k).
Proof.
  unfold lib_providers. rewrite elem_of_list_fmap. split.
  - intros (n & -> & Hn). done.
  - intros [Hn Hc]. exists (p_name p). split; [|done]. destruct p. cbn in *. by subst.
Qed.

Lemma load_library_cases disk rg path rg' r : load_library disk rg path = (rg', r) ->
  (rg' = rg /\ r = Ok tt /\ (is_Some (rg_libraries rg !! path) \/ forall names, disk path <> Library names)) \/
  (exists names, rg_libraries rg !! path = None /\ disk path = Library names /\
     exists rg1, register_all (mkReg (rg_providers rg) (rg_libraries rg) (S (rg_mappings rg))) (lib_providers path (rg_mappings rg) names) = (rg1, r) /\
     ((r = Ok tt /\ rg' = mkReg (rg_providers rg1) (<[path := rg_mappings rg]> (rg_libraries rg1)) (rg_mappings rg1)) \/
      (is_throw r = true /\ rg' = rg1))).
Proof.
  unfold load_library, lib_providers. destruct (rg_libraries rg !! path) eqn:El; [intros [= <- <-]; left; eauto|].
  destruct (disk path) as [| |names] eqn:Ed; [intros [= <- <-]; left; split_and!; [done|done|by right]..|].
  intros H. right. exists names. split_and!; [done|done|].
  destruct (register_all _ _) as [rg1 r1] eqn:Er. exists rg1.
  pose proof (register_all_frame _ _ _ _ Er) as (_ & _ & [->|Hr] & _).
  - injection H as <- <-. split; [done|]. left. done.
  - destruct r1; try done. injection H as <- <-. split; [done|]. by right.
Qed.

(** Invariant: every number given to a mapping is below the counter, names are the keys. *)
Definition rgwf (rg : registry) : Prop :=
  (forall n p, rg_providers rg !! n = Some p -> p_name p = n) /\
  (forall n p path k, rg_providers rg !! n = Some p -> p_code p = Some (path, k) -> k < rg_mappings rg) /\
  (forall path k, rg_libraries rg !! path = Some k -> k < rg_mappings rg).

(** What any call keeps. *)
Definition grows (rg rg' : registry) : Prop :=
  (forall n p, rg_providers rg !! n = Some p -> rg_providers rg' !! n = Some p) /\
  (forall path k, rg_libraries rg !! path = Some k -> rg_libraries rg' !! path = Some k) /\
  (forall path k, rg_libraries rg' !! path = Some k -> rg_libraries rg !! path = Some k \/ rg_mappings rg <= k) /\
  rg_mappings rg <= rg_mappings rg'.
Lemma grows_refl rg : grows rg rg.
Proof. split_and!; eauto. Qed.
Lemma grows_trans r1 r2 r3 : grows r1 r2 -> grows r2 r3 -> grows r1 r3.
Proof.
  intros (A & B & C & D) (A' & B' & C' & D'). split_and!; eauto; [|lia].
  intros path k H. destruct (C' _ _ H) as [H'|H']; [|right; lia]. destruct (C _ _ H') as [?|?]; [by left|right; lia].
Qed.

Lemma load_library_grows disk rg path rg' r : rgwf rg -> load_library disk rg path = (rg', r) ->
  grows rg rg' /\ rgwf rg' /\ (r = Ok tt \/ is_throw r = true).
Proof.
  intros W H. apply load_library_cases in H as [(-> & -> & _)|(names & El & Ed & rg1 & Hr & Hc)].
  - split_and!; [apply grows_refl|done|by left].
  - apply register_all_frame in Hr as (L & M & Hok & K & N). cbn in *. destruct W as (W1 & W2 & W3).
    assert (WP1 : forall n p, rg_providers rg1 !! n = Some p -> p_name p = n).
    { intros n p Hp. destruct (N _ _ Hp) as [?|[_ ?]]; eauto. }
    assert (WP2 : forall n p q k, rg_providers rg1 !! n = Some p -> p_code p = Some (q, k) -> k < S (rg_mappings rg)).
    { intros n p q k Hp Hk. destruct (N _ _ Hp) as [Hp'|[Hin _]]; [specialize (W2 _ _ _ _ Hp' Hk); lia|].
      apply elem_lib in Hin as [_ Hin]. rewrite Hk in Hin. injection Hin as -> ->. lia. }
    destruct Hc as [(-> & ->)|[Ht ->]].
    + split_and!; [| |by left].
      * split_and!; cbn; [done| | |lia].
        -- intros q k Hq. rewrite lookup_insert_ne; [by rewrite L|]. intros Hx. congruence.
        -- intros q k Hq. destruct (decide (path = q)) as [<-|Hne]; [rewrite lookup_insert in Hq; injection Hq as <-; by right|].
           rewrite lookup_insert_ne in Hq by done. rewrite L in Hq. by left.
      * split_and!; cbn; [done|rewrite M; done|]. intros q k Hq. rewrite M.
        destruct (decide (path = q)) as [<-|Hne]; [rewrite lookup_insert in Hq; injection Hq as <-; lia|].
        rewrite lookup_insert_ne in Hq by done. rewrite L in Hq. specialize (W3 _ _ Hq). lia.
    + split_and!; [| |by right].
      * split_and!; cbn; [done|by rewrite L|rewrite L; by left|lia].
      * split_and!; cbn; [done|rewrite M; done|]. intros q k Hq. rewrite L in Hq. rewrite M. specialize (W3 _ _ Hq). lia.
Qed.

Lemma load_entries_grows disk es : forall rg rg' r, rgwf rg -> load_entries disk rg es = (rg', r) ->
  grows rg rg' /\ rgwf rg' /\ (r = Ok tt \/ is_throw r = true).
Proof.
  induction es as [|e es IH]; intros rg rg' r W; simpl.
  - intros [= <- <-]. split_and!; [apply grows_refl|done|by left].
  - destruct (d_regular e && d_matches e); [|by apply IH].
    destruct (load_library disk rg (d_canonical e)) as [rg1 r1] eqn:E.
    pose proof (load_library_grows _ _ _ _ _ W E) as (G & W1 & [->|Ht]).
    + intros H. destruct (IH _ _ _ W1 H) as (G2 & W2 & Hr). split_and!; [by eapply grows_trans|done|done].
    + destruct r1; try done. intros [= <- <-]. split_and!; [done|done|by right].
Qed.

Lemma register_grows rg p rg' r : rgwf rg -> p_code p = None -> register rg p = (rg', r) ->
  grows rg rg' /\ rgwf rg' /\ (r = Ok tt \/ is_throw r = true).
Proof.
  intros W Hc H. apply register_spec in H as [(En & -> & ->)|(_ & Ht & ->)]; [|split_and!; [apply grows_refl|done|by right]].
  destruct W as (W1 & W2 & W3). split_and!; [| |by left].
  - split_and!; cbn; eauto. intros n q Hq. rewrite lookup_insert_ne; [done|]. intros Hx. congruence.
  - split_and!; cbn; [| |done].
    + intros n q Hq. destruct (decide (p_name p = n)) as [<-|Hne]; [rewrite lookup_insert in Hq; by injection Hq as <-|].
      rewrite lookup_insert_ne in Hq by done. eauto.
    + intros n q path k Hq Hk. destruct (decide (p_name p = n)) as [<-|Hne]; [rewrite lookup_insert in Hq; injection Hq as <-; congruence|].
      rewrite lookup_insert_ne in Hq by done. eauto.
Qed.

Lemma rgstep_grows rg o : rgwf rg ->
  grows rg (fst (rgstep rg o)) /\ rgwf (fst (rgstep rg o)) /\ (snd (rgstep rg o) = Ok tt \/ is_throw (snd (rgstep rg o)) = true).
Proof.
  intros W. destruct o as [name|disk t]; simpl.
  - destruct (register rg (mkProvider name None)) as [rg' r] eqn:E. exact (register_grows rg (mkProvider name None) _ _ W eq_refl E).
  - destruct t as [| |es]; simpl; [split_and!; [apply grows_refl|done|by right]..|].
    destruct (load_entries disk rg es) as [rg' r] eqn:E. exact (load_entries_grows _ _ _ _ _ W E).
Qed.
Lemma rgrun_grows os : forall rg, rgwf rg -> grows rg (rgrun rg os) /\ rgwf (rgrun rg os).
Proof.
  induction os as [|o os IH]; intros rg W; simpl; [split; [apply grows_refl|done]|].
  pose proof (rgstep_grows rg o W) as (G & W1 & _). destruct (IH _ W1) as [G2 W2]. split; [by eapply grows_trans|done].
Qed.
Lemma rg_init_eq : rg_init =
  mkReg (<["slackTerminal" := mkProvider "slackTerminal" None]> (<["detail" := mkProvider "detail" None]> ∅)) ∅ 0.
Proof. reflexivity. Qed.
Lemma rg_init_wf : rgwf rg_init.
Proof.
  rewrite rg_init_eq.
  split_and!.
  - intros n p. cbn [rg_providers rg_libraries]. rewrite lookup_insert_Some. intros [[<- <-]|[_ H]]; [done|].
    rewrite lookup_insert_Some in H. destruct H as [[<- <-]|[_ H]]; [done|]. by rewrite lookup_empty in H.
  - intros n p path k. cbn [rg_providers rg_libraries]. rewrite lookup_insert_Some. intros [[<- <-]|[_ H]]; [done|].
    rewrite lookup_insert_Some in H. destruct H as [[<- <-]|[_ H]]; [done|]. by rewrite lookup_empty in H.
  - intros path k. cbn [rg_providers rg_libraries]. by rewrite lookup_empty.
Qed.
Lemma reachable_wf rg : reachable rg -> rgwf rg.
Proof. intros [os ->]. apply rgrun_grows, rg_init_wf. Qed.

(** ** Success of a load *)
Lemma to_load_cons disk rg e es path names : d_regular e && d_matches e = false ->
  to_load disk rg (e :: es) path names <-> to_load disk rg es path names.
Proof.
  intros He. unfold to_load, chosen. split.
  - intros ((e' & Hin & Hr & Hm & Hc) & R). split; [|done]. apply elem_of_cons in Hin as [->|Hin]; [by rewrite Hr, Hm in He|eauto 10].
  - intros ((e' & Hin & Hr & Hm & Hc) & R). split; [|done]. exists e'. split; [by right|]. done.
Qed.
Lemma chosen_cons_l e es : d_regular e && d_matches e = true -> chosen (e :: es) (d_canonical e).
Proof. intros [? ?]%andb_prop. exists e. split; [by left|done]. Qed.
Lemma chosen_cons_r e es path : chosen es path -> chosen (e :: es) path.
Proof. intros (e' & Hin & H). exists e'. split; [by right|exact H]. Qed.
Lemma chosen_cons_inv e es path : chosen (e :: es) path -> path = d_canonical e \/ chosen es path.
Proof. intros (e' & Hin & ? & ? & <-). apply elem_of_cons in Hin as [->|Hin]; [by left|right]. exists e'. done. Qed.

(** The providers after loading one library without conflict. *)
Definition lib_fresh (rg : registry) (names : list string) : Prop := NoDup names /\ forall n, n ∈ names -> rg_providers rg !! n = None.
Lemma load_library_ok disk rg path names : rg_libraries rg !! path = None -> disk path = Library names -> lib_fresh rg names ->
  exists rg', load_library disk rg path = (rg', Ok tt) /\
    rg_libraries rg' = <[path := rg_mappings rg]> (rg_libraries rg) /\
    (forall n, n ∉ names -> rg_providers rg' !! n = rg_providers rg !! n) /\
    (forall n, n ∈ names -> rg_providers rg' !! n = Some (mkProvider n (Some (path, rg_mappings rg)))).
Proof.
  intros El Ed [Hnd Hf]. destruct (load_library disk rg path) as [rg' r] eqn:E.
  apply load_library_cases in E as [(_ & _ & [[k Hk]|Hn])|(names' & _ & Ed' & rg1 & Hr & Hc)]; [congruence|by destruct (Hn names)|].
  rewrite Ed in Ed'. injection Ed' as <-.
  assert (snd (register_all (mkReg (rg_providers rg) (rg_libraries rg) (S (rg_mappings rg))) (lib_providers path (rg_mappings rg) names)) = Ok tt) as Hok.
  { apply register_all_ok. rewrite lib_names. split; [done|]. intros p Hp. apply elem_lib in Hp as [Hp _]. by apply Hf. }
  rewrite Hr in Hok. cbn in Hok. subst r. destruct Hc as [[_ ->]|[Ht _]]; [|done].
  eexists. split; [reflexivity|]. pose proof (register_all_frame _ _ _ _ Hr) as (L & M & _ & K & N). cbn in *. split_and!.
  - by rewrite L.
  - intros n Hn. destruct (rg_providers rg !! n) as [p|] eqn:Ep; [by apply K|].
    destruct (rg_providers rg1 !! n) as [p|] eqn:Ep1; [|done]. exfalso. apply N in Ep1 as [?|[Hin <-]]; [congruence|].
    apply elem_lib in Hin as [? _]. done.
  - intros n Hn. eapply (register_all_all _ _ _ Hr (mkProvider n (Some (path, rg_mappings rg)))). by apply elem_lib.
Qed.
Lemma load_library_throw disk rg path names : rg_libraries rg !! path = None -> disk path = Library names -> ~ lib_fresh rg names ->
  is_throw (snd (load_library disk rg path)) = true.
Proof.
  intros El Ed Hn. destruct (load_library disk rg path) as [rg' r] eqn:E.
  apply load_library_cases in E as [(_ & _ & [[k Hk]|Hn'])|(names' & _ & Ed' & rg1 & Hr & [[-> _]|[Ht _]])]; [congruence|by destruct (Hn' names)| |done].
  exfalso. apply Hn. rewrite Ed in Ed'. injection Ed' as <-.
  assert (snd (register_all (mkReg (rg_providers rg) (rg_libraries rg) (S (rg_mappings rg))) (lib_providers path (rg_mappings rg) names)) = Ok tt) as Hok
    by by rewrite Hr.
  apply register_all_ok in Hok as [Hnd Hf]. rewrite lib_names in Hnd. split; [done|]. intros n Hin.
  apply (Hf (mkProvider n (Some (path, rg_mappings rg)))). by apply elem_lib.
Qed.
Lemma load_library_skip disk rg path : (is_Some (rg_libraries rg !! path) \/ forall names, disk path <> Library names) ->
  load_library disk rg path = (rg, Ok tt).
Proof.
  unfold load_library. intros [[k ->]|Hn]; [done|]. destruct (rg_libraries rg !! path); [done|].
  destruct (disk path) as [| |names]; [done..|]. by destruct (Hn names).
Qed.

(** The effect of a load without conflict. *)
Definition loaded (disk : string -> dll) (rg : registry) (es : list dentry) (rg' : registry) : Prop :=
  (forall path, is_Some (rg_libraries rg' !! path) <-> is_Some (rg_libraries rg !! path) \/ exists names, to_load disk rg es path names) /\
  (forall n, (forall path names, to_load disk rg es path names -> n ∉ names) -> rg_providers rg' !! n = rg_providers rg !! n) /\
  (forall n path names, to_load disk rg es path names -> n ∈ names ->
     exists k, rg_providers rg' !! n = Some (mkProvider n (Some (path, k))) /\ rg_libraries rg' !! path = Some k).

Lemma load_entries_spec disk es : forall rg, rgwf rg ->
  (no_conflict disk rg es -> snd (load_entries disk rg es) = Ok tt /\ loaded disk rg es (fst (load_entries disk rg es))) /\
  (snd (load_entries disk rg es) = Ok tt -> no_conflict disk rg es).
Proof.
  induction es as [|e es IH]; intros rg W; simpl.
  - split; [intros _; split; [done|]|intros _].
    + split_and!; [|done|].
      * intros path. split; [by left|]. intros [?|(names & (e & Hin & _) & _)]; [done|]. by apply elem_of_nil in Hin.
      * intros n path names ((e & Hin & _) & _). by apply elem_of_nil in Hin.
    + intros path names ((e & Hin & _) & _). by apply elem_of_nil in Hin.
  - destruct (d_regular e && d_matches e) eqn:He.
    2:{ pose proof (fun path names => to_load_cons disk rg e es path names He) as Hto. destruct (IH rg W) as [IH1 IH2]. split.
        - intros Hc. destruct IH1 as (Hok & L1 & L2 & L3).
          + intros path names Hp. apply Hto in Hp. destruct (Hc _ _ Hp) as (A & B & C). split_and!; [done|done|].
            intros p' n' n Hp'. apply (C p' n'). by apply Hto.
          + split; [done|]. split_and!.
            * intros path. rewrite L1. by setoid_rewrite Hto.
            * intros n Hn. apply L2. intros path names Hp. apply (Hn path). by apply Hto.
            * intros n path names Hp. apply L3. by apply Hto.
        - intros Hok path names Hp. apply Hto in Hp. destruct (IH2 Hok _ _ Hp) as (A & B & C). split_and!; [done|done|].
          intros p' n' n Hp'. apply Hto in Hp'. by apply (C p' n'). }
    set (path0 := d_canonical e) in *.
    assert (decide_lib : (is_Some (rg_libraries rg !! path0) \/ (forall names, disk path0 <> Library names)) \/
      exists names0, rg_libraries rg !! path0 = None /\ disk path0 = Library names0).
    { destruct (rg_libraries rg !! path0) eqn:El; [left; left; eauto|]. destruct (disk path0) as [| |names0] eqn:Ed; [left; by right..|right; eauto]. }
    destruct decide_lib as [Hskip|(names0 & El & Ed)].
    + rewrite load_library_skip by done. destruct (IH rg W) as [IH1 IH2].
      assert (Hto : forall path names, to_load disk rg (e :: es) path names <-> to_load disk rg es path names).
      { intros path names. unfold to_load. split; [|intros (A & B); split; [by apply chosen_cons_r|done]].
        intros (A & B & C). apply chosen_cons_inv in A as [->|A]; [|done]. exfalso. fold path0 in B, C.
        destruct Hskip as [[k Hk]|Hn]; [congruence|]. by apply (Hn names). }
      split.
      * intros Hc. destruct IH1 as (Hok & L1 & L2 & L3).
        -- intros path names Hp. apply Hto in Hp. destruct (Hc _ _ Hp) as (A & B & C). split_and!; [done|done|].
           intros p' n' n Hp'. apply (C p' n'). by apply Hto.
        -- split; [done|]. split_and!.
           ++ intros path. rewrite L1. by setoid_rewrite Hto.
           ++ intros n Hn. apply L2. intros path names Hp. apply (Hn path). by apply Hto.
           ++ intros n path names Hp. apply L3. by apply Hto.
      * intros Hok path names Hp. apply Hto in Hp. destruct (IH2 Hok _ _ Hp) as (A & B & C). split_and!; [done|done|].
        intros p' n' n Hp'. apply Hto in Hp'. by apply (C p' n').
    + assert (H0 : to_load disk rg (e :: es) path0 names0) by (split_and!; [by apply chosen_cons_l|done|done]).
      assert (Hfd : lib_fresh rg names0 \/ ~ lib_fresh rg names0).
      { destruct (decide (NoDup names0)) as [Hnd|Hnd]; [|right; by intros [? _]].
        destruct (decide (Forall (fun n => rg_providers rg !! n = None) names0)) as [Hf|Hf].
        - left. split; [done|]. by rewrite Forall_forall in Hf.
        - right. intros [_ H]. apply Hf. by rewrite Forall_forall. }
      destruct Hfd as [Hfr|Hnf].
      * destruct (load_library_ok disk rg path0 names0 El Ed Hfr) as (rg1 & E1 & Lb & Pn & Pi). rewrite E1.
        pose proof (load_library_grows _ _ _ _ _ W E1) as (_ & W1 & _). destruct (IH rg1 W1) as [IH1 IH2].
        assert (Hto : forall path names, to_load disk rg1 es path names <-> path <> path0 /\ to_load disk rg (e :: es) path names).
        { intros path names. unfold to_load. rewrite Lb. split.
          - intros (A & B & C). apply lookup_insert_None in B as [B1 B2]. split; [done|]. split_and!; [by apply chosen_cons_r|done|done].
          - intros (Hne & A & B & C). apply chosen_cons_inv in A as [->|A]; [done|]. split_and!; [done| |done].
            by rewrite lookup_insert_ne. }
        split.
        -- intros Hc. destruct IH1 as (Hok & L1 & L2 & L3).
           ++ intros path names Hp. apply Hto in Hp as [Hne Hp]. destruct (Hc _ _ Hp) as (A & B & C). split_and!; [done| |].
              ** intros n Hn. unfold find_provider. rewrite Pn; [by apply B|]. by apply (C path0 names0).
              ** intros p' n' n Hp'. apply Hto in Hp' as [_ Hp']. by apply (C p' n').
           ++ split; [done|]. split_and!.
              ** intros path. rewrite L1, Lb. destruct (decide (path = path0)) as [->|Hne].
                 --- rewrite lookup_insert. split; [intros _; right; eauto|]. intros _. left. by eexists.
                 --- rewrite lookup_insert_ne by done. setoid_rewrite Hto. naive_solver.
              ** intros n Hn. rewrite L2.
                 --- apply Pn. by apply (Hn path0).
                 --- intros path names Hp. apply Hto in Hp as [_ Hp]. by apply (Hn path).
              ** intros n path names Hp Hn. destruct (decide (path = path0)) as [->|Hne].
                 --- destruct Hp as (_ & _ & Ed'). rewrite Ed in Ed'. injection Ed' as <-.
                     exists (rg_mappings rg). destruct (load_entries disk rg1 es) as [rg2 r2] eqn:E2.
                     pose proof (load_entries_grows _ _ _ _ _ W1 E2) as ((G1 & G2 & _) & _). cbn. split.
                     +++ apply G1. by apply Pi.
                     +++ apply G2. rewrite Lb. by rewrite lookup_insert.
                 --- apply (L3 n path names); [|done]. by apply Hto.
        -- intros Hok path names Hp. specialize (IH2 Hok).
           assert (Hother : forall path names, path <> path0 -> to_load disk rg (e :: es) path names -> forall n, n ∈ names -> n ∉ names0 /\ rg_providers rg !! n = None).
           { intros q ns Hne Hq n Hn. destruct (IH2 q ns) as (_ & B & _); [by apply Hto|]. specialize (B n Hn). unfold find_provider in B.
             destruct (decide (n ∈ names0)) as [Hin|Hin]; [by rewrite (Pi n Hin) in B|]. by rewrite (Pn n Hin) in B. }
           destruct (decide (path = path0)) as [->|Hne].
           ++ destruct Hp as (_ & _ & Ed'). rewrite Ed in Ed'. injection Ed' as <-. destruct Hfr as [Hnd Hf]. split_and!; [done|done|].
              intros p' n' n Hp' Hne Hn Hn'. by destruct (Hother p' n' (not_eq_sym Hne) Hp' n Hn').
           ++ destruct (IH2 path names) as (A & B & C); [by apply Hto|]. split_and!; [done| |].
              ** intros n Hn. by apply (Hother path names Hne Hp).
              ** intros p' n' n Hp' Hne' Hn. destruct (decide (p' = path0)) as [->|Hne''].
                 --- destruct Hp' as (_ & _ & Ed'). rewrite Ed in Ed'. injection Ed' as <-. by apply (Hother path names Hne Hp).
                 --- apply (C p' n' n); [|done|done]. by apply Hto.
      * pose proof (load_library_throw disk rg path0 names0 El Ed Hnf) as Ht.
        destruct (load_library disk rg path0) as [rg1 r1]. cbn in Ht. destruct r1; try done. split.
        -- intros Hc. exfalso. apply Hnf. destruct (Hc _ _ H0) as (A & B & _). by split.
        -- done.
Qed.

(** The entries are finite: one of them brings a serializer for the extension, or none. *)
Lemma to_load_search disk rg n : forall l,
  (exists path names, to_load disk rg l path names /\ n ∈ names) \/ (forall path names, to_load disk rg l path names -> n ∉ names).
Proof.
  induction l as [|e l IHl]; [right; intros ? ? ((e & Hin & _) & _); by apply elem_of_nil in Hin|].
  destruct IHl as [(q & ns & Hq & Hn)|Hno].
  - left. exists q, ns. split; [|done]. destruct Hq as (A & B). split; [by apply chosen_cons_r|done].
  - destruct (d_regular e && d_matches e) eqn:He.
    2:{ right. intros q ns Hq. apply (Hno q). by apply to_load_cons in Hq. }
    destruct (rg_libraries rg !! d_canonical e) eqn:El.
    { right. intros q ns (A & B & C). apply chosen_cons_inv in A as [->|A]; [congruence|]. by apply (Hno q). }
    destruct (disk (d_canonical e)) as [| |ns0] eqn:Ed.
    1-2: right; intros q ns (A & B & C); apply chosen_cons_inv in A as [->|A]; [congruence|by apply (Hno q)].
    destruct (decide (n ∈ ns0)) as [Hin|Hin].
    + left. exists (d_canonical e), ns0. split; [|done]. split_and!; [by apply chosen_cons_l|done|done].
    + right. intros q ns (A & B & C). apply chosen_cons_inv in A as [->|A]; [by rewrite Ed in C; injection C as <-|]. by apply (Hno q).
Qed.

(** ** Use *)
Definition all_usable (rg : registry) : Prop := forall n p, rg_providers rg !! n = Some p -> use rg p = Ok (p_name p).
Lemma use_ok rg p : use rg p = Ok (p_name p) <-> forall path k, p_code p = Some (path, k) -> rg_libraries rg !! path = Some k.
Proof.
  unfold use. destruct (p_code p) as [[path k]|]; [|done]. case_bool_decide as E; split; [intros _ ? ? [= <- <-]; done|done|done|].
  intros H. exfalso. by apply E, H.
Qed.
Lemma use_ub rg p : use rg p = UB <-> exists path k, p_code p = Some (path, k) /\ rg_libraries rg !! path <> Some k.
Proof.
  unfold use. destruct (p_code p) as [[path k]|]; [|split; [done|by intros (? & ? & ? & _)]].
  case_bool_decide as E; split; [done| |by eauto|done]. intros (? & ? & [= <- <-] & ?). done.
Qed.
Lemma grows_use rg rg' p : grows rg rg' -> use rg p = Ok (p_name p) -> use rg' p = Ok (p_name p).
Proof. intros (_ & B & _) H. apply use_ok. intros path k Hp. apply B. exact (proj1 (use_ok rg p) H path k Hp). Qed.
Lemma destroy_ok rg : all_usable rg -> destroy rg = Ok tt.
Proof.
  intros H. unfold destroy. assert (Hl : Forall (fun x => use rg x.2 = Ok (p_name x.2)) (map_to_list (rg_providers rg))).
  { rewrite Forall_forall. intros [n p] Hin. apply elem_of_map_to_list in Hin. by apply (H n). }
  induction Hl as [|x l Hx _ IH]; [done|]. simpl. by rewrite Hx.
Qed.
Lemma use_cases rg p : use rg p = Ok (p_name p) \/ use rg p = UB.
Proof. unfold use. destruct (p_code p) as [[path k]|]; [|by left]. case_bool_decide; [by left|by right]. Qed.
Lemma destroy_ub rg n p : rg_providers rg !! n = Some p -> use rg p = UB -> destroy rg = UB.
Proof.
  intros Hp Hu. unfold destroy. assert (Hin : (n, p) ∈ map_to_list (rg_providers rg)) by by apply elem_of_map_to_list.
  induction (map_to_list (rg_providers rg)) as [|x l IH]; [by apply elem_of_nil in Hin|]. simpl.
  apply elem_of_cons in Hin as [<-|Hin]; [cbn [snd]; by rewrite Hu|].
  destruct (use_cases rg x.2) as [->| ->]; [by apply IH|done].
Qed.

Lemma careful_usable os : forall rg, rgwf rg -> all_usable rg -> careful rg os -> all_usable (rgrun rg os).
Proof.
  induction os as [|o os IH]; intros rg W U; simpl; [done|]. intros [Ho Hc].
  pose proof (rgstep_grows rg o W) as (G & W1 & _). apply IH; [done| |done].
  intros n p Hp. destruct (rg_providers rg !! n) as [q|] eqn:Eq.
  { pose proof (proj1 G _ _ Eq) as Hq. rewrite Hp in Hq. injection Hq as <-. eapply grows_use; [done|by eapply U]. }
  destruct o as [name|disk t]; simpl in *.
  - destruct (register rg (mkProvider name None)) as [rg' r] eqn:E. cbn in *.
    apply register_spec in E as [(En & _ & ->)|(_ & _ & ->)]; [|congruence]. cbn in Hp.
    rewrite lookup_insert_Some in Hp. destruct Hp as [[_ <-]|[_ ?]]; [done|congruence].
  - destruct t as [| |es]; cbn in *; [congruence..|].
    destruct (proj1 (load_entries_spec disk es rg W) Ho) as (_ & L1 & L2 & L3).
    destruct (load_entries disk rg es) as [rg' r] eqn:E. cbn in *.
    apply use_ok. intros path k Hk.
    assert (Hex : exists path names, to_load disk rg es path names /\ n ∈ names).
    { destruct (to_load_search disk rg n es) as [?|Hno]; [done|]. rewrite (L2 n Hno) in Hp. congruence. }
    destruct Hex as (q & ns & Hq & Hn). destruct (L3 n q ns Hq Hn) as (k' & Hp' & Hl). rewrite Hp in Hp'. injection Hp' as ->.
    cbn in Hk. by injection Hk as <- <-.
Qed.
Lemma rg_init_usable : all_usable rg_init.
Proof.
  rewrite rg_init_eq. intros n p. cbn [rg_providers]. rewrite lookup_insert_Some. intros [[<- <-]|[_ H]]; [done|].
  rewrite lookup_insert_Some in H. destruct H as [[<- <-]|[_ H]]; [done|]. by rewrite lookup_empty in H.
Qed.

(** A dangling provider stays so. *)
Lemma dangling_forever rg n p os : rgwf rg -> rg_providers rg !! n = Some p -> use rg p = UB ->
  rg_providers (rgrun rg os) !! n = Some p /\ use (rgrun rg os) p = UB.
Proof.
  intros W Hp Hu. destruct (rgrun_grows os rg W) as ((A & B & C & D) & _). split; [by apply A|].
  apply use_ub in Hu as (path & k & Hk & Hl). apply use_ub. exists path, k. split; [done|]. intros Hl'.
  destruct (C _ _ Hl') as [?|Hge]; [done|]. destruct W as (_ & W2 & _). specialize (W2 _ _ _ _ Hp Hk). lia.
Qed.
(** A library with two serializers for one extension, or a serializer for an extension already registered after a new one. *)
Lemma conflict_dangles disk rg path n names : rgwf rg -> rg_libraries rg !! path = None -> disk path = Library (n :: names) ->
  rg_providers rg !! n = None -> ~ lib_fresh rg (n :: names) ->
  let rg' := fst (load_library disk rg path) in
  is_throw (snd (load_library disk rg path)) = true /\
  exists p, rg_providers rg' !! n = Some p /\ use rg' p = UB.
Proof.
  intros W El Ed Hn Hnf. split; [by eapply load_library_throw|].
  pose proof (load_library_throw _ _ _ _ El Ed Hnf) as Ht. destruct (load_library disk rg path) as [rg' r] eqn:E. cbn in Ht |- *.
  apply load_library_cases in E as [(_ & -> & _)|(names' & _ & Ed' & rg1 & Hr & Hc)]; [done|].
  rewrite Ed in Ed'. injection Ed' as <-. destruct Hc as [[-> _]|[_ ->]]; [done|].
  exists (mkProvider n (Some (path, rg_mappings rg))). unfold lib_providers in Hr. rewrite fmap_cons in Hr.
  cbn [register_all] in Hr. unfold register in Hr at 1. cbn [rg_providers p_name] in Hr. rewrite Hn in Hr.
  apply register_all_frame in Hr as (L & _ & _ & K & _). cbn in *. split.
  - apply K. by rewrite lookup_insert.
  - rewrite bool_decide_eq_false_2; [done|]. rewrite L. congruence.
Qed.
