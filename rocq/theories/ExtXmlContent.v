(** One extension: written and read back. *)
From Verif Require Import Xml XmlSpec XmlProofs Anonymizer AnonymizerProofs NetXml NetXmlSpec NetXmlFields NetXmlParts ExtXml ExtXmlSpec.

(** * Tables. *)
Lemma ext_table k : table_ok V1_5 (ext_fields k).
Proof.
  assert (H : forallb (fun k => forallb (field_tbl V1_5) (ext_fields k) && bool_decide (NoDup (keys V1_5 (ext_fields k)))) known = true) by (vm_compute; reflexivity).
  destruct (decide (k ∈ known)) as [Hk|N].
  - rewrite forallb_forall in H. apply elem_of_list_In in Hk. specialize (H k Hk). apply andb_prop in H as [H1 H2]. apply bool_decide_eq_true in H2. split; [|done].
    apply Forall_forall. intros d Hd. rewrite forallb_forall in H1. apply H1. by apply elem_of_list_In.
  - destruct k; try (exfalso; apply N; apply (bool_decide_eq_true_1 _); vm_compute; reflexivity). split; constructor.
Qed.
Lemma child_names k n ds : child_fields k n = Some ds -> n <> kind_name k /\ n <> "property" /\ has_children_ext k = true.
Proof.
  intros H. destruct k; try done; cbn [child_fields] in H.
  - case_bool_decide as E; [|done]. unfold feeders in E. rewrite !elem_of_cons in E. destruct E as [->|[->|[->|[->|E%elem_of_nil]]]]; done.
  - destruct (String.eqb_spec n "measurement") as [->|]; done.
  - destruct (String.eqb_spec n "discreteMeasurement") as [->|]; done.
Qed.
Lemma child_table k n ds : child_fields k n = Some ds -> table_ok V1_5 ds.
Proof.
  assert (P : forall ds : list fdesc, forallb (field_tbl V1_5) ds && bool_decide (NoDup (keys V1_5 ds)) = true -> table_ok V1_5 ds).
  { intros ds' H. apply andb_prop in H as [H1 H2]. apply bool_decide_eq_true in H2. split; [|done]. apply Forall_forall. intros d Hd. rewrite forallb_forall in H1. apply H1. by apply elem_of_list_In. }
  intros H. destruct k; try done; cbn [child_fields] in H.
  - case_bool_decide; [|done]. injection H as <-. apply P. vm_compute. reflexivity.
  - destruct (String.eqb _ _); [|done]. injection H as <-. apply P. vm_compute. reflexivity.
  - destruct (String.eqb _ _); [|done]. injection H as <-. apply P. vm_compute. reflexivity.
Qed.

(** * Properties of measurements. *)
Lemma props_eaten name ps s : NoDup ps.*1 -> eats_all prop_handler name s (map write_prop ps) (list_to_map ps ∪ s).
Proof.
  revert s. induction ps as [|[k x] ps IH]; intros s N; cbn [map].
  - cbn. rewrite (left_id_L ∅ _). constructor.
  - rewrite fmap_cons, NoDup_cons in N. destruct N as [Nk N]. cbn [fst] in Nk. econstructor; [apply (eats_whole _ _ _ _ (<[k := x]> s)); done|].
    cbn [list_to_map foldr uncurry]. replace (<[k:=x]> (list_to_map ps) ∪ s) with (list_to_map ps ∪ <[k:=x]> s : gmap string string); [by apply IH|].
    rewrite <- insert_union_l, <- insert_union_r; [done|]. by apply not_elem_of_list_to_map.
Qed.
Lemma prop_stops name ps : name <> "property" -> Forall (fun e => stops name e = false) (mjoin (events <$> map write_prop ps)).
Proof. intros N. induction ps as [|p ps IH]; [constructor|]. cbn [map]. change (mjoin (events <$> write_prop p :: ?l)) with (events (write_prop p) ++ mjoin (events <$> l)). apply Forall_app. split; [|done]. repeat constructor. Qed.

Section anonymized.
Context (a : bool).
Notation winv := (winv a).
Notation grows := (grows a).
(** * Sub-elements. *)
Definition child_ok (k : ekind) (c : child) : Prop :=
  exists ds, child_fields k (ch_name c) = Some ds /\ Forall2 (doc_ok1 a V1_5) ds (ch_fields c) /\ zip_with (doc_field V1_5) ds (ch_fields c) = ch_fields c /\ (has_props k = false -> ch_props c = ∅).
Lemma write_child_ok k c m x m' : child_ok k c -> winv m -> write_ext_child k c m = (x, m') ->
  grows m m' /\ named (ch_name c) x /\ Forall (fun e => stops (kind_name k) e = false) (events x) /\
  forall mf, available m' mf -> forall fuel cs rest, length (events x) <= fuel -> read_ext_child fuel mf k cs (events x ++ rest) = Ok (add_ext_child k c cs, end_of x :: rest).
Proof.
  intros (ds & Ed & F & Z & P) W E. unfold write_ext_child in E. rewrite Ed in E. cbn [default from_option id] in E. destruct (write_fields V1_5 ds (ch_fields c) m) as [al m1] eqn:A. injection E as <- <-.
  destruct (child_names _ _ _ Ed) as (N1 & N2 & _). destruct (write_fields_ok a V1_5 ds _ _ _ _ (child_table _ _ _ Ed) F W A) as [G R]. split; [done|]. split; [by do 3 eexists|].
  set (ps := if has_props k then map write_prop (map_to_list (ch_props c)) else []). split.
  { assert (Fp : Forall (fun e => stops (kind_name k) e = false) (mjoin (events <$> ps))).
    { unfold ps. destruct (has_props k) eqn:Hp; [|constructor]. apply prop_stops. by destruct k. }
    unfold elem. destruct ps as [|p ps']; [by repeat constructor|]. rewrite events_elem. constructor; [done|]. apply Forall_app. split; [done|]. constructor; [|constructor]. cbn [stops]. by apply String.eqb_neq. }
  intros mf Hm fuel cs rest L. destruct (R mf Hm) as [_ R']. assert (exists e more, events (elem (ch_name c) al ps) = EStart (ch_name c) al e :: more) as (e & more & Ev) by (unfold elem; destruct ps; do 2 eexists; reflexivity).
  unfold read_ext_child. rewrite (local_named (ch_name c)) by (by do 3 eexists). cbn [result_bind]. rewrite Ed. rewrite Ev. cbn [app]. rewrite R' by done. cbn [result_bind]. rewrite Z.
  change (EStart (ch_name c) al e :: more ++ rest) with ((EStart (ch_name c) al e :: more) ++ rest). rewrite <- Ev. unfold ps in *. destruct (has_props k) eqn:Hp.
  - destruct (read_until_eats _ (ch_name c) al _ _ _ rest fuel (props_eaten (ch_name c) (map_to_list (ch_props c)) ∅ (NoDup_fst_map_to_list _))) as [t T]; [lia|]. rewrite T. cbn [result_bind].
    rewrite list_to_map_to_list, (right_id_L ∅ (∪)). by destruct c.
  - cbn [result_bind]. specialize (P eq_refl). destruct c as [n xs props]. cbn in P |- *. by subst.
Qed.
(** * One extension. *)
Definition content_ok (e : ext) : Prop :=
  let k := e_kind e in
  k ∈ known /\ Forall2 (doc_ok1 a V1_5) (ext_fields k) (e_fields e) /\
  (if has_text k then blank (e_text e) = false /\ e_children e = []
   else e_text e = "" /\ Forall (child_ok k) (e_children e) /\ (k = KPosition -> arrange KPosition (e_children e) = e_children e /\ NoDup (ch_name <$> e_children e))).
Lemma add_children k cs ds : (k = KPosition -> NoDup (ch_name <$> ds ++ cs)) -> foldl (fun l c => add_ext_child k c l) ds cs = ds ++ cs.
Proof.
  revert ds. induction cs as [|c cs IH]; intros ds N; cbn [foldl]; [by rewrite app_nil_r|].
  assert (E : add_ext_child k c ds = ds ++ [c]).
  { destruct k; try done. cbn [add_ext_child]. f_equal. specialize (N eq_refl). rewrite fmap_app, NoDup_app in N. destruct N as (_ & N & _).
    clear -N. induction ds as [|d ds IH]; [done|]. cbn [List.filter]. destruct (String.eqb_spec (ch_name d) (ch_name c)) as [E|_].
    - exfalso. apply (N (ch_name d)); [rewrite fmap_cons; left|rewrite E, fmap_cons; left].
    - cbn [negb]. f_equal. apply IH. intros x Hx. apply N. rewrite fmap_cons. by right. }
  rewrite E, IH; [by rewrite <- app_assoc|]. intros K. rewrite <- app_assoc. by apply N.
Qed.
Definition reads_child (mf : option mapping) (k : ekind) (c : child) (x : xml) : Prop :=
  named (ch_name c) x /\ Forall (fun e => stops (kind_name k) e = false) (events x) /\
  forall fuel cs rest, length (events x) <= fuel -> read_ext_child fuel mf k cs (events x ++ rest) = Ok (add_ext_child k c cs, end_of x :: rest).
Lemma children_eaten mf fuel name k cs xs ds : Forall2 (reads_child mf k) cs xs -> length (mjoin (events <$> xs)) <= fuel ->
  eats_all (read_ext_child fuel mf k) name ds xs (foldl (fun l c => add_ext_child k c l) ds cs).
Proof.
  intros F. revert ds. induction F as [|c x cs xs (Nx & _ & R) F IH]; intros ds L; [constructor|]. change (mjoin (events <$> x :: xs)) with (events x ++ mjoin (events <$> xs)) in L. rewrite app_length in L.
  cbn [foldl]. econstructor; [|apply IH; lia]. destruct Nx as (al & e & ys & ->). apply eats_whole; [done|]. intros rest. apply R. lia.
Qed.
Lemma children_stop mf k cs xs : Forall2 (reads_child mf k) cs xs -> Forall (fun e => stops (kind_name k) e = false) (mjoin (events <$> xs)).
Proof. induction 1 as [|c x cs xs (_ & S & _) _ IH]; [constructor|]. change (mjoin (events <$> x :: xs)) with (events x ++ mjoin (events <$> xs)). by apply Forall_app. Qed.
Definition as_doc (e : ext) : ext :=
  let k := e_kind e in Ext k (normal_field k <$> zip_with (doc_field V1_5) (ext_fields k) (e_fields e)) (e_text e) (normal_child k <$> e_children e).
(** The extension is read back, or skipped. *)
Definition reads_ext (sg : signs) (mf : option mapping) (e : ext) (x : xml) : Prop :=
  named (kind_name (e_kind e)) x /\
  forall fuel rest, length (events x) <= fuel -> (exists t, skip_until fuel (kind_name (e_kind e)) (events x ++ rest) = Ok (t, end_of x :: rest)) /\
    forall n l, accept sg n l (as_doc e) = true -> read_ext fuel sg mf n l (e_kind e) (events x ++ rest) = Ok (as_doc e, end_of x :: rest).
Lemma skip_elem name al cs rest fuel : Forall (fun e => stops name e = false) (mjoin (events <$> cs)) -> length (events (elem name al cs)) <= fuel ->
  exists t, skip_until fuel name (events (elem name al cs) ++ rest) = Ok (t, end_of (elem name al cs) :: rest).
Proof.
  intros F L. unfold elem in *. destruct cs as [|c cs]; [by exists ""|]. rewrite events_elem in *. cbn [length] in L. rewrite app_length in L. cbn [length] in L.
  unfold skip_until. cbn [app read_until xread tl]. rewrite <- app_assoc. destruct (skip_stops name _ name rest fuel "" F eq_refl ltac:(lia)) as [t T]. exists t. cbn [app]. unfold no_handler in T. by rewrite T.
Qed.
Lemma write_ext_ok sg e m x m' : content_ok e -> winv m -> write_ext e m = (x, m') -> grows m m' /\ forall mf, available m' mf -> reads_ext sg mf e x.
Proof.
  intros (Kn & F & C) W E. unfold write_ext in E. set (k := e_kind e) in *. destruct (write_fields V1_5 (ext_fields k) (e_fields e) m) as [al m1] eqn:A.
  destruct (write_fields_ok a V1_5 _ _ _ _ _ (ext_table k) F W A) as [G R]. destruct (has_text k) eqn:Ht.
  - injection E as <- <-. split; [done|]. intros mf Hm. destruct (R mf Hm) as [_ R']. destruct C as [B Ec]. unfold chars. destruct (String.eqb_spec (e_text e) "") as [Z|_]; [by rewrite Z in B|]. rewrite B.
    split; [by do 3 eexists|]. intros fuel rest L.
    assert (T : skip_until fuel (kind_name k) (events (elem (kind_name k) al [Text (e_text e)]) ++ rest) = Ok (e_text e, end_of (elem (kind_name k) al [Text (e_text e)]) :: rest)).
    { cbn [elem events] in *. change (mjoin (events <$> [Text (e_text e)])) with [EText (e_text e)] in *. cbn [app] in *. cbn [length] in L. destruct fuel as [|[|fuel]]; [lia|lia|]. unfold skip_until. cbn [read_until until_loop xread tl]. by rewrite String.eqb_refl. }
    split; [by eexists|]. intros n l Ha. unfold read_ext. fold k. cbn [elem events app]. cbn [elem events app] in T. rewrite R' by done. cbn [result_bind]. rewrite Ht, T. cbn [result_bind].
    unfold as_doc in *. fold k in Ha |- *. rewrite Ec in *. replace (arrange k []) with (@nil child) by (by destruct k). cbn [fmap list_fmap] in *. by rewrite Ha.
  - destruct C as (Et & Fc & Np). assert (Ea : arrange k (e_children e) = e_children e) by (destruct k; try done; by apply Np). rewrite Ea in E.
    destruct (wmap (write_ext_child k) (e_children e) m1) as [xs m2] eqn:X. injection E as <- <-.
    destruct (wmap_ok a (child_ok k) (fun mf => reads_child mf k) (write_ext_child k)) with (l := e_children e) (m := m1) (ys := xs) (m' := m2) as [G2 R2]; [|done|apply G|done|].
    { intros c m3 y m4 Hc W3 E3. destruct (write_child_ok k c m3 y m4 Hc W3 E3) as (G3 & N3 & S3 & R3). split; [done|]. intros mf Hm. split; [done|]. split; [done|]. intros. by apply (R3 mf Hm). }
    split; [by eapply grows_trans|]. intros mf Hm. destruct (R mf (proj2 G2 mf Hm)) as [_ R']. specialize (R2 mf Hm).
    assert (exists e0 more, events (elem (kind_name k) al xs) = EStart (kind_name k) al e0 :: more) as (e0 & more & Ev) by (unfold elem; destruct xs; do 2 eexists; reflexivity).
    split; [by do 3 eexists|]. intros fuel rest L. split; [apply skip_elem; [by eapply children_stop|done]|]. intros n l Ha.
    unfold read_ext. fold k. rewrite Ev. cbn [app]. rewrite R' by done. cbn [result_bind]. rewrite Ht. change (EStart (kind_name k) al e0 :: more ++ rest) with ((EStart (kind_name k) al e0 :: more) ++ rest). rewrite <- Ev.
    unfold as_doc in *. fold k in Ha |- *. rewrite Et in *. destruct (has_children_ext k) eqn:Hc.
    + assert (L' : length (mjoin (events <$> xs)) <= fuel). { unfold elem in L. destruct xs; [cbn; lia|]. rewrite events_elem in L. cbn [length] in L. rewrite app_length in L. lia. }
      destruct (read_until_eats _ (kind_name k) al _ _ _ rest fuel (children_eaten mf fuel (kind_name k) k _ _ [] R2 L')) as [t T]; [lia|]. rewrite T. cbn [result_bind].
      rewrite add_children by (intros K; by apply Np). cbn [app]. rewrite Ea. by rewrite Ha.
    + destruct (e_children e) as [|c cs].
      * apply Forall2_nil_inv_l in R2 as ->. cbn [result_bind]. replace (arrange k []) with (@nil child) by (by destruct k). by rewrite Ha.
      * inversion_clear Fc as [|? ? (ds & Ed & _) _]. apply child_names in Ed as (_ & _ & Ed). by rewrite Ed in Hc.
Qed.
End anonymized.

(** * The extensions that survive. *)
Lemma ext_content a sg n l e : ext_ok sg n l e -> content_ok a e /\ as_doc e = as_read e.
Proof.
  assert (Known : forall k, bool_decide (k ∈ known) = true -> k ∈ known) by (intros k H; by apply bool_decide_eq_true in H).
  assert (Simple : forall k fs, has_text k = false -> k <> KPosition -> bool_decide (k ∈ known) = true -> Forall2 (doc_ok1 a V1_5) (ext_fields k) fs -> content_ok a (Ext k fs "" [])).
  { intros k fs Ht Np Hk F. split; [by apply Known|]. split; [done|]. cbn [e_kind e_text e_children]. rewrite Ht. split; [done|]. split; [constructor|done]. }
  intros H. destruct H; try solve [split; [apply Simple; [done..|]; repeat (constructor; [done|]); constructor|done]].
  - (* slackTerminal *) split; [|done]. apply Simple; [done..|]. constructor; [done|]. constructor; [cbn; by right|constructor].
  - (* branchStatus *) split; [|done]. split; [by apply Known|]. split; [constructor|]. cbn. split; [|done]. rewrite !elem_of_cons in H0. by destruct H0 as [->|[->|[->|?%elem_of_nil]]].
  - (* entsoeArea *) split; [|done]. split; [by apply Known|]. split; [constructor|]. cbn [e_kind has_text e_text e_children]. split; [|done]. clear -H0.
    assert (X : forallb (fun s => negb (blank s)) codes = true) by (vm_compute; reflexivity). rewrite forallb_forall in X. apply elem_of_list_In in H0. apply X in H0. by destruct (blank s).
  - (* position *) assert (Fc : Forall (child_ok a KPosition) cs).
    { assert (Nm : forall c, c ∈ cs -> ch_name c ∈ feeders).
      { intros c Hc. apply (elem_of_list_fmap_1 ch_name) in Hc. rewrite !elem_of_cons in H1. assert (Hf : forall ls, bool_decide (ls ⊆ feeders) = true -> ch_name <$> cs = ls -> ch_name c ∈ feeders).
        { intros ls Hls E. apply bool_decide_eq_true in Hls. rewrite E in Hc. by apply Hls. }
        destruct H1 as [E|[E|[E|[E|E%elem_of_nil]]]]; [..|done]; revert E; apply Hf; vm_compute; reflexivity. }
      apply Forall_forall. intros c Hc. rewrite Forall_forall in H0. destruct (H0 c Hc) as (nm & od & dir & E & P & _ & _). specialize (Nm c Hc).
      eexists. split; [cbn [child_fields]; by rewrite bool_decide_eq_true_2|]. rewrite E. split; [repeat (constructor; [done|]); constructor|]. split; [done|]. done. }
    assert (Nd : NoDup (ch_name <$> cs) /\ arrange KPosition cs = cs).
    { clear -H1. rewrite !elem_of_cons in H1. destruct H1 as [E|[E|[E|[E|E%elem_of_nil]]]]; [..|done].
      all: (rewrite E; split; [by apply (bool_decide_eq_true_1 _); vm_compute|]).
      all: repeat (destruct cs as [|[? ? ?] cs]; cbn in E; try discriminate E; [injection E as E1 E]; subst).
      all: destruct cs; try done. }
    destruct Nd as [Nd Ea]. split.
    + split; [by apply Known|]. split; [constructor|]. cbn [e_kind has_text e_text e_children]. split; [done|]. split; [done|]. by split.
    + unfold as_doc. cbn [e_kind e_fields e_text e_children as_read]. f_equal. rewrite <- (list_fmap_id cs) at 2. apply list_fmap_ext. done.
  - (* measurements *) assert (Fc : Forall (child_ok a KMeasurements) cs).
    { eapply Forall_impl; [exact H|]. intros c (id & ty & side & x & d & valid & En & E & _). eexists. split; [by rewrite En|]. rewrite E.
      split; [|done]. constructor; [cbn; by right|]. constructor; [done|]. constructor; [cbn; by right|]. repeat (constructor; [done|]). constructor. }
    split.
    + split; [by apply Known|]. split; [constructor|]. cbn [e_kind has_text e_text e_children]. split; [done|]. by split.
    + unfold as_doc. cbn [e_kind e_fields e_text e_children as_read]. f_equal. rewrite <- (list_fmap_id cs) at 2. apply list_fmap_ext. done.
  - (* discreteMeasurements *) assert (Fc : Forall (child_ok a KDiscrete) cs).
    { eapply Forall_impl; [exact H|]. intros c (id & ty & tap & vt & x & valid & En & E & _). eexists. split; [by rewrite En|]. rewrite E.
      split; [|done]. constructor; [cbn; by right|]. constructor; [done|]. constructor; [cbn; by right|]. constructor; [done|]. constructor; [cbn; by right|]. repeat (constructor; [done|]). constructor. }
    split.
    + split; [by apply Known|]. split; [constructor|]. cbn [e_kind has_text e_text e_children]. split; [done|]. by split.
    + unfold as_doc. cbn [e_kind e_fields e_text e_children as_read]. f_equal. rewrite <- (list_fmap_id cs) at 2. apply list_fmap_ext. intros i c Hc.
      rewrite Forall_forall in H. apply elem_of_list_lookup_2, H in Hc as (i0 & ty & tap & vt & x & valid & En & E & _ & _ & _ & _ & V & _). unfold normal_child. rewrite E. destruct c as [nm fs ps]. cbn in E, En |- *. subst.
      assert (Ex : value_text vt x = x) by (destruct V as [(-> & [-> | ->])|[(-> & _)|(-> & _)]]; reflexivity). by rewrite Ex.
  - (* threeWindingsTransformerPhaseAngleClock *) destruct H0 as [->|(t & -> & T)], H1 as [->|(t' & -> & T')]; (split; [apply Simple; [done..|]; repeat (constructor; [done|]); constructor|]).
    all: unfold as_doc; cbn; repeat (match goal with H : _ ∈ _ |- _ => rewrite !elem_of_cons in H; repeat (destruct H as [-> | H]; [|]); try (by apply elem_of_nil in H) end); done.
  - (* twoWindingsTransformerPhaseAngleClock *) destruct H0 as [->|(t & -> & T)]; (split; [apply Simple; [done..|]; repeat (constructor; [done|]); constructor|]).
    all: unfold as_doc; cbn; repeat (match goal with H : _ ∈ _ |- _ => rewrite !elem_of_cons in H; repeat (destruct H as [-> | H]; [|]); try (by apply elem_of_nil in H) end); done.
Qed.
