(** C62: the measurements of an equipment. *)
From Verif Require Import Xml XmlSpec Anonymizer NetXmlProps ExtXmlProps MeasureProofs.

(** An adder is accepted exactly when the specification says so. The new measurement has what was given to the adder and is the last; otherwise nothing changes. *)
Theorem C62_add k c a : m_reach k c ->
  (m_accepted c a -> exists r c' i, m_add c a = (Ok r, c') /\ entered c c' i /\ m_given a i) /\ (~ m_accepted c a -> exists t, m_add c a = (Throw t, c)).
Proof.
  intros (I & _ & _)%m_reach_inv. destruct (m_add_cases c a) as [[Ha (ps & ty & G & N & Et & E)]|[Ha E]]; (split; [|done]); [|done]. intros _.
  set (m := mkMeas ty (ma_side a) (ma_value a) (ma_std a) (ma_valid a)) in *. destruct (put_answer c (ma_id a) ps m) as (j & Ej & _). exists (i_addr j), (put_item c (ma_id a) ps m).2, (mkItem (c_next c) (ma_id a) ps m).
  split; [rewrite E, <- Ej; by destruct (put_item c (ma_id a) ps m)|]. split; [by apply put_entered|]. repeat (split; [done|]). done.
Qed.
(** What add() answers is the new measurement: when it has an id, or no earlier one is without id. *)
Theorem C62_add_answer_partial k c a : m_reach k c -> m_accepted c a -> ma_id a <> "" \/ (forall j, j ∈ c_items c -> i_id j <> "") ->
  exists c' i, m_add c a = (Ok (i_addr i), c') /\ entered c c' i /\ m_given a i.
Proof.
  intros (I & _ & _)%m_reach_inv Ha Hi. destruct (m_add_cases c a) as [[_ (ps & ty & G & N & Et & E)]|[Hn _]]; [|done]. destruct Ha as (_ & Hf & _).
  set (m := mkMeas ty (ma_side a) (ma_value a) (ma_std a) (ma_valid a)) in *. destruct (put_answer c (ma_id a) ps m) as (j & Ej & Ed & [[-> _]|Hj]).
  - eexists (put_item c (ma_id a) ps m).2, _. split; [rewrite E, <- Ej; by destruct (put_item c (ma_id a) ps m)|]. split; [by apply put_entered|]. repeat (split; [done|]). done.
  - exfalso. destruct Hi as [Hi|Hi]; [|destruct (decide (ma_id a = "")) as [Z|Z]; [apply (Hi j Hj); congruence|]]; (destruct Hf as [Hf|Hf]; [done|]); apply Hf; by exists j.
Qed.
(** Two measurements without id: the second add() answers the first one. *)
Definition anonymous (x : string) : madder := mkMAdder "" [] (Some MActive) None (Some x) None true.
Definition two_named : items meas := (mstep (MAdd (anonymous "1")) (empty_of CLoad)).2.
Lemma two_named_reach : m_reach CLoad two_named.
Proof. apply rtc_once. by exists (MAdd (anonymous "1")). Qed.
Theorem C62_add_answer_refuted : exists c a c' r i, m_reach CLoad c /\ m_accepted c a /\ m_add c a = (Ok r, c') /\ entered c c' i /\ r <> i_addr i /\ exists j, j ∈ c_items c /\ i_addr j = r /\ m_value (i_data j) <> ma_value a.
Proof.
  exists two_named, (anonymous "2"), (m_add two_named (anonymous "2")).2, 0, (mkItem 1 "" ∅ (mkMeas MActive None (Some "2") None true)). split; [apply two_named_reach|].
  split. { split; [by intros x Hx%elem_of_nil|]. split; [by left|]. exists MActive. split; [done|]. split; [done|]. left. split; [|done]. apply (bool_decide_unpack _). by vm_compute. }
  split; [done|]. split. { split; [done|]. split; [done|]. intros j [->|Hj%elem_of_nil]%elem_of_cons; done. }
  split; [done|]. eexists. split; [left|]. done.
Qed.
(** In every history, ids are unique and a look up by id is exact. *)
Theorem C62_ids k c : m_reach k c -> ids_unique c /\ forall id i, id <> "" -> find_id c id = Some i <-> i ∈ c_items c /\ i_id i = id.
Proof. intros (I & _ & _)%m_reach_inv. split; [by destruct I as (_ & _ & U)|]. intros id i Ne. by apply find_iff. Qed.
Theorem C62_discrete_ids k c : d_reach k c -> ids_unique c /\ forall id i, id <> "" -> find_id c id = Some i <-> i ∈ c_items c /\ i_id i = id.
Proof. intros (I & _ & _)%d_reach_inv. split; [by destruct I as (_ & _ & U)|]. intros id i Ne. by apply find_iff. Qed.
(** A call on a measurement changes what it says of that one and nothing else; only an empty property name is refused. *)
Theorem C62_change k c o p : m_reach k c -> m_target o = Some p -> present c p ->
  (m_refused o -> (exists t, (mstep o c).1 = Throw t) /\ (mstep o c).2 = c) /\ (~ m_refused o -> (mstep o c).1 = Ok tt /\ changed p c (mstep o c).2 (m_effect o)).
Proof. intros (I & _ & _)%m_reach_inv T P. destruct (m_other_calls c o p I T) as [[N _]|[(_ & R & H1 & H2)|(_ & R & H1 & H2 & _)]]; [done|split; done..]. Qed.
Theorem C62_discrete_change k c o p : d_reach k c -> d_target o = Some p -> present c p ->
  (d_refused o -> (exists t, (dstep o c).1 = Throw t) /\ (dstep o c).2 = c) /\ (~ d_refused o -> (dstep o c).1 = Ok tt /\ changed p c (dstep o c).2 (d_effect o)).
Proof. intros (I & _ & _)%d_reach_inv T P. destruct (d_other_calls c o p I T) as [[N _]|[(_ & R & H1 & H2)|(_ & R & H1 & H2 & _)]]; [done|split; done..]. Qed.
Theorem C62_remove k c p : m_reach k c -> present c p -> (mstep (MRemove p) c).1 = Ok tt /\ removed p c (mstep (MRemove p) c).2.
Proof. intros (I & _ & _)%m_reach_inv P. cbn [mstep fst snd]. split; [|by apply remove_removed]. rewrite bool_decide_false; [done|]. intros H. by apply at_none in H. Qed.
Theorem C62_discrete_remove k c p : d_reach k c -> present c p -> (dstep (DRemove p) c).1 = Ok tt /\ removed p c (dstep (DRemove p) c).2.
Proof. intros (I & _ & _)%d_reach_inv P. cbn [dstep fst snd]. split; [|by apply remove_removed]. rewrite bool_decide_false; [done|]. intros H. by apply at_none in H. Qed.
(** The measurements of a type: those, in their order. *)
Theorem C62_types c ty : sublist (m_by_type c ty) (c_items c) /\ forall i, i ∈ m_by_type c ty <-> i ∈ c_items c /\ m_type (i_data i) = ty.
Proof.
  unfold m_by_type. split; [|intros i; rewrite elem_of_list_filter; tauto]. induction (c_items c) as [|i l IH]; [done|]. rewrite filter_cons. destruct (decide _); by constructor.
Qed.
(** In every history, measurements of injections have no side, the others have one unless they are of the type OTHER. *)
Theorem C62_sides k c i : m_reach k c -> i ∈ c_items c -> side_fits k (m_type (i_data i)) (m_side (i_data i)).
Proof. intros (_ & _ & F)%m_reach_inv Hi. rewrite Forall_forall in F. by destruct (F i Hi). Qed.
(** But a line may have a measurement of its third side. *)
Definition third : madder := mkMAdder "M" [] (Some MActive) (Some SThree) (Some "1") None true.
Theorem C62_side_refuted : exists k c i, k ∈ [CLine; CTwoWt; CTieLine] /\ m_reach k c /\ i ∈ c_items c /\ m_side (i_data i) = Some SThree.
Proof.
  exists CLine, (mstep (MAdd third) (empty_of CLine)).2. eexists. split; [left|]. split; [apply rtc_once; by exists (MAdd third)|]. split; [left|]. done.
Qed.
(** Careful histories: a valid measurement has a value. *)
Theorem C62_valid_partial k c i : rtc m_calls (empty_of k) c -> i ∈ c_items c -> m_valid (i_data i) = true -> m_value (i_data i) <> None.
Proof. intros [_ F]%m_careful_reach Hi. rewrite Forall_forall in F. by apply F. Qed.
(** setValue and setValid do not check it. *)
Definition invalid : madder := mkMAdder "M" [] (Some MActive) None None None false.
Definition valid_nan1 : items meas := (mstep (MSetValid 0 true) (mstep (MAdd invalid) (empty_of CLoad)).2).2.
Definition valid_nan2 : items meas := (mstep (MSetValue 0 None) (mstep (MAdd (anonymous "1")) (empty_of CLoad)).2).2.
Lemma valid_nan_reach : m_reach CLoad valid_nan1 /\ m_reach CLoad valid_nan2.
Proof. split; eapply rtc_l; [by exists (MAdd invalid)|apply rtc_once; by exists (MSetValid 0 true)|by exists (MAdd (anonymous "1"))|apply rtc_once; by exists (MSetValue 0 None)]. Qed.
Theorem C62_valid_refuted : exists c1 c2, m_reach CLoad c1 /\ m_reach CLoad c2 /\ (exists i, i ∈ c_items c1 /\ m_valid (i_data i) = true /\ m_value (i_data i) = None) /\
  (exists i, i ∈ c_items c2 /\ m_valid (i_data i) = true /\ m_value (i_data i) = None).
Proof. exists valid_nan1, valid_nan2. destruct valid_nan_reach. split; [done|]. split; [done|]. split; (eexists; split; [left|done]). Qed.

(** ** Discrete measurements *)
(** As above; with a type. *)
Theorem C62_discrete_add k c a : d_reach k c -> da_type a <> None ->
  (d_accepted c a -> exists r c' i, d_add c a = (Ok r, c') /\ entered c c' i /\ d_given a i) /\ (~ d_accepted c a -> exists t, d_add c a = (Throw t, c)).
Proof.
  intros (I & _ & _)%d_reach_inv Ty. destruct (d_add_cases c a) as [[Ha (ps & ty & x & G & N & Et & Ex & E)]|[(Ha & E & _)|(Z & _)]]; [|split; done|done]. split; [|done]. intros _.
  set (m := mkD ty (da_tap a) (kind_of x) (Some x) (da_valid a)) in *. destruct (put_answer c (da_id a) ps m) as (j & Ej & _). exists (i_addr j), (put_item c (da_id a) ps m).2, (mkItem (c_next c) (da_id a) ps m).
  split; [rewrite E, <- Ej; by destruct (put_item c (da_id a) ps m)|]. split; [by apply put_entered|]. repeat (split; [done|]). done.
Qed.
(** Without type the adder reads a member that has no value. *)
Theorem C62_discrete_type_refuted c a : names_given (da_props a) -> da_id a = "" -> da_type a = None -> (d_add c a).1 = UB.
Proof.
  intros N Ei Et. destruct (d_add_cases c a) as [[_ (ps & ty & x & _ & _ & E & _)]|[(_ & _ & H)|(_ & _ & _ & ->)]]; [congruence| |done]. exfalso. apply (H Et). split; [done|]. apply id_free_iff. by left.
Qed.
Example C62_discrete_type_case : let a := mkDAdder "" [] None None (Some (DInt 3)) true in names_given (da_props a) /\ da_id a = "" /\ da_type a = None.
Proof. split; [by intros x Hx%elem_of_nil|done]. Qed.
(** An invalid discrete measurement cannot be without value, though checkValue is meant to allow it. *)
Theorem C62_discrete_unknown_refuted c a r : da_value a = None -> (d_add c a).1 <> Ok r.
Proof. intros E. destruct (d_add_cases c a) as [[_ (ps & ty & x & _ & _ & _ & Ex & _)]|[(_ & (t & ->) & _)|(_ & _ & _ & ->)]]; [congruence|done..]. Qed.
Example C62_discrete_unknown_case : d_check_value None false = Ok tt /\ exists t, d_add (empty_of CLoad) (mkDAdder "M" [] (Some DOther) None None false) = (Throw t, empty_of CLoad).
Proof. split; [done|]. by eexists. Qed.
(** In every history, exactly the getter of the type of the value answers, with the value. *)
Theorem C62_discrete_value k c i : d_reach k c -> i ∈ c_items c -> exists x, d_value (i_data i) = Some x /\ d_vtype (i_data i) = kind_of x /\
  match x with
  | DBool b => as_bool (i_data i) = Ok b /\ as_int (i_data i) = Throw "Value type is not INT" /\ as_text (i_data i) = Throw "Value type is not STRING"
  | DInt z => as_int (i_data i) = Ok z /\ as_bool (i_data i) = Throw "Value type is not BOOLEAN" /\ as_text (i_data i) = Throw "Value type is not STRING"
  | DText s => as_text (i_data i) = Ok s /\ as_bool (i_data i) = Throw "Value type is not BOOLEAN" /\ as_int (i_data i) = Throw "Value type is not INT"
  end.
Proof.
  intros (_ & _ & F)%d_reach_inv Hi. rewrite Forall_forall in F. destruct (F i Hi) as ((x & Ev & Et) & _). exists x. split; [done|]. split; [done|]. unfold as_bool, as_int, as_text. rewrite Ev, Et.
  by destruct x.
Qed.
(** In every history, types and tap changers fit the equipment. *)
Theorem C62_discrete_fits k c i : d_reach k c -> i ∈ c_items c -> tap_fits k (d_type (i_data i)) (d_tap (i_data i)).
Proof. intros (_ & _ & F)%d_reach_inv Hi. rewrite Forall_forall in F. by destruct (F i Hi) as (_ & ? & _). Qed.

(** ** In the file: measurements of careful histories survive an export and an import (with C56). *)
Theorem C62_export_partial sg n l c d : rtc m_calls (empty_of (l_cls l)) c -> rtc d_calls (empty_of (l_cls l)) d -> ext_ok sg n l (m_ext c) /\ exists e, d_ext d = Ok e /\ ext_ok sg n l e.
Proof.
  intros [Rm Vm]%m_careful_reach [Rd Vd]%d_careful_reach. split.
  - destruct (m_reach_inv _ _ Rm) as (I & _ & F). apply ok_measurements; [|by apply unique_m]. apply Forall_fmap. rewrite Forall_forall in *. intros i Hi. by apply m_child_ok; [apply F|apply Vm].
  - destruct (d_reach_inv _ _ Rd) as (I & _ & F). destruct (d_children_ok _ _ F Vd) as (cs & Ec & F2). unfold d_ext. rewrite Ec. cbn [result_bind]. eexists. split; [reflexivity|]. apply ok_discrete.
    + apply Forall_forall. intros x Hx. apply elem_of_list_lookup in Hx as [p Hp]. by destruct (Forall2_lookup_r _ _ _ _ _ F2 Hp) as (i & _ & _ & ? & _).
    + intros p q x y id Hp Hq E1 E2 Ne. destruct (Forall2_lookup_r _ _ _ _ _ F2 Hp) as (i & Hi & _ & _ & Ei), (Forall2_lookup_r _ _ _ _ _ F2 Hq) as (j & Hj & _ & _ & Ej).
      destruct I as (_ & _ & U). apply (U p q i j); congruence.
Qed.
Theorem C62_roundtrip_partial a o sg reg t n xs y m mf fuel l c :
  net_valid a (o_ver o) n -> o_throwing o = true \/ readable (o_ver o) n -> exts_ok sg (Export ∅ t ∅) n (delete (l_id l) xs) -> named_exts xs -> (forall l' id, l' ∈ objects n -> l_id l' = id -> l_id l = id -> l' = l) ->
  rtc m_calls (empty_of (l_cls l)) c -> xs !! l_id l = Some {["measurements" := m_ext c]} ->
  write_all reg (Export ∅ t ∅) o a n xs = Ok (y, m) -> available m mf -> length (events y) <= fuel ->
  l ∈ objects n -> exists xs', read_all fuel sg reg (Import ∅ true) mf (events y) = Ok (degrade o n, xs') /\ ext_of xs' (l_id l) "measurements" = Some (m_ext c).
Proof.
  intros K Hr Xo Nx Ul Rc Ex W Hm L Hl. assert (He : ext_of xs (l_id l) "measurements" = Some (m_ext c)) by (unfold ext_of; rewrite Ex; cbn [mbind option_bind]; by rewrite lookup_singleton).
  destruct (C56_complete a o sg reg t n xs y m mf fuel l "measurements" (m_ext c)) as (xs' & R & E); [done..| |done|done|done|done|done|by exists xs'].
  split; [done|]. intros l' name e Hl' He' As. destruct (decide (l_id l' = l_id l)) as [Z|Z].
  - assert (l' = l) as -> by (by eapply Ul). unfold ext_of in He'. rewrite Ex in He'. cbn [mbind option_bind] in He'. apply lookup_singleton_Some in He' as [_ <-].
    by destruct (C62_export_partial sg n l c (empty_of (l_cls l)) Rc (rtc_refl _ _)).
  - destruct Xo as [_ X]. apply (X l' name e Hl'); [|done]. unfold ext_of in *. by rewrite lookup_delete_ne.
Qed.
(** Others are written but refused by the reader: a valid measurement that has lost its value; an empty text. *)
Definition lost : items meas := (mstep (MSetValue 0 None) (mstep (MAdd (mkMAdder "" [] (Some MActive) None (Some "1") None true)) (empty_of CLoad)).2).2.
Definition silent : items dmeas := (dstep (DAdd (mkDAdder "" [] (Some DOther) None (Some (DText "")) false)) (empty_of CLoad)).2.
Theorem C62_roundtrip_refuted : exists c d e, m_reach CLoad c /\ d_reach CLoad d /\ d_ext d = Ok e /\ forall x, x = m_ext c \/ x = e ->
  exists n y m t, net_valid false V1_5 n /\ write_all all_serializers (Export ∅ true ∅) (x_opts V1_5 true) false n (build [("LD", x)]) = Ok (y, m) /\
  read_all (length (events y)) x_signs all_serializers (Import ∅ true) m (events y) = Throw t.
Proof.
  exists lost, silent, (Ext KDiscrete [] "" [Child "discreteMeasurement" [VText ""; VText "OTHER"; VText ""; VText "STRING"; VText ""; VBool false] ∅]).
  split. { eapply rtc_l; [by exists (MAdd (anonymous "1"))|]. apply rtc_once. by exists (MSetValue 0 None). }
  split. { apply rtc_once. by exists (DAdd (mkDAdder "" [] (Some DOther) None (Some (DText "")) false)). }
  split; [done|]. intros x [->| ->]; apply C56_readable_refuted; unfold x_refused.
  - right. left.
  - right. right. right. left.
Qed.

(** A history: measurements of a line, one without side of the type OTHER, properties, a removal; it is careful. *)
Definition m1 : madder := mkMAdder "M1" [("a", "1"); ("b", "2"); ("a", "3")] (Some MActive) (Some SOne) (Some "1.5") None true.
Definition m2 : madder := mkMAdder "" [] (Some MOther) None None (Some "0.1") false.
Definition m3 : madder := mkMAdder "M3" [] (Some MActive) (Some STwo) (Some "2.5") None true.
Definition history : list mop := [MAdd m1; MAdd m2; MAdd m3; MAdd m1; MPut 1 "c" "x"; MSetValue 1 (Some "7"); MSetValid 1 true; MDrop 0 "b"; MSetStd 2 (Some "1"); MRemove 0].
Definition m_run (os : list mop) (c : items meas) : items meas := foldl (fun c o => (mstep o c).2) c os.
Definition careful_check (o : mop) (c : items meas) : bool :=
  match o with
  | MSetValue k None => forallb (fun i => negb (i_addr i =? k) || negb (m_valid (i_data i))) (c_items c)
  | MSetValid k true => forallb (fun i => negb (i_addr i =? k) || bool_decide (is_Some (m_value (i_data i)))) (c_items c)
  | _ => true
  end && match (mstep o c).1 with UB => false | _ => true end.
Fixpoint all_careful (os : list mop) (c : items meas) : bool := match os with [] => true | o :: os' => careful_check o c && all_careful os' (mstep o c).2 end.
Lemma careful_check_ok o c : careful_check o c = true -> m_careful o c /\ (mstep o c).1 <> UB.
Proof.
  unfold careful_check. intros [H1 H2]%andb_true_iff. split; [|intros E; by rewrite E in H2]. destruct o as [a|k0|k0 [x|]|k0 x|k0 [|]|k0 n x|k0 n]; try exact I; rewrite forallb_forall in H1; intros i Hi%elem_of_list_In Ei; apply H1 in Hi;
    rewrite (proj2 (Nat.eqb_eq _ _) Ei) in Hi; cbn [negb orb] in Hi; [by apply negb_true_iff|]. apply bool_decide_eq_true in Hi as [x ->]. done.
Qed.
Lemma careful_run os : forall c, all_careful os c = true -> rtc m_calls c (m_run os c).
Proof. induction os as [|o os IH]; intros c H; [apply rtc_refl|]. cbn [all_careful] in H. apply andb_true_iff in H as [[H1 H2]%careful_check_ok H3]. eapply rtc_l; [exists o; split; [done|split; [done|reflexivity]]|]. by apply IH. Qed.
Example C62_case : let c := m_run history (empty_of CLine) in rtc m_calls (empty_of CLine) c /\
  c_items c = [mkItem 1 "" {["c" := "x"]} (mkMeas MOther None (Some "7") (Some "0.1") true); mkItem 2 "M3" ∅ (mkMeas MActive (Some STwo) (Some "2.5") (Some "1") true)] /\
  present c 2 /\ m_accepted c m1 /\ ~ m_accepted c m3 /\ ~ m_accepted c (anonymous "1").
Proof.
  assert (E : m_run history (empty_of CLine) = mkItems CLine [mkItem 1 "" {["c" := "x"]} (mkMeas MOther None (Some "7") (Some "0.1") true); mkItem 2 "M3" ∅ (mkMeas MActive (Some STwo) (Some "2.5") (Some "1") true)] 3) by (by vm_compute).
  cbv zeta. split; [|rewrite E; clear E; split; [done|split; [|split; [|split]]]].
  - apply careful_run. by vm_compute.
  - eexists. split; [right; left|done].
  - split; [|split].
    + intros x Hx. cbn [ma_props m1] in Hx. rewrite !elem_of_cons in Hx. destruct Hx as [?|[?|[?|Hx%elem_of_nil]]]; done.
    + right. intros (i & Hi & Ei). cbn [c_items] in Hi. rewrite !elem_of_cons in Hi. destruct Hi as [->|[->|Hi%elem_of_nil]]; done.
    + exists MActive. split; [done|]. split; [done|]. right. split; [apply (bool_decide_unpack _); by vm_compute|]. by left.
  - intros (_ & [H|H] & _); [done|]. apply H. eexists. split; [right; left|done].
  - intros (_ & _ & ty & [= <-] & _ & [[H _]|[_ [H|H]]]); [|done..]. apply (proj2 (bool_decide_eq_true _)) in H. vm_compute in H. discriminate H.
Qed.
(** Discrete measurements of a three windings transformer: the value changes its type. *)
Definition d_run (os : list dop) (c : items dmeas) : items dmeas := foldl (fun c o => (dstep o c).2) c os.
Definition d1 : dadder := mkDAdder "D" [("a", "1")] (Some DTap) (Some TRatio1) (Some (DInt 4)) true.
Definition d2 : dadder := mkDAdder "" [] (Some DTap) (Some TRatio) (Some (DInt 4)) true.
Definition d3 : dadder := mkDAdder "" [] (Some DOther) None (Some (DBool true)) false.
Definition d_history : list dop := [DAdd d1; DAdd d2; DSetValue 0 (DText "four"); DAdd d3].
Example C62_discrete_case : rtc d_calls (empty_of CThreeWt) (d_run d_history (empty_of CThreeWt)) /\
  c_items (d_run d_history (empty_of CThreeWt)) = [mkItem 0 "D" {["a" := "1"]} (mkD DTap (Some TRatio1) TText (Some (DText "four")) true); mkItem 1 "" ∅ (mkD DOther None TBool (Some (DBool true)) false)].
Proof.
  split; [|by vm_compute]. unfold d_run, d_history. cbn [foldl].
  eapply rtc_l; [exists (DAdd d1); split; [cbn; discriminate|split; [vm_compute; discriminate|reflexivity]]|]. eapply rtc_l; [exists (DAdd d2); split; [cbn; discriminate|split; [vm_compute; discriminate|reflexivity]]|].
  eapply rtc_l; [exists (DSetValue 0 (DText "four")); split; [cbn; discriminate|split; [vm_compute; discriminate|reflexivity]]|]. eapply rtc_l; [exists (DAdd d3); split; [cbn; discriminate|split; [vm_compute; discriminate|reflexivity]]|].
  apply rtc_refl.
Qed.
Print Assumptions C62_add.
Print Assumptions C62_add_answer_partial.
Print Assumptions C62_add_answer_refuted.
Print Assumptions C62_ids.
Print Assumptions C62_discrete_ids.
Print Assumptions C62_change.
Print Assumptions C62_discrete_change.
Print Assumptions C62_remove.
Print Assumptions C62_discrete_remove.
Print Assumptions C62_types.
Print Assumptions C62_sides.
Print Assumptions C62_side_refuted.
Print Assumptions C62_valid_partial.
Print Assumptions C62_valid_refuted.
Print Assumptions C62_discrete_add.
Print Assumptions C62_discrete_type_refuted.
Print Assumptions C62_discrete_unknown_refuted.
Print Assumptions C62_discrete_value.
Print Assumptions C62_discrete_fits.
Print Assumptions C62_export_partial.
Print Assumptions C62_roundtrip_partial.
Print Assumptions C62_roundtrip_refuted.
