(** Proofs about the typed lookups and collections. *)
From Verif Require Import Base NetIndex NetIndexSpec NetIndexProofs Ranges RangesProofs RangesProps Catalog CatalogSpec.

(** ** Classes *)
Lemma all_cls_complete c : c ∈ all_cls.
Proof. apply elem_of_list_In. destruct c; cbv; tauto. Qed.
Lemma cls_of_id c : cls_of (cls_id c) = Some c.
Proof. by destruct c. Qed.
Lemma cls_id_inj c d : cls_id c = cls_id d -> c = d.
Proof. intros H. pose proof (cls_of_id c) as E. rewrite H, cls_of_id in E. congruence. Qed.
Lemma instance_of_id t c : instance_of t (cls_id c) = derives 5 c t.
Proof. unfold instance_of. by rewrite cls_of_id. Qed.
Lemma derives_sound n : forall c t, derives n c t = true -> kind_of c t.
Proof.
  induction n as [|n IH]; intros c t; cbn [derives]; intros H; apply orb_true_iff in H as [H|H]; try (apply bool_decide_eq_true in H as ->; apply rtc_refl); [done|].
  apply existsb_exists in H as (b & Hb%elem_of_list_In & H). eapply rtc_l; [exact Hb|]. by apply IH.
Qed.
Lemma derives_step_all : forallb (fun c => forallb (fun t => forallb (fun b => implb (derives 5 b t) (derives 5 c t)) (bases c)) all_cls) all_cls = true.
Proof. vm_compute. reflexivity. Qed.
Lemma derives_kind c t : derives 5 c t = true <-> kind_of c t.
Proof.
  split; [apply derives_sound|]. induction 1 as [c|c b t Hb _ IH].
  - cbn [derives]. by rewrite bool_decide_true.
  - pose proof derives_step_all as A. rewrite forallb_forall in A. specialize (A c (proj1 (elem_of_list_In _ _) (all_cls_complete c))). rewrite forallb_forall in A.
    specialize (A t (proj1 (elem_of_list_In _ _) (all_cls_complete t))). rewrite forallb_forall in A. specialize (A b (proj1 (elem_of_list_In _ _) Hb)). by rewrite IH in A.
Qed.
Definition concreteb (c : cls) : bool := match c with CIdentifiable | CContainer | CVoltageLevel | CBus | CConnectable | CInjection | CHvdcConverterStation | CBranch => false | _ => true end.
Lemma concreteb_spec c : concrete c <-> concreteb c = true.
Proof. unfold concrete. rewrite !not_elem_of_cons. destruct c; cbn [concreteb]; split; intros H; try done; try (repeat split; [done..|apply not_elem_of_nil]); naive_solver. Qed.

(** ** The invariant *)
Definition ty (st : cat) (p : nat) : option nat := o_type <$> ix_heap (c_ix st) !! p.
Definition has_cls (st : cat) (p : nat) (c : cls) : Prop := ty st p = Some (cls_id c).
Definition att_of (st : cat) (v : nat) : list (nat * nat) := default [] (c_att st !! v).
Lemma has_cls_det st p c d : has_cls st p c -> has_cls st p d -> c = d.
Proof. unfold has_cls. intros H1 H2. apply cls_id_inj. congruence. Qed.
Lemma has_class_spec st t p c : has_cls st p c -> has_class st t p = derives 5 c t.
Proof. unfold has_cls, ty, has_class. destruct (ix_heap (c_ix st) !! p) as [o|]; [|done]. cbn. intros [= ->]. apply instance_of_id. Qed.
Record cwf (st : cat) : Prop := {
  cw_ix : iwf (c_ix st);
  cw_ty : forall p n, ty st p = Some n -> exists c, concreteb c = true /\ n = cls_id c;
  cw_terms : forall p, is_Some (c_terms st !! p) <-> exists c, has_cls st p c /\ derives 5 c CConnectable = true;
  cw_arity : forall p l c, c_terms st !! p = Some l -> has_cls st p c -> length l = arity c;
  cw_att : forall v, is_Some (c_att st !! v) <-> exists c, has_cls st v c /\ derives 5 c CVoltageLevel = true;
  cw_in : forall p l v, c_terms st !! p = Some l -> v ∈ l -> is_Some (c_att st !! v);
  cw_nodup : forall v, NoDup (att_of st v);
  cw_exact : forall v p k, (p, k) ∈ att_of st v <-> terminal_in st p k v;
  cw_sub : forall v, is_Some (c_sub st !! v) <-> is_Some (c_att st !! v);
  cw_levels : forall s v, v ∈ default [] (c_levels st !! s) <-> c_sub st !! v = Some s;
  cw_substation : forall s v, c_sub st !! v = Some s -> has_cls st s CSubstation;
  cw_same : forall p l c, c_terms st !! p = Some l -> has_cls st p c -> c = CTwoWindingsTransformer \/ c = CThreeWindingsTransformer ->
    exists s, forall v, v ∈ l -> c_sub st !! v = Some s;
  cw_country : forall s k, c_country st !! s = Some k -> has_cls st s CSubstation
}.

Lemma cwf_init id : id <> "" -> cwf (cat_init id).
Proof.
  intros Hid. assert (forall p, ty (cat_init id) p = if decide (p = 0) then Some 0 else None) as Ht.
  { intros p. unfold ty. cbn. case_decide as E; [by subst; rewrite lookup_singleton|]. by rewrite lookup_singleton_ne. }
  assert (forall p c, has_cls (cat_init id) p c -> c = CNetwork) as Hc.
  { intros p c. unfold has_cls. rewrite Ht. case_decide; [|done]. intros [= E]. apply cls_id_inj. by rewrite <- E. }
  constructor; unfold att_of; cbn; try (intros; rewrite ?lookup_empty in *; done).
  - by apply ix_init_wf.
  - intros p n. rewrite Ht. case_decide; [|done]. intros [= <-]. by exists CNetwork.
  - intros p. rewrite lookup_empty. split; [by intros []|]. intros (c & H & D). apply Hc in H as ->. done.
  - intros p. rewrite lookup_empty. split; [by intros []|]. intros (c & H & D). apply Hc in H as ->. done.
  - intros v. rewrite lookup_empty. constructor.
  - intros v p k. rewrite lookup_empty. cbn. split; [intros H; by apply not_elem_of_nil in H|]. intros (l & H & _). cbn in H. by rewrite lookup_empty in H.
  - intros v. rewrite !lookup_empty. split; by intros [].
  - intros s v. rewrite !lookup_empty. cbn. split; [intros H; by apply not_elem_of_nil in H|done].
Qed.

(** ** Attaching and detaching *)
Lemma fold_attach ts : forall m v, default [] (foldl (fun m t => attach t m) m ts !! v) = default [] (m !! v) ++ map snd (filter (fun x => x.1 = v) ts).
Proof.
  induction ts as [|[w t] ts IH]; intros m v; cbn [foldl]; [by rewrite app_nil_r|]. rewrite IH. unfold attach; cbn [fst snd].
  rewrite filter_cons. cbn [fst]. case_decide as E.
  - subst w. rewrite lookup_insert. simpl. by rewrite <- app_assoc.
  - by rewrite lookup_insert_ne.
Qed.
Lemma fold_attach_some ts : forall m v, is_Some (foldl (fun m t => attach t m) m ts !! v) <-> is_Some (m !! v) \/ v ∈ map fst ts.
Proof.
  induction ts as [|[w t] ts IH]; intros m v; cbn [foldl map].
  - rewrite elem_of_nil. tauto.
  - rewrite IH, elem_of_cons. unfold attach; cbn [fst snd]. rewrite lookup_insert_is_Some. destruct (decide (w = v)) as [->|E]; naive_solver.
Qed.
Lemma fold_detach ts : forall m v, default [] (foldl (fun m t => detach t m) m ts !! v) = filter (fun t => (v, t) ∉ ts) (default [] (m !! v)).
Proof.
  induction ts as [|[w t] ts IH]; intros m v; cbn [foldl].
  - symmetry. induction (default [] (m !! v)) as [|x l IHl]; [done|]. rewrite filter_cons_True by apply not_elem_of_nil. by f_equal.
  - rewrite IH. unfold detach; cbn [fst snd]. destruct (decide (w = v)) as [->|E].
    + rewrite lookup_insert. simpl. rewrite list_filter_filter. apply list_filter_iff. intros x. rewrite not_elem_of_cons. naive_solver.
    + rewrite lookup_insert_ne by done. apply list_filter_iff. intros x. rewrite not_elem_of_cons. naive_solver.
Qed.
Lemma fold_detach_some ts : forall m v, (forall w t, (w, t) ∈ ts -> is_Some (m !! w)) -> is_Some (foldl (fun m t => detach t m) m ts !! v) <-> is_Some (m !! v).
Proof.
  induction ts as [|[w t] ts IH]; intros m v H; cbn [foldl]; [done|]. rewrite IH.
  - unfold detach; cbn [fst snd]. rewrite lookup_insert_is_Some. pose proof (H w t ltac:(left)). destruct (decide (w = v)) as [->|E]; naive_solver.
  - intros w' t' H'. unfold detach; cbn [fst snd]. rewrite lookup_insert_is_Some. destruct (decide (w = w')) as [->|E]; [by left|right; split; [done|]]. apply (H w' t'). by right.
Qed.
Lemma elem_of_terminals p vls v q k : (v, (q, k)) ∈ terminals_of p vls <-> q = p /\ vls !! k = Some v.
Proof.
  unfold terminals_of. rewrite elem_of_lookup_imap. split.
  - intros (i & x & [= -> -> ->] & H). done.
  - intros [-> H]. by exists k, v.
Qed.
Lemma NoDup_terminals p vls : NoDup (terminals_of p vls).
Proof.
  apply NoDup_alt. intros i j x Hi Hj. unfold terminals_of in *. rewrite list_lookup_imap in Hi, Hj.
  destruct (vls !! i); [|done]. destruct (vls !! j); [|done]. cbn in *. congruence.
Qed.
Lemma NoDup_new p vls v : NoDup (map snd (filter (fun x => x.1 = v) (terminals_of p vls))).
Proof.
  pose proof (NoDup_filter (fun x : nat * (nat * nat) => x.1 = v) _ (NoDup_terminals p vls)) as N.
  assert (forall x, x ∈ filter (fun x => x.1 = v) (terminals_of p vls) -> x.1 = v) as Hv by (intros x Hx; by apply elem_of_list_filter in Hx as [? _]).
  revert N Hv. induction (filter (fun x => x.1 = v) (terminals_of p vls)) as [|x l IH]; intros N Hv; [constructor|]. cbn [map]. apply NoDup_cons in N as [N1 N2].
  constructor.
  - intros (y & E & Hy)%elem_of_list_fmap. apply N1. assert (x = y) as ->; [|done]. destruct x as [x1 x2], y as [y1 y2]. pose proof (Hv (x1, x2) ltac:(left)). pose proof (Hv (y1, y2) ltac:(by right)). cbn in *. congruence.
  - apply IH; [done|]. intros y Hy. apply Hv. by right.
Qed.
Lemma elem_of_new p vls v q k : (q, k) ∈ map snd (filter (fun x => x.1 = v) (terminals_of p vls)) <-> q = p /\ vls !! k = Some v.
Proof.
  rewrite elem_of_list_fmap. split.
  - intros ([w [q' k']] & [= -> ->] & [E H]%elem_of_list_filter). cbn in E. subst w. by apply elem_of_terminals in H.
  - intros H. exists (v, (q, k)). split; [done|]. apply elem_of_list_filter. split; [done|]. by apply elem_of_terminals.
Qed.

(** ** Steps *)
(** Adding an object to the index. *)
Lemma next_none st : cwf st -> ty st (ix_next (c_ix st)) = None.
Proof.
  intros W. unfold ty. destruct (ix_heap (c_ix st) !! ix_next (c_ix st)) as [o|] eqn:E; [|done]. pose proof (w_next _ (cw_ix _ W) _ _ E). lia.
Qed.
Lemma next_terms st : cwf st -> c_terms st !! ix_next (c_ix st) = None.
Proof. intros W. apply eq_None_not_Some. intros H. apply (cw_terms _ W) in H as (c & H & _). unfold has_cls in H. by rewrite next_none in H. Qed.
Lemma next_att st : cwf st -> c_att st !! ix_next (c_ix st) = None.
Proof. intros W. apply eq_None_not_Some. intros H. apply (cw_att _ W) in H as (c & H & _). unfold has_cls in H. by rewrite next_none in H. Qed.
Lemma next_sub st : cwf st -> c_sub st !! ix_next (c_ix st) = None.
Proof. intros W. apply eq_None_not_Some. intros H. apply (cw_sub _ W) in H. rewrite next_att in H by done. by destruct H. Qed.

(** Changes of the aliases keep ids and classes. *)
Lemma cwf_same_ty st ix : cwf st -> iwf ix -> (forall p, o_type <$> ix_heap ix !! p = ty st p) -> cwf (with_ix st ix).
Proof.
  intros W W' Ht. assert (forall p, ty (with_ix st ix) p = ty st p) as E by done.
  assert (forall p c, has_cls (with_ix st ix) p c <-> has_cls st p c) as Ec by (intros; unfold has_cls; by rewrite E).
  constructor; cbn [with_ix c_sub c_levels c_country c_att c_terms c_ix]; try apply W; try done.
  - intros p n. rewrite E. apply W.
  - intros p. setoid_rewrite Ec. apply W.
  - intros p l c H1 H2%Ec. by eapply W.
  - intros p. setoid_rewrite Ec. apply W.
  - intros s v H. apply Ec. exact (cw_substation _ W _ _ H).
  - intros p l c H1 H2%Ec. by eapply W.
  - intros s k H. apply Ec. exact (cw_country _ W _ _ H).
Qed.
(** Adding an object to the index. *)
Lemma has_cls_add st ix u c a b d e f : cwf st -> add_post (c_ix st) u (cls_id c) ix ->
  forall p x, has_cls (mkCat ix a b d e f) p x <-> (p = ix_next (c_ix st) /\ x = c) \/ has_cls st p x.
Proof.
  intros W (E & N & _) p x. pose proof (next_none st W) as Hn. unfold has_cls, ty in *. cbn [c_ix]. rewrite E. destruct (decide (p = ix_next (c_ix st))) as [->|Hp].
  - rewrite lookup_insert, Hn. cbn. split; [intros [= H]; left; split; [done|]; by apply cls_id_inj|]. by intros [[_ ->]|].
  - rewrite lookup_insert_ne by done. split; [by right|by intros [[? _]|?]].
Qed.
Lemma ty_add st ix u c a b d e f : add_post (c_ix st) u (cls_id c) ix -> forall p n, ty (mkCat ix a b d e f) p = Some n -> n = cls_id c \/ ty st p = Some n.
Proof.
  intros (E & N & _) p n. unfold ty. cbn [c_ix]. rewrite E. destruct (decide (p = ix_next (c_ix st))) as [->|Hp].
  - rewrite lookup_insert. cbn. intros [= <-]. by left.
  - rewrite lookup_insert_ne by done. by right.
Qed.
Lemma cwf_add_plain st ix u c levels : cwf st -> iwf ix -> add_post (c_ix st) u (cls_id c) ix -> c ∈ [CConfiguredBus; CSwitch; CHvdcLine; CSubstation] ->
  (forall s, default [] (levels !! s) = default [] (c_levels st !! s)) ->
  cwf (mkCat ix (c_sub st) levels (c_country st) (c_att st) (c_terms st)).
Proof.
  intros W Wx A Hc Hl. assert (concreteb c = true /\ derives 5 c CConnectable = false /\ derives 5 c CVoltageLevel = false) as (Hc1 & Hc2 & Hc3).
  { rewrite !elem_of_cons, elem_of_nil in Hc. destruct Hc as [->|[->|[->|[->|[]]]]]; done. }
  pose proof (fun a b d e f => has_cls_add st ix u c a b d e f W A) as Hj. pose proof (next_terms st W) as Nt.
  constructor; cbn [c_sub c_levels c_country c_att c_terms c_ix]; try apply W; try done.
  - intros p n [-> |H]%(ty_add _ _ _ _ _ _ _ _ _ A); [by exists c|by eapply W].
  - intros p. rewrite (cw_terms _ W). split; intros (d & H & D); exists d.
    + split; [apply Hj; by right|done].
    + apply Hj in H as [[-> ->]|H]; [congruence|done].
  - intros p l d H1 [[-> ->]|H2]%Hj; [congruence|by eapply W].
  - intros p. rewrite (cw_att _ W). split; intros (d & H & D); exists d.
    + split; [apply Hj; by right|done].
    + apply Hj in H as [[-> ->]|H]; [congruence|done].
  - intros s v. rewrite Hl. apply W.
  - intros s v H. apply Hj. right. exact (cw_substation _ W _ _ H).
  - intros p l d H1 [[-> ->]|H2]%Hj; [congruence|by eapply W].
  - intros s k H. apply Hj. right. exact (cw_country _ W _ _ H).
Qed.
Lemma cwf_add_level st ix u c s : cwf st -> iwf ix -> add_post (c_ix st) u (cls_id c) ix -> c ∈ [CNodeBreakerVoltageLevel; CBusBreakerVoltageLevel] -> has_cls st s CSubstation ->
  cwf (mkCat ix (<[ix_next (c_ix st) := s]> (c_sub st)) (<[s := default [] (c_levels st !! s) ++ [ix_next (c_ix st)]]> (c_levels st)) (c_country st)
             (<[ix_next (c_ix st) := []]> (c_att st)) (c_terms st)).
Proof.
  intros W Wx A Hc Hs. assert (concreteb c = true /\ derives 5 c CConnectable = false /\ derives 5 c CVoltageLevel = true) as (Hc1 & Hc2 & Hc3).
  { rewrite !elem_of_cons, elem_of_nil in Hc. destruct Hc as [->|[->|[]]]; done. }
  pose proof (fun a b d e f => has_cls_add st ix u c a b d e f W A) as Hj. pose proof (next_terms st W) as Nt. pose proof (next_att st W) as Na. pose proof (next_sub st W) as Ns.
  set (q := ix_next (c_ix st)) in *.
  assert (forall v, default [] (<[q := []]> (c_att st) !! v) = att_of st v) as Ea.
  { intros v. unfold att_of. destruct (decide (q = v)) as [<-|E]; [by rewrite lookup_insert, Na|by rewrite lookup_insert_ne]. }
  constructor; cbn [c_sub c_levels c_country c_att c_terms c_ix]; try apply W; try done.
  - intros p n [-> |H]%(ty_add _ _ _ _ _ _ _ _ _ A); [by exists c|by eapply W].
  - intros p. rewrite (cw_terms _ W). split; intros (d & H & D); exists d.
    + split; [apply Hj; by right|done].
    + apply Hj in H as [[-> ->]|H]; [congruence|done].
  - intros p l d H1 [[-> ->]|H2]%Hj; [congruence|by eapply W].
  - intros p. rewrite lookup_insert_is_Some. split.
    + intros [<-|[_ H]]; [exists c; split; [apply Hj; by left|done]|]. apply (cw_att _ W) in H as (d & H & D). exists d. split; [apply Hj; by right|done].
    + intros (d & [[-> ->]|H]%Hj & D); [by left|]. right. split; [|apply (cw_att _ W); eauto]. intros <-. unfold has_cls in H. unfold q in H. by rewrite next_none in H.
  - intros p l v H1 H2. rewrite lookup_insert_is_Some. destruct (decide (q = v)); [by left|right]. split; [done|]. exact (cw_in _ W _ _ _ H1 H2).
  - intros v. unfold att_of. cbn [c_att]. rewrite Ea. apply W.
  - intros v p k. unfold att_of. cbn [c_att]. rewrite Ea. apply W.
  - intros v. rewrite !lookup_insert_is_Some. rewrite (cw_sub _ W). done.
  - intros s' v. destruct (decide (s = s')) as [<-|E].
    + rewrite lookup_insert. simpl. rewrite elem_of_app, elem_of_list_singleton, (cw_levels _ W). destruct (decide (q = v)) as [<-|E'].
      * rewrite lookup_insert. naive_solver.
      * rewrite lookup_insert_ne by done. naive_solver.
    + rewrite lookup_insert_ne by done. rewrite (cw_levels _ W). destruct (decide (q = v)) as [<-|E'].
      * rewrite lookup_insert, Ns. naive_solver.
      * by rewrite lookup_insert_ne.
  - intros s' v [[<- <-]|[_ H]]%lookup_insert_Some; apply Hj; right; [done|]. exact (cw_substation _ W _ _ H).
  - intros p l d H1 [[-> ->]|H2]%Hj Hd; [congruence|]. destruct (cw_same _ W p l d H1 H2 Hd) as [s' Hs']. exists s'. intros v Hv. rewrite lookup_insert_ne; [by apply Hs'|].
    intros <-. specialize (Hs' _ Hv). congruence.
  - intros s' k H. apply Hj. right. exact (cw_country _ W _ _ H).
Qed.
Lemma cwf_add_equipment st ix u c vls : cwf st -> iwf ix -> add_post (c_ix st) u (cls_id c) ix -> concreteb c = true -> derives 5 c CConnectable = true ->
  length vls = arity c -> (forall v, v ∈ vls -> is_Some (c_att st !! v)) ->
  (c = CTwoWindingsTransformer \/ c = CThreeWindingsTransformer -> exists s, forall v, v ∈ vls -> c_sub st !! v = Some s) ->
  cwf (mkCat ix (c_sub st) (c_levels st) (c_country st) (foldl (fun m t => attach t m) (c_att st) (terminals_of (ix_next (c_ix st)) vls))
             (<[ix_next (c_ix st) := vls]> (c_terms st))).
Proof.
  intros W Wx A Hc1 Hc2 Hlen Hvls Hsame. assert (derives 5 c CVoltageLevel = false) as Hc3 by (by destruct c).
  pose proof (fun a b d e f => has_cls_add st ix u c a b d e f W A) as Hj. pose proof (next_terms st W) as Nt. pose proof (next_none st W) as Nn.
  set (q := ix_next (c_ix st)) in *. set (m := foldl _ _ _).
  assert (forall v, default [] (m !! v) = att_of st v ++ map snd (filter (fun x => x.1 = v) (terminals_of q vls))) as Em by (intros v; apply fold_attach).
  assert (forall v, is_Some (m !! v) <-> is_Some (c_att st !! v)) as Es.
  { intros v. unfold m. rewrite fold_attach_some. split; [|by left]. intros [H|H]; [done|]. apply elem_of_list_fmap in H as ([w [p k]] & -> & H). apply elem_of_terminals in H as [_ H].
    apply Hvls. by eapply elem_of_list_lookup_2. }
  constructor; cbn [c_sub c_levels c_country c_att c_terms c_ix]; try apply W; try done.
  - intros p n [-> |H]%(ty_add _ _ _ _ _ _ _ _ _ A); [by exists c|by eapply W].
  - intros p. rewrite lookup_insert_is_Some. split.
    + intros [<-|[_ H]]; [exists c; split; [apply Hj; by left|done]|]. apply (cw_terms _ W) in H as (d & H & D). exists d. split; [apply Hj; by right|done].
    + intros (d & [[-> ->]|H]%Hj & D); [by left|]. right. split; [|apply (cw_terms _ W); eauto]. intros <-. unfold has_cls in H. congruence.
  - intros p l d [[<- <-]|[Hp H1]]%lookup_insert_Some [[E ->]|H2]%Hj; [done|unfold has_cls in H2; congruence|done|by eapply W].
  - intros v. rewrite Es, (cw_att _ W). split; intros (d & H & D); exists d.
    + split; [apply Hj; by right|done].
    + apply Hj in H as [[-> ->]|H]; [congruence|done].
  - intros p l v [[<- <-]|[Hp H1]]%lookup_insert_Some H2; apply Es; [by apply Hvls|exact (cw_in _ W _ _ _ H1 H2)].
  - intros v. unfold att_of. cbn [c_att]. rewrite Em. apply NoDup_app. split; [apply W|]. split; [|apply NoDup_new].
    intros [p k] H1 H2. apply elem_of_new in H2 as [-> _]. apply (cw_exact _ W) in H1 as (l & H1 & _). congruence.
  - intros v p k. unfold att_of. cbn [c_att]. rewrite Em, elem_of_app, elem_of_new, (cw_exact _ W). unfold terminal_in. cbn [c_terms]. split.
    + intros [(l & H1 & H2)|[-> H]]; [exists l; rewrite lookup_insert_ne; [done|congruence]|exists vls; by rewrite lookup_insert].
    + intros (l & [[<- <-]|[Hp H1]]%lookup_insert_Some & H2); [by right|left; eauto].
  - intros v. rewrite Es. apply W.
  - intros s v H. apply Hj. right. exact (cw_substation _ W _ _ H).
  - intros p l d [[<- <-]|[Hp H1]]%lookup_insert_Some [[E ->]|H2]%Hj Hd; [by apply Hsame|unfold has_cls in H2; congruence|done|by eapply W].
  - intros s k H. apply Hj. right. exact (cw_country _ W _ _ H).
Qed.
Lemma cwf_remove st ix p c : cwf st -> iwf ix -> remove_post (c_ix st) p ix -> has_cls st p c -> derives 5 c CVoltageLevel = false -> c <> CSubstation ->
  cwf (mkCat ix (c_sub st) (c_levels st) (c_country st) (foldl (fun m t => detach t m) (c_att st) (terminals_of p (default [] (c_terms st !! p)))) (delete p (c_terms st))).
Proof.
  intros W Wx A Hp Hc Hc'. set (vls := default [] (c_terms st !! p)). set (m := foldl _ _ _).
  assert (forall a b d e f q x, has_cls (mkCat ix a b d e f) q x <-> q <> p /\ has_cls st q x) as Hj.
  { intros a b d e f q x. unfold has_cls, ty. cbn [c_ix]. rewrite A. destruct (decide (q = p)) as [->|E]; [rewrite lookup_delete; naive_solver|rewrite lookup_delete_ne by done; naive_solver]. }
  assert (forall q n, o_type <$> ix_heap ix !! q = Some n -> ty st q = Some n) as Ht.
  { intros q n. rewrite A. destruct (decide (q = p)) as [->|E]; [by rewrite lookup_delete|by rewrite lookup_delete_ne]. }
  assert (forall v k, vls !! k = Some v -> terminal_in st p k v) as Hv.
  { unfold vls. intros v k H. destruct (c_terms st !! p) as [l|] eqn:E; [|done]. by exists l. }
  assert (forall v, default [] (m !! v) = filter (fun t => (v, t) ∉ terminals_of p vls) (att_of st v)) as Em by (intros v; apply fold_detach).
  assert (forall v, is_Some (m !! v) <-> is_Some (c_att st !! v)) as Es.
  { intros v. apply fold_detach_some. intros w [q k] [-> H]%elem_of_terminals. destruct (Hv _ _ H) as (l & H1 & H2). eapply (cw_in _ W); [done|]. by eapply elem_of_list_lookup_2. }
  constructor; cbn [c_sub c_levels c_country c_att c_terms c_ix]; try apply W; try done.
  - intros q n H%Ht. by eapply W.
  - intros q. rewrite lookup_delete_is_Some. rewrite (cw_terms _ W). split.
    + intros [Hq (d & H & D)]. exists d. split; [apply Hj; auto|done].
    + intros (d & [Hq H]%Hj & D). eauto.
  - intros q l d [Hq H1]%lookup_delete_Some [_ H2]%Hj. by eapply W.
  - intros v. rewrite Es, (cw_att _ W). split; intros (d & H & D); exists d.
    + split; [|done]. apply Hj. split; [|done]. intros ->. rewrite (has_cls_det _ _ _ _ H Hp) in D. congruence.
    + by apply Hj in H as [_ H].
  - intros q l v [Hq H1]%lookup_delete_Some H2. apply Es. exact (cw_in _ W _ _ _ H1 H2).
  - intros v. unfold att_of. cbn [c_att]. rewrite Em. apply NoDup_filter, W.
  - intros v q k. unfold att_of. cbn [c_att]. rewrite Em, elem_of_list_filter, elem_of_terminals, (cw_exact _ W). unfold terminal_in. cbn [c_terms]. split.
    + intros [H (l & H1 & H2)]. exists l. split; [|done]. apply lookup_delete_Some. split; [|done]. intros <-. apply H. split; [done|]. unfold vls. by rewrite H1.
    + intros (l & [Hq H1]%lookup_delete_Some & H2). split; [naive_solver|eauto].
  - intros v. rewrite Es. apply W.
  - intros s v H. apply Hj. pose proof (cw_substation _ W _ _ H) as Hs. split; [|done]. intros ->. apply Hc'. by eapply has_cls_det.
  - intros q l d [Hq H1]%lookup_delete_Some [_ H2]%Hj. by eapply W.
  - intros s k H. apply Hj. pose proof (cw_country _ W _ _ H) as Hs. split; [|done]. intros ->. apply Hc'. by eapply has_cls_det.
Qed.

Lemma object_cls st p c : has_cls st p c <-> exists s, object st p c s.
Proof.
  unfold has_cls, ty, object. destruct (ix_heap (c_ix st) !! p) as [o|]; cbn; split.
  - intros [= H]. eauto.
  - intros (s & o' & [= <-] & H & _). congruence.
  - done.
  - by intros (s & o' & ? & _).
Qed.
Lemma is_a_spec st t p : is_a st t p <-> exists c, has_cls st p c /\ derives 5 c t = true.
Proof.
  unfold is_a. split.
  - intros (c & s & H & K). exists c. split; [apply object_cls; eauto|by apply derives_kind].
  - intros (c & [s H]%object_cls & K). exists c, s. split; [done|by apply derives_kind].
Qed.
Lemma is_a_class st t p : cwf st -> is_a st t p <-> has_class st t p = true.
Proof.
  intros W. rewrite is_a_spec. split.
  - intros (c & H & D). by rewrite (has_class_spec _ _ _ _ H).
  - intros H. unfold has_class in H. destruct (ix_heap (c_ix st) !! p) as [o|] eqn:E; [|done]. destruct (cw_ty _ W p (o_type o)) as (c & _ & Hc); [unfold ty; by rewrite E|].
    exists c. split; [unfold has_cls, ty; rewrite E; cbn; congruence|]. by rewrite Hc, instance_of_id in H.
Qed.
Lemma is_a_id st t p o : ix_heap (c_ix st) !! p = Some o -> cwf st -> is_a st t p <-> instance_of t (o_type o) = true.
Proof. intros E W. rewrite is_a_class by done. unfold has_class. by rewrite E. Qed.
Lemma name_designates st s p : name_of st s p <-> designates (c_ix st) s p.
Proof. unfold name_of, designates. by setoid_rewrite elem_of_o_aliases. Qed.
Lemma name_unique st s p q : cwf st -> name_of st s p -> name_of st s q -> p = q.
Proof. rewrite !name_designates. intros W. by apply designates_unique, W. Qed.
(** find<T>(id) *)
Lemma find_as_spec st t s : cwf st ->
  (exists p, ix_find_as (instance_of t) (c_ix st) s = Ok (Some p) /\ name_of st s p /\ is_a st t p) \/
  (ix_find_as (instance_of t) (c_ix st) s = Ok None /\ (s = "" -> exists p, name_of st s p) /\ forall p, name_of st s p -> ~ is_a st t p) \/
  ((exists m, ix_find_as (instance_of t) (c_ix st) s = Throw m) /\ s = "" /\ forall p, ~ name_of st s p).
Proof.
  intros W. unfold ix_find_as. setoid_rewrite name_designates. destruct (ix_find_spec (c_ix st) s (cw_ix _ W)) as [(p & E & Hp)|[(E & Hs & Hn)|((m & E) & Hs & Hn)]]; rewrite E; cbn [result_bind].
  - destruct Hp as (o & Ho & Hs). rewrite Ho. destruct (instance_of t (o_type o)) eqn:Ei.
    + left. exists p. split; [done|]. split; [by exists o|]. by apply (is_a_id _ _ _ _ Ho W).
    + right. left. split; [done|]. split; [intros _; exists p; by exists o|]. intros q Hq Hi. assert (q = p) as ->.
      { eapply designates_unique; [apply W|done|by exists o]. } apply (is_a_id _ _ _ _ Ho W) in Hi. congruence.
  - right. left. split; [done|]. split; [done|]. intros p Hp. by destruct (Hn p).
  - right. right. eauto.
Qed.
Lemma get_as_spec st t s : cwf st ->
  (exists p, ix_get_as (instance_of t) (c_ix st) s = Ok p /\ name_of st s p /\ is_a st t p) \/
  ((exists m, ix_get_as (instance_of t) (c_ix st) s = Throw m) /\ forall p, name_of st s p -> ~ is_a st t p).
Proof.
  intros W. pose proof (find_as_spec st t s W) as H. unfold ix_find_as, ix_get_as in *. destruct (ix_find_spec (c_ix st) s (cw_ix _ W)) as [(p & E & Hp)|[(E & Hs & Hn)|((m & E) & Hs & Hn)]]; rewrite E in *; cbn [result_bind] in *.
  - destruct Hp as (o & Ho & Hs). rewrite Ho in *. destruct (instance_of t (o_type o)).
    + destruct H as [(q & [= <-] & H)|[(H & _)|((m & H) & _)]]; [|done..]. left. eauto.
    + destruct H as [(q & H & _)|[(_ & _ & H)|((m & H) & _)]]; [done| |done]. right. eauto.
  - right. split; [eauto|]. intros p Hp%name_designates. by destruct (Hn p).
  - right. split; [eauto|]. intros p Hp%name_designates. by destruct (Hn p).
Qed.

Lemma find_levels_ok st l vls : cwf st -> find_levels st l = Ok vls -> length vls = length l /\ forall v, v ∈ vls -> is_Some (c_att st !! v).
Proof.
  intros W. revert vls. induction l as [|s l IH]; intros vls; cbn [find_levels].
  - intros [= <-]. split; [done|]. intros v H. by apply not_elem_of_nil in H.
  - unfold find_level. case_bool_decide; [done|]. destruct (find_as_spec st CVoltageLevel s W) as [(p & -> & _ & Hp)|[(-> & _)|((m & ->) & _)]]; [|done..]. cbn [result_bind].
    destruct (find_levels st l) as [vs| | |]; [|done..]. cbn [result_bind]. intros [= <-]. destruct (IH vs eq_refl) as [E Hv]. split; [cbn; by rewrite E|].
    intros v [->|H']%elem_of_cons; [|by apply Hv]. apply (cw_att _ W). by apply is_a_spec.
Qed.
Lemma find_levels_fine st l : cwf st -> (exists vls, find_levels st l = Ok vls) \/ exists m, find_levels st l = Throw m.
Proof.
  intros W. induction l as [|s l IH]; cbn [find_levels]; [eauto|]. unfold find_level. case_bool_decide; [eauto|].
  destruct (find_as_spec st CVoltageLevel s W) as [(p & -> & _)|[(-> & _)|((m & ->) & _)]]; cbn [result_bind]; [|eauto..]. destruct IH as [[vs ->]|[m ->]]; cbn [result_bind]; eauto.
Qed.
(** The result of a step, and the state after it. *)
Definition outcome_fine (st : cat) (r : result (option nat) * cat) : Prop := cwf r.2 /\ ((exists x, r.1 = Ok x) \/ (exists m, r.1 = Throw m) /\ r.2 = st).
Lemma add_equipment_fine st c vls id e : cwf st -> concreteb c = true -> derives 5 c CConnectable = true -> length vls = arity c -> (forall v, v ∈ vls -> is_Some (c_att st !! v)) ->
  (c = CTwoWindingsTransformer \/ c = CThreeWindingsTransformer -> exists s, forall v, v ∈ vls -> c_sub st !! v = Some s) -> outcome_fine st (add_equipment st c vls id e).
Proof.
  intros W H1 H2 H3 H4 H5. unfold add_equipment. destruct (ix_add_ok (c_ix st) id (cls_id c) e (cw_ix _ W)) as [(u & ix & -> & Wx & A & _)|(m & -> & _)].
  - split; [|cbn; eauto]. cbn [snd]. by eapply cwf_add_equipment.
  - split; cbn; eauto.
Qed.
Lemma step_fine st o : cwf st -> cop_ok st o -> outcome_fine st (cstep st o).
Proof.
  intros W Hok. destruct o as [id e|s k|s nd id e|c v id e|tie v1 v2 id e|s v1 v2 id e|s v1 v2 v3 id e|c id e|p|p a t e|p a]; cbn [cstep cop_ok] in *.
  - destruct (ix_add_ok (c_ix st) id (cls_id CSubstation) e (cw_ix _ W)) as [(u & ix & -> & Wx & A & _)|(m & -> & _)]; [|split; cbn; eauto].
    split; [|cbn; eauto]. cbn [snd]. apply (cwf_add_plain _ _ _ _ _ W Wx A); [apply elem_of_list_In; cbn; tauto|].
    intros s. destruct (decide (ix_next (c_ix st) = s)) as [<-|E]; [|by rewrite lookup_insert_ne]. rewrite lookup_insert. simpl.
    destruct (default [] (c_levels st !! ix_next (c_ix st))) as [|v l] eqn:E; [done|]. assert (c_sub st !! v = Some (ix_next (c_ix st))) as H by (apply (cw_levels _ W); rewrite E; left).
    apply (cw_substation _ W) in H. unfold has_cls in H. by rewrite next_none in H.
  - split; [|cbn; eauto]. cbn [snd]. apply is_a_spec in Hok as (c & Hc & D). assert (c = CSubstation) as -> by (destruct c; vm_compute in D; congruence).
    assert (forall p d, has_cls (mkCat (c_ix st) (c_sub st) (c_levels st) (partial_alter (fun _ => k) s (c_country st)) (c_att st) (c_terms st)) p d <-> has_cls st p d) as E by done.
    constructor; cbn [c_ix c_sub c_levels c_country c_att c_terms]; try apply W.
    intros s' k' H. apply E. destruct (decide (s = s')) as [<-|N]; [done|]. rewrite lookup_partial_alter_ne in H by done. exact (cw_country _ W _ _ H).
  - apply is_a_spec in Hok as (c & Hc & D). assert (c = CSubstation) as -> by (destruct c; vm_compute in D; congruence).
    destruct (ix_add_ok (c_ix st) id (cls_id (if nd then CNodeBreakerVoltageLevel else CBusBreakerVoltageLevel)) e (cw_ix _ W)) as [(u & ix & -> & Wx & A & _)|(m & -> & _)]; [|split; cbn; eauto].
    split; [|cbn; eauto]. cbn [snd]. eapply cwf_add_level; [done|done|exact A| |done]. apply elem_of_list_In. destruct nd; cbn; tauto.
  - destruct Hok as (Hk & Hc & Hv). apply derives_kind in Hk. apply concreteb_spec in Hc. apply add_equipment_fine; try done.
    + destruct c; vm_compute in Hk, Hc; try discriminate; done.
    + destruct c; vm_compute in Hk, Hc; try discriminate; done.
    + intros w ->%elem_of_list_singleton. apply (cw_att _ W). by apply is_a_spec.
    + intros [-> | ->]; vm_compute in Hk; discriminate.
  - destruct (find_levels_fine st [v1; v2] W) as [[vls E]|[m ->]]; [|split; cbn; eauto]. rewrite E. destruct (find_levels_ok _ _ _ W E) as [L Hv].
    apply add_equipment_fine; try done; try (by destruct tie). destruct tie; intros [? | ?]; done.
  - destruct (find_levels_fine st [v1; v2] W) as [[vls E]|[m ->]]; [|split; cbn; eauto]. rewrite E. destruct (find_levels_ok _ _ _ W E) as [L Hv].
    destruct (forallb _ vls) eqn:F; [|split; cbn; eauto]. apply add_equipment_fine; try done. intros _. exists s. intros v Hv'. rewrite forallb_forall in F.
    specialize (F v (proj1 (elem_of_list_In _ _) Hv')). by apply bool_decide_eq_true in F.
  - destruct (find_levels_fine st [v1; v2; v3] W) as [[vls E]|[m ->]]; [|split; cbn; eauto]. rewrite E. destruct (find_levels_ok _ _ _ W E) as [L Hv].
    destruct (forallb _ vls) eqn:F; [|split; cbn; eauto]. apply add_equipment_fine; try done. intros _. exists s. intros v Hv'. rewrite forallb_forall in F.
    specialize (F v (proj1 (elem_of_list_In _ _) Hv')). by apply bool_decide_eq_true in F.
  - destruct (ix_add_ok (c_ix st) id (cls_id c) e (cw_ix _ W)) as [(u & ix & -> & Wx & A & _)|(m & -> & _)]; cbn [fst snd].
    + split; [|cbn; eauto]. cbn [snd]. apply (cwf_add_plain _ _ _ _ _ W Wx A); [|done]. rewrite !elem_of_cons in *. naive_solver.
    + split; cbn; [|right; split; [eauto|by destruct st]]. by destruct st.
  - assert (exists c, has_cls st p c /\ derives 5 c CVoltageLevel = false /\ c <> CSubstation) as (c & Hc & D & N).
    { destruct Hok as [H|[H|H]]; apply is_a_spec in H as (c & Hc & D); exists c; (split; [done|]); destruct c; vm_compute in D; try discriminate; done. }
    destruct (ix_heap (c_ix st) !! p) as [o|] eqn:Ho; [|unfold has_cls, ty in Hc; by rewrite Ho in Hc].
    destruct (ix_remove_ok (c_ix st) p o (cw_ix _ W) Ho) as (ix & -> & Wx & A). split; [|cbn; eauto]. cbn [snd]. by eapply cwf_remove.
  - apply is_a_spec in Hok as (c & Hc & _). destruct (ix_heap (c_ix st) !! p) as [o|] eqn:Ho; [|unfold has_cls, ty in Hc; by rewrite Ho in Hc].
    destruct (ix_add_alias_ok (c_ix st) p o a t e (cw_ix _ W) Ho) as [(u & ix & -> & Wx & (A & _) & _)|[(-> & _)|(m & -> & _)]]; cbn [fst snd].
    + split; [|cbn; eauto]. cbn [snd]. apply cwf_same_ty; [done|done|]. intros q. rewrite A. unfold ty. destruct (decide (p = q)) as [<-|N]; [|by rewrite lookup_insert_ne].
      rewrite lookup_insert, Ho. cbn. unfold with_alias. by case_bool_decide.
    + split; cbn; [by destruct st|eauto].
    + split; cbn; [by destruct st|]. right. split; [eauto|by destruct st].
  - apply is_a_spec in Hok as (c & Hc & _). destruct (ix_heap (c_ix st) !! p) as [o|] eqn:Ho; [|unfold has_cls, ty in Hc; by rewrite Ho in Hc].
    destruct (ix_remove_alias_ok (c_ix st) p o a (cw_ix _ W) Ho) as [(ix & -> & Wx & _ & A & _)|(m & -> & _)]; cbn [fst snd].
    + split; [|cbn; eauto]. cbn [snd]. apply cwf_same_ty; [done|done|]. intros q. rewrite A. unfold ty. destruct (decide (p = q)) as [<-|N]; [|by rewrite lookup_insert_ne].
      rewrite lookup_insert, Ho. cbn. destruct (without_alias_cases o a) as [(t & _ & ->)|[_ ->]]; done.
    + split; cbn; [by destruct st|]. right. split; [eauto|by destruct st].
Qed.
Lemma creach_wf st : creach st -> cwf st.
Proof. induction 1 as [id Hid|st o _ IH Hok]; [by apply cwf_init|]. by apply step_fine. Qed.

(** ** The collections *)
Lemma elem_of_n_of st c p : cwf st -> p ∈ n_of c st <-> has_cls st p c.
Proof.
  intros W. unfold n_of. rewrite (w_type _ (cw_ix _ W)). unfold has_cls, ty. destruct (ix_heap (c_ix st) !! p) as [o|]; cbn; split.
  - intros (o' & [= <-] & ->). done.
  - intros [= H]. eauto.
  - by intros (o & ? & _).
  - done.
Qed.
Lemma NoDup_n_of st c : cwf st -> NoDup (n_of c st).
Proof. intros W. apply (w_nodup _ (cw_ix _ W)). Qed.
Lemma elem_of_n_objects st p : cwf st -> p ∈ n_objects st <-> is_Some (ix_heap (c_ix st) !! p).
Proof.
  intros W. unfold n_objects. rewrite elem_of_list_fmap. split.
  - intros ([s q] & -> & H). apply elem_of_map_to_list in H. destruct (w_byid _ (cw_ix _ W) _ _ H) as (o & Ho & _). cbn [snd]. rewrite Ho. by eexists.
  - intros [o Ho]. exists (o_id o, p). split; [done|]. apply elem_of_map_to_list. by apply (w_heap _ (cw_ix _ W)).
Qed.
Lemma NoDup_n_objects st : cwf st -> NoDup (n_objects st).
Proof.
  intros W. unfold n_objects. apply NoDup_fmap_2_strong; [|apply NoDup_map_to_list]. intros [s p] [t q] H1%elem_of_map_to_list H2%elem_of_map_to_list E. cbn in E. subst q.
  destruct (w_byid _ (cw_ix _ W) _ _ H1) as (o & Ho & <-). destruct (w_byid _ (cw_ix _ W) _ _ H2) as (o' & Ho' & <-). congruence.
Qed.
Lemma is_a_live st p : cwf st -> is_a st CIdentifiable p <-> is_Some (ix_heap (c_ix st) !! p).
Proof.
  intros W. rewrite is_a_spec. split.
  - intros (c & H & _). unfold has_cls, ty in H. destruct (ix_heap (c_ix st) !! p); [by eexists|done].
  - intros [o Ho]. destruct (cw_ty _ W p (o_type o)) as (c & Hc & E); [unfold ty; by rewrite Ho|]. exists c. split; [unfold has_cls, ty; rewrite Ho; cbn; congruence|]. by destruct c.
Qed.
#[global] Instance getter_eq_dec : EqDecision getter.
Proof. solve_decision. Defined.
(** The concrete classes of a getter. *)
Definition members (g : getter) : list cls :=
  match g with
  | GBranch => [CLine; CTieLine; CTwoWindingsTransformer]
  | GHvdcConverterStation => [CLccConverterStation; CVscConverterStation]
  | GLine => [CLine; CTieLine]
  | GVoltageLevel => [CBusBreakerVoltageLevel; CNodeBreakerVoltageLevel]
  | g => [announced g]
  end.
Lemma members_spec g c : g <> GIdentifiable -> concreteb c = true -> derives 5 c (announced g) = true <-> c ∈ members g.
Proof.
  intros Hg Hc. destruct (bool_decide (c ∈ members g)) eqn:E.
  - split; [intros _; by apply bool_decide_eq_true in E|]. intros _. destruct g; try done; destruct c; vm_compute in E; try discriminate; done.
  - split; [|intros H; apply bool_decide_eq_false in E; done]. intros H. exfalso. destruct g; try done; destruct c; try (vm_compute in Hc; discriminate); try (vm_compute in E; discriminate); vm_compute in H; discriminate.
Qed.
Lemma n_all_members g st : g <> GIdentifiable -> n_all g st = concat (map (fun c => n_of c st) (members g)).
Proof. destruct g; intros H; try done; cbn [n_all members announced map concat]; rewrite ?app_nil_r, <- ?app_assoc; done. Qed.
Lemma elem_of_n_all g st p : cwf st -> p ∈ n_all g st <-> is_a st (announced g) p.
Proof.
  intros W. destruct (decide (g = GIdentifiable)) as [->|Hg].
  - cbn [n_all announced]. rewrite elem_of_n_objects, is_a_live by done. done.
  - rewrite n_all_members by done. rewrite is_a_spec, elem_of_list_In, in_concat. split.
    + intros (l & (c & <- & Hc)%in_map_iff & Hp). apply elem_of_list_In, (elem_of_n_of _ _ _ W) in Hp. exists c. split; [done|]. apply members_spec; [done| |by apply elem_of_list_In].
      destruct (cw_ty _ W _ _ Hp) as (d & Hd & E). apply cls_id_inj in E. by subst.
    + intros (c & Hp & D). exists (n_of c st). split; [|by apply elem_of_list_In, (elem_of_n_of _ _ _ W)]. apply in_map_iff. exists c. split; [done|].
      apply elem_of_list_In. apply members_spec; [done| |done]. destruct (cw_ty _ W _ _ Hp) as (d & Hd & E). apply cls_id_inj in E. by subst.
Qed.
Lemma NoDup_classes st l : cwf st -> NoDup l -> NoDup (concat (map (fun c => n_of c st) l)).
Proof.
  intros W. induction 1 as [|c l Hc _ IH]; cbn [map concat]; [constructor|]. apply NoDup_app. split; [by apply NoDup_n_of|]. split; [|done].
  intros p H1%(elem_of_n_of _ _ _ W) H2. apply elem_of_list_In, in_concat in H2 as (l' & (d & <- & Hd)%in_map_iff & Hp). apply elem_of_list_In, (elem_of_n_of _ _ _ W) in Hp.
  rewrite (has_cls_det _ _ _ _ H1 Hp) in Hc. apply Hc. by apply elem_of_list_In.
Qed.
Lemma NoDup_n_all g st : cwf st -> NoDup (n_all g st).
Proof.
  intros W. destruct (decide (g = GIdentifiable)) as [->|Hg]; [by apply NoDup_n_objects|]. rewrite n_all_members by done. apply NoDup_classes; [done|].
  apply (bool_decide_unpack (NoDup (members g))). by destruct g.
Qed.
Lemma n_count_length g st : n_count g st = length (n_all g st).
Proof. destruct g; cbn [n_count n_all]; rewrite ?app_length; try done. unfold n_objects. by rewrite map_length. Qed.

(** ** The equipments of a voltage level *)
Lemma id_at_spec st p s : id_at st p = s -> is_Some (ix_heap (c_ix st) !! p) -> exists c n, ix_heap (c_ix st) !! p = Some c /\ o_id c = s /\ n = o_type c.
Proof. unfold id_at. intros H [o Ho]. rewrite Ho in H. eauto. Qed.
Lemma terminal_live st p k v : cwf st -> terminal_in st p k v -> exists c, has_cls st p c /\ derives 5 c CConnectable = true.
Proof. intros W (l & H & _). apply (cw_terms _ W). by eexists. Qed.
Definition of_level (st : cat) (t : cls) (v : nat) (s : string) : Prop := exists p c, object st p c s /\ kind_of c t /\ in_level st p v.
Lemma elem_of_level_ids st t v s : cwf st -> s ∈ level_ids t st v <-> of_level st t v s.
Proof.
  intros W. unfold level_ids. rewrite elem_of_list_fmap. split.
  - intros ([p k] & -> & [Hc H]%elem_of_list_filter). cbn [fst] in *. apply (cw_exact _ W) in H. apply is_a_class in Hc as (c & s & Ho & K); [|done].
    exists p, c. destruct Ho as (o & Ho & E & Es). split; [|split; [done|by exists k]]. exists o. unfold id_at. rewrite Ho. done.
  - intros (p & c & (o & Ho & E & Es) & K & k & H). exists (p, k). cbn [fst]. split; [unfold id_at; by rewrite Ho|]. apply elem_of_list_filter. split; [|by apply (cw_exact _ W)].
    cbn [fst]. apply is_a_class; [done|]. exists c, s. split; [by exists o|done].
Qed.
Lemma v_connectables_spec st t v : cwf st -> exists out, v_connectables t st v = Ok out /\ NoDup out /\ forall s, s ∈ out <-> of_level st t v s.
Proof.
  intros W. destruct (C29_voltage_level_first [] (level_ids t st v) (S (length (level_ids t st v)))) as (h' & loc & r & out & h'' & E1 & E2 & N & Hout); [lia|].
  exists out. unfold v_connectables. rewrite E1, E2. split; [done|]. split; [done|]. intros s. rewrite Hout. by apply elem_of_level_ids.
Qed.
Lemma s_transformers_spec st t s : cwf st -> exists out, s_transformers t st s = Ok out /\ NoDup out /\
  forall x, x ∈ out <-> exists v, c_sub st !! v = Some s /\ of_level st t v x.
Proof.
  intros W. unfold s_transformers. set (l := map _ _). destruct (C29_first_pass_partial [] l (S (length (concat l)))) as (out & E & N & Hout); [lia|].
  exists out. rewrite E. cbn [result_bind]. split; [done|]. split; [done|]. intros x. rewrite Hout. unfold l. split.
  - intros (l' & (v & -> & Hv)%elem_of_list_fmap & Hx). exists v. split; [by apply (cw_levels _ W)|by apply elem_of_level_ids].
  - intros (v & Hv & Hx). exists (level_ids t st v). split; [|by apply elem_of_level_ids]. apply elem_of_list_fmap. exists v. split; [done|by apply (cw_levels _ W)].
Qed.
(** getConnectable<T>(id) *)
Lemma level_of_spec st p k l v : c_terms st !! p = Some l -> l !! k = Some v -> level_of st p k = Ok v.
Proof. intros H1 H2. unfold level_of. rewrite H1. cbn. by rewrite H2. Qed.
Lemma terms_of_class st p c : cwf st -> has_cls st p c -> derives 5 c CConnectable = true -> exists l, c_terms st !! p = Some l /\ length l = arity c.
Proof.
  intros W H D. assert (is_Some (c_terms st !! p)) as [l Hl] by (apply (cw_terms _ W); eauto). exists l. split; [done|]. by eapply (cw_arity _ W).
Qed.
Lemma connectable_kinds c : concreteb c = true -> derives 5 c CConnectable = true ->
  (derives 5 c CInjection = true /\ arity c = 1) \/ (derives 5 c CInjection = false /\ derives 5 c CBranch = true /\ arity c = 2) \/
  (derives 5 c CInjection = false /\ derives 5 c CBranch = false /\ c = CThreeWindingsTransformer).
Proof.
  intros Hc D. destruct c; try (vm_compute in Hc; discriminate); try (vm_compute in D; discriminate); vm_compute.
  all: first [left; done | right; left; done | right; right; done].
Qed.
Lemma concrete_of st p c : cwf st -> has_cls st p c -> concreteb c = true.
Proof. intros W H. destruct (cw_ty _ W _ _ H) as (d & Hd & E). apply cls_id_inj in E. by subst. Qed.
Lemma v_get_found st t v p s : cwf st -> kind_of t CConnectable -> ix_find_as (instance_of t) (c_ix st) s = Ok (Some p) -> is_a st t p ->
  (in_level st p v /\ v_get t st v s = Ok (Some p)) \/ (~ in_level st p v /\ exists m, v_get t st v s = Throw m).
Proof.
  intros W Kt E Hp. unfold v_get. rewrite E. cbn [result_bind]. apply is_a_spec in Hp as (c & Hc & D). assert (derives 5 c CConnectable = true) as Dc.
  { apply derives_kind. eapply rtc_transitive; [|exact Kt]. by apply derives_kind. }
  destruct (terms_of_class _ _ _ W Hc Dc) as (l & Hl & Ll). rewrite !(has_class_spec _ _ _ _ Hc).
  assert (forall w, in_level st p w <-> w ∈ l) as Hin.
  { intros w. unfold in_level, terminal_in. rewrite Hl. split; [intros (k & l' & [= <-] & H); by eapply elem_of_list_lookup_2|]. intros [k Hk]%elem_of_list_lookup. eauto. }
  rewrite !Hin. destruct (connectable_kinds c (concrete_of _ _ _ W Hc) Dc) as [[-> A]|[(-> & -> & A)|(-> & -> & ->)]].
  - rewrite A in Ll. destruct l as [|w [|? ?]]; try done. rewrite (level_of_spec st p 0 _ w Hl eq_refl). cbn [result_bind]. rewrite elem_of_list_singleton. case_bool_decide; [left; done|right]. split; [congruence|eauto].
  - rewrite A in Ll. destruct l as [|w1 [|w2 [|? ?]]]; try done. rewrite (level_of_spec st p 0 _ w1 Hl eq_refl). cbn [result_bind]. rewrite (level_of_spec st p 1 _ w2 Hl eq_refl). cbn [result_bind].
    rewrite !elem_of_cons, elem_of_nil. destruct (bool_decide (w1 = v)) eqn:E1, (bool_decide (w2 = v)) eqn:E2; cbn [orb]; rewrite ?bool_decide_eq_true, ?bool_decide_eq_false in *; naive_solver.
  - cbn [arity] in Ll. destruct l as [|w1 [|w2 [|w3 [|? ?]]]]; try done. cbn [derives bool_decide orb]. rewrite bool_decide_true by done. cbn [orb].
    rewrite (level_of_spec st p 0 _ w1 Hl eq_refl). cbn [result_bind]. rewrite (level_of_spec st p 1 _ w2 Hl eq_refl). cbn [result_bind]. rewrite (level_of_spec st p 2 _ w3 Hl eq_refl). cbn [result_bind].
    rewrite !elem_of_cons, elem_of_nil. destruct (bool_decide (w1 = v)) eqn:E1, (bool_decide (w2 = v)) eqn:E2, (bool_decide (w3 = v)) eqn:E3; cbn [orb]; rewrite ?bool_decide_eq_true, ?bool_decide_eq_false in *; naive_solver.
Qed.
Lemma countries_fold (m : gmap nat string) l : forall acc k, k ∈ foldl (fun acc s => match m !! s with Some k => {[k]} ∪ acc | None => acc end) acc l <-> k ∈ (acc : gset string) \/ exists s, s ∈ l /\ m !! s = Some k.
Proof.
  induction l as [|s l IH]; intros acc k; cbn [foldl].
  - split; [by left|]. intros [H|(s & H & _)]; [done|]. by apply not_elem_of_nil in H.
  - rewrite IH. setoid_rewrite elem_of_cons. destruct (m !! s) as [k'|] eqn:E; [rewrite elem_of_union, elem_of_singleton|]; naive_solver.
Qed.
