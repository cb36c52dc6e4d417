From stdpp Require Import gmap strings.
From Verif Require Import Base Variants VariantsSpec VariantsProofs VariantsRefine VariantCode VariantCodeSpec VariantCodeProofs.

(** ** Access to the parts of related trees *)
Section access.
  Context {B C : Type}.
  Implicit Types (P : cls -> string -> B -> C -> Prop).

  Lemma trel_part_at P q : forall t t', trel P t t' ->
    match part_at t q, part_at t' q with Some u, Some u' => trel P u u' | None, None => True | _, _ => False end.
  Proof.
    induction q as [|i q IH]; intros t t' H; [exact H|]. destruct t as [c s ps], t' as [c' s' ps']. apply trel_unfold in H as (-> & H1 & H2).
    cbn [part_at t_parts]. destruct (ps !! i) as [[sl u]|] eqn:E.
    - destruct (Forall2_lookup_l _ _ _ _ _ H2 E) as ([sl' u'] & E' & _ & Hu). rewrite E'. by apply IH.
    - apply lookup_ge_None in E. rewrite (Forall2_length _ _ _ H2) in E. apply lookup_ge_None in E. by rewrite E.
  Qed.
  Lemma trel_upd P g g' q : forall t t', trel P t t' ->
    (forall u u', part_at t q = Some u -> part_at t' q = Some u' -> trel P u u' -> trel P (g u) (g' u')) ->
    trel P (part_upd g q t) (part_upd g' q t').
  Proof.
    induction q as [|i q IH]; intros t t' H Hg; [by apply Hg|]. destruct t as [c s ps], t' as [c' s' ps']. cbn [part_upd]. pose proof H as H0. apply trel_unfold in H as (-> & H1 & H2).
    apply trel_unfold. split; [done|]. split; [done|]. apply Forall2_same_length_lookup. split; [rewrite !alter_length; by eapply Forall2_length|].
    intros j x y Hx Hy. destruct (decide (j = i)) as [->|Hj].
    - rewrite list_lookup_alter in Hx. rewrite list_lookup_alter in Hy. apply fmap_Some in Hx as ([sl u] & Hu & ->). apply fmap_Some in Hy as ([sl' u'] & Hu' & ->).
      destruct (Forall2_lookup_lr _ _ _ _ _ _ H2 Hu Hu') as [E1 E2]. cbn [fst snd] in *. split; [done|]. apply IH; [done|].
      intros v v' Hv Hv'. apply Hg; cbn [part_at t_parts]; [by rewrite Hu|by rewrite Hu'].
    - rewrite list_lookup_alter_ne in Hx by done. rewrite list_lookup_alter_ne in Hy by done. exact (Forall2_lookup_lr _ _ _ _ _ _ H2 Hx Hy).
  Qed.
  Lemma trel_vec_at P l ts ts' : Forall2 (trel P) ts ts' ->
    match vec_at ts l, vec_at ts' l with Some (c, v), Some (c', x) => c' = c /\ P c (l_member l) v x | None, None => True | _, _ => False end.
  Proof.
    intros H. unfold vec_at. destruct (ts !! l_obj l) as [t|] eqn:E.
    2:{ apply lookup_ge_None in E. rewrite (Forall2_length _ _ _ H) in E. apply lookup_ge_None in E. by rewrite E. }
    destruct (Forall2_lookup_l _ _ _ _ _ H E) as (t' & -> & R). pose proof (trel_part_at P (l_path l) t t' R) as Hp.
    destruct (part_at t (l_path l)) as [u|], (part_at t' (l_path l)) as [u'|]; try done.
    destruct u as [c s ps], u' as [c' s' ps']. apply trel_unfold in Hp as (-> & H1 & _). cbn [t_vecs t_cls]. specialize (H1 (l_member l)).
    destruct (s !! l_member l), (s' !! l_member l); done.
  Qed.
  Lemma trel_set P m v x u u' : trel P u u' -> P (t_cls u) m v x -> trel P (set_vec m v u) (set_vec m x u').
  Proof.
    destruct u as [c s ps], u' as [c' s' ps']. cbn [set_vec t_cls]. rewrite !trel_unfold. intros (-> & H1 & H2) Hx. split; [done|]. split; [|done].
    intros m'. destruct (decide (m' = m)) as [->|]; [by rewrite !lookup_insert|]. rewrite !lookup_insert_ne by done. apply H1.
  Qed.
  Lemma trel_add P sl v v' u u' : trel P u u' -> trel P v v' -> trel P (add_part sl v u) (add_part sl v' u').
  Proof.
    destruct u as [c s ps], u' as [c' s' ps']. cbn [add_part]. rewrite !trel_unfold. intros (-> & H1 & H2) Hx. split; [done|]. split; [done|].
    apply Forall2_app; [done|]. constructor; [done|constructor].
  Qed.
  Lemma trel_alter (R : vtree B -> vtree C -> Prop) (g : vtree B -> vtree B) (g' : vtree C -> vtree C) o ts ts' : Forall2 R ts ts' ->
    (forall t t', ts !! o = Some t -> ts' !! o = Some t' -> R t t' -> R (g t) (g' t')) -> Forall2 R (alter g o ts) (alter g' o ts').
  Proof.
    intros H Hg. apply Forall2_same_length_lookup. split; [rewrite !alter_length; by eapply Forall2_length|]. intros j x y Hx Hy. destruct (decide (j = o)) as [->|Hj].
    - rewrite list_lookup_alter in Hx. rewrite list_lookup_alter in Hy. apply fmap_Some in Hx as (t & Hu & ->). apply fmap_Some in Hy as (t' & Hu' & ->). apply Hg; [done|done|].
      exact (Forall2_lookup_lr _ _ _ _ _ _ H Hu Hu').
    - rewrite list_lookup_alter_ne in Hx by done. rewrite list_lookup_alter_ne in Hy by done. exact (Forall2_lookup_lr _ _ _ _ _ _ H Hx Hy).
  Qed.
End access.

Lemma vec_at_Some {B} (ts : list (vtree B)) l c v : vec_at ts l = Some (c, v) ->
  exists t u, ts !! l_obj l = Some t /\ part_at t (l_path l) = Some u /\ t_cls u = c /\ t_vecs u !! l_member l = Some v.
Proof.
  unfold vec_at. destruct (ts !! l_obj l) as [t|]; [|done]. destruct (part_at t (l_path l)) as [u|] eqn:E; [|done]. destruct (t_vecs u !! l_member l) eqn:E2; [|done].
  intros [= <- <-]. eauto 10.
Qed.
Lemma trel_put {B C} (P : cls -> string -> B -> C -> Prop) l c v x v0 ts ts' : Forall2 (trel P) ts ts' -> vec_at ts l = Some (c, v0) -> P c (l_member l) v x ->
  Forall2 (trel P) (put_vec l v ts) (put_vec l x ts').
Proof.
  intros H (t & u & E1 & E2 & <- & E4)%vec_at_Some Hx. unfold put_vec. apply trel_alter; [done|]. intros t1 t' Et Et' R. assert (t1 = t) as -> by congruence. apply trel_upd; [done|].
  intros u1 u' Hu Hu' Ru. assert (u1 = u) as -> by congruence. by apply trel_set.
Qed.
Lemma part_upd_same {B} (g : vtree B -> vtree B) q : forall t u, part_at t q = Some u -> g u = u -> part_upd g q t = t.
Proof.
  induction q as [|i q IH]; intros t u H Hg; [simpl in H; injection H as ->; exact Hg|]. destruct t as [c s ps]. cbn [part_at t_parts part_upd] in *.
  destruct (ps !! i) as [[sl v]|] eqn:E; [|done]. f_equal. apply list_eq. intros j. destruct (decide (j = i)) as [->|Hj].
  - rewrite list_lookup_alter, E. simpl. by rewrite (IH v u).
  - by rewrite list_lookup_alter_ne.
Qed.
Lemma put_same {B} l c (x : B) ts : vec_at ts l = Some (c, x) -> put_vec l x ts = ts.
Proof.
  intros (t & u & E1 & E2 & <- & E4)%vec_at_Some. unfold put_vec. apply list_eq. intros j. destruct (decide (j = l_obj l)) as [->|Hj]; [|by rewrite list_lookup_alter_ne].
  rewrite list_lookup_alter, E1. simpl. f_equal. apply part_upd_same with u; [done|]. destruct u as [c s ps]. cbn [set_vec t_vecs] in *. by rewrite insert_id.
Qed.
Lemma shaped_upd {B} (g : vtree B -> vtree B) q : forall t, shaped t -> (forall u, part_at t q = Some u -> shaped u -> shaped (g u) /\ t_cls (g u) = t_cls u) ->
  shaped (part_upd g q t) /\ t_cls (part_upd g q t) = t_cls t.
Proof.
  induction q as [|i q IH]; intros t H Hg; [by apply Hg|]. destruct t as [c s ps]. cbn [part_upd]. apply shaped_unfold in H as [H1 H2]. split; [|done].
  apply shaped_unfold. split; [done|]. intros p Hp. apply elem_of_list_lookup in Hp as [j Hj]. destruct (decide (j = i)) as [->|Hji].
  - rewrite list_lookup_alter in Hj. apply fmap_Some in Hj as ([sl u] & Hu & ->). destruct (H2 (sl, u)) as [Q1 Q2]; [by apply elem_of_list_lookup_2 in Hu|]. cbn [fst snd] in *.
    destruct (IH u Q2) as [R1 R2]; [|by rewrite R2]. intros v Hv. apply Hg. cbn [part_at t_parts]. by rewrite Hu.
  - rewrite list_lookup_alter_ne in Hj by done. apply H2. by apply elem_of_list_lookup_2 in Hj.
Qed.
Lemma shaped_set {B} m (v v0 : B) u : t_vecs u !! m = Some v0 -> shaped u -> shaped (set_vec m v u) /\ t_cls (set_vec m v u) = t_cls u.
Proof.
  destruct u as [c s ps]. cbn [t_vecs set_vec t_cls]. rewrite !shaped_unfold. intros H [H1 H2]. split; [|done]. split; [|done]. intros m'. rewrite <- H1.
  destruct (decide (m' = m)) as [->|]; [rewrite lookup_insert, H; split; intros _; by eexists|by rewrite lookup_insert_ne].
Qed.
Lemma shaped_add {B} sl (v u : vtree B) : shaped v -> slot_ok (t_cls u) sl (t_cls v) = true -> shaped u -> shaped (add_part sl v u) /\ t_cls (add_part sl v u) = t_cls u.
Proof.
  destruct u as [c s ps]. cbn [add_part t_cls]. rewrite !shaped_unfold. intros H1 H2 [H3 H4]. split; [|done]. split; [done|]. intros p [Hp|Hp]%elem_of_app; [auto|]. apply elem_of_list_singleton in Hp as ->. done.
Qed.
Lemma Forall_alter' {X} (P : X -> Prop) g o (l : list X) : Forall P l -> (forall x, l !! o = Some x -> P x -> P (g x)) -> Forall P (alter g o l).
Proof.
  intros H Hg. rewrite Forall_lookup in *. intros j x Hx. destruct (decide (j = o)) as [->|Hj].
  - rewrite list_lookup_alter in Hx. apply fmap_Some in Hx as (y & Hy & ->). eauto.
  - rewrite list_lookup_alter_ne in Hx by done. eauto.
Qed.
Lemma tall_trel {B} (P : cls -> string -> B -> Prop) ts : Forall (tall P) ts -> Forall2 (trel (fun c m v v' => v' = v /\ P c m v)) ts ts.
Proof. intros H. apply Forall_Forall2_diag. eapply Forall_impl; [exact H|]. intros t Ht. apply trel_refl. eapply tall_impl; [|exact Ht]. done. Qed.
Lemma trels_tall {B C} (P : cls -> string -> B -> C -> Prop) (Q : cls -> string -> C -> Prop) ts ts' :
  (forall c m v v', P c m v v' -> Q c m v') -> Forall2 (trel P) ts ts' -> Forall (tall Q) ts'.
Proof. intros H. induction 1; constructor; [by eapply trel_tall|done]. Qed.
Lemma trels_shaped {B C} (P : cls -> string -> B -> C -> Prop) ts ts' : Forall2 (trel P) ts ts' -> Forall shaped ts -> Forall shaped ts'.
Proof. induction 1; intros H1; inversion H1; subst; constructor; [by eapply trel_shaped|auto]. Qed.
Lemma trels_comp {B C D} (P : cls -> string -> B -> C -> Prop) (Q : cls -> string -> C -> D -> Prop) (R : cls -> string -> B -> D -> Prop) ts ts' ts'' :
  (forall c m v v' v'', P c m v v' -> Q c m v' v'' -> R c m v v'') -> Forall2 (trel P) ts ts' -> Forall2 (trel Q) ts' ts'' -> Forall2 (trel R) ts ts''.
Proof. intros H H1. revert ts''. induction H1; intros ts'' H2; inversion H2; subst; constructor; [by eapply trel_comp|auto]. Qed.
Lemma trels_flip {B C} (P : cls -> string -> B -> C -> Prop) ts ts' : Forall2 (trel P) ts ts' -> Forall2 (trel (fun c m v' v => P c m v v')) ts' ts.
Proof. induction 1; constructor; [by apply trel_flip|done]. Qed.
Lemma trels_impl {B C} (P Q : cls -> string -> B -> C -> Prop) ts ts' : (forall c m v v', P c m v v' -> Q c m v v') -> Forall2 (trel P) ts ts' -> Forall2 (trel Q) ts ts'.
Proof. intros H. induction 1; constructor; [by eapply trel_impl|done]. Qed.

Section refine.
  Context {A : Type}.
  Notation vec := (list (option A)).
  Implicit Types (s : tm A) (p : tspec A).
  (** The manager with the vectors [os]. *)
  Definition wo s (os : list (vobj A)) : vm A := mkVm (tm_ids s) (tm_unused s) (tm_size s) (tm_work s) os.
  Notation one s c m v := (wo s [mkVobj (kind_of c m) v]).

  Record TR s p : Prop := {
    t_inv : vinv (wo s []);
    t_sh : Forall shaped (tm_objs s);
    t_al : Forall (tall (fun c m v => vinv (one s c m v))) (tm_objs s);
    t_dom : forall id, is_Some (tm_ids s !! id) <-> is_Some (ts_vals p !! id);
    t_val : forall id i ts, tm_ids s !! id = Some i -> ts_vals p !! id = Some ts -> Forall2 (trel (fun c m (v : vec) x => v !! i = Some (Some x))) (tm_objs s) ts;
    t_wk : match tm_work s, ts_work p with None, None => True | Some i, Some id => tm_ids s !! id = Some i | _, _ => False end
  }.

  Lemma TR_init : TR tm_init ts_init.
  Proof.
    split.
    - exact vinv_init.
    - constructor.
    - constructor.
    - intros id. unfold tm_init, ts_init, initial_id. cbn [tm_ids ts_vals].
      destruct (decide (id = "InitialVariant")) as [->|Hne]; [rewrite !lookup_singleton; split; eauto|rewrite !lookup_singleton_ne by done; split; by intros [? ?]].
    - intros id i ts _ Hl. cbn [ts_vals ts_init] in Hl. apply lookup_singleton_Some in Hl as [_ <-]. constructor.
    - simpl. apply (lookup_singleton (M := gmap string)).
  Qed.

  (** A loop over the objects, or nothing. *)
  Definition vstage (b : bool) (a : vargs) (k : vkind) (v : vec) : result vec := if b then Ok v else arr_op a k v.
  Lemma stage_ok (b : bool) a (ts : list (vtree vec)) : Forall shaped ts -> Forall (tall (fun c m v => exists v', vstage b a (kind_of c m) v = Ok v')) ts ->
    exists ts', (if b then Ok ts else call_all a ts) = Ok ts' /\ Forall2 (trel (fun c m v v' => vstage b a (kind_of c m) v = Ok v')) ts ts'.
  Proof.
    destruct b; cbn [vstage]; intros H1 H2; [|by apply call_all_ok]. exists ts. split; [done|]. apply Forall_Forall2_diag. eapply Forall_impl; [exact H2|].
    intros t Ht. apply trel_refl. eapply tall_impl; [|exact Ht]. done.
  Qed.
  Lemma stage_then (P : cls -> string -> vec -> vec -> Prop) (Q : cls -> string -> vec -> vec -> Prop) (b : bool) a (ts0 ts : list (vtree vec)) :
    Forall shaped ts -> Forall2 (trel P) ts0 ts -> (forall c m v v1, P c m v v1 -> exists v2, vstage b a (kind_of c m) v1 = Ok v2 /\ Q c m v v2) ->
    exists ts', (if b then Ok ts else call_all a ts) = Ok ts' /\ Forall shaped ts' /\ Forall2 (trel Q) ts0 ts'.
  Proof.
    intros H1 H2 H. destruct (stage_ok b a ts H1) as (ts' & E & R).
    { eapply (trels_tall _ _ _ _ _ H2). Unshelve. intros c m v v1 Hv. destruct (H _ _ _ _ Hv) as (v2 & ? & _). eauto. }
    exists ts'. split; [done|]. split; [by eapply trels_shaped|]. eapply trels_comp; [|exact H2|exact R]. intros c m v v1 v2 Hp Hs. cbn in Hs.
    destruct (H _ _ _ _ Hp) as (v2' & Hs' & Hq). assert (v2' = v2) as -> by congruence. done.
  Qed.

  Lemma for_one (f : vkind -> vec -> result vec) k v : for_objs f [mkVobj k v] = let! a := f k v in Ok [mkVobj k a].
  Proof. cbn [for_objs vo_kind vo_arr]. by destruct (f k v). Qed.
  Lemma foldr_insert_lookup' {X} (ts : list string) (v : X) (m : gmap string X) id :
    foldr (fun t m => <[t := v]> m) m ts !! id = if decide (id ∈ ts) then Some v else m !! id.
  Proof.
    induction ts as [|t ts IH]; cbn [foldr].
    - rewrite decide_False; [done|]. by intros ?%elem_of_nil.
    - destruct (decide (id = t)) as [->|Hne].
      + rewrite lookup_insert, decide_True; [done|]. by left.
      + rewrite lookup_insert_ne, IH by done. apply decide_ext. rewrite elem_of_cons. tauto.
  Qed.

  (** What happens to one vector in a clone. *)
  Definition vclone (c : cstate) (src : nat) (k : vkind) (v : vec) : result vec :=
    let! v1 := vstage (bool_decide (c_rec c = [])) (AAlloc (c_rec c) src) k v in
    let! v2 := vstage (bool_decide (c_over c = [])) (AAlloc (c_over c) src) k v1 in
    vstage (c_ext c =? 0) (AExtend (c_ext c) src) k v2.
  Lemma vclone_one (s : tm A) c src k v :
    (let! os := vm_alloc src (c_rec c) (c_over c) [mkVobj k v] in if c_ext c =? 0 then Ok os else for_objs (fun k => arr_extend k (c_ext c) src) os) =
    let! v' := vclone c src k v in Ok [mkVobj k v'].
  Proof.
    unfold vm_alloc, vclone, vstage. cbn [arr_op]. destruct (bool_decide (c_rec c = [])); cbn [result_bind]; rewrite ?for_one.
    - destruct (bool_decide (c_over c = [])); cbn [result_bind]; rewrite ?for_one; [|destruct (arr_alloc k (c_over c) src v) as [v2| | |]; cbn [result_bind]; try done];
        (destruct (c_ext c =? 0); cbn [result_bind]; rewrite ?for_one; done).
    - destruct (arr_alloc k (c_rec c) src v) as [v1| | |]; cbn [result_bind]; try done. destruct (bool_decide (c_over c = [])); cbn [result_bind]; rewrite ?for_one;
        [|destruct (arr_alloc k (c_over c) src v1) as [v2| | |]; cbn [result_bind]; try done]; (destruct (c_ext c =? 0); cbn [result_bind]; rewrite ?for_one; done).
  Qed.
  Lemma vclone_all c src (ts : list (vtree vec)) : Forall shaped ts -> Forall (tall (fun cl m v => exists v', vclone c src (kind_of cl m) v = Ok v')) ts ->
    exists ts', (let! ts := tm_alloc src (c_rec c) (c_over c) ts in if c_ext c =? 0 then Ok ts else call_all (AExtend (c_ext c) src) ts) = Ok ts' /\
      Forall shaped ts' /\ Forall2 (trel (fun cl m v v' => vclone c src (kind_of cl m) v = Ok v')) ts ts'.
  Proof.
    intros H1 H2. unfold tm_alloc.
    destruct (stage_then (fun cl m v v1 => v1 = v /\ exists v', vclone c src (kind_of cl m) v = Ok v')
      (fun cl m v v1 => exists v2, vstage (bool_decide (c_over c = [])) (AAlloc (c_over c) src) (kind_of cl m) v1 = Ok v2 /\ exists v3, vstage (c_ext c =? 0) (AExtend (c_ext c) src) (kind_of cl m) v2 = Ok v3 /\ vclone c src (kind_of cl m) v = Ok v3)
      (bool_decide (c_rec c = [])) (AAlloc (c_rec c) src) ts ts) as (ts1 & E1 & S1 & R1); [done|by apply tall_trel| |].
    { intros cl m v v1 (-> & v' & Hv). pose proof Hv as Hv0. unfold vclone in Hv. apply result_bind_Ok in Hv as (w1 & E1 & Hv). apply result_bind_Ok in Hv as (w2 & E2 & Hv). eauto 10. }
    rewrite E1. cbn [result_bind].
    destruct (stage_then _ (fun cl m v v2 => exists v3, vstage (c_ext c =? 0) (AExtend (c_ext c) src) (kind_of cl m) v2 = Ok v3 /\ vclone c src (kind_of cl m) v = Ok v3)
      (bool_decide (c_over c = [])) (AAlloc (c_over c) src) ts ts1 S1 R1) as (ts2 & E2 & S2 & R2).
    { intros cl m v v1 (v2 & Hv2 & H). eauto. }
    rewrite E2. cbn [result_bind].
    destruct (stage_then _ (fun cl m v v3 => vclone c src (kind_of cl m) v = Ok v3) (c_ext c =? 0) (AExtend (c_ext c) src) ts ts2 S2 R2) as (ts3 & E3 & S3 & R3).
    { intros cl m v v2 (v3 & Hv3 & H). eauto. }
    eauto.
  Qed.

  Lemma value_one s k (v : vec) id : value (wo s [mkVobj k v]) 0 id = i ← tm_ids s !! id; v !! i.
  Proof. done. Qed.

  Lemma tm_clone_ok s p src ts ow v : TR s p -> NoDup ts -> ts <> [] -> (ow = true \/ forall t, t ∈ ts -> tm_ids s !! t = None) -> ts_vals p !! src = Some v ->
    (tm_clone s src ts ow).2 = Ok tt /\ TR (tm_clone s src ts ow).1 (mkTs (foldr (fun t m => <[t := v]> m) (ts_vals p) ts) (ts_work p)).
  Proof.
    intros r Hnd Hne How Hv. assert (is_Some (tm_ids s !! src)) as [si Hsi] by (apply (t_dom _ _ r); eauto).
    pose proof (t_inv _ _ r) as I. pose proof (v_book _ I) as [B W].
    destruct (clone_loop_bk ts ow (mkC (tm_ids s) (tm_unused s) (tm_size s) 0 [] [] false) B) as [_ Hsub].
    destruct (clone_loop_post ts ow (mkC (tm_ids s) (tm_unused s) (tm_size s) 0 [] [] false) Hnd How eq_refl B) as [P1 _ _ _ _ _ _ _ _].
    set (c := clone_loop ts ow (mkC (tm_ids s) (tm_unused s) (tm_size s) 0 [] [] false)) in *.
    set (s1 := mkTm (c_ids c) (c_unused c) (c_size c) (tm_work s) [] : tm A).
    (* on no vector *)
    assert (vm_clone (wo s []) src ts ow = (wo s1 [], Ok tt)) as E0.
    { unfold vm_clone, wo. destruct ts as [|t0 ts0]; [done|]. cbn [vm_ids vm_unused vm_size vm_work vm_objs]. rewrite Hsi. fold c. rewrite P1. unfold vm_alloc. cbn [for_objs].
      destruct (bool_decide (c_rec c = [])), (bool_decide (c_over c = [])), (c_ext c =? 0); done. }
    (* on one vector *)
    assert (forall k w, vinv (wo s [mkVobj k w]) -> exists w', vclone c si k w = Ok w' /\ vinv (wo s1 [mkVobj k w']) /\
      forall id, (i ← c_ids c !! id; w' !! i) = if decide (id ∈ ts) then w !! si else i ← tm_ids s !! id; w !! i) as E1.
    { intros k w Iw. destruct (vm_clone_ok _ src ts ow Iw Hnd Hne How) as (F1 & F2 & (_ & _ & _ & F3)); [by eexists|].
      assert (vm_clone (wo s [mkVobj k w]) src ts ow = match (let! w' := vclone c si k w in Ok [mkVobj k w']) with
        | Ok os => (wo s1 os, Ok tt) | Throw m => (wo s1 [mkVobj k w], Throw m) | UB => (wo s1 [mkVobj k w], UB) | OutOfFuel => (wo s1 [mkVobj k w], OutOfFuel) end) as E.
      { rewrite <- (vclone_one s). unfold vm_clone, wo. destruct ts as [|t0 ts0]; [done|]. cbn [vm_ids vm_unused vm_size vm_work vm_objs]. rewrite Hsi. fold c. rewrite P1. done. }
      destruct (vclone c si k w) as [w'| | |]; cbn [result_bind] in E; rewrite E in F1, F2, F3; cbn [fst snd] in *; try done.
      exists w'. split; [done|]. split; [done|]. intros id. specialize (F3 0 id). rewrite !value_one in F3. cbn [tm_ids s1] in F3. rewrite F3, Hsi. done. }
    destruct (vclone_all c si (tm_objs s)) as (os & E2 & S2 & R2); [apply r| |].
    { eapply Forall_impl; [apply (t_al _ _ r)|]. intros t Ht. eapply tall_impl; [|exact Ht]. intros cl m w Hw. destruct (E1 _ _ Hw) as (w' & ? & _). eauto. }
    assert (tm_clone s src ts ow = (mkTm (c_ids c) (c_unused c) (c_size c) (tm_work s) os, Ok tt)) as ->.
    { unfold tm_clone. destruct ts as [|t0 ts0]; [done|]. rewrite Hsi. fold c. rewrite P1, E2. done. }
    split; [done|]. cbn [fst].
    destruct (vm_clone_ok (wo s []) src ts ow I Hnd Hne How) as (_ & F2 & (F3 & _ & _ & _)); [by eexists|]. rewrite E0 in F2, F3. cbn [fst] in F2, F3.
    assert (Forall2 (trel (fun cl m w w' => vinv (one s1 cl m w') /\
      forall id, (i ← c_ids c !! id; w' !! i) = if decide (id ∈ ts) then w !! si else i ← tm_ids s !! id; w !! i)) (tm_objs s) os) as R3.
    { eapply trels_comp; [|apply (tall_trel _ _ (t_al _ _ r))|exact R2]. intros cl m w w0 w' (-> & Iw) Hw'. destruct (E1 _ _ Iw) as (w2 & Ew & G1 & G2). assert (w2 = w') as -> by congruence. done. }
    split; cbn [tm_objs tm_ids tm_work ts_vals ts_work].
    - exact F2.
    - exact S2.
    - eapply trels_tall; [|exact R3]. intros cl m w w' [G _]. exact G.
    - intros id. rewrite foldr_insert_lookup'. specialize (F3 id). cbn in F3. rewrite F3, (t_dom _ _ r). case_decide; [split; eauto|tauto].
    - intros id i tv Hi. rewrite foldr_insert_lookup'. case_decide as Hd.
      + intros [= <-]. eapply trels_comp; [|apply trels_flip, R3|apply (t_val _ _ r src si v Hsi Hv)]. intros cl m w' w x [_ G] Hx. cbn in *. specialize (G id). rewrite Hi, decide_True in G by done. cbn in G. congruence.
      + intros Htv. assert (is_Some (tm_ids s !! id)) as [j Hj] by (apply (t_dom _ _ r); eauto).
        eapply trels_comp; [|apply trels_flip, R3|apply (t_val _ _ r id j tv Hj Htv)]. intros cl m w' w x [_ G] Hx. cbn in *. specialize (G id). rewrite Hi, decide_False, Hj in G by done. cbn in G. congruence.
    - pose proof (t_wk _ _ r) as Hw. destruct (tm_work s), (ts_work p); try done. by eapply lookup_weaken.
  Qed.

  (** What happens to one vector in a removal. *)
  Lemma tm_remove_ok s p id : TR s p -> id <> initial_id -> is_Some (ts_vals p !! id) ->
    (tm_remove s id).2 = Ok tt /\ TR (tm_remove s id).1 (mkTs (delete id (ts_vals p)) (if bool_decide (ts_work p = Some id) then None else ts_work p)).
  Proof.
    intros r Hid Hv. assert (is_Some (tm_ids s !! id)) as [i Hi] by (apply (t_dom _ _ r); eauto).
    pose proof (t_inv _ _ r) as I. pose proof (v_book _ I) as [B W].
    enough (exists (a : vargs) unused size os, tm_remove s id = (mkTm (delete id (tm_ids s)) unused size (reset_if (tm_work s) i) os, Ok tt) /\ Forall shaped os /\
      vm_remove (wo s []) id = (mkVm (delete id (tm_ids s)) unused size (reset_if (tm_work s) i) [], Ok tt) /\
      Forall2 (trel (fun c m (w w' : vec) => vm_remove (one s c m w) id = (mkVm (delete id (tm_ids s)) unused size (reset_if (tm_work s) i) [mkVobj (kind_of c m) w'], Ok tt))) (tm_objs s) os)
      as (a & unused & size & os & E & S2 & E0 & R).
    { rewrite E. split; [done|]. cbn [fst].
      destruct (vm_remove_ok (wo s []) id I Hid) as (_ & F2 & _); [by eexists|]. rewrite E0 in F2. cbn [fst] in F2.
      set (s1 := mkTm (delete id (tm_ids s)) unused size (reset_if (tm_work s) i) [] : tm A).
      assert (Forall2 (trel (fun c m w w' => vinv (one s1 c m w') /\ forall id', id' <> id -> (j ← tm_ids s !! id'; w' !! j) = (j ← tm_ids s !! id'; w !! j))) (tm_objs s) os) as R3.
      { eapply trels_comp; [|apply (tall_trel _ _ (t_al _ _ r))|exact R]. intros c m w w0 w' (-> & Iw) Hw'. cbn in Hw'.
        destruct (vm_remove_ok _ id Iw Hid) as (_ & G2 & (_ & _ & _ & G3)); [by eexists|]. rewrite Hw' in G2, G3. cbn [fst] in *. split; [exact G2|].
        intros id' Hne. specialize (G3 0 id' Hne). rewrite value_one in G3. unfold value in G3. cbn [vm_ids vm_objs lookup list_lookup] in G3. rewrite lookup_delete_ne in G3 by done. exact G3. }
      split; cbn [tm_objs tm_ids tm_work ts_vals ts_work].
      - exact F2.
      - exact S2.
      - eapply trels_tall; [|exact R3]. intros c m w w' [G _]. exact G.
      - intros id'. destruct (decide (id' = id)) as [->|]; [rewrite !lookup_delete; split; by intros [? ?]|]. rewrite !lookup_delete_ne by done. apply r.
      - intros id' j tv [Hne Hj]%lookup_delete_Some [_ Htv]%lookup_delete_Some.
        eapply trels_comp; [|apply trels_flip, R3|apply (t_val _ _ r id' j tv Hj Htv)]. intros c m w' w x [_ G] Hx. cbn in *. specialize (G id' (not_eq_sym Hne)). rewrite Hj in G. cbn in G. congruence.
      - pose proof (t_wk _ _ r) as Hw. unfold reset_if. destruct (tm_work s) as [j|], (ts_work p) as [w|]; try done.
        destruct (decide (j = i)) as [->|Hji].
        + rewrite !bool_decide_true; [done|f_equal; by eapply (b_inj _ _ _ B)|done].
        + rewrite !bool_decide_false; [rewrite lookup_delete_ne; [done|congruence]|congruence|congruence]. }
    assert (forall a (f : vkind -> vec -> result vec), (forall k v, f k v = arr_op a k v) ->
      (forall k w, vinv (wo s [mkVobj k w]) -> exists w', f k w = Ok w') ->
      exists os, call_all a (tm_objs s) = Ok os /\ Forall shaped os /\ Forall2 (trel (fun c m (w w' : vec) => vinv (one s c m w) /\ f (kind_of c m) w = Ok w')) (tm_objs s) os) as HC.
    { intros a f Hf Hok. destruct (stage_then (fun c m v v1 => v1 = v /\ vinv (one s c m v)) (fun c m v v' => vinv (one s c m v) /\ f (kind_of c m) v = Ok v') false a (tm_objs s) (tm_objs s)) as (os & E & S & R);
        [apply r|apply tall_trel, r| |eauto]. intros c m v v1 (-> & Iv). destruct (Hok _ _ Iv) as (w' & Hw'). exists w'. cbn [vstage]. rewrite <- Hf. done. }
    unfold tm_remove, vm_remove. cbn [vm_ids vm_size vm_unused vm_objs vm_work wo]. rewrite bool_decide_false by done. rewrite Hi.
    destruct (Nat.eqb_spec i (tm_size s - 1)) as [Hlast|Hmid].
    - destruct (vm_trim i (tm_unused s) 1) as [u' count] eqn:Ht. destruct (HC (AReduce count) (fun k => arr_reduce k count)) as (os & E & S & R); [done| |].
      { intros k w Iw. destruct (vm_remove_ok _ id Iw Hid) as (G1 & _ & _); [by eexists|]. unfold vm_remove in G1. cbn [vm_ids vm_size vm_unused vm_objs vm_work wo] in G1.
        rewrite bool_decide_false, Hi in G1 by done. rewrite (proj2 (Nat.eqb_eq _ _) Hlast), Ht, for_one in G1. destruct (arr_reduce k count w); cbn [result_bind snd] in G1; try done. eauto. }
      exists (AReduce count), u', (tm_size s - count), os. rewrite E. split; [done|]. split; [done|]. split; [done|]. eapply trels_impl; [|exact R]. intros c m w w' [_ Hw]. cbn beta in *. rewrite for_one, Hw. done.
    - destruct (HC (ADelete i) (fun k => arr_delete k i)) as (os & E & S & R); [done| |].
      { intros k w Iw. destruct (vm_remove_ok _ id Iw Hid) as (G1 & _ & _); [by eexists|]. unfold vm_remove in G1. cbn [vm_ids vm_size vm_unused vm_objs vm_work wo] in G1.
        rewrite bool_decide_false, Hi in G1 by done. rewrite (proj2 (Nat.eqb_neq _ _) Hmid), for_one in G1. destruct (arr_delete k i w); cbn [result_bind snd] in G1; try done. eauto. }
      exists (ADelete i), (sset_insert i (tm_unused s)), (tm_size s), os. rewrite E. split; [done|]. split; [done|]. split; [done|]. eapply trels_impl; [|exact R]. intros c m w w' [_ Hw]. cbn beta in *. rewrite for_one, Hw. done.
  Qed.

  Lemma vinv_one s k (v : vec) : vinv (wo s []) -> vinv (wo s [mkVobj k v]) <-> k <> VSlack /\ length v = tm_size s /\ forall a i, tm_ids s !! a = Some i -> v !! i <> Some None.
  Proof.
    intros I. split.
    - intros Iv. exact (v_al _ Iv 0 _ eq_refl).
    - intros H. split; [exact (v_book _ I)|]. intros [|j] o Ho; [injection Ho as <-; exact H|done].
  Qed.
  (** Replacing the vectors only: the invariant speaks of the manager fields. *)
  Lemma vinv_same s s' k (v : vec) : tm_ids s' = tm_ids s -> tm_unused s' = tm_unused s -> tm_size s' = tm_size s -> tm_work s' = tm_work s -> vinv (wo s [mkVobj k v]) -> vinv (wo s' [mkVobj k v]).
  Proof. unfold wo. intros -> -> -> ->. done. Qed.

  Lemma tm_write_ok s p l x w i tv c0 x0 : TR s p -> ts_work p = Some w -> tm_ids s !! w = Some i -> tm_work s = Some i -> ts_vals p !! w = Some tv -> vec_at tv l = Some (c0, x0) ->
    (tm_write s l x).2 = Ok tt /\ TR (tm_write s l x).1 (mkTs (<[w := put_vec l x tv]> (ts_vals p)) (ts_work p)).
  Proof.
    intros r Hw Hi Hwk Htv Hl. pose proof (t_inv _ _ r) as I. pose proof (v_book _ I) as [B W]. pose proof (b_lt _ _ _ B _ _ Hi) as Hlt. cbn in Hlt.
    pose proof (trel_vec_at _ l _ _ (t_val _ _ r w i tv Hi Htv)) as HV. rewrite Hl in HV. destruct (vec_at (tm_objs s) l) as [[c v]|] eqn:Hv; [|done]. destruct HV as [-> Hvi].
    assert (vinv (one s c (l_member l) v)) as Iv.
    { pose proof (trel_vec_at _ l _ _ (tall_trel _ _ (t_al _ _ r))) as HA. rewrite Hv in HA. tauto. }
    pose proof (proj1 (vinv_one s _ v I) Iv) as (K1 & K2 & K3).
    unfold tm_write. rewrite Hv. unfold tm_index. rewrite Hwk. cbn [result_bind]. rewrite vset_lt by lia. split; [done|]. cbn [fst]. rewrite <- Hwk.
    assert (vinv (one s c (l_member l) (<[i := Some x]> v))) as Iv'.
    { apply vinv_one; [done|]. split; [done|]. split; [by rewrite insert_length|]. intros a j Hj. destruct (decide (j = i)) as [->|]; [by rewrite list_lookup_insert by lia|]. rewrite list_lookup_insert_ne by done. eauto. }
    split; cbn [tm_objs tm_ids tm_work ts_vals ts_work].
    - exact I.
    - unfold put_vec. destruct (vec_at_Some _ _ _ _ Hv) as (t & u & E1 & E2 & E3 & E4). apply Forall_alter'; [apply r|]. intros t1 Ht1 Sh. assert (t1 = t) as -> by congruence.
      apply shaped_upd; [done|]. intros u1 Hu1 Su. assert (u1 = u) as -> by congruence. by eapply shaped_set.
    - eapply trels_tall; [|eapply (trel_put (fun c m v v' => v' = v /\ vinv (one s c m v))); [apply (tall_trel _ _ (t_al _ _ r))|exact Hv|split; [reflexivity|exact Iv']]].
      intros c' m w1 w' [-> G]. exact G.
    - intros id. destruct (decide (id = w)) as [->|]; [rewrite lookup_insert; split; eauto|rewrite lookup_insert_ne by done; apply r].
    - intros id j tw Hj [[<- <-]|[Hne Htw]]%lookup_insert_Some.
      + assert (j = i) as -> by congruence. eapply trel_put; [by eapply r|exact Hv|]. apply list_lookup_insert. lia.
      + assert (j <> i) as Hji. { intros ->. apply Hne. by eapply (b_inj _ _ _ B). }
        pose proof (t_val _ _ r id j tw Hj Htw) as R. pose proof (trel_vec_at _ l _ _ R) as HV. rewrite Hv in HV. destruct (vec_at tw l) as [[c' y]|] eqn:Hy; [|done]. destruct HV as [-> HV].
        rewrite <- (put_same l c y tw Hy). eapply trel_put; [exact R|exact Hv|]. by rewrite list_lookup_insert_ne.
    - pose proof (t_wk _ _ r) as Hww. rewrite Hwk, Hw in *. done.
  Qed.

  Lemma build_rel s t : trel (fun c m v x => v = fresh_vec s (kind_of c m) x) (build s t) t.
  Proof.
    induction t as [c vs ps IH] using vtree_ind'. cbn [build]. apply trel_unfold. split; [done|]. split.
    - intros m. rewrite map_lookup_imap. destruct (vs !! m); done.
    - induction ps as [|p ps IHp]; constructor; [split; [done|]; apply IH; left|]. apply IHp. intros q Hq. apply IH. by right.
  Qed.
  Lemma no_slack_tall {B} (t : vtree B) : no_slack t -> tall (fun c _ _ => c <> KSlackTerminal) t.
  Proof.
    induction t as [c s ps IH] using vtree_ind'. rewrite no_slack_unfold, tall_unfold. intros [H1 H2]. split; [done|]. auto.
  Qed.
  Lemma trel_and_r {B C} (P : cls -> string -> B -> C -> Prop) Q t t' : trel P t t' -> tall Q t' -> trel (fun c m v v' => P c m v v' /\ Q c m v') t t'.
  Proof.
    intros H1 H2. eapply trel_comp; [|exact H1|apply trel_refl with (P := fun c m v v' => v' = v /\ Q c m v); eapply tall_impl; [|exact H2]; done]. intros c m v v' v'' Hv [-> Hq]. done.
  Qed.
  Lemma build_ok s p t : TR s p -> shaped t -> no_slack t ->
    shaped (build s t) /\ tall (fun c m v => vinv (one s c m v)) (build s t) /\ forall id i, tm_ids s !! id = Some i -> trel (fun c m (v : vec) x => v !! i = Some (Some x)) (build s t) t.
  Proof.
    intros r Hs Hn. pose proof (t_inv _ _ r) as I. pose proof (build_rel s t) as R. split; [by eapply trel_shaped; [apply trel_flip, R|]|].
    pose proof (trel_and_r _ _ _ _ R (no_slack_tall t Hn)) as R2. split.
    - eapply trel_tall; [|apply trel_flip, R2]. intros c m x v [-> Hc]. apply (vm_new_ok (wo s []) (kind_of c m) x I (kind_of_slack c m Hc)).
    - intros id i Hi. eapply trel_impl; [|exact R2]. intros c m v x [-> Hc]. destruct (vm_new_ok (wo s []) (kind_of c m) x I (kind_of_slack c m Hc)) as (_ & _ & _ & V).
      specialize (V 0 id (ex_intro _ i Hi)). unfold value in V. cbn [vm_new vm_ids vm_objs wo] in V. rewrite Hi in V. exact V.
  Qed.

  Lemma tm_new_ok s p t : TR s p -> shaped t -> no_slack t -> TR (tm_new s t) (mkTs ((fun objs => objs ++ [t]) <$> ts_vals p) (ts_work p)).
  Proof.
    intros r Hs Hn. destruct (build_ok s p t r Hs Hn) as (B1 & B2 & B3). split; cbn [tm_new tm_objs tm_ids tm_work ts_vals ts_work].
    - exact (t_inv _ _ r).
    - apply Forall_app. split; [apply r|by constructor].
    - apply Forall_app. split; [apply (t_al _ _ r)|by constructor].
    - intros id. rewrite lookup_fmap, fmap_is_Some. apply r.
    - intros id i tv Hi. rewrite lookup_fmap. intros (tv0 & Htv & ->)%fmap_Some. apply Forall2_app; [by eapply r|]. constructor; [by eapply B3|constructor].
    - apply r.
  Qed.
  Lemma tm_attach_ok s p o q slot u : TR s p -> shaped u -> no_slack u ->
    (forall id objs, ts_vals p !! id = Some objs -> exists t v, objs !! o = Some t /\ part_at t q = Some v /\ slot_ok (t_cls v) slot (t_cls u) = true) ->
    TR (tm_attach s o q slot u) (mkTs ((fun objs => alter (part_upd (add_part slot u) q) o objs) <$> ts_vals p) (ts_work p)).
  Proof.
    intros r Hs Hn Hsl. destruct (build_ok s p u r Hs Hn) as (B1 & B2 & B3). split; cbn [tm_attach tm_objs tm_ids tm_work ts_vals ts_work].
    - exact (t_inv _ _ r).
    - apply Forall_alter'; [apply r|]. intros t Ht Sh. apply shaped_upd; [done|]. intros v Hv Sv.
      assert (is_Some (ts_vals p !! initial_id)) as [objs Ho]. { apply (t_dom _ _ r). exists 0. exact (b_init _ _ _ (proj1 (v_book _ (t_inv _ _ r)))). }
      assert (tm_ids s !! initial_id = Some 0) as H0 by exact (b_init _ _ _ (proj1 (v_book _ (t_inv _ _ r)))).
      destruct (Hsl _ _ Ho) as (t' & v' & Ht' & Hv' & Hok). pose proof (Forall2_lookup_lr _ _ _ _ _ _ (t_val _ _ r _ _ _ H0 Ho) Ht Ht') as Rt.
      pose proof (trel_part_at _ q _ _ Rt) as Rp. rewrite Hv, Hv' in Rp. apply shaped_add; [done| |done]. rewrite <- (trel_cls _ _ _ Rp). rewrite <- (trel_cls _ _ _ (build_rel s u)). done.
    - eapply trels_tall; [|eapply (trel_alter (trel (fun c m v v' => v' = v /\ vinv (one s c m v)))); [apply (tall_trel _ _ (t_al _ _ r))|]]; [intros c m v v' [-> G]; exact G|].
      intros t t' _ _ Rt. apply trel_upd; [done|]. intros v v' _ _ Rv. apply trel_add; [done|]. apply trel_refl. eapply tall_impl; [|exact B2]. done.
    - intros id. rewrite lookup_fmap, fmap_is_Some. apply r.
    - intros id i tv Hi. rewrite lookup_fmap. intros (tv0 & Htv & ->)%fmap_Some. apply trel_alter; [by eapply r|]. intros t t' _ _ Rt. apply trel_upd; [done|]. intros v v' _ _ Rv. apply trel_add; [done|]. by eapply B3.
    - apply r.
  Qed.

  Lemma tsim s p o : TR s p -> ts_safe p o -> TR (tm_step s o).1 (ts_step p o).1 /\ outcome (ts_step p o).2 (tm_step s o).2.
  Proof.
    intros r Hs.
    assert (forall id, tm_ids s !! id = None <-> ts_vals p !! id = None) as Hnone. { intros id. rewrite !eq_None_not_Some. by rewrite (t_dom _ _ r). }
    destruct o as [src ts ow|id|id|l x|t|o q slot u]; cbn [tm_step ts_step ts_safe] in *.
    - destruct (ts_vals p !! src) as [v|] eqn:Hv.
      2:{ unfold tm_clone. destruct ts as [|t ts]; simpl; [eauto|]. rewrite (proj2 (Hnone src) Hv). simpl. eauto. }
      destruct (bool_decide_reflect (ts = [])) as [->|Hne]; [simpl; eauto|].
      destruct (negb ow && _) eqn:Hb.
      + apply andb_true_iff in Hb as [How Hex]. apply bool_decide_eq_true in Hex. destruct ow; [done|].
        assert (exists t, ts = [t]) as [t ->].
        { destruct Hs as [Hl|[_ [?|Hno]]]; [|done|].
          - destruct ts as [|t [|]]; [done|eauto|simpl in Hl; lia].
          - exfalso. apply Exists_exists in Hex as (t & Ht & [? Hst]). specialize (Hno t Ht). congruence. }
        apply Exists_exists in Hex as (t' & ->%elem_of_list_singleton & Hst). apply (t_dom _ _ r) in Hst as [i Hi].
        assert (is_Some (tm_ids s !! src)) as [si Hsi] by (apply (t_dom _ _ r); eauto).
        unfold tm_clone. rewrite Hsi. cbn [clone_loop c_ids]. rewrite Hi. cbn [c_throw c_ids c_unused c_size fst snd outcome]. split; [by destruct s|eauto].
      + destruct (tm_clone_ok s p src ts ow v r) as [E T]; [| |..].
        * destruct Hs as [Hl|[? _]]; [|done]. destruct ts as [|t [|]]; [done|apply NoDup_singleton|simpl in Hl; lia].
        * done.
        * apply andb_false_iff in Hb as [Hb|Hb]; [destruct ow; [auto|done]|right]. intros t Ht. apply Hnone, eq_None_not_Some.
          apply bool_decide_eq_false in Hb. intros Hst. apply Hb, Exists_exists. eauto.
        * done.
        * split; [exact T|]. by rewrite E.
    - destruct (ts_vals p !! id) as [v|] eqn:Hv.
      + destruct (bool_decide_reflect (id = "InitialVariant")) as [->|Hne]; [simpl; eauto|].
        destruct (tm_remove_ok s p id r) as [E T]; [done|by eexists|]. split; [exact T|]. by rewrite E.
      + unfold tm_remove. case_bool_decide; [simpl; eauto|]. rewrite (proj2 (Hnone id) Hv). simpl. eauto.
    - unfold tm_set_working. destruct (ts_vals p !! id) as [v|] eqn:Hv.
      + assert (is_Some (tm_ids s !! id)) as [i Hi] by (apply (t_dom _ _ r); eauto). rewrite Hi. split; [|done].
        pose proof (t_inv _ _ r) as I. assert (forall os, vinv (wo s os) -> vinv (mkVm (tm_ids s) (tm_unused s) (tm_size s) (Some i) os)) as Hch.
        { intros os Io. split; [split; [apply Io|]|apply Io]. intros j [= <-]. by exists id. }
        split; cbn [fst tm_objs tm_ids tm_work ts_vals ts_work].
        * by apply Hch.
        * apply r.
        * eapply Forall_impl; [apply (t_al _ _ r)|]. intros t Ht. eapply tall_impl; [|exact Ht]. intros c m w. apply Hch.
        * apply r.
        * apply r.
        * done.
      + rewrite (proj2 (Hnone id) Hv). simpl. eauto.
    - pose proof (t_wk _ _ r) as Hw. destruct (ts_work p) as [w|] eqn:Hspw.
      2:{ unfold tm_write, tm_index. destruct (tm_work s); [done|]. destruct (vec_at (tm_objs s) l) as [[? ?]|]; simpl; eauto. }
      destruct (tm_work s) as [i|] eqn:Hvw; [|done].
      destruct (ts_vals p !! w) as [tv|] eqn:Htv; [|by apply Hnone in Htv; congruence].
      destruct (vec_at tv l) as [[c0 x0]|] eqn:Hl.
      + destruct (tm_write_ok s p l x w i tv c0 x0) as [E T]; [done..|]. rewrite Hspw in T. split; [exact T|]. by rewrite E.
      + pose proof (trel_vec_at _ l _ _ (t_val _ _ r w i tv Hw Htv)) as HV. rewrite Hl in HV. unfold tm_write. destruct (vec_at (tm_objs s) l) as [[? ?]|]; [done|]. simpl. eauto.
    - destruct Hs. split; [by apply tm_new_ok|done].
    - destruct Hs as (? & ? & ?). split; [by apply tm_attach_ok|done].
  Qed.
  Lemma tsim_run (ops : list (tmop A)) : forall s p, TR s p -> ts_all_safe ops p ->
    TR (tm_exec ops s).1 (ts_run ops p).1 /\ Forall2 outcome (ts_run ops p).2 (tm_exec ops s).2.
  Proof.
    induction ops as [|o ops IH]; intros s p r Hs; [simpl; auto|]. destruct Hs as [Hs1 Hs2]. destruct (tsim s p o r Hs1) as [r' Ho].
    destruct (IH _ _ r' Hs2) as [r'' HF]. cbn [tm_exec ts_run fst snd]. auto.
  Qed.
  Lemma TR_read s p l : TR s p -> match ts_read p l with Some x => tm_read s l = Ok (Some x) | None => exists m, tm_read s l = Throw m end.
  Proof.
    intros r. unfold ts_read, tm_read, tm_index. pose proof (t_wk _ _ r) as Hw. destruct (ts_work p) as [w|]; cbn [mbind option_bind].
    2:{ destruct (tm_work s); [done|]. destruct (vec_at (tm_objs s) l) as [[? ?]|]; simpl; eauto. }
    destruct (tm_work s) as [i|] eqn:Hvw; [|done].
    assert (is_Some (ts_vals p !! w)) as [tv Htv] by (apply (t_dom _ _ r); eauto). rewrite Htv. cbn [mbind option_bind].
    pose proof (trel_vec_at _ l _ _ (t_val _ _ r w i tv Hw Htv)) as HV. destruct (vec_at (tm_objs s) l) as [[c v]|], (vec_at tv l) as [[c' x]|]; try done; [|simpl; eauto].
    destruct HV as [-> HV]. cbn [fmap option_fmap option_map snd result_bind]. unfold vget. rewrite HV. cbn [result_bind]. by destruct (kind_of c (l_member l)).
  Qed.
End refine.
