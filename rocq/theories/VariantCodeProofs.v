From stdpp Require Import gmap strings.
From Verif Require Import Base Variants VariantsProofs VariantCode VariantCodeSpec.

Lemma Forall2_in {X Y} (P Q : X -> Y -> Prop) l l' : Forall2 P l l' -> (forall x y, x ∈ l -> P x y -> Q x y) -> Forall2 Q l l'.
Proof. induction 1 as [|x y l l' H1 H2 IH]; intros H; constructor; [apply H; [left|done]|]. apply IH. intros. apply H; [by right|done]. Qed.

(** ** Trees *)
Section trees.
  Context {B : Type}.
  Fixpoint tall (P : cls -> string -> B -> Prop) (t : vtree B) : Prop :=
    match t with
    | VTree c s ps => (forall m v, s !! m = Some v -> P c m v) /\
      (fix go (ps : list (string * vtree B)) : Prop := match ps with [] => True | p :: ps' => tall P p.2 /\ go ps' end) ps
    end.
  Lemma vtree_ind' (P : vtree B -> Prop) :
    (forall c s ps, (forall p, p ∈ ps -> P p.2) -> P (VTree c s ps)) -> forall t, P t.
  Proof.
    intros H. fix IH 1. intros [c s ps]. apply H. induction ps as [|[sl t] ps IHps]; intros p Hp; [exfalso; by apply elem_of_nil in Hp|].
    apply elem_of_cons in Hp as [Hp|Hp]; [rewrite Hp; exact (IH t)|exact (IHps p Hp)].
  Qed.
  Lemma tall_unfold P c s ps : tall P (VTree c s ps) <-> (forall m v, s !! m = Some v -> P c m v) /\ (forall p, p ∈ ps -> tall P p.2).
  Proof.
    cbn [tall]. split; intros [H1 H2]; (split; [exact H1|]).
    - clear H1. induction ps as [|q ps IH]; intros p Hp; [by apply elem_of_nil in Hp|]. apply elem_of_cons in Hp as [->|Hp]; [exact (proj1 H2)|exact (IH (proj2 H2) p Hp)].
    - clear H1. induction ps as [|q ps IH]; [done|]. split; [apply H2; left|]. apply IH. intros p Hp. apply H2. by right.
  Qed.
  Lemma shaped_unfold c (s : gmap string B) ps : shaped (VTree c s ps) <->
    (forall m, is_Some (s !! m) <-> m ∈ map fst (members c)) /\ (forall p, p ∈ ps -> slot_ok c p.1 (t_cls p.2) = true /\ shaped p.2).
  Proof.
    cbn [shaped]. split; intros [H1 H2]; (split; [exact H1|]).
    - clear H1. induction ps as [|q ps IH]; intros p Hp; [by apply elem_of_nil in Hp|]. apply elem_of_cons in Hp as [->|Hp]; [exact (proj1 H2)|exact (IH (proj2 H2) p Hp)].
    - clear H1. induction ps as [|q ps IH]; [done|]. split; [apply H2; left|]. apply IH. intros p Hp. apply H2. by right.
  Qed.
  Lemma no_slack_unfold c (s : gmap string B) ps : no_slack (VTree c s ps) <-> c <> KSlackTerminal /\ (forall p, p ∈ ps -> no_slack p.2).
  Proof.
    cbn [no_slack]. split; intros [H1 H2]; (split; [exact H1|]).
    - clear H1. induction ps as [|q ps IH]; intros p Hp; [by apply elem_of_nil in Hp|]. apply elem_of_cons in Hp as [->|Hp]; [exact (proj1 H2)|exact (IH (proj2 H2) p Hp)].
    - clear H1. induction ps as [|q ps IH]; [done|]. split; [apply H2; left|]. apply IH. intros p Hp. apply H2. by right.
  Qed.
  Lemma tall_impl (P Q : cls -> string -> B -> Prop) t : (forall c m v, P c m v -> Q c m v) -> tall P t -> tall Q t.
  Proof.
    intros H. induction t as [c s ps IH] using vtree_ind'. rewrite !tall_unfold. intros [H1 H2]. split; [eauto|]. intros p Hp. eauto.
  Qed.
  Lemma depth_part c (s : gmap string B) ps p : p ∈ ps -> depth p.2 < depth (VTree c s ps).
  Proof.
    intros Hp. cbn [depth]. induction ps as [|q ps IH]; [by apply elem_of_nil in Hp|]. apply elem_of_cons in Hp as [->|Hp]; cbn [fold_right]; [lia|].
    specialize (IH Hp). lia.
  Qed.
End trees.

(** Two trees of the same shape whose vectors are related. *)
Section rel.
  Context {B C : Type}.
  Definition mrel (P : string -> B -> C -> Prop) (s : gmap string B) (s' : gmap string C) : Prop :=
    forall m, match s !! m, s' !! m with Some v, Some v' => P m v v' | None, None => True | _, _ => False end.
  Fixpoint trel (P : cls -> string -> B -> C -> Prop) (t : vtree B) (t' : vtree C) {struct t} : Prop :=
    match t, t' with
    | VTree c s ps, VTree c' s' ps' =>
      c' = c /\ mrel (P c) s s' /\
      (fix go (ps : list (string * vtree B)) (ps' : list (string * vtree C)) : Prop :=
         match ps, ps' with [], [] => True | p :: qs, p' :: qs' => (p'.1 = p.1 /\ trel P p.2 p'.2) /\ go qs qs' | _, _ => False end) ps ps'
    end.
  Lemma trel_unfold P c s ps c' s' ps' : trel P (VTree c s ps) (VTree c' s' ps') <->
    c' = c /\ mrel (P c) s s' /\ Forall2 (fun p p' => p'.1 = p.1 /\ trel P p.2 p'.2) ps ps'.
  Proof.
    cbn [trel]. split; intros (H1 & H2 & H3); (split; [exact H1|split; [exact H2|]]).
    - revert ps' H3. induction ps as [|p ps IH]; intros [|p' ps'] H3; try done. destruct H3 as [H3 H4]. constructor; [done|auto].
    - revert ps' H3. induction ps as [|p ps IH]; intros [|p' ps'] H3; inversion H3; subst; try done. split; [done|]. apply IH. assumption.
  Qed.
  Lemma trel_cls P t t' : trel P t t' -> t_cls t' = t_cls t.
  Proof. destruct t, t'. cbn [trel t_cls]. tauto. Qed.
End rel.

Lemma trel_refl {B} (P : cls -> string -> B -> B -> Prop) t : tall (fun c m v => P c m v v) t -> trel P t t.
Proof.
  induction t as [c s ps IH] using vtree_ind'. rewrite tall_unfold, trel_unfold. intros [H1 H2]. split; [done|]. split.
  - intros m. destruct (s !! m) eqn:E; [eauto|done].
  - apply Forall_Forall2_diag. apply Forall_forall. intros p Hp. split; [done|]. eauto.
Qed.
Lemma trel_impl {B C} (P Q : cls -> string -> B -> C -> Prop) t : forall t', (forall c m v v', P c m v v' -> Q c m v v') -> trel P t t' -> trel Q t t'.
Proof.
  induction t as [c s ps IH] using vtree_ind'. intros [c' s' ps'] H. rewrite !trel_unfold. intros (-> & H2 & H3). split; [done|]. split.
  - intros m. specialize (H2 m). destruct (s !! m), (s' !! m); eauto.
  - induction H3 as [|p p' qs qs' [E1 E2] H3 IH3]; constructor.
    + split; [done|]. apply (IH p); [left|done|done].
    + apply IH3. intros q Hq. apply IH. by right.
Qed.
Lemma trel_tall {B C} (P : cls -> string -> B -> C -> Prop) (Q : cls -> string -> C -> Prop) t : forall t',
  (forall c m v v', P c m v v' -> Q c m v') -> trel P t t' -> tall Q t'.
Proof.
  induction t as [c s ps IH] using vtree_ind'. intros [c' s' ps'] H. rewrite trel_unfold, tall_unfold. intros (-> & H2 & H3). split.
  - intros m v' Hv. specialize (H2 m). rewrite Hv in H2. destruct (s !! m); [eauto|done].
  - induction H3 as [|p p' qs qs' [E1 E2] H3 IH3]; intros q Hq; [by apply elem_of_nil in Hq|]. apply elem_of_cons in Hq as [->|Hq].
    + apply (IH p); [left|done|done].
    + apply IH3; [|done]. intros r Hr. apply IH. by right.
Qed.
Lemma trel_tall_l {B C} (P : cls -> string -> B -> C -> Prop) (Q : cls -> string -> B -> Prop) t : forall t',
  (forall c m v v', P c m v v' -> Q c m v) -> trel P t t' -> tall Q t.
Proof.
  induction t as [c s ps IH] using vtree_ind'. intros [c' s' ps'] H. rewrite trel_unfold, tall_unfold. intros (-> & H2 & H3). split.
  - intros m v Hv. specialize (H2 m). rewrite Hv in H2. destruct (s' !! m); [eauto|done].
  - induction H3 as [|p p' qs qs' [E1 E2] H3 IH3]; intros q Hq; [by apply elem_of_nil in Hq|]. apply elem_of_cons in Hq as [->|Hq].
    + apply (IH p) with (t' := p'.2); [left|done|done].
    + apply IH3; [|done]. intros r Hr. apply IH. by right.
Qed.
Lemma trel_comp {B C D} (P : cls -> string -> B -> C -> Prop) (Q : cls -> string -> C -> D -> Prop) (R : cls -> string -> B -> D -> Prop) t :
  forall t' t'', (forall c m v v' v'', P c m v v' -> Q c m v' v'' -> R c m v v'') -> trel P t t' -> trel Q t' t'' -> trel R t t''.
Proof.
  induction t as [c s ps IH] using vtree_ind'. intros [c' s' ps'] [c'' s'' ps''] H. rewrite !trel_unfold. intros (-> & H2 & H3) (-> & H4 & H5). split; [done|]. split.
  - intros m. specialize (H2 m). specialize (H4 m). destruct (s !! m), (s' !! m), (s'' !! m); try done. eauto.
  - revert ps'' H5. induction H3 as [|p p' qs qs' [E1 E2] H3 IH3]; intros ps'' H5; inversion H5 as [|? p'' ? qs'' [E3 E4] H6]; subst; constructor.
    + split; [congruence|]. apply (IH p) with (t' := p'.2); [left|done|done|done].
    + apply IH3; [|done]. intros q Hq. apply IH. by right.
Qed.
Lemma trel_flip {B C} (P : cls -> string -> B -> C -> Prop) t : forall t', trel P t t' -> trel (fun c m v' v => P c m v v') t' t.
Proof.
  induction t as [c s ps IH] using vtree_ind'. intros [c' s' ps']. rewrite !trel_unfold. intros (-> & H2 & H3). split; [done|]. split.
  - intros m. specialize (H2 m). destruct (s !! m), (s' !! m); try done.
  - induction H3 as [|p p' qs qs' [E1 E2] H3 IH3]; constructor.
    + split; [done|]. apply (IH p); [left|done].
    + apply IH3. intros q Hq. apply IH. by right.
Qed.
Lemma trel_shaped {B C} (P : cls -> string -> B -> C -> Prop) t : forall t', trel P t t' -> shaped t -> shaped t'.
Proof.
  induction t as [c s ps IH] using vtree_ind'. intros [c' s' ps']. rewrite trel_unfold, !shaped_unfold. intros (-> & H2 & H3) [S1 S2]. split.
  - intros m. rewrite <- S1. specialize (H2 m). destruct (s !! m), (s' !! m); try done; split; intros [? ?]; (done || by eexists).
  - induction H3 as [|p p' qs qs' [E1 E2] H3 IH3]; intros q Hq; [by apply elem_of_nil in Hq|]. apply elem_of_cons in Hq as [->|Hq].
    + rewrite E1, (trel_cls _ _ _ E2). destruct (S2 p) as [T1 T2]; [left|]. split; [done|]. apply (IH p); [left|done|done].
    + apply IH3; [intros r Hr; apply IH; by right|intros r Hr; apply S2; by right|done].
Qed.
Lemma trel_no_slack {B C} (P : cls -> string -> B -> C -> Prop) t : forall t', trel P t t' -> no_slack t -> no_slack t'.
Proof.
  induction t as [c s ps IH] using vtree_ind'. intros [c' s' ps']. rewrite trel_unfold, !no_slack_unfold. intros (-> & H2 & H3) [S1 S2]. split; [done|].
  induction H3 as [|p p' qs qs' [E1 E2] H3 IH3]; intros q Hq; [by apply elem_of_nil in Hq|]. apply elem_of_cons in Hq as [->|Hq].
  - apply (IH p); [left|done|]. apply S2. left.
  - apply IH3; [intros r Hr; apply IH; by right|intros r Hr; apply S2; by right|done].
Qed.

(** ** The statements of a class handle every vector once, and as its kind wants *)
Definition touched (st : stmt) : list string :=
  match st with Copy ms => ms | Grow m | Shrink m | Resize m | Clear m | PtrCopy m | PtrGrow m | PtrShrink m | PtrClear m => [m] | Each _ => [] end.
Definition slots_of (st : stmt) : list string := match st with Each sl => [sl] | _ => [] end.
Definition rightb (k : vkind) (f : vfn) (st : stmt) : bool :=
  match f, st, k with
  | FAlloc, PtrCopy _, VPtr | FExtend, PtrGrow _, VPtr | FReduce, PtrShrink _, VPtr | FDelete, PtrClear _, VPtr => true
  | FAlloc, Copy _, (VPlain | VClear | VSlack) | FExtend, Grow _, (VPlain | VClear | VSlack) => true
  | FReduce, Shrink _, (VPlain | VClear) | FReduce, Resize _, VSlack => true
  | FDelete, Clear _, (VClear | VSlack) => true
  | _, _, _ => false
  end.
Definition all_slots : list string := ["extensions"; "terminals"; "generation"; "ratio"; "phase"; "legs"].
Definition all_cls : list cls :=
  [KNodeTerminal; KBusTerminal; KRatioTapChanger; KPhaseTapChanger; KGeneration; KLeg; KLoadDetail; KSlackTerminal; KOtherExtension;
   KGenerator; KLoad; KBattery; KShunt; KSvc; KVsc; KLcc; KBusbarSection; KDanglingLine; KLine; KTieLine;
   KTwoWindings; KThreeWindings; KHvdcLine; KSwitch; KConfiguredBus; KNodeBreaker; KBusBreaker; KSubstation; KNetwork].
(** A part that needs no call: deleteVariantArrayElement does nothing on it. *)
Definition idle (d : cls) : bool := forallb (fun p => bool_decide (p.2 = VPlain)) (members d) && forallb (fun sl => forallb (fun e => negb (slot_ok d sl e)) all_cls) all_slots.
Definition member_okb (c : cls) (f : vfn) (p : string * vkind) : bool :=
  match filter (fun st => p.1 ∈ touched st) (code c f) with
  | [] => bool_decide (f = FDelete /\ p.2 = VPlain)
  | [st] => rightb p.2 f st
  | _ => false
  end.
Definition slot_okb (c : cls) (f : vfn) (sl : string) : bool :=
  match filter (fun st => sl ∈ slots_of st) (code c f) with
  | [] => forallb (fun d => if slot_ok c sl d then (if bool_decide (f = FDelete) then idle d else false) else true) all_cls
  | [_] => true
  | _ => false
  end.
Definition coveredb (c : cls) (f : vfn) : bool :=
  forallb (member_okb c f) (members c) && forallb (slot_okb c f) all_slots &&
  forallb (fun st => bool_decide (NoDup (touched st)) && forallb (fun m => bool_decide (m ∈ map fst (members c))) (touched st) &&
    forallb (fun sl => bool_decide (sl ∈ all_slots)) (slots_of st) && bool_decide (touched st <> [] \/ slots_of st <> [])) (code c f) &&
  bool_decide (NoDup (map fst (members c))).
Lemma covered c f : coveredb c f = true.
Proof. destruct c, f; vm_compute; reflexivity. Qed.
Lemma all_cls_in c : c ∈ all_cls.
Proof. destruct c; apply (bool_decide_unpack _); vm_compute; exact I. Qed.
Lemma slot_ok_in c sl d : slot_ok c sl d = true -> sl ∈ all_slots.
Proof.
  unfold slot_ok, all_slots. rewrite !orb_true_iff, !andb_true_iff, !bool_decide_eq_true. intros H.
  destruct H as [[[[[H|H]|H]|H]|H]|H]; destruct H as [[-> _] _]; set_solver.
Qed.

Lemma kind_of_member c m : m ∈ map fst (members c) -> (m, kind_of c m) ∈ members c.
Proof.
  intros (p & -> & Hp)%elem_of_list_fmap. unfold kind_of. destruct (list_find_elem_of (fun q => q.1 = p.1) (members c) p Hp eq_refl) as [[i [m' k]] E].
  rewrite E. apply list_find_Some in E as (E1 & E2 & _). simpl in E2. subst m'. by apply elem_of_list_lookup_2 in E1.
Qed.
Lemma kind_of_slack c m : c <> KSlackTerminal -> kind_of c m <> VSlack.
Proof.
  intros H. unfold kind_of. destruct (list_find _ _) as [[i [m' k]]|] eqn:E; [|done]. apply list_find_Some in E as (E1 & _ & _). apply elem_of_list_lookup_2 in E1.
  intros ->. destruct c; try done; vm_compute in E1; repeat (apply elem_of_cons in E1 as [E1|E1]; [congruence|]); by apply elem_of_nil in E1.
Qed.

Section exec.
  Context {A : Type}.
  Notation vec := (list (option A)).
  Definition arr_op (a : vargs) (k : vkind) : vec -> result vec :=
    match a with AAlloc idx src => arr_alloc k idx src | ADelete i => arr_delete k i | AExtend n src => arr_extend k n src | AReduce n => arr_reduce k n end.
  Fixpoint assigns (idx : list nat) (src : nat) (v : vec) : result vec :=
    match idx with [] => Ok v | i :: idx' => let! v' := assign i src v in assigns idx' src v' end.
  (** What a statement does to one of its vectors. *)
  Definition st_vec (a : vargs) (st : stmt) : vec -> result vec :=
    match st, a with
    | Copy _, AAlloc idx src => assigns idx src
    | Grow _, AExtend n src => grow n src
    | Shrink _, AReduce n | PtrShrink _, AReduce n => shrink n
    | Resize _, AReduce n => fun v => Ok (resize n None v)
    | Clear _, ADelete i | PtrClear _, ADelete i => fun v => vset v i None
    | PtrCopy _, AAlloc idx src => ptr_assign idx src
    | PtrGrow _, AExtend n src => ptr_grow n src
    | _, _ => fun _ => UB
    end.
  Lemma result_bind_Ok {X Y} (e : result X) (k : X -> result Y) y : (let! x := e in k x) = Ok y -> exists x, e = Ok x /\ k x = Ok y.
  Proof. destruct e; simpl; try done. eauto. Qed.

  Lemma ptr_grow_ok n src : forall (v : vec) x, v !! src = Some (Some x) -> ptr_grow n src v = Ok (v ++ replicate n (Some x)).
  Proof.
    induction n as [|n IH]; intros v x Hx; cbn [ptr_grow replicate]; [by rewrite app_nil_r|].
    unfold ptr_copy, vget. rewrite Hx. simpl. rewrite (IH _ x); [|by apply lookup_app_l_Some]. by rewrite <- app_assoc.
  Qed.
  Lemma st_vec_arr a k st (v v' : vec) : rightb k (fn_of a) st = true -> arr_op a k v = Ok v' -> st_vec a st v = Ok v'.
  Proof.
    destruct a as [idx src|i|n src|n]; cbn [fn_of arr_op]; intros R.
    - assert (k <> VPtr -> forall v : vec, arr_alloc k idx src v = assigns idx src v) as HP.
      { intros Hk. clear R. induction idx as [|i idx IH]; intros w; [done|]. cbn [arr_alloc assigns]. unfold assign, cell_copy. destruct (vget w src) as [x| | |]; [|done|done|done]. cbn [result_bind].
        destruct k; [|done| |]; cbn [result_bind]; destruct (vset w i x); cbn [result_bind]; auto. }
      assert (forall v : vec, arr_alloc VPtr idx src v = ptr_assign idx src v) as HQ.
      { clear R HP. induction idx as [|i idx IH]; intros w; [done|]. cbn [arr_alloc ptr_assign]. unfold ptr_copy, cell_copy. destruct (vget w src) as [[x|]| | |]; cbn [result_bind]; try done.
        destruct (vset w i (Some x)); cbn [result_bind]; auto. }
      destruct st; try (by destruct k); destruct k; try done; cbn [st_vec]; first [by rewrite HP | by rewrite HQ].
    - destruct st; try (by destruct k); destruct k; try done.
    - unfold arr_extend, cell_copy. intros (x & Hx & [= <-])%result_bind_Ok. apply result_bind_Ok in Hx as (y & Hy & Hx).
      destruct st; try (by destruct k); destruct k; try done; cbn [st_vec].
      all: try (injection Hx as <-; unfold grow; rewrite Hy; cbn [result_bind]; rewrite resize_plus_ge || rewrite resize_ge by lia; f_equal; f_equal; f_equal; lia).
      destruct y; [|done]. injection Hx as <-. apply vget_Ok in Hy. by apply ptr_grow_ok.
    - unfold arr_reduce. destruct st; try (by destruct k); destruct k; try done; cbn [st_vec]; unfold shrink; destruct (n <=? length v) eqn:En; try done; intros [= <-];
        by rewrite resize_le by lia.
  Qed.

  Definition apply_list (a : vargs) (l : list stmt) (v : vec) : result vec := foldl (fun r st => let! w := r in st_vec a st w) (Ok v) l.
  Lemma apply_list_cons a st l v v' : apply_list a (st :: l) v = Ok v' -> exists w, st_vec a st v = Ok w /\ apply_list a l w = Ok v'.
  Proof.
    unfold apply_list. cbn [foldl result_bind]. intros H. destruct (st_vec a st v) as [w| | |] eqn:E; [eauto| | |]; exfalso; revert H; clear;
      induction l as [|s l IH]; cbn [foldl result_bind]; done.
  Qed.
  Lemma upd_Ok m (g : vec -> result vec) s v v' : s !! m = Some v -> g v = Ok v' -> upd m g s = Ok (<[m := v']> s).
  Proof. intros H1 H2. unfold upd. rewrite H1, H2. done. Qed.

  Lemma assign_all_ok ms i src : forall s : gmap string vec, NoDup ms -> (forall m, m ∈ ms -> exists v v', s !! m = Some v /\ assign i src v = Ok v') ->
    exists s', assign_all ms i src s = Ok s' /\ (forall m, m ∉ ms -> s' !! m = s !! m) /\ (forall m v, m ∈ ms -> s !! m = Some v -> exists v', assign i src v = Ok v' /\ s' !! m = Some v').
  Proof.
    induction ms as [|m ms IH]; intros s Hn H; cbn [assign_all].
    { exists s. split; [done|]. split; [done|]. intros m v Hm. by apply elem_of_nil in Hm. }
    apply NoDup_cons in Hn as [Hm Hn]. destruct (H m) as (v & v' & E1 & E2); [left|]. rewrite (upd_Ok _ _ _ _ _ E1 E2). cbn [result_bind].
    destruct (IH (<[m := v']> s) Hn) as (s' & E3 & F1 & F2).
    { intros m' Hm'. destruct (H m') as (w & w' & ? & ?); [by right|]. exists w, w'. split; [|done]. rewrite lookup_insert_ne; [done|]. intros ->. done. }
    exists s'. split; [done|]. split.
    - intros m' Hm'. rewrite F1 by set_solver. apply lookup_insert_ne. set_solver.
    - intros m' w Hm' Hw. apply elem_of_cons in Hm' as [->|Hm'].
      + exists v'. split; [congruence|]. rewrite F1 by done. apply lookup_insert.
      + apply F2; [done|]. rewrite lookup_insert_ne; [done|]. intros ->. done.
  Qed.
  Lemma copy_loop_ok ms src idx : NoDup ms -> forall s : gmap string vec, (forall m, m ∈ ms -> exists v v', s !! m = Some v /\ assigns idx src v = Ok v') ->
    exists s', copy_loop idx src ms s = Ok s' /\ (forall m, m ∉ ms -> s' !! m = s !! m) /\ (forall m v, m ∈ ms -> s !! m = Some v -> exists v', assigns idx src v = Ok v' /\ s' !! m = Some v').
  Proof.
    intros Hn. induction idx as [|i idx IH]; intros s H; cbn [copy_loop].
    { exists s. split; [done|]. split; [done|]. intros m v Hm Hv. exists v. done. }
    destruct (assign_all_ok ms i src s Hn) as (s1 & E1 & F1 & F2).
    { intros m Hm. destruct (H m Hm) as (v & v' & E & (w & Ew & _)%result_bind_Ok). eauto. }
    rewrite E1. cbn [result_bind]. destruct (IH s1) as (s2 & E2 & G1 & G2).
    { intros m Hm. destruct (H m Hm) as (v & v' & E & (w & Ew & Ew2)%result_bind_Ok). destruct (F2 m v Hm E) as (w' & Ew' & ?). assert (w' = w) as -> by congruence. eauto. }
    exists s2. split; [done|]. split.
    - intros m Hm. rewrite G1, F1 by done. done.
    - intros m v Hm Hv. destruct (F2 m v Hm Hv) as (w & Ew & Hw). destruct (G2 m w Hm Hw) as (u & Eu & Hu). exists u. split; [|done]. cbn [assigns]. rewrite Ew. done.
  Qed.

  Lemma stmt_run_ok a st (s : gmap string vec) : NoDup (touched st) -> slots_of st = [] -> (forall m, m ∈ touched st -> exists v v', s !! m = Some v /\ st_vec a st v = Ok v') ->
    touched st <> [] ->
    exists s', stmt_run a st s = Ok s' /\ (forall m, m ∉ touched st -> s' !! m = s !! m) /\ (forall m v, m ∈ touched st -> s !! m = Some v -> exists v', st_vec a st v = Ok v' /\ s' !! m = Some v').
  Proof.
    intros Hn Hs H Hne.
    assert (forall m g, touched st = [m] -> (forall v : vec, st_vec a st v = g v) -> stmt_run a st s = upd m g s ->
      exists s', stmt_run a st s = Ok s' /\ (forall m, m ∉ touched st -> s' !! m = s !! m) /\ (forall m v, m ∈ touched st -> s !! m = Some v -> exists v', st_vec a st v = Ok v' /\ s' !! m = Some v')) as HU.
    { intros m g Ht Hg Hr. destruct (H m) as (v & v' & E1 & E2); [rewrite Ht; left|]. exists (<[m := v']> s). split; [rewrite Hr; apply upd_Ok with v; [done|by rewrite <- Hg]|]. rewrite Ht. split.
      - intros m' Hm'. apply lookup_insert_ne. set_solver.
      - intros m' w ->%elem_of_list_singleton Hw. exists v'. split; [congruence|]. apply lookup_insert. }
    destruct st as [ms|m|m|m|m|m|m|m|m|sl]; cbn [touched] in *; try (by destruct (H m) as (? & ? & ? & ?); [left|]; destruct a; try done; eapply HU; try done).
    destruct a as [idx src|i|n src|n]; cbn [st_vec stmt_run] in *; [by apply copy_loop_ok| | |]; destruct ms as [|m ms]; try done; destruct (H m) as (? & ? & ? & ?); (left || done).
    done.
  Qed.

  Lemma each_ok (g : vtree vec -> result (vtree vec)) sl ps : (forall p, p ∈ ps -> p.1 = sl -> exists t', g p.2 = Ok t') ->
    exists ps', each g sl ps = Ok ps' /\ Forall2 (fun p p' => p'.1 = p.1 /\ if bool_decide (p.1 = sl) then g p.2 = Ok p'.2 else p'.2 = p.2) ps ps'.
  Proof.
    induction ps as [|[s0 t] ps IH]; intros H; cbn [each]; [by exists []|].
    destruct IH as (r & E & F); [intros p Hp; apply H; by right|]. case_bool_decide as Hs.
    - destruct (H (s0, t)) as [t' Et]; [left|done|]. simpl in Et. rewrite Et. cbn [result_bind]. rewrite E. cbn [result_bind]. eexists. split; [done|]. constructor; [|done]. simpl. by rewrite bool_decide_true.
    - cbn [result_bind]. rewrite E. cbn [result_bind]. eexists. split; [done|]. constructor; [|done]. simpl. by rewrite bool_decide_false.
  Qed.

  Notation mem m := (fun st => m ∈ touched st).
  Notation insl sl := (fun st => sl ∈ slots_of st).
  Lemma exec_ok a g l : forall (s : gmap string vec) ps,
    (forall st, st ∈ l -> NoDup (touched st) /\ forall m, m ∈ touched st -> is_Some (s !! m)) ->
    (forall m v, s !! m = Some v -> exists v', apply_list a (filter (mem m) l) v = Ok v') ->
    (forall st, st ∈ l -> touched st <> [] \/ slots_of st <> []) ->
    (forall sl, length (filter (insl sl) l) <= 1) ->
    (forall p, p ∈ ps -> filter (insl p.1) l <> [] -> exists t', g p.2 = Ok t') ->
    exists s' ps', exec a g l s ps = Ok (s', ps') /\
      (forall m, match s !! m with Some v => exists v', apply_list a (filter (mem m) l) v = Ok v' /\ s' !! m = Some v' | None => s' !! m = None end) /\
      Forall2 (fun p p' => p'.1 = p.1 /\ match filter (insl p.1) l with [] => p'.2 = p.2 | _ => g p.2 = Ok p'.2 end) ps ps'.
  Proof.
    induction l as [|st l IH]; intros s ps H1 H2 H3 H4 H5.
    { exists s, ps. split; [done|]. split.
      - intros m. destruct (s !! m); [by eexists|done].
      - apply Forall_Forall2_diag, Forall_forall. done. }
    destruct (decide (slots_of st = [])) as [Hsl|Hsl].
    - assert (touched st <> []) as Hne. { destruct (H3 st); [left|done|done]. }
      destruct (stmt_run_ok a st s) as (s1 & E1 & F1 & F2); [apply H1; left|done| |done|].
      { intros m Hm. destruct (H1 st) as [_ Hd]; [left|]. destruct (Hd m Hm) as [v Hv]. exists v.
        destruct (H2 m v Hv) as [v' Hv']. rewrite filter_cons_True in Hv' by done. apply apply_list_cons in Hv' as (w & Hw & _). eauto. }
      assert (exec a g (st :: l) s ps = let! s' := stmt_run a st s in exec a g l s' ps) as -> by (by destruct st).
      rewrite E1. cbn [result_bind].
      assert (forall sl, filter (insl sl) (st :: l) = filter (insl sl) l) as Hf. { intros sl. rewrite filter_cons_False; [done|]. rewrite Hsl. apply not_elem_of_nil. }
      destruct (IH s1 ps) as (s2 & ps2 & E2 & G1 & G2).
      + intros st' Hst. destruct (H1 st') as [? Hd]; [by right|]. split; [done|]. intros m Hm. destruct (Hd m Hm) as [v Hv]. destruct (decide (m ∈ touched st)).
        * destruct (F2 m v) as (? & _ & ?); [done|done|]. by eexists.
        * rewrite F1 by done. by eexists.
      + intros m w Hw. destruct (decide (m ∈ touched st)) as [Hm|Hm].
        * destruct (H1 st) as [_ Hd]; [left|]. destruct (Hd m Hm) as [v Hv]. destruct (F2 m v Hm Hv) as (w' & Ew & Hw'). assert (w' = w) as -> by congruence.
          destruct (H2 m v Hv) as [v' Hv']. rewrite filter_cons_True in Hv' by done. apply apply_list_cons in Hv' as (w'' & Hw'' & ?). assert (w'' = w) as -> by congruence. eauto.
        * rewrite F1 in Hw by done. destruct (H2 m w Hw) as [v' Hv']. rewrite filter_cons_False in Hv' by done. eauto.
      + intros st' Hst. apply H3. by right.
      + intros sl. rewrite <- Hf. apply H4.
      + intros p Hp Hq. apply H5; [done|]. by rewrite Hf.
      + exists s2, ps2. split; [done|]. split.
        * intros m. destruct (decide (m ∈ touched st)) as [Hm|Hm].
          -- destruct (H1 st) as [_ Hd]; [left|]. destruct (Hd m Hm) as [v Hv]. rewrite Hv. destruct (F2 m v Hm Hv) as (w & Ew & Hw). specialize (G1 m). rewrite Hw in G1.
             destruct G1 as (v' & Ev & Hv'). exists v'. split; [|done]. rewrite filter_cons_True by done. unfold apply_list in *. cbn [foldl result_bind]. by rewrite Ew.
          -- specialize (G1 m). rewrite F1 in G1 by done. destruct (s !! m); [|done]. by rewrite filter_cons_False.
        * eapply Forall2_impl; [exact G2|]. intros p p' [? Hq]. by rewrite Hf.
    - destruct st as [ms|m|m|m|m|m|m|m|m|sl0]; try done. clear Hsl. cbn [exec].
      destruct (each_ok g sl0 ps) as (ps1 & E1 & F).
      { intros p Hp Hs. apply H5; [done|]. rewrite filter_cons_True; [done|]. simpl. rewrite Hs. by left. }
      rewrite E1. cbn [result_bind].
      assert (filter (insl sl0) l = []) as Hz. { specialize (H4 sl0). rewrite filter_cons_True in H4 by (simpl; by left). simpl in H4. destruct (filter _ l); [done|simpl in H4; lia]. }
      assert (forall sl, sl <> sl0 -> filter (insl sl) (Each sl0 :: l) = filter (insl sl) l) as Hf. { intros sl Hs. rewrite filter_cons_False; [done|]. simpl. set_solver. }
      assert (forall m, filter (mem m) (Each sl0 :: l) = filter (mem m) l) as Hm. { intros m. rewrite filter_cons_False; [done|]. simpl. apply not_elem_of_nil. }
      destruct (IH s ps1) as (s2 & ps2 & E2 & G1 & G2).
      + intros st' Hst. apply H1. by right.
      + intros m v Hv. rewrite <- Hm. eauto.
      + intros st' Hst. apply H3. by right.
      + intros sl. destruct (decide (sl = sl0)) as [->|Hs]; [rewrite Hz; simpl; lia|]. rewrite <- Hf by done. apply H4.
      + intros p' Hp' Hq. apply elem_of_list_lookup in Hp' as [i Hi]. destruct (Forall2_lookup_r _ _ _ _ _ F Hi) as (p & Hi' & P1 & P2).
        rewrite P1 in Hq. rewrite bool_decide_false in P2; [|intros E; by rewrite E, Hz in Hq]. rewrite P2.
        apply H5; [by apply elem_of_list_lookup_2 in Hi'|]. rewrite Hf; [done|]. intros E. by rewrite E, Hz in Hq.
      + exists s2, ps2. split; [done|]. split; [intros m; rewrite Hm; apply G1|].
        clear - F G2 Hz Hf. revert ps2 G2. induction F as [|p p' qs qs' [P1 P2] F IH]; intros ps2 G2; inversion G2 as [|? p2 ? qs2 [Q1 Q2] G3]; subst; constructor; [|by apply IH].
        split; [congruence|]. rewrite P1 in Q2. case_bool_decide as Hs.
        * rewrite Hs in *. rewrite Hz in Q2. rewrite filter_cons_True by (simpl; by left). by rewrite Q2.
        * rewrite Hf by done. by rewrite P2 in Q2.
  Qed.
End exec.

Lemma cov_stmt c f st : st ∈ code c f -> NoDup (touched st) /\ (forall m, m ∈ touched st -> m ∈ map fst (members c)) /\ (forall sl, sl ∈ slots_of st -> sl ∈ all_slots) /\
  (touched st <> [] \/ slots_of st <> []).
Proof.
  intros Hst. pose proof (covered c f) as H. unfold coveredb in H. rewrite !andb_true_iff in H. destruct H as [[_ H] _].
  rewrite forallb_forall in H. specialize (H st (proj1 (elem_of_list_In _ _) Hst)). rewrite !andb_true_iff, !forallb_forall, !bool_decide_eq_true in H.
  destruct H as [[[H1 H2] H3] H4]. split; [done|]. split; [|split; [|done]].
  - intros m Hm. specialize (H2 m (proj1 (elem_of_list_In _ _) Hm)). by apply bool_decide_eq_true in H2.
  - intros m Hm. specialize (H3 m (proj1 (elem_of_list_In _ _) Hm)). by apply bool_decide_eq_true in H3.
Qed.
Lemma cov_member c f m : m ∈ map fst (members c) ->
  (filter (fun st => m ∈ touched st) (code c f) = [] /\ f = FDelete /\ kind_of c m = VPlain) \/
  exists st, filter (fun st => m ∈ touched st) (code c f) = [st] /\ rightb (kind_of c m) f st = true.
Proof.
  intros Hm%kind_of_member. pose proof (covered c f) as H. unfold coveredb in H. rewrite !andb_true_iff in H. destruct H as [[[H _] _] _].
  rewrite forallb_forall in H. specialize (H _ (proj1 (elem_of_list_In _ _) Hm)). unfold member_okb in H. cbn [fst snd] in H.
  destruct (filter _ (code c f)) as [|st [|? ?]]; [left|right; eauto|done]. apply bool_decide_eq_true in H as [? ?]. done.
Qed.
Lemma cov_slot c f sl : length (filter (fun st => sl ∈ slots_of st) (code c f)) <= 1 /\
  (filter (fun st => sl ∈ slots_of st) (code c f) = [] -> forall d, slot_ok c sl d = true -> f = FDelete /\ idle d = true).
Proof.
  destruct (decide (sl ∈ all_slots)) as [Hs|Hs].
  - pose proof (covered c f) as H. unfold coveredb in H. rewrite !andb_true_iff in H. destruct H as [[[_ H] _] _].
    rewrite forallb_forall in H. specialize (H _ (proj1 (elem_of_list_In _ _) Hs)). unfold slot_okb in H.
    destruct (filter _ (code c f)) as [|st [|? ?]]; [|simpl; split; [lia|done]|done]. split; [simpl; lia|]. intros _ d Hd.
    rewrite forallb_forall in H. specialize (H d (proj1 (elem_of_list_In _ _) (all_cls_in d))). rewrite Hd in H. case_bool_decide; [done|done].
  - assert (filter (fun st => sl ∈ slots_of st) (code c f) = []) as ->.
    { apply elem_of_nil_inv. intros st [H1 H2]%elem_of_list_filter. destruct (cov_stmt c f st H2) as (_ & _ & H3 & _). auto. }
    split; [simpl; lia|]. intros _ d Hd. by apply slot_ok_in in Hd.
Qed.
Lemma idle_ok d : idle d = true -> (forall m, m ∈ map fst (members d) -> kind_of d m = VPlain) /\ (forall sl e, slot_ok d sl e = false).
Proof.
  unfold idle. rewrite andb_true_iff, !forallb_forall. intros [H1 H2]. split.
  - intros m Hm%kind_of_member. specialize (H1 _ (proj1 (elem_of_list_In _ _) Hm)). by apply bool_decide_eq_true in H1.
  - intros sl e. destruct (slot_ok d sl e) eqn:E; [|done]. specialize (H2 sl (proj1 (elem_of_list_In _ _) (slot_ok_in _ _ _ E))).
    rewrite forallb_forall in H2. specialize (H2 e (proj1 (elem_of_list_In _ _) (all_cls_in e))). by rewrite E in H2.
Qed.

Section call.
  Context {A : Type}.
  Notation vec := (list (option A)).
  Notation opok a := (fun c m (v : vec) => exists v' : vec, arr_op a (kind_of c m) v = Ok v').
  Notation oprel a := (fun c m (v v' : vec) => arr_op a (kind_of c m) v = Ok v').

  Lemma call_ok a (t : vtree vec) : forall d, depth t <= d -> shaped t -> tall (opok a) t -> exists t', call d a t = Ok t' /\ trel (oprel a) t t'.
  Proof.
    induction t as [c s ps IH] using vtree_ind'. intros [|d] Hd Hs Ht; [cbn [depth] in Hd; lia|].
    apply shaped_unfold in Hs as [S1 S2]. apply tall_unfold in Ht as [T1 T2].
    assert (forall p, p ∈ ps -> exists t', call d a p.2 = Ok t' /\ trel (oprel a) p.2 t') as HP.
    { intros p Hp. apply (IH p Hp); [pose proof (depth_part c s ps p Hp); lia|apply S2; done|auto]. }
    assert (forall m v, s !! m = Some v -> exists v', arr_op a (kind_of c m) v = Ok v' /\ apply_list a (filter (fun st => m ∈ touched st) (code c (fn_of a))) v = Ok v') as HM.
    { intros m v Hv. destruct (T1 m v Hv) as [v' Hv']. exists v'. split; [done|]. destruct (cov_member c (fn_of a) m) as [(-> & Hf & Hk)|(st & -> & Hr)].
      - apply S1. by eexists.
      - rewrite Hk in Hv'. destruct a; try done.
      - unfold apply_list. cbn [foldl result_bind]. by eapply st_vec_arr. }
    destruct (exec_ok a (call d a) (code c (fn_of a)) s ps) as (s' & ps' & E & F1 & F2).
    - intros st Hst. destruct (cov_stmt c _ st Hst) as (? & H & _). split; [done|]. intros m Hm. apply S1. auto.
    - intros m v Hv. destruct (HM m v Hv) as (v' & _ & ?). eauto.
    - intros st Hst. apply (cov_stmt c _ st Hst).
    - intros sl. apply cov_slot.
    - intros p Hp _. destruct (HP p Hp) as (t' & ? & _). eauto.
    - cbn [call]. rewrite E. cbn [result_bind fst snd]. eexists. split; [done|]. apply trel_unfold. split; [done|]. split.
      + intros m. specialize (F1 m). destruct (s !! m) as [v|] eqn:Hv; [|by rewrite F1]. destruct F1 as (v' & Hv' & ->). destruct (HM m v Hv) as (w & Hw & Hw'). congruence.
      + eapply Forall2_in; [exact F2|]. intros p p' Hp [P1 P2]. split; [done|]. destruct (HP p Hp) as (t' & Et & Rt).
        destruct (filter _ _) eqn:Ef; [|congruence]. destruct (S2 p Hp) as [Q1 Q2]. destruct (proj2 (cov_slot c (fn_of a) p.1) Ef _ Q1) as [Hf Hi].
        rewrite P2. destruct (idle_ok _ Hi) as [I1 I2]. destruct p as [sl [dc ds dps]]. cbn [fst snd t_cls] in *. apply shaped_unfold in Q2 as [Q2 Q3].
        apply trel_unfold. split; [done|]. destruct a; try done. split.
        * intros m. destruct (ds !! m) as [v|] eqn:Hv; [|done]. cbn [arr_op]. rewrite I1; [done|]. apply Q2. by eexists.
        * destruct dps as [|q dps]; [constructor|]. destruct (Q3 q) as [Q4 _]; [left|]. by rewrite I2 in Q4.
  Qed.
  Lemma call_all_ok a (ts : list (vtree vec)) : Forall shaped ts -> Forall (tall (opok a)) ts -> exists ts', call_all a ts = Ok ts' /\ Forall2 (trel (oprel a)) ts ts'.
  Proof.
    induction 1 as [|t ts Ht Hts IH]; intros Ho; cbn [call_all]; [by exists []|]. inversion Ho; subst.
    destruct (call_ok a t (depth t)) as (t' & E & R); [lia|done|done|]. unfold call_obj. rewrite E. cbn [result_bind].
    destruct IH as (ts' & E' & R'); [done|]. rewrite E'. cbn [result_bind]. eexists. split; [done|]. by constructor.
  Qed.
End call.
