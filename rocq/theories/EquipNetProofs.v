(** Proofs about the creation and the removal of equipments. *)
From Verif Require Import EquipNet EquipNetSpec.

Lemma net_eta nt : mkNet (n_levels nt) (n_eqs nt) (n_ids nt) (n_next nt) (n_work nt) = nt.
Proof. by destruct nt. Qed.
Lemma with_level_id nt vl sub l : n_levels nt !! vl = Some (sub, l) -> with_level nt vl sub l = nt.
Proof. intros H. unfold with_level. rewrite insert_id by done. apply net_eta. Qed.
Lemma with_level_twice nt vl sub sub' l l' : with_level (with_level nt vl sub l) vl sub' l' = with_level nt vl sub' l'.
Proof. unfold with_level. cbn [n_levels n_eqs n_ids n_next n_work]. by rewrite insert_insert. Qed.

Lemma nbind_Ok {A B} (m : nact A) (f : A -> nact B) nt a nt' : m nt = (Ok a, nt') -> nbind m f nt = f a nt'.
Proof. unfold nbind. by intros ->. Qed.
Lemma nbind_Throw {A B} (m : nact A) (f : A -> nact B) nt e nt' : m nt = (Throw e, nt') -> nbind m f nt = (Throw e, nt').
Proof. unfold nbind. by intros ->. Qed.
Lemma nlevel_Some nt vl x : n_levels nt !! vl = Some x -> nlevel vl nt = (Ok x, nt).
Proof. unfold nlevel, nlift. by intros ->. Qed.
Lemma nlevel_None nt vl : n_levels nt !! vl = None -> nlevel vl nt = (Throw "voltage level not found", nt).
Proof. unfold nlevel, nlift. by intros ->. Qed.

(** ** attach *)
Lemma alter_insert_eq {K A} `{Countable K} (f : A -> A) (k : K) (x : A) (m : gmap K A) : m !! k = Some x -> <[k := f x]> m = alter f k m.
Proof.
  intros E. apply map_eq. intros j. destruct (decide (j = k)) as [->|Hne]; [by rewrite lookup_insert, lookup_alter, E|]. by rewrite lookup_insert_ne, lookup_alter_ne.
Qed.
Definition put_at (nt : net) (t : terminal) : net :=
  match n_levels nt !! t_vl t, t_place t with
  | Some (sub, LNode vs es), PNode n => with_level nt (t_vl t) sub (LNode (<[n := Some (t_id t)]> vs) es)
  | Some (sub, LBus bs es), PBus b _ => with_level nt (t_vl t) sub (LBus (alter (fun l => l ++ [t_id t]) b bs) es)
  | _, _ => nt
  end.
Lemma suits_dec nt vl p : suits nt vl p \/ ~ suits nt vl p.
Proof.
  destruct (n_levels nt !! vl) as [[sub [vs es|bs es]]|] eqn:E; destruct p as [n|b c]; cbn [suits]; unfold node_level, bus_of.
  - left. eauto.
  - right. intros (? & ? & ? & H & _). congruence.
  - right. intros (? & ? & ? & H). congruence.
  - destruct (bs !! b) as [l|] eqn:Eb; [left; exists sub, bs, es; by rewrite Eb|]. right. intros (? & ? & ? & H & Hs). assert (bs = x0) as -> by congruence. rewrite Eb in Hs. by destruct Hs.
  - right. intros (? & ? & ? & H). congruence.
  - right. intros (? & ? & ? & H & _). congruence.
Qed.
Lemma free_dec nt vl p : free nt vl p \/ ~ free nt vl p.
Proof.
  destruct p as [n|b c]; cbn [free]; [|by left]. unfold holds.
  destruct (n_levels nt !! vl) as [[sub [vs es|bs es]]|] eqn:E; [|left; intros a (? & ? & ? & H & _); congruence..].
  destruct (vs !! n) as [[a|]|] eqn:Ev; [right|left..].
  - intros H. apply (H a). eauto 10.
  - intros a (? & ? & ? & H & Hn). assert (vs = x0) as -> by congruence. congruence.
  - intros a (? & ? & ? & H & Hn). assert (vs = x0) as -> by congruence. congruence.
Qed.
Lemma check_terminal_eq t nt : (suits nt (t_vl t) (t_place t) -> n_work nt = true -> check_terminal t nt = (Ok tt, nt)) /\
  (forall r nt', check_terminal t nt = (r, nt') -> nt' = nt /\ (r = Ok tt \/ exists m, r = Throw m)).
Proof.
  unfold check_terminal, nbind, nlevel, nlift, nret, nthrow, nwork. split.
  - intros HS HW. destruct (t_place t) as [n|b c]; cbn [suits] in HS.
    + destruct HS as (sub & vs & es & ->). done.
    + destruct HS as (sub & bs & es & -> & Hb). cbn [snd]. unfold nbind, nlift. rewrite HW. destruct (bool_decide (b = "")); [done|]. by rewrite bool_decide_eq_true_2.
  - intros r nt'. destruct (n_levels nt !! t_vl t) as [[sub [vs es|bs es]]|]; cbn [snd]; [| |intros [= <- <-]; eauto].
    + destruct (t_place t); intros [= <- <-]; eauto.
    + destruct (t_place t) as [n|b c]; [intros [= <- <-]; eauto|]. unfold nbind, nlift. destruct (n_work nt); [|intros [= <- <-]; eauto].
      destruct (bool_decide (b = "")); [intros [= <- <-]; eauto|]. destruct (bool_decide (is_Some (bs !! b))); intros [= <- <-]; eauto.
Qed.
Lemma test_ok_suits t nt : t_place t <> PBus "" true -> t_place t <> PBus "" false -> check_terminal t nt = (Ok tt, nt) -> suits nt (t_vl t) (t_place t).
Proof.
  unfold check_terminal, nbind, nlevel, nlift, nret, nthrow, nwork. intros N1 N2.
  destruct (n_levels nt !! t_vl t) as [[sub [vs es|bs es]]|] eqn:E; cbn [snd]; [| |discriminate].
  - destruct (t_place t); [|discriminate]. intros _. exists sub, vs, es. done.
  - destruct (t_place t) as [n|b c]; [discriminate|]. unfold nbind, nlift. destruct (n_work nt); [|discriminate].
    destruct (bool_decide (b = "")) eqn:Eb; [apply bool_decide_eq_true in Eb as ->; by destruct c|].
    destruct (bool_decide (is_Some (bs !! b))) eqn:Es; [|discriminate]. apply bool_decide_eq_true in Es. intros _. exists sub, bs, es. done.
Qed.
Lemma attach_cases t nt :
  let S := suits nt (t_vl t) (t_place t) in let F := free nt (t_vl t) (t_place t) in
  (S /\ F /\ n_work nt = true /\ attach t nt = (Ok tt, put_at nt t)) \/
  (exists m, attach t nt = (Throw m, nt) /\ ~ (S /\ F /\ n_work nt = true)) \/
  (exists m n, attach t nt = (Throw m, put_at nt t) /\ S /\ F /\ n_work nt = false /\ t_place t = PNode n).
Proof.
  cbn zeta. unfold attach, put_at. destruct (check_terminal t nt) as [r nt'] eqn:E.
  destruct (check_terminal_eq t nt) as [H1 H2]. destruct (H2 r nt' E) as [-> [->|[m ->]]]; cycle 1.
  { right. left. exists m. rewrite (nbind_Throw _ _ _ _ _ E). split; [done|]. intros (HS & _ & HW). rewrite (H1 HS HW) in E. discriminate E. }
  rewrite (nbind_Ok _ _ _ _ _ E). unfold check_terminal, nbind, nlevel, nlift, nret, nthrow in E.
  destruct (n_levels nt !! t_vl t) as [[sub [vs es|bs es]]|] eqn:EL; [| |discriminate E]; rewrite (nbind_Ok _ _ _ _ _ (nlevel_Some _ _ _ EL)); cbn [fst snd] in E |- *.
  - destruct (t_place t) as [n|b c]; [|discriminate E]. unfold nbind, nput, nthrow, nwork, nlift. cbn [suits free]. unfold node_level, holds.
    assert (forall (P : Prop), (forall a, vs !! n <> Some (Some a)) -> (forall a, ~ (exists sub0 vs0 es0, n_levels nt !! t_vl t = Some (sub0, LNode vs0 es0) /\ vs0 !! n = Some (Some a)))) as HF.
    { intros _ Hf a (? & ? & ? & H & Hn). assert (vs = x0) as -> by congruence. by apply (Hf a). }
    destruct (vs !! n) as [[a|]|] eqn:Ev.
    + right. left. eexists. split; [rewrite with_level_id by done; reflexivity|]. intros (_ & Hf & _). apply (Hf a). eauto 10.
    + destruct (n_work nt) eqn:EW.
      * left. split; [eauto|]. split; [apply (HF True); congruence|]. split; [done|]. cbn [with_level n_work]. rewrite with_level_twice, EW. done.
      * right. right. do 2 eexists. split; [cbn [with_level n_work]; rewrite with_level_twice, EW; reflexivity|]. split; [eauto|]. split; [apply (HF True); congruence|]. done.
    + destruct (n_work nt) eqn:EW.
      * left. split; [eauto|]. split; [apply (HF True); congruence|]. split; [done|]. cbn [with_level n_work]. rewrite with_level_twice, EW. done.
      * right. right. do 2 eexists. split; [cbn [with_level n_work]; rewrite with_level_twice, EW; reflexivity|]. split; [eauto|]. split; [apply (HF True); congruence|]. done.
  - destruct (t_place t) as [n|b c]; [discriminate E|]. unfold nbind, nwork, nlift in E. cbn [suits free]. unfold bus_of.
    destruct (n_work nt) eqn:EW; [|discriminate E].
    unfold nbind, nput, nthrow, nwork, nlift. destruct (bs !! b) as [l|] eqn:Eb.
    + left. split; [exists sub, bs, es; by rewrite Eb|]. split; [done|]. split; [done|]. rewrite EW, (alter_insert_eq (fun l => l ++ [t_id t]) b l bs Eb). done.
    + right. left. eexists. split; [done|]. intros ((? & ? & ? & H & Hs) & _). assert (bs = x0) as -> by congruence. rewrite Eb in Hs. by destruct Hs.
Qed.

(** ** The effect of attaching one terminal *)
Lemma put_at_rest nt t : n_eqs (put_at nt t) = n_eqs nt /\ n_ids (put_at nt t) = n_ids nt /\ n_next (put_at nt t) = n_next nt /\ n_work (put_at nt t) = n_work nt.
Proof. unfold put_at. destruct (n_levels nt !! t_vl t) as [[? [|]]|]; [destruct (t_place t)..|]; done. Qed.
Lemma put_at_level nt t vl : match n_levels nt !! vl, n_levels (put_at nt t) !! vl with
  | None, None => True
  | Some (sub, LNode vs es), Some (sub', LNode vs' es') => sub' = sub /\ es' = es /\
      vs' = match t_place t with PNode n => if decide (vl = t_vl t) then <[n := Some (t_id t)]> vs else vs | _ => vs end
  | Some (sub, LBus bs es), Some (sub', LBus bs' es') => sub' = sub /\ es' = es /\
      bs' = match t_place t with PBus b _ => if decide (vl = t_vl t) then alter (fun l => l ++ [t_id t]) b bs else bs | _ => bs end
  | _, _ => False
  end.
Proof.
  unfold put_at. destruct (decide (vl = t_vl t)) as [->|Hne].
  - destruct (n_levels nt !! t_vl t) as [[sub [vs es|bs es]]|] eqn:E; cbn [fst snd].
    + destruct (t_place t); [cbn [with_level n_levels]; by rewrite lookup_insert|by rewrite E].
    + destruct (t_place t); [by rewrite E|cbn [with_level n_levels]; by rewrite lookup_insert].
    + by rewrite E.
  - assert (n_levels (put_at nt t) !! vl = n_levels nt !! vl) as HE.
    { unfold put_at. destruct (n_levels nt !! t_vl t) as [[sub [vs es|bs es]]|]; [destruct (t_place t)..|]; try done; cbn [with_level n_levels]; by rewrite lookup_insert_ne. }
    unfold put_at in HE. rewrite HE. destruct (n_levels nt !! vl) as [[sub [vs es|bs es]]|]; [by destruct (t_place t)..|done].
Qed.
Lemma put_at_suits nt t vl p : suits (put_at nt t) vl p <-> suits nt vl p.
Proof.
  pose proof (put_at_level nt t vl) as H. destruct p as [n'|b' c']; cbn [suits]; unfold node_level, bus_of;
  destruct (n_levels nt !! vl) as [[sub [vs es|bs es]]|], (n_levels (put_at nt t) !! vl) as [[sub' [vs' es'|bs' es']]|]; try done; try naive_solver.
  destruct H as (-> & -> & ->). split; intros (? & ? & ? & [= <- <- <-] & Hs); do 3 eexists; (split; [reflexivity|]); revert Hs;
    (destruct (t_place t); [done|]; destruct (decide (vl = t_vl t)); [|done]; by rewrite lookup_alter_is_Some).
Qed.
Lemma put_at_in_level nt t vl sub : in_level (put_at nt t) vl sub <-> in_level nt vl sub.
Proof.
  pose proof (put_at_level nt t vl) as H. unfold in_level.
  destruct (n_levels nt !! vl) as [[sub0 [vs es|bs es]]|], (n_levels (put_at nt t) !! vl) as [[sub' [vs' es'|bs' es']]|]; try done; naive_solver.
Qed.
Lemma put_at_bus_of nt t vl b : bus_of (put_at nt t) vl b <-> bus_of nt vl b.
Proof. apply (put_at_suits nt t vl (PBus b true)). Qed.
Lemma put_at_place nt t vl p a : suits nt (t_vl t) (t_place t) -> free nt (t_vl t) (t_place t) ->
  at_place (put_at nt t) vl p a <-> at_place nt vl p a \/ (t_id t = a /\ t_vl t = vl /\ same_place (t_place t) p).
Proof.
  intros HS HF. pose proof (put_at_level nt t vl) as H. destruct p as [n'|b' c']; cbn [at_place]; unfold holds, on_bus;
  destruct (n_levels nt !! vl) as [[sub [vs es|bs es]]|] eqn:E, (n_levels (put_at nt t) !! vl) as [[sub' [vs' es'|bs' es']]|]; try done.
  - destruct H as (-> & -> & ->). destruct (t_place t) as [n|b c]; cbn [same_place]; [|naive_solver].
    destruct (decide (vl = t_vl t)) as [->|Hne]; [|naive_solver]. split.
    + intros (? & ? & ? & [= <- <- <-] & Hn). apply lookup_insert_Some in Hn as [[-> [= ->]]|[? Hn]]; [by right|left; eauto 10].
    + intros [(? & ? & ? & [= <- <- <-] & Hn)|(<- & _ & ->)].
      * do 3 eexists. split; [reflexivity|]. rewrite lookup_insert_ne; [done|]. intros ->. apply (HF a). exists sub, vs, es. done.
      * do 3 eexists. split; [reflexivity|]. by rewrite lookup_insert.
  - split; [naive_solver|]. intros [(? & ? & ? & ? & _)|(_ & <- & HP)]; [done|]. destruct (t_place t) as [n|b c]; [|done]. destruct HS as (? & ? & ? & ?). congruence.
  - split; [naive_solver|]. intros [(? & ? & ? & ? & _)|(_ & <- & HP)]; [done|]. destruct (t_place t) as [n|b c]; [|done]. destruct HS as (? & ? & ? & ?). congruence.
  - split; [naive_solver|]. intros [(? & ? & ? & ? & ? & _)|(_ & <- & HP)]; [done|]. destruct (t_place t) as [n|b c]; [done|]. destruct HS as (? & ? & ? & ? & _). congruence.
  - destruct H as (-> & -> & ->). destruct (t_place t) as [n|b c]; cbn [same_place]; [naive_solver|].
    destruct (decide (vl = t_vl t)) as [->|Hne]; [|naive_solver]. split.
    + intros (? & ? & ? & l & [= <- <- <-] & Hb & Ha). destruct (decide (b = b')) as [->|Hn].
      * rewrite lookup_alter in Hb. apply fmap_Some in Hb as (l0 & Hb & ->). apply elem_of_app in Ha as [Ha|Ha]; [left; eauto 10|]. apply elem_of_list_singleton in Ha as ->. by right.
      * rewrite lookup_alter_ne in Hb by done. left; eauto 10.
    + intros [(? & ? & ? & l & [= <- <- <-] & Hb & Ha)|(<- & _ & ->)].
      * destruct (decide (b = b')) as [->|Hn].
        -- do 4 eexists. split; [reflexivity|]. rewrite lookup_alter, Hb. split; [reflexivity|]. apply elem_of_app. by left.
        -- do 4 eexists. split; [reflexivity|]. rewrite lookup_alter_ne by done. by split.
      * cbn [suits] in HS. destruct HS as (? & ? & ? & HE & [l Hl]). rewrite E in HE. injection HE as <- <- <-.
        do 4 eexists. split; [reflexivity|]. rewrite lookup_alter, Hl. split; [reflexivity|]. apply elem_of_app. right. by left.
  - split; [naive_solver|]. intros [(? & ? & ? & ? & ? & _)|(_ & <- & HP)]; [done|]. destruct (t_place t) as [n|b c]; [done|]. destruct HS as (? & ? & ? & ? & _). congruence.
Qed.
Lemma put_at_free nt t vl p : suits nt (t_vl t) (t_place t) -> free nt (t_vl t) (t_place t) ->
  free (put_at nt t) vl p <-> free nt vl p /\ ~ (exists n, node_of (vl, p) = Some n /\ node_of (t_vl t, t_place t) = Some n).
Proof.
  intros HS HF. destruct p as [n|b c]; cbn [free]; [|split; [|done]; intros _; split; [done|]; unfold node_of; cbn [snd]; by intros (? & ? & _)].
  pose proof (fun a => put_at_place nt t vl (PNode n) a HS HF) as H. cbn [at_place] in H. setoid_rewrite H. unfold node_of. cbn [fst snd]. split.
  - intros HH. split; [intros a Ha; apply (HH a); by left|]. intros (k & [= <-] & Hk). destruct (t_place t) as [n'|b c] eqn:Et; [|done]. injection Hk as Hk1 Hk2.
    apply (HH (t_id t)). right. by subst.
  - intros [H1 H2] a [Ha|(_ & <- & HP)]; [by apply (H1 a)|]. apply H2. destruct (t_place t) as [n'|b c]; [|done]. cbn in HP. subst. eauto.
Qed.

(** ** attach of several terminals *)
Definition puts (nt : net) (ts : list terminal) : net := foldl put_at nt ts.
Definition where_ (ts : list terminal) : list (string * place) := (fun t => (t_vl t, t_place t)) <$> ts.
Definition fit (nt : net) (t : terminal) : Prop := suits nt (t_vl t) (t_place t) /\ free nt (t_vl t) (t_place t).
Lemma distinct_cons x ps : distinct_nodes (x :: ps) <-> distinct_nodes ps /\ forall y n, y ∈ ps -> node_of x = Some n -> node_of y <> Some n.
Proof.
  unfold distinct_nodes. cbn [omap list_omap]. destruct (node_of x) as [n|] eqn:E.
  - rewrite NoDup_cons, elem_of_list_omap. split.
    + intros [H1 H2]. split; [done|]. intros y n' Hy [= <-] Hn. apply H1. eauto.
    + intros [H1 H2]. split; [|done]. intros (y & Hy & Hn). by apply (H2 y n).
  - split; [|tauto]. intros H. split; [done|]. intros y n Hy [=].
Qed.
Lemma fit_put nt t t' : fit nt t -> fit (put_at nt t) t' <-> fit nt t' /\ ~ (exists n, node_of (t_vl t', t_place t') = Some n /\ node_of (t_vl t, t_place t) = Some n).
Proof. intros [H1 H2]. unfold fit. rewrite put_at_suits, put_at_free by done. tauto. Qed.
Lemma attach_all_iff ts nt nt' : attach_all ts nt = (Ok tt, nt') <->
  (ts <> [] -> n_work nt = true) /\ Forall (fit nt) ts /\ distinct_nodes (where_ ts) /\ nt' = puts nt ts.
Proof.
  revert nt. induction ts as [|t ts IH]; intros nt; cbn [attach_all].
  { unfold nret, puts. cbn. split; [intros [= <-]|intros (_ & _ & _ & ->); done]. split; [done|]. split; [constructor|]. split; [constructor|done]. }
  destruct (attach_cases t nt) as [(HS & HF & HW & E)|[(m & E & HN)|(m & n & E & HS & HF & HW & Ep)]].
  - rewrite (nbind_Ok _ _ _ _ _ E), IH. destruct (put_at_rest nt t) as (_ & _ & _ & ->). unfold where_. rewrite fmap_cons, distinct_cons, Forall_cons. cbn [puts foldl].
    assert (fit nt t) as Hf by done. split.
    + intros (_ & H2 & H3 & ->). split; [done|]. split.
      * split; [done|]. apply (Forall_impl _ _ _ H2). intros t' Ht'. by apply fit_put in Ht' as [? _].
      * split; [|done]. split; [done|]. intros y n (t' & -> & Ht')%elem_of_list_fmap Hn Hn'. rewrite Forall_forall in H2. apply H2 in Ht'. apply fit_put in Ht' as [_ Hx]; [|done]. apply Hx. eauto.
    + intros (_ & (_ & H2) & (H3 & H4) & ->). split; [done|]. split; [|done]. rewrite Forall_forall in H2 |- *. intros t' Ht'. apply fit_put; [done|]. split; [by apply H2|].
      intros (n & Hn & Hn'). apply (H4 (t_vl t', t_place t') n); [|done|done]. apply elem_of_list_fmap. eauto.
  - rewrite (nbind_Throw _ _ _ _ _ E). split; [discriminate|]. intros (HW & HF & _). apply Forall_cons in HF as [[H1 H2] _]. destruct HN. split; [done|]. split; [done|]. by apply HW.
  - rewrite (nbind_Throw _ _ _ _ _ E). split; [discriminate|]. intros (HW' & _). rewrite HW' in HW by done. discriminate HW.
Qed.
Lemma puts_rest nt ts : n_eqs (puts nt ts) = n_eqs nt /\ n_ids (puts nt ts) = n_ids nt /\ n_next (puts nt ts) = n_next nt /\ n_work (puts nt ts) = n_work nt.
Proof.
  revert nt. induction ts as [|t ts IH]; intros nt; [done|]. change (puts nt (t :: ts)) with (puts (put_at nt t) ts). destruct (IH (put_at nt t)) as (-> & -> & -> & ->). apply put_at_rest.
Qed.
Lemma puts_level nt ts vl sub : in_level (puts nt ts) vl sub <-> in_level nt vl sub.
Proof. revert nt. induction ts as [|t ts IH]; intros nt; [done|]. change (puts nt (t :: ts)) with (puts (put_at nt t) ts). rewrite IH. apply put_at_in_level. Qed.
Lemma puts_bus nt ts vl b : bus_of (puts nt ts) vl b <-> bus_of nt vl b.
Proof. revert nt. induction ts as [|t ts IH]; intros nt; [done|]. change (puts nt (t :: ts)) with (puts (put_at nt t) ts). rewrite IH. apply put_at_bus_of. Qed.
Lemma puts_place nt ts vl p a : Forall (fit nt) ts -> distinct_nodes (where_ ts) ->
  at_place (puts nt ts) vl p a <-> at_place nt vl p a \/ exists t, t ∈ ts /\ t_id t = a /\ t_vl t = vl /\ same_place (t_place t) p.
Proof.
  revert nt. induction ts as [|t ts IH]; intros nt HF HD; cbn [puts foldl].
  { split; [by left|]. intros [H|(t & Ht & _)]; [done|]. by apply elem_of_nil in Ht. }
  apply Forall_cons in HF as [Hf HF]. unfold where_ in HD. rewrite fmap_cons, distinct_cons in HD. destruct HD as [HD HN].
  fold (puts (put_at nt t) ts). rewrite IH; [|rewrite Forall_forall in HF |- *; intros t' Ht'; apply fit_put; [done|]; split; [by apply HF|]|done].
  - rewrite put_at_place by apply Hf. setoid_rewrite elem_of_cons. split.
    + intros [[H|H]|(t' & H & H')]; [by left|right; exists t; tauto|right; exists t'; tauto].
    + intros [H|(t' & [->|H] & H')]; [tauto|tauto|]. right. exists t'. tauto.
  - intros (n & Hn & Hn'). apply (HN (t_vl t', t_place t') n); [|done|done]. apply elem_of_list_fmap. eauto.
Qed.

(** ** What any history keeps *)
Record ninv (nt : net) : Prop := {
  ni_owned : forall vl p a, at_place nt vl p a ->
    exists id ts k t, n_eqs nt !! id = Some ts /\ ts !! k = Some t /\ t_id t = a /\ t_vl t = vl /\ same_place (t_place t) p;
  ni_once : forall id1 ts1 k1 t1 id2 ts2 k2 t2, n_eqs nt !! id1 = Some ts1 -> ts1 !! k1 = Some t1 -> n_eqs nt !! id2 = Some ts2 -> ts2 !! k2 = Some t2 ->
    t_id t1 = t_id t2 -> id1 = id2 /\ k1 = k2;
  ni_next : forall id ts k t, n_eqs nt !! id = Some ts -> ts !! k = Some t -> t_id t < n_next nt;
  ni_bus : forall vl sub bs es, n_levels nt !! vl = Some (sub, LBus bs es) -> bs !! "" = None /\ forall b l, bs !! b = Some l -> NoDup l }.

Lemma ninv0 : ninv net0.
Proof.
  split.
  - intros vl [n|b c] a; cbn [at_place]; unfold holds, on_bus; cbn [n_levels net0]; [intros (? & ? & ? & H & _)|intros (? & ? & ? & ? & H & _)]; by rewrite lookup_empty in H.
  - intros id1 ts1 k1 t1 id2 ts2 k2 t2 H. cbn in H. by rewrite lookup_empty in H.
  - intros id ts k t H. cbn in H. by rewrite lookup_empty in H.
  - intros vl sub bs es H. cbn in H. by rewrite lookup_empty in H.
Qed.
Lemma same_place_trans p q r : same_place p q -> same_place p r -> same_place q r.
Proof. destruct p, q, r; cbn; congruence || done. Qed.
Lemma same_place_refl p : same_place p p.
Proof. by destruct p. Qed.
Lemma same_place_at nt vl p q a : same_place p q -> at_place nt vl p a <-> at_place nt vl q a.
Proof. destruct p, q; cbn; try done; by intros ->. Qed.
(** The invariant depends on the places and the equipments only. *)
Lemma ninv_same nt nt' : ninv nt -> n_eqs nt' = n_eqs nt -> n_next nt' = n_next nt -> (forall vl p a, at_place nt' vl p a -> at_place nt vl p a) ->
  (forall vl sub bs es, n_levels nt' !! vl = Some (sub, LBus bs es) -> bs !! "" = None /\ forall b l, bs !! b = Some l -> NoDup l) -> ninv nt'.
Proof.
  intros [H1 H2 H3 H4] E1 E2 HP HB. split.
  - intros vl p a Ha. rewrite E1. by apply H1, HP.
  - rewrite E1. apply H2.
  - rewrite E1, E2. apply H3.
  - apply HB.
Qed.
Lemma put_at_inv nt t id : ninv nt -> owns nt id t -> fit nt t -> (forall vl p, ~ at_place nt vl p (t_id t)) -> ninv (put_at nt t).
Proof.
  intros HI (ts & Hts & Ht) [HS HF] HN. destruct (put_at_rest nt t) as (E1 & _ & E3 & _). destruct HI as [H1 H2 H3 H4]. split.
  - intros vl p a Ha. rewrite E1. apply put_at_place in Ha as [Ha|(Ha & Hv & Hp)]; [by apply H1| |done|done].
    apply elem_of_list_lookup in Ht as [k Hk]. exists id, ts, k, t. done.
  - rewrite E1. apply H2.
  - rewrite E1, E3. apply H3.
  - intros vl sub bs' es' HE. pose proof (put_at_level nt t vl) as HL. rewrite HE in HL. destruct (n_levels nt !! vl) as [[sub0 [vs es|bs es]]|] eqn:E; [done| |done].
    destruct HL as (-> & -> & ->). destruct (H4 vl sub0 bs es E) as [Hn Hl]. destruct (t_place t) as [n|b c] eqn:Ep; [done|]. destruct (decide (vl = t_vl t)) as [->|]; [|done].
    split.
    + destruct (decide (b = "")) as [->|]; [|by rewrite lookup_alter_ne]. by rewrite lookup_alter, Hn.
    + intros b' l'. destruct (decide (b = b')) as [<-|]; [|rewrite lookup_alter_ne by done; apply Hl]. rewrite lookup_alter. intros (l & Hl' & ->)%fmap_Some.
      apply NoDup_app. split; [by apply (Hl b)|]. split; [|apply NoDup_singleton]. intros x Hx ->%elem_of_list_singleton. apply (HN (t_vl t) (PBus b c)). cbn. exists sub0, bs, es, l. done.
Qed.
Lemma attach_all_inv ts nt : ninv nt -> Forall (fun t => exists id, owns nt id t) ts -> NoDup (t_id <$> ts) -> (forall t vl p, t ∈ ts -> ~ at_place nt vl p (t_id t)) ->
  ninv (attach_all ts nt).2 /\ n_eqs (attach_all ts nt).2 = n_eqs nt /\ n_ids (attach_all ts nt).2 = n_ids nt /\ n_next (attach_all ts nt).2 = n_next nt /\ n_work (attach_all ts nt).2 = n_work nt.
Proof.
  revert nt. induction ts as [|t ts IH]; intros nt HI HO HD HN; cbn [attach_all]; [done|].
  apply Forall_cons in HO as [[id Ho] HO]. rewrite fmap_cons, NoDup_cons in HD. destruct HD as [HD1 HD2]. destruct (put_at_rest nt t) as (E1 & E2 & E3 & E4).
  assert (fit nt t -> ninv (put_at nt t)) as HI'. { intros Hf. apply (put_at_inv nt t id HI Ho Hf). intros vl p. apply HN. by left. }
  destruct (attach_cases t nt) as [(HS & HF & HW & E)|[(m & E & HNE)|(m & n & E & HS & HF & HW & Ep)]].
  - rewrite (nbind_Ok _ _ _ _ _ E). destruct (IH (put_at nt t)) as (I1 & I2 & I3 & I4 & I5).
    + by apply HI'.
    + apply (Forall_impl _ _ _ HO). intros t' [id' Ho']. exists id'. unfold owns. by rewrite E1.
    + done.
    + intros t' vl p Ht' Ha. apply put_at_place in Ha as [Ha|(Ha & _)]; [|apply HD1, elem_of_list_fmap; eauto|done|done]. apply (HN t' vl p); [by right|done].
    + by rewrite I2, I3, I4, I5.
  - by rewrite (nbind_Throw _ _ _ _ _ E).
  - rewrite (nbind_Throw _ _ _ _ _ E). split; [by apply HI'|done].
Qed.
(** checkAndAdd and addTerminal. *)
Definition news (nt : net) (ps : list (string * place)) : list terminal := imap (fun k x => mkT (n_next nt + k) x.1 x.2) ps.
Lemma put_eq_eq id ps nt : put_eq id ps nt = (Ok (news nt ps), with_eq nt id (news nt ps) (length ps)).
Proof. done. Qed.
Lemma news_lookup nt ps k t : news nt ps !! k = Some t <-> exists x, ps !! k = Some x /\ t = mkT (n_next nt + k) x.1 x.2.
Proof. unfold news. rewrite list_lookup_imap. rewrite fmap_Some. done. Qed.
Lemma where_news nt ps : where_ (news nt ps) = ps.
Proof.
  apply list_eq. intros k. unfold where_. rewrite list_lookup_fmap. unfold news. rewrite list_lookup_imap. destruct (ps !! k) as [[vl p]|]; done.
Qed.
Lemma news_ids nt ps : NoDup (t_id <$> news nt ps).
Proof.
  apply NoDup_alt. intros i j a Hi Hj. rewrite list_lookup_fmap in Hi, Hj. apply fmap_Some in Hi as (t & Hi & ->). apply fmap_Some in Hj as (t' & Hj & E).
  apply news_lookup in Hi as (x & _ & ->). apply news_lookup in Hj as (y & _ & ->). cbn in E. lia.
Qed.
Lemma with_eq_at nt id ts k vl p a : at_place (with_eq nt id ts k) vl p a <-> at_place nt vl p a.
Proof. by destruct p. Qed.
Lemma put_eq_inv nt id ps : ninv nt -> n_eqs nt !! id = None \/ n_eqs nt !! id = Some [] -> ninv (with_eq nt id (news nt ps) (length ps)).
Proof.
  intros [H1 H2 H3 H4] Hid. split; cbn [n_eqs n_next n_levels with_eq].
  - intros vl p a Ha. rewrite with_eq_at in Ha. destruct (H1 vl p a Ha) as (id' & ts & k & t & Hi & Hk & Hr). exists id', ts, k, t. split; [|done].
    rewrite lookup_insert_ne; [done|]. intros <-. destruct Hid as [Hid|Hid]; rewrite Hid in Hi; [done|]. injection Hi as <-. by rewrite lookup_nil in Hk.
  - intros id1 ts1 k1 t1 id2 ts2 k2 t2 A1 B1 A2 B2 E.
    apply lookup_insert_Some in A1 as [[<- <-]|[N1 A1]], A2 as [[<- <-]|[N2 A2]].
    + apply news_lookup in B1 as (x & _ & ->). apply news_lookup in B2 as (y & _ & ->). cbn in E. split; [done|lia].
    + apply news_lookup in B1 as (x & _ & ->). pose proof (H3 _ _ _ _ A2 B2). cbn in E. lia.
    + apply news_lookup in B2 as (x & _ & ->). pose proof (H3 _ _ _ _ A1 B1). cbn in E. lia.
    + by apply (H2 id1 ts1 k1 t1 id2 ts2 k2 t2).
  - intros id' ts k t A B. apply lookup_insert_Some in A as [[<- <-]|[N1 A]].
    + apply news_lookup in B as (x & Hx & ->). cbn. apply lookup_lt_Some in Hx. lia.
    + pose proof (H3 _ _ _ _ A B). lia.
  - apply H4.
Qed.
Lemma news_fresh nt id ps t vl p : ninv nt -> t ∈ news nt ps -> ~ at_place (with_eq nt id (news nt ps) (length ps)) vl p (t_id t).
Proof.
  intros HI Ht Ha. rewrite with_eq_at in Ha. destruct (ni_owned nt HI vl p _ Ha) as (id' & ts & k & t' & Hi & Hk & E & _). pose proof (ni_next nt HI _ _ _ _ Hi Hk).
  apply elem_of_list_lookup in Ht as [j Hj]. apply news_lookup in Hj as (x & _ & ->). cbn in E. lia.
Qed.

(** ** Creations *)
Lemma build_iff s p : build s = Ok p <-> wants s p.
Proof.
  unfold build, wants, result_bind. destruct s as [vl n b c]; cbn [s_node s_bus s_cbus].
  destruct (bool_decide_reflect (b = "")) as [->|Hb].
  - destruct n as [n|]; destruct (bool_decide_reflect (c = "")) as [->|Hc]; cbn [negb].
    + split; [by intros [= <-]|]. destruct p as [m|d []]; naive_solver.
    + split; [done|]. destruct p as [m|d []]; naive_solver.
    + split; [done|]. destruct p as [m|d []]; naive_solver.
    + split; [by intros [= <-]|]. destruct p as [m|d []]; naive_solver.
  - destruct (bool_decide_reflect (c = "")) as [->|Hc]; cbn [negb andb].
    + rewrite bool_decide_eq_false_2 by done. destruct n as [n|].
      * split; [done|]. destruct p as [m|d []]; naive_solver.
      * cbn [negb]. split; [by intros [= <-]; auto|]. destruct p as [m|d []]; naive_solver.
    + destruct (bool_decide_reflect (b = c)) as [<-|Hbc]; cbn [negb andb].
      * rewrite bool_decide_eq_false_2 by done. destruct n as [n|].
        -- split; [done|]. destruct p as [m|d []]; naive_solver.
        -- cbn [negb]. split; [by intros [= <-]; auto|]. destruct p as [m|d []]; naive_solver.
      * split; [done|]. destruct p as [m|d []]; naive_solver.
Qed.
Lemma build_cases s : (exists p, build s = Ok p) \/ (exists m, build s = Throw m).
Proof.
  unfold build, result_bind. destruct (bool_decide (s_bus s = "")); [|destruct (negb (bool_decide (s_cbus s = "")) && negb (bool_decide (s_bus s = s_cbus s)))]; [|eauto|];
    destruct (s_node s); match goal with |- context [bool_decide ?P] => destruct (bool_decide P) end; eauto.
Qed.
Lemma wants_func s p q : wants s p -> wants s q -> p = q.
Proof. rewrite <- !build_iff. congruence. Qed.
Lemma want_all_func ss ps qs : want_all ss ps -> want_all ss qs -> ps = qs.
Proof.
  intros H. revert qs. induction H as [|s x ss ps [Hx Hw] H IH]; intros qs Hq; [by inversion Hq|].
  inversion Hq as [|? y ? qs' [Hy Hw'] Hq']; subst. f_equal; [|by apply IH]. destruct x, y; cbn in *. subst. f_equal. by apply (wants_func s).
Qed.
Lemma wants_bus s b c : wants s (PBus b c) -> b <> "".
Proof. destruct c; cbn; naive_solver. Qed.
Lemma check_id_iff id nt : (new_id nt id /\ check_id id nt = (Ok tt, nt)) \/ (~ new_id nt id /\ exists m, check_id id nt = (Throw m, nt)).
Proof.
  unfold check_id, nlift, new_id. destruct (bool_decide_reflect (id = "")) as [->|Hid]; [right; naive_solver|].
  destruct (bool_decide_reflect (id ∈ n_ids nt \/ is_Some (n_levels nt !! id) \/ is_Some (n_eqs nt !! id))) as [H|H].
  - right. split; [|eauto]. intros (_ & H1 & H2 & H3). rewrite H2, H3 in H. destruct H as [?|[[? ?]|[? ?]]]; done.
  - left. split; [|done]. split; [done|]. split; [tauto|]. rewrite !eq_None_not_Some. tauto.
Qed.
Lemma check_level_iff sub s nt : (in_substation nt sub s /\ check_level sub s nt = (Ok tt, nt)) \/ (~ in_substation nt sub s /\ exists m, check_level sub s nt = (Throw m, nt)).
Proof.
  unfold check_level, in_substation, in_level, nlevel, nlift, nbind, nret, nthrow. destruct (n_levels nt !! s_vl s) as [[k l]|] eqn:E; cbn [fst].
  - destruct sub as [k'|]; [destruct (bool_decide_reflect (k = k')) as [->|Hk]|]; [left|right|left]; naive_solver.
  - right. split; [|eauto]. naive_solver.
Qed.
Lemma each_iff {A} (f : A -> nact unit) (P : A -> Prop) l nt :
  (forall a, a ∈ l -> (P a /\ f a nt = (Ok tt, nt)) \/ (~ P a /\ exists m, f a nt = (Throw m, nt))) ->
  (Forall P l /\ each f l nt = (Ok tt, nt)) \/ (~ Forall P l /\ exists m, each f l nt = (Throw m, nt)).
Proof.
  intros H. induction l as [|a l IH]; cbn [each]; [left; split; [constructor|done]|].
  destruct (H a) as [[HP E]|[HP [m E]]]; [by left| |].
  - rewrite (nbind_Ok _ _ _ _ _ E), Forall_cons. destruct IH as [[? ->]|[? [m ->]]]; [intros b Hb; apply H; by right|left; tauto|right; split; [tauto|eauto]].
  - rewrite (nbind_Throw _ _ _ _ _ E), Forall_cons. right. split; [tauto|eauto].
Qed.
Lemma build_all_iff ss nt : (exists ps, want_all ss ps /\ build_all ss nt = (Ok ps, nt)) \/ ((~ exists ps, want_all ss ps) /\ exists m, build_all ss nt = (Throw m, nt)).
Proof.
  induction ss as [|s ss IH]; cbn [build_all]; [left; exists []; split; [constructor|done]|].
  destruct (build_cases s) as [[p Hp]|[m Hm]].
  - assert (nlift (fun _ => build s) nt = (Ok p, nt)) as E by (unfold nlift; by rewrite Hp). rewrite (nbind_Ok _ _ _ _ _ E).
    destruct IH as [(ps & Hw & E')|(Hn & m & E')].
    + left. exists ((s_vl s, p) :: ps). split; [constructor; [split; [done|by apply build_iff]|done]|]. by rewrite (nbind_Ok _ _ _ _ _ E').
    + right. split; [|rewrite (nbind_Throw _ _ _ _ _ E'); eauto]. intros [ps H]. inversion H; subst. eauto.
  - right. assert (nlift (fun _ => build s) nt = (Throw m, nt)) as E by (unfold nlift; by rewrite Hm). rewrite (nbind_Throw _ _ _ _ _ E). split; [|eauto].
    intros [ps H]. inversion H as [|? x ? ? [_ Hx]]; subst. apply build_iff in Hx. congruence.
Qed.
Definition tests (nt : net) (x : string * place) : Prop := suits nt x.1 x.2 /\ (n_work nt = true \/ exists n, x.2 = PNode n).
Lemma test_attach_iff nt x s : wants s x.2 -> (tests nt x /\ test_attach x nt = (Ok tt, nt)) \/ (~ tests nt x /\ exists m, test_attach x nt = (Throw m, nt)).
Proof.
  intros Hw. unfold test_attach, tests. destruct x as [vl p]. set (t := mkT 0 vl p). cbn [fst snd] in *.
  destruct (check_terminal t nt) as [r nt'] eqn:E. destruct (check_terminal_eq t nt) as [H1 H2]. destruct (H2 r nt' E) as [-> [->|[m ->]]].
  - left. split; [|done]. assert (suits nt vl p) as HS.
    { apply (test_ok_suits t nt); [| |done]; cbn; intros ->; by apply wants_bus in Hw. }
    split; [done|]. destruct p as [n|b c]; [eauto|]. left. destruct HS as (sub & bs & es & EL & _).
    unfold check_terminal, nbind, nlevel, nlift, nwork in E. cbn [t_vl t t_place snd] in E. rewrite EL in E. cbn in E. by destruct (n_work nt).
  - right. split; [|eauto]. intros [HS HW]. destruct p as [n|b c].
    + destruct HS as (sub & vs & es & EL). unfold check_terminal, nbind, nlevel, nlift in E. cbn [t_vl t t_place] in E. rewrite EL in E. done.
    + destruct HW as [HW|[n [=]]]. rewrite (H1 HS HW) in E. done.
Qed.
Lemma each_test_iff nt ss ps : want_all ss ps -> (Forall (tests nt) ps /\ each test_attach ps nt = (Ok tt, nt)) \/ (~ Forall (tests nt) ps /\ exists m, each test_attach ps nt = (Throw m, nt)).
Proof.
  intros Hw. apply each_iff. intros x Hx. apply elem_of_list_lookup in Hx as [k Hk]. destruct (Forall2_lookup_r _ _ _ _ _ Hw Hk) as (s & _ & _ & Hs). by apply (test_attach_iff nt x s).
Qed.
(** What a creation does: nothing; or the equipment stays without terminal; or it gets its terminals, to be attached. *)
Definition finish (id : string) (ps : list (string * place)) (nt : net) : result unit * net := attach_all (news nt ps) (with_eq nt id (news nt ps) (length ps)).
Lemma with_eq_twice nt id ts k : with_eq (with_eq nt id [] 0) id ts k = with_eq nt id ts k.
Proof. unfold with_eq. cbn [n_eqs n_levels n_ids n_next n_work]. by rewrite insert_insert. Qed.
Lemma tests_split nt ps : Forall (tests nt) ps <-> Forall (fun x => suits nt x.1 x.2) ps /\ (n_work nt = true \/ Forall (fun x => exists n, x.2 = PNode n) ps).
Proof.
  rewrite !Forall_forall. unfold tests. split.
  - intros H. split; [intros x Hx; by apply H|]. destruct (n_work nt); [by left|right]. intros x Hx. by destruct (H x Hx) as [_ [?|?]].
  - intros [H1 H2] x Hx. split; [by apply H1|]. destruct H2 as [?|H2]; [by left|right; by apply H2].
Qed.
Lemma creation o nt id sub ss : request o = Some (id, sub, ss) ->
  (~ enters o nt /\ (forall ps, want_all ss ps -> new_id nt id -> Forall (in_substation nt sub) ss -> Forall (fun x => suits nt x.1 x.2) ps -> n_work nt = false) /\ exists m, nstep o nt = (Throw m, nt)) \/
  (enters o nt /\ (exists s, o = OInjection id s) /\ (~ exists ps, want_all ss ps) /\ exists m, nstep o nt = (Throw m, with_eq nt id [] 0)) \/
  (enters o nt /\ exists ps, want_all ss ps /\ new_id nt id /\ Forall (in_substation nt sub) ss /\ nstep o nt = finish id ps nt).
Proof.
  destruct o as [| | | | | | | |id' s|id' s|id' vl node|sub' id' s1 s2|sub' id' s1 s2 s3|]; cbn [request]; intros [= <- <- <-]; cbn [nstep].
  - unfold add_injection. cbn [enters]. unfold in_level. destruct (n_levels nt !! s_vl s) as [[k l]|] eqn:EL.
    2:{ rewrite (nbind_Throw _ _ _ _ _ (nlevel_None _ _ EL)). left. split; [intros ((? & ? & ?) & _); congruence|]. split; [|eauto]. intros ps _ _ (k & (l & Hl) & _)%Forall_singleton. congruence. }
    rewrite (nbind_Ok _ _ _ _ _ (nlevel_Some _ _ _ EL)). destruct (check_id_iff id' nt) as [[Hid E]|[Hid [m E]]].
    2:{ rewrite (nbind_Throw _ _ _ _ _ E). left. split; [tauto|]. split; [done|eauto]. }
    rewrite (nbind_Ok _ _ _ _ _ E). rewrite (nbind_Ok _ _ _ _ _ (put_eq_eq _ _ _)). cbn [news imap length].
    right. destruct (build_cases s) as [[p Hp]|[m Hm]].
    + right. split; [eauto|]. exists [(s_vl s, p)]. split; [constructor; [split; [done|by apply build_iff]|constructor]|]. split; [done|].
      split; [constructor; [|constructor]; exists k; split; [by exists l|done]|].
      assert (forall nt', nlift (fun _ => build s) nt' = (Ok p, nt')) as E' by (intros nt'; unfold nlift; by rewrite Hp). rewrite (nbind_Ok _ _ _ _ _ (E' _)).
      rewrite (nbind_Ok _ _ _ _ _ (put_eq_eq _ _ _)). change (news nt []) with (@nil terminal). rewrite with_eq_twice. done.
    + left. split; [eauto|]. split; [eauto|]. assert (forall nt', nlift (fun _ => build s) nt' = (Throw m, nt')) as E' by (intros nt'; unfold nlift; by rewrite Hm).
      rewrite (nbind_Throw _ _ _ _ _ (E' _)). split; [|eauto]. intros [ps H]. inversion H as [|? x ? ? [_ Hx]]; subst. apply build_iff in Hx. congruence.
  - unfold add_regulated. cbn [enters]. unfold in_level. destruct (n_levels nt !! s_vl s) as [[k l]|] eqn:EL.
    2:{ rewrite (nbind_Throw _ _ _ _ _ (nlevel_None _ _ EL)). left. split; [intros ((? & ? & ?) & _); congruence|]. split; [|eauto]. intros ps _ _ (k & (l & Hl) & _)%Forall_singleton. congruence. }
    rewrite (nbind_Ok _ _ _ _ _ (nlevel_Some _ _ _ EL)). destruct (build_cases s) as [[p Hp]|[m Hm]].
    2:{ assert (nlift (fun _ => build s) nt = (Throw m, nt)) as E' by (unfold nlift; by rewrite Hm). rewrite (nbind_Throw _ _ _ _ _ E'). left. split; [|split; [|eauto]].
        - intros (_ & _ & p & Hp). apply build_iff in Hp. congruence.
        - intros ps H. inversion H as [|? x ? ? [_ Hx]]; subst. apply build_iff in Hx. congruence. }
    assert (nlift (fun _ => build s) nt = (Ok p, nt)) as E' by (unfold nlift; by rewrite Hp). rewrite (nbind_Ok _ _ _ _ _ E').
    destruct (check_id_iff id' nt) as [[Hid E]|[Hid [m E]]].
    2:{ rewrite (nbind_Throw _ _ _ _ _ E). left. split; [tauto|]. split; [done|eauto]. }
    rewrite (nbind_Ok _ _ _ _ _ E), (nbind_Ok _ _ _ _ _ (put_eq_eq _ _ _)). right. right. apply build_iff in Hp.
    split; [eauto 10|]. exists [(s_vl s, p)]. split; [constructor; [done|constructor]|]. split; [done|].
    split; [constructor; [|constructor]; exists k; split; [by exists l|done]|done].
  - unfold add_busbar. cbn [enters]. destruct (n_levels nt !! vl) as [[k l]|] eqn:EL.
    2:{ rewrite (nbind_Throw _ _ _ _ _ (nlevel_None _ _ EL)). left. split; [|split; [|eauto]].
        - intros (ps & (id & sub & ss & [= <- <- <-] & _ & H & _) & _). apply Forall_singleton in H as (k & (l & Hl) & _). cbn in Hl. congruence.
        - intros ps _ _ (k & (l & Hl) & _)%Forall_singleton. cbn in Hl. congruence. }
    assert (forall ps, want_all [mkSide vl node "" ""] ps -> exists n, node = Some n /\ ps = [(vl, PNode n)]) as HW.
    { intros ps H. inversion H as [|? [vl' p] ? ? [H1 H2] H3]; subst. inversion H3; subst. cbn in H1. subst vl'. destruct p as [n|b c]; cbn in H2.
      - exists n. split; [apply H2|done].
      - destruct c; naive_solver. }
    rewrite (nbind_Ok _ _ _ _ _ (nlevel_Some _ _ _ EL)). cbn [snd]. destruct l as [vs es|bs es].
    2:{ left. split; [|split; [|eauto]].
        - intros (ps & (id & sub & ss & [= <- <- <-] & _ & _ & H & HS) & _). destruct (HW ps H) as (n & -> & ->). apply Forall_singleton in HS as (? & ? & ? & ?). cbn in *. congruence.
        - intros ps H _ _ HS. destruct (HW ps H) as (n & -> & ->). apply Forall_singleton in HS as (? & ? & ? & ?). cbn in *. congruence. }
    destruct node as [n|].
    2:{ left. split; [|split; [|eauto]].
        - intros (ps & (id & sub & ss & [= <- <- <-] & _ & _ & H & HS) & _). destruct (HW ps H) as (n & ? & _). done.
        - intros ps H _ _ HS. destruct (HW ps H) as (n & ? & _). done. }
    destruct (check_id_iff id' nt) as [[Hid E]|[Hid [m E]]].
    2:{ rewrite (nbind_Throw _ _ _ _ _ E). left. split; [|split; [done|eauto]]. intros (ps & (id & sub & ss & [= <- <- <-] & ? & _) & _). done. }
    rewrite (nbind_Ok _ _ _ _ _ E), (nbind_Ok _ _ _ _ _ (put_eq_eq _ _ _)). right. right.
    assert (want_all [mkSide vl (Some n) "" ""] [(vl, PNode n)]) as HWA by (constructor; [done|constructor]).
    assert (Forall (in_substation nt None) [mkSide vl (Some n) "" ""]) as HSub by (constructor; [exists k; split; [by eexists|done]|constructor]).
    split; [|exists [(vl, PNode n)]; done]. exists [(vl, PNode n)]. split; [|right; constructor; [eauto|constructor]].
    eexists _, _, _. split; [done|]. split; [done|]. split; [done|]. split; [done|]. constructor; [|constructor]. cbn. exists k, vs, es. done.
  - unfold add_branch. cbn [enters].
    destruct (each_iff (check_level sub') (in_substation nt sub') [s1; s2] nt (fun s _ => check_level_iff sub' s nt)) as [[HSub E]|[HSub [m E]]].
    2:{ rewrite (nbind_Throw _ _ _ _ _ E). left. split; [|split; [done|eauto]]. intros (ps & (id & sub & ss & [= <- <- <-] & _ & ? & _) & _). done. }
    rewrite (nbind_Ok _ _ _ _ _ E). destruct (build_all_iff [s1; s2] nt) as [(ps & Hw & E1)|(Hw & m & E1)].
    2:{ rewrite (nbind_Throw _ _ _ _ _ E1). left. split; [|split; [intros ps ?; destruct Hw; by exists ps|eauto]]. intros (ps & (id & sub & ss & [= <- <- <-] & _ & _ & ? & _) & _). destruct Hw; by exists ps. }
    rewrite (nbind_Ok _ _ _ _ _ E1). destruct (each_test_iff nt _ _ Hw) as [[HT E2]|[HT [m E2]]].
    2:{ rewrite (nbind_Throw _ _ _ _ _ E2). left. rewrite tests_split in HT. split; [|split; [|eauto]].
        - intros (ps' & (id & sub & ss & [= <- <- <-] & _ & _ & Hw' & HS) & HW). assert (ps' = ps) as -> by by apply (want_all_func [s1; s2]). tauto.
        - intros ps' Hw' _ _ HS. assert (ps' = ps) as -> by by apply (want_all_func [s1; s2]). destruct (n_work nt); [|done]. tauto. }
    rewrite (nbind_Ok _ _ _ _ _ E2). destruct (check_id_iff id' nt) as [[Hid E3]|[Hid [m E3]]].
    2:{ rewrite (nbind_Throw _ _ _ _ _ E3). left. split; [|split; [done|eauto]]. intros (ps' & (id & sub & ss & [= <- <- <-] & ? & _) & _). done. }
    rewrite (nbind_Ok _ _ _ _ _ E3), (nbind_Ok _ _ _ _ _ (put_eq_eq _ _ _)). right. right. apply tests_split in HT as [HS HW].
    split; [|exists ps; done]. exists ps. split; [|done]. eexists _, _, _. split; [done|]. done.
  - unfold add_three. cbn [enters].
    assert (forall {B} (f : list (string * place) -> nact B) r, (don! p1 := check_leg sub' s1 in don! p2 := check_leg sub' s2 in don! p3 := check_leg sub' s3 in f [p1; p2; p3]) nt = r ->
      (exists ps, Forall (in_substation nt (Some sub')) [s1; s2; s3] /\ want_all [s1; s2; s3] ps /\ r = f ps nt) \/
      (~ (Forall (in_substation nt (Some sub')) [s1; s2; s3] /\ exists ps, want_all [s1; s2; s3] ps) /\ exists m, r = (Throw m, nt))) as HL.
    { intros B f r <-. assert (forall s, (exists p, in_substation nt (Some sub') s /\ wants s p /\ check_leg sub' s nt = (Ok (s_vl s, p), nt)) \/
        (~ (in_substation nt (Some sub') s /\ exists p, wants s p) /\ exists m, check_leg sub' s nt = (Throw m, nt))) as HK.
      { intros s. unfold check_leg. destruct (check_level_iff (Some sub') s nt) as [[HSub E]|[HSub [m E]]]; [|right; rewrite (nbind_Throw _ _ _ _ _ E); split; [tauto|eauto]].
        rewrite (nbind_Ok _ _ _ _ _ E). destruct (build_cases s) as [[p Hp]|[m Hm]].
        - assert (nlift (fun _ => build s) nt = (Ok p, nt)) as E' by (unfold nlift; by rewrite Hp). rewrite (nbind_Ok _ _ _ _ _ E'). left. exists p. split; [done|]. split; [by apply build_iff|done].
        - assert (nlift (fun _ => build s) nt = (Throw m, nt)) as E' by (unfold nlift; by rewrite Hm). rewrite (nbind_Throw _ _ _ _ _ E'). right. split; [|eauto]. intros [_ [p Hp]]. apply build_iff in Hp. congruence. }
      assert (forall ps, want_all [s1; s2; s3] ps -> (exists p, wants s1 p) /\ (exists p, wants s2 p) /\ exists p, wants s3 p) as HWX.
      { intros ps H. inversion H as [|? ? ? ? [_ ?] HH1]; subst. inversion HH1 as [|? ? ? ? [_ ?] HH2]; subst. inversion HH2 as [|? ? ? ? [_ ?] HH3]; subst.
        split; [by exists y.2|]. split; [by exists y0.2|by exists y1.2]. }
      destruct (HK s1) as [(p1 & A1 & B1 & E1)|(N1 & m & E1)]; [rewrite (nbind_Ok _ _ _ _ _ E1)|rewrite (nbind_Throw _ _ _ _ _ E1)].
      2:{ right. split; [|eauto]. rewrite !Forall_cons. intros [(? & ? & ? & _) [ps Hps]]. apply HWX in Hps. tauto. }
      destruct (HK s2) as [(p2 & A2 & B2 & E2)|(N2 & m & E2)]; [rewrite (nbind_Ok _ _ _ _ _ E2)|rewrite (nbind_Throw _ _ _ _ _ E2)].
      2:{ right. split; [|eauto]. rewrite !Forall_cons. intros [(? & ? & ? & _) [ps Hps]]. apply HWX in Hps. tauto. }
      destruct (HK s3) as [(p3 & A3 & B3 & E3)|(N3 & m & E3)]; [rewrite (nbind_Ok _ _ _ _ _ E3)|rewrite (nbind_Throw _ _ _ _ _ E3)].
      2:{ right. split; [|eauto]. rewrite !Forall_cons. intros [(? & ? & ? & _) [ps Hps]]. apply HWX in Hps. tauto. }
      left. exists [(s_vl s1, p1); (s_vl s2, p2); (s_vl s3, p3)]. split; [by repeat constructor|]. split; [|done]. repeat (constructor; [done|]). constructor. }
    match goal with |- context [nbind (check_leg sub' s1) ?F nt] => 
      specialize (HL unit (fun ps => each test_attach ps ;;n check_id id' ;;n don! ts := put_eq id' ps in attach_all ts) _ eq_refl) end.
    destruct HL as [(ps & HSub & Hw & E)|(HN & m & E)]; rewrite E.
    2:{ left. split; [|split; [|eauto]].
        - intros (ps' & (id & sub & ss & [= <- <- <-] & _ & ? & Hw' & HS) & HW). apply HN. eauto.
        - intros ps' Hw' _ ? HS. destruct HN. eauto. }
    destruct (each_test_iff nt _ _ Hw) as [[HT E2]|[HT [m E2]]].
    2:{ rewrite (nbind_Throw _ _ _ _ _ E2). left. rewrite tests_split in HT. split; [|split; [|eauto]].
        - intros (ps' & (id & sub & ss & [= <- <- <-] & _ & _ & Hw' & HS) & HW). assert (ps' = ps) as -> by by apply (want_all_func [s1; s2; s3]). tauto.
        - intros ps' Hw' _ _ HS. assert (ps' = ps) as -> by by apply (want_all_func [s1; s2; s3]). destruct (n_work nt); [|done]. tauto. }
    rewrite (nbind_Ok _ _ _ _ _ E2). destruct (check_id_iff id' nt) as [[Hid E3]|[Hid [m E3]]].
    2:{ rewrite (nbind_Throw _ _ _ _ _ E3). left. split; [|split; [done|eauto]]. intros (ps' & (id & sub & ss & [= <- <- <-] & ? & _) & _). done. }
    rewrite (nbind_Ok _ _ _ _ _ E3), (nbind_Ok _ _ _ _ _ (put_eq_eq _ _ _)). right. right. apply tests_split in HT as [HS HW].
    split; [|exists ps; done]. exists ps. split; [|done]. eexists _, _, _. split; [done|]. done.
Qed.
Lemma fit_news nt id ps : Forall (fit (with_eq nt id (news nt ps) (length ps))) (news nt ps) <-> Forall (fun x => suits nt x.1 x.2 /\ free nt x.1 x.2) ps.
Proof.
  rewrite <- (where_news nt ps) at 4. unfold where_. rewrite Forall_fmap. apply Forall_iff. intros t. unfold fit, compose. cbn [fst snd].
  by destruct (t_place t).
Qed.
Lemma finish_iff id ps nt nt' : ps <> [] -> finish id ps nt = (Ok tt, nt') <->
  n_work nt = true /\ Forall (fun x => suits nt x.1 x.2 /\ free nt x.1 x.2) ps /\ distinct_nodes ps /\ nt' = puts (with_eq nt id (news nt ps) (length ps)) (news nt ps).
Proof.
  intros Hne. unfold finish. rewrite attach_all_iff, fit_news, where_news. cbn [with_eq n_work]. assert (news nt ps <> []) as Hn.
  { intros E. apply Hne. rewrite <- (where_news nt ps), E. done. }
  tauto.
Qed.
Lemma finish_created id ps nt nt' : ninv nt -> ps <> [] -> finish id ps nt = (Ok tt, nt') -> created nt nt' id ps.
Proof.
  intros HI Hne H. apply finish_iff in H as (HW & HF & HD & ->); [|done]. set (nt1 := with_eq nt id (news nt ps) (length ps)).
  destruct (puts_rest nt1 (news nt ps)) as (E1 & E2 & E3 & E4).
  assert (Forall (fit nt1) (news nt ps)) as HF1 by by apply fit_news. assert (distinct_nodes (where_ (news nt ps))) as HD1 by by rewrite where_news.
  pose proof (fun vl p a => puts_place nt1 (news nt ps) vl p a HF1 HD1) as HP.
  split.
  - exists (news nt ps). rewrite E1. split; [done|]. split; [apply where_news|]. split; [|split; [apply news_ids|split]].
    + intros t Ht. unfold attached. apply HP. right. exists t. split; [done|]. split; [done|]. split; [done|]. apply same_place_refl.
    + intros t id' t' Ht (ts & Hi & Ht') E. apply elem_of_list_lookup in Ht' as [k Hk]. pose proof (ni_next nt HI _ _ _ _ Hi Hk).
      apply elem_of_list_lookup in Ht as [j Hj]. apply news_lookup in Hj as (x & _ & ->). cbn in E. lia.
    + intros vl p a. rewrite HP. unfold nt1. by rewrite with_eq_at.
  - by rewrite E2.
  - by rewrite E4.
  - intros vl sub. by rewrite puts_level.
  - intros vl b. by rewrite puts_bus.
Qed.
Lemma finish_inv id ps nt : ninv nt -> n_eqs nt !! id = None -> ninv (finish id ps nt).2 /\ n_eqs (finish id ps nt).2 = <[id := news nt ps]> (n_eqs nt) /\
  n_ids (finish id ps nt).2 = n_ids nt /\ n_work (finish id ps nt).2 = n_work nt.
Proof.
  intros HI Hid. unfold finish. destruct (attach_all_inv (news nt ps) (with_eq nt id (news nt ps) (length ps))) as (H1 & H2 & H3 & H4 & H5); [| | | |].
  - apply put_eq_inv; auto.
  - apply Forall_forall. intros t Ht. exists id, (news nt ps). cbn [with_eq n_eqs]. by rewrite lookup_insert.
  - apply news_ids.
  - intros t vl p Ht. by apply news_fresh.
  - split; [done|]. rewrite H2, H3, H5. done.
Qed.
Lemma finish_result id ps nt : (exists nt', finish id ps nt = (Ok tt, nt')) \/ exists m nt', finish id ps nt = (Throw m, nt').
Proof.
  unfold finish. generalize (news nt ps) at 1 3. intros ts. generalize (with_eq nt id (news nt ps) (length ps)). clear nt. induction ts as [|t ts IH]; intros nt; cbn [attach_all]; [left; by eexists|].
  destruct (attach_cases t nt) as [(HS & HF & HW & E)|[(m & E & HN)|(m & n & E & _)]]; [rewrite (nbind_Ok _ _ _ _ _ E); apply IH|right; rewrite (nbind_Throw _ _ _ _ _ E); eauto..].
Qed.

(** ** detach *)
Lemma erase_first_spec a l : match erase_first a l with
  | None => a ∉ l
  | Some l' => exists l1 l2, l = l1 ++ a :: l2 /\ l' = l1 ++ l2 /\ a ∉ l1
  end.
Proof.
  induction l as [|b l IH]; cbn [erase_first]; [apply not_elem_of_nil|]. destruct (Nat.eqb_spec a b) as [<-|Hne].
  - exists [], l. split; [done|]. split; [done|]. apply not_elem_of_nil.
  - destruct (erase_first a l) as [l'|]; cbn [fmap option_fmap option_map].
    + destruct IH as (l1 & l2 & -> & -> & Hn). exists (b :: l1), l2. split; [done|]. split; [done|]. by apply not_elem_of_cons.
    + by apply not_elem_of_cons.
Qed.
Lemma erase_first_elem a l l' : NoDup l -> erase_first a l = Some l' -> NoDup l' /\ forall x, x ∈ l' <-> x ∈ l /\ x <> a.
Proof.
  intros HN E. pose proof (erase_first_spec a l) as H. rewrite E in H. destruct H as (l1 & l2 & -> & -> & Hn).
  apply NoDup_app in HN as (N1 & N2 & N3). apply NoDup_cons in N3 as [N3 N4]. split.
  - apply NoDup_app. split; [done|]. split; [|done]. intros x Hx Hx2. apply (N2 x Hx). by right.
  - intros x. rewrite !elem_of_app, elem_of_cons. split.
    + intros [Hx|Hx]; [split; [by left|congruence]|]. split; [by right; right|]. intros ->. done.
    + intros [[Hx|[->|Hx]] Hne]; [by left|done|by right].
Qed.
Record detached (nt nt' : net) (id : string) (k : nat) (t : terminal) : Prop := {
  dt_eqs : exists ts ts', n_eqs nt !! id = Some ts /\ n_eqs nt' = <[id := ts']> (n_eqs nt) /\ t_id <$> ts' = t_id <$> ts /\ length ts' = length ts /\
    forall j, j <> k -> ts' !! j = ts !! j;
  dt_ids : n_ids nt' = n_ids nt;
  dt_next : n_next nt' = n_next nt;
  dt_work : n_work nt' = n_work nt;
  dt_sub : forall vl p a, at_place nt' vl p a -> at_place nt vl p a;
  dt_gone : forall vl p, ~ at_place nt' vl p (t_id t);
  dt_rest : attached nt t -> forall vl p a, at_place nt vl p a -> a <> t_id t -> at_place nt' vl p a;
  dt_level : forall vl sub, in_level nt' vl sub <-> in_level nt vl sub;
  dt_bus : forall vl b, bus_of nt' vl b <-> bus_of nt vl b }.
Lemma owner_place nt id ts k t vl p : ninv nt -> n_eqs nt !! id = Some ts -> ts !! k = Some t -> at_place nt vl p (t_id t) -> t_vl t = vl /\ same_place (t_place t) p.
Proof.
  intros HI Hi Hk Ha. destruct (ni_owned nt HI vl p _ Ha) as (id' & ts' & k' & t' & Hi' & Hk' & Hr & Hv & Hp).
  destruct (ni_once nt HI _ _ _ _ _ _ _ _ Hi Hk Hi' Hk' (eq_sym Hr)) as [<- <-]. rewrite Hi in Hi'. injection Hi' as <-. rewrite Hk in Hk'. injection Hk' as <-. done.
Qed.
Lemma detach_cases id k t nt ts : ninv nt -> n_eqs nt !! id = Some ts -> ts !! k = Some t ->
  (exists m, detach id k t nt = (Throw m, nt) /\ ~ (attached nt t /\ n_work nt = true)) \/
  (exists nt', detach id k t nt = (Ok tt, nt') /\ ninv nt' /\ detached nt nt' id k t).
Proof.
  intros HI Hi Hk. pose proof (owner_place nt id ts k t) as HO. unfold detach. destruct (n_levels nt !! t_vl t) as [[sub l]|] eqn:EL.
  2:{ left. rewrite (nbind_Throw _ _ _ _ _ (nlevel_None _ _ EL)). eexists. split; [done|]. unfold attached. destruct (t_place t); cbn [at_place].
      - intros [(? & ? & ? & ? & _) _]. congruence.
      - intros [(? & ? & ? & ? & ? & _) _]. congruence. }
  rewrite (nbind_Ok _ _ _ _ _ (nlevel_Some _ _ _ EL)). cbn [fst snd]. destruct l as [vs es|bs es]; destruct (t_place t) as [n|b c] eqn:Ep.
  - unfold nwork, nlift, nthrow, nput. destruct (n_work nt) eqn:EW; [|left; unfold nbind; rewrite EW; eexists; split; [done|]; by intros [_ ?]].
    unfold nbind. rewrite EW. destruct (vs !! n) as [o|] eqn:Ev.
    2:{ left. eexists. split; [done|]. unfold attached. rewrite Ep. intros [(? & ? & ? & H & Hn) _]. assert (vs = x0) as -> by congruence. congruence. }
    right. eexists. split; [done|]. set (nt' := with_level nt (t_vl t) sub (LNode (clean (<[n := None]> vs) es) es)).
    assert (forall vl p a, at_place nt' vl p a <-> at_place nt vl p a /\ ~ (vl = t_vl t /\ same_place (PNode n) p)) as HP.
    { intros vl p a. unfold nt'. destruct (decide (vl = t_vl t)) as [->|Hne].
      - destruct p as [n'|b' c']; cbn [at_place same_place]; unfold holds, on_bus; cbn [with_level n_levels]; rewrite lookup_insert, EL.
        + split.
          * intros (? & ? & ? & [= <- <- <-] & H). unfold clean in H. apply map_filter_lookup_Some in H as [H _]. apply lookup_insert_Some in H as [[_ [=]]|[H1 H2]]. split; [by eauto 10|]. by intros [_ ->].
          * intros [(? & ? & ? & [= <- <- <-] & H) HN]. do 3 eexists. split; [done|]. unfold clean. apply map_filter_lookup_Some. split; [|cbn; by left].
            rewrite lookup_insert_ne; [done|]. intros ->. by apply HN.
        + split; [by intros (? & ? & ? & ? & ? & _)|]. by intros [(? & ? & ? & ? & ? & _) _].
      - destruct p as [n'|b' c']; cbn [at_place same_place]; unfold holds, on_bus; cbn [with_level n_levels]; rewrite lookup_insert_ne by done; tauto. }
    assert (forall vl p, ~ at_place nt' vl p (t_id t)) as HG.
    { intros vl p Ha. apply HP in Ha as [Ha HN]. destruct (HO vl p HI Hi Hk Ha) as [Hv Hp]. apply HN. by split. }
    split; [|split].
    + apply (ninv_same nt); [done|done|done|intros vl p a Ha; by apply HP in Ha as [? _]|]. intros vl sub' bs' es'. unfold nt'. cbn [with_level n_levels].
      intros [[_ ?]|[_ H]]%lookup_insert_Some; [done|]. by apply (ni_bus nt HI vl sub' bs' es').
    + exists ts, ts. split; [done|]. split; [|done]. unfold nt'. cbn [with_level n_eqs]. by rewrite insert_id.
    + done.
    + done.
    + done.
    + intros vl p a Ha. by apply HP in Ha as [? _].
    + done.
    + intros Hat vl p a Ha Hne. apply HP. split; [done|]. intros [-> Hp]. unfold attached in Hat. rewrite Ep in Hat. destruct p as [n'|]; [|done]. cbn in Hp. subst n'. cbn [at_place] in Hat, Ha.
      destruct Hat as (? & ? & ? & H1 & H2), Ha as (? & ? & ? & H3 & H4). congruence.
    + intros vl sub'. unfold in_level, nt'. cbn [with_level n_levels]. destruct (decide (vl = t_vl t)) as [->|Hne]; [rewrite lookup_insert, EL; naive_solver|by rewrite lookup_insert_ne].
    + intros vl b'. unfold bus_of, nt'. cbn [with_level n_levels]. destruct (decide (vl = t_vl t)) as [->|Hne]; [rewrite lookup_insert, EL; naive_solver|by rewrite lookup_insert_ne].
  - left. eexists. split; [done|]. unfold attached. rewrite Ep. intros [(? & ? & ? & ? & ? & _) _]. congruence.
  - left. eexists. split; [done|]. unfold attached. rewrite Ep. intros [(? & ? & ? & ? & _) _]. congruence.
  - unfold nwork, nlift, nthrow, nput, set_place. destruct (n_work nt) eqn:EW; [|left; unfold nbind; rewrite EW; eexists; split; [done|]; by intros [_ ?]].
    unfold nbind. rewrite EW. destruct (bs !! b) as [l|] eqn:Eb.
    2:{ left. eexists. split; [done|]. unfold attached. rewrite Ep. intros [(? & ? & ? & ? & H & Hn & _) _]. assert (bs = x0) as -> by congruence. congruence. }
    destruct (ni_bus nt HI _ _ _ _ EL) as [Hempty HND]. pose proof (HND b l Eb) as HNl.
    destruct (erase_first (t_id t) l) as [l'|] eqn:Ee.
    2:{ left. eexists. split; [done|]. pose proof (erase_first_spec (t_id t) l) as H. rewrite Ee in H. unfold attached. rewrite Ep. intros [(? & ? & ? & l0 & H1 & H2 & H3) _].
        assert (bs = x0) as <- by congruence. assert (l0 = l) as -> by congruence. done. }
    destruct (erase_first_elem _ _ _ HNl Ee) as [HNl' Hl'].
    right. eexists. split; [done|]. cbn [with_level n_levels n_eqs n_ids n_next n_work].
    set (ts' := alter (fun t0 : terminal => mkT (t_id t0) (t_vl t0) (PBus "" c)) k ts).
    set (nt' := mkNet _ _ _ _ _).
    assert (n_eqs nt' = <[id := ts']> (n_eqs nt)) as HE.
    { unfold nt'. cbn [n_eqs]. symmetry. apply (alter_insert_eq (fun ts => alter (fun t0 : terminal => mkT (t_id t0) (t_vl t0) (PBus "" c)) k ts) id ts). done. }
    assert (n_levels nt' = <[t_vl t := (sub, LBus (<[b := l']> bs) es)]> (n_levels nt)) as HLv by done.
    assert (forall vl p a, at_place nt' vl p a <-> at_place nt vl p a /\ ~ (vl = t_vl t /\ same_place (PBus b c) p /\ a = t_id t)) as HP.
    { intros vl p a. destruct (decide (vl = t_vl t)) as [->|Hne].
      - destruct p as [n'|b' c']; cbn [at_place same_place]; unfold holds, on_bus; rewrite HLv, lookup_insert, EL.
        + split; [by intros (? & ? & ? & ? & _)|]. by intros [(? & ? & ? & ? & _) _].
        + split.
          * intros (? & ? & ? & l0 & [= <- <- <-] & H & Ha). apply lookup_insert_Some in H as [[<- <-]|[H1 H2]].
            -- apply Hl' in Ha as [Ha Hne]. split; [by eauto 10|]. tauto.
            -- split; [by eauto 10|]. intros (_ & ? & _). done.
          * intros [(? & ? & ? & l0 & [= <- <- <-] & H & Ha) HN]. destruct (decide (b = b')) as [<-|Hb].
            -- rewrite Eb in H. injection H as <-. do 4 eexists. split; [done|]. rewrite lookup_insert. split; [done|]. apply Hl'. split; [done|]. intros ->. by apply HN.
            -- do 4 eexists. split; [done|]. rewrite lookup_insert_ne by done. done.
      - destruct p as [n'|b' c']; cbn [at_place same_place]; unfold holds, on_bus; rewrite HLv, lookup_insert_ne by done; tauto. }
    assert (forall vl p, ~ at_place nt' vl p (t_id t)) as HG.
    { intros vl p Ha. apply HP in Ha as [Ha HN]. destruct (HO vl p HI Hi Hk Ha) as [Hv Hp]. apply HN. by split. }
    assert (forall j t0, ts' !! j = Some t0 -> exists t1, ts !! j = Some t1 /\ t_id t0 = t_id t1 /\ t_vl t0 = t_vl t1 /\ (j <> k -> t0 = t1)) as HTs.
    { intros j t0. unfold ts'. destruct (decide (j = k)) as [->|Hne].
      - rewrite list_lookup_alter, Hk. intros [= <-]. exists t. done.
      - rewrite list_lookup_alter_ne by done. intros H. exists t0. done. }
    split; [|split].
    + split.
      * intros vl p a Ha. assert (a <> t_id t) as Hat by (intros ->; by apply (HG vl p)). apply HP in Ha as [Ha _]. destruct (ni_owned nt HI vl p a Ha) as (id0 & ts0 & k0 & t0 & H1 & H2 & H3 & H4 & H5).
        rewrite HE. destruct (decide (id0 = id)) as [->|Hne].
        -- rewrite Hi in H1. injection H1 as <-. exists id, ts', k0, t0. rewrite lookup_insert. split; [done|]. split; [|done]. unfold ts'.
           rewrite list_lookup_alter_ne; [done|]. intros ->. congruence.
        -- exists id0, ts0, k0, t0. rewrite lookup_insert_ne by done. done.
      * assert (forall id0 ts0 j0 t0, n_eqs nt' !! id0 = Some ts0 -> ts0 !! j0 = Some t0 -> exists ts1 t1, n_eqs nt !! id0 = Some ts1 /\ ts1 !! j0 = Some t1 /\ t_id t0 = t_id t1) as HX.
        { intros id0 ts0 j0 t0 H1 H2. rewrite HE in H1. apply lookup_insert_Some in H1 as [[<- <-]|[_ H1]]; [|eauto].
          destruct (HTs j0 t0 H2) as (t1 & A & B & _). eauto. }
        intros id1 ts1 k1 t1 id2 ts2 k2 t2 A1 B1 A2 B2 E. destruct (HX _ _ _ _ A1 B1) as (ts1' & t1' & A1' & B1' & E1). destruct (HX _ _ _ _ A2 B2) as (ts2' & t2' & A2' & B2' & E2).
        apply (ni_once nt HI id1 ts1' k1 t1' id2 ts2' k2 t2'); congruence.
      * intros id0 ts0 j0 t0 H1 H2. change (n_next nt') with (n_next nt). rewrite HE in H1. apply lookup_insert_Some in H1 as [[<- <-]|[_ H1]].
        -- destruct (HTs j0 t0 H2) as (t1 & A & B & _). rewrite B. by apply (ni_next nt HI id ts j0 t1).
        -- by apply (ni_next nt HI id0 ts0 j0 t0).
      * intros vl sub' bs' es'. rewrite HLv. intros [[<- [= <- <- <-]]|[_ H]]%lookup_insert_Some; [|by apply (ni_bus nt HI vl sub' bs' es')]. split.
        -- rewrite lookup_insert_ne; [done|]. intros ->. congruence.
        -- intros b' l0 [[<- <-]|[_ H]]%lookup_insert_Some; [done|by apply (HND b')].
    + exists ts, ts'. split; [done|]. split; [done|]. split; [|split].
      * unfold ts'. apply list_eq. intros j. rewrite !list_lookup_fmap. destruct (decide (j = k)) as [->|Hne]; [rewrite list_lookup_alter; by destruct (ts !! k)|by rewrite list_lookup_alter_ne].
      * unfold ts'. by rewrite alter_length.
      * intros j Hj. unfold ts'. by rewrite list_lookup_alter_ne.
    + done.
    + done.
    + done.
    + intros vl p a Ha. by apply HP in Ha as [? _].
    + done.
    + intros Hat vl p a Ha Hne. apply HP. split; [done|]. intros (_ & _ & ?). done.
    + intros vl sub'. unfold in_level. rewrite HLv. destruct (decide (vl = t_vl t)) as [->|Hne]; [rewrite lookup_insert, EL; naive_solver|by rewrite lookup_insert_ne].
    + intros vl b'. unfold bus_of. rewrite HLv. destruct (decide (vl = t_vl t)) as [->|Hne]; [rewrite lookup_insert, EL|by rewrite lookup_insert_ne]. split.
      * intros (? & ? & ? & [= <- <- <-] & [l0 H]). apply lookup_insert_Some in H as [[<- _]|[_ H]]; do 3 eexists; (split; [done|]); [by rewrite Eb|by eexists].
      * intros (? & ? & ? & [= <- <- <-] & [l0 H]). do 3 eexists. split; [done|]. destruct (decide (b = b')) as [->|]; [by rewrite lookup_insert|rewrite lookup_insert_ne by done; by eexists].
Qed.
Lemma detach_all_cases id ts : forall k nt ts0, ninv nt -> n_eqs nt !! id = Some ts0 -> (forall j t, ts !! j = Some t -> ts0 !! (k + j) = Some t) ->
  (exists m nt', detach_all id k ts nt = (Throw m, nt') /\ ninv nt' /\ ~ (Forall (attached nt) ts /\ n_work nt = true) /\
    (Forall (attached nt) ts -> nt' = nt) /\ n_ids nt' = n_ids nt /\ (forall vl b, bus_of nt' vl b <-> bus_of nt vl b)) \/
  (exists nt', detach_all id k ts nt = (Ok tt, nt') /\ ninv nt' /\ (exists ts', n_eqs nt' = <[id := ts']> (n_eqs nt) /\ t_id <$> ts' = t_id <$> ts0) /\
    n_ids nt' = n_ids nt /\ n_next nt' = n_next nt /\ n_work nt' = n_work nt /\ (forall vl p a, at_place nt' vl p a -> at_place nt vl p a) /\
    (forall t vl p, t ∈ ts -> ~ at_place nt' vl p (t_id t)) /\
    (Forall (attached nt) ts -> forall vl p a, at_place nt vl p a -> a ∉ t_id <$> ts -> at_place nt' vl p a) /\
    (forall vl sub, in_level nt' vl sub <-> in_level nt vl sub) /\ (forall vl b, bus_of nt' vl b <-> bus_of nt vl b)).
Proof.
  induction ts as [|t ts IH]; intros k nt ts0 HI Hi Hts; cbn [detach_all].
  { right. exists nt. split; [done|]. split; [done|]. split; [exists ts0; by rewrite insert_id|]. split; [done|]. split; [done|]. split; [done|]. split; [done|].
    split; [intros t vl p Ht; by apply elem_of_nil in Ht|]. done. }
  assert (ts0 !! k = Some t) as Hk by (rewrite <- (Nat.add_0_r k); by apply Hts).
  destruct (detach_cases id k t nt ts0 HI Hi Hk) as [(m & E & HN)|(nt1 & E & HI1 & HD)].
  { left. exists m, nt. rewrite (nbind_Throw _ _ _ _ _ E), Forall_cons. split; [done|]. split; [done|]. tauto. }
  rewrite (nbind_Ok _ _ _ _ _ E). destruct HD as [(ts0' & ts1 & Hi' & He & Hids & Hlen & Hrest) H1 H2 H3 H4 H5 H6 H7 H8]. rewrite Hi in Hi'. injection Hi' as <-.
  assert (forall t', t' ∈ ts -> t_id t' <> t_id t) as Hne.
  { intros t' [j Hj]%elem_of_list_lookup Ee. pose proof (Hts (S j) t' Hj) as Hj'. destruct (ni_once nt HI id ts0 (k + S j) t' id ts0 k t Hi Hj' Hi Hk Ee) as [_ ?]. lia. }
  assert (Forall (attached nt) (t :: ts) -> Forall (attached nt1) ts) as HA.
  { rewrite Forall_cons, !Forall_forall. intros [Ha Hb] t' Ht'. unfold attached. apply H6; [done|by apply Hb|by apply Hne]. }
  destruct (IH (S k) nt1 ts1 HI1) as [(m & nt' & E' & HI' & HN & HU & Hid' & Hbus)|(nt' & E' & HI' & (ts' & He' & Hids') & I1 & I2 & I3 & I4 & I5 & I6 & I7 & I8)].
  { by rewrite He, lookup_insert. }
  { intros j t' Hj. rewrite Hrest by lia. rewrite Nat.add_succ_comm. by apply Hts. }
  - left. exists m, nt'. split; [done|]. split; [done|]. rewrite H3 in HN.
    assert (n_work nt = true) as HW.
    { destruct (n_work nt) eqn:EW; [done|exfalso]. revert E. unfold detach, nbind, nlevel, nlift, nwork, nthrow. destruct (n_levels nt !! t_vl t) as [[sub [vs es|bs es]]|]; [| |done]; cbn [fst snd];
        destruct (t_place t); unfold nbind, nlift; rewrite ?EW; done. }
    split; [intros [HF _]; apply HN; split; [by apply HA|done]|]. split; [intros HF; destruct HN; split; [by apply HA|done]|]. split; [congruence|]. intros vl b. rewrite Hbus. apply H8.
  - right. exists nt'. split; [done|]. split; [done|]. split; [exists ts'; rewrite He', He, insert_insert; split; [done|congruence]|]. split; [congruence|]. split; [congruence|]. split; [congruence|].
    split; [intros vl p a Ha; by apply H4, I4|]. split.
    { intros t' vl p [->|Ht']%elem_of_cons; [|by apply I5]. intros Ha. apply (H5 vl p). by apply I4. }
    split; [|split].
    + intros HF vl p a Ha. rewrite fmap_cons, not_elem_of_cons. intros [N1 N2]. apply I6; [by apply HA| |done]. apply H6; [by apply Forall_cons in HF as [? _]|done|done].
    + intros vl sub. rewrite I7. apply H7.
    + intros vl b. rewrite I8. apply H8.
Qed.
Lemma remove_cases id nt : ninv nt ->
  (exists m nt', remove_equipment id nt = (Throw m, nt') /\ ninv nt' /\ n_ids nt' = n_ids nt /\ (forall vl b, bus_of nt' vl b <-> bus_of nt vl b) /\
    ((forall t, owns nt id t -> attached nt t) -> nt' = nt) /\
    ((exists t, owns nt id t) -> (forall t, owns nt id t -> attached nt t) -> n_work nt = false)) \/
  (exists nt', remove_equipment id nt = (Ok tt, nt') /\ ninv nt' /\ n_ids nt' = n_ids nt /\ (forall vl b, bus_of nt' vl b <-> bus_of nt vl b) /\
    n_eqs nt' = delete id (n_eqs nt) /\ n_work nt' = n_work nt /\ (forall vl sub, in_level nt' vl sub <-> in_level nt vl sub) /\
    (exists t, owns nt id t) /\ (forall vl p a, at_place nt' vl p a -> at_place nt vl p a) /\ (forall t vl p, owns nt id t -> ~ at_place nt' vl p (t_id t)) /\
    ((forall t, owns nt id t -> attached nt t) -> removed nt nt' id)).
Proof.
  intros HI. unfold remove_equipment. destruct (n_eqs nt !! id) as [ts|] eqn:Ei.
  2:{ left. do 2 eexists. split; [done|]. do 4 (split; [done|]). intros (t & ts & ? & _). congruence. }
  destruct ts as [|t0 ts0] eqn:Ets.
  { left. do 2 eexists. split; [done|]. do 4 (split; [done|]). intros (t & ts' & Hi & Ht). rewrite Ei in Hi. injection Hi as <-. by apply elem_of_nil in Ht. }
  rewrite <- Ets in *. assert (exists t, owns nt id t) as Hex. { exists t0, ts. split; [done|]. rewrite Ets. by left. } clear t0 ts0 Ets.
  assert ((forall t, owns nt id t -> attached nt t) -> Forall (attached nt) ts) as HA. { intros H. apply Forall_forall. intros t Ht. apply H. by exists ts. }
  destruct (detach_all_cases id ts 0 nt ts HI Ei) as [(m & nt' & E' & HI' & HN & HU & Hid' & Hbus)|(nt' & E' & HI' & (ts' & He' & Hids') & I1 & I2 & I3 & I4 & I5 & I6 & I7 & I8)]; [done| |].
  - left. exists m, nt'. split; [by rewrite (nbind_Throw _ _ _ _ _ E')|]. split; [done|]. split; [done|]. split; [done|]. split; [intros H; by apply HU, HA|].
    intros _ H. destruct (n_work nt); [|done]. destruct HN. split; [by apply HA|done].
  - right. rewrite (nbind_Ok _ _ _ _ _ E'). eexists. split; [done|]. set (nt2 := mkNet _ _ _ _ _).
    assert (forall vl p a, at_place nt2 vl p a <-> at_place nt' vl p a) as HP by (intros vl [|] a; done).
    assert (n_eqs nt2 = delete id (n_eqs nt)) as HE. { unfold nt2. cbn [n_eqs]. rewrite He'. apply delete_insert_delete. }
    assert (forall t vl p, owns nt id t -> ~ at_place nt2 vl p (t_id t)) as HG.
    { intros t vl p (ts1 & Hi & Ht) Ha. rewrite Ei in Hi. injection Hi as <-. rewrite HP in Ha. by apply (I5 t vl p). }
    assert (n_eqs nt' !! id = Some ts') as Ei' by by rewrite He', lookup_insert.
    split; [|split; [done|split; [done|split; [done|split; [done|split; [done|split; [done|split; [|split; [done|]]]]]]]]].
    + destruct HI' as [J1 J2 J3 J4]. split.
      * intros vl p a Ha. rewrite HP in Ha. destruct (J1 vl p a Ha) as (id0 & ts1 & k0 & t0 & A1 & A2 & A3 & A4 & A5). exists id0, ts1, k0, t0. split; [|done].
        assert (id <> id0) as Hne; [|rewrite HE, lookup_delete_ne by done; rewrite He', lookup_insert_ne in A1 by done; done].
        intros <-. rewrite Ei' in A1. injection A1 as <-. assert (t_id t0 ∈ t_id <$> ts) as Ht. { rewrite <- Hids'. apply elem_of_list_fmap. exists t0. split; [done|]. by apply elem_of_list_lookup_2 in A2. }
        apply elem_of_list_fmap in Ht as (t1 & E1 & Ht1). apply (I5 t1 vl p Ht1). rewrite <- E1, A3. done.
      * unfold nt2. cbn [n_eqs]. intros id1 ts1 k1 t1 id2 ts2 k2 t2 A1 B1 A2 B2. apply lookup_delete_Some in A1 as [_ A1], A2 as [_ A2]. by apply (J2 id1 ts1 k1 t1 id2 ts2 k2 t2).
      * unfold nt2. cbn [n_eqs n_next]. intros id1 ts1 k1 t1 A1 B1. apply lookup_delete_Some in A1 as [_ A1]. by apply (J3 id1 ts1 k1 t1).
      * apply J4.
    + done.
    + intros HAt. split; [done|done|done| |done|done]. intros vl p a. rewrite HP. split.
      * intros Ha. split; [by apply I4|]. intros t Ht <-. by apply (HG t vl p Ht); rewrite HP.
      * intros [Ha Hn]. apply I6; [by apply HA|done|]. intros (t & -> & Ht)%elem_of_list_fmap. apply (Hn t); [by exists ts|done].
Qed.

(** ** The other operations *)
Definition lev_at (l : level) (p : place) (a : nat) : Prop :=
  match p, l with
  | PNode n, LNode vs _ => vs !! n = Some (Some a)
  | PBus b _, LBus bs _ => exists l, bs !! b = Some l /\ a ∈ l
  | _, _ => False
  end.
Definition lev_bus (l : level) (b : string) : Prop := match l with LBus bs _ => is_Some (bs !! b) | LNode _ _ => False end.
Definition lev_ok (l : level) : Prop := match l with LBus bs _ => bs !! "" = None /\ forall b l, bs !! b = Some l -> NoDup l | LNode _ _ => True end.
Lemma at_place_lev nt vl p a : at_place nt vl p a <-> exists sub l, n_levels nt !! vl = Some (sub, l) /\ lev_at l p a.
Proof.
  destruct p as [n|b c]; cbn [at_place]; unfold holds, on_bus, lev_at. 
  - split; [intros (sub & vs & es & HL & Hn); exists sub, (LNode vs es); done|]. intros (sub & [vs es|bs es] & HH & Hl); [eauto 10|done].
  - split; [intros (sub & bs & es & l & HL & Hn & Ha); exists sub, (LBus bs es); split; [done|by exists l]|]. intros (sub & [vs es|bs es] & HH & Hl); [done|]. destruct Hl as (? & ? & ?). eauto 10.
Qed.
Lemma bus_of_lev nt vl b : bus_of nt vl b <-> exists sub l, n_levels nt !! vl = Some (sub, l) /\ lev_bus l b.
Proof.
  unfold bus_of, lev_bus. split; [intros (sub & bs & es & HL & Hn); exists sub, (LBus bs es); done|]. intros (sub & [vs es|bs es] & HH & Hl); [done|eauto 10].
Qed.
Definition binv (nt : net) : Prop := forall vl b, bus_of nt vl b -> b ∈ n_ids nt /\ forall vl', bus_of nt vl' b -> vl' = vl.
Definition quiet (nt nt' : net) : Prop := ninv nt' /\ binv nt' /\ n_eqs nt' = n_eqs nt /\ forall vl p a, at_place nt' vl p a <-> at_place nt vl p a.
(** Level [vl] becomes [l'], the other levels and the equipments stay. *)
Lemma quiet_level nt nt' vl x l' : ninv nt -> binv nt -> n_levels nt !! vl = x -> n_levels nt' = <[vl := l']> (n_levels nt) -> n_eqs nt' = n_eqs nt -> n_next nt' = n_next nt ->
  (forall p a, lev_at l'.2 p a <-> match x with Some (_, l) => lev_at l p a | None => False end) -> lev_ok l'.2 ->
  (forall b, lev_bus l'.2 b -> b ∈ n_ids nt' /\ (b ∉ n_ids nt \/ match x with Some (_, l) => lev_bus l b | None => False end)) ->
  (forall vl' b, vl' <> vl -> bus_of nt vl' b -> b ∈ n_ids nt -> b ∈ n_ids nt') -> quiet nt nt'.
Proof.
  intros HI HB EL HL HE HX HP HO HU HK.
  assert (forall vl' p a, at_place nt' vl' p a <-> at_place nt vl' p a) as HA.
  { intros vl' p a. rewrite !at_place_lev, HL. destruct (decide (vl' = vl)) as [->|Hne]; [|by rewrite lookup_insert_ne by done]. rewrite lookup_insert, EL. split.
    - intros (sub & l & [= ->] & H). apply HP in H. destruct x as [[sub' l0]|]; [eauto|done].
    - intros (sub & l & -> & H). destruct l' as [sub' l']. exists sub', l'. split; [done|]. by apply HP. }
  split; [|split; [|done]].
  - apply (ninv_same nt); [done|done|done|intros vl' p a; apply HA|]. intros vl' sub bs es. rewrite HL. intros [[<- ->]|[_ H]]%lookup_insert_Some; [apply HO|by apply (ni_bus nt HI vl' sub bs es)].
  - assert (forall vl' b, bus_of nt' vl' b -> (vl' = vl /\ lev_bus l'.2 b) \/ (vl' <> vl /\ bus_of nt vl' b)) as HC.
    { intros vl' b. rewrite !bus_of_lev, HL. destruct (decide (vl' = vl)) as [->|Hne]; [rewrite lookup_insert|rewrite lookup_insert_ne by done; eauto].
      intros (sub & l & [= ->] & H). eauto. }
    assert (forall vl' b, vl' <> vl -> bus_of nt vl' b -> lev_bus l'.2 b -> False) as HD.
    { intros vl' b Hne Hb Hl. destruct (HB vl' b Hb) as [Hin Hun]. destruct (HU b Hl) as [_ [?|H]]; [done|]. destruct x as [[sub l]|]; [|done].
      apply Hne. symmetry. apply Hun. apply bus_of_lev. eauto. }
    intros vl1 b H1. split.
    + destruct (HC vl1 b H1) as [[-> H]|[Hne H]]; [by apply HU in H as [? _]|]. apply (HK vl1 b Hne H). by apply (HB vl1 b).
    + intros vl2 H2. destruct (HC vl1 b H1) as [[-> H]|[Hne H]], (HC vl2 b H2) as [[-> H']|[Hne' H']]; [done|by destruct (HD vl2 b)|by destruct (HD vl1 b)|].
      by apply (HB vl1 b).
Qed.
Lemma quiet_refl nt : ninv nt -> binv nt -> quiet nt nt.
Proof. intros HI HB. split; [done|]. split; [done|]. by split. Qed.
Lemma touch_at n vs m a : touch n vs !! m = Some (Some a) <-> vs !! m = Some (Some a).
Proof.
  unfold touch. destruct (vs !! n) eqn:E; [done|]. destruct (decide (m = n)) as [->|]; [rewrite lookup_insert, E; split; congruence|by rewrite lookup_insert_ne].
Qed.
Lemma other_ops o nt : ninv nt -> binv nt -> request o = None -> (forall id, o <> ORemove id) -> quiet nt (nstep o nt).2.
Proof.
  intros HI HB HR HN. pose proof (quiet_refl nt HI HB) as HQ. destruct o as [vl sub nb|vl id|vl id|vl n1 n2|vl k|vl b1 b2|vl k|b| | | | | |]; try discriminate HR; try (by destruct (HN id)); cbn [nstep].
  - unfold add_level. destruct (check_id_iff vl nt) as [[Hid E]|[Hid [m E]]]; [|by rewrite (nbind_Throw _ _ _ _ _ E)]. rewrite (nbind_Ok _ _ _ _ _ E). unfold nput. cbn [snd].
    destruct Hid as (_ & _ & HL & _). apply (quiet_level nt _ vl None (sub, if nb then LNode ∅ [] else LBus ∅ [])); try done.
    + intros p a. destruct nb, p; cbn [lev_at snd]; rewrite ?lookup_empty; try done. split; [|done]. by intros (l & ? & _).
    + destruct nb; [done|]. split; [done|]. intros b l H. by rewrite lookup_empty in H.
    + intros b. destruct nb; cbn [lev_bus snd]; [done|]. rewrite lookup_empty. by intros [].
  - unfold add_bus. destruct (n_levels nt !! vl) as [[sub l]|] eqn:EL; [|by rewrite (nbind_Throw _ _ _ _ _ (nlevel_None _ _ EL))].
    rewrite (nbind_Ok _ _ _ _ _ (nlevel_Some _ _ _ EL)). cbn [snd]. destruct l as [vs es|bs es]; [done|].
    destruct (check_id_iff id nt) as [[Hid E]|[Hid [m E]]]; [|by rewrite (nbind_Throw _ _ _ _ _ E)]. rewrite (nbind_Ok _ _ _ _ _ E). unfold nbind, put_id, nput. cbn [snd fst].
    destruct Hid as (Hid & Hin & _). assert (bs !! id = None) as Hb.
    { apply eq_None_not_Some. intros Hs. apply Hin. apply (HB vl id). apply bus_of_lev. exists sub, (LBus bs es). done. }
    destruct (ni_bus nt HI _ _ _ _ EL) as [HE HND].
    apply (quiet_level nt _ vl (Some (sub, LBus bs es)) (sub, LBus (<[id := []]> bs) es)); try done; cbn [snd].
    + intros [n|b c] a; cbn [lev_at]; [done|]. destruct (decide (b = id)) as [->|]; [|by rewrite lookup_insert_ne]. rewrite lookup_insert, Hb. split; [|by intros (? & ? & _)].
      intros (l & [= <-] & H). by apply elem_of_nil in H.
    + split; [by rewrite lookup_insert_ne|]. intros b l [[_ <-]|[_ H]]%lookup_insert_Some; [constructor|by apply (HND b)].
    + intros b. cbn [lev_bus]. intros [l [[<- _]|[_ H]]%lookup_insert_Some]; [split; [set_solver|by left]|]. split; [|right; by eexists].
      apply elem_of_union_r. apply (HB vl b). apply bus_of_lev. exists sub, (LBus bs es). split; [done|]. by eexists.
    + intros vl' b _ _ H. cbn. by apply elem_of_union_r.
  - unfold remove_bus. destruct (n_levels nt !! vl) as [[sub l]|] eqn:EL; [|by rewrite (nbind_Throw _ _ _ _ _ (nlevel_None _ _ EL))].
    rewrite (nbind_Ok _ _ _ _ _ (nlevel_Some _ _ _ EL)). cbn [snd]. destruct l as [vs es|bs es]; [done|]. destruct (bs !! id) as [l|] eqn:Eb; [|done].
    unfold nwork, nlift, nbind. destruct (n_work nt); [|done]. destruct (bool_decide_reflect (l <> [])) as [|El]; [done|]. apply dec_stable in El. subst l.
    destruct (bool_decide _); [done|]. unfold nput, drop_id. cbn [fst snd].
    destruct (ni_bus nt HI _ _ _ _ EL) as [HE HND].
    apply (quiet_level nt _ vl (Some (sub, LBus bs es)) (sub, LBus (delete id bs) es)); try done; cbn [snd].
    + intros [n|b c] a; cbn [lev_at]; [done|]. destruct (decide (b = id)) as [->|]; [|by rewrite lookup_delete_ne]. rewrite lookup_delete, Eb. split; [by intros (? & ? & _)|].
      intros (l & [= <-] & H). by apply elem_of_nil in H.
    + split; [apply lookup_delete_None; by right|]. intros b l [_ H]%lookup_delete_Some. by apply (HND b).
    + intros b. cbn [lev_bus]. intros [l [Hne H]%lookup_delete_Some]. split; [|right; by eexists]. apply elem_of_difference. split; [|set_solver].
      apply (HB vl b). apply bus_of_lev. exists sub, (LBus bs es). split; [done|]. by eexists.
    + intros vl' b Hne Hb Hin. cbn. apply elem_of_difference. split; [done|]. intros ->%elem_of_singleton. apply Hne. symmetry. apply (HB vl' id Hb). apply bus_of_lev. exists sub, (LBus bs es). split; [done|]. by eexists.
  - unfold add_link. destruct (n_levels nt !! vl) as [[sub l]|] eqn:EL; [|by rewrite (nbind_Throw _ _ _ _ _ (nlevel_None _ _ EL))].
    rewrite (nbind_Ok _ _ _ _ _ (nlevel_Some _ _ _ EL)). cbn [snd]. destruct l as [vs es|bs es]; [|done]. unfold nput. cbn [fst snd].
    apply (quiet_level nt _ vl (Some (sub, LNode vs es)) (sub, LNode (touch n2 (touch n1 vs)) (es ++ [(n1, n2)]))); try done; cbn [snd].
    intros [n|b c] a; cbn; [|done]. by rewrite !touch_at.
  - unfold remove_link. destruct (n_levels nt !! vl) as [[sub l]|] eqn:EL; [|by rewrite (nbind_Throw _ _ _ _ _ (nlevel_None _ _ EL))].
    rewrite (nbind_Ok _ _ _ _ _ (nlevel_Some _ _ _ EL)). cbn [snd]. destruct l as [vs es|bs es]; [|done]. unfold nput. cbn [fst snd].
    apply (quiet_level nt _ vl (Some (sub, LNode vs es)) (sub, LNode (clean vs (delete k es)) (delete k es))); try done; cbn [snd].
    intros [n|b c] a; cbn [lev_at]; [|done]. unfold clean. rewrite map_filter_lookup_Some. cbn. naive_solver.
  - unfold add_bus_link. destruct (n_levels nt !! vl) as [[sub l]|] eqn:EL; [|by rewrite (nbind_Throw _ _ _ _ _ (nlevel_None _ _ EL))].
    rewrite (nbind_Ok _ _ _ _ _ (nlevel_Some _ _ _ EL)). cbn [snd]. destruct l as [vs es|bs es]; [done|]. destruct (bool_decide _); [|done]. unfold nput. cbn [fst snd].
    apply (quiet_level nt _ vl (Some (sub, LBus bs es)) (sub, LBus bs (es ++ [(b1, b2)]))); try done; cbn [snd lev_ok lev_bus].
    + by apply (ni_bus nt HI vl sub bs es).
    + intros b Hb. split; [|by right]. apply (HB vl b). apply bus_of_lev. by exists sub, (LBus bs es).
  - unfold remove_bus_link. destruct (n_levels nt !! vl) as [[sub l]|] eqn:EL; [|by rewrite (nbind_Throw _ _ _ _ _ (nlevel_None _ _ EL))].
    rewrite (nbind_Ok _ _ _ _ _ (nlevel_Some _ _ _ EL)). cbn [snd]. destruct l as [vs es|bs es]; [done|]. unfold nput. cbn [fst snd].
    apply (quiet_level nt _ vl (Some (sub, LBus bs es)) (sub, LBus bs (delete k es))); try done; cbn [snd lev_ok lev_bus].
    + by apply (ni_bus nt HI vl sub bs es).
    + intros b Hb. split; [|by right]. apply (HB vl b). apply bus_of_lev. by exists sub, (LBus bs es).
  - unfold set_work. cbn [snd]. split; [|split; [|split; [done|]]].
    + by apply (ninv_same nt); [..|apply (ni_bus nt HI)].
    + exact HB.
    + intros vl [|] a; done.
Qed.

(** ** Histories *)
Lemma binv_same nt nt' : binv nt -> n_ids nt' = n_ids nt -> (forall vl b, bus_of nt' vl b <-> bus_of nt vl b) -> binv nt'.
Proof. intros HB HE HU vl b Hb. rewrite HE. apply HU in Hb. destruct (HB vl b Hb) as [H1 H2]. split; [done|]. intros vl' Hb'. apply H2. by apply HU. Qed.
Lemma attach_all_bus ts nt vl b : bus_of (attach_all ts nt).2 vl b <-> bus_of nt vl b.
Proof.
  revert nt. induction ts as [|t ts IH]; intros nt; cbn [attach_all]; [done|].
  destruct (attach_cases t nt) as [(HS & HF & HW & E)|[(m & E & HN)|(m & n & E & _)]].
  - rewrite (nbind_Ok _ _ _ _ _ E), IH. apply put_at_bus_of.
  - by rewrite (nbind_Throw _ _ _ _ _ E).
  - rewrite (nbind_Throw _ _ _ _ _ E). apply put_at_bus_of.
Qed.
Lemma step_inv o nt : ninv nt -> binv nt -> ninv (nstep o nt).2 /\ binv (nstep o nt).2.
Proof.
  intros HI HB. destruct (request o) as [[[id sub] ss]|] eqn:ER.
  - destruct (creation o nt id sub ss ER) as [(_ & _ & m & ->)|[(HE & (s & ->) & _ & m & ->)|(_ & ps & _ & Hid & _ & ->)]].
    + done.
    + cbn [snd]. split; [|exact HB]. cbn [enters] in HE. change (@nil terminal) with (news nt []). change 0 with (length (@nil (string * place))). apply put_eq_inv; [done|]. left. apply HE.
    + destruct (finish_inv id ps nt HI) as (H1 & H2 & H3 & H4); [apply Hid|]. split; [done|]. apply (binv_same nt); [done|done|]. intros vl b. unfold finish. by rewrite attach_all_bus.
  - destruct o as [| | | | | | | | | | | | |id]; try discriminate ER; try (edestruct other_ops as (H1 & H2 & _); [exact HI|exact HB| | |split; [exact H1|exact H2]]; done).
    cbn [nstep]. destruct (remove_cases id nt HI) as [(m & nt' & -> & HI' & H1 & H2 & _)|(nt' & -> & HI' & H1 & H2 & _)]; (split; [done|]); by apply (binv_same nt).
Qed.
Lemma reach_inv P nt : net_reach P nt -> ninv nt /\ binv nt.
Proof.
  induction 1 as [|o nt _ [IH1 IH2] _]; [|by apply step_inv]. split; [apply ninv0|]. intros vl b (? & ? & ? & H & _). cbn [n_levels net0] in H. by rewrite lookup_empty in H.
Qed.
(** Without traces, every equipment has terminals, all attached. *)
Definition all_attached (nt : net) : Prop := forall id ts, n_eqs nt !! id = Some ts -> ts <> [] /\ forall t, t ∈ ts -> attached nt t.
Lemma attached_at nt nt' t : (forall vl p a, at_place nt' vl p a <-> at_place nt vl p a) -> attached nt t -> attached nt' t.
Proof. intros H. unfold attached. apply H. Qed.
Lemma request_creates o id sub ss : request o = Some (id, sub, ss) -> creates o = Some id.
Proof. destruct o; cbn; naive_solver. Qed.
Lemma creation_nonempty o id sub ss ps : request o = Some (id, sub, ss) -> want_all ss ps -> ps <> [].
Proof. intros H Hw ->. destruct o; cbn in H; try discriminate H; injection H as <- <- <-; by inversion Hw. Qed.
Lemma reach_attached nt : net_reach no_trace nt -> all_attached nt.
Proof.
  induction 1 as [|o nt HR IH HT]; [intros id ts H; cbn [n_eqs net0] in H; by rewrite lookup_empty in H|]. destruct (reach_inv _ _ HR) as [HI HB].
  destruct (request o) as [[[id sub] ss]|] eqn:ER.
  - assert ((exists m, (nstep o nt).1 = Throw m) -> all_attached (nstep o nt).2) as HTh.
    { intros Hm. rewrite HT; [done|exists id; by apply (request_creates o id sub ss)|done]. }
    destruct (creation o nt id sub ss ER) as [(_ & _ & m & E)|[(_ & _ & _ & m & E)|(_ & ps & Hw & Hid & _ & E)]]; [apply HTh; rewrite E; eauto..|].
    destruct (finish_result id ps nt) as [[nt' Ef]|(m & nt' & Ef)]; rewrite Ef in E; [|apply HTh; rewrite E; eauto]. rewrite E. cbn [snd].
    pose proof (creation_nonempty o id sub ss ps ER Hw) as Hne. destruct (finish_created id ps nt nt' HI Hne Ef) as [(ts & He & Hts & Hat & _ & _ & HP) _ _ _ _].
    intros id' ts' Hi. rewrite He in Hi. apply lookup_insert_Some in Hi as [[<- <-]|[_ Hi]].
    + split; [|done]. intros ->. cbn in Hts. congruence.
    + destruct (IH id' ts' Hi) as [H1 H2]. split; [done|]. intros t Ht. unfold attached. apply HP. left. by apply H2.
  - assert ((exists id, o = ORemove id) \/ ~ (exists id, o = ORemove id)) as [[id ->]|Hn] by (destruct o; try (right; by intros [? ?]); left; eauto).
    2:{ destruct (other_ops o nt HI HB ER) as (_ & _ & HE & HP); [intros id ->; eauto|]. intros id' ts' Hi. rewrite HE in Hi. destruct (IH id' ts' Hi) as [H1 H2]. split; [done|]. intros t Ht. apply HP. by apply H2. }
    cbn [nstep]. assert (forall t, owns nt id t -> attached nt t) as HA. { intros t (ts & Hi & Ht). by apply (IH id ts Hi). }
    destruct (remove_cases id nt HI) as [(m & nt' & -> & _ & _ & _ & HU & _)|(nt' & -> & _ & _ & _ & _ & _ & _ & _ & _ & _ & HU)]; cbn [snd].
    + by rewrite HU.
    + destruct (HU HA) as [He _ _ HP _ _]. intros id' ts' Hi. rewrite He in Hi. apply lookup_delete_Some in Hi as [Hne Hi]. destruct (IH id' ts' Hi) as [H1 H2]. split; [done|]. intros t Ht. unfold attached.
      apply HP. split; [by apply H2|]. intros t' (ts & Hi' & Ht') Ee. apply elem_of_list_lookup in Ht as [k Hk]. apply elem_of_list_lookup in Ht' as [k' Hk'].
      destruct (ni_once nt HI _ _ _ _ _ _ _ _ Hi' Hk' Hi Hk Ee) as [? _]. done.
Qed.
