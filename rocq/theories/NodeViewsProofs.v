(** The views of a node-breaker voltage level show the plan drawn beside its history. *)
From stdpp Require Import gmap.
From Verif Require Import Base Graph GraphSpec GraphProofs Equip NodeTopo NodeTopoSpec NodeTopoProofs NodeTopoInv NodeTopoConn NodeViews NodeViewsSpec.

(** ** Lists and maps *)
Lemma omap_map_list {A B C} (h : A -> B) (F : B -> option C) (l : list (option A)) : forall k (m : gmap nat B),
  (forall e, m !! e = if decide (k <= e) then h <$> mjoin (l !! (e - k)) else None) ->
  omap (fun x => x ≫= (fun a => F (h a))) l ≡ₚ omap (fun x => F x.2) (map_to_list m).
Proof.
  induction l as [|x l IH]; intros k m Hm.
  { assert (m = ∅) as ->. { apply map_eq. intros e. rewrite Hm, lookup_empty. case_decide; done. } by rewrite map_to_list_empty. }
  assert (forall m' : gmap nat B, (forall e, m' !! e = if decide (k = e) then None else m !! e) -> omap (fun x => x ≫= (fun a => F (h a))) l ≡ₚ omap (fun x => F x.2) (map_to_list m')) as Hl.
  { intros m' Hm'. apply (IH (S k)). intros e. rewrite Hm', Hm. repeat case_decide; try done; try lia.
    replace (e - k) with (S (e - S k)) by lia. done. }
  pose proof (Hm k) as Hk. rewrite decide_True, Nat.sub_diag in Hk by done. cbn in Hk.
  destruct x as [a|]; cbn in Hk.
  - rewrite <- (map_to_list_delete m k (h a) Hk). cbn [omap list_omap mbind option_bind snd].
    assert (omap (fun x => x ≫= (fun a => F (h a))) l ≡ₚ omap (fun x => F x.2) (map_to_list (delete k m))) as Hp.
    { apply Hl. intros e. case_decide as He; [subst; apply lookup_delete|by rewrite lookup_delete_ne]. }
    simpl. destruct (F (h a)); [by apply Permutation_cons|done].
  - apply Hl. intros e. case_decide as He; [by subst|done].
Qed.
Lemma omap_same {A B} (f g : A -> option B) (l : list A) : (forall x, f x = g x) -> omap f l = omap g l.
Proof. intros H. induction l as [|x l IH]; [done|]. change (match f x with Some y => y :: omap f l | None => omap f l end = match g x with Some y => y :: omap g l | None => omap g l end). by rewrite H, IH. Qed.
Lemma NoDup_omap_inj {A B} (f : A -> option B) (l : list A) : NoDup l ->
  (forall x y z, x ∈ l -> y ∈ l -> f x = Some z -> f y = Some z -> x = y) -> NoDup (omap f l).
Proof.
  induction 1 as [|x l Hx Hl IH]; intros H; [constructor|]. simpl. destruct (f x) as [z|] eqn:Hz.
  - constructor; [|apply IH; intros; eapply H; try done; by right]. rewrite elem_of_list_omap. intros (y & Hy & Hfy).
    assert (x = y) as ->; [|done]. eapply H; [left|by right|done|done].
  - apply IH. intros; eapply H; try done; by right.
Qed.

(** ** The abstract graph *)
Notation SG := (sgraph nterm string).
Notation EM := (gmap nat (nat * nat * option string)).
Definition ic_of (x : nat * nat * option string) : option (nat * nat) := match x.2 with None => Some x.1 | Some _ => None end.
Definition ics (m : EM) : list (nat * nat) := omap (fun x => ic_of x.2) (map_to_list m).
Definition sws (m : EM) : list string := omap (fun x => x.2.2) (map_to_list m).

Lemma ics_elem m p : p ∈ ics m <-> exists e, m !! e = Some (p, None).
Proof.
  unfold ics. rewrite elem_of_list_omap. split.
  - intros ([e [q o]] & He%elem_of_map_to_list & H). unfold ic_of in H. simpl in H. destruct o; [done|]. injection H as ->. by exists e.
  - intros [e He]. exists (e, (p, None)). split; [by apply elem_of_map_to_list|done].
Qed.
Lemma sws_elem m id : id ∈ sws m <-> exists e p, m !! e = Some (p, Some id).
Proof.
  unfold sws. rewrite elem_of_list_omap. split.
  - intros ([e [q o]] & He%elem_of_map_to_list & H). simpl in H. subst o. by exists e, q.
  - intros (e & p & He). exists (e, (p, Some id)). split; [by apply elem_of_map_to_list|done].
Qed.

Definition touched (m : EM) (n : nat) : Prop := exists e p o, m !! e = Some (p, o) /\ ends_on n p.
Lemma touched_free (s : SG) n : ~ edge_free s n -> touched (s_edges s) n.
Proof.
  intros H. destruct (decide (map_Exists (fun _ x => n = x.1.1 \/ n = x.1.2) (s_edges s))) as [(e & [p o] & He & Hn)|Hno]; [by exists e, p, o|].
  exfalso. apply H. intros e ed He [Ht|Ht]; apply Hno; exists e, ed; (split; [done|]); [by left|by right].
Qed.
Lemma free_touched (s : SG) n : touched (s_edges s) n -> ~ edge_free s n.
Proof. intros (e & p & o & He & [Hn|Hn]) H; apply (H e _ He); [left|right]; done. Qed.

(** The plan describes the graph. *)
Record drawn (P : plan) (s : SG) : Prop := {
  d_sw : forall id p, p_sw P !! id = Some p <-> exists e, s_edges s !! e = Some (p, Some id);
  d_ic : ics (s_edges s) ≡ₚ p_ic P;
  d_tm : forall n t, p_tm P !! n = Some t <-> s_vertices s !! n = Some (Some t);
  d_none : forall n, s_vertices s !! n = Some None -> touched (s_edges s) n;
  d_live : forall n, touched (s_edges s) n -> is_Some (s_vertices s !! n)
}.

(** One edge more. *)
Definition added (s s' : SG) (a b : nat) (ob : option string) : Prop :=
  (exists e, s_edges s !! e = None /\ s_edges s' = <[e := ((a, b), ob)]> (s_edges s)) /\
  is_Some (s_vertices s' !! a) /\ is_Some (s_vertices s' !! b) /\
  forall m, s_vertices s' !! m = s_vertices s !! m \/ ((m = a \/ m = b) /\ s_vertices s !! m = None /\ s_vertices s' !! m = Some None).
(** Fewer edges, and the vertices left alone removed. *)
Definition cleaned (s s' : SG) (m : EM) : Prop :=
  s_edges s' = m /\ forall n, (s_vertices s !! n = Some None /\ ~ touched m n /\ s_vertices s' !! n = None) \/
    ((s_vertices s !! n = Some None -> touched m n) /\ s_vertices s' !! n = s_vertices s !! n).

Lemma added_tm s s' a b ob n t : added s s' a b ob -> s_vertices s' !! n = Some (Some t) <-> s_vertices s !! n = Some (Some t).
Proof. intros (_ & _ & _ & H). destruct (H n) as [->|(_ & -> & ->)]; [done|]. split; done. Qed.
Lemma added_none s s' a b ob P : added s s' a b ob -> drawn P s -> forall n, s_vertices s' !! n = Some None -> touched (s_edges s') n.
Proof.
  intros ((e & He & Ee) & _ & _ & H) D n Hn. rewrite Ee. destruct (H n) as [Hs|(Hab & _)].
  - rewrite Hs in Hn. apply (d_none _ _ D) in Hn as (e' & p & o & He' & Hp). exists e', p, o. rewrite lookup_insert_ne; [done|]. congruence.
  - exists e, (a, b), ob. rewrite lookup_insert. done.
Qed.
Lemma added_live s s' a b ob P : added s s' a b ob -> drawn P s -> forall n, touched (s_edges s') n -> is_Some (s_vertices s' !! n).
Proof.
  intros ((e & He & Ee) & Ha & Hb & H) D n (e' & p & o & He' & Hp). rewrite Ee in He'.
  apply lookup_insert_Some in He' as [[<- [= <- <-]]|[_ He']]; [by destruct Hp as [-> | ->]|].
  destruct (H n) as [->|(_ & _ & ->)]; [|eauto]. apply (d_live _ _ D). by exists e', p, o.
Qed.
Lemma add_switch_drawn P s s' a b id : added s s' a b (Some id) -> drawn P s -> p_sw P !! id = None ->
  drawn (mkPlan (<[id := (a, b)]> (p_sw P)) (p_ic P) (p_tm P)) s'.
Proof.
  intros Ad D Hid. pose proof Ad as ((e & He & Ee) & _ & _ & _). split; cbn [p_sw p_ic p_tm].
  - intros id' p. rewrite Ee. destruct (decide (id = id')) as [<-|Hne].
    + rewrite lookup_insert. split.
      * intros [= <-]. exists e. by rewrite lookup_insert.
      * intros [e' He']. apply lookup_insert_Some in He' as [[_ [= <-]]|[_ He']]; [done|]. exfalso.
        assert (p_sw P !! id = Some p) as H by (apply (d_sw _ _ D); eauto). congruence.
    + rewrite lookup_insert_ne by done. rewrite (d_sw _ _ D). split; intros [e' He']; exists e'.
      * rewrite lookup_insert_ne; [done|]. congruence.
      * apply lookup_insert_Some in He' as [[_ [= _ ?]]|[_ He']]; congruence.
  - rewrite <- (d_ic _ _ D). unfold ics. rewrite Ee, map_to_list_insert by done. done.
  - intros n t. rewrite (added_tm _ _ _ _ _ n t Ad). apply D.
  - by eapply added_none.
  - by eapply added_live.
Qed.
Lemma add_internal_drawn P s s' a b : added s s' a b None -> drawn P s -> drawn (mkPlan (p_sw P) ((a, b) :: p_ic P) (p_tm P)) s'.
Proof.
  intros Ad D. pose proof Ad as ((e & He & Ee) & _ & _ & _). split; cbn [p_sw p_ic p_tm].
  - intros id p. rewrite (d_sw _ _ D), Ee. split; intros [e' He']; exists e'.
    + rewrite lookup_insert_ne; [done|]. congruence.
    + apply lookup_insert_Some in He' as [[_ ?]|[_ He']]; [congruence|done].
  - rewrite <- (d_ic _ _ D). unfold ics. rewrite Ee, map_to_list_insert by done. done.
  - intros n t. rewrite (added_tm _ _ _ _ _ n t Ad). apply D.
  - by eapply added_none.
  - by eapply added_live.
Qed.

(** Removals: [P'] the plan, [s0] the graph before the vertices left alone are removed. *)
Lemma cleaned_drawn P s s' m : cleaned s s' m ->
  (forall id p, p_sw P !! id = Some p <-> exists e, m !! e = Some (p, Some id)) -> ics m ≡ₚ p_ic P ->
  (forall n t, p_tm P !! n = Some t <-> s_vertices s !! n = Some (Some t)) ->
  (forall n, touched m n -> is_Some (s_vertices s !! n)) -> drawn P s'.
Proof.
  intros [Em C] H1 H2 H3 H4. split; rewrite ?Em; [done|done| | |].
  - intros n t. rewrite H3. destruct (C n) as [(Hn & _ & ->)|[_ ->]]; [|done]. rewrite Hn. split; done.
  - intros n Hn. destruct (C n) as [(_ & _ & E)|[Ht E]]; [congruence|]. apply Ht. congruence.
  - intros n Hn. destruct (C n) as [(_ & Ht & _)|[_ ->]]; [done|auto].
Qed.
Lemma remove_switch_drawn P s s' id e p : s_edges s !! e = Some (p, Some id) ->
  (forall e' q, s_edges s !! e' = Some (q, Some id) -> e' = e) ->
  cleaned s s' (delete e (s_edges s)) -> drawn P s -> drawn (mkPlan (delete id (p_sw P)) (p_ic P) (p_tm P)) s'.
Proof.
  intros He Hu C D. eapply cleaned_drawn; [exact C|cbn [p_sw p_ic p_tm]..].
  - intros id' q. destruct (decide (id = id')) as [<-|Hne].
    + rewrite lookup_delete. split; [done|]. intros [e' [Hne He']%lookup_delete_Some]. exfalso. apply Hne. symmetry. by eapply Hu.
    + rewrite lookup_delete_ne by done. rewrite (d_sw _ _ D). split; intros [e' He']; exists e'.
      * rewrite lookup_delete_ne; [done|]. congruence.
      * by apply lookup_delete_Some in He' as [_ He'].
  - rewrite <- (d_ic _ _ D). unfold ics. rewrite <- (map_to_list_delete (s_edges s) e _ He). done.
  - apply D.
  - intros n (e' & q & o & [_ He']%lookup_delete_Some & Hn). apply (d_live _ _ D). by exists e', q, o.
Qed.
Lemma remove_internal_drawn P s s' m n1 n2 :
  (forall e p id, m !! e = Some (p, Some id) <-> s_edges s !! e = Some (p, Some id)) ->
  (forall e p, m !! e = Some (p, None) <-> s_edges s !! e = Some (p, None) /\ ~ between n1 n2 p) ->
  cleaned s s' m -> drawn P s -> drawn (mkPlan (p_sw P) (filter (fun p => ~ between n1 n2 p) (p_ic P)) (p_tm P)) s'.
Proof.
  intros M1 M2 C D. eapply cleaned_drawn; [exact C|cbn [p_sw p_ic p_tm]..].
  - intros id p. rewrite (d_sw _ _ D). split; intros [e He]; exists e; by apply M1.
  - rewrite <- (d_ic _ _ D). unfold ics.
    assert (map_to_list m ≡ₚ filter (fun x : nat * (nat * nat * option string) => x.2.2 = None -> ~ between n1 n2 x.2.1) (map_to_list (s_edges s))) as ->.
    { apply NoDup_Permutation; [apply NoDup_map_to_list|apply NoDup_filter, NoDup_map_to_list|]. intros [e [p o]].
      rewrite elem_of_list_filter, !elem_of_map_to_list. simpl. destruct o as [id|].
      - rewrite M1. split; [by intros ?|by intros [_ ?]].
      - rewrite M2. split; [intros [? ?]; by split|]. intros [H ?]. split; [done|]. by apply H. }
    induction (map_to_list (s_edges s)) as [|[e [p o]] l IH]; [done|]. rewrite filter_cons. destruct o as [id|].
    + rewrite decide_True by done. simpl. exact IH.
    + case_decide as Hd; simpl in Hd.
      * simpl. rewrite filter_cons, decide_True by (by apply Hd). by rewrite IH.
      * simpl. rewrite filter_cons, decide_False by (intros Hb; by apply Hd). exact IH.
  - apply D.
  - intros n (e & p & [id|] & He & Hn); apply (d_live _ _ D).
    + exists e, p, (Some id). split; [by apply M1|done].
    + exists e, p, None. split; [by apply M2|done].
Qed.
Lemma attach_drawn P s s' n t : (forall m, s_vertices s' !! m = if decide (m = n) then Some (Some t) else s_vertices s !! m) -> s_edges s' = s_edges s ->
  drawn P s -> drawn (mkPlan (p_sw P) (p_ic P) (<[n := t]> (p_tm P))) s'.
Proof.
  intros Hv He D. split; cbn [p_sw p_ic p_tm]; rewrite ?He; try apply D.
  - intros m t'. rewrite Hv. case_decide as Hd.
    + subst m. rewrite lookup_insert. split; [by intros [= <-]|by intros [= <-]].
    + rewrite lookup_insert_ne by done. apply D.
  - intros m. rewrite Hv. case_decide; [done|]. apply D.
  - intros m Hm. rewrite Hv. case_decide; [eauto|]. by apply (d_live _ _ D).
Qed.
Lemma detach_drawn P s s' n t : s_vertices s !! n = Some (Some t) -> cleaned (mkS (<[n := None]> (s_vertices s)) (s_edges s)) s' (s_edges s) ->
  drawn P s -> drawn (mkPlan (p_sw P) (p_ic P) (delete n (p_tm P))) s'.
Proof.
  intros Hn C D. eapply cleaned_drawn; [exact C|cbn [p_sw p_ic p_tm s_vertices]..]; try apply D.
  - intros m t'. destruct (decide (n = m)) as [<-|]; [rewrite lookup_delete, lookup_insert; split; done|].
    rewrite lookup_delete_ne, lookup_insert_ne by done. apply D.
  - intros m Hm. destruct (decide (n = m)) as [<-|]; [rewrite lookup_insert; eauto|]. rewrite lookup_insert_ne by done. by apply (d_live _ _ D).
Qed.

(** ** The calls *)
Lemma add_vertex_all (g : graph nterm string) n : ginv g -> exists g', g_add_vertex_if_not_present g n = (g', Ok tt) /\ ginv g' /\
  s_edges (abs g') = s_edges (abs g) /\ is_Some (s_vertices (abs g') !! n) /\
  forall m, s_vertices (abs g') !! m = s_vertices (abs g) !! m \/
    (m = n /\ s_vertices (abs g) !! m = None /\ s_vertices (abs g') !! m = Some None).
Proof.
  intros I. destruct (g_add_vertex_if_ok g n I) as [I' H]. destruct (g_add_vertex_if_not_present g n) as [g' r]. cbn [fst snd] in *.
  simpl in H. destruct H as [Hr H]. destruct r as [[]| | |]; try done. exists g'. split; [done|]. split; [done|].
  destruct H as [[H ->]|[H E']]; [split_and!; try done; by left|].
  rewrite E'. cbn [s_edges s_vertices]. rewrite lookup_insert. split_and!; [done|eauto|]. intros m.
  destruct (decide (m = n)) as [->|]; [right; by rewrite lookup_insert|left; by rewrite lookup_insert_ne].
Qed.
Lemma add_link (g : graph nterm string) a b ob : ginv g -> exists g1 g2 g3 e, g_add_vertex_if_not_present g a = (g1, Ok tt) /\
  g_add_vertex_if_not_present g1 b = (g2, Ok tt) /\ g_add_edge g2 a b ob = (g3, Ok e) /\ added (abs g) (abs g3) a b ob.
Proof.
  intros I. destruct (add_vertex_all g a I) as (g1 & E1 & I1 & H1 & L1 & K1).
  destruct (add_vertex_all g1 b I1) as (g2 & E2 & I2 & H2 & L2 & K2).
  assert (is_Some (s_vertices (abs g2) !! a)) as L3. { destruct (K2 a) as [->|(_ & _ & ->)]; [done|eauto]. }
  destruct (add_edge_eq g2 a b ob I2 L3 L2) as (g3 & e & E3 & I3 & F3 & A3).
  exists g1, g2, g3, e. split; [done|]. split; [done|]. split; [done|]. rewrite A3. unfold added. cbn [s_edges s_vertices].
  split; [exists e; by rewrite <- H1, <- H2|]. split; [done|]. split; [done|]. intros m.
  destruct (K2 m) as [E|(-> & N & E)]; [rewrite E; destruct (K1 m) as [->|(-> & ? & ->)]; auto|].
  destruct (K1 b) as [E'|(_ & _ & E')]; [|congruence]. right. rewrite E, <- E'. auto.
Qed.
Lemma clean_all (g : graph nterm string) : ginv g -> exists g', g_remove_isolated g = (g', Ok tt) /\ ginv g' /\ cleaned (abs g) (abs g') (s_edges (abs g)).
Proof.
  intros I. destruct (g_remove_isolated_ok g I) as [I' (Hr & He & Hv)]. destruct (g_remove_isolated g) as [g' r]. cbn [fst snd] in *.
  destruct r as [[]| | |]; simpl in Hr; try done. exists g'. split; [done|]. split; [done|]. split; [done|]. intros n.
  destruct (Hv n) as [[[H1 H2] H3]|[H1 H2]].
  - left. split; [done|]. split; [|done]. intros Ht. by apply (free_touched (abs g) n Ht).
  - right. split; [|done]. intros Hn. apply touched_free. intros Hf. apply H1. by split.
Qed.

Lemma invalidate_eq st : ewf st -> is_Some (e_cur st) -> exists vars, nb_invalidate st = (Ok tt, mkE (e_sh st) vars (e_cur st)).
Proof.
  intros [_ W] [i Hc]. destruct (W i Hc) as [v Hi]. unfold nb_invalidate, aget, aput, aindex, abind. rewrite Hc, Hi. rewrite Hc, Hi. rewrite Hc. eexists. reflexivity.
Qed.

(** What a call does to the graph, and to the plan. *)
Lemma call_drawn c st P : ninv false st -> srt_ok c -> is_Some (e_cur st) -> drawn P (nbg st) ->
  drawn (draw P (ECall c) (nb_call c st).1) (nbg (nb_call c st).2).
Proof.
  intros I Ho Hcur D. pose proof (ni_sh _ _ I) as S. pose proof (si_g _ S) as Ig.
  assert (forall id, p_sw P !! id = None <-> nb_sw (e_sh st) !! id = None) as Hsw.
  { intros id. rewrite !eq_None_not_Some. split; intros H [x Hx]; apply H.
    - destruct (si_sw _ S id x Hx) as (a & b & He). exists (a, b). apply (d_sw _ _ D). by exists x.
    - apply (d_sw _ _ D) in Hx as [e He]. destruct x as [a b]. exists e. by eapply (si_edge _ S). }
  assert (forall (m : nbact unit) X, tri X (fun s => s = st) m (fun _ => X) -> (forall s, X s -> nbg s = nbg st) -> nbg (m st).2 = nbg st) as Htri.
  { intros m X T HX. destruct (tri_use' X _ m st T eq_refl) as (_ & _ & H). by apply HX. }
  destruct c as [id k p n1 n2|id|n1 n2|n1 n2|n t|n|id x|id x|vw n|vw k|srt n|srt n]; cbn [nb_call].
  - (* addSwitch *)
    unfold nb_add_switch. destruct (decide (id = "")) as [Hd|Hd].
    { erewrite abind_Throw; [|unfold nb_index_add; rewrite bool_decide_true by done; reflexivity]. done. }
    destruct (decide (id ∈ nb_ids (e_sh st))) as [Hid|Hid].
    { erewrite abind_Throw; [|unfold nb_index_add; rewrite bool_decide_false, bool_decide_true by done; reflexivity]. done. }
    destruct (add_link (nb_graph (e_sh st)) n1 n2 (Some id) Ig) as (g1 & g2 & g3 & e & E1 & E2 & E3 & A).
    erewrite abind_Ok; [|unfold nb_index_add; rewrite !bool_decide_false by done; reflexivity].
    gstep E1. gstep E2. gstep E3. cbn [fst snd draw]. unfold nbg. cbn [e_sh nb_graph nb_set_graph].
    apply (add_switch_drawn P (nbg st)); [exact A|done|]. apply Hsw. apply eq_None_not_Some. intros H.
    apply Hid, (si_ids _ S), (si_kind _ S). done.
  - (* removeSwitch *)
    unfold nb_remove_switch. rewrite (abind_Ok ashared _ st (e_sh st) st eq_refl).
    destruct (nb_sw (e_sh st) !! id) as [e|] eqn:He; [|done].
    destruct (si_sw _ S id e He) as (a & b' & Hed).
    destruct (remove_edge_eq (nb_graph (e_sh st)) e a b' (Some id) Ig Hed) as (g1 & E1 & I1 & A1).
    destruct (clean_all g1 I1) as (g2 & E2 & I2 & C2).
    gstep E1. unfold nb_clean. gstep E2. unfold abind, nb_index_remove. cbn [fst snd draw]. unfold nbg. cbn [e_sh nb_graph nb_set_graph].
    rewrite A1 in C2. cbn [s_edges] in C2. eapply (remove_switch_drawn P (nbg st)); [exact Hed| | |done].
    + intros e' [x y] He'. apply (si_edge _ S) in He'. congruence.
    + destruct C2 as [C3 C4]. split; [exact C3|]. exact C4.
  - (* addInternalConnection *)
    unfold nb_add_internal.
    destruct (add_link (nb_graph (e_sh st)) n1 n2 None Ig) as (g1 & g2 & g3 & e & E1 & E2 & E3 & A).
    gstep E1. gstep E2. gstep E3.
    edestruct (invalidate_eq) as [vars ->]; [| |cbn [fst snd draw]].
    { destruct I as [[W1 W2] _ _]. split; [exact W1|exact W2]. } { done. }
    unfold nbg. cbn [e_sh nb_graph nb_set_graph]. by apply (add_internal_drawn P (nbg st)).
  - (* removeInternalConnections *)
    unfold nb_remove_internal. rewrite (abind_Ok ashared _ st (e_sh st) st eq_refl). destruct (existsb _ _); [|done].
    destruct (remove_internal_loop_ok n1 n2 (length (g_edges (nb_graph (e_sh st)))) 0 (nb_graph (e_sh st)) Ig) as (g1 & E1 & I1 & V1 & H1 & H1'); [done|].
    destruct (clean_all g1 I1) as (g2 & E2 & I2 & C2).
    gstep E1. unfold nb_clean. gstep E2.
    edestruct (invalidate_eq) as [vars ->]; [| |cbn [fst snd draw]].
    { destruct I as [[W1 W2] _ _]. split; [exact W1|exact W2]. } { done. }
    unfold nbg. cbn [e_sh nb_graph nb_set_graph]. eapply (remove_internal_drawn P (nbg st) _ (s_edges (abs g1))); [| | |done].
    + intros e [a b'] i. apply H1.
    + intros e [a b']. rewrite H1'. unfold nbg, between. split; (intros [? Hn]; split; [done|]); intros Hb; apply Hn.
      * destruct Hb as [[= -> ->]|[= -> ->]]; (split; [lia|]); auto.
      * destruct Hb as [_ [[-> ->]|[-> ->]]]; auto.
    + destruct C2 as [C3 C4]. split; [exact C3|]. rewrite V1 in C4. exact C4.
  - (* attach *)
    unfold nb_attach. destruct (add_vertex_all (nb_graph (e_sh st)) n Ig) as (g1 & E1 & I1 & H1 & L1 & K1). gstep E1.
    destruct (vertex_object_eq g1 n) as [(o & Eo & Hv)|(m & _ & Hv)]; [|destruct L1; congruence].
    gstep (f_equal (pair g1) Eo). destruct o as [t'|].
    + cbn [athrow fst snd draw]. unfold nbg. cbn [e_sh nb_graph nb_set_graph].
      assert (abs g1 = nbg st) as ->; [|done]. apply sgraph_eq; [|intros; by rewrite H1]. intros m. unfold nbg.
      destruct (K1 m) as [?|(-> & _ & ?)]; [done|congruence].
    + destruct (set_object_eq g1 n (Some t) I1 L1) as (g2 & E2 & I2 & A2). gstep E2.
      unfold nb_invalidate_all, abind, aindex. cbn [e_cur]. destruct Hcur as [i Hi]. rewrite Hi. cbn [fst snd draw].
      unfold nbg. cbn [e_sh nb_graph nb_set_graph]. apply (attach_drawn P (nbg st)); [|by rewrite A2|done].
      intros m. rewrite A2. cbn [s_vertices]. case_decide as Hm; [subst; by rewrite lookup_insert|]. rewrite lookup_insert_ne by done.
      by destruct (K1 m) as [?|(? & _ & _)].
  - (* detach *)
    unfold nb_detach. rewrite (abind_Ok ashared _ st (e_sh st) st eq_refl).
    destruct (vertex_object_eq (nb_graph (e_sh st)) n) as [(o & Eo & Hv)|(m & Eo & Hv)]; rewrite Eo; [|done].
    destruct o as [t|]; [|done].
    assert (nb_invalidate_all st = (Ok tt, mkE (e_sh st) (nv_invalidate <$> e_vars st) (e_cur st))) as Hall.
    { unfold nb_invalidate_all, abind, aindex. destruct Hcur as [i Hi]. rewrite Hi. cbn. by rewrite Hi. }
    rewrite (abind_Ok _ _ _ _ _ Hall).
    destruct (set_object_eq (nb_graph (e_sh st)) n None Ig) as (g1 & E1 & I1 & A1); [eauto|].
    destruct (clean_all g1 I1) as (g2 & E2 & I2 & C2).
    gstep E1. unfold nb_clean. erewrite gact_eq; [|exact E2]. cbn [fst snd draw]. unfold nbg. cbn [e_sh nb_graph nb_set_graph].
    eapply (detach_drawn P (nbg st)); [exact Hv| |done]. rewrite A1 in C2. exact C2.
  - (* setOpen *)
    assert (nbg (on_switch id (sw_set_open id x) st).2 = nbg st) as ->; [|by destruct (on_switch _ _ st).1].
    unfold on_switch. rewrite (abind_Ok ashared _ st (e_sh st) st eq_refl). case_bool_decide as Hk; [|done].
    destruct Hcur as [i Hc]. destruct (proj2 (ni_wf _ _ I) i Hc) as [v Hi].
    destruct (proj2 (vi_dom _ _ _ (ni_var _ _ I i v Hi) id) Hk) as [p Hp]. rewrite (set_open_eq _ _ _ _ _ _ Hc Hi Hp). case_decide; [done|].
    by rewrite (sw_write_eq _ _ _ _ _ Hc Hi).
  - (* setRetained *)
    assert (nbg (on_switch id (sw_set_retained id x) st).2 = nbg st) as ->; [|by destruct (on_switch _ _ st).1].
    unfold on_switch. rewrite (abind_Ok ashared _ st (e_sh st) st eq_refl). case_bool_decide as Hk; [|done].
    destruct Hcur as [i Hc]. destruct (proj2 (ni_wf _ _ I) i Hc) as [v Hi].
    destruct (proj2 (vi_dom _ _ _ (ni_var _ _ I i v Hi) id) Hk) as [p Hp]. rewrite (set_retained_eq _ _ _ _ _ _ Hc Hi Hp). case_decide; [done|].
    by rewrite (sw_write_eq _ _ _ _ _ Hc Hi).
  - assert (nbg (amap (fun _ => tt) (nb_bus_of_node vw n) st).2 = nbg st) as ->; [|by destruct (amap _ _ st).1].
    apply (Htri _ (fun s => same_but_cache st s)); [|intros s Hs; by apply sbc_graph]. apply amap_tri.
    eapply tri_conseq; [by apply (bus_of_node_tri (fun s => same_but_cache st s) vw n false st)|done|]. by intros a s [_ ?].
  - assert (nbg (amap (fun _ => tt) (nb_bus_of_id vw k) st).2 = nbg st) as ->; [|by destruct (amap _ _ st).1].
    apply (Htri _ (fun s => same_but_cache st s)); [|intros s Hs; by apply sbc_graph]. apply amap_tri.
    eapply tri_conseq; [by apply (bus_of_id_tri (fun s => same_but_cache st s) vw k false st)|done|]. by intros a s [_ ?].
  - assert (nbg (amap (fun _ => tt) (on_terminal n (nb_connect srt n)) st).2 = nbg st) as ->; [|by destruct (amap _ _ st).1].
    apply (Htri _ (fun s => nbg s = nbg st)); [|done]. apply amap_tri. intros ? ->. unfold on_terminal. rewrite (abind_Ok ashared _ st (e_sh st) st eq_refl).
    destruct (vertex_object_eq (nb_graph (e_sh st)) n) as [(o & E & Hv)|(m' & E & Hv)]; rewrite E; [|done]. destruct o as [t|]; [|done].
    destruct (nb_connect_ok false srt n st Ho I) as (r & s & -> & I' & M & H1 & H2 & _); [unfold nbg; eauto|]. apply moved_graph in M as [M _]. by destruct r.
  - assert (nbg (amap (fun _ => tt) (on_terminal n (nb_disconnect srt n)) st).2 = nbg st) as ->; [|by destruct (amap _ _ st).1].
    apply (Htri _ (fun s => nbg s = nbg st)); [|done]. apply amap_tri. intros ? ->. unfold on_terminal. rewrite (abind_Ok ashared _ st (e_sh st) st eq_refl).
    destruct (vertex_object_eq (nb_graph (e_sh st)) n) as [(o & E & Hv)|(m' & E & Hv)]; rewrite E; [|done]. destruct o as [t|]; [|done].
    destruct (nb_disconnect_ok false srt n st Ho I) as (r & s & -> & I' & M & H1 & H2 & _); [unfold nbg; eauto|]. apply moved_graph in M as [M _]. by destruct r.
Qed.
Lemma built_drawn P st : built P st -> ninv false st /\ drawn P (nbg st).
Proof.
  induction 1 as [vl ids vars cur H1 H2|P st o H [I D] Ho Hc].
  - split; [by apply nb_new_inv|]. unfold nbg, nb_new. cbn [e_sh nb_graph].
    assert (abs (g_init (V := nterm) (E := string)) = mkS ∅ ∅) as ->.
    { apply sgraph_eq; intros x; [rewrite abs_vertices|rewrite abs_edges]; by destruct x. }
    split; cbn [blank p_sw p_ic p_tm s_edges s_vertices].
    + intros id p. rewrite lookup_empty. split; [done|]. intros [e He]. by rewrite lookup_empty in He.
    + unfold ics. by rewrite map_to_list_empty.
    + intros n t. rewrite !lookup_empty. done.
    + intros n. by rewrite lookup_empty.
    + intros n (e & p & o & He & _). by rewrite lookup_empty in He.
  - split; [by apply nb_step_inv|]. destruct o as [c|src tgt ow|id|id].
    + cbn [nb_step estep]. apply call_drawn; [done|done|by eapply Hc|done].
    + assert (draw P (EClone src tgt ow) (nb_step st (EClone src tgt ow)).1 = P) as -> by (by destruct (nb_step st _).1). cbn [nb_step].
      destruct (e_vars st !! src); [|done]. by destruct (bool_decide _ && _).
    + assert (draw P (ERemove id) (nb_step st (ERemove id)).1 = P) as -> by (by destruct (nb_step st _).1). cbn [nb_step estep].
      case_bool_decide; [done|]. by destruct (e_vars st !! id).
    + assert (draw P (EWork id) (nb_step st (EWork id)).1 = P) as -> by (by destruct (nb_step st _).1). cbn [nb_step estep].
      by destruct (e_vars st !! id).
Qed.

(** ** The reads *)
Lemma vertices_list {C} (g : graph nterm string) (F : option nterm -> option C) :
  omap (fun x => x ≫= F) (g_vertices g) ≡ₚ omap (fun x => F x.2) (map_to_list (s_vertices (abs g))).
Proof.
  apply (omap_map_list (fun x => x) F _ 0). intros e. rewrite abs_vertices, Nat.sub_0_r, decide_True by lia.
  by destruct (mjoin (g_vertices g !! e)).
Qed.
Lemma edges_list {C} (g : graph nterm string) (F : nat * nat * option string -> option C) :
  omap (fun x => x ≫= (fun ed => F (ends ed))) (g_edges g) ≡ₚ omap (fun x => F x.2) (map_to_list (s_edges (abs g))).
Proof. apply (omap_map_list ends F _ 0). intros e. by rewrite abs_edges, Nat.sub_0_r, decide_True by lia. Qed.

Lemma edge_objects_some (g : graph nterm string) : omap (fun o => o) (g_edge_objects g) = omap (fun x => x ≫= (fun ed => (ends ed).2)) (g_edges g).
Proof.
  unfold g_edge_objects. induction (g_edges g) as [|[ed|] l IH]; [done| |exact IH].
  change (match e_obj ed with Some y => y :: omap (fun o => o) (omap (fun x => e_obj <$> x) l) | None => omap (fun o => o) (omap (fun x => e_obj <$> x) l) end =
    match e_obj ed with Some y => y :: omap (fun x => x ≫= (fun ed => (ends ed).2)) l | None => omap (fun x => x ≫= (fun ed => (ends ed).2)) l end).
  by rewrite IH.
Qed.
Lemma count_some {A} (l : list (option A)) : length (filter (fun o => is_Some o) l) = length (omap (fun o => o) l).
Proof.
  induction l as [|[a|] l IH]; [done| |]; rewrite filter_cons.
  - rewrite decide_True by eauto. simpl. by f_equal.
  - rewrite decide_False by (by intros []). exact IH.
Qed.
Lemma switches_perm st : nv_switches (e_sh st) ≡ₚ sws (s_edges (nbg st)).
Proof. unfold nv_switches, sws, nbg. rewrite edge_objects_some. apply (edges_list _ (fun x => x.2)). Qed.
Lemma internals_perm st : nv_internals (e_sh st) ≡ₚ ics (s_edges (nbg st)).
Proof.
  unfold nv_internals, ics, nbg. rewrite <- (edges_list _ ic_of).
  erewrite (omap_same _ (fun x => x ≫= (fun ed => ic_of (ends ed)))); [done|]. by intros [[a b [o|]]|].
Qed.
Lemma internal_count_length (s : nbsh) : nv_internal_count s = length (nv_internals s).
Proof.
  unfold nv_internal_count, nv_internals, g_edge_objects. induction (g_edges (nb_graph s)) as [|[[a b [o|]]|] l IH]; [done|exact IH| |exact IH].
  change (length (filter (fun o => o = None) (None :: omap (fun x => e_obj <$> x) l)) = S (length (omap
    (fun x => match x with Some ed => match e_obj ed with None => Some (e_v1 ed, e_v2 ed) | Some _ => None end | None => None end) l))).
  rewrite filter_cons, decide_True by done. simpl. by f_equal.
Qed.

Section reads.
  Context (P : plan) (st : nbst) (B : built P st).
  Let I : ninv false st := proj1 (built_drawn P st B).
  Let D : drawn P (nbg st) := proj2 (built_drawn P st B).
  Let S : shinv (e_sh st) := ni_sh _ _ I.

  Lemma sw_edge id p : p_sw P !! id = Some p -> exists e, nb_sw (e_sh st) !! id = Some e /\ s_edges (nbg st) !! e = Some (p, Some id).
  Proof. intros [e He]%(d_sw _ _ D). exists e. split; [|done]. destruct p. by eapply (si_edge _ S). Qed.
  Lemma sw_none id : p_sw P !! id = None -> nb_sw (e_sh st) !! id = None.
  Proof.
    intros H. destruct (nb_sw (e_sh st) !! id) as [e|] eqn:He; [|done]. destruct (si_sw _ S id e He) as (a & b & Hed).
    assert (p_sw P !! id = Some (a, b)); [|congruence]. apply (d_sw _ _ D). by exists e.
  Qed.
  Lemma sw_kind id p : p_sw P !! id = Some p -> is_Some (nb_kind (e_sh st) !! id).
  Proof. intros (e & He & _)%sw_edge. apply (si_kind _ S). eauto. Qed.
  Lemma switches_elem id : id ∈ nv_switches (e_sh st) <-> is_Some (p_sw P !! id).
  Proof.
    rewrite switches_perm, sws_elem. split.
    - intros (e & p & He). exists p. apply (d_sw _ _ D). by exists e.
    - intros [p Hp]. apply (d_sw _ _ D) in Hp as [e He]. eauto.
  Qed.
  Lemma switches_nodup : NoDup (nv_switches (e_sh st)).
  Proof.
    rewrite switches_perm. apply NoDup_omap_inj; [apply NoDup_map_to_list|].
    intros [e [[a b] o]] [e' [[a' b'] o']] id He%elem_of_map_to_list He'%elem_of_map_to_list Ho Ho'. simpl in Ho, Ho'. subst o o'.
    pose proof (si_edge _ S _ _ _ _ He). pose proof (si_edge _ S _ _ _ _ He'). assert (e' = e) as -> by congruence. unfold nbg in *. congruence.
  Qed.
  Lemma switch_count_eq : nv_switch_count (e_sh st) = size (p_sw P).
  Proof.
    unfold nv_switch_count. rewrite count_some. fold (nv_switches (e_sh st)). rewrite <- size_dom.
    rewrite <- (size_list_to_set (C := gset string) (nv_switches (e_sh st)) switches_nodup). f_equal. apply set_eq. intros id.
    by rewrite elem_of_list_to_set, switches_elem, elem_of_dom.
  Qed.
  Lemma nodes_elem n : n ∈ nv_nodes (e_sh st) <-> in_use P n.
  Proof.
    unfold nv_nodes. rewrite g_get_vertices_spec. fold (nbg st). split.
    - intros [[t|] Hn]; [left; exists t; by apply (d_tm _ _ D)|]. right. apply (d_none _ _ D) in Hn as (e & p & [id|] & He & Hp).
      + left. exists id, p. split; [|done]. apply (d_sw _ _ D). by exists e.
      + right. exists p. split; [|done]. rewrite <- (d_ic _ _ D). apply ics_elem. by exists e.
    - intros [[t Ht]|[(id & p & Hp & Hn)|(p & Hp & Hn)]].
      + apply (d_tm _ _ D) in Ht. eauto.
      + apply (d_sw _ _ D) in Hp as [e He]. apply (d_live _ _ D). by exists e, p, (Some id).
      + rewrite <- (d_ic _ _ D) in Hp. apply ics_elem in Hp as [e He]. apply (d_live _ _ D). by exists e, p, None.
  Qed.
  Lemma nodes_nodup : NoDup (nv_nodes (e_sh st)).
  Proof. unfold nv_nodes, g_get_vertices. apply NoDup_filter, NoDup_seq. Qed.
  Lemma node_live n : in_use P n -> is_Some (s_vertices (nbg st) !! n).
  Proof. intros H%nodes_elem. unfold nv_nodes in H. by apply g_get_vertices_spec in H. Qed.
  Lemma max_node_ge n : in_use P n -> (Z.of_nat n <= nv_max_node (e_sh st))%Z.
  Proof.
    intros [o H]%node_live. unfold nbg in H. rewrite abs_vertices in H. unfold nv_max_node, g_vertex_capacity.
    destruct (g_vertices (nb_graph (e_sh st)) !! n) as [x|] eqn:Hn; [|done]. apply lookup_lt_Some in Hn. lia.
  Qed.
  Lemma max_node_used : nv_max_node (e_sh st) = (-1)%Z \/ exists n, nv_max_node (e_sh st) = Z.of_nat n /\ in_use P n.
  Proof.
    pose proof (inv_last _ (si_g _ S)) as HL. unfold nv_max_node, g_vertex_capacity.
    destruct (g_vertices (nb_graph (e_sh st))) as [|x l _] eqn:El using rev_ind; [by left|]. right. rewrite last_snoc in HL.
    exists (length l). rewrite app_length. simpl. split; [lia|]. apply nodes_elem. unfold nv_nodes. apply g_get_vertices_spec.
    rewrite abs_vertices, El, lookup_app_r, Nat.sub_diag by lia. destruct x; [simpl; eauto|done].
  Qed.
  Lemma optional_terminal_eq n : nv_optional_terminal (e_sh st) n = Ok (p_tm P !! n).
  Proof.
    unfold nv_optional_terminal. destruct (vertex_object_eq (nb_graph (e_sh st)) n) as [(o & Eo & Hv)|(m & Eo & Hv)].
    - assert (g_vertex_exists (nb_graph (e_sh st)) n = true) as ->.
      { rewrite abs_vertices in Hv. unfold g_vertex_exists. by destruct (g_vertices (nb_graph (e_sh st)) !! n) as [[]|]. }
      rewrite Eo. f_equal. destruct o as [t|]; [symmetry; by apply (d_tm _ _ D)|]. destruct (p_tm P !! n) as [t|] eqn:Ht; [|done].
      apply (d_tm _ _ D) in Ht. unfold nbg in Ht. congruence.
    - assert (g_vertex_exists (nb_graph (e_sh st)) n = false) as ->.
      { rewrite abs_vertices in Hv. unfold g_vertex_exists. by destruct (g_vertices (nb_graph (e_sh st)) !! n) as [[]|]. }
      f_equal. destruct (p_tm P !! n) as [t|] eqn:Ht; [|done]. apply (d_tm _ _ D) in Ht. unfold nbg in Ht. congruence.
  Qed.
  Lemma terminal_used n : in_use P n -> nv_terminal (e_sh st) n = Ok (p_tm P !! n).
  Proof.
    intros H%node_live. unfold nv_terminal. pose proof (optional_terminal_eq n) as Ho. unfold nv_optional_terminal in Ho.
    assert (g_vertex_exists (nb_graph (e_sh st)) n = true) as Hx; [|by rewrite Hx in Ho].
    unfold nbg in H. rewrite abs_vertices in H. unfold g_vertex_exists. destruct H as [o H]. by destruct (g_vertices (nb_graph (e_sh st)) !! n) as [[]|].
  Qed.
  Lemma terminal_unused n : ~ in_use P n -> exists m, nv_terminal (e_sh st) n = Throw m.
  Proof.
    intros H. unfold nv_terminal. destruct (vertex_object_eq (nb_graph (e_sh st)) n) as [(o & Eo & Hv)|(m & Eo & Hv)]; [|eauto].
    exfalso. apply H, nodes_elem. unfold nv_nodes. apply g_get_vertices_spec. eauto.
  Qed.
  Lemma terminals_perm : nv_terminals (e_sh st) ≡ₚ (map_to_list (p_tm P)).*2.
  Proof.
    assert (nv_terminals (e_sh st) ≡ₚ omap (fun x => x.2) (map_to_list (s_vertices (nbg st)))) as ->.
    { unfold nv_terminals, nbg. rewrite <- (vertices_list _ (fun x => x)). unfold g_vertex_objects.
      induction (g_vertices (nb_graph (e_sh st))) as [|[[t|]|] l IH]; [done|simpl; by apply Permutation_cons|exact IH|exact IH]. }
    assert (map_to_list (p_tm P) ≡ₚ omap (fun x => pair x.1 <$> x.2) (map_to_list (s_vertices (nbg st)))) as ->.
    { apply NoDup_Permutation; [apply NoDup_map_to_list| |].
      - apply NoDup_omap_inj; [apply NoDup_map_to_list|]. intros [n [t|]] [n' [t'|]] [m y]; simpl; try done. intros _ _ [= <- <-] [= <- <-]. done.
      - intros [n t]. rewrite elem_of_map_to_list, elem_of_list_omap, (d_tm _ _ D). split.
        + intros H. exists (n, Some t). split; [by apply elem_of_map_to_list|done].
        + intros ([n' [t'|]] & H%elem_of_map_to_list & E); [|done]. simpl in E. by injection E as -> ->. }
    induction (map_to_list (s_vertices (nbg st))) as [|[n [t|]] l IH]; [done|simpl; by apply Permutation_cons|exact IH].
  Qed.
  Lemma vertex1_eq id p : p_sw P !! id = Some p -> id <> "" -> nv_node1 (e_sh st) id = Ok p.1 /\ nv_node2 (e_sh st) id = Ok p.2.
  Proof.
    intros (e & He & Hed)%sw_edge Hn. unfold nv_node1, nv_node2, nb_edge. rewrite bool_decide_false, He by done. cbn [result_bind deref].
    unfold g_vertex1, g_vertex2. pose proof (check_edge_spec (nb_graph (e_sh st)) e) as C. unfold nbg in Hed. rewrite abs_edges in Hed.
    destruct (g_check_edge (nb_graph (e_sh st)) e) as [ed|m| |]; simpl in C; try done; rewrite C in Hed; [|done]. simpl in Hed. injection Hed as <- _. done.
  Qed.
End reads.

Lemma add_switch_empty k p n1 n2 st : exists m, (nb_add_switch "" k p n1 n2 st).1 = Throw m.
Proof. unfold nb_add_switch. erewrite abind_Throw; [|unfold nb_index_add; rewrite bool_decide_true by done; reflexivity]. eauto. Qed.
Lemma built_named P st : built P st -> p_sw P !! "" = None.
Proof.
  induction 1 as [vl ids vars cur H1 H2|P st o H IH Ho Hc]; [apply lookup_empty|].
  destruct ((nb_step st o).1) as [[]| | |] eqn:Er; try done; try (by destruct o as [[]| | |]).
  destruct o as [[id k p n1 n2|id|n1 n2|n1 n2|n t|n|id x|id x|vw n|vw k|srt n|srt n]| | |]; cbn [draw p_sw]; try done.
  - rewrite lookup_insert_ne; [done|]. intros ->. destruct (add_switch_empty k p n1 n2 st) as [m Hm]. cbn [nb_step estep nb_call] in Er. congruence.
  - by rewrite lookup_delete_None; right.
Qed.

(** ** The bus/breaker view *)
Definition keptb (st : nbst) (id : string) : bool := match pos st id with Some p => p.2 | None => false end.
Lemma keptb_spec st id : keptb st id = true <-> kept_switch st id.
Proof.
  unfold keptb, kept_switch. destruct (pos st id) as [[x y]|]; simpl; split.
  - intros ->. eauto.
  - by intros [x' [= <- ->]].
  - done.
  - by intros [x' H].
Qed.
Lemma aget_ok b st : ninv b st -> is_Some (e_cur st) -> exists v, aget st = (Ok v, st).
Proof. intros I [i Hc]. destruct (proj2 (ni_wf _ _ I) i Hc) as [v Hi]. exists v. unfold aget, abind, aindex. by rewrite Hc, Hi. Qed.
Lemma sw_retained_eq b id st : ninv b st -> is_Some (nb_kind (e_sh st) !! id) -> is_Some (e_cur st) -> sw_retained id st = (Ok (keptb st id), st).
Proof.
  intros I Hk Hc. destruct (sw_get_pos b id st I Hk Hc) as (p & E & Hp). unfold sw_retained. rewrite (abind_Ok _ _ _ _ _ E). unfold keptb. by rewrite Hp.
Qed.
Lemma bv_filter_eq b st l : ninv b st -> is_Some (e_cur st) -> (forall id, id ∈ omap (fun o => o) l -> is_Some (nb_kind (e_sh st) !! id)) ->
  bv_filter l st = (Ok (List.filter (keptb st) (omap (fun o => o) l)), st).
Proof.
  intros I Hc. induction l as [|[id|] l IH]; intros H; [done| |by apply IH]. cbn [bv_filter].
  rewrite (abind_Ok _ _ _ _ _ (sw_retained_eq b id st I (H id (elem_of_list_here id _)) Hc)).
  assert (forall id', id' ∈ omap (fun o : option string => o) l -> is_Some (nb_kind (e_sh st) !! id')) as H' by (intros id' Hi; apply H; by right).
  rewrite (abind_Ok _ _ _ _ _ (IH H')). by destruct (keptb st id) eqn:Hk; simpl; rewrite Hk.
Qed.
Lemma bv_count_eq b st l : ninv b st -> is_Some (e_cur st) -> (forall id, id ∈ omap (fun o => o) l -> is_Some (nb_kind (e_sh st) !! id)) ->
  forall n, bv_count l n st = (Ok (n + length (List.filter (keptb st) (omap (fun o => o) l))), st).
Proof.
  intros I Hc. induction l as [|[id|] l IH]; intros H n; [cbn; by rewrite Nat.add_0_r| |by apply IH]. cbn [bv_count].
  rewrite (abind_Ok _ _ _ _ _ (sw_retained_eq b id st I (H id (elem_of_list_here id _)) Hc)). rewrite IH by (intros id' Hi; apply H; by right).
  destruct (keptb st id) eqn:Hk; simpl; rewrite Hk; simpl; by rewrite ?Nat.add_succ_r.
Qed.
Lemma section_node_spec (s : nbsh) id :
  match nv_section_node s id with
  | Some n => exists t, s_vertices (abs (nb_graph s)) !! n = Some (Some t) /\ nt_id t = id /\ nt_type t = BUSBAR_SECTION
  | None => forall n t, s_vertices (abs (nb_graph s)) !! n = Some (Some t) -> nt_id t = id -> nt_type t <> BUSBAR_SECTION
  end.
Proof.
  unfold nv_section_node. destruct (List.find _ _) as [n|] eqn:Ef.
  - apply List.find_some in Ef as [_ Ef]. destruct (g_vertices (nb_graph s) !! n) as [[[t|]|]|] eqn:Hn; try done.
    apply andb_true_iff in Ef as [E1%bool_decide_eq_true E2%bool_decide_eq_true]. exists t. by rewrite abs_vertices, Hn.
  - intros n t Hn Hid Hty. rewrite abs_vertices in Hn. destruct (g_vertices (nb_graph s) !! n) as [x|] eqn:El; [|done]. simpl in Hn. subst x.
    pose proof (List.find_none _ _ Ef n) as H. cbv beta in H. rewrite El, !bool_decide_true in H by done. simpl in H.
    assert (true = false) as ?; [|done]. apply H, List.in_seq. apply lookup_lt_Some in El. lia.
Qed.

Section bus_breaker.
  Context (P : plan) (st : nbst) (B : built P st) (Hc : is_Some (e_cur st)).
  Let I : ninv false st := proj1 (built_drawn P st B).
  Let D : drawn P (nbg st) := proj2 (built_drawn P st B).
  Let S : shinv (e_sh st) := ni_sh _ _ I.

  Lemma objects_known id : id ∈ omap (fun o => o) (g_edge_objects (nb_graph (e_sh st))) -> is_Some (nb_kind (e_sh st) !! id).
  Proof. fold (nv_switches (e_sh st)). intros [p Hp]%(switches_elem P st B). by eapply (sw_kind P st B). Qed.
  Lemma bv_switches_eq : bv_switches st = (Ok (List.filter (keptb st) (nv_switches (e_sh st))), st).
  Proof.
    unfold bv_switches. destruct (aget_ok _ st I Hc) as [v Ev]. rewrite (abind_Ok _ _ _ _ _ Ev). rewrite (abind_Ok ashared _ st (e_sh st) st eq_refl).
    apply (bv_filter_eq false); [done|done|]. apply objects_known.
  Qed.
  Lemma bv_switch_count_eq : bv_switch_count st = (Ok (length (List.filter (keptb st) (nv_switches (e_sh st)))), st).
  Proof.
    unfold bv_switch_count. destruct (aget_ok _ st I Hc) as [v Ev]. rewrite (abind_Ok _ _ _ _ _ Ev). rewrite (abind_Ok ashared _ st (e_sh st) st eq_refl).
    apply (bv_count_eq false); [done|done|]. apply objects_known.
  Qed.
  Lemma bv_retained_eq id e p : nb_sw (e_sh st) !! id = Some e -> p_sw P !! id = Some p ->
    bv_retained (Some e) st = (Ok (if keptb st id then Some id else None), st).
  Proof.
    intros He Hp. destruct (sw_edge P st B id p Hp) as (e' & He' & Hed). assert (e' = e) as -> by congruence.
    unfold bv_retained. rewrite (abind_Ok ashared _ st (e_sh st) st eq_refl).
    destruct (edge_object_eq (nb_graph (e_sh st)) e) as [(a & b & o & Eo & Ho)|(m & _ & Ho)]; unfold nbg in Hed; [|congruence].
    rewrite Ho in Hed. injection Hed as <- ->. erewrite (abind_Ok (alift _)); [|unfold alift; rewrite Eo; reflexivity].
    cbv beta iota. by rewrite (abind_Ok _ _ _ _ _ (sw_retained_eq false id st I (sw_kind P st B id _ Hp) Hc)).
  Qed.
  Lemma bv_switch_eq id : match p_sw P !! id with
    | Some _ => if keptb st id then bv_switch id st = (Ok (Some id), st) else exists m, bv_switch id st = (Throw m, st)
    | None => exists m, bv_switch id st = (Throw m, st)
    end.
  Proof.
    unfold bv_switch. destruct (aget_ok _ st I Hc) as [v Ev]. rewrite (abind_Ok _ _ _ _ _ Ev). rewrite (abind_Ok ashared _ st (e_sh st) st eq_refl).
    destruct (p_sw P !! id) as [p|] eqn:Hp.
    - assert (id <> "") as Hn. { intros ->. by rewrite (built_named P st B) in Hp. }
      destruct (sw_edge P st B id p Hp) as (e & He & _). erewrite (abind_Ok (alift _)); [|unfold alift, nb_edge; rewrite bool_decide_false, He by done; reflexivity].
      rewrite (abind_Ok _ _ _ _ _ (bv_retained_eq id e p He Hp)). destruct (keptb st id); [done|by eexists].
    - destruct (decide (id = "")) as [->|Hn]; [by eexists|].
      erewrite (abind_Ok (alift _)); [|unfold alift, nb_edge; rewrite bool_decide_false, (sw_none P st B id Hp) by done; reflexivity]. by eexists.
  Qed.
  Lemma bv_bus_eq id p : p_sw P !! id = Some p -> keptb st id = true ->
    bv_bus1 id st = nb_bus_of_node BusBreakerView p.1 st /\ bv_bus2 id st = nb_bus_of_node BusBreakerView p.2 st.
  Proof.
    intros Hp Hk. assert (id <> "") as Hn. { intros ->. by rewrite (built_named P st B) in Hp. }
    destruct (sw_edge P st B id p Hp) as (e & He & _). destruct (vertex1_eq P st B id p Hp Hn) as [E1 E2].
    unfold nv_node1, nb_edge in E1. rewrite bool_decide_false, He in E1 by done. cbn [result_bind deref] in E1.
    unfold nv_node2, nb_edge in E2. rewrite bool_decide_false, He in E2 by done. cbn [result_bind deref] in E2.
    destruct (aget_ok _ st I Hc) as [v Ev]. pose proof (bv_retained_eq id e p He Hp) as Er. rewrite Hk in Er. unfold bv_bus1, bv_bus2.
    split; rewrite (abind_Ok _ _ _ _ _ Ev), (abind_Ok ashared _ st (e_sh st) st eq_refl);
      (erewrite (abind_Ok (alift _)); [|unfold alift, nb_edge; rewrite bool_decide_false, He by done; reflexivity]);
      rewrite (abind_Ok _ _ _ _ _ Er); erewrite (abind_Ok (alift _)); try reflexivity.
    - erewrite (abind_Ok (alift _)); [|unfold alift; rewrite E1; reflexivity]. done.
    - erewrite (abind_Ok (alift _)); [|unfold alift; rewrite E2; reflexivity]. done.
  Qed.
  Lemma bv_bus_throws id : (p_sw P !! id = None \/ keptb st id = false) -> (exists m, bv_bus1 id st = (Throw m, st)) /\ exists m, bv_bus2 id st = (Throw m, st).
  Proof.
    intros H. destruct (aget_ok _ st I Hc) as [v Ev]. unfold bv_bus1, bv_bus2. rewrite !(abind_Ok _ _ _ _ _ Ev), !(abind_Ok ashared _ st (e_sh st) st eq_refl).
    destruct (decide (id = "")) as [->|Hn]; [split; by eexists|]. destruct (p_sw P !! id) as [p|] eqn:Hp.
    - destruct H as [H|H]; [done|]. destruct (sw_edge P st B id p Hp) as (e & He & _). pose proof (bv_retained_eq id e p He Hp) as Er. rewrite H in Er.
      split; (erewrite (abind_Ok (alift _)); [|unfold alift, nb_edge; rewrite bool_decide_false, He by done; reflexivity]);
        rewrite (abind_Ok _ _ _ _ _ Er); by eexists.
    - split; erewrite abind_Throw; try by eexists.
      all: unfold alift, nb_edge; rewrite bool_decide_false, (sw_none P st B id Hp) by done; reflexivity.
  Qed.
End bus_breaker.
