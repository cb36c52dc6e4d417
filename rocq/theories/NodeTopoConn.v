(** connect and disconnect of node-breaker voltage levels; preservation of the invariant by every operation. *)
From stdpp Require Import gmap pretty.
From Verif Require Import Base Graph GraphSpec GraphProofs GraphTraverse GraphPaths GraphMore Equip NodeTopo NodeTopoSpec NodeTopoProofs NodeTopoInv.

(** ** Walks *)
Section walk.
  Context {A : Type} `{EqDecision A} (R : A -> A -> Prop).
  Inductive walk : A -> list A -> A -> Prop :=
  | w_nil a : walk a [] a
  | w_cons a c l b : R a c -> walk c l b -> walk a (c :: l) b.
  Lemma rtc_walk a b : rtc R a b -> exists l, walk a l b.
  Proof. induction 1 as [a|a c b H _ [l IH]]; [exists []; constructor|]. exists (c :: l). by econstructor. Qed.
  Lemma walk_rtc a l b : walk a l b -> rtc R a b.
  Proof. induction 1; [done|]. by eapply rtc_l. Qed.
  Lemma walk_suffix a l b x : walk a l b -> x ∈ a :: l -> exists l1 l2, a :: l = l1 ++ x :: l2 /\ walk x l2 b.
  Proof.
    induction 1 as [a|a c l b H W IH]; intros Hx.
    - assert (x = a) as -> by set_solver. exists [], []. split; [done|constructor].
    - apply elem_of_cons in Hx as [->|Hx].
      + exists [], (c :: l). split; [done|by econstructor].
      + destruct (IH Hx) as (l1 & l2 & -> & W'). exists (a :: l1), l2. done.
  Qed.
  Lemma walk_simple a l b : walk a l b -> exists l', walk a l' b /\ NoDup (a :: l').
  Proof.
    induction 1 as [a|a c l b H W (l' & W' & N)].
    - exists []. split; [constructor|]. apply NoDup_cons. split; [set_solver|constructor].
    - destruct (decide (a ∈ c :: l')) as [Ha|Ha].
      + destruct (walk_suffix c l' b a W' Ha) as (l1 & l2 & E & W2). exists l2. split; [done|]. rewrite E in N.
        by apply NoDup_app in N as (_ & _ & ?).
      + exists (c :: l'). split; [by econstructor|]. by apply NoDup_cons.
  Qed.
  (** Up to the first vertex satisfying [P]. *)
  Lemma walk_first (P : A -> bool) a l b : walk a l b -> b ∈ l -> P b = true ->
    exists l1 x l2, l = l1 ++ x :: l2 /\ walk a (l1 ++ [x]) x /\ P x = true /\ forall y, y ∈ l1 -> P y = false.
  Proof.
    induction 1 as [a|a c l b H W IH]; intros Hb HP; [set_solver|].
    destruct (P c) eqn:Hc.
    - exists [], c, l. split; [done|]. split; [econstructor; [done|constructor]|]. split; [done|]. set_solver.
    - assert (b ∈ l) as Hb'. { apply elem_of_cons in Hb as [->|?]; [congruence|done]. }
      destruct (IH Hb' HP) as (l1 & x & l2 & -> & W' & Hx & Hy). exists (c :: l1), x, l2. split; [done|]. split; [by econstructor|]. split; [done|].
      intros y Hy'. apply elem_of_cons in Hy' as [->|?]; auto.
  Qed.
  Lemma walk_end a l b : walk a l b -> b = default a (last l).
  Proof. induction 1 as [|a c l b H W IH]; [done|]. rewrite last_cons. rewrite IH. by destruct (last l). Qed.
  Lemma walk_end_in a l b : walk a l b -> a <> b -> b ∈ l.
  Proof.
    intros W Hne. pose proof (walk_end _ _ _ W) as E. destruct (last l) as [x|] eqn:El; simpl in E; [|congruence]. subst x.
    apply last_Some in El as [l' ->]. set_solver.
  Qed.
End walk.

(** A walk along conducting links gives a list of edges. *)
Lemma walk_edges (s : sgraph nterm string) sw n l b : walk (link BusView s sw) n l b ->
  exists p, length p = length l /\ forall i e, p !! i = Some e -> exists a c ob, (n :: l) !! i = Some a /\ (n :: l) !! (S i) = Some c /\
    sjoins s a e c ob /\ match ob with None => True | Some id => exists r, sw !! id = Some (false, r) end.
Proof.
  induction 1 as [a|a c l b (e & ob & Hj & Hc) W (p & Hl & Hp)].
  - exists []. split; [done|]. intros i e. by rewrite lookup_nil.
  - exists (e :: p). split; [simpl; by rewrite Hl|]. intros [|i] e' He; simpl in He.
    + injection He as <-. exists a, c, ob. split; [done|]. split; [done|]. split; [done|]. destruct ob as [id|]; [|done].
      destruct Hc as (o & r & Hs & [-> _]). eauto.
    + destruct (Hp i e' He) as (a' & c' & ob' & H1 & H2 & H3 & H4). exists a', c', ob'. done.
Qed.

(** Conversely. *)
Lemma path_linked (s : sgraph nterm string) sw p : forall ws n,
  ws !! 0 = Some n -> length ws = S (length p) ->
  (forall i e, p !! i = Some e -> exists a b ob, ws !! i = Some a /\ ws !! (S i) = Some b /\ sjoins s a e b ob /\
     match ob with None => True | Some id => exists r, sw !! id = Some (false, r) end) ->
  forall w, ws !! length p = Some w -> same_node BusView s sw n w.
Proof.
  induction p as [|e p IH]; intros ws n H0 Hl He w Hw.
  - simpl in Hw. assert (n = w) as -> by congruence. apply rtc_refl.
  - destruct ws as [|n' ws]; [done|]. simpl in H0. injection H0 as <-. simpl in Hl, Hw.
    destruct (He 0 e eq_refl) as (a & b & ob & Ha & Hb & Hj & Hc). simpl in Ha, Hb. injection Ha as <-.
    eapply rtc_l.
    + exists e, ob. split; [exact Hj|]. destruct ob as [id|]; [|done]. destruct Hc as [r Hr]. exists false, r. split; [done|]. split; [done|].
      done.
    + apply (IH ws b); [done|lia| |done]. intros i e' He'. destruct (He (S i) e' He') as (a' & b' & ob' & H1 & H2 & H3). simpl in H1, H2. eauto 10.
Qed.

(** ** How connect and disconnect change the positions *)
(** The working variant's positions of [st'] are those of [st] but for some breakers moved to position [x] (true: open). *)
Definition moved (x : bool) (st st' : nbst) : Prop :=
  same_sh (e_sh st) (e_sh st') /\ e_cur st' = e_cur st /\
  forall j, (exists v v', e_vars st !! j = Some v /\ e_vars st' !! j = Some v' /\ (Some j <> e_cur st -> v' = v) /\
               forall id, nv_sw v' !! id = nv_sw v !! id \/
                 exists r, nb_kind (e_sh st) !! id = Some BREAKER /\ nv_sw v !! id = Some (negb x, r) /\ nv_sw v' !! id = Some (x, r)) \/
            (e_vars st !! j = None /\ e_vars st' !! j = None).

Lemma sbc_moved x st st' : same_but_cache st st' -> moved x st st'.
Proof.
  intros (H1 & H2 & H3). split; [done|]. split; [done|]. intros j. destruct (H3 j) as [(v & v' & E1 & E2 & E3 & E4)|?]; [left|by right].
  exists v, v'. split; [done|]. split; [done|]. split; [done|]. intros id. left. by rewrite E3.
Qed.
Lemma moved_trans x st st' st'' : moved x st st' -> moved x st' st'' -> moved x st st''.
Proof.
  intros (H1 & H2 & H3) (K1 & K2 & K3). split; [by eapply same_sh_trans|]. split; [congruence|]. intros j.
  destruct (H3 j) as [(v & v' & E1 & E2 & E3 & E4)|[E1 E2]], (K3 j) as [(w & w' & F1 & F2 & F3 & F4)|[F1 F2]]; try congruence; [left|right; done].
  assert (w = v') as -> by congruence. exists v, w'. split; [done|]. split; [done|]. split.
  { intros Hj. rewrite F3 by congruence. auto. }
  assert (nb_kind (e_sh st') = nb_kind (e_sh st)) as HK by apply H1.
  intros id. destruct (F4 id) as [->|(r & B & P1 & P2)]; [apply E4|]. rewrite HK in B.
  destruct (E4 id) as [E|(r' & B' & P1' & P2')]; [right; exists r; split; [done|]; split; congruence|].
  rewrite P2' in P1. destruct x; simplify_eq.
Qed.
Lemma sbc_pos st st' id : same_but_cache st st' -> pos st' id = pos st id.
Proof.
  intros (_ & H2 & H3). unfold pos. rewrite H2. destruct (e_cur st) as [i|]; [|done].
  destruct (H3 i) as [(v & v' & E1 & E2 & E3 & _)|[E1 E2]]; rewrite E1, E2; [|done]. by rewrite E3.
Qed.
Lemma moved_pos x st st' id : moved x st st' -> pos st' id = pos st id \/
  exists r, nb_kind (e_sh st) !! id = Some BREAKER /\ pos st id = Some (negb x, r) /\ pos st' id = Some (x, r).
Proof.
  intros (_ & H2 & H3). unfold pos. rewrite H2. destruct (e_cur st) as [i|]; [|by left].
  destruct (H3 i) as [(v & v' & E1 & E2 & _ & E3)|[E1 E2]]; rewrite E1, E2; [|by left]. apply E3.
Qed.
Lemma moved_keeps x st st' id r : moved x st st' -> pos st id = Some (x, r) -> pos st' id = Some (x, r).
Proof.
  intros M Hp. destruct (moved_pos x st st' id M) as [->|(r' & _ & Hp' & _)]; [done|]. rewrite Hp in Hp'. destruct x; simplify_eq.
Qed.
Lemma moved_graph x st st' : moved x st st' -> nbg st' = nbg st /\ nb_kind (e_sh st') = nb_kind (e_sh st).
Proof. intros ((_ & _ & H & _ & (_ & _ & Ha & _)) & _). done. Qed.
Lemma sbc_graph st st' : same_but_cache st st' -> nbg st' = nbg st /\ nb_kind (e_sh st') = nb_kind (e_sh st).
Proof. intros H. by apply (moved_graph true), sbc_moved. Qed.
Lemma moved_refl x b st : ninv b st -> moved x st st.
Proof. intros I. by apply sbc_moved, (sbc_refl b). Qed.

(** setOpen on a breaker. *)
Lemma set_open_moved b id x st0 : ninv b st0 -> nb_kind (e_sh st0) !! id = Some BREAKER -> is_Some (e_cur st0) ->
  exists st1, sw_set_open id x st0 = (Ok tt, st1) /\ ninv b st1 /\ moved x st0 st1 /\
    (exists r, pos st1 id = Some (x, r)) /\ (forall id', id' <> id -> pos st1 id' = pos st0 id').
Proof.
  intros I Hk [i Hc]. destruct (proj2 (ni_wf _ _ I) i Hc) as [v Hi].
  destruct (proj2 (vi_dom _ _ _ (ni_var _ _ I i v Hi) id)) as [[o r] Hp]; [eauto|]. rewrite (set_open_eq _ _ _ _ _ _ Hc Hi Hp). cbn [fst snd]. case_decide as Hx.
  - subst o. exists st0. split; [done|]. split; [done|]. split; [by eapply moved_refl|]. split; [|done].
    exists r. unfold pos. by rewrite Hc, Hi.
  - rewrite (sw_write_eq _ _ _ _ _ Hc Hi). eexists. split; [done|]. split; [apply sw_write_inv; eauto|]. split; [|split].
    + split; [apply same_sh_refl, I|]. split; [done|]. cbn [e_vars e_cur e_sh]. intros j. destruct (decide (i = j)) as [<-|Hne].
      * left. exists v. rewrite lookup_insert. eexists. split; [done|]. split; [done|]. split; [by rewrite Hc|]. cbn [nv_sw]. intros id'.
        destruct (decide (id = id')) as [<-|]; [|left; by rewrite lookup_insert_ne]. right. exists r. rewrite lookup_insert.
        split; [done|]. split; [|done]. rewrite Hp. by destruct o, x.
      * rewrite lookup_insert_ne by done. destruct (e_vars st0 !! j) as [w|]; [left|by right]. exists w, w. split_and!; auto.
    + exists r. unfold pos. cbn [e_cur e_vars]. rewrite Hc, lookup_insert. cbn [nv_sw]. by rewrite lookup_insert.
    + intros id' Hne. unfold pos. cbn [e_cur e_vars]. rewrite Hc, lookup_insert, Hi. cbn [nv_sw]. by rewrite lookup_insert_ne.
Qed.

Lemma edge_breaker_eq b e st : ninv b st ->
  (exists o, edge_breaker e st = (Ok o, st) /\ forall id, breaker_edge st e id <-> o = Some id) \/
  (s_edges (nbg st) !! e = None /\ exists m, edge_breaker e st = (Throw m, st)).
Proof.
  intros I. unfold edge_breaker.
  assert (forall o, gact (fun g => (g, g_edge_object g e)) st = (o, st) <-> g_edge_object (nb_graph (e_sh st)) e = o) as HG.
  { intros o. unfold gact. split; [by intros [= <-]|]. intros <-. f_equal. destruct st as [s m c]. f_equal. by destruct s. }
  destruct (edge_object_eq (nb_graph (e_sh st)) e) as [(a & b' & o & E & Ho)|(m & E & Ho)]; apply HG in E.
  2:{ right. split; [done|]. exists m. by apply abind_Throw. }
  left. rewrite (abind_Ok _ _ _ _ _ E). destruct o as [id|].
  2:{ exists None. split; [done|]. intros id. unfold breaker_edge, nbg. rewrite Ho. naive_solver. }
  rewrite (abind_Ok ashared _ st (e_sh st) st eq_refl).
  assert (is_Some (nb_kind (e_sh st) !! id)) as [k Hk].
  { apply (si_kind _ (ni_sh _ _ I)). apply (si_edge _ (ni_sh _ _ I)) in Ho. eauto. }
  rewrite Hk. unfold breaker_edge, nbg. rewrite Ho. destruct k.
  - exists (Some id). split; [done|]. naive_solver.
  - exists None. split; [done|]. naive_solver.
  - exists None. split; [done|]. naive_solver.
Qed.
Lemma breaker_edge_moved x st st' e id : moved x st st' -> breaker_edge st' e id <-> breaker_edge st e id.
Proof. intros [H1 H2]%moved_graph. unfold breaker_edge. by rewrite H1, H2. Qed.
Lemma sw_get_pos b id st : ninv b st -> is_Some (nb_kind (e_sh st) !! id) -> is_Some (e_cur st) ->
  exists p, sw_get id st = (Ok p, st) /\ pos st id = Some p.
Proof.
  intros I Hk [i Hc]. destruct (proj2 (ni_wf _ _ I) i Hc) as [v Hi]. destruct (proj2 (vi_dom _ _ _ (ni_var _ _ I i v Hi) id) Hk) as [p Hp].
  exists p. unfold sw_get, aget, aindex, abind, alift, pos. rewrite Hc, Hi. cbv beta iota. by rewrite Hp.
Qed.

(** The loop of connect. *)
Lemma close_path_ok b p : forall c0 st0, ninv b st0 -> is_Some (e_cur st0) ->
  exists r st, close_path p c0 st0 = (r, st) /\ ninv b st /\ moved false st0 st /\
    (forall id, changed st0 st id -> exists e, e ∈ p /\ breaker_edge st0 e id) /\
    match r with
    | Ok c => (c = true <-> c0 = true \/ exists id, changed st0 st id) /\
              (forall e id, e ∈ p -> breaker_edge st0 e id -> exists r, pos st id = Some (false, r))
    | Throw _ => exists e, e ∈ p /\ s_edges (nbg st0) !! e = None
    | _ => False
    end.
Proof.
  induction p as [|e p IH]; intros c0 st0 I Hcur.
  { exists (Ok c0), st0. split; [done|]. split; [done|]. split; [by eapply moved_refl|]. split; [by intros id []|]. split; [|set_solver].
    split; [by left|]. intros [?|[id []]]; done. }
  cbn [close_path]. destruct (edge_breaker_eq b e st0 I) as [(o & E & Ho)|(He & m & E)].
  2:{ exists (Throw m), st0. split; [by apply abind_Throw|]. split; [done|]. split; [by eapply moved_refl|]. split; [by intros id []|].
      exists e. split; [set_solver|done]. }
  rewrite (abind_Ok _ _ _ _ _ E). destruct o as [id|].
  - assert (breaker_edge st0 e id) as Hbe by (by apply Ho). pose proof Hbe as (a & b' & _ & Hk).
    destruct (sw_get_pos b id st0 I) as (pp & Eg & Hp); [eauto|done|]. rewrite (abind_Ok _ _ _ _ _ Eg). destruct pp as [open ret]. cbn [fst].
    destruct open.
    + destruct (set_open_moved b id false st0 I Hk Hcur) as (st1 & E1 & I1 & M1 & P1 & N1). rewrite (abind_Ok _ _ _ _ _ E1).
      destruct (IH true st1 I1) as (r & st & E2 & I2 & M2 & C2 & R2). { destruct M1 as (_ & -> & _). done. }
      exists r, st. split; [done|]. split; [done|]. assert (moved false st0 st) as M by (by eapply moved_trans). split; [done|].
      destruct P1 as [r1 P1]. split; [|destruct r as [c|m| |]].
      * intros id' Hch. destruct (decide (id' = id)) as [->|Hne]; [exists e; split; [set_solver|done]|].
        destruct (C2 id') as (e' & He' & Hb'). { unfold changed in *. by rewrite (N1 id' Hne). }
        exists e'. split; [set_solver|]. by apply (breaker_edge_moved false st0 st1 _ _ M1).
      * destruct R2 as [R2 R3]. split.
        -- split; [|intros _; apply R2; by left]. intros _. right. exists id. unfold changed. rewrite (moved_keeps _ _ _ _ _ M2 P1), Hp. done.
        -- intros e' id' Hin Hb'. apply elem_of_cons in Hin as [->|Hin].
           ++ assert (id' = id) as ->. { apply Ho in Hb'. congruence. } exists r1. by apply (moved_keeps false st1 st).
           ++ apply (R3 e' id' Hin). by apply (breaker_edge_moved false st0 st1 _ _ M1).
      * destruct R2 as (e' & He' & Hd). exists e'. split; [set_solver|]. destruct (moved_graph _ _ _ M1) as [<- _]. done.
      * done.
      * done.
    + destruct (IH c0 st0 I Hcur) as (r & st & E2 & I2 & M2 & C2 & R2). exists r, st. split; [done|]. split; [done|]. split; [done|].
      split. { intros id' Hch. destruct (C2 id' Hch) as (e' & He' & Hb'). exists e'. split; [set_solver|done]. }
      destruct r as [c|m| |]; [|destruct R2 as (e' & He' & Hd); exists e'; split; [set_solver|done]|done|done].
      destruct R2 as [R2 R3]. split; [done|]. intros e' id' Hin Hb'. apply elem_of_cons in Hin as [->|Hin]; [|by eapply R3].
      assert (id' = id) as ->. { apply Ho in Hb'. congruence. } exists ret. by apply (moved_keeps false st0 st).
  - destruct (IH c0 st0 I Hcur) as (r & st & E2 & I2 & M2 & C2 & R2). exists r, st. split; [done|]. split; [done|]. split; [done|].
    split. { intros id' Hch. destruct (C2 id' Hch) as (e' & He' & Hb'). exists e'. split; [set_solver|done]. }
    destruct r as [c|m| |]; [|destruct R2 as (e' & He' & Hd); exists e'; split; [set_solver|done]|done|done].
    destruct R2 as [R2 R3]. split; [done|]. intros e' id' Hin Hb'. apply elem_of_cons in Hin as [->|Hin]; [|by eapply R3].
    apply Ho in Hb'. congruence.
Qed.

(** The loops of disconnect. *)
Lemma open_path_ok b p st0 : ninv b st0 -> is_Some (e_cur st0) ->
  exists r st, open_path p st0 = (r, st) /\ ninv b st /\ moved true st0 st /\
    match r with
    | Ok true => exists e id r, e ∈ p /\ breaker_edge st0 e id /\ pos st id = Some (true, r) /\ forall id', id' <> id -> pos st id' = pos st0 id'
    | Ok false => st = st0 /\ forall e id, e ∈ p -> ~ breaker_edge st0 e id
    | Throw _ => st = st0 /\ exists e, e ∈ p /\ s_edges (nbg st0) !! e = None
    | _ => False
    end.
Proof.
  intros I Hcur. induction p as [|e p IH].
  { exists (Ok false), st0. split; [done|]. split; [done|]. split; [by eapply moved_refl|]. split; [done|]. set_solver. }
  cbn [open_path]. destruct (edge_breaker_eq b e st0 I) as [(o & E & Ho)|(He & m & E)].
  2:{ exists (Throw m), st0. split; [by apply abind_Throw|]. split; [done|]. split; [by eapply moved_refl|]. split; [done|].
      exists e. split; [set_solver|done]. }
  rewrite (abind_Ok _ _ _ _ _ E). destruct o as [id|].
  - assert (breaker_edge st0 e id) as Hbe by (by apply Ho). pose proof Hbe as (a & b' & _ & Hk).
    destruct (sw_get_pos b id st0 I) as (pp & Eg & Hp); [eauto|done|]. rewrite (abind_Ok _ _ _ _ _ Eg). destruct pp as [open ret]. cbn [fst].
    destruct open.
    + exists (Ok true), st0. split; [done|]. split; [done|]. split; [by eapply moved_refl|]. exists e, id, ret. split; [set_solver|]. done.
    + destruct (set_open_moved b id true st0 I Hk Hcur) as (st1 & E1 & I1 & M1 & [r1 P1] & N1). rewrite (abind_Ok _ _ _ _ _ E1).
      exists (Ok true), st1. split; [done|]. split; [done|]. split; [done|]. exists e, id, r1. split; [set_solver|]. done.
  - destruct IH as (r & st & E2 & I2 & M2 & R2). exists r, st. split; [done|]. split; [done|]. split; [done|].
    destruct r as [[|]|m| |]; [| | |done|done].
    + destruct R2 as (e' & id & r & H1 & H2). exists e', id, r. split; [set_solver|done].
    + destruct R2 as [-> R2]. split; [done|]. intros e' id [->|Hin]%elem_of_cons; [|by apply R2]. rewrite Ho. done.
    + destruct R2 as (-> & e' & He' & Hd). split; [done|]. exists e'. split; [set_solver|done].
Qed.
Lemma open_paths_ok b ps : forall st0, ninv b st0 -> is_Some (e_cur st0) ->
  exists r st, open_paths ps st0 = (r, st) /\ ninv b st /\ moved true st0 st /\
    (forall id, changed st0 st id -> exists p e, p ∈ ps /\ e ∈ p /\ breaker_edge st0 e id) /\
    match r with
    | Ok true => forall p, p ∈ ps -> exists e id r, e ∈ p /\ breaker_edge st0 e id /\ pos st id = Some (true, r)
    | Ok false => exists p, p ∈ ps /\ forall e id, e ∈ p -> ~ breaker_edge st0 e id
    | Throw _ => exists p e, p ∈ ps /\ e ∈ p /\ s_edges (nbg st0) !! e = None
    | _ => False
    end.
Proof.
  induction ps as [|p ps IH]; intros st0 I Hcur.
  { exists (Ok true), st0. split; [done|]. split; [done|]. split; [by eapply moved_refl|]. split; [by intros id []|]. set_solver. }
  cbn [open_paths]. destruct (open_path_ok b p st0 I Hcur) as (r1 & st1 & E1 & I1 & M1 & R1).
  destruct r1 as [[|]|m| |]; [| | |done|done].
  - rewrite (abind_Ok _ _ _ _ _ E1). destruct (IH st1 I1) as (r & st & E2 & I2 & M2 & C2 & R2). { destruct M1 as (_ & -> & _). done. }
    exists r, st. split; [done|]. split; [done|]. split; [by eapply moved_trans|]. destruct R1 as (e & id & r1 & He & Hb & Hp & Hn).
    assert (forall e id, breaker_edge st1 e id <-> breaker_edge st0 e id) as HB by (intros; by eapply breaker_edge_moved).
    split.
    { intros id' Hch. destruct (decide (id' = id)) as [->|Hne]; [exists p, e; split; [set_solver|done]|].
      destruct (C2 id') as (p' & e' & H1 & H2 & H3). { unfold changed in *. by rewrite (Hn id' Hne). }
      exists p', e'. split; [set_solver|]. split; [done|]. by apply HB. }
    destruct r as [[|]|m| |]; [| | |done|done].
    + intros p' [->|Hin]%elem_of_cons.
      * exists e, id, r1. split; [done|]. split; [done|]. by apply (moved_keeps true st1 st).
      * destruct (R2 p' Hin) as (e' & id' & r' & H1 & H2 & H3). exists e', id', r'. split; [done|]. split; [by apply HB|done].
    + destruct R2 as (p' & Hin & Hno). exists p'. split; [set_solver|]. intros e' id' He' Hb'. apply (Hno e' id' He'). by apply HB.
    + destruct R2 as (p' & e' & Hin & He' & Hd). exists p', e'. split; [set_solver|]. split; [done|]. destruct (moved_graph _ _ _ M1) as [<- _]. done.
  - rewrite (abind_Ok _ _ _ _ _ E1). destruct R1 as [-> R1]. exists (Ok false), st0. split; [done|]. split; [done|]. split; [done|]. split; [by intros id []|].
    exists p. split; [set_solver|done].
  - rewrite (abind_Throw _ _ _ _ _ E1). destruct R1 as (-> & e & He & Hd). exists (Throw m), st0. split; [done|]. split; [done|]. split; [done|].
    split; [by intros id []|]. exists p, e. split; [set_solver|done].
Qed.

(** findAllPaths. *)
Lemma find_all_graph g complete cancel v : ginv g -> same_graph g (g_find_all_paths_raw (V := nterm) (E := string) complete cancel g v).1.
Proof.
  intros I. unfold g_find_all_paths_raw. destruct (g_check_vertex g v); try by apply same_graph_refl.
  pose proof (same_graph_adj g I) as H. destruct (g_adjacency g) as [g' r]. cbn [fst] in H. by destruct r.
Qed.
Lemma nb_paths_eq b srt n st0 : ninv b st0 -> is_Some (e_cur st0) -> is_Some (s_vertices (nbg st0) !! n) ->
  exists raw st, nb_paths srt n st0 = (Ok (srt raw), st) /\ ninv b st /\ same_but_cache st0 st /\ NoDup raw /\
    exists i v, e_cur st0 = Some i /\ e_vars st0 !! i = Some v /\
    forall p, p ∈ raw <-> simple_path (nbg st0) is_busbar (is_open_disconnector (nb_kind (e_sh st0)) (nv_sw v)) n p.
Proof.
  intros I [i Hc] Hn. destruct (proj2 (ni_wf _ _ I) i Hc) as [v Hi]. unfold nb_paths.
  rewrite (abind_Ok ashared _ st0 (e_sh st0) st0 eq_refl).
  assert (aget st0 = (Ok v, st0)) as Eg by (unfold aget, abind, aindex; by rewrite Hc, Hi). rewrite (abind_Ok _ _ _ _ _ Eg).
  pose proof (si_g _ (ni_sh _ _ I)) as Ig.
  destruct (find_all_paths_raw_ok (nb_graph (e_sh st0)) is_busbar (is_open_disconnector (nb_kind (e_sh st0)) (nv_sw v)) n Ig Hn) as (raw & E & Hnd & Hr).
  pose proof (find_all_graph (nb_graph (e_sh st0)) is_busbar (is_open_disconnector (nb_kind (e_sh st0)) (nv_sw v)) n Ig) as SG.
  destruct (g_find_all_paths_raw _ _ _ _) as [g' r] eqn:EE. cbn [fst snd] in *. subst r.
  exists raw. eexists. split.
  { erewrite abind_Ok; [|eapply gact_eq; exact EE]. done. }
  assert (same_sh (e_sh st0) (nb_set_graph (e_sh st0) g')) as SS by done.
  split; [|split; [|split; [done|exists i, v; done]]].
  - split; cbn [e_sh e_vars e_cur].
    + destruct (ni_wf _ _ I) as [W1 W2]. split; [exact W1|exact W2].
    + eapply same_sh_inv; [exact SS|apply I].
    + intros j w Hw. eapply same_sh_vinv; [exact SS|]. by apply (ni_var _ _ I j w).
  - split; [done|]. split; [done|]. cbn [e_vars]. intros j. destruct (e_vars st0 !! j) as [w|]; [left; by exists w, w|by right].
Qed.

(** isConnected. *)
Lemma is_connected_eq b n st0 : ninv b st0 -> is_Some (e_cur st0) ->
  exists r st, nb_is_connected n st0 = (r, st) /\ ninv b st /\ same_but_cache st0 st /\ r <> UB /\ r <> OutOfFuel.
Proof.
  intros I Hc. unfold nb_is_connected.
  pose proof (bus_of_node_tri (fun st => ninv b st /\ same_but_cache st0 st) BusView n b st0 I ltac:(done) st0 eq_refl) as H.
  destruct (nb_bus_of_node BusView n st0) as [[o|m| |] st] eqn:E; [| |done|done]; destruct H as [H1 H2].
  - eexists _, st. split; [by rewrite (abind_Ok _ _ _ _ _ E)|]. done.
  - eexists _, st. split; [by rewrite (abind_Throw _ _ _ _ _ E)|]. done.
Qed.
Lemma is_connected_unset b n st0 : ninv b st0 -> e_cur st0 = None -> exists m, nb_is_connected n st0 = (Throw m, st0).
Proof.
  intros I Hc. unfold nb_is_connected, nb_bus_of_node, nb_cache. destruct (nb_update_eq BusView st0 b I) as [(_ & m & E)|(i & v & ? & _)]; [|congruence].
  exists m. by rewrite (abind_Throw _ _ _ _ _ (abind_Throw _ _ _ _ _ (abind_Throw _ _ _ _ _ E))).
Qed.

Lemma sbc_cur st st' : same_but_cache st st' -> e_cur st' = e_cur st.
Proof. by intros (_ & H & _). Qed.
Lemma sbc_trans st st' st'' : same_but_cache st st' -> same_but_cache st' st'' -> same_but_cache st st''.
Proof.
  intros (H1 & H2 & H3) (K1 & K2 & K3). split; [by eapply same_sh_trans|]. split; [congruence|]. intros j.
  destruct (H3 j) as [(v & v' & E1 & E2 & E3 & E4)|[E1 E2]], (K3 j) as [(w & w' & F1 & F2 & F3 & F4)|[F1 F2]]; try congruence; [left|right; done].
  assert (w = v') as -> by congruence. exists v, w'. split; [done|]. split; [done|]. split; [congruence|]. intros Hj. rewrite F4 by congruence. auto.
Qed.
Lemma sbc_cur_var st st' i v : same_but_cache st st' -> e_vars st !! i = Some v -> exists v', e_vars st' !! i = Some v' /\ nv_sw v' = nv_sw v.
Proof. intros (_ & _ & H) Hv. destruct (H i) as [(w & w' & E1 & E2 & E3 & _)|[E _]]; [|congruence]. exists w'. split; [done|]. congruence. Qed.

Lemma blocks_eq st i v ob : e_cur st = Some i -> e_vars st !! i = Some v -> is_open_disconnector (nb_kind (e_sh st)) (nv_sw v) ob = blocks st ob.
Proof.
  intros Hc Hi. unfold is_open_disconnector, blocks, pos. destruct ob as [s|]; [|done]. rewrite Hc, Hi.
  destruct (nb_kind (e_sh st) !! s) as [[]|], (nv_sw v !! s) as [[[] ?]|]; done.
Qed.
Lemma simple_path_ext (s : sgraph nterm string) co ca ca' n p : (forall o, ca o = ca' o) -> simple_path s co ca n p -> simple_path s co ca' n p.
Proof.
  intros H (ws & H1 & H2 & H3 & H4 & H5 & H6). exists ws. split; [done|]. split; [done|]. split; [done|]. split; [done|]. split; [|done].
  intros i e He. destruct (H5 i e He) as (a & b & ob & K1 & K2 & K3 & K4). exists a, b, ob. rewrite <- H. done.
Qed.
Lemma route_sbc st st' n p : same_but_cache st st' -> route st' n p <-> route st n p.
Proof.
  intros H. unfold route. destruct (sbc_graph _ _ H) as [-> E].
  assert (forall o, blocks st' o = blocks st o) as HB.
  { intros [s|]; [|done]. unfold blocks. by rewrite E, (sbc_pos _ _ _ H). }
  split; intros Hp; (eapply simple_path_ext; [|exact Hp]); intros o; by rewrite HB.
Qed.
Lemma nb_paths_route b srt n st0 : ninv b st0 -> is_Some (e_cur st0) -> is_Some (s_vertices (nbg st0) !! n) ->
  exists raw st, nb_paths srt n st0 = (Ok (srt raw), st) /\ ninv b st /\ same_but_cache st0 st /\ forall p, p ∈ raw <-> route st0 n p.
Proof.
  intros I Hc Hn. destruct (nb_paths_eq b srt n st0 I Hc Hn) as (raw & st & E & I' & S & _ & i & v & Hci & Hi & Hr).
  exists raw, st. split; [done|]. split; [done|]. split; [done|]. intros p. rewrite Hr. unfold route.
  split; intros Hp; (eapply simple_path_ext; [|exact Hp]); intros o; by rewrite (blocks_eq st0 i v o Hci Hi).
Qed.
Lemma route_live st n p e : route st n p -> e ∈ p -> s_edges (nbg st) !! e <> None.
Proof.
  intros (ws & _ & _ & _ & _ & H & _) He. apply elem_of_list_lookup in He as [i Hi]. destruct (H i e Hi) as (a & b & ob & _ & _ & [Hj|Hj] & _); congruence.
Qed.
Lemma moved_none st st' id : moved false st st' -> moved true st st' -> pos st' id = pos st id.
Proof. intros M M'. destruct (moved_pos _ _ _ id M) as [?|(r & _ & H1 & H2)]; [done|]. destruct (moved_pos _ _ _ id M') as [?|(r' & _ & H1' & H2')]; [done|]. congruence. Qed.

(** connect. *)
Lemma nb_connect_ok b srt n st0 : sorts srt -> ninv b st0 -> is_Some (s_vertices (nbg st0) !! n) ->
  exists r st, nb_connect srt n st0 = (r, st) /\ ninv b st /\ moved false st0 st /\ r <> UB /\ r <> OutOfFuel /\
    (r <> Ok true -> forall id, ~ changed st0 st id) /\
    (r = Ok true -> (exists id, changed st0 st id) /\
       exists p, route st0 n p /\ (forall q, route st0 n q -> length p <= length q) /\
         (forall id, changed st0 st id -> exists e, e ∈ p /\ breaker_edge st0 e id) /\
         (forall e id, e ∈ p -> breaker_edge st0 e id -> exists r, pos st id = Some (false, r))).
Proof.
  intros Hsrt I Hn. destruct (e_cur st0) as [i|] eqn:Hc.
  2:{ destruct (is_connected_unset b n st0 I Hc) as [m E]. exists (Throw m), st0. unfold nb_connect. rewrite (abind_Throw _ _ _ _ _ E).
      split; [done|]. split; [done|]. split; [by eapply moved_refl|]. split; [done|]. split; [done|]. split; [by intros _ id []|done]. }
  assert (is_Some (e_cur st0)) as Hcur by eauto.
  destruct (is_connected_eq b n st0 I Hcur) as (r1 & st1 & E1 & I1 & S1 & U1 & U2). unfold nb_connect.
  assert (forall id, ~ changed st0 st1 id) as NC1. { intros id Hch. apply Hch. by apply sbc_pos. }
  destruct r1 as [[|]|m| |]; [| | |done|done].
  { rewrite (abind_Ok _ _ _ _ _ E1). exists (Ok false), st1. split; [done|]. split; [done|]. split; [by apply sbc_moved|]. done. }
  2:{ rewrite (abind_Throw _ _ _ _ _ E1). exists (Throw m), st1. split; [done|]. split; [done|]. split; [by apply sbc_moved|]. done. }
  rewrite (abind_Ok _ _ _ _ _ E1).
  destruct (nb_paths_route b srt n st1 I1) as (raw & st2 & E2 & I2 & S2 & Hraw). { by rewrite (sbc_cur _ _ S1). } { by rewrite (proj1 (sbc_graph _ _ S1)). }
  rewrite (abind_Ok _ _ _ _ _ E2). destruct (Hsrt raw) as [Hperm Hsorted].
  assert (same_but_cache st0 st2) as S02 by (by eapply sbc_trans).
  assert (forall id, ~ changed st0 st2 id) as NC2. { intros id Hch. apply Hch. by apply sbc_pos. }
  destruct (srt raw) as [|p ps] eqn:Es.
  { exists (Ok false), st2. split; [done|]. split; [done|]. split; [by apply sbc_moved|]. done. }
  assert (forall q, q ∈ p :: ps <-> route st0 n q) as Hroute. { intros q. rewrite <- Hperm, Hraw. by apply route_sbc. }
  destruct (close_path_ok b p false st2 I2) as (r & st & E3 & I3 & M3 & C3 & R3). { by rewrite (sbc_cur _ _ S02). }
  assert (moved false st0 st) as M. { eapply moved_trans; [by apply sbc_moved|exact M3]. }
  assert (forall id, changed st0 st id <-> changed st2 st id) as HC. { intros id. unfold changed. by rewrite (sbc_pos _ _ id S02). }
  assert (forall e id, breaker_edge st2 e id <-> breaker_edge st0 e id) as HB. { intros e id. apply (breaker_edge_moved true). by apply sbc_moved. }
  assert (route st0 n p) as Hp by (apply Hroute; set_solver).
  exists r, st. split; [done|]. split; [done|]. split; [done|]. destruct r as [c|m| |]; [| |done|done].
  - split; [done|]. split; [done|]. destruct R3 as [R3 R4]. split.
    + intros Hne id Hch. apply Hne. f_equal. apply R3. right. exists id. by apply HC.
    + intros [= ->]. split. { destruct (proj1 R3 eq_refl) as [?|[id Hch]]; [done|]. exists id. by apply HC. }
      exists p. split; [done|]. split.
      { intros q Hq. apply Hroute in Hq. apply elem_of_cons in Hq as [->|Hq]; [done|].
        inversion Hsorted as [|? ? _ HF]; subst. by eapply (proj1 (Forall_forall _ _) HF). }
      split; [intros id Hch; apply HC in Hch; destruct (C3 id Hch) as (e & He & Hb); exists e; split; [done|by apply HB]|].
      intros e id He Hb. apply (R4 e id He). by apply HB.
  - exfalso. destruct R3 as (e & He & Hd). apply (route_live st0 n p e Hp He). by rewrite <- (proj1 (sbc_graph _ _ S02)).
Qed.

(** disconnect. *)
Lemma nb_disconnect_ok b srt n st0 : sorts srt -> ninv b st0 -> is_Some (s_vertices (nbg st0) !! n) ->
  exists r st, nb_disconnect srt n st0 = (r, st) /\ ninv b st /\ moved true st0 st /\ r <> UB /\ r <> OutOfFuel /\
    (forall m id, r = Throw m -> ~ changed st0 st id) /\
    (r = Ok true -> forall p, route st0 n p -> exists e id r, e ∈ p /\ breaker_edge st0 e id /\ pos st id = Some (true, r)) /\
    (forall id, changed st0 st id -> exists p e, route st0 n p /\ e ∈ p /\ breaker_edge st0 e id).
Proof.
  intros Hsrt I Hn. destruct (e_cur st0) as [i|] eqn:Hc.
  2:{ destruct (is_connected_unset b n st0 I Hc) as [m E]. exists (Throw m), st0. unfold nb_disconnect. rewrite (abind_Throw _ _ _ _ _ E).
      split; [done|]. split; [done|]. split; [by eapply moved_refl|]. split; [done|]. split; [done|]. split; [by intros m' id _ []|].
      split; [done|]. by intros id []. }
  assert (is_Some (e_cur st0)) as Hcur by eauto.
  destruct (is_connected_eq b n st0 I Hcur) as (r1 & st1 & E1 & I1 & S1 & U1 & U2). unfold nb_disconnect.
  assert (forall id, ~ changed st0 st1 id) as NC1. { intros id Hch. apply Hch. by apply sbc_pos. }
  destruct r1 as [[|]|m| |]; [| | |done|done]; swap 1 2.
  { rewrite (abind_Ok _ _ _ _ _ E1). exists (Ok false), st1. split; [done|]. split; [done|]. split; [by apply sbc_moved|]. split_and!; try done.
    intros id Hch. by apply NC1 in Hch. }
  2:{ rewrite (abind_Throw _ _ _ _ _ E1). exists (Throw m), st1. split; [done|]. split; [done|]. split; [by apply sbc_moved|]. split_and!; try done.
    intros id Hch. by apply NC1 in Hch. }
  rewrite (abind_Ok _ _ _ _ _ E1).
  destruct (nb_paths_route b srt n st1 I1) as (raw & st2 & E2 & I2 & S2 & Hraw). { by rewrite (sbc_cur _ _ S1). } { by rewrite (proj1 (sbc_graph _ _ S1)). }
  rewrite (abind_Ok _ _ _ _ _ E2). destruct (Hsrt raw) as [Hperm Hsorted].
  assert (same_but_cache st0 st2) as S02 by (by eapply sbc_trans).
  assert (forall id, ~ changed st0 st2 id) as NC2. { intros id Hch. apply Hch. by apply sbc_pos. }
  assert (forall q, q ∈ srt raw <-> route st0 n q) as Hroute. { intros q. rewrite <- Hperm, Hraw. by apply route_sbc. }
  destruct (srt raw) as [|p ps] eqn:Es.
  { exists (Ok false), st2. split; [done|]. split; [done|]. split; [by apply sbc_moved|]. split_and!; try done. intros id Hch. by apply NC2 in Hch. }
  destruct (open_paths_ok b (p :: ps) st2 I2) as (r & st & E3 & I3 & M3 & C3 & R3). { by rewrite (sbc_cur _ _ S02). }
  assert (moved true st0 st) as M. { eapply moved_trans; [by apply sbc_moved|exact M3]. }
  assert (forall id, changed st0 st id <-> changed st2 st id) as HC. { intros id. unfold changed. by rewrite (sbc_pos _ _ id S02). }
  assert (forall e id, breaker_edge st2 e id <-> breaker_edge st0 e id) as HB. { intros e id. apply (breaker_edge_moved true). by apply sbc_moved. }
  assert (forall id, changed st0 st id -> exists p e, route st0 n p /\ e ∈ p /\ breaker_edge st0 e id) as HCh.
  { intros id Hch. apply HC in Hch. destruct (C3 id Hch) as (q & e & Hq & He & Hb). exists q, e. split; [by apply Hroute|]. split; [done|by apply HB]. }
  exists r, st. split; [done|]. split; [done|]. split; [done|]. destruct r as [c|m| |]; [| |done|done].
  - split; [done|]. split; [done|]. split; [done|]. split; [|done]. intros [= ->] q Hq. destruct (R3 q) as (e & id & rr & H1 & H2 & H3); [by apply Hroute|].
    exists e, id, rr. split; [done|]. split; [by apply HB|done].
  - exfalso. destruct R3 as (q & e & Hq & He & Hd). apply Hroute in Hq. apply (route_live st0 n q e Hq He). by rewrite <- (proj1 (sbc_graph _ _ S02)).
Qed.

(** ** Every operation preserves the invariant *)

Lemma amap_tri {S V A B} (X P : est S V -> Prop) (f : A -> B) (m : act S V A) (Q : est S V -> Prop) :
  tri X P m (fun _ => Q) -> tri X P (amap f m) (fun _ => Q).
Proof. intros H. unfold amap. eapply tri_bind; [exact H|]. intros a. by apply tri_ret. Qed.
Lemma on_terminal_tri {A} b n (m : nbact A) st0 : ninv b st0 ->
  (is_Some (s_vertices (nbg st0) !! n) -> tri (ninv b) (fun st => st = st0) m (fun _ => ninv b)) ->
  tri (ninv b) (fun st => st = st0) (on_terminal n m) (fun _ => ninv b).
Proof.
  intros I H. unfold on_terminal. eapply tri_bind; [apply tri_shared|]. intros s st [-> ->].
  destruct (vertex_object_eq (nb_graph (e_sh st0)) n) as [(o & E & Ho)|(m' & E & Ho)]; rewrite E; [|done].
  destruct o as [t|]; [|done]. apply H; [|done]. unfold nbg. eauto.
Qed.
Lemma nb_call_tri b o st0 : ninv b st0 -> srt_ok o -> (b = true -> fresh_safe st0 (ECall o)) ->
  tri (ninv b) (fun st => st = st0) (nb_call o) (fun _ => ninv b).
Proof.
  intros I Ho Hs. destruct o as [id k p n1 n2|id|n1 n2|n1 n2|n t|n|id x|id x|vw n|vw k|srt n|srt n]; cbn [nb_call].
  - by apply add_switch_tri.
  - by apply remove_switch_tri.
  - by apply add_internal_tri.
  - by apply remove_internal_tri.
  - apply attach_tri; [done|]. intros Hb Hc. destruct (Hs Hb) as [[? ?]|?]; [congruence|done].
  - by apply detach_tri.
  - apply on_switch_tri; [done|]. intros Hk. by apply set_open_tri.
  - apply on_switch_tri; [done|]. intros Hk. by apply set_retained_tri.
  - apply amap_tri. eapply tri_conseq; [by apply (bus_of_node_tri (ninv b) vw n b st0)|done|]. by intros a st [? _].
  - apply amap_tri. eapply tri_conseq; [by apply (bus_of_id_tri (ninv b) vw k b st0)|done|]. by intros a st [? _].
  - apply amap_tri, on_terminal_tri; [done|]. intros Hn st ->.
    destruct (nb_connect_ok b srt n st0 Ho I Hn) as (r & st & -> & I' & _ & H1 & H2 & _). by destruct r.
  - apply amap_tri, on_terminal_tri; [done|]. intros Hn st ->.
    destruct (nb_disconnect_ok b srt n st0 Ho I Hn) as (r & st & -> & I' & _ & H1 & H2 & _). by destruct r.
Qed.

Lemma nb_step_inv b o st : ninv b st -> any_safe st o -> (b = true -> fresh_safe st o) ->
  ninv b (nb_step st o).2 /\ (nb_step st o).1 <> UB /\ (nb_step st o).1 <> OutOfFuel.
Proof.
  intros I Ha Hs. destruct o as [c|src tgt ow|id|id]; cbn [nb_step estep].
  - destruct (tri_use' (ninv b) _ _ st (nb_call_tri b c st I Ha Hs) eq_refl) as (H1 & H2 & H3). done.
  - destruct (e_vars st !! src) as [v|] eqn:Hv; [|done]. destruct (bool_decide _ && _); [done|]. cbn [fst snd]. split; [|done].
    destruct I as [W S HV]. split.
    + destruct W as [W1 W2]. split; cbn [e_vars e_cur].
      * destruct (decide (tgt = initial_variant)) as [->|]; [rewrite lookup_insert|rewrite lookup_insert_ne by done]; eauto.
      * intros j Hj. destruct (decide (tgt = j)) as [->|]; [rewrite lookup_insert; eauto|rewrite lookup_insert_ne by done; eauto].
    + done.
    + apply everywhere_insert; [exact HV|]. eapply invalid_inv. eauto.
  - case_bool_decide; [done|]. destruct (e_vars st !! id) as [v|] eqn:Hv; [|done]. cbn [fst snd]. split; [|done].
    destruct I as [W S HV]. split.
    + destruct W as [W1 W2]. split; cbn [e_vars e_cur]; [by rewrite lookup_delete_ne|]. intros j Hj.
      case_bool_decide as Hc'; [done|]. rewrite lookup_delete_ne; [by apply W2|]. congruence.
    + done.
    + intros j w. cbn [e_vars e_sh]. intros [_ Hw]%lookup_delete_Some. eauto.
  - destruct (e_vars st !! id) as [v|] eqn:Hv; [|done]. cbn [fst snd]. split; [|done].
    destruct I as [[W1 W2] S HV]. split; [|done|done]. split; cbn [e_vars e_cur]; [done|]. intros j [= <-]. eauto.
Qed.

Lemma nb_new_inv b vl ids vars cur : initial_variant ∈ vars -> (forall i, cur = Some i -> i ∈ vars) -> ninv b (nb_new vl ids vars cur).
Proof.
  intros Hi Hc. unfold nb_new.
  assert (forall i, i ∈ vars -> (set_to_map (fun i => (i, mkNV ∅ None None)) vars : gmap string nbvar) !! i = Some (mkNV ∅ None None)) as HL.
  { intros i Hin. apply lookup_set_to_map; [intros ? ? _ _ HE; simpl in HE; congruence|]. exists i. done. }
  split.
  - split; cbn [e_vars e_cur]; [rewrite HL; [eauto|done]|]. intros i Hi'. rewrite HL; [eauto|auto].
  - split; cbn [e_sh nb_graph nb_sw nb_kind nb_ids].
    + apply ginv_init.
    + intros e a b' id. rewrite abs_edges. done.
    + intros id e. by rewrite lookup_empty.
    + intros id. rewrite !lookup_empty. split; by intros [].
    + intros id. rewrite lookup_empty. by intros [].
  - intros i v. cbn [e_vars e_sh]. intros Hv. apply lookup_set_to_map in Hv as (j & Hj & E); [|intros ? ? _ _ HE; simpl in HE; congruence]. injection E as <- <-.
    split; cbn [nv_sw nb_kind].
    + intros id. rewrite !lookup_empty. split; by intros [].
    + by intros [].
    + by intros _ [].
Qed.

Lemma nb_reach_inv b safe st : nb_reach safe st -> (forall st o, safe st o -> any_safe st o) -> (b = true -> forall st o, safe st o -> fresh_safe st o) -> ninv b st.
Proof.
  intros H Ha Hs. induction H as [vl ids vars cur H1 H2|st o H IH Ho]; [by apply nb_new_inv|]. apply nb_step_inv; auto.
Qed.
Lemma fresh_any st o : fresh_safe st o -> any_safe st o.
Proof. destruct o as [[]| | |]; simpl; done. Qed.
Lemma reach_any st : nb_reach any_safe st -> ninv false st.
Proof. intros H. by eapply nb_reach_inv. Qed.
Lemma reach_fresh st : nb_reach fresh_safe st -> ninv true st.
Proof. intros H. eapply nb_reach_inv; [done|apply fresh_any|done]. Qed.
Lemma reach_fresh_any st : nb_reach fresh_safe st -> nb_reach any_safe st.
Proof. induction 1 as [vl ids vars cur H1 H2|st o H IH Ho]; [by apply nr_new|]. apply nr_step; [done|]. by apply fresh_any. Qed.

(** ** Answers of the views *)
Lemma not_not_least (P : nat -> Prop) n : P n -> ~ ~ exists m, is_least P m.
Proof.
  intros Hn H. revert Hn. induction n as [n IH] using lt_wf_ind. intros Hn. apply H. exists n. split; [done|].
  intros x Hx. destruct (decide (n <= x)) as [|Hlt]; [done|]. exfalso. apply (IH x); [lia|done].
Qed.
Lemma view_answer vw n st0 i v : ninv true st0 \/ (ninv false st0 /\ forall j w, e_cur st0 = Some j -> e_vars st0 !! j = Some w -> nv_cache vw w = None) ->
  e_cur st0 = Some i -> e_vars st0 !! i = Some v -> is_Some (s_vertices (nbg st0) !! n) ->
  exists ob st, nb_bus_of_node vw n st0 = (Ok ob, st) /\ same_but_cache st0 st /\
    match ob with
    | Some b => in_bus vw (nbg st0) (nv_sw v) n /\ bus_of vw (nbg st0) (nv_sw v) (nb_id (e_sh st0)) n b
    | None => ~ in_bus vw (nbg st0) (nv_sw v) n
    end.
Proof.
  intros I0 Hc Hi Hn.
  assert (exists c st, nb_cache vw st0 = (Ok c, st) /\ same_but_cache st0 st /\
    cache_ok vw (nb_id (e_sh st0)) (nv_sw v) (nbg st0) (length (g_vertices (nb_graph (e_sh st0)))) c) as (c & st & E & S & CK).
  { destruct I0 as [I|[I Hno]].
    - pose proof (cache_tri (fun st => e_cur st = None) vw st0 I) as T. unfold tri in T.
      destruct (nb_update_eq vw st0 true I) as [(? & _)|_]; [congruence|].
      destruct (nb_cache vw st0) as [r st] eqn:E.
      pose proof (update_tri (fun st => st = st0) vw true st0 I eq_refl st0 eq_refl) as T'. rewrite E in T'.
      destruct r as [c|m| |]; [| |done|done].
      + destruct T' as (_ & S & _ & j & w & Hj & Hw & Hcc). exists c, st. split; [done|]. split; [done|].
        assert (j = i) as -> by congruence. assert (w = v) as -> by congruence.
        destruct (nv_cache vw v) as [c'|] eqn:Ec; [|done]. subst c'. eapply (vi_coh _ _ _ (ni_var _ _ I i v Hi)); done.
      + exfalso. unfold nb_cache in E. destruct (nb_update_eq vw st0 true I) as [(? & _)|(j & w & Hj & Hw & [(c' & Hcc & Eu)|(Hcc & s' & c' & _ & _ & Eu)])]; [congruence| |];
        rewrite (abind_Ok _ _ _ _ _ Eu) in E; unfold aget, abind, aindex, alift in E; cbn [e_cur e_vars] in E; rewrite Hj in E; cbv beta iota in E; cbn [e_cur e_vars] in E.
        * rewrite Hw, Hcc in E. done.
        * rewrite lookup_insert, nv_set_same in E. done.
    - destruct (nb_update_eq vw st0 false I) as [(? & _)|(j & w & Hj & Hw & [(c' & Hcc & Eu)|(Hcc & s' & c' & Ss & CK & Eu)])]; [congruence| |].
      + rewrite (Hno j w Hj Hw) in Hcc. done.
      + assert (j = i) as -> by congruence. assert (w = v) as -> by congruence.
        exists c'. eexists. split; [|split; [|exact CK]].
        * unfold nb_cache. rewrite (abind_Ok _ _ _ _ _ Eu). unfold aget, abind, aindex, alift. cbn [e_cur e_vars]. rewrite Hc. cbv beta iota. cbn [e_cur e_vars].
          rewrite lookup_insert, nv_set_same. done.
        * split; [done|]. split; [by rewrite Hc|]. cbn [e_vars]. intros j. destruct (decide (i = j)) as [<-|Hne].
          -- left. exists v. rewrite lookup_insert. eexists. split; [done|]. split; [done|]. rewrite nv_set_sw. split; [done|]. rewrite Hc. congruence.
          -- rewrite lookup_insert_ne by done. destruct (e_vars st0 !! j) as [w|]; [left; by exists w, w|by right]. }
  assert (n < length (bc_node c)) as Hlt.
  { rewrite (ck_len _ _ _ _ _ _ CK). destruct Hn as [o Ho]. unfold nbg in Ho. rewrite abs_vertices in Ho.
    destruct (g_vertices (nb_graph (e_sh st0)) !! n) eqn:El; [|done]. by apply lookup_lt_Some in El. }
  unfold nb_bus_of_node. apply lookup_lt_is_Some in Hlt as [[k|] Hk].
  - pose proof (proj1 (ck_node _ _ _ _ _ _ CK n k) Hk) as [H1 H2]. destruct (ck_has _ _ _ _ _ _ CK n k H1 H2) as [b Hb].
    exists (Some b), st. rewrite (abind_Ok _ _ _ _ _ E). unfold alift. rewrite Hk, Hb. split; [done|]. split; [done|]. split; [done|].
    destruct (ck_id _ _ _ _ _ _ CK k b Hb) as (Ek & m & Hm & Hbm). eapply bus_of_same; [|exact Hbm].
    eapply bus_name_inj; [apply Hbm|]. by rewrite Ek.
  - exists None, st. rewrite (abind_Ok _ _ _ _ _ E). unfold alift. rewrite Hk. split; [done|]. split; [done|]. intros Hin.
    apply (not_not_least (same_node vw (nbg st0) (nv_sw v) n) n); [apply rtc_refl|]. intros [m Hm].
    assert (bus_name vw (nbg st0) (nv_sw v) (nb_id (e_sh st0)) n (nb_id (e_sh st0) +:+ "_" +:+ pretty (N.of_nat m))) as Hname by (by exists m).
    pose proof (proj2 (ck_node _ _ _ _ _ _ CK n _) (conj Hin Hname)). congruence.
Qed.

Lemma right_answer vw n st0 : ninv true st0 \/ (ninv false st0 /\ forall j w, e_cur st0 = Some j -> e_vars st0 !! j = Some w -> nv_cache vw w = None) ->
  is_Some (e_cur st0) -> is_Some (s_vertices (nbg st0) !! n) ->
  exists ob st, nb_bus_of_node vw n st0 = (Ok ob, st) /\ same_but_cache st0 st /\ answers_right vw st0 n ob.
Proof.
  intros I [i Hc] Hn.
  assert (exists v, e_vars st0 !! i = Some v) as [v Hi]. { destruct I as [I|[I _]]; by apply (proj2 (ni_wf _ _ I)). }
  destruct (view_answer vw n st0 i v I Hc Hi Hn) as (ob & st & E & S & H). exists ob, st. split; [done|]. split; [done|]. exists i, v. done.
Qed.
Lemma answers_fun vw st n ob ob' : answers_right vw st n ob -> answers_right vw st n ob' ->
  match ob, ob' with Some b, Some b' => cb_id b = cb_id b' /\ cb_terms b ≡ₚ cb_terms b' | None, None => True | _, _ => False end.
Proof.
  intros (i & v & Hc & Hi & H) (i' & v' & Hc' & Hi' & H'). assert (i' = i) as -> by congruence. assert (v' = v) as -> by congruence.
  destruct ob as [b|], ob' as [b'|].
  - destruct H as [_ [H1 (l & L1 & L2 & L3)]], H' as [_ [H1' (l' & L1' & L2' & L3')]]. split; [by eapply bus_name_fun|].
    rewrite L3, L3'. apply omap_Permutation. apply NoDup_Permutation; [done|done|]. intros m. by rewrite L2, L2'.
  - tauto.
  - tauto.
  - done.
Qed.

(** getBuses. *)
Lemma cache_eq vw st0 i v : ninv true st0 -> e_cur st0 = Some i -> e_vars st0 !! i = Some v ->
  exists c st, nb_cache vw st0 = (Ok c, st) /\ ninv true st /\ same_but_cache st0 st /\
    cache_ok vw (nb_id (e_sh st0)) (nv_sw v) (nbg st0) (length (g_vertices (nb_graph (e_sh st0)))) c.
Proof.
  intros I Hc Hi. pose proof (cache_tri (fun st => st = st0) vw st0 I eq_refl st0 eq_refl) as T.
  destruct (nb_update_eq vw st0 true I) as [(? & _)|_]; [congruence|].
  destruct (nb_cache vw st0) as [r st] eqn:E. destruct r as [c|m| |]; [| |done|done].
  - destruct T as (I' & S & j & w & Hj & Hw & CK). exists c, st. split; [done|]. split; [done|]. split; [done|].
    assert (j = i) as -> by congruence. assert (w = v) as -> by congruence. done.
  - exfalso. unfold nb_cache in E. destruct (nb_update_eq vw st0 true I) as [(? & _)|(j & w & Hj & Hw & [(c' & Hcc & Eu)|(Hcc & s' & c' & _ & _ & Eu)])]; [congruence| |];
    rewrite (abind_Ok _ _ _ _ _ Eu) in E; unfold aget, abind, aindex, alift in E; cbn [e_cur e_vars] in E; rewrite Hj in E; cbv beta iota in E; cbn [e_cur e_vars] in E.
    + rewrite Hw, Hcc in E. done.
    + rewrite lookup_insert, nv_set_same in E. done.
Qed.
Lemma buses_answer vw st0 i v : ninv true st0 -> e_cur st0 = Some i -> e_vars st0 !! i = Some v ->
  exists m st, nb_buses vw st0 = (Ok m, st) /\ same_but_cache st0 st /\
    (forall k b, m !! k = Some b -> cb_id b = k /\ exists n, in_bus vw (nbg st0) (nv_sw v) n /\ bus_of vw (nbg st0) (nv_sw v) (nb_id (e_sh st0)) n b) /\
    (forall n, in_bus vw (nbg st0) (nv_sw v) n -> exists k b, m !! k = Some b /\ bus_of vw (nbg st0) (nv_sw v) (nb_id (e_sh st0)) n b).
Proof.
  intros I Hc Hi. destruct (cache_eq vw st0 i v I Hc Hi) as (c & st & E & _ & S & CK). exists (bc_id c), st.
  split; [unfold nb_buses; by rewrite (abind_Ok _ _ _ _ _ E)|]. split; [done|]. split; [apply CK|]. intros n Hn.
  assert (exists k, bc_node c !! n = Some (Some k)) as [k Hk].
  { destruct (bc_node c !! n) as [[k|]|] eqn:Ek; [eauto| |]; exfalso;
    (apply (not_not_least (same_node vw (nbg st0) (nv_sw v) n) n); [apply rtc_refl|]; intros [m Hm];
     assert (bus_name vw (nbg st0) (nv_sw v) (nb_id (e_sh st0)) n (nb_id (e_sh st0) +:+ "_" +:+ pretty (N.of_nat m))) as Hname by (by exists m);
     pose proof (proj2 (ck_node _ _ _ _ _ _ CK n _) (conj Hn Hname)); congruence). }
  pose proof (proj1 (ck_node _ _ _ _ _ _ CK n k) Hk) as [_ H2]. destruct (ck_has _ _ _ _ _ _ CK n k Hn H2) as [b Hb]. exists k, b. split; [done|].
  destruct (ck_id _ _ _ _ _ _ CK k b Hb) as (Ek & m & Hm & Hbm). eapply bus_of_same; [|exact Hbm]. eapply bus_name_inj; [apply Hbm|]. by rewrite Ek.
Qed.

(** What connect and disconnect achieve. *)
Lemma working_pos st i v id : e_cur st = Some i -> e_vars st !! i = Some v -> pos st id = nv_sw v !! id.
Proof. intros Hc Hi. unfold pos. by rewrite Hc, Hi. Qed.
Lemma moved_cur x st st' : moved x st st' -> e_cur st' = e_cur st.
Proof. by intros (_ & H & _). Qed.
Lemma connect_links b srt n st0 st : sorts srt -> ninv b st0 -> is_Some (s_vertices (nbg st0) !! n) ->
  (forall id, nb_kind (e_sh st0) !! id = Some LOAD_BREAK_SWITCH -> exists r, pos st0 id = Some (false, r)) ->
  nb_connect srt n st0 = (Ok true, st) -> ninv b st /\ exists w, section_at st w /\ w <> n /\ linked BusView st n w.
Proof.
  intros Hsrt I Hn Hl E. destruct (nb_connect_ok b srt n st0 Hsrt I Hn) as (r & st' & E' & I' & M & _ & _ & _ & HR).
  rewrite E' in E. injection E as -> ->. split; [done|]. destruct (HR eq_refl) as ([id0 Hch] & p & Hp & _ & _ & Hclosed).
  destruct (e_cur st) as [i|] eqn:Hc.
  2:{ exfalso. apply Hch. unfold pos. rewrite <- (moved_cur _ _ _ M), Hc. done. }
  destruct (proj2 (ni_wf _ _ I') i Hc) as [v Hi]. destruct (moved_graph _ _ _ M) as [HG HK].
  destruct Hp as (ws & W0 & WL & WN & Wne & WE & WV).
  destruct (lookup_lt_is_Some_2 ws (length p)) as [w Hw]; [lia|]. exists w.
  assert (0 < length p) as Hpos by (destruct p; [done|simpl; lia]).
  destruct (WV (length p) w Hpos Hw) as (o & Ho & Hcomp). split; [|split].
  - unfold section_at, term_at. rewrite HG, Ho. pose proof (proj2 Hcomp eq_refl) as Hb. unfold is_busbar in Hb. destruct o as [t|]; [|done].
    exists t. split; [done|]. by apply bool_decide_eq_true in Hb.
  - intros ->. pose proof (NoDup_lookup _ _ _ _ WN W0 Hw). lia.
  - exists i, v. split; [done|]. split; [done|]. rewrite HG. eapply path_linked; [exact W0|done| |exact Hw].
    intros j e He. destruct (WE j e He) as (a & b' & ob & Ha & Hb & Hj & Hcan). exists a, b', ob. split; [done|]. split; [done|]. split; [done|].
    destruct ob as [id|]; [|done].
    assert (is_Some (nb_kind (e_sh st0) !! id)) as [k Hk].
    { apply (si_kind _ (ni_sh _ _ I)). destruct Hj as [Hj|Hj]; apply (si_edge _ (ni_sh _ _ I)) in Hj; eauto. }
    assert (exists x y, s_edges (nbg st0) !! e = Some (x, y, Some id)) as (x & y & Hxy) by (destruct Hj; eauto).
    rewrite <- (working_pos st i v id Hc Hi).
    assert (is_Some (pos st0 id)) as [[o' r'] Hpos0].
    { rewrite (moved_cur _ _ _ M) in Hc. destruct (proj2 (ni_wf _ _ I) i Hc) as [v0 Hi0]. rewrite (working_pos st0 i v0 id Hc Hi0).
      apply (vi_dom _ _ _ (ni_var _ _ I i v0 Hi0)). eauto. }
    destruct k.
    + apply (Hclosed e id); [by eapply elem_of_list_lookup_2|]. exists x, y. done.
    + assert (o' = false) as ->.
      { unfold blocks in Hcan. rewrite bool_decide_true in Hcan by done. rewrite Hpos0 in Hcan. by destruct o'. }
      exists r'. by apply (moved_keeps false st0 st).
    + destruct (Hl id Hk) as [r Hr]. exists r. by apply (moved_keeps false st0 st).
Qed.
Lemma linked_route b st0 st n w : ninv b st0 -> moved true st0 st -> linked BusView st n w -> section_at st w -> w <> n ->
  exists p, route st0 n p /\ forall e id, e ∈ p -> breaker_edge st0 e id -> exists r, pos st id = Some (false, r).
Proof.
  intros I M (i & v & Hc & Hi & HL) (t & Ht & Hsec) Hne. destruct (moved_graph _ _ _ M) as [HG HK]. rewrite HG in *.
  destruct (rtc_walk _ _ _ HL) as [l0 W0]. destruct (walk_simple _ _ _ _ W0) as (l & W & N).
  set (P := fun m => match s_vertices (nbg st0) !! m with Some o => is_busbar o | None => false end).
  assert (P w = true) as HPw. { unfold P. rewrite Ht. unfold is_busbar. by apply bool_decide_eq_true. }
  destruct (walk_first _ P n l w W) as (l1 & x & l2 & El & Wx & HPx & Hl1); [by eapply walk_end_in|done|].
  destruct (walk_edges _ _ _ _ _ Wx) as (p & Hlen & Hp). rewrite app_length in Hlen. simpl in Hlen.
  assert (NoDup (n :: l1 ++ [x])) as Nx.
  { rewrite El in N. replace (n :: l1 ++ x :: l2) with ((n :: l1 ++ [x]) ++ l2) in N by (simpl; by rewrite <- app_assoc).
    by apply NoDup_app in N as (? & _). }
  assert (forall m o, (n :: l1 ++ [x]) !! m = Some o -> is_Some (s_vertices (nbg st0) !! o)) as Hlive.
  { intros m o Hm. destruct (decide (m < length p)) as [Hlt|Hge].
    - apply lookup_lt_is_Some in Hlt as [e He]. destruct (Hp m e He) as (a & c & ob & Ha & _ & Hj & _).
      assert (a = o) as -> by congruence. apply (on_edge_live _ _ (si_g _ (ni_sh _ _ I))). exists e, c, ob. done.
    - assert (m = length l1 + 1) as ->. { apply lookup_lt_Some in Hm. simpl in Hm. rewrite app_length in Hm. simpl in Hm. lia. }
      replace (length l1 + 1) with (S (length l1)) in Hm by lia. simpl in Hm. rewrite lookup_app_r, Nat.sub_diag in Hm by lia. simpl in Hm.
      injection Hm as <-. unfold P in HPx. destruct (s_vertices (nbg st0) !! x); [eauto|done]. }
  exists p. split.
  - exists (n :: l1 ++ [x]). split; [done|]. split; [simpl; rewrite app_length; simpl; lia|]. split; [done|].
    split; [intros ->; simpl in Hlen; lia|]. split.
    + intros j e He. destruct (Hp j e He) as (a & c & ob & Ha & Hcc & Hj & Hcl). exists a, c, ob. split; [done|]. split; [done|]. split; [done|].
      destruct ob as [id|]; [|done]. destruct Hcl as [r Hr]. unfold blocks. case_bool_decide as Hk; [|done]. simpl.
      rewrite <- (working_pos st i v id Hc Hi) in Hr. destruct (moved_pos _ _ _ id M) as [E|(r' & Hk' & _)]; [|congruence].
      rewrite <- E, Hr. done.
    + intros j o Hj0 Hjo. destruct (Hlive j o Hjo) as [vo Hvo]. exists vo. split; [done|]. destruct j as [|j]; [lia|]. simpl in Hjo.
      split.
      * intros Hb. destruct (decide (j < length l1)) as [Hlt|Hge].
        -- rewrite lookup_app_l in Hjo by done. apply elem_of_list_lookup_2, Hl1 in Hjo. unfold P in Hjo. rewrite Hvo in Hjo. congruence.
        -- apply lookup_lt_Some in Hjo. rewrite app_length in Hjo. simpl in Hjo. lia.
      * intros Hjl. assert (j = length l1) as -> by lia. rewrite lookup_app_r, Nat.sub_diag in Hjo by lia. simpl in Hjo. injection Hjo as <-.
        unfold P in HPx. by rewrite Hvo in HPx.
  - intros e id He (a & c & Hed & _). apply elem_of_list_lookup in He as [j Hj]. destruct (Hp j e Hj) as (a' & c' & ob & _ & _ & Hjo & Hcl).
    assert (ob = Some id) as -> by (destruct Hjo; congruence). destruct Hcl as [r Hr]. exists r. by rewrite (working_pos st i v id Hc Hi).
Qed.
Lemma disconnect_unlinks b srt n st0 st : sorts srt -> ninv b st0 -> is_Some (s_vertices (nbg st0) !! n) ->
  nb_disconnect srt n st0 = (Ok true, st) -> forall w, section_at st w -> w <> n -> ~ linked BusView st n w.
Proof.
  intros Hsrt I Hn E w Hw Hne HL. destruct (nb_disconnect_ok b srt n st0 Hsrt I Hn) as (r & st' & E' & I' & M & _ & _ & _ & HR & _).
  rewrite E' in E. injection E as -> ->. destruct (linked_route b st0 st n w I M HL Hw Hne) as (p & Hp & Hcl).
  destruct (HR eq_refl p Hp) as (e & id & r & He & Hb & Hop). destruct (Hcl e id He Hb) as [r' Hr']. congruence.
Qed.
(** A terminal linked to a busbar section is connected. *)
Lemma linked_connected st n w t : ninv true st -> term_at (nbg st) n t -> is_feeder t -> section_at st w -> w <> n -> linked BusView st n w ->
  exists st', nb_is_connected n st = (Ok true, st').
Proof.
  intros I Ht Hf (t' & Ht' & Hs) Hne (i & v & Hc & Hi & HL).
  destruct (view_answer BusView n st i v (or_introl I) Hc Hi) as (ob & st' & E & _ & H). { unfold term_at in Ht. rewrite Ht. eauto. }
  assert (in_bus BusView (nbg st) (nv_sw v) n) as Hin.
  { split.
    - destruct HL as [|x y z Hxy _]; [done|]. exact (proj1 (link_on_edge _ _ _ _ _ Hxy)).
    - left. exists w, n, t', t. split; [done|]. split; [apply rtc_refl|]. done. }
  destruct ob as [b|]; [|done]. exists st'. unfold nb_is_connected. rewrite (abind_Ok _ _ _ _ _ E). done.
Qed.

(** Stale answers are detected by asking again without the cache. *)
Definition refreshed (st : nbst) : nbst := mkE (e_sh st) (nv_invalidate <$> e_vars st) (e_cur st).
Lemma stale_answer vw st n ob : ninv false st -> is_Some (e_cur st) -> is_Some (s_vertices (nbg st) !! n) ->
  (forall ob', (nb_bus_of_node vw n (refreshed st)).1 = Ok ob' ->
     match ob, ob' with Some b, Some b' => cb_id b <> cb_id b' \/ length (cb_terms b) <> length (cb_terms b') | None, None => False | _, _ => True end) ->
  ~ answers_right vw st n ob.
Proof.
  intros I [i Hc] Hn H HR. destruct (proj2 (ni_wf _ _ I) i Hc) as [v Hi].
  assert (ninv false (refreshed st)) as I'.
  { destruct I as [W S HV]. split; [destruct st; by eapply ewf_fmap|done|]. intros j w. cbn [refreshed e_vars e_sh]. rewrite lookup_fmap.
    intros (w0 & Hw0 & ->)%fmap_Some. eapply invalid_inv. eauto. }
  destruct (right_answer vw n (refreshed st)) as (ob' & st' & E & _ & HR').
  - right. split; [done|]. intros j w _. cbn [refreshed e_vars]. rewrite lookup_fmap. intros (w0 & _ & ->)%fmap_Some. by destruct vw.
  - by exists i.
  - done.
  - assert (answers_right vw st n ob') as HR2.
    { destruct HR' as (j & w & Hj & Hw & HH). cbn [refreshed e_cur e_vars] in Hj, Hw. rewrite lookup_fmap in Hw.
      destruct (e_vars st !! j) as [w0|] eqn:Ew0; [|done]. simpl in Hw. injection Hw as <-. exists j, w0. done. }
    specialize (H ob'). rewrite E in H. specialize (H eq_refl). pose proof (answers_fun _ _ _ _ _ HR HR2) as HF.
    destruct ob as [b|], ob' as [b'|]; try done. destruct HF as [HF1 HF2]. destruct H as [H|H]; [done|]. apply H. by rewrite HF2.
Qed.
