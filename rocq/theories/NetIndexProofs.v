From stdpp Require Import gmap pretty.
From Verif Require Import Base NetIndex NetIndexSpec.

(** ** getUniqueId *)
Definition nth_id (base : string) (k : nat) : string := base +:+ "#" +:+ pretty (N.of_nat k).

Lemma nth_id_inj base i j : nth_id base i = nth_id base j -> i = j.
Proof.
  unfold nth_id. intros H. apply (inj (String.append base)) in H. apply (inj (String.append "#")) in H.
  apply (inj pretty) in H. lia.
Qed.

Lemma unique_loop_ok c base f : forall i u, unique_loop c base f i = Ok u ->
  exists k, i <= k < i + f /\ u = nth_id base k /\ c u = false /\ forall j, i <= j < k -> c (nth_id base j) = true.
Proof.
  induction f as [|f IH]; intros i u; [done|]. cbn [unique_loop]. fold (nth_id base i).
  destruct (c (nth_id base i)) eqn:Hc.
  - intros H. apply IH in H as (k & Hk & -> & Hf & Hall). exists k. split; [lia|]. split; [done|]. split; [done|].
    intros j Hj. destruct (decide (j = i)) as [->|]; [done|]. apply Hall. lia.
  - intros [= <-]. exists i. split; [lia|]. split; [done|]. split; [done|]. lia.
Qed.
Lemma unique_loop_fuel c base f : forall i, unique_loop c base f i = OutOfFuel -> forall j, i <= j < i + f -> c (nth_id base j) = true.
Proof.
  induction f as [|f IH]; intros i; [lia|]. cbn [unique_loop]. fold (nth_id base i).
  destruct (c (nth_id base i)) eqn:Hc; [|done]. intros H j Hj. destruct (decide (j = i)) as [->|]; [done|].
  apply (IH (S i) H). lia.
Qed.
Lemma unique_loop_total c base f i : (exists u, unique_loop c base f i = Ok u) \/ unique_loop c base f i = OutOfFuel.
Proof. revert i. induction f as [|f IH]; intros i; cbn [unique_loop]; [auto|]. destruct (c _); [apply IH|eauto]. Qed.

Lemma unique_loop_enough c base f i (L : list string) : (forall x, c x = true -> x ∈ L) -> length L < f ->
  exists u, unique_loop c base f i = Ok u.
Proof.
  intros HL Hf. destruct (unique_loop_total c base f i) as [?|H]; [done|]. exfalso.
  pose proof (unique_loop_fuel c base f i H) as Hall.
  assert (NoDup (map (nth_id base) (seq i f))) as Hnd.
  { apply NoDup_fmap_2_strong; [|apply NoDup_seq]. intros x y _ _. apply nth_id_inj. }
  assert (length (map (nth_id base) (seq i f)) <= length L) as Hle.
  { apply NoDup_incl_length; [by apply NoDup_ListNoDup|]. intros x Hx. apply elem_of_list_In in Hx. apply elem_of_list_In, HL.
    apply elem_of_list_fmap in Hx as (j & -> & Hj). apply elem_of_seq in Hj. by apply Hall. }
  rewrite map_length, seq_length in Hle. lia.
Qed.

(** What the function returns. *)
Definition is_unique_id (c : string -> bool) (base u : string) : Prop :=
  if decide (base <> "" /\ c base = false) then u = base
  else exists k, u = nth_id (if decide (base = "") then "autoId" else base) k /\ c u = false /\
       forall j, j < k -> c (nth_id (if decide (base = "") then "autoId" else base) j) = true.

Lemma get_unique_id_ok c f base u : get_unique_id c f base = Ok u -> is_unique_id c base u.
Proof.
  unfold get_unique_id, is_unique_id. case_bool_decide as Hb.
  - rewrite decide_False by tauto. rewrite decide_True by done. intros (k & _ & -> & Hf & Hall)%unique_loop_ok.
    exists k. split; [done|]. split; [done|]. intros j Hj. apply Hall. lia.
  - destruct (c base) eqn:Hc.
    + rewrite decide_False by naive_solver. rewrite decide_False by done. intros (k & _ & -> & Hf & Hall)%unique_loop_ok.
      exists k. split; [done|]. split; [done|]. intros j Hj. apply Hall. lia.
    + rewrite decide_True by done. congruence.
Qed.
Lemma get_unique_id_enough c f base (L : list string) : (forall x, c x = true -> x ∈ L) -> length L < f ->
  exists u, get_unique_id c f base = Ok u.
Proof.
  intros HL Hf. unfold get_unique_id. case_bool_decide; [by eapply unique_loop_enough|].
  destruct (c base); [by eapply unique_loop_enough|eauto].
Qed.
Lemma is_unique_id_fresh c base u : is_unique_id c base u -> c u = false /\ u <> "".
Proof.
  unfold is_unique_id. case_decide as Hd.
  - intros ->. tauto.
  - intros (k & -> & Hc & _). split; [done|]. unfold nth_id. destruct (decide (base = "")); [done|]. by destruct base.
Qed.
Lemma is_unique_id_det c base u v : is_unique_id c base u -> is_unique_id c base v -> u = v.
Proof.
  unfold is_unique_id. case_decide; [congruence|]. intros (k & -> & Hk & Ak) (l & -> & Hl & Al).
  destruct (lt_eq_lt_dec k l) as [[Hlt|Heq]|Hlt].
  - rewrite (Al k Hlt) in Hk. done.
  - congruence.
  - rewrite (Ak l Hlt) in Hl. done.
Qed.

(** ** Invariant of the index *)
Definition has_alias (o : iobj) (a : string) : Prop := a ∈ o_untyped o \/ exists t, o_typed o !! t = Some a.

Record iwf (ix : index) : Prop := {
  w_byid : forall id p, ix_byid ix !! id = Some p -> exists o, ix_heap ix !! p = Some o /\ o_id o = id;
  w_heap : forall p o, ix_heap ix !! p = Some o -> ix_byid ix !! o_id o = Some p;
  w_next : forall p o, ix_heap ix !! p = Some o -> p < ix_next ix;
  w_type : forall p ty, p ∈ ix_all ix ty <-> exists o, ix_heap ix !! p = Some o /\ o_type o = ty;
  w_nodup : forall ty, NoDup (ix_all ix ty);
  w_alias : forall a id, ix_alias ix !! a = Some id <-> exists p o, ix_heap ix !! p = Some o /\ o_id o = id /\ has_alias o a;
  w_shadow : forall a id, ix_alias ix !! a = Some id -> ix_byid ix !! a = None;
  w_empty : ix_byid ix !! "" = None;
  w_disj : forall p o t a, ix_heap ix !! p = Some o -> o_typed o !! t = Some a -> a ∉ o_untyped o;
  w_inj : forall p o t t' a, ix_heap ix !! p = Some o -> o_typed o !! t = Some a -> o_typed o !! t' = Some a -> t = t';
  w_ty : forall p o, ix_heap ix !! p = Some o -> o_typed o !! "" = None
}.

Lemma ix_init_wf id : id <> "" -> iwf (ix_init id).
Proof.
  intros Hid. unfold ix_init. split; cbn [ix_byid ix_heap ix_bytype ix_alias ix_next].
  - intros i p [<- <-]%lookup_singleton_Some. exists (mkObj id ty_network ∅ ∅). split; [by rewrite lookup_singleton|done].
  - intros p o [<- <-]%lookup_singleton_Some. by rewrite lookup_singleton.
  - intros p o [<- <-]%lookup_singleton_Some. lia.
  - intros p ty. unfold ix_all. cbn [ix_bytype]. destruct (decide (ty = ty_network)) as [->|Hne].
    + rewrite lookup_singleton. simpl. rewrite elem_of_list_singleton. split.
      * intros ->. exists (mkObj id ty_network ∅ ∅). split; [by rewrite lookup_singleton|done].
      * intros (o & [<- <-]%lookup_singleton_Some & _). done.
    + rewrite lookup_singleton_ne by done. split; [by intros ?%elem_of_nil|].
      intros (o & [<- <-]%lookup_singleton_Some & ?). done.
  - intros ty. unfold ix_all. cbn [ix_bytype]. destruct (decide (ty = ty_network)) as [->|Hne].
    + rewrite lookup_singleton. apply NoDup_singleton.
    + rewrite lookup_singleton_ne by done. constructor.
  - intros a i. rewrite lookup_empty. split; [done|]. intros (p & o & [<- <-]%lookup_singleton_Some & _ & [H|[t H]]).
    + by apply elem_of_empty in H.
    + simpl in H. by rewrite lookup_empty in H.
  - intros a i. by rewrite lookup_empty.
  - by rewrite lookup_singleton_ne.
  - intros p o t a [<- <-]%lookup_singleton_Some. simpl. by rewrite lookup_empty.
  - intros p o t t' a [<- <-]%lookup_singleton_Some. simpl. by rewrite lookup_empty.
  - intros p o [<- <-]%lookup_singleton_Some. simpl. by rewrite lookup_empty.
Qed.

(** Resolution of ids and aliases. *)
Definition designates (ix : index) (s : string) (p : nat) : Prop :=
  exists o, ix_heap ix !! p = Some o /\ (o_id o = s \/ has_alias o s).

Lemma designates_unique ix s p q : iwf ix -> designates ix s p -> designates ix s q -> p = q.
Proof.
  intros W (o & Ho & Hs) (o' & Ho' & Hs').
  assert (forall p o, ix_heap ix !! p = Some o -> has_alias o s -> ix_alias ix !! s = Some (o_id o)) as Hal.
  { intros p0 o0 H0 Ha. apply (w_alias _ W). eauto. }
  destruct Hs as [<-|Ha], Hs' as [Hs'|Ha'].
  - pose proof (w_heap _ W _ _ Ho) as E1. pose proof (w_heap _ W _ _ Ho') as E2. rewrite Hs' in E2. congruence.
  - pose proof (Hal _ _ Ho' Ha') as E. apply (w_shadow _ W) in E. pose proof (w_heap _ W _ _ Ho). congruence.
  - pose proof (Hal _ _ Ho Ha) as E. rewrite <- Hs' in E. apply (w_shadow _ W) in E. pose proof (w_heap _ W _ _ Ho'). congruence.
  - pose proof (Hal _ _ Ho Ha) as E1. pose proof (Hal _ _ Ho' Ha') as E2.
    pose proof (w_heap _ W _ _ Ho). pose proof (w_heap _ W _ _ Ho'). congruence.
Qed.

Lemma ix_find_spec ix s : iwf ix ->
  (exists p, ix_find ix s = Ok (Some p) /\ designates ix s p) \/
  (ix_find ix s = Ok None /\ s <> "" /\ forall p, ~ designates ix s p) \/
  ((exists m, ix_find ix s = Throw m) /\ s = "" /\ forall p, ~ designates ix s p).
Proof.
  intros W. unfold ix_find. destruct (ix_alias ix !! s) as [id|] eqn:Ha; simpl.
  - destruct (proj1 (w_alias _ W s id) Ha) as (p & o & Ho & <- & Has).
    pose proof (w_heap _ W _ _ Ho) as Hid.
    rewrite bool_decide_false. 2:{ intros E. rewrite E, (w_empty _ W) in Hid. done. }
    left. exists p. split; [by rewrite Hid|]. exists o. auto.
  - assert (forall p, designates ix s p -> exists o, ix_heap ix !! p = Some o /\ o_id o = s) as Hd.
    { intros p (o & Ho & [?|Has]); [eauto|]. exfalso. assert (ix_alias ix !! s = Some (o_id o)) by (apply (w_alias _ W); eauto). congruence. }
    case_bool_decide as Hs.
    + right. right. split; [eauto|]. split; [done|]. intros p (o & Ho & Hid)%Hd. pose proof (w_heap _ W _ _ Ho) as E.
      rewrite Hid, Hs, (w_empty _ W) in E. done.
    + destruct (ix_byid ix !! s) as [p|] eqn:Hb.
      * left. exists p. split; [done|]. destruct (w_byid _ W _ _ Hb) as (o & Ho & <-). exists o. auto.
      * right. left. split; [done|]. split; [done|]. intros p (o & Ho & Hid)%Hd. pose proof (w_heap _ W _ _ Ho) as E. congruence.
Qed.

Lemma ix_contains_spec ix s : iwf ix -> ix_contains ix s = true <-> exists p, designates ix s p.
Proof.
  intros W. unfold ix_contains. destruct (ix_find_spec ix s W) as [(p & -> & Hd)|[(-> & _ & Hn)|([m ->] & _ & Hn)]].
  - split; eauto.
  - split; [done|]. intros [p Hp]. by destruct (Hn p).
  - split; [done|]. intros [p Hp]. by destruct (Hn p).
Qed.
Lemma ix_contains_finite ix s : iwf ix -> ix_contains ix s = true ->
  s ∈ (map fst (map_to_list (ix_byid ix)) ++ map fst (map_to_list (ix_alias ix))).
Proof.
  intros W. rewrite ix_contains_spec by done. intros (p & o & Ho & [<-|Ha]); apply elem_of_app.
  - left. apply elem_of_list_fmap. exists (o_id o, p). split; [done|]. by apply elem_of_map_to_list, (w_heap _ W).
  - right. apply elem_of_list_fmap. exists (s, o_id o). split; [done|]. apply elem_of_map_to_list, (w_alias _ W). eauto.
Qed.
Lemma ix_unique ix base : iwf ix -> exists u, get_unique_id (ix_contains ix) (ix_fuel ix) base = Ok u /\
  is_unique_id (ix_contains ix) base u /\ u <> "" /\ forall p, ~ designates ix u p.
Proof.
  intros W. destruct (get_unique_id_enough (ix_contains ix) (ix_fuel ix) base
    (map fst (map_to_list (ix_byid ix)) ++ map fst (map_to_list (ix_alias ix)))) as [u Hu].
  - intros x. by apply ix_contains_finite.
  - unfold ix_fuel. rewrite app_length, !map_length. unfold size, map_size. lia.
  - exists u. split; [done|]. pose proof (get_unique_id_ok _ _ _ _ Hu) as Hs. split; [done|].
    destruct (is_unique_id_fresh _ _ _ Hs) as [Hf Hne]. split; [done|]. intros p Hp.
    assert (ix_contains ix u = true) as E by (apply ix_contains_spec; eauto). congruence.
Qed.

(** ** Operations *)
Definition no_one (ix : index) (s : string) : Prop := forall p, ~ designates ix s p.

Lemma no_one_byid ix s : iwf ix -> no_one ix s -> ix_byid ix !! s = None /\ ix_alias ix !! s = None.
Proof.
  intros W H. split; apply eq_None_not_Some; intros [x Hx].
  - destruct (w_byid _ W _ _ Hx) as (o & Ho & <-). apply (H x). exists o. auto.
  - destruct (proj1 (w_alias _ W _ _) Hx) as (p & o & Ho & _ & Ha). apply (H p). exists o. auto.
Qed.

Definition add_post (ix : index) (u : string) (ty : nat) (ix' : index) : Prop :=
  ix_heap ix' = <[ix_next ix := mkObj u ty ∅ ∅]> (ix_heap ix) /\ ix_heap ix !! ix_next ix = None /\ ix_alias ix' = ix_alias ix.

Lemma check_and_add_ok ix u ty : iwf ix -> u <> "" -> no_one ix u ->
  exists ix', ix_check_and_add ix u ty = (Ok (ix_next ix), ix') /\ iwf ix' /\ add_post ix u ty ix'.
Proof.
  intros W Hu Hn. destruct (no_one_byid ix u W Hn) as [Hb Ha]. unfold ix_check_and_add.
  rewrite bool_decide_false by done. rewrite Hb. set (n := ix_next ix). set (ob := mkObj u ty ∅ ∅).
  assert (ix_heap ix !! n = None) as Hfresh.
  { apply eq_None_not_Some. intros [o Ho]. pose proof (w_next _ W _ _ Ho). unfold n in *. lia. }
  eexists. split; [done|]. split; [|done].
  assert (forall p o, <[n := ob]> (ix_heap ix) !! p = Some o <-> (p = n /\ o = ob) \/ (p <> n /\ ix_heap ix !! p = Some o)) as Hh.
  { intros p o. rewrite lookup_insert_Some. naive_solver. }
  split; cbn [ix_byid ix_heap ix_bytype ix_alias ix_next].
  - intros id p [[<- <-]|[Hne Hp]]%lookup_insert_Some.
    + exists ob. split; [by rewrite lookup_insert|done].
    + destruct (w_byid _ W _ _ Hp) as (o & Ho & Hid). exists o. split; [|done]. apply Hh. right. split; [|done]. congruence.
  - intros p o [[-> ->]|[Hne Ho]]%Hh; [by rewrite lookup_insert|].
    rewrite lookup_insert_ne; [by apply (w_heap _ W)|]. intros ->. pose proof (w_heap _ W _ _ Ho). congruence.
  - intros p o [[-> ->]|[Hne Ho]]%Hh; [lia|]. pose proof (w_next _ W _ _ Ho). unfold n. lia.
  - intros p ty'. unfold ix_all. cbn [ix_bytype]. destruct (decide (ty' = ty)) as [->|Hne].
    + rewrite lookup_insert. simpl. rewrite elem_of_app, elem_of_list_singleton.
      fold (ix_all ix ty). rewrite (w_type _ W). split.
      * intros [(o & Ho & Ht)| ->]; [|exists ob; split; [apply Hh; auto|done]].
        exists o. split; [|done]. apply Hh. right. split; [|done]. congruence.
      * intros (o & [[-> ->]|[? Ho]]%Hh & Ht); eauto.
    + rewrite lookup_insert_ne by done. fold (ix_all ix ty'). rewrite (w_type _ W). split.
      * intros (o & Ho & Ht). exists o. split; [|done]. apply Hh. right. split; [|done]. congruence.
      * intros (o & [[-> ->]|[? Ho]]%Hh & Ht); [done|eauto].
  - intros ty'. unfold ix_all. cbn [ix_bytype]. destruct (decide (ty' = ty)) as [->|Hne].
    + rewrite lookup_insert. simpl. fold (ix_all ix ty). apply NoDup_app. split; [apply (w_nodup _ W)|]. split; [|apply NoDup_singleton].
      intros x Hx ->%elem_of_list_singleton. apply (w_type _ W) in Hx as (o & Ho & _). congruence.
    + rewrite lookup_insert_ne by done. apply (w_nodup _ W).
  - intros a id. rewrite (w_alias _ W). split.
    + intros (p & o & Ho & Hid & Has). exists p, o. split; [|done]. apply Hh. right. split; [|done]. congruence.
    + intros (p & o & [[-> ->]|[? Ho]]%Hh & Hid & Has); [|eauto]. destruct Has as [Has|[t Has]]; simpl in Has.
      * by apply elem_of_empty in Has.
      * by rewrite lookup_empty in Has.
  - intros a id Hal. rewrite lookup_insert_ne; [by eapply (w_shadow _ W)|]. congruence.
  - rewrite lookup_insert_ne; [apply W|done].
  - intros p o t a [[-> ->]|[? Ho]]%Hh; [simpl; by rewrite lookup_empty|]. by apply (w_disj _ W p).
  - intros p o t t' a [[-> ->]|[? Ho]]%Hh; [simpl; by rewrite lookup_empty|]. by apply (w_inj _ W p).
  - intros p o [[-> ->]|[? Ho]]%Hh; [simpl; by rewrite lookup_empty|]. by apply (w_ty _ W p).
Qed.

Lemma ix_add_ok ix id ty ensure : iwf ix ->
  (exists u ix', ix_add ix id ty ensure = (Ok (ix_next ix), ix') /\ iwf ix' /\ add_post ix u ty ix' /\ no_one ix u /\ id <> "" /\ u <> "" /\
     (if ensure then is_unique_id (ix_contains ix) id u else u = id)) \/
  (exists m, ix_add ix id ty ensure = (Throw m, ix) /\ (id = "" \/ ensure = false /\ exists p, designates ix id p)).
Proof.
  intros W. unfold ix_add, ix_check_unique. case_bool_decide as Hid; [right; eauto|]. destruct ensure.
  - destruct (ix_unique ix id W) as (u & -> & Hu & Hne & Hno).
    destruct (check_and_add_ok ix u ty W Hne Hno) as (ix' & E & W' & P). left. exists u, ix'. rewrite E. eauto 10.
  - destruct (ix_find_spec ix id W) as [(p & E & Hd)|[(E & Hne & Hno)|(_ & ? & _)]]; [| |done]; rewrite E; cbn [result_bind].
    + right. eauto 10.
    + destruct (check_and_add_ok ix id ty W Hne Hno) as (ix' & E' & W' & P). left. exists id, ix'. rewrite E'. eauto 10.
Qed.

(** remove *)
Lemma foldl_delete (l : list string) (m : gmap string string) a :
  foldl (fun m a => delete a m) m l !! a = if decide (a ∈ l) then None else m !! a.
Proof.
  revert m. induction l as [|x l IH]; intros m; cbn [foldl].
  - rewrite decide_False; [done|]. by intros ?%elem_of_nil.
  - rewrite IH. destruct (decide (a ∈ l)) as [Hin|Hin].
    + rewrite decide_True; [done|]. by right.
    + destruct (decide (a = x)) as [->|Hne].
      * rewrite lookup_delete, decide_True; [done|]. by left.
      * rewrite lookup_delete_ne, decide_False; [done| |done]. intros [?|?]%elem_of_cons; done.
Qed.
Lemma elem_of_o_aliases o a : a ∈ o_aliases o <-> has_alias o a.
Proof.
  unfold o_aliases, has_alias. rewrite elem_of_app, elem_of_elements, elem_of_list_fmap. apply or_iff_compat_l. split.
  - intros ([t a'] & -> & H). exists t. by apply elem_of_map_to_list in H.
  - intros [t H]. exists (t, a). split; [done|]. by apply elem_of_map_to_list.
Qed.

Definition remove_post (ix : index) (p : nat) (ix' : index) : Prop := ix_heap ix' = delete p (ix_heap ix).

Lemma elem_of_delete_nodup (l : list nat) k p : NoDup l -> l !! k = Some p -> forall x, x ∈ delete k l <-> x ∈ l /\ x <> p.
Proof.
  intros Hnd Hk x. pose proof (take_drop_middle l k p Hk) as E. rewrite delete_take_drop. rewrite <- E in Hnd.
  assert (x ∈ l <-> x ∈ take k l ++ p :: drop (S k) l) as -> by (by rewrite E).
  apply NoDup_app in Hnd as (H1 & H2 & H3). apply NoDup_cons in H3 as [H3 H4].
  rewrite !elem_of_app, elem_of_cons. split.
  - intros [Hx|Hx]; (split; [auto|]); intros ->; [|done]. apply (H2 p Hx). by left.
  - intros [[?|[?|?]] ?]; auto. done.
Qed.
Lemma NoDup_delete (l : list nat) k : NoDup l -> NoDup (delete k l).
Proof. 
  intros H. rewrite delete_take_drop. rewrite <- (take_drop k l) in H. apply NoDup_app in H as (H1 & H2 & H3).
  apply NoDup_app. split; [done|]. assert (drop (S k) l = drop 1 (drop k l)) as E by (rewrite drop_drop; f_equal; lia). rewrite E. split.
  - intros x Hx Hin. apply (H2 x Hx). rewrite <- (take_drop 1 (drop k l)). apply elem_of_app. by right.
  - rewrite <- (take_drop 1 (drop k l)) in H3. by apply NoDup_app in H3 as (_ & _ & H3).
Qed.

Lemma ix_remove_ok ix p o : iwf ix -> ix_heap ix !! p = Some o ->
  exists ix', ix_remove ix p = (Ok tt, ix') /\ iwf ix' /\ remove_post ix p ix'.
Proof.
  intros W Ho. unfold ix_remove. rewrite Ho. pose proof (w_heap _ W _ _ Ho) as Hb. rewrite bool_decide_true by done.
  assert (p ∈ ix_all ix (o_type o)) as Hin by (apply (w_type _ W); eauto).
  unfold ix_all in Hin. destruct (ix_bytype ix !! o_type o) as [l|] eqn:Hl; [|by apply elem_of_nil in Hin]. simpl in Hin.
  destruct (list_find (eq p) l) as [[k p']|] eqn:Hf.
  2:{ apply list_find_None in Hf. rewrite Forall_forall in Hf. by destruct (Hf p Hin). }
  apply list_find_Some in Hf as (Hk & <- & _). eexists. split; [done|]. split; [|done].
  assert (NoDup l) as Hnd. { pose proof (w_nodup _ W (o_type o)) as H. unfold ix_all in H. by rewrite Hl in H. }
  assert (forall q r, delete p (ix_heap ix) !! q = Some r <-> q <> p /\ ix_heap ix !! q = Some r) as Hh.
  { intros q r. rewrite lookup_delete_Some. naive_solver. }
  assert (forall q r, q <> p -> ix_heap ix !! q = Some r -> o_id r <> o_id o) as Hneq.
  { intros q r Hq Hr E. apply Hq. pose proof (w_heap _ W _ _ Hr) as E'. rewrite E in E'. congruence. }
  split; cbn [ix_byid ix_heap ix_bytype ix_alias ix_next].
  - intros id q [Hne Hq]%lookup_delete_Some. destruct (w_byid _ W _ _ Hq) as (r & Hr & Hid). exists r. split; [|done].
    apply Hh. split; [|done]. intros ->. congruence.
  - intros q r [Hne Hr]%Hh. rewrite lookup_delete_ne; [by apply (w_heap _ W)|]. intros E. by apply (Hneq q r).
  - intros q r [Hne Hr]%Hh. by eapply (w_next _ W).
  - intros q ty. unfold ix_all. cbn [ix_bytype]. destruct (decide (ty = o_type o)) as [->|Hne].
    + rewrite lookup_insert. simpl. rewrite (elem_of_delete_nodup l k p Hnd Hk).
      pose proof (w_type _ W q (o_type o)) as Ht. unfold ix_all in Ht. rewrite Hl in Ht. simpl in Ht. rewrite Ht. split.
      * intros [(r & Hr & E) Hq]. exists r. split; [by apply Hh|done].
      * intros (r & [Hq Hr]%Hh & E). eauto.
    + rewrite lookup_insert_ne by done. fold (ix_all ix ty). rewrite (w_type _ W). split.
      * intros (r & Hr & E). exists r. split; [|done]. apply Hh. split; [|done]. intros ->. congruence.
      * intros (r & [Hq Hr]%Hh & E). eauto.
  - intros ty. unfold ix_all. cbn [ix_bytype]. destruct (decide (ty = o_type o)) as [->|Hne].
    + rewrite lookup_insert. simpl. by apply NoDup_delete.
    + rewrite lookup_insert_ne by done. apply (w_nodup _ W).
  - intros a id. rewrite foldl_delete. destruct (decide (a ∈ o_aliases o)) as [Ha|Ha].
    + split; [done|]. intros (q & r & [Hq Hr]%Hh & Hid & Has). exfalso. apply Hq. apply (designates_unique ix a); [done| |].
      * exists r. auto.
      * exists o. rewrite elem_of_o_aliases in Ha. auto.
    + rewrite (w_alias _ W). split.
      * intros (q & r & Hr & Hid & Has). exists q, r. split; [|done]. apply Hh. split; [|done]. intros ->.
        apply Ha, elem_of_o_aliases. congruence.
      * intros (q & r & [Hq Hr]%Hh & Hid & Has). eauto.
  - intros a id. rewrite foldl_delete. destruct (decide (a ∈ o_aliases o)); [done|]. intros Hal.
    apply lookup_delete_None. right. by eapply (w_shadow _ W).
  - apply lookup_delete_None. right. apply W.
  - intros q r t a [Hq Hr]%Hh. by apply (w_disj _ W q).
  - intros q r t t' a [Hq Hr]%Hh. by apply (w_inj _ W q).
  - intros q r [Hq Hr]%Hh. by apply (w_ty _ W q).
Qed.

(** addAlias *)
Definition with_alias (o : iobj) (u ty : string) : iobj :=
  if bool_decide (ty = "") then mkObj (o_id o) (o_type o) ({[u]} ∪ o_untyped o) (o_typed o)
  else mkObj (o_id o) (o_type o) (o_untyped o) (<[ty := u]> (o_typed o)).

Lemma has_alias_with o u ty a : (ty = "" \/ o_typed o !! ty = None) -> has_alias (with_alias o u ty) a <-> a = u \/ has_alias o a.
Proof.
  intros Hty. unfold with_alias, has_alias. case_bool_decide as Ht; simpl.
  - rewrite elem_of_union, elem_of_singleton. tauto.
  - destruct Hty as [?|Hty]; [done|]. split.
    + intros [?|[t [[<- <-]|[? ?]]%lookup_insert_Some]]; eauto.
    + intros [->|[?|[t Ht']]]; [|auto|].
      * right. exists ty. by rewrite lookup_insert.
      * right. exists t. rewrite lookup_insert_ne; [done|]. congruence.
Qed.

Definition alias_post (ix : index) (p : nat) (o : iobj) (u ty : string) (ix' : index) : Prop :=
  ix_heap ix' = <[p := with_alias o u ty]> (ix_heap ix) /\ ix_alias ix' = <[u := o_id o]> (ix_alias ix) /\
  ix_byid ix' = ix_byid ix.

Lemma with_alias_wf ix p o u ty : iwf ix -> ix_heap ix !! p = Some o -> no_one ix u -> (ty = "" \/ o_typed o !! ty = None) ->
  iwf (mkIx (<[p := with_alias o u ty]> (ix_heap ix)) (ix_byid ix) (ix_bytype ix) (<[u := o_id o]> (ix_alias ix)) (ix_next ix)).
Proof.
  intros W Ho Hn Hty. destruct (no_one_byid ix u W Hn) as [Hub Hua].
  assert (o_id (with_alias o u ty) = o_id o) as Eid. { unfold with_alias. by destruct (bool_decide _). }
  assert (o_type (with_alias o u ty) = o_type o) as Ety. { unfold with_alias. by destruct (bool_decide _). }
  assert (forall a, has_alias (with_alias o u ty) a <-> a = u \/ has_alias o a) as Hwa by (intros; by apply has_alias_with).
  assert (forall q r, <[p := with_alias o u ty]> (ix_heap ix) !! q = Some r <-> (q = p /\ r = with_alias o u ty) \/ (q <> p /\ ix_heap ix !! q = Some r)) as Hh.
  { intros q r. rewrite lookup_insert_Some. naive_solver. }
  remember (with_alias o u ty) as o' eqn:Eo'.
  split; cbn [ix_byid ix_heap ix_bytype ix_alias ix_next].
  - intros id q Hq. destruct (w_byid _ W _ _ Hq) as (r & Hr & Hid). destruct (decide (q = p)) as [->|].
    + exists o'. split; [apply Hh; auto|]. rewrite Eid. congruence.
    + exists r. split; [apply Hh; auto|done].
  - intros q r [[-> ->]|[? Hr]]%Hh; [rewrite Eid|]; by apply (w_heap _ W).
  - intros q r [[-> ->]|[? Hr]]%Hh; by eapply (w_next _ W).
  - intros q t. unfold ix_all. cbn [ix_bytype]. fold (ix_all ix t). rewrite (w_type _ W). split.
    + intros (r & Hr & E). destruct (decide (q = p)) as [->|].
      * exists o'. split; [apply Hh; auto|]. rewrite Ety. congruence.
      * exists r. split; [apply Hh; auto|done].
    + intros (r & [[-> ->]|[? Hr]]%Hh & E); [|eauto]. exists o. split; [done|]. congruence.
  - intros t. apply (w_nodup _ W).
  - intros a id. destruct (decide (a = u)) as [->|Hne].
    + rewrite lookup_insert. split.
      * intros [= <-]. exists p, o'. split; [apply Hh; auto|]. split; [done|]. apply Hwa. auto.
      * intros (q & r & [[-> ->]|[? Hr]]%Hh & Hid & Ha); [congruence|]. exfalso. apply (Hn q). exists r. auto.
    + rewrite lookup_insert_ne by done. rewrite (w_alias _ W). split.
      * intros (q & r & Hr & Hid & Ha). destruct (decide (q = p)) as [->|].
        -- exists p, o'. split; [apply Hh; auto|]. assert (r = o) as -> by congruence. split; [congruence|]. apply Hwa. auto.
        -- exists q, r. split; [apply Hh; auto|done].
      * intros (q & r & [[-> ->]|[? Hr]]%Hh & Hid & Ha); [|eauto]. exists p, o. split; [done|]. split; [congruence|].
        apply Hwa in Ha as [?|?]; [done|auto].
  - intros a id [[<- <-]|[? Ha]]%lookup_insert_Some; [done|]. by eapply (w_shadow _ W).
  - apply W.
  - intros q r t a [[-> ->]|[? Hr]]%Hh; [|by apply (w_disj _ W q)]. subst o'. unfold with_alias.
    assert (~ has_alias o u) as Hnu. { intros H. apply (Hn p). exists o. auto. }
    case_bool_decide as Ht; simpl.
    + intros Ha. rewrite elem_of_union, elem_of_singleton. intros [->|Hin]; [|by apply (w_disj _ W _ _ _ _ Ho Ha)].
      apply Hnu. right. eauto.
    + intros [[<- <-]|[? Ha]]%lookup_insert_Some; [|by apply (w_disj _ W _ _ _ _ Ho Ha)]. intros Hin. apply Hnu. by left.
  - intros q r t t' a [[-> ->]|[? Hr]]%Hh; [|by apply (w_inj _ W q)]. subst o'. unfold with_alias.
    assert (~ has_alias o u) as Hnu. { intros H. apply (Hn p). exists o. auto. }
    case_bool_decide as Ht; simpl; [by apply (w_inj _ W p)|].
    intros [[<- <-]|[? Ha]]%lookup_insert_Some [[<- Ea]|[? Ha']]%lookup_insert_Some; try done.
    + exfalso. apply Hnu. right. eauto.
    + subst a. exfalso. apply Hnu. right. eauto.
    + by eapply (w_inj _ W _ _ _ _ _ Ho).
  - intros q r [[-> ->]|[? Hr]]%Hh; [|by apply (w_ty _ W q)]. subst o'. unfold with_alias.
    case_bool_decide as Ht; simpl; [by apply (w_ty _ W p)|]. rewrite lookup_insert_ne by done. by apply (w_ty _ W p).
Qed.

Lemma ix_add_alias_ok ix p o a ty ensure : iwf ix -> ix_heap ix !! p = Some o ->
  (exists u ix', ix_add_alias ix p a ty ensure = (Ok tt, ix') /\ iwf ix' /\ alias_post ix p o u ty ix' /\ no_one ix u /\
     (ty = "" \/ o_typed o !! ty = None) /\ (if ensure then is_unique_id (ix_contains ix) a u else u = a)) \/
  (ix_add_alias ix p a ty ensure = (Ok tt, ix) /\ ensure = false /\ designates ix a p /\ (ty = "" \/ o_typed o !! ty = None)) \/
  (exists m, ix_add_alias ix p a ty ensure = (Throw m, ix) /\
     ((ty <> "" /\ is_Some (o_typed o !! ty)) \/ (ensure = false /\ exists q, q <> p /\ designates ix a q))).
Proof.
  intros W Ho. unfold ix_add_alias. rewrite Ho.
  assert (exists u, (if ensure then get_unique_id (ix_contains ix) (ix_fuel ix) a else Ok a) = Ok u /\
    (if ensure then is_unique_id (ix_contains ix) a u /\ no_one ix u else u = a)) as (u & Eu & Hu).
  { destruct ensure; [|eauto]. destruct (ix_unique ix a W) as (u & E & H1 & _ & H2). exists u. auto. }
  rewrite Eu. destruct (bool_decide (ty <> "") && bool_decide (is_Some (o_typed o !! ty))) eqn:Hb.
  { apply andb_true_iff in Hb as [H1%bool_decide_eq_true H2%bool_decide_eq_true]. right. right. eauto. }
  assert (ty = "" \/ o_typed o !! ty = None) as Hty.
  { apply andb_false_iff in Hb as [H1%bool_decide_eq_false|H2%bool_decide_eq_false].
    - left. by apply dec_stable.
    - right. by apply eq_None_not_Some. }
  unfold ix_add_alias_raw. destruct (ix_byid ix !! u) as [q|] eqn:Hbu.
  - destruct (w_byid _ W _ _ Hbu) as (r & Hr & Hid).
    assert (designates ix u q) as Hd by (exists r; auto).
    destruct ensure. { destruct Hu as [_ Hno]. by destruct (Hno q). } subst u.
    destruct (decide (q = p)) as [->|Hne]; right; [left; auto|right; eauto 10].
  - destruct (ix_alias ix !! u) as [id|] eqn:Hau.
    + destruct (proj1 (w_alias _ W _ _) Hau) as (q & r & Hr & <- & Ha). rewrite (w_heap _ W _ _ Hr).
      assert (designates ix u q) as Hd by (exists r; auto).
      destruct ensure. { destruct Hu as [_ Hno]. by destruct (Hno q). } subst u.
      destruct (decide (q = p)) as [->|Hne]; right; [left; auto|right; eauto 10].
    + rewrite Ho. left. exists u.
      assert (no_one ix u) as Hno.
      { intros q (r & Hr & [Hid|Ha]).
        - pose proof (w_heap _ W _ _ Hr). congruence.
        - assert (ix_alias ix !! u = Some (o_id r)) by (apply (w_alias _ W); eauto). congruence. }
      eexists. split; [done|]. fold (with_alias o u ty). cbn [ix_byid ix_heap ix_bytype ix_alias ix_next]. split; [by apply with_alias_wf|]. split; [done|].
      split; [done|]. split; [done|]. destruct ensure; [by destruct Hu|done].
Qed.

(** removeAlias *)
Definition without_alias (o : iobj) (a : string) : iobj :=
  match list_find (fun e => e.2 = a) (map_to_list (o_typed o)) with
  | Some (_, (t, _)) => mkObj (o_id o) (o_type o) (o_untyped o) (delete t (o_typed o))
  | None => mkObj (o_id o) (o_type o) (o_untyped o ∖ {[a]}) (o_typed o)
  end.
Lemma without_alias_cases o a : (exists t, o_typed o !! t = Some a /\ without_alias o a = mkObj (o_id o) (o_type o) (o_untyped o) (delete t (o_typed o))) \/
  ((forall t, o_typed o !! t <> Some a) /\ without_alias o a = mkObj (o_id o) (o_type o) (o_untyped o ∖ {[a]}) (o_typed o)).
Proof.
  unfold without_alias. destruct (list_find _ _) as [[k [t a']]|] eqn:Hf.
  - apply list_find_Some in Hf as (Hk & E & _). simpl in E. subst a'. left. exists t. split; [|done].
    apply elem_of_map_to_list. by eapply elem_of_list_lookup_2.
  - apply list_find_None in Hf. rewrite Forall_forall in Hf. right. split; [|done]. intros t Ht.
    apply (Hf (t, a)); [|done]. by apply elem_of_map_to_list.
Qed.

Lemma ix_remove_alias_ok ix p o a : iwf ix -> ix_heap ix !! p = Some o ->
  (exists ix', ix_remove_alias ix p a = (Ok tt, ix') /\ iwf ix' /\ has_alias o a /\
     ix_heap ix' = <[p := without_alias o a]> (ix_heap ix) /\ ix_alias ix' = delete a (ix_alias ix) /\ ix_byid ix' = ix_byid ix /\
     forall b, has_alias (without_alias o a) b <-> has_alias o b /\ b <> a) \/
  (exists m, ix_remove_alias ix p a = (Throw m, ix) /\ ~ has_alias o a).
Proof.
  intros W Ho. unfold ix_remove_alias. rewrite Ho. destruct (ix_alias ix !! a) as [id|] eqn:Ha.
  2:{ right. eexists. split; [done|]. intros H. assert (ix_alias ix !! a = Some (o_id o)) by (apply (w_alias _ W); eauto). congruence. }
  case_bool_decide as Hid.
  2:{ right. eexists. split; [done|]. intros H. assert (ix_alias ix !! a = Some (o_id o)) by (apply (w_alias _ W); eauto). congruence. }
  subst id. assert (has_alias o a) as Has.
  { destruct (proj1 (w_alias _ W _ _) Ha) as (q & r & Hr & E & H).
    pose proof (w_heap _ W _ _ Ho) as E1. pose proof (w_heap _ W _ _ Hr) as E2. rewrite E in E2. assert (p = q) by congruence. congruence. }
  left. eexists. split; [done|]. fold (without_alias o a).
  assert (forall b, has_alias (without_alias o a) b <-> has_alias o b /\ b <> a) as Hw.
  { intros b. destruct (without_alias_cases o a) as [(t & Ht & ->)|(Hno & ->)]; unfold has_alias; simpl.
    - split.
      + intros [Hb|[t' [Hne Hb]%lookup_delete_Some]].
        * split; [auto|]. intros ->. by apply (w_disj _ W _ _ _ _ Ho Ht).
        * split; [eauto|]. intros ->. apply Hne. by eapply (w_inj _ W _ _ _ _ _ Ho).
      + intros [[Hb|[t' Hb]] Hne]; [auto|]. right. exists t'. apply lookup_delete_Some. split; [congruence|done].
    - rewrite elem_of_difference, elem_of_singleton. split.
      + intros [[? ?]|[t Hb]]; [auto|]. split; [eauto|]. intros ->. by apply (Hno t).
      + intros [[?|?] ?]; auto. }
  split; [|auto 10].
  assert (o_id (without_alias o a) = o_id o /\ o_type (without_alias o a) = o_type o) as [Eid Ety].
  { destruct (without_alias_cases o a) as [(t & Ht & ->)|(Hno & ->)]; done. }
  assert (o_untyped (without_alias o a) ⊆ o_untyped o /\ o_typed (without_alias o a) ⊆ o_typed o) as [Su St].
  { destruct (without_alias_cases o a) as [(t & Ht & ->)|(Hno & ->)]; simpl; (split; [|]); try done.
    - apply delete_subseteq.
    - set_solver. }
  assert (forall q r, <[p := without_alias o a]> (ix_heap ix) !! q = Some r <-> (q = p /\ r = without_alias o a) \/ (q <> p /\ ix_heap ix !! q = Some r)) as Hh.
  { intros q r. rewrite lookup_insert_Some. naive_solver. }
  remember (without_alias o a) as o' eqn:Eo'.
  split; cbn [ix_byid ix_heap ix_bytype ix_alias ix_next].
  - intros id q Hq. destruct (w_byid _ W _ _ Hq) as (r & Hr & Hid). destruct (decide (q = p)) as [->|].
    + exists o'. split; [apply Hh; auto|]. rewrite Eid. congruence.
    + exists r. split; [apply Hh; auto|done].
  - intros q r [[-> ->]|[? Hr]]%Hh; [rewrite Eid|]; by apply (w_heap _ W).
  - intros q r [[-> ->]|[? Hr]]%Hh; by eapply (w_next _ W).
  - intros q t. unfold ix_all. cbn [ix_bytype]. fold (ix_all ix t). rewrite (w_type _ W). split.
    + intros (r & Hr & E). destruct (decide (q = p)) as [->|].
      * exists o'. split; [apply Hh; auto|]. rewrite Ety. congruence.
      * exists r. split; [apply Hh; auto|done].
    + intros (r & [[-> ->]|[? Hr]]%Hh & E); [|eauto]. exists o. split; [done|]. congruence.
  - intros t. apply (w_nodup _ W).
  - intros b id. destruct (decide (b = a)) as [->|Hne].
    + rewrite lookup_delete. split; [done|]. intros (q & r & [[-> ->]|[? Hr]]%Hh & Hid & Hb).
      * by apply Hw in Hb as [_ ?].
      * exfalso. assert (q = p); [|done]. apply (designates_unique ix a); [done|exists r; auto|exists o; auto].
    + rewrite lookup_delete_ne by done. rewrite (w_alias _ W). split.
      * intros (q & r & Hr & Hid & Hb). destruct (decide (q = p)) as [->|].
        -- exists p, o'. split; [apply Hh; auto|]. assert (r = o) as -> by congruence. split; [congruence|]. apply Hw. auto.
        -- exists q, r. split; [apply Hh; auto|done].
      * intros (q & r & [[-> ->]|[? Hr]]%Hh & Hid & Hb); [|eauto]. exists p, o. split; [done|]. split; [congruence|].
        by apply Hw in Hb as [? _].
  - intros b id [? Hb]%lookup_delete_Some. by eapply (w_shadow _ W).
  - apply W.
  - intros q r t b [[-> ->]|[? Hr]]%Hh; [|by apply (w_disj _ W q)]. intros Hb Hin.
    apply (w_disj _ W _ _ t b Ho); [by eapply lookup_weaken|set_solver].
  - intros q r t t' b [[-> ->]|[? Hr]]%Hh; [|by apply (w_inj _ W q)]. intros Hb Hb'.
    eapply (w_inj _ W _ _ t t' b Ho); by eapply lookup_weaken.
  - intros q r [[-> ->]|[? Hr]]%Hh; [|by apply (w_ty _ W q)].
    eapply lookup_weaken_None; [by apply (w_ty _ W p)|done].
Qed.

(** ** Histories *)
Definition live (ix : index) (p : nat) : Prop := is_Some (ix_heap ix !! p).
(** The caller holds a reference to an object that still exists; the network itself (address 0) has no remove(). *)
Definition iop_ok (ix : index) (o : iop) : Prop :=
  match o with
  | IAdd _ _ _ => True
  | IRemove p => live ix p /\ p <> 0
  | IAddAlias p _ _ _ => live ix p
  | IRemoveAlias p _ => live ix p
  end.
(** [irun ix ops rs ix']: the history [ops] leads from [ix] to [ix'] with the results [rs]. *)
Inductive irun : index -> list iop -> list (result (option nat)) -> index -> Prop :=
| irun_nil ix : irun ix [] [] ix
| irun_snoc ix ops rs ix' o : irun ix ops rs ix' -> iop_ok ix' o ->
    irun ix (ops ++ [o]) (rs ++ [(ix_step ix' o).1]) (ix_step ix' o).2.
Definition ireach (ix : index) : Prop := exists id ops rs, id <> "" /\ irun (ix_init id) ops rs ix.

Lemma istep_wf ix o : iwf ix -> iop_ok ix o ->
  iwf (ix_step ix o).2 /\ ((exists r, (ix_step ix o).1 = Ok r) \/ ((exists m, (ix_step ix o).1 = Throw m) /\ (ix_step ix o).2 = ix)).
Proof.
  intros W Hok. destruct o as [id ty e|p|p a t e|p a]; simpl in *.
  - destruct (ix_add_ok ix id ty e W) as [(u & ix' & -> & W' & _)|(m & -> & _)]; simpl; eauto 6.
  - destruct Hok as [[o Ho] _]. destruct (ix_remove_ok ix p o W Ho) as (ix' & -> & W' & _). simpl. eauto.
  - destruct Hok as [o Ho]. destruct (ix_add_alias_ok ix p o a t e W Ho) as [(u & ix' & -> & W' & _)|[(-> & _)|(m & -> & _)]]; simpl; eauto 6.
  - destruct Hok as [o Ho]. destruct (ix_remove_alias_ok ix p o a W Ho) as [(ix' & -> & W' & _)|(m & -> & _)]; simpl; eauto 6.
Qed.
Lemma irun_wf ix ops rs ix' : irun ix ops rs ix' -> iwf ix -> iwf ix'.
Proof. induction 1 as [|ix ops rs ix' o _ IH Hok]; [done|]. intros W. by apply istep_wf; auto. Qed.
Lemma ireach_wf ix : ireach ix -> iwf ix.
Proof. intros (id & ops & rs & Hid & H). eapply irun_wf; [done|]. by apply ix_init_wf. Qed.

(** ** Refinement *)
Definition vw_obj (o : iobj) (s : sobj) : Prop :=
  s_id s = o_id o /\ s_type s = o_type o /\
  forall a t, s_aliases s !! a = Some t <-> (t = "" /\ a ∈ o_untyped o) \/ (t <> "" /\ o_typed o !! t = Some a).
Definition vw (ix : index) (sp : snet) : Prop :=
  (forall p o, ix_heap ix !! p = Some o -> exists s, sp !! p = Some s /\ vw_obj o s) /\
  (forall p, is_Some (sp !! p) -> is_Some (ix_heap ix !! p)).

Lemma vw_alias ix p o s a : iwf ix -> ix_heap ix !! p = Some o -> vw_obj o s -> is_Some (s_aliases s !! a) <-> has_alias o a.
Proof.
  intros W Ho (_ & _ & H). split.
  - intros [t [[_ Ha]|[_ Ha]]%H]; [by left|]. right. eauto.
  - intros [Ha|[t Ha]].
    + exists "". apply H. auto.
    + exists t. apply H. right. split; [|done]. intros ->. by rewrite (w_ty _ W _ _ Ho) in Ha.
Qed.
Lemma vw_names ix sp s p : iwf ix -> vw ix sp -> names sp s p <-> designates ix s p.
Proof.
  intros W [V1 V2]. split.
  - intros (x & Hx & Hn). destruct (V2 p) as [o Ho]; [eauto|]. destruct (V1 p o Ho) as (x' & Hx' & Hv).
    assert (x' = x) as -> by congruence. exists o. split; [done|]. destruct Hn as [Hn|Hn].
    + left. destruct Hv as [E _]. congruence.
    + right. by eapply vw_alias.
  - intros (o & Ho & Hn). destruct (V1 p o Ho) as (x & Hx & Hv). exists x. split; [done|]. destruct Hn as [Hn|Hn].
    + left. destruct Hv as [E _]. congruence.
    + right. by eapply vw_alias.
Qed.
Lemma vw_heap ix sp p : vw ix sp -> is_Some (sp !! p) <-> is_Some (ix_heap ix !! p).
Proof. intros [V1 V2]. split; [apply V2|]. intros [o Ho]. destruct (V1 p o Ho) as (s & Hs & _). eauto. Qed.

Lemma vw_insert ix ix' sp p o s : vw ix sp -> ix_heap ix' = <[p := o]> (ix_heap ix) -> vw_obj o s -> vw ix' (<[p := s]> sp).
Proof.
  intros [V1 V2] E Hv. unfold vw. rewrite E. split.
  - intros q r [[<- <-]|[Hne Hr]]%lookup_insert_Some.
    + exists s. by rewrite lookup_insert.
    + rewrite lookup_insert_ne by done. by apply V1.
  - intros q Hq. destruct (decide (q = p)) as [->|Hne]; [rewrite lookup_insert; eauto|].
    rewrite lookup_insert_ne in Hq by done. rewrite lookup_insert_ne by done. by apply V2.
Qed.

Lemma unique_name ix sp id u : iwf ix -> vw ix sp -> is_unique_id (ix_contains ix) id u -> fresh_name sp id u.
Proof.
  intros W V. unfold is_unique_id, fresh_name.
  assert (forall x, ix_contains ix x = true <-> taken sp x) as Hc.
  { intros x. rewrite ix_contains_spec by done. unfold taken. split; intros [p Hp]; exists p; by apply (vw_names ix sp). }
  assert (forall x, ix_contains ix x = false <-> ~ taken sp x) as Hc'.
  { intros x. rewrite <- Hc. by destruct (ix_contains ix x). }
  case_decide as Hd.
  - intros ->. left. rewrite <- Hc'. naive_solver.
  - intros (k & -> & Hk & Hall). right. split.
    + destruct (decide (id = "")) as [->|]; [auto|]. right. apply Hc. destruct (ix_contains ix id) eqn:E; naive_solver.
    + exists k. split; [unfold nth_id; by case_decide|]. split; [by apply Hc'|]. intros j Hj. apply Hc. by apply Hall.
Qed.

Lemma refine_step ix sp o : iwf ix -> vw ix sp -> iop_ok ix o ->
  exists sp', sp_istep sp o (ioutcome (ix_step ix o).1) sp' /\ vw (ix_step ix o).2 sp'.
Proof.
  intros W V Hok. destruct o as [id ty e|p|p a t e|p a]; simpl in *.
  - destruct (ix_add_ok ix id ty e W) as [(u & ix' & -> & W' & (Eh & Hf & _) & Hno & Hid & Hu & Hsp)|(m & -> & Hbad)]; simpl.
    + eexists. split.
      * apply (sp_add sp id ty e u (ix_next ix)); [done|done| | |].
        -- intros [p Hp]. apply (Hno p). by apply (vw_names ix sp).
        -- destruct e; [by apply (unique_name ix)|done].
        -- apply eq_None_not_Some. rewrite (vw_heap ix) by done. rewrite Hf. by intros [? ?].
      * eapply vw_insert; [done|exact Eh|]. split; [done|]. split; [done|]. intros b t. simpl. rewrite lookup_empty. split; [done|].
        intros [[_ H]|[_ H]]; [by apply elem_of_empty in H|by rewrite lookup_empty in H].
    + exists sp. split; [|done]. apply sp_add_refused. destruct Hbad as [?|(? & p & Hp)]; [auto|]. right. split; [done|].
      exists p. by apply (vw_names ix sp).
  - destruct Hok as [[o Ho] _]. destruct (ix_remove_ok ix p o W Ho) as (ix' & -> & W' & Eh). simpl.
    exists (delete p sp). split; [constructor|]. destruct V as [V1 V2]. unfold vw. rewrite Eh. split.
    + intros q r [Hne Hr]%lookup_delete_Some. rewrite lookup_delete_ne by done. by apply V1.
    + intros q [x [Hne Hx]%lookup_delete_Some]. rewrite lookup_delete_ne by done. apply V2. eauto.
  - destruct Hok as [o Ho]. destruct (proj1 V p o Ho) as (x & Hx & Hv).
    assert (is_Some (o_typed o !! t) /\ t <> "" <-> t <> "" /\ exists b, s_aliases x !! b = Some t) as Hty.
    { destruct Hv as (_ & _ & Hv). split.
      - intros [[b Hb] Ht]. split; [done|]. exists b. apply Hv. auto.
      - intros [Ht [b [[? ?]|[? Hb]]%Hv]]; [done|]. eauto. }
    assert (t = "" \/ o_typed o !! t = None -> t = "" \/ forall b, s_aliases x !! b <> Some t) as Hty2.
    { intros [?|Hn]; [auto|]. destruct (decide (t = "")); [auto|]. right. intros b Hb.
      destruct Hty as [_ Hty]. destruct Hty as [[? ?] _]; [eauto|]. congruence. }
    destruct (ix_add_alias_ok ix p o a t e W Ho) as [(u & ix' & -> & W' & (Eh & _) & Hno & Ht & Hu)|[(-> & -> & Hd & Ht)|(m & -> & Hbad)]]; simpl.
    + eexists. split.
      * apply (sp_alias sp p x a t e u); [done| | |by apply Hty2].
        -- intros [q Hq]. apply (Hno q). by apply (vw_names ix sp).
        -- destruct e; [by apply (unique_name ix)|done].
      * eapply vw_insert; [done|exact Eh|]. destruct Hv as (E1 & E2 & Hv).
        assert (~ has_alias o u) as Hnu. { intros H. apply (Hno p). exists o. auto. }
        unfold with_alias. split; [by destruct (bool_decide _)|]. split; [by destruct (bool_decide _)|].
        intros b t'. simpl. rewrite lookup_insert_Some, Hv. case_bool_decide as Hte; simpl.
        -- subst t. rewrite elem_of_union, elem_of_singleton. split.
           ++ intros [[<- <-]|[Hne [[-> ?]|[? ?]]]]; auto.
           ++ intros [[-> [->|Hb]]|[Hne Hb]]; [auto| |].
              ** right. split; [|auto]. intros ->. apply Hnu. by left.
              ** right. split; [|auto]. intros ->. apply Hnu. right. eauto.
        -- destruct Ht as [?|Ht]; [done|]. split.
           ++ intros [[<- <-]|[Hne [[-> ?]|[? Hb]]]]; [right|auto|right].
              ** split; [done|]. by rewrite lookup_insert.
              ** split; [done|]. rewrite lookup_insert_ne; [done|]. congruence.
           ++ intros [[-> Hb]|[Hne [[<- <-]|[? Hb]]%lookup_insert_Some]]; [|auto|].
              ** right. split; [|auto]. intros ->. apply Hnu. by left.
              ** right. split; [|auto]. intros ->. apply Hnu. right. eauto.
    + exists sp. split; [|done]. apply (sp_alias_same sp p x); [done| |by apply Hty2]. by apply (vw_names ix sp).
    + exists sp. split; [|done]. apply (sp_alias_refused sp p x); [done|]. destruct Hbad as [[? ?]|(? & q & Hne & Hd)].
      * left. apply Hty. auto.
      * right. split; [done|]. exists q. split; [done|]. by apply (vw_names ix sp).
  - destruct Hok as [o Ho]. destruct (proj1 V p o Ho) as (x & Hx & Hv).
    destruct (ix_remove_alias_ok ix p o a W Ho) as [(ix' & -> & W' & Has & Eh & _ & _ & Hw)|(m & -> & Hna)]; simpl.
    + eexists. split.
      * apply (sp_unalias sp p x a); [done|]. by apply (vw_alias ix p o x a W Ho Hv).
      * eapply vw_insert; [done|exact Eh|]. destruct Hv as (E1 & E2 & Hv).
        assert (o_id (without_alias o a) = o_id o /\ o_type (without_alias o a) = o_type o) as [Eid Ety].
        { destruct (without_alias_cases o a) as [(t & Ht & ->)|(Hno & ->)]; done. }
        split; [simpl; congruence|]. split; [simpl; congruence|]. intros b t. simpl. rewrite lookup_delete_Some, Hv.
        destruct (without_alias_cases o a) as [(t' & Ht & ->)|(Hno & ->)]; simpl.
        -- rewrite lookup_delete_Some. split.
           ++ intros [Hne [?|[? Hb]]]; [auto|]. right. split; [done|]. split; [|done]. intros ->. congruence.
           ++ intros [[-> Hb]|[? [? Hb]]].
              ** split; [|auto]. intros ->. by apply (w_disj _ W _ _ _ _ Ho Ht).
              ** split; [|auto]. intros ->. assert (t' = t) by (by eapply (w_inj _ W _ _ _ _ _ Ho)). done.
        -- rewrite elem_of_difference, elem_of_singleton. split.
           ++ intros [Hne [[? ?]|[? ?]]]; [left|]; auto.
           ++ intros [[-> [Hb Hne]]|[? Hb]]; [auto|]. split; [|auto]. intros ->. by apply (Hno t).
    + exists sp. split; [|done]. apply (sp_unalias_refused sp p x); [done|]. apply eq_None_not_Some.
      intros H. apply Hna. by apply (vw_alias ix p o x a W Ho Hv).
Qed.

Lemma vw_init id : vw (ix_init id) (sp_iinit id).
Proof.
  unfold vw, ix_init, sp_iinit. cbn [ix_heap]. split.
  - intros p o [<- <-]%lookup_singleton_Some. eexists. rewrite lookup_singleton. split; [done|]. split; [done|]. split; [done|].
    intros a t. simpl. rewrite lookup_empty. split; [done|].
    intros [[_ H]|[_ H]]; [by apply elem_of_empty in H|by rewrite lookup_empty in H].
  - intros p [s [<- _]%lookup_singleton_Some]. rewrite lookup_singleton. eauto.
Qed.

Lemma refine_run ix ops rs ix' sp : irun ix ops rs ix' -> iwf ix -> vw ix sp ->
  exists sp', sp_irun sp ops (map ioutcome rs) sp' /\ vw ix' sp'.
Proof.
  induction 1 as [ix|ix ops rs ix' o Hr IH Hok]; intros W V.
  - exists sp. split; [constructor|done].
  - destruct IH as (sp' & Hsp & V'); [done|done|]. assert (iwf ix') as W' by (by eapply irun_wf).
    destruct (refine_step ix' sp' o W' V' Hok) as (sp2 & Hs & V2). exists sp2. split; [|done].
    rewrite map_app. simpl. by eapply sp_irun_snoc.
Qed.

Lemma o_aliases_nodup ix p o : iwf ix -> ix_heap ix !! p = Some o -> NoDup (o_aliases o).
Proof.
  intros W Ho. unfold o_aliases. apply NoDup_app. split; [apply NoDup_elements|]. split.
  - intros a Ha%elem_of_elements ([t b] & -> & Hb)%elem_of_list_fmap. apply elem_of_map_to_list in Hb.
    by apply (w_disj _ W _ _ _ _ Ho Hb).
  - apply NoDup_fmap_2_strong; [|apply NoDup_map_to_list]. intros [t a] [t' a'] H1%elem_of_map_to_list H2%elem_of_map_to_list E.
    simpl in E. subst a'. f_equal. by eapply (w_inj _ W _ _ _ _ _ Ho).
Qed.

Lemma vw_lookups ix sp : iwf ix -> vw ix sp -> lookups_agree ix sp.
Proof.
  intros W V. pose proof (fun s p => vw_names ix sp s p W V) as Hn.
  assert (forall s, (forall p, ~ designates ix s p) <-> ~ taken sp s) as Ht.
  { intros s. unfold taken. split; [intros H [p Hp]; by apply (H p), Hn|intros H p Hp; apply H; exists p; by apply Hn]. }
  assert (forall s p, ix_find ix s = Ok (Some p) <-> names sp s p) as Hf.
  { intros s p. rewrite Hn. destruct (ix_find_spec ix s W) as [(q & E & Hd)|[(E & Hs & Hno)|([m E] & Hs & Hno)]]; rewrite E.
    - split; [intros [= <-]; done|]. intros Hp. by rewrite (designates_unique ix s p q).
    - split; [done|]. intros Hp. by destruct (Hno p).
    - split; [done|]. intros Hp. by destruct (Hno p). }
  assert (forall s p, names sp s p -> exists o x, ix_heap ix !! p = Some o /\ sp !! p = Some x /\ vw_obj o x) as Hobj.
  { intros s p (x & Hx & _). destruct V as [V1 V2]. destruct (V2 p) as [o Ho]; [eauto|].
    destruct (V1 p o Ho) as (x' & Hx' & Hv). eauto 6. }
  split; [done|]. split.
  { intros s. rewrite <- Ht. destruct (ix_find_spec ix s W) as [(q & E & Hd)|[(E & Hs & Hno)|([m E] & Hs & Hno)]]; rewrite E.
    - split; [done|]. intros [_ H]. by destruct (H q).
    - done.
    - split; [done|]. by intros [? _]. }
  split.
  { intros s. rewrite <- Ht. destruct (ix_find_spec ix s W) as [(q & E & Hd)|[(E & Hs & Hno)|([m E] & Hs & Hno)]]; rewrite E.
    - split; [by intros [? ?]|]. intros [_ H]. by destruct (H q).
    - split; [by intros [? ?]|]. by intros [? _].
    - split; eauto. }
  split.
  { intros is_a s p. unfold ix_find_as. destruct (ix_find ix s) as [[q|]| | |] eqn:E; cbn [result_bind].
    - assert (names sp s q) as Hq by (by apply Hf). destruct (Hobj s q Hq) as (o & x & Ho & Hx & (_ & Et & _)). rewrite Ho. split.
      + destruct (is_a (o_type o)) eqn:Ea; [|done]. intros [= <-]. split; [done|]. exists x. split; [done|]. by rewrite Et.
      + intros [Hp (x' & Hx' & Ea)]. apply Hf in Hp. assert (p = q) as -> by congruence.
        assert (x' = x) as -> by congruence. rewrite <- Et, Ea. done.
    - split; [done|]. intros [Hp _]. apply Hf in Hp. congruence.
    - split; [done|]. intros [Hp _]. apply Hf in Hp. congruence.
    - split; [done|]. intros [Hp _]. apply Hf in Hp. congruence.
    - split; [done|]. intros [Hp _]. apply Hf in Hp. congruence. }
  split.
  { intros is_a s p. unfold ix_get_as. destruct (ix_find ix s) as [[q|]| | |] eqn:E; cbn [result_bind].
    - assert (names sp s q) as Hq by (by apply Hf). destruct (Hobj s q Hq) as (o & x & Ho & Hx & (_ & Et & _)). rewrite Ho. split.
      + destruct (is_a (o_type o)) eqn:Ea; [|done]. intros [= <-]. split; [done|]. exists x. split; [done|]. by rewrite Et.
      + intros [Hp (x' & Hx' & Ea)]. apply Hf in Hp. assert (p = q) as -> by congruence.
        assert (x' = x) as -> by congruence. rewrite <- Et, Ea. done.
    - split; [done|]. intros [Hp _]. apply Hf in Hp. congruence.
    - split; [done|]. intros [Hp _]. apply Hf in Hp. congruence.
    - split; [done|]. intros [Hp _]. apply Hf in Hp. congruence.
    - split; [done|]. intros [Hp _]. apply Hf in Hp. congruence. }
  split.
  { intros ty p. rewrite (w_type _ W). destruct V as [V1 V2]. split.
    - intros (o & Ho & E). destruct (V1 p o Ho) as (x & Hx & (_ & Et & _)). exists x. split; [done|]. congruence.
    - intros (x & Hx & E). destruct (V2 p) as [o Ho]; [eauto|]. destruct (V1 p o Ho) as (x' & Hx' & (_ & Et & _)).
      exists o. split; [done|]. congruence. }
  split; [apply W|]. split; [intros p; symmetry; by apply vw_heap|].
  intros p o x Ho Hx. destruct (proj1 V p o Ho) as (x' & Hx' & Hv). assert (x' = x) as -> by congruence.
  pose proof (vw_alias ix p o x) as Hva. destruct (Hv) as (E1 & E2 & Ha). split; [done|]. split; [done|]. split.
  { intros a. rewrite elem_of_o_aliases. symmetry. by apply Hva. }
  split; [by eapply o_aliases_nodup|]. split.
  - intros t a Hne. unfold o_alias_from_type. rewrite bool_decide_false by done. rewrite Ha. split.
    + intros [= E]. auto.
    + intros [[? _]|[_ E]]; [done|]. by rewrite E.
  - intros a t H. apply Ha in H as [[-> H]|[Hne H]]; unfold o_alias_type.
    + by rewrite bool_decide_true.
    + rewrite bool_decide_false by (by apply (w_disj _ W _ _ _ _ Ho H)).
      destruct (list_find _ _) as [[k [t' a']]|] eqn:Hfnd.
      * apply list_find_Some in Hfnd as (Hk & E & _). simpl in E. subst a'.
        apply (w_inj _ W p o t' t a Ho); [|done]. apply elem_of_map_to_list. by eapply elem_of_list_lookup_2.
      * apply list_find_None in Hfnd. rewrite Forall_forall in Hfnd. exfalso. apply (Hfnd (t, a)); [|done]. by apply elem_of_map_to_list.
Qed.

Lemma vw_find ix sp p o : vw ix sp -> ix_heap ix !! p = Some o -> exists x, sp !! p = Some x /\ s_id x = o_id o.
Proof. intros [V _] Ho. destruct (V p o Ho) as (x & Hx & (E & _)). eauto. Qed.

(** The specification by itself keeps names unambiguous. *)
Definition sp_wf (sp : snet) : Prop := forall s p q, names sp s p -> names sp s q -> p = q.
Lemma sp_init_wf id : sp_wf (sp_iinit id).
Proof.
  unfold sp_iinit. intros s p q (x & [<- _]%lookup_singleton_Some & _) (y & [<- _]%lookup_singleton_Some & _). done.
Qed.
Lemma sp_step_wf sp o out sp' : sp_wf sp -> sp_istep sp o out sp' -> sp_wf sp'.
Proof.
  intros W H. destruct H as [id ty e u p Hid Hu Hn _ Hp|id ty e _|p|p x a t e u Hx Hn _ _|p x a t Hx _ _|p x a t e _ _|p x a Hx Ha|p x a _ _]; try done.
  - assert (forall s q, names (<[p:=mkS u ty ∅]> sp) s q -> (q = p /\ s = u) \/ (q <> p /\ names sp s q)) as Hc.
    { intros s q (y & [[<- <-]|[? Hy]]%lookup_insert_Some & Hs); simpl in *.
      - left. split; [done|]. destruct Hs as [?|[? Hs]]; [done|]. by rewrite lookup_empty in Hs.
      - right. split; [done|]. exists y. auto. }
    intros s q r [[-> ->]|[Hq Hq']]%Hc [[-> E]|[Hr Hr']]%Hc; try done.
    + destruct Hn. by exists r.
    + destruct Hn. subst. by exists q.
    + by apply (W s).
  - intros s q r (y & [? Hy]%lookup_delete_Some & Hs) (z & [? Hz]%lookup_delete_Some & Hs'). apply (W s); [by exists y|by exists z].
  - assert (forall s q, names (<[p:=mkS (s_id x) (s_type x) (<[u:=t]> (s_aliases x))]> sp) s q -> (q = p /\ s = u) \/ names sp s q) as Hc.
    { intros s q (y & [[<- <-]|[? Hy]]%lookup_insert_Some & Hs); simpl in *.
      - destruct Hs as [?|[? [[<- <-]|[? Hs]]%lookup_insert_Some]].
        + right. exists x. auto.
        + auto.
        + right. exists x. split; [done|]. right. eauto.
      - right. exists y. auto. }
    intros s q r [[-> ->]|Hq]%Hc [[-> E]|Hr]%Hc; try done.
    + destruct Hn. by exists r.
    + destruct Hn. subst. by exists q.
    + by apply (W s).
  - assert (forall s q, names (<[p:=mkS (s_id x) (s_type x) (delete a (s_aliases x))]> sp) s q -> names sp s q) as Hc.
    { intros s q (y & [[<- <-]|[? Hy]]%lookup_insert_Some & Hs); simpl in *.
      - exists x. split; [done|]. destruct Hs as [?|[? [_ Hs]%lookup_delete_Some]]; eauto.
      - exists y. auto. }
    intros s q r Hq%Hc Hr%Hc. by apply (W s).
Qed.
