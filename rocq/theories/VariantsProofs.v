From stdpp Require Import gmap.
From Verif Require Import Base Variants.

(** Bookkeeping invariant: ids, unused slots, array size. *)
Record bk (ids : gmap string nat) (unused : list nat) (size : nat) : Prop := {
  b_init : ids !! initial_id = Some 0;
  b_inj : forall a b i, ids !! a = Some i -> ids !! b = Some i -> a = b;
  b_lt : forall a i, ids !! a = Some i -> i < size;
  b_sorted : ssorted unused;
  b_unused : forall i, i ∈ unused <-> i < size /\ forall a, ids !! a <> Some i;
  b_top : exists a, ids !! a = Some (size - 1)
}.
Definition wk (ids : gmap string nat) (w : option nat) : Prop := forall i, w = Some i -> exists a, ids !! a = Some i.
Definition book {A} (s : vm A) : Prop := bk (vm_ids s) (vm_unused s) (vm_size s) /\ wk (vm_ids s) (vm_work s).

Lemma bk_pos ids u n : bk ids u n -> 0 < n.
Proof. intros B. pose proof (b_lt _ _ _ B _ _ (b_init _ _ _ B)). lia. Qed.

Lemma live_or_unused ids u n i : bk ids u n -> i < n -> i ∉ u -> exists a, ids !! a = Some i.
Proof.
  intros B Hi Hu. destruct (decide (i ∈ map snd (map_to_list ids))) as [Hin|Hin].
  - apply elem_of_list_fmap in Hin as ([a j] & -> & Hj). apply elem_of_map_to_list in Hj. by exists a.
  - exfalso. apply Hu. apply (b_unused _ _ _ B). split; [done|]. intros a Ha. apply Hin.
    apply elem_of_list_fmap. exists (a, i). split; [done|]. by apply elem_of_map_to_list.
Qed.

Lemma bk_init : bk {[ initial_id := 0 ]} [] 1.
Proof.
  split.
  - by rewrite lookup_singleton.
  - intros a b i [-> _]%lookup_singleton_Some [-> _]%lookup_singleton_Some. done.
  - intros a i [_ <-]%lookup_singleton_Some. lia.
  - constructor.
  - intros i. split; [set_solver|]. intros [Hi H]. exfalso. apply (H initial_id). apply lookup_singleton_Some. split; [done|lia].
  - exists initial_id. by rewrite lookup_singleton.
Qed.

Lemma bk_extend ids n t : bk ids [] n -> ids !! t = None -> bk (<[t := n]> ids) [] (S n).
Proof.
  intros B Ht. split.
  - rewrite lookup_insert_ne; [apply B|]. intros ->. pose proof (b_init _ _ _ B). congruence.
  - intros a b i [[-> <-]|[? Ha]]%lookup_insert_Some [[-> ?]|[? Hb]]%lookup_insert_Some; subst; try done.
    + pose proof (b_lt _ _ _ B _ _ Hb). lia.
    + pose proof (b_lt _ _ _ B _ _ Ha). lia.
    + by eapply (b_inj _ _ _ B).
  - intros a i [[-> <-]|[? Ha]]%lookup_insert_Some; [lia|]. pose proof (b_lt _ _ _ B _ _ Ha). lia.
  - constructor.
  - intros i. split; [set_solver|]. intros [Hi H]. destruct (decide (i = n)) as [->|Hne].
    + exfalso. apply (H t). by rewrite lookup_insert.
    + apply (b_unused _ _ _ B). split; [lia|]. intros a Ha. apply (H a).
      rewrite lookup_insert_ne; [done|]. congruence.
  - exists t. rewrite lookup_insert. f_equal. lia.
Qed.

Lemma ssorted_cons_inv x l : ssorted (x :: l) -> ssorted l /\ forall y, y ∈ l -> x < y.
Proof. inversion 1 as [|? ? H1 H2]; subst. split; [done|]. rewrite Forall_forall in H2. auto. Qed.

Lemma bk_recycle ids i u n t : bk ids (i :: u) n -> ids !! t = None -> bk (<[t := i]> ids) u n.
Proof.
  intros B Ht. destruct (ssorted_cons_inv i u (b_sorted _ _ _ B)) as [Hs Hlt].
  destruct (proj1 (b_unused _ _ _ B i)) as [Hin Hfree]; [set_solver|]. split.
  - rewrite lookup_insert_ne; [apply B|]. intros ->. pose proof (b_init _ _ _ B). congruence.
  - intros a b j [[-> <-]|[? Ha]]%lookup_insert_Some [[-> ?]|[? Hb]]%lookup_insert_Some; subst; try done.
    + exfalso. by apply (Hfree b).
    + exfalso. by apply (Hfree a).
    + by eapply (b_inj _ _ _ B).
  - intros a j [[-> <-]|[? Ha]]%lookup_insert_Some; [lia|]. by apply (b_lt _ _ _ B _ _ Ha).
  - done.
  - intros j. split.
    + intros Hj. destruct (proj1 (b_unused _ _ _ B j)) as [Hj1 Hj2]; [set_solver|]. split; [done|].
      intros a [[-> <-]|[? Ha]]%lookup_insert_Some; [|by apply (Hj2 a)]. apply Hlt in Hj. lia.
    + intros [Hj H]. assert (j ∈ i :: u) as Hin'.
      { apply (b_unused _ _ _ B). split; [done|]. intros a Ha. apply (H a). rewrite lookup_insert_ne; [done|]. congruence. }
      apply elem_of_cons in Hin' as [->|?]; [|done]. exfalso. apply (H t). by rewrite lookup_insert.
  - destruct (b_top _ _ _ B) as [a Ha]. exists a. rewrite lookup_insert_ne; [done|]. congruence.
Qed.

(** ** The clone loop *)
Lemma clone_loop_bk ts ow c : bk (c_ids c) (c_unused c) (c_size c) ->
  bk (c_ids (clone_loop ts ow c)) (c_unused (clone_loop ts ow c)) (c_size (clone_loop ts ow c)) /\
  c_ids c ⊆ c_ids (clone_loop ts ow c).
Proof.
  revert c. induction ts as [|t ts IH]; intros c B; [done|]. simpl.
  destruct (c_ids c !! t) as [i|] eqn:Ht.
  - destruct ow; [|done].
    exact (IH (mkC (c_ids c) (c_unused c) (c_size c) (c_ext c) (c_rec c) (sset_insert i (c_over c)) false) B).
  - destruct (c_unused c) as [|i u] eqn:Hu.
    + destruct (IH (mkC (<[t:=c_size c]> (c_ids c)) [] (S (c_size c)) (S (c_ext c)) (c_rec c) (c_over c) false)) as [IH1 IH2].
      { simpl. by apply bk_extend. }
      split; [done|]. etrans; [|exact IH2]. simpl. by apply insert_subseteq.
    + destruct (IH (mkC (<[t:=i]> (c_ids c)) u (c_size c) (c_ext c) (sset_insert i (c_rec c)) (c_over c) false)) as [IH1 IH2].
      { simpl. by apply bk_recycle. }
      split; [done|]. etrans; [|exact IH2]. simpl. by apply insert_subseteq.
Qed.

(** What the loop does when it is given distinct targets, all absent or overwriting allowed. *)
Record cpost (c : cstate) (ts : list string) (c' : cstate) : Prop := {
  cp_throw : c_throw c' = false;
  cp_dom : forall a, is_Some (c_ids c' !! a) <-> is_Some (c_ids c !! a) \/ a ∈ ts;
  cp_size : c_size c' = c_size c + (c_ext c' - c_ext c) /\ c_ext c <= c_ext c';
  cp_old : forall t i, t ∈ ts -> c_ids c !! t = Some i -> i ∈ c_over c';
  cp_new : forall t i, t ∈ ts -> c_ids c !! t = None -> c_ids c' !! t = Some i -> i ∈ c_rec c' \/ c_size c <= i;
  cp_rec : forall i, i ∈ c_rec c' -> i ∈ c_rec c \/ i ∈ c_unused c;
  cp_rec_mono : forall i, i ∈ c_rec c -> i ∈ c_rec c';
  cp_over : forall i, i ∈ c_over c' -> i ∈ c_over c \/ exists t, t ∈ ts /\ c_ids c !! t = Some i;
  cp_over_mono : forall i, i ∈ c_over c -> i ∈ c_over c'
}.

Lemma clone_loop_post ts ow c : NoDup ts -> (ow = true \/ forall t, t ∈ ts -> c_ids c !! t = None) ->
  c_throw c = false -> bk (c_ids c) (c_unused c) (c_size c) -> cpost c ts (clone_loop ts ow c).
Proof.
  revert c. induction ts as [|t ts IH]; intros c Hnd How Hth B.
  - simpl. split; auto.
    + set_solver.
    + lia.
    + set_solver.
    + set_solver.
  - apply NoDup_cons in Hnd as [Htn Hnd]. simpl. destruct (c_ids c !! t) as [i|] eqn:Ht.
    + destruct ow; [|destruct How as [?|How]; [done|]; rewrite How in Ht; [done|set_solver]].
      destruct (IH (mkC (c_ids c) (c_unused c) (c_size c) (c_ext c) (c_rec c) (sset_insert i (c_over c)) false))
        as [P1 P2 P3 P4 P5 P6 P7 P8 P9]; auto.
      simpl in *. split; auto.
      * intros a. rewrite P2, elem_of_cons. split; [naive_solver|]. intros [?|[->|?]]; eauto.
      * intros t' i' [->|Ht']%elem_of_cons Hi'; [|by eapply P4]. apply P9, elem_of_sset_insert. left. congruence.
      * intros t' i' [->|Ht']%elem_of_cons Hi' H; [congruence|by eapply P5].
      * intros j Hj. apply P8 in Hj as [Hj|(t' & Ht' & Hj)].
        -- apply elem_of_sset_insert in Hj as [->|Hj]; [|auto]. right. exists t. split; [by (left || right)|done].
        -- right. exists t'. split; [by (left || right)|done].
      * intros j Hj. apply P9, elem_of_sset_insert. auto.
    + assert (forall i t', t' ∈ ts -> <[t:=i]> (c_ids c) !! t' = c_ids c !! t') as Hne.
      { intros i t' Ht'. rewrite lookup_insert_ne; [done|]. congruence. }
      destruct (c_unused c) as [|i u] eqn:Hu.
      * destruct (clone_loop_bk ts ow (mkC (<[t:=c_size c]> (c_ids c)) [] (S (c_size c)) (S (c_ext c)) (c_rec c) (c_over c) false)) as [_ Hsub].
        { simpl. by apply bk_extend. }
        destruct (IH (mkC (<[t:=c_size c]> (c_ids c)) [] (S (c_size c)) (S (c_ext c)) (c_rec c) (c_over c) false))
          as [P1 P2 P3 P4 P5 P6 P7 P8 P9]; auto.
        { destruct How as [?|How]; [auto|right]. simpl. intros t' Ht'. rewrite Hne by done. apply How. set_solver. }
        { simpl. by apply bk_extend. }
        simpl in *. split; auto.
        -- intros a. rewrite P2, elem_of_cons. destruct (decide (a = t)) as [->|Hat].
           ++ rewrite lookup_insert. naive_solver.
           ++ rewrite lookup_insert_ne by done. naive_solver.
        -- lia.
        -- intros t' i' [->|Ht']%elem_of_cons Hi'; [congruence|]. eapply P4; [done|]. by rewrite Hne.
        -- intros t' i' [->|Ht']%elem_of_cons Hi' H.
           ++ right. pose proof (lookup_weaken _ _ t (c_size c) (lookup_insert _ _ _) Hsub). simpl in *. assert (i' = c_size c) by congruence. lia.
           ++ destruct (P5 t' i' Ht') as [?|?]; [by rewrite Hne|done|auto|right; lia].
        -- intros j Hj. apply P6 in Hj as [?|Hj]; [auto|]. by apply elem_of_nil in Hj.
        -- intros j Hj. apply P8 in Hj as [?|(t' & Ht' & Hj)]; [auto|]. right. exists t'.
           rewrite Hne in Hj by done. split; [by (left || right)|done].
      * destruct (clone_loop_bk ts ow (mkC (<[t:=i]> (c_ids c)) u (c_size c) (c_ext c) (sset_insert i (c_rec c)) (c_over c) false)) as [_ Hsub].
        { simpl. by apply bk_recycle. }
        destruct (IH (mkC (<[t:=i]> (c_ids c)) u (c_size c) (c_ext c) (sset_insert i (c_rec c)) (c_over c) false))
          as [P1 P2 P3 P4 P5 P6 P7 P8 P9]; auto.
        { destruct How as [?|How]; [auto|right]. simpl. intros t' Ht'. rewrite Hne by done. apply How. set_solver. }
        { simpl. by apply bk_recycle. }
        simpl in *. split; auto.
        -- intros a. rewrite P2, elem_of_cons. destruct (decide (a = t)) as [->|Hat].
           ++ rewrite lookup_insert. naive_solver.
           ++ rewrite lookup_insert_ne by done. naive_solver.
        -- intros t' i' [->|Ht']%elem_of_cons Hi'; [congruence|]. eapply P4; [done|]. by rewrite Hne.
        -- intros t' i' [->|Ht']%elem_of_cons Hi' H.
           ++ left. apply P7, elem_of_sset_insert. left.
              pose proof (lookup_weaken _ _ t i (lookup_insert _ _ _) Hsub). simpl in *. congruence.
           ++ apply (P5 t' i' Ht'); [by rewrite Hne|done].
        -- intros j Hj. rewrite Hu. apply P6 in Hj as [Hj|Hj]; [|right; by right]. apply elem_of_sset_insert in Hj as [->|?]; [right; by left|auto].
        -- intros j Hj. apply P7, elem_of_sset_insert. auto.
        -- intros j Hj. apply P8 in Hj as [?|(t' & Ht' & Hj)]; [auto|]. right. exists t'.
           rewrite Hne in Hj by done. split; [by (left || right)|done].
Qed.

(** ** Trimming *)
Lemma vm_trim_spec i : forall u count u' count', ssorted u -> vm_trim i u count = (u', count') ->
  exists m, m <= i /\ count' = count + (i - m) /\ ssorted u' /\
    (forall j, m <= j < i -> j ∈ u) /\ (forall j, j ∈ u' <-> j ∈ u /\ ~ (m <= j < i)) /\ (m = 0 \/ (m - 1) ∉ u).
Proof.
  induction i as [|i IH]; intros u count u' count' Hs; simpl.
  - intros [= <- <-]. exists 0. split; [lia|]. split; [lia|]. split; [done|]. split; [lia|]. split; [|auto]. intros j. split; [split; [done|lia]|naive_solver].
  - destruct (sset_mem i u) eqn:Hm.
    + apply sset_mem_true in Hm. intros H. apply IH in H as (m & Hmi & -> & Hs' & Hall & Hel & Hlast); [|by apply ssorted_erase].
      exists m. split; [lia|]. split; [lia|]. split; [done|]. split.
      { intros j Hj. destruct (decide (j = i)) as [->|]; [done|]. assert (j ∈ sset_erase i u) as Hj' by (apply Hall; lia).
        by apply elem_of_sset_erase in Hj' as [_ ?]. }
      split.
      { intros j. rewrite Hel, elem_of_sset_erase. split.
        - intros [[? ?] ?]. split; [done|lia].
        - intros [? ?]. split; [split; [|done]|lia]. intros ->. lia. }
      { destruct Hlast as [?|Hlast]; [auto|]. destruct (decide (m = 0)) as [?|Hm0]; [auto|right].
        intros Hin. apply Hlast, elem_of_sset_erase. split; [lia|done]. }
    + apply sset_mem_false in Hm. intros [= <- <-]. exists (S i). split; [lia|]. split; [lia|]. split; [done|].
      split; [lia|]. split. { intros j. split; [split; [done|lia]|naive_solver]. }
      right. by replace (S i - 1) with i by lia.
Qed.

Lemma bk_trim ids u n id i u' count : bk ids u n -> id <> initial_id -> ids !! id = Some i -> i = n - 1 ->
  vm_trim i u 1 = (u', count) ->
  bk (delete id ids) u' (n - count) /\ count <= n /\
  (forall a j, delete id ids !! a = Some j -> j < n - count).
Proof.
  intros B Hid Hi Hn Ht. pose proof (bk_pos _ _ _ B) as Hpos.
  apply vm_trim_spec in Ht as (m & Hm & -> & Hs & Hall & Hel & Hlast); [|apply B].
  assert (0 ∉ u) as H0. { intros H. apply (b_unused _ _ _ B) in H as [_ H]. apply (H initial_id), B. }
  assert (i <> 0) as Hi0. { intros ->. apply Hid. eapply (b_inj _ _ _ B); [exact Hi|apply B]. }
  assert (0 < m) as Hm0. { destruct (decide (m = 0)) as [->|]; [|lia]. exfalso. apply H0, Hall. lia. }
  replace (n - (1 + (i - m))) with m by lia.
  assert (forall a j, delete id ids !! a = Some j -> j < m) as Hlt.
  { intros a j [Hne Ha]%lookup_delete_Some. pose proof (b_lt _ _ _ B _ _ Ha) as Hj.
    destruct (decide (j < m)) as [|Hjm]; [done|]. exfalso. destruct (decide (j = i)) as [->|Hji].
    - apply Hne. eapply (b_inj _ _ _ B); [exact Hi|exact Ha].
    - assert (j ∈ u) as Hju by (apply Hall; lia). apply (b_unused _ _ _ B) in Hju as [_ Hju]. by apply (Hju a). }
  split; [|split; [lia|done]]. split.
  - rewrite lookup_delete_ne by done. apply B.
  - intros a b j [_ Ha]%lookup_delete_Some [_ Hb]%lookup_delete_Some. by eapply (b_inj _ _ _ B).
  - done.
  - done.
  - intros j. rewrite Hel, (b_unused _ _ _ B). split.
    + intros [[Hj Hf] Hnot]. split.
      * destruct (decide (j = i)) as [->|]; [exfalso; by apply (Hf id)|]. lia.
      * intros a [_ Ha]%lookup_delete_Some. by apply (Hf a).
    + intros [Hj Hf]. split; [|lia]. split; [lia|]. intros a Ha. destruct (decide (a = id)) as [->|Hne].
      * rewrite Hi in Ha. injection Ha as <-. lia.
      * apply (Hf a). by rewrite lookup_delete_ne.
  - destruct Hlast as [?|Hlast]; [lia|].
    destruct (live_or_unused ids u n (m - 1) B) as [a Ha]; [lia|done|].
    exists a. rewrite lookup_delete_ne; [done|]. intros <-. rewrite Hi in Ha. injection Ha as Ha. lia.
Qed.

Lemma bk_delete ids u n id i : bk ids u n -> id <> initial_id -> ids !! id = Some i -> i <> n - 1 ->
  bk (delete id ids) (sset_insert i u) n.
Proof.
  intros B Hid Hi Hn. split.
  - rewrite lookup_delete_ne by done. apply B.
  - intros a b j [_ Ha]%lookup_delete_Some [_ Hb]%lookup_delete_Some. by eapply (b_inj _ _ _ B).
  - intros a j [_ Ha]%lookup_delete_Some. by eapply (b_lt _ _ _ B).
  - apply ssorted_insert, B.
  - intros j. rewrite elem_of_sset_insert, (b_unused _ _ _ B). split.
    + intros [->|[Hj Hf]].
      * split; [by eapply (b_lt _ _ _ B)|]. intros a [Hne Ha]%lookup_delete_Some. apply Hne. by eapply (b_inj _ _ _ B).
      * split; [done|]. intros a [_ Ha]%lookup_delete_Some. by apply (Hf a).
    + intros [Hj Hf]. destruct (decide (j = i)) as [->|Hne]; [auto|right]. split; [done|].
      intros a Ha. destruct (decide (a = id)) as [->|]; [congruence|]. apply (Hf a). by rewrite lookup_delete_ne.
  - destruct (b_top _ _ _ B) as [a Ha]. exists a. rewrite lookup_delete_ne; [done|]. congruence.
Qed.

Lemma wk_reset ids w id i : wk ids w -> ids !! id = Some i -> (forall a b j, ids !! a = Some j -> ids !! b = Some j -> a = b) ->
  wk (delete id ids) (reset_if w i).
Proof.
  unfold wk, reset_if. intros H Hi Hinj j. case_bool_decide as Hw; [done|]. intros Hj. destruct (H j Hj) as [a Ha].
  exists a. rewrite lookup_delete_ne; [done|]. intros <-. congruence.
Qed.

Section arrays.
  Context {A : Type}.

  Definition cell_ok (k : vkind) (x : option A) : Prop := x <> None.

  Lemma cell_copy_ok k (a : list (option A)) src x : a !! src = Some x -> cell_ok k x -> cell_copy k a src = Ok x.
  Proof. intros H Hk. unfold cell_copy, vget. rewrite H. simpl. destruct k, x; try done. Qed.

  Lemma arr_alloc_ok k idx src (a : list (option A)) x : (forall i, i ∈ idx -> i < length a) -> a !! src = Some x -> cell_ok k x ->
    exists a', arr_alloc k idx src a = Ok a' /\ length a' = length a /\
      forall i, a' !! i = if decide (i ∈ idx) then Some x else a !! i.
  Proof.
    revert a. induction idx as [|j idx IH]; intros a Hl Hs Hk; cbn [arr_alloc].
    - exists a. split; [done|]. split; [done|]. intros i. rewrite decide_False by set_solver. done.
    - rewrite (cell_copy_ok k a src x Hs Hk). simpl. rewrite vset_lt by (apply Hl; set_solver). simpl.
      destruct (IH (<[j := x]> a)) as (a' & E & L & N).
      { intros i Hi. rewrite insert_length. apply Hl. set_solver. }
      { destruct (decide (j = src)) as [->|]; [|by rewrite list_lookup_insert_ne].
        rewrite list_lookup_insert; [done|]. by eapply lookup_lt_Some. }
      { done. }
      exists a'. split; [done|]. rewrite insert_length in L. split; [done|]. intros i. rewrite N.
      destruct (decide (i = j)) as [->|Hij].
      + rewrite (decide_True (P := j ∈ j :: idx)) by set_solver.
        rewrite list_lookup_insert by (apply Hl; set_solver). by case_decide.
      + rewrite list_lookup_insert_ne by done.
        destruct (decide (i ∈ idx)); [rewrite decide_True by set_solver|rewrite decide_False by set_solver]; done.
  Qed.

  Lemma for_objs_ok f (os : list (vobj A)) (R : vobj A -> list (option A) -> Prop) :
    (forall o, o ∈ os -> exists a', f (vo_kind o) (vo_arr o) = Ok a' /\ R o a') ->
    exists os', for_objs f os = Ok os' /\ Forall2 (fun o o' => vo_kind o' = vo_kind o /\ R o (vo_arr o')) os os'.
  Proof.
    induction os as [|o os IH]; intros H; simpl; [by exists []|].
    destruct (H o) as (a' & E & HR); [set_solver|]. rewrite E. simpl.
    destruct IH as (os' & E' & HF); [set_solver|]. rewrite E'. simpl.
    eexists. split; [done|]. by constructor.
  Qed.

  (** Alignment of the arrays with the manager. *)
  Definition aligned (ids : gmap string nat) (size : nat) (o : vobj A) : Prop :=
    vo_kind o <> VSlack /\ length (vo_arr o) = size /\
    (forall a i, ids !! a = Some i -> vo_arr o !! i <> Some None).

  Record vinv (s : vm A) : Prop := {
    v_book : book s;
    v_al : forall k o, vm_objs s !! k = Some o -> aligned (vm_ids s) (vm_size s) o
  }.

  (** The value of object [k] under variant [id], as a user sees it. *)
  Definition value (s : vm A) (k : nat) (id : string) : option (option A) :=
    i ← vm_ids s !! id; o ← vm_objs s !! k; vo_arr o !! i.

  Lemma value_Some (s : vm A) k id x : value s k id = Some x <->
    exists i o, vm_ids s !! id = Some i /\ vm_objs s !! k = Some o /\ vo_arr o !! i = Some x.
  Proof.
    unfold value. split.
    - intros (i & Hi & (o & Ho & H)%bind_Some)%bind_Some. eauto.
    - intros (i & o & Hi & Ho & H). rewrite Hi. simpl. rewrite Ho. done.
  Qed.

  Lemma vinv_init : vinv (vm_init : vm A).
  Proof.
    split; [|done]. split; [apply bk_init|]. intros i [= <-]. exists initial_id. apply (lookup_singleton (M := gmap string)).
  Qed.

  (** An operation is safe when a cloneVariant call has a single target, or distinct targets that are all absent
      or may be overwritten; and no SlackTerminal extension is created. *)
  Definition op_safe (s : vm A) (o : vop A) : Prop :=
    match o with
    | VClone _ ts ow => (exists t, ts = [t]) \/ ts = [] \/ (NoDup ts /\ (ow = true \/ forall t, t ∈ ts -> vm_ids s !! t = None))
    | VNew k _ => k <> VSlack
    | _ => True
    end.

  Definition spec_clone (s : vm A) (src : string) (ts : list string) (s' : vm A) : Prop :=
    (forall id, is_Some (vm_ids s' !! id) <-> is_Some (vm_ids s !! id) \/ id ∈ ts) /\
    vm_work s' = vm_work s /\ length (vm_objs s') = length (vm_objs s) /\
    forall k id, value s' k id = if decide (id ∈ ts) then value s k src else value s k id.

  Lemma vm_clone_ok s src ts ow : vinv s -> NoDup ts -> ts <> [] ->
    (ow = true \/ forall t, t ∈ ts -> vm_ids s !! t = None) -> is_Some (vm_ids s !! src) ->
    (vm_clone s src ts ow).2 = Ok tt /\ vinv (vm_clone s src ts ow).1 /\ spec_clone s src ts (vm_clone s src ts ow).1.
  Proof.
    intros I Hnd Hne How [si Hsi]. pose proof (v_book _ I) as [B W].
    unfold vm_clone. destruct ts as [|t0 ts0]; [done|]. remember (t0 :: ts0) as ts. clear Hne Heqts t0 ts0. rewrite Hsi.
    set (c0 := mkC (vm_ids s) (vm_unused s) (vm_size s) 0 [] [] false).
    destruct (clone_loop_post ts ow c0 Hnd How eq_refl B) as [P1 P2 P3 P4 P5 P6 P7 P8 P9].
    destruct (clone_loop_bk ts ow c0 B) as [B' Hsub]. set (c := clone_loop ts ow c0) in *. simpl in *.
    rewrite P1.
    assert (forall o, o ∈ vm_objs s -> exists x, vo_arr o !! si = Some x /\ cell_ok (vo_kind o) x) as Hsrc.
    { intros o Ho. apply elem_of_list_lookup in Ho as [k Hk]. destruct (v_al _ I k o Hk) as (_ & HL & HP).
      destruct (lookup_lt_is_Some_2 (vo_arr o) si) as [x Hx]. { rewrite HL. by eapply (b_lt _ _ _ B). }
      exists x. split; [done|]. intros ->. by apply (HP src si). }
    assert (forall i, i ∈ c_rec c -> i ∈ vm_unused s) as Hrec. { intros i Hi. apply P6 in Hi as [?|?]; [set_solver|done]. }
    assert (forall i, i ∈ c_over c -> exists t, t ∈ ts /\ vm_ids s !! t = Some i) as Hover.
    { intros i Hi. apply P8 in Hi as [?|?]; [set_solver|done]. }
    assert (exists os1, (if bool_decide (c_rec c = []) then Ok (vm_objs s) else for_objs (fun k => arr_alloc k (c_rec c) si) (vm_objs s)) = Ok os1 /\
      Forall2 (fun o o' => vo_kind o' = vo_kind o /\ length (vo_arr o') = length (vo_arr o) /\
         forall i, vo_arr o' !! i = if decide (i ∈ c_rec c) then vo_arr o !! si else vo_arr o !! i) (vm_objs s) os1) as (os1 & E1 & F1).
    { case_bool_decide as He.
      - eexists. split; [done|]. apply Forall_Forall2_diag, Forall_forall. intros o _. split; [done|]. split; [done|].
        intros i. rewrite He. rewrite decide_False by set_solver. done.
      - apply (for_objs_ok (fun k => arr_alloc k (c_rec c) si) (vm_objs s) (fun o a' => length a' = length (vo_arr o) /\
          forall i, a' !! i = if decide (i ∈ c_rec c) then vo_arr o !! si else vo_arr o !! i)). intros o Ho. destruct (Hsrc o Ho) as (x & Hx & Hk).
        destruct (arr_alloc_ok (vo_kind o) (c_rec c) si (vo_arr o) x) as (a' & E & L & N); auto.
        { intros i Hi. apply Hrec in Hi. apply (b_unused _ _ _ B) in Hi as [Hi _].
          apply elem_of_list_lookup in Ho as [k Hk']. destruct (v_al _ I k o Hk') as (_ & -> & _). done. }
        exists a'. split; [done|]. split; [done|]. intros i. rewrite N, Hx. done. }
    assert (exists os2, (if bool_decide (c_over c = []) then Ok os1 else for_objs (fun k => arr_alloc k (c_over c) si) os1) = Ok os2 /\
      Forall2 (fun o o' => vo_kind o' = vo_kind o /\ length (vo_arr o') = length (vo_arr o) /\
         forall i, vo_arr o' !! i = if decide (i ∈ c_over c) then vo_arr o !! si else vo_arr o !! i) os1 os2) as (os2 & E2 & F2).
    { destruct (bool_decide_reflect (c_over c = [])) as [He|He].
      - exists os1. split; [done|]. apply Forall_Forall2_diag, Forall_forall. intros o _. split; [done|]. split; [done|].
        intros i. rewrite He. rewrite decide_False by set_solver. done.
      - apply (for_objs_ok (fun k => arr_alloc k (c_over c) si) os1 (fun o a' => length a' = length (vo_arr o) /\
          forall i, a' !! i = if decide (i ∈ c_over c) then vo_arr o !! si else vo_arr o !! i)). intros o1 Ho1. apply elem_of_list_lookup in Ho1 as [k Hk1].
        destruct (Forall2_lookup_r _ _ _ _ _ F1 Hk1) as (o & Hk & HK & HL & HN).
        destruct (Hsrc o) as (x & Hx & Hcell); [by eapply elem_of_list_lookup_2|].
        assert (si ∉ c_rec c) as Hsirec.
        { intros H. apply Hrec in H. apply (b_unused _ _ _ B) in H as [_ H]. by apply (H src). }
        assert (vo_arr o1 !! si = Some x) as Hx1. { rewrite HN. by rewrite decide_False. }
        destruct (arr_alloc_ok (vo_kind o1) (c_over c) si (vo_arr o1) x) as (a' & E & L & N); auto.
        { intros i Hi. destruct (Hover i Hi) as (t & _ & Hti). rewrite HL.
          destruct (v_al _ I k o Hk) as (_ & -> & _). by eapply (b_lt _ _ _ B). }
        
        exists a'. split; [done|]. split; [done|]. intros i. rewrite N, Hx1. done. }
    assert (si ∉ c_rec c) as Hsirec.
    { intros H. apply Hrec in H. apply (b_unused _ _ _ B) in H as [_ H]. by apply (H src). }
    assert (Forall2 (fun o o' => vo_kind o' = vo_kind o /\ length (vo_arr o') = length (vo_arr o) /\
         forall i, vo_arr o' !! i = if decide (i ∈ c_rec c \/ i ∈ c_over c) then vo_arr o !! si else vo_arr o !! i) (vm_objs s) os2) as F12.
    { apply Forall2_same_length_lookup_2.
      - rewrite (Forall2_length _ _ _ F1). by rewrite (Forall2_length _ _ _ F2).
      - intros k o o2 Hk Hk2. destruct (Forall2_lookup_l _ _ _ _ _ F1 Hk) as (o1 & Hk1 & HK1 & HL1 & HN1).
        destruct (Forall2_lookup_l _ _ _ _ _ F2 Hk1) as (o2' & Hk2' & HK2 & HL2 & HN2).
        assert (o2' = o2) by congruence. subst o2'. split; [congruence|]. split; [congruence|].
        intros i. rewrite HN2, !HN1. rewrite (decide_False (P := si ∈ c_rec c)) by done.
        destruct (decide (i ∈ c_over c)); destruct (decide (i ∈ c_rec c)); destruct (decide (i ∈ c_rec c \/ i ∈ c_over c)); tauto. }
    assert (exists os3, (if c_ext c =? 0 then Ok os2 else for_objs (fun k => arr_extend k (c_ext c) si) os2) = Ok os3 /\
      Forall2 (fun o o' => vo_kind o' = vo_kind o /\ length (vo_arr o') = c_size c /\
         forall i, i < c_size c -> vo_arr o' !! i = if decide (i ∈ c_rec c \/ i ∈ c_over c \/ vm_size s <= i) then vo_arr o !! si else vo_arr o !! i)
         (vm_objs s) os3) as (os3 & E3 & F3).
    { destruct P3 as [P3 _]. rewrite Nat.sub_0_r in P3. destruct (Nat.eqb_spec (c_ext c) 0) as [He|He].
      - exists os2. split; [done|]. eapply Forall2_impl. { apply Forall2_same_length_lookup_2 with (P := fun o o' =>  vo_kind o' = vo_kind o
            ∧ length (vo_arr o') = c_size c
              ∧ ∀ i : nat, i < c_size c → vo_arr o' !! i = (if decide (i ∈ c_rec c ∨ i ∈ c_over c ∨ vm_size s <= i) then vo_arr o !! si else vo_arr o !! i)).
          - by apply (Forall2_length _ _ _ F12).
          - intros k o o2 Hk Hk2. destruct (Forall2_lookup_l _ _ _ _ _ F12 Hk) as (o2' & Hk2' & HK & HL & HN).
            assert (o2' = o2) by congruence. subst o2'. destruct (v_al _ I k o Hk) as (_ & HL' & _).
            split; [done|]. split; [lia|]. intros i Hi. rewrite HN.
            destruct (decide (i ∈ c_rec c ∨ i ∈ c_over c)) as [D1|D1]; destruct (decide (i ∈ c_rec c ∨ i ∈ c_over c \/ vm_size s <= i)) as [D2|D2]; try done.
            + tauto.
            + destruct D2 as [?|[?|?]]; [tauto|tauto|lia]. }
        done.
      - destruct (for_objs_ok (fun k => arr_extend k (c_ext c) si) os2 (fun o a' => exists x, vo_arr o !! si = Some x /\ a' = vo_arr o ++ replicate (c_ext c) x)) as (os3 & E & F).
        { intros o2 Ho2. apply elem_of_list_lookup in Ho2 as [k Hk2].
          destruct (Forall2_lookup_r _ _ _ _ _ F12 Hk2) as (o & Hk & HK & HL & HN).
          destruct (Hsrc o) as (x & Hx & Hcell); [by eapply elem_of_list_lookup_2|].
          assert (vo_arr o2 !! si = Some x) as Hx2. { rewrite HN, Hx. by case_decide. }
          unfold arr_extend. rewrite (cell_copy_ok _ _ _ x Hx2). 2:{ by rewrite HK. } simpl. eauto. }
        exists os3. split; [done|]. apply Forall2_same_length_lookup_2.
        + rewrite (Forall2_length _ _ _ F12). by apply (Forall2_length _ _ _ F).
        + intros k o o3 Hk Hk3. destruct (Forall2_lookup_l _ _ _ _ _ F12 Hk) as (o2 & Hk2 & HK & HL & HN).
          destruct (Forall2_lookup_l _ _ _ _ _ F Hk2) as (o3' & Hk3' & HK3 & (x & Hx & Ha)).
          assert (o3' = o3) by congruence. subst o3'. destruct (v_al _ I k o Hk) as (_ & HL' & _).
          assert (vo_arr o !! si = Some x) as Hxo. { rewrite HN in Hx. by case_decide. }
          split; [congruence|]. rewrite Ha. split; [rewrite app_length, replicate_length; lia|].
          intros i Hi. destruct (decide (i < vm_size s)) as [Hlt|Hge].
          * rewrite lookup_app_l by lia. rewrite HN.
            destruct (decide (i ∈ c_rec c ∨ i ∈ c_over c)) as [D1|D1]; destruct (decide (i ∈ c_rec c ∨ i ∈ c_over c \/ vm_size s <= i)) as [D2|D2]; try done.
            -- tauto.
            -- destruct D2 as [?|[?|?]]; [tauto|tauto|lia].
          * rewrite decide_True by (right; right; lia). rewrite lookup_app_r by lia.
            rewrite lookup_replicate_2 by lia. congruence. }
    unfold vm_alloc. rewrite E1. simpl. rewrite E2. simpl. rewrite E3. split; [done|].
    set (s' := mkVm (c_ids c) (c_unused c) (c_size c) (vm_work s) os3). simpl.
    (* index characterisation *)
    assert (forall id i, c_ids c !! id = Some i ->
       (id ∈ ts <-> (i ∈ c_rec c \/ i ∈ c_over c \/ vm_size s <= i)) /\ (id ∉ ts -> vm_ids s !! id = Some i) /\ i < c_size c) as Hidx.
    { intros id i Hi. assert (id ∉ ts -> vm_ids s !! id = Some i) as Hold.
      { intros Hn. destruct (proj1 (P2 id)) as [[j Hj]|?]; [by eexists| |done].
        pose proof (lookup_weaken _ _ _ _ Hj Hsub). congruence. }
      split; [|split; [done|by eapply (b_lt _ _ _ B')]]. split.
      - intros Hin. destruct (vm_ids s !! id) as [j|] eqn:Hj.
        + pose proof (lookup_weaken _ _ _ _ Hj Hsub). assert (i = j) by congruence. subst j. right. left. by eapply P4.
        + destruct (P5 id i Hin Hj Hi); auto.
      - intros H. destruct (decide (id ∈ ts)) as [|Hn]; [done|]. exfalso. specialize (Hold Hn).
        destruct H as [H|[H|H]].
        + apply Hrec in H. apply (b_unused _ _ _ B) in H as [_ H]. by apply (H id).
        + destruct (Hover i H) as (t & Ht & Hti). assert (t = id) by (by eapply (b_inj _ _ _ B)). congruence.
        + pose proof (b_lt _ _ _ B _ _ Hold). lia. }
    split.
    - split; [split; [exact B'|]|].
      + intros i Hi. destruct (W i Hi) as [a Ha]. exists a. by eapply lookup_weaken.
      + intros k o3 Hk3. simpl in Hk3. destruct (Forall2_lookup_r _ _ _ _ _ F3 Hk3) as (o & Hk & HK & HL & HN).
        destruct (v_al _ I k o Hk) as (A1 & A2 & A3). split; [by rewrite HK|]. split; [done|].
        intros id i Hi. destruct (Hidx id i Hi) as (Hts & Hold & Hlt). rewrite HN by done.
        case_decide as Hd.
        * intros Hc. destruct (Hsrc o) as (x & Hx & Hcell); [by eapply elem_of_list_lookup_2|]. apply Hcell. congruence.
        * apply (A3 id i). apply Hold. tauto.
    - split; [done|]. split; [done|]. split; [simpl; by rewrite (Forall2_length _ _ _ F3)|].
      intros k id. unfold value. simpl.
      destruct (c_ids c !! id) as [i|] eqn:Hi; simpl.
      + destruct (Hidx id i Hi) as (Hts & Hold & Hlt).
        destruct (vm_objs s !! k) as [o|] eqn:Hk; simpl.
        * destruct (Forall2_lookup_l _ _ _ _ _ F3 Hk) as (o3 & Hk3 & HK & HL & HN). rewrite Hk3. simpl. rewrite HN by done.
          destruct (decide (id ∈ ts)) as [Hin|Hin].
          -- rewrite decide_True by tauto. by rewrite Hsi.
          -- rewrite decide_False by tauto. by rewrite (Hold Hin).
        * assert (os3 !! k = None) as ->.
          { apply lookup_ge_None. rewrite <- (Forall2_length _ _ _ F3). by apply lookup_ge_None. }
          simpl. case_decide as Hd; [by rewrite Hsi|]. by rewrite (Hold Hd).
      + assert (id ∉ ts /\ vm_ids s !! id = None) as [Hn Hnone].
        { split.
          - intros Hin. assert (is_Some (c_ids c !! id)) as [? ?] by (apply P2; auto). congruence.
          - destruct (vm_ids s !! id) as [j|] eqn:Hj; [|done]. pose proof (lookup_weaken _ _ _ _ Hj Hsub). congruence. }
        rewrite decide_False by done. by rewrite Hnone.
  Qed.

  (** A cloneVariant call with a single target is atomic. *)
  Lemma vm_clone_single_throw s src t ow : is_throw (vm_clone s src [t] ow).2 = true -> vinv s ->
    (vm_clone s src [t] ow).1 = s.
  Proof.
    intros H I. destruct (vm_ids s !! src) as [si|] eqn:Hsi.
    2:{ unfold vm_clone. by rewrite Hsi. }
    destruct (decide (ow = true \/ vm_ids s !! t = None)) as [Hd|Hd].
    - destruct (vm_clone_ok s src [t] ow I) as (E & _); [apply NoDup_singleton|done| |by eexists|].
      { destruct Hd; [auto|]. right. intros t' ->%elem_of_list_singleton. done. }
      rewrite E in H. done.
    - unfold vm_clone. rewrite Hsi. simpl. destruct (vm_ids s !! t) as [i|]; [|tauto].
      destruct ow; [tauto|]. simpl. by destruct s.
  Qed.

  (** A failing cloneVariant never changes the values of the variants that existed. *)
  Lemma vm_clone_throw_values s src ts ow : vinv s -> is_throw (vm_clone s src ts ow).2 = true ->
    book (vm_clone s src ts ow).1 /\
    forall k id, is_Some (vm_ids s !! id) -> value (vm_clone s src ts ow).1 k id = value s k id.
  Proof.
    intros I H. pose proof (v_book _ I) as [B W]. unfold vm_clone in *.
    destruct ts as [|t0 ts0]; [done|]. destruct (vm_ids s !! src) as [si|]; [|done].
    set (c := clone_loop (t0 :: ts0) ow (mkC (vm_ids s) (vm_unused s) (vm_size s) 0 [] [] false)) in *.
    destruct (clone_loop_bk (t0 :: ts0) ow (mkC (vm_ids s) (vm_unused s) (vm_size s) 0 [] [] false) B) as [B' Hsub].
    fold c in B', Hsub. simpl in Hsub.
    assert (book (mkVm (c_ids c) (c_unused c) (c_size c) (vm_work s) (vm_objs s)) /\
      forall k id, is_Some (vm_ids s !! id) -> value (mkVm (c_ids c) (c_unused c) (c_size c) (vm_work s) (vm_objs s)) k id = value s k id) as HH.
    { split; [split; [done|]|].
      - intros i Hi. destruct (W i Hi) as [a Ha]. exists a. by eapply lookup_weaken.
      - intros k id [i Hi]. unfold value. simpl. rewrite Hi. by rewrite (lookup_weaken _ _ _ _ Hi Hsub). }
    destruct (c_throw c); [exact HH|].
    destruct (let! os := _ in _) as [os|m| |]; [done|exact HH|done|done].
  Qed.

  (** ** removeVariant *)
  Lemma arr_reduce_ok k n (a : list (option A)) : k <> VSlack -> n <= length a -> arr_reduce k n a = Ok (take (length a - n) a).
  Proof. intros Hk Hn. unfold arr_reduce. destruct k; [| | |done]; by rewrite (proj2 (Nat.leb_le _ _) Hn). Qed.

  Definition spec_remove (s : vm A) (id : string) (s' : vm A) : Prop :=
    vm_ids s' = delete id (vm_ids s) /\ length (vm_objs s') = length (vm_objs s) /\
    (forall i, vm_ids s !! id = Some i -> vm_work s' = if decide (vm_work s = Some i) then None else vm_work s) /\
    forall k id', id' <> id -> value s' k id' = value s k id'.

  Lemma vm_remove_ok s id : vinv s -> id <> initial_id -> is_Some (vm_ids s !! id) ->
    (vm_remove s id).2 = Ok tt /\ vinv (vm_remove s id).1 /\ spec_remove s id (vm_remove s id).1.
  Proof.
    intros I Hid [i Hi]. pose proof (v_book _ I) as [B W]. unfold vm_remove.
    rewrite bool_decide_false by done. rewrite Hi.
    pose proof (b_lt _ _ _ B _ _ Hi) as Hilt.
    destruct (Nat.eqb_spec i (vm_size s - 1)) as [Hlast|Hmid].
    - destruct (vm_trim i (vm_unused s) 1) as [u' count] eqn:Ht.
      destruct (bk_trim _ _ _ _ _ _ _ B Hid Hi Hlast Ht) as (B' & Hc & Hlt).
      destruct (for_objs_ok (fun k => arr_reduce k count) (vm_objs s) (fun o a' => a' = take (vm_size s - count) (vo_arr o))) as (os & E & F).
      { intros o Ho. apply elem_of_list_lookup in Ho as [k Hk]. destruct (v_al _ I k o Hk) as (A1 & A2 & A3).
        rewrite arr_reduce_ok by (done || lia). rewrite A2. eauto. }
      rewrite E. split; [done|]. split.
      + split; [split; [exact B'|]|].
        * simpl. eapply wk_reset; [exact W|exact Hi|apply B].
        * intros k o Hk. simpl in *. destruct (Forall2_lookup_r _ _ _ _ _ F Hk) as (o0 & Hk0 & HK & Ha).
          destruct (v_al _ I k o0 Hk0) as (A1 & A2 & A3). split; [by rewrite HK|]. rewrite Ha. split; [rewrite take_length; lia|].
          intros a j Hj. rewrite lookup_take by (by eapply Hlt). apply (A3 a j).
          by apply lookup_delete_Some in Hj as [_ Hj].
      + split; [done|]. split; [simpl; by rewrite (Forall2_length _ _ _ F)|]. split.
        { intros j Hj. assert (i = j) by congruence. subst j. simpl. unfold reset_if. case_bool_decide; case_decide; done. }
        intros k id' Hne. unfold value. simpl. rewrite lookup_delete_ne by done.
        destruct (vm_ids s !! id') as [j|] eqn:Hj; [|done]. simpl.
        assert (j < vm_size s - count) as Hjl. { apply (Hlt id'). by rewrite lookup_delete_ne. }
        destruct (vm_objs s !! k) as [o|] eqn:Hk.
        * destruct (Forall2_lookup_l _ _ _ _ _ F Hk) as (o' & Hk' & HK & Ha). rewrite Hk'. simpl. rewrite Ha. by rewrite lookup_take.
        * assert (os !! k = None) as ->. { apply lookup_ge_None. rewrite <- (Forall2_length _ _ _ F). by apply lookup_ge_None. } done.
    - pose proof (bk_delete _ _ _ _ _ B Hid Hi Hmid) as B'.
      destruct (for_objs_ok (fun k => arr_delete k i) (vm_objs s) (fun o a' => length a' = length (vo_arr o) /\ forall j, j <> i -> a' !! j = vo_arr o !! j)) as (os & E & F).
      { intros o Ho. apply elem_of_list_lookup in Ho as [k Hk]. destruct (v_al _ I k o Hk) as (A1 & A2 & A3).
        destruct (vo_kind o); simpl; [eauto| | |done]; rewrite vset_lt by lia; (eexists; split; [done|]);
        (split; [apply insert_length|]); intros j Hj; by rewrite list_lookup_insert_ne. }
      rewrite E. split; [done|]. split.
      + split; [split; [exact B'|]|].
        * simpl. eapply wk_reset; [exact W|exact Hi|apply B].
        * intros k o Hk. simpl in *. destruct (Forall2_lookup_r _ _ _ _ _ F Hk) as (o0 & Hk0 & HK & Ha & Hb).
          destruct (v_al _ I k o0 Hk0) as (A1 & A2 & A3). split; [by rewrite HK|]. split; [congruence|].
          intros a j [Hne Hj]%lookup_delete_Some.
          rewrite Hb; [by apply (A3 a j)|]. intros ->. apply Hne. by eapply (b_inj _ _ _ B).
      + split; [done|]. split; [simpl; by rewrite (Forall2_length _ _ _ F)|]. split.
        { intros j Hj. assert (i = j) by congruence. subst j. simpl. unfold reset_if. case_bool_decide; case_decide; done. }
        intros k id' Hne. unfold value. simpl. rewrite lookup_delete_ne by done.
        destruct (vm_ids s !! id') as [j|] eqn:Hj; [|done]. simpl.
        destruct (vm_objs s !! k) as [o|] eqn:Hk.
        * destruct (Forall2_lookup_l _ _ _ _ _ F Hk) as (o' & Hk' & HK & Ha & Hb). rewrite Hk'. simpl. rewrite Hb; [done|].
          intros ->. apply Hne. by eapply (b_inj _ _ _ B).
        * assert (os !! k = None) as ->. { apply lookup_ge_None. rewrite <- (Forall2_length _ _ _ F). by apply lookup_ge_None. } done.
  Qed.

  (** ** Reads, writes, creation *)
  Definition spec_write (s : vm A) (k : nat) (x : A) (s' : vm A) : Prop :=
    vm_ids s' = vm_ids s /\ vm_work s' = vm_work s /\ length (vm_objs s') = length (vm_objs s) /\
    forall k' id, value s' k' id =
      if decide (k' = k /\ is_Some (vm_work s) /\ vm_ids s !! id = vm_work s) then Some (Some x) else value s k' id.

  Lemma write_at (s : vm A) k o i x : vinv s -> vm_objs s !! k = Some o -> (exists a, vm_ids s !! a = Some i) ->
    vinv (mkVm (vm_ids s) (vm_unused s) (vm_size s) (Some i) (<[k := mkVobj (vo_kind o) (<[i := Some x]> (vo_arr o))]> (vm_objs s))) /\
    forall k' id, value (mkVm (vm_ids s) (vm_unused s) (vm_size s) (Some i) (<[k := mkVobj (vo_kind o) (<[i := Some x]> (vo_arr o))]> (vm_objs s))) k' id =
      if decide (k' = k /\ vm_ids s !! id = Some i) then Some (Some x) else value s k' id.
  Proof.
    intros I Hk [a Ha]. pose proof (v_book _ I) as [B W]. pose proof (b_lt _ _ _ B _ _ Ha) as Hlt.
    destruct (v_al _ I k o Hk) as (A1 & A2 & A3).
    assert (k < length (vm_objs s)) as Hkl by (by eapply lookup_lt_Some).
    split.
    - split; [split; [exact B|]|].
      + intros j [= <-]. by exists a.
      + simpl. intros k' o' [(<- & <- & _)|(_ & Ho')]%list_lookup_insert_Some; [|by eapply (v_al _ I)].
        split; [done|]. split; [simpl; by rewrite insert_length|]. simpl. intros id j Hj.
        destruct (decide (j = i)) as [->|]; [rewrite list_lookup_insert by lia; done|].
        rewrite list_lookup_insert_ne by done. by eapply A3.
    - intros k' id. unfold value. simpl. destruct (vm_ids s !! id) as [j|] eqn:Hj; simpl.
      2:{ rewrite decide_False; [done|]. intros [_ ?]. done. }
      destruct (decide (k' = k)) as [->|Hne].
      + rewrite list_lookup_insert by done. simpl. rewrite Hk. simpl. destruct (decide (j = i)) as [->|Hji].
        * rewrite list_lookup_insert by lia. by rewrite decide_True.
        * rewrite list_lookup_insert_ne by done. rewrite decide_False; [done|]. intros [_ [= ?]]. done.
      + rewrite list_lookup_insert_ne by done. rewrite decide_False; [done|]. tauto.
  Qed.

  Lemma vm_write_ok s k x : vinv s ->
    ((vm_write s k x).2 = Ok tt /\ vinv (vm_write s k x).1 /\ spec_write s k x (vm_write s k x).1 /\ is_Some (vm_work s) /\ is_Some (vm_objs s !! k))
    \/ (is_throw (vm_write s k x).2 = true /\ (vm_write s k x).1 = s /\ (vm_work s = None \/ vm_objs s !! k = None)).
  Proof.
    intros I. unfold vm_write. destruct (vm_objs s !! k) as [o|] eqn:Hk; [|right; auto].
    unfold vm_index. destruct (vm_work s) as [i|] eqn:Hw; [|right; auto]. left. simpl.
    pose proof (v_book _ I) as [B W]. destruct (W i Hw) as [a Ha]. pose proof (b_lt _ _ _ B _ _ Ha) as Hlt.
    destruct (v_al _ I k o Hk) as (A1 & A2 & A3). unfold vobj_write. rewrite vset_lt by lia. simpl.
    rewrite <- Hw. destruct (write_at s k o i x I Hk) as [I' V]; [by exists a|]. rewrite <- Hw in I', V.
    split; [done|]. split; [done|]. split; [|by rewrite Hw].
    split; [done|]. split; [done|]. split; [simpl; by rewrite insert_length|].
    intros k' id. rewrite V. apply decide_ext. rewrite Hw. split; [intros [-> ?]; eauto|tauto].
  Qed.

  Lemma vm_new_ok s kd x : vinv s -> kd <> VSlack ->
    vinv (vm_new s kd x) /\ vm_ids (vm_new s kd x) = vm_ids s /\ vm_work (vm_new s kd x) = vm_work s /\
    forall k id, is_Some (vm_ids s !! id) ->
      value (vm_new s kd x) k id = if decide (k = length (vm_objs s)) then Some (Some x) else value s k id.
  Proof.
    intros I Hkd. pose proof (v_book _ I) as [B W].
    assert (forall id i, vm_ids s !! id = Some i -> new_array s kd x !! i = Some (Some x)) as Hval.
    { intros id i Hi. pose proof (b_lt _ _ _ B _ _ Hi). unfold new_array. destruct kd; [| |by rewrite lookup_replicate_2|done].
      - by rewrite lookup_replicate_2.
      - rewrite list_lookup_fmap, lookup_seq_lt by done. simpl. rewrite bool_decide_true; [done|].
        apply elem_of_list_fmap. exists (id, i). split; [done|]. by apply elem_of_map_to_list. }
    split; [|split; [done|split; [done|]]].
    - split; [exact (v_book _ I)|]. intros k o. simpl. intros [Hk|[_ Hk]]%lookup_app_Some; [by eapply (v_al _ I)|].
      apply list_lookup_singleton_Some in Hk as [_ <-]. split; [done|]. split.
      + simpl. unfold new_array. destruct kd; rewrite ?map_length, ?seq_length, ?replicate_length; done.
      + simpl. intros a i Hi. rewrite (Hval a i Hi). done.
    - intros k id [i Hi]. unfold value. simpl. rewrite Hi. simpl. case_decide as Hd.
      + subst k. rewrite lookup_app_r, Nat.sub_diag by lia. simpl. by eapply Hval.
      + destruct (decide (k < length (vm_objs s))).
        * by rewrite lookup_app_l.
        * rewrite lookup_ge_None_2 by (rewrite app_length; simpl; lia). by rewrite lookup_ge_None_2 by lia.
  Qed.

  Lemma vm_set_working_ok s id : vinv s ->
    (exists i, vm_ids s !! id = Some i /\ vm_set_working s id = (mkVm (vm_ids s) (vm_unused s) (vm_size s) (Some i) (vm_objs s), Ok tt) /\
       vinv (vm_set_working s id).1)
    \/ (vm_ids s !! id = None /\ is_throw (vm_set_working s id).2 = true /\ (vm_set_working s id).1 = s).
  Proof.
    intros I. unfold vm_set_working. destruct (vm_ids s !! id) as [i|] eqn:Hi; [|right; auto].
    left. exists i. split; [done|]. split; [done|]. simpl. split; [split; [apply I|]|apply I].
    intros j [= <-]. by exists id.
  Qed.

  (** forEachVariant *)
  Lemma foreach_fold (s : vm A) k x l : vinv s -> is_Some (vm_objs s !! k) ->
    (forall id i, (id, i) ∈ l -> vm_ids s !! id = Some i) ->
    let step := (fun (acc : vm A * result unit) (id_i : string * nat) =>
        match acc.2 with
        | Ok _ => vm_write (mkVm (vm_ids acc.1) (vm_unused acc.1) (vm_size acc.1) (Some id_i.2) (vm_objs acc.1)) k x
        | _ => acc
        end) in
    (foldl step (s, Ok tt) l).2 = Ok tt /\ vinv (foldl step (s, Ok tt) l).1 /\
    vm_ids (foldl step (s, Ok tt) l).1 = vm_ids s /\ vm_unused (foldl step (s, Ok tt) l).1 = vm_unused s /\
    vm_size (foldl step (s, Ok tt) l).1 = vm_size s /\
    forall k' id, value (foldl step (s, Ok tt) l).1 k' id =
      if decide (k' = k /\ id ∈ map fst l) then Some (Some x) else value s k' id.
  Proof.
    intros I Hk Hl step. revert s I Hk Hl. induction l as [|[id i] l IH]; intros s I Hk Hl.
    - simpl. split; [done|]. split; [done|]. repeat (split; [done|]). intros k' id. rewrite decide_False; [done|]. set_solver.
    - cbn [foldl]. unfold step at 2 4 6 8 10 12. cbn [fst snd].
      assert (vm_ids s !! id = Some i) as Hi by (apply Hl; set_solver).
      set (s1 := mkVm (vm_ids s) (vm_unused s) (vm_size s) (Some i) (vm_objs s)).
      assert (vinv s1) as I1. { split; [split; [apply I|]|apply I]. intros j [= <-]. by exists id. }
      destruct (vm_write_ok s1 k x I1) as [(E & I2 & (S1 & S2 & S3 & S4) & _)|(_ & _ & [?|?])]; [|done|].
      2:{ simpl in *. destruct Hk. congruence. }
      destruct (vm_write s1 k x) as [s2 r] eqn:Es2. simpl in *. subst r.
      assert (vm_unused s2 = vm_unused s /\ vm_size s2 = vm_size s) as [Hu Hsz].
      { unfold vm_write in Es2. simpl in Es2. destruct (vm_objs s !! k); [|done]. simpl in Es2.
        destruct (vobj_write v i (Some x)); try done. injection Es2 as <-. done. }
      destruct (IH s2 I2) as (F1 & F2 & F3 & F4 & F5 & F6).
      { apply lookup_lt_is_Some. rewrite S3. by apply lookup_lt_is_Some. }
      { intros id' i' Hin. rewrite S1. apply Hl. set_solver. }
      split; [done|]. split; [done|]. split; [congruence|]. split; [congruence|]. split; [congruence|].
      intros k' id'. rewrite F6, S4. simpl.
      destruct (decide (k' = k /\ id' ∈ map fst l)) as [Hd|Hd].
      { rewrite decide_True; [done|]. set_solver. }
      destruct (decide (k' = k /\ is_Some (Some i) /\ vm_ids s !! id' = Some i)) as [(-> & _ & Hid')|Hd'].
      { rewrite decide_True; [done|]. split; [done|]. assert (id' = id) as -> by (by eapply (b_inj _ _ _ (proj1 (v_book _ I)))). set_solver. }
      rewrite decide_False; [done|]. intros [-> Hin]. apply elem_of_cons in Hin as [->|Hin]; [|tauto]. apply Hd'. eauto.
  Qed.

  Lemma vm_foreach_ok s k x : vinv s -> is_Some (vm_work s) -> is_Some (vm_objs s !! k) ->
    (vm_foreach_write s k x).2 = Ok tt /\ vinv (vm_foreach_write s k x).1 /\
    vm_ids (vm_foreach_write s k x).1 = vm_ids s /\ vm_work (vm_foreach_write s k x).1 = vm_work s /\
    forall k' id, is_Some (vm_ids s !! id) ->
      value (vm_foreach_write s k x).1 k' id = if decide (k' = k) then Some (Some x) else value s k' id.
  Proof.
    intros I [w Hw] Hk. unfold vm_foreach_write, vm_index. rewrite Hw.
    destruct (foreach_fold s k x (map_to_list (vm_ids s)) I Hk) as (F1 & F2 & F3 & F4 & F5 & F6).
    { intros id i. by rewrite elem_of_map_to_list. }
    split; [exact F1|]. split.
    { split; [split|]; simpl; [apply F2| |apply F2]. intros i [= <-]. rewrite F3. by apply (proj2 (v_book _ I)). }
    split; [exact F3|]. split; [done|].
    intros k' id [i Hi]. transitivity (value (foldl (fun (acc : vm A * result unit) (id_i : string * nat) =>
        match acc.2 with
        | Ok _ => vm_write (mkVm (vm_ids acc.1) (vm_unused acc.1) (vm_size acc.1) (Some id_i.2) (vm_objs acc.1)) k x
        | _ => acc
        end) (s, Ok tt) (map_to_list (vm_ids s))).1 k' id); [done|].
    rewrite F6. destruct (decide (k' = k)) as [->|Hne].
    - rewrite decide_True; [done|]. split; [done|]. apply elem_of_list_fmap. exists (id, i). split; [done|].
      by apply elem_of_map_to_list.
    - rewrite decide_False; [done|]. tauto.
  Qed.

  (** ** Histories of safe operations *)
  Inductive vreach : vm A -> Prop :=
  | vr_init : vreach vm_init
  | vr_step s o : vreach s -> op_safe s o -> vreach (vm_step s o).1.

  Lemma step_vinv s o : vinv s -> op_safe s o ->
    vinv (vm_step s o).1 /\ ((vm_step s o).2 = Ok tt \/ (is_throw (vm_step s o).2 = true /\ (vm_step s o).1 = s)).
  Proof.
    intros I Hs. destruct o as [src ts ow|id|id|k x|k x|kd x]; simpl in *.
    - destruct ts as [|t ts'] eqn:Ets; [simpl; auto|]. rewrite <- Ets in *.
      destruct (vm_ids s !! src) as [si|] eqn:Hsi.
      2:{ unfold vm_clone. rewrite Ets, Hsi. simpl. auto. }
      assert (NoDup ts /\ (ow = true \/ forall t', t' ∈ ts -> vm_ids s !! t' = None) \/
              (exists t0, ts = [t0] /\ ow = false /\ is_Some (vm_ids s !! t0))) as [[Hnd How]|(t0 & -> & -> & i & Hi)].
      { destruct Hs as [[t0 Ht0]|[Hs|Hs]]; [|congruence|by left].
        rewrite Ht0. destruct ow. { left. split; [apply NoDup_singleton|auto]. }
        destruct (vm_ids s !! t0) as [i|] eqn:Hi.
        - right. exists t0. rewrite Hi. eauto.
        - left. split; [apply NoDup_singleton|]. right. by intros t' ->%elem_of_list_singleton. }
      + destruct (vm_clone_ok s src ts ow I Hnd) as (E & I' & _); [congruence|done|by eexists|]. rewrite E. auto.
      + assert (is_throw (vm_clone s src [t0] false).2 = true) as Hth.
        { unfold vm_clone. rewrite Hsi. simpl. by rewrite Hi. }
        rewrite vm_clone_single_throw by done. auto.
    - destruct (decide (id = initial_id)) as [->|Hid].
      { unfold vm_remove. rewrite bool_decide_true by done. simpl. auto. }
      destruct (vm_ids s !! id) as [i|] eqn:Hi.
      + destruct (vm_remove_ok s id I Hid) as (E & I' & _); [by eexists|]. rewrite E. auto.
      + unfold vm_remove. rewrite bool_decide_false by done. rewrite Hi. simpl. auto.
    - destruct (vm_set_working_ok s id I) as [(i & _ & E & I')|(_ & E & ->)]; [|auto].
      rewrite E in *. auto.
    - destruct (vm_write_ok s k x I) as [(E & I' & _)|(E & -> & _)]; auto.
    - destruct (vm_work s) as [w|] eqn:Hw.
      2:{ unfold vm_foreach_write, vm_index. rewrite Hw. auto. }
      destruct (vm_objs s !! k) as [o|] eqn:Hk.
      { destruct (vm_foreach_ok s k x I) as (E & I' & _); [by eexists|by eexists|]. auto. }
      assert (map_to_list (vm_ids s) <> []) as Hne.
      { intros He. apply map_to_list_empty_iff in He. pose proof (b_init _ _ _ (proj1 (v_book _ I))) as Hin. rewrite He in Hin. done. }
      unfold vm_foreach_write, vm_index. rewrite Hw.
      assert (forall l (s0 : vm A), vm_objs s0 !! k = None -> l <> [] ->
        let r := foldl (fun (acc : vm A * result unit) (id_i : string * nat) =>
        match acc.2 with
        | Ok _ => vm_write (mkVm (vm_ids acc.1) (vm_unused acc.1) (vm_size acc.1) (Some id_i.2) (vm_objs acc.1)) k x
        | _ => acc
        end) (s0, Ok tt) l in
        is_throw r.2 = true /\ vm_ids r.1 = vm_ids s0 /\ vm_unused r.1 = vm_unused s0 /\ vm_size r.1 = vm_size s0 /\ vm_objs r.1 = vm_objs s0) as Hf.
      { intros [|[id i] l] s0 Hs0 Hl; [done|]. simpl. unfold vm_write at 2 4 6 8 10. simpl. rewrite Hs0. simpl.
        clear Hl. match goal with |- context [foldl ?f ?b l] => assert (foldl f b l = b) as -> end.
        { induction l as [|y l IHl]; [done|]. simpl. done. }
        done. }
      destruct (Hf (map_to_list (vm_ids s)) s Hk Hne) as (H1 & H2 & H3 & H4 & H5). cbn [fst snd] in *.
      rewrite H2, H3, H4, H5. rewrite <- Hw. split; [|right; split; [exact H1|by destruct s]].
      by destruct s.
    - destruct (vm_new_ok s kd x I Hs) as (I' & _). auto.
  Qed.

  Lemma vreach_vinv s : vreach s -> vinv s.
  Proof. induction 1 as [|s o _ IH Hs]; [apply vinv_init|]. by apply step_vinv. Qed.

  Lemma vm_read_ok s k id i : vinv s -> vm_work s = Some i -> vm_ids s !! id = Some i -> is_Some (vm_objs s !! k) ->
    exists x, vm_read s k = Ok x /\ value s k id = Some x.
  Proof.
    intros I Hw Hid [o Ho]. destruct (v_al _ I k o Ho) as (A1 & A2 & A3). pose proof (v_book _ I) as [B _].
    destruct (lookup_lt_is_Some_2 (vo_arr o) i) as [x Hx]. { rewrite A2. by eapply (b_lt _ _ _ B). }
    exists x. unfold vm_read, vm_index, vobj_read, value, vget. rewrite Ho, Hw, Hid. cbn [result_bind mbind option_bind]. rewrite Hx. cbn [result_bind].
    split; [|done]. destruct (vo_kind o) eqn:Hk, x; try done. exfalso. by apply (A3 id i).
  Qed.

  Lemma vm_working_id_ok s id i : vinv s -> vm_work s = Some i -> vm_ids s !! id = Some i -> vm_working_id s = Ok id.
  Proof.
    intros I Hw Hid. pose proof (v_book _ I) as [B _]. unfold vm_working_id, vm_index. rewrite Hw. simpl.
    destruct (list_find (fun p => p.2 = i) (map_to_list (vm_ids s))) as [[n [id' i']]|] eqn:Hf.
    - apply list_find_Some in Hf as (Hl & Hi & _). simpl in Hi. subst i'.
      apply elem_of_list_lookup_2, elem_of_map_to_list in Hl. f_equal. by eapply (b_inj _ _ _ B).
    - apply list_find_None in Hf. rewrite Forall_forall in Hf. exfalso. apply (Hf (id, i)); [|done].
      by apply elem_of_map_to_list.
  Qed.

  (** ** Bookkeeping for every history, failing cloneVariant calls included *)
  Inductive vhist : vm A -> Prop :=
  | vh_init : vhist vm_init
  | vh_step s o : vhist s -> (vm_step s o).2 <> UB -> (vm_step s o).2 <> Throw "length_error" -> vhist (vm_step s o).1.

  Lemma for_objs_throw f (os : list (vobj A)) m : (forall k a m', f k a = Throw m' -> m' = m) -> forall m', for_objs f os = Throw m' -> m' = m.
  Proof.
    intros H. induction os as [|o os IH]; simpl; [done|]. intros m'.
    destruct (f (vo_kind o) (vo_arr o)) eqn:Hf; simpl; [|intros [= <-]; eauto|done|done].
    destruct (for_objs f os) eqn:Hf'; simpl; [done|intros [= <-]; eauto|done|done].
  Qed.
  Lemma for_objs_fuel f (os : list (vobj A)) : (forall k a, f k a <> OutOfFuel) -> for_objs f os <> OutOfFuel.
  Proof.
    intros H. induction os as [|o os IH]; simpl; [done|]. specialize (H (vo_kind o) (vo_arr o)).
    destruct (f (vo_kind o) (vo_arr o)); simpl; try done. destruct (for_objs f os); done.
  Qed.

  Lemma wk_sub ids ids' w : wk ids w -> ids ⊆ ids' -> wk ids' w.
  Proof. intros H Hs i Hi. destruct (H i Hi) as [a Ha]. exists a. by eapply lookup_weaken. Qed.

  Lemma hist_book (s : vm A) o : book s -> (vm_step s o).2 <> UB -> (vm_step s o).2 <> Throw "length_error" -> book (vm_step s o).1.
  Proof.
    intros [B W] H1 H2. destruct o as [src ts ow|id|id|k x|k x|kd x]; simpl in *.
    - unfold vm_clone in *. destruct ts as [|t ts]; [by split|]. destruct (vm_ids s !! src) as [si|]; [|by split].
      destruct (clone_loop_bk (t :: ts) ow (mkC (vm_ids s) (vm_unused s) (vm_size s) 0 [] [] false) B) as [B' Hsub].
      simpl c_ids in Hsub at 1. destruct (c_throw _).
      + split; [exact B'|]. by eapply wk_sub.
      + destruct (let! os := _ in _); (split; [exact B'|by eapply wk_sub]).
    - unfold vm_remove in *. case_bool_decide as Hid; [by split|]. destruct (vm_ids s !! id) as [i|] eqn:Hi; [|by split].
      destruct (Nat.eqb_spec i (vm_size s - 1)) as [Hlast|Hmid].
      + destruct (vm_trim i (vm_unused s) 1) as [u' count] eqn:Ht.
        destruct (bk_trim _ _ _ _ _ _ _ B Hid Hi Hlast Ht) as (B' & Hc & Hlt).
        destruct (for_objs _ _) as [os|m| |] eqn:Hf; simpl in *; [|exfalso|done|exfalso].
        * split; [exact B'|]. eapply wk_reset; [exact W|exact Hi|apply B].
        * apply H2. f_equal. apply (for_objs_throw _ _ "length_error") in Hf; [done|].
          intros k a m'. unfold arr_reduce. destruct k; try case_match; congruence.
        * revert Hf. apply for_objs_fuel. intros k a. unfold arr_reduce. destruct k; try case_match; congruence.
      + pose proof (bk_delete _ _ _ _ _ B Hid Hi Hmid) as B'.
        destruct (for_objs _ _) as [os|m| |] eqn:Hf; simpl in *; [|exfalso|done|exfalso].
        * split; [exact B'|]. eapply wk_reset; [exact W|exact Hi|apply B].
        * destruct (decide (m = "length_error")) as [->|Hm]; [done|]. apply Hm.
          apply (for_objs_throw _ _ "length_error") in Hf; [done|].
          intros k a m'. unfold arr_delete, vset. destruct k; try case_decide; congruence.
        * revert Hf. apply for_objs_fuel. intros k a. unfold arr_delete, vset. destruct k; try case_decide; congruence.
    - unfold vm_set_working. destruct (vm_ids s !! id) as [i|] eqn:Hi; [|by split]. split; [exact B|]. intros j [= <-]. by exists id.
    - unfold vm_write. destruct (vm_objs s !! k); [|by split]. destruct (let! i := _ in _); by split.
    - unfold vm_foreach_write, vm_index. destruct (vm_work s) as [w|] eqn:Hw; [|split; [exact B|]; simpl; rewrite Hw; intros ? [=]].
      match goal with |- context [foldl ?f _ _] => set (ff := f); assert (forall l (s0 : vm A) r,
        vm_ids (foldl ff (s0, r) l).1 = vm_ids s0 /\ vm_unused (foldl ff (s0, r) l).1 = vm_unused s0 /\ vm_size (foldl ff (s0, r) l).1 = vm_size s0) as Hf end.
      { induction l as [|y l IHl]; intros s0 r; [done|]. cbn [foldl]. unfold ff at 2 4 6. cbn [fst snd].
        destruct r; [|apply IHl|apply IHl|apply IHl].
        match goal with |- context [foldl ff ?p l] => destruct p as [s1 r1] eqn:Hs1 end.
        destruct (IHl s1 r1) as (-> & -> & ->). unfold vm_write in Hs1. simpl in Hs1.
        destruct (vm_objs s0 !! k); [|by injection Hs1 as <- _]. destruct (vobj_write _ _ _); by injection Hs1 as <- _. }
      destruct (Hf (map_to_list (vm_ids s)) s (Ok tt)) as (E1 & E2 & E3). split; simpl; [by rewrite E1, E2, E3|].
      rewrite E1. exact W.
    - by split.
  Qed.

  Lemma vhist_book s : vhist s -> book s.
  Proof.
    induction 1 as [|s o _ IH H1 H2]; [|by apply hist_book].
    apply (v_book _ vinv_init).
  Qed.
End arrays.
