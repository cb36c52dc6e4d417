From Verif Require Import Ranges.

(** ** TerminalFinder *)
Section finder.
  Context {T : Type} `{EqDecision T}.
  (** The rank of a terminal: the number of the first rule it satisfies. *)
  Fixpoint rank (rules : list (T -> bool)) (t : T) : nat :=
    match rules with [] => 0 | p :: rules' => if p t then 0 else S (rank rules' t) end.
  Lemma by_rules_rank rules t1 t2 : by_rules rules t1 t2 = true <-> rank rules t2 < rank rules t1.
  Proof.
    induction rules as [|p rules IH]; simpl; [split; [done|lia]|].
    destruct (p t1), (p t2); simpl; try (split; [done|lia]); try (split; [lia|done]). rewrite IH. lia.
  Qed.
  Lemma comparator_rank rules t1 t2 : comparator rules t1 t2 = true <-> rank rules t2 < rank rules t1.
  Proof. unfold comparator. case_bool_decide as E; [subst; split; [done|lia]|apply by_rules_rank]. Qed.
  Lemma max_loop_spec rules l : forall best, exists i, (best :: l) !! i = Some (max_loop (comparator rules) best l) /\
    forall j t, (best :: l) !! j = Some t -> rank rules (max_loop (comparator rules) best l) <= rank rules t /\
      (j < i -> rank rules (max_loop (comparator rules) best l) < rank rules t).
  Proof.
    induction l as [|t l IH]; intros best; simpl.
    - exists 0. split; [done|]. intros [|j] u; [|done]. intros [= <-]. lia.
    - destruct (comparator rules best t) eqn:E.
      + apply comparator_rank in E. destruct (IH t) as (i & Hi & Hm). exists (S i). split; [done|]. intros [|j] u Hj.
        * injection Hj as <-. destruct (Hm 0 t) as [H1 H2]; [done|]. split; intros; lia.
        * destruct (Hm j u) as [H1 H2]; [done|]. split; [done|]. intros. apply H2. lia.
      + assert (rank rules best <= rank rules t) as L.
        { destruct (decide (rank rules t < rank rules best)) as [H|]; [|lia]. apply comparator_rank in H. congruence. }
        destruct (IH best) as (i & Hi & Hm). destruct i as [|i].
        * exists 0. split; [done|]. destruct (Hm 0 best) as [H0 _]; [done|]. intros [|[|j]] u Hj; simpl in Hj.
          -- injection Hj as <-. lia.
          -- injection Hj as <-. lia.
          -- destruct (Hm (S j) u) as [H1 H2]; [done|]. lia.
        * exists (S (S i)). split; [done|]. destruct (Hm 0 best) as [H0 H0']; [done|]. intros [|[|j]] u Hj; simpl in Hj.
          -- injection Hj as <-. split; [done|]. intros. apply H0'. lia.
          -- injection Hj as <-. split; [lia|]. intros. specialize (H0' ltac:(lia)). lia.
          -- destruct (Hm (S j) u) as [H1 H2]; [done|]. split; [done|]. intros. apply H2. lia.
  Qed.
End finder.

(** ** FlatteningIterator *)
Section flat.
  Context {A : Type}.
  Implicit Types (ll : list (list A)).
  Definition fit_ok ll (it : fit) : Prop :=
    fi_outer it = length ll \/
    exists l p, ll !! fi_outer it = Some l /\ fi_begin it = Some (fi_outer it, p) /\ fi_end it = Some (fi_outer it, length l) /\ p <= length l.
  Definition ready ll (it : fit) : Prop :=
    fi_outer it = length ll \/
    exists l p, ll !! fi_outer it = Some l /\ fi_begin it = Some (fi_outer it, p) /\ fi_end it = Some (fi_outer it, length l) /\ p < length l.
  (** The elements from the position on. *)
  Definition remaining ll (it : fit) : list A :=
    match ll !! fi_outer it, fi_begin it with
    | Some l, Some (_, p) => drop p l ++ concat (drop (S (fi_outer it)) ll)
    | _, _ => []
    end.
  Lemma remaining_end ll it : fi_outer it = length ll -> remaining ll it = [].
  Proof. intros E. unfold remaining. rewrite lookup_ge_None_2; [done|lia]. Qed.
  Lemma fl_skip_spec ll f : forall it, fit_ok ll it -> length ll - fi_outer it < f ->
    exists it', fl_skip f ll it = Ok it' /\ ready ll it' /\ remaining ll it' = remaining ll it.
  Proof.
    induction f as [|f IH]; intros it Hok Hf; [lia|]. cbn [fl_skip]. destruct Hok as [E|(l & p & Hl & Hb & He & Hp)].
    - rewrite bool_decide_false by tauto. simpl. exists it. split; [done|]. split; [by left|done].
    - pose proof (lookup_lt_Some _ _ _ Hl) as Hlt. rewrite bool_decide_true by lia. simpl.
      destruct (decide (p = length l)) as [->|Hne].
      + rewrite bool_decide_true by congruence. destruct (decide (S (fi_outer it) = length ll)) as [E|E].
        * rewrite bool_decide_false by tauto. destruct (IH (mkFit (S (fi_outer it)) (fi_begin it) (fi_end it))) as (it' & H1 & H2 & H3); [by left|simpl; lia|].
          exists it'. split; [done|]. split; [done|]. rewrite H3, remaining_end by done. unfold remaining. rewrite Hl, Hb, drop_all, drop_ge by lia. done.
        * rewrite bool_decide_true by done. destruct (vget_lt ll (S (fi_outer it)) ltac:(lia)) as (l' & -> & Hl'). cbn [result_bind].
          destruct (IH (mkFit (S (fi_outer it)) (Some (S (fi_outer it), 0)) (Some (S (fi_outer it), length l')))) as (it' & H1 & H2 & H3);
            [right; exists l', 0; simpl; repeat split; [done|lia]|simpl; lia|].
          exists it'. split; [done|]. split; [done|]. rewrite H3. unfold remaining. cbn [fi_outer fi_begin]. rewrite Hl, Hl', Hb, drop_all, drop_0.
          rewrite (drop_S ll l' (S (fi_outer it))) by done. done.
      + rewrite bool_decide_false by (rewrite Hb, He; congruence). exists it. split; [done|]. split; [|done]. right. exists l, p. repeat split; try done. lia.
  Qed.
  Lemma fl_begin_spec ll : exists it, fl_begin ll = Ok it /\ ready ll it /\ remaining ll it = concat ll.
  Proof.
    unfold fl_begin. destruct ll as [|l ll]; [exists (mkFit 0 None None); split; [done|]; split; [by left|done]|].
    rewrite bool_decide_true by done. cbn [vget result_bind lookup list_lookup].
    destruct (fl_skip_spec (l :: ll) (S (length (l :: ll))) (mkFit 0 (Some (0, 0)) (Some (0, length l)))) as (it & H1 & H2 & H3).
    - right. exists l, 0. simpl. repeat split. lia.
    - simpl. lia.
    - exists it. split; [done|]. split; [done|]. rewrite H3. unfold remaining. simpl. by rewrite !drop_0.
  Qed.
  Lemma fl_incr_spec ll it : ready ll it -> fi_outer it <> length ll ->
    exists x it', fl_deref ll it = Ok x /\ fl_incr ll it = Ok it' /\ ready ll it' /\ remaining ll it = x :: remaining ll it'.
  Proof.
    intros [?|(l & p & Hl & Hb & He & Hp)] Hne; [done|]. unfold fl_deref, fl_incr. rewrite Hb. rewrite bool_decide_false by done.
    rewrite bool_decide_false by (rewrite He; intros [= ->]; lia).
    assert (vget ll (fi_outer it) = Ok l) as -> by (by apply vget_Ok). cbn [result_bind].
    destruct (vget_lt l p Hp) as (x & Hx & Hx'). exists x.
    destruct (fl_skip_spec ll (S (length ll)) (mkFit (fi_outer it) (Some (fi_outer it, S p)) (fi_end it))) as (it' & H1 & H2 & H3).
    - right. exists l, (S p). simpl. repeat split; try done. 
    - simpl. lia.
    - exists it'. split; [done|]. split; [done|]. split; [done|]. rewrite H3. unfold remaining. cbn [fi_outer fi_begin]. rewrite Hl, Hb.
      rewrite (drop_S l x p) by done. done.
  Qed.
  Lemma fl_loop_spec ll f : forall it, ready ll it -> length (remaining ll it) < f -> fl_loop f ll it = Ok (remaining ll it).
  Proof.
    induction f as [|f IH]; intros it R Hf; [lia|]. cbn [fl_loop]. unfold fl_eq, fl_end. cbn [fi_outer]. case_bool_decide as E.
    - by rewrite remaining_end.
    - destruct (fl_incr_spec ll it R E) as (x & it' & Hd & Hi & R' & Hr). rewrite Hd. cbn [result_bind]. rewrite Hi. cbn [result_bind].
      rewrite Hr in *. simpl in Hf. rewrite IH; [done|done|lia].
  Qed.
End flat.

(** ** Distinct ranges *)
Lemma hget_insert_ne h loc loc' s : loc <> loc' -> hget (<[loc := s]> h) loc' = hget h loc'.
Proof. intros H. unfold hget. by rewrite list_lookup_insert_ne. Qed.
Lemma hget_insert h loc s : loc < length h -> hget (<[loc := s]> h) loc = s.
Proof. intros H. unfold hget. by rewrite list_lookup_insert. Qed.
(** A filter iterator on a list: what it skips is in the set; the element it stops at was not, and is now. *)
Lemma v_satisfy_spec rest : forall h loc h' r, loc < length h -> v_satisfy h loc rest = (h', r) ->
  length h' = length h /\ (forall l, l <> loc -> hget h' l = hget h l) /\
  exists pre, rest = pre ++ r /\ (forall x, x ∈ pre -> x ∈ hget h loc) /\
    match r with
    | [] => hget h' loc = hget h loc
    | x :: _ => x ∉ hget h loc /\ hget h' loc = x :: hget h loc
    end.
Proof.
  induction rest as [|x rest IH]; intros h loc h' r Hl; simpl.
  - intros [= <- <-]. split; [done|]. split; [done|]. exists []. split; [done|]. split; [by intros ? ?%elem_of_nil|done].
  - unfold distinct. case_bool_decide as Hx.
    + intros E. apply IH in E as (H1 & H2 & pre & -> & H3 & H4); [|done]. split; [done|]. split; [done|]. exists (x :: pre). split; [done|].
      split; [|done]. intros y [->|Hy]%elem_of_cons; [done|auto].
    + intros [= <- <-]. split; [by rewrite insert_length|]. split; [intros l Hne; by rewrite hget_insert_ne|]. exists []. split; [done|].
      split; [by intros ? ?%elem_of_nil|]. split; [done|]. by rewrite hget_insert.
Qed.
Lemma v_range_spec h l h' loc r : v_range h l = (h', (loc, r)) ->
  loc = length h /\ length h' = S (length h) /\ (forall k, k < length h -> hget h' k = hget h k) /\ r = l /\
  hget h' loc = match l with [] => [] | x :: _ => [x] end.
Proof.
  unfold v_range. destruct (v_satisfy (h ++ [[]]) (length h) l) as [h1 r1] eqn:E. intros [= <- <- <-].
  assert (hget (h ++ [[]]) (length h) = []) as Hn by (unfold hget; by rewrite list_lookup_middle).
  apply v_satisfy_spec in E as (H1 & H2 & pre & -> & H3 & H4); [|rewrite app_length; simpl; lia]. rewrite app_length in H1. simpl in H1.
  rewrite Hn in *. assert (pre = []) as ->.
  { destruct pre as [|y pre]; [done|]. exfalso. specialize (H3 y ltac:(by left)). by apply elem_of_nil in H3. }
  split; [done|]. split; [lia|]. split; [|split; [done|]].
  - intros k Hk. rewrite H2 by lia. unfold hget. by rewrite lookup_app_l.
  - simpl. destruct r1; [done|]. by destruct H4.
Qed.
Lemma v_iterate_spec f : forall h loc rest, loc < length h -> length rest < f ->
  exists out h', v_iterate f h loc rest = Ok (out, h') /\ length h' = length h /\ (forall l, l <> loc -> hget h' l = hget h l) /\
    (forall x, x ∈ hget h' loc <-> x ∈ hget h loc \/ x ∈ tail out) /\ NoDup (tail out) /\ (forall x, x ∈ tail out -> x ∉ hget h loc) /\
    head out = head rest /\ (forall x, x ∈ out -> x ∈ rest) /\ (forall x, x ∈ tail rest -> x ∈ hget h loc \/ x ∈ tail out).
Proof.
  induction f as [|f IH]; intros h loc rest Hl Hf; [lia|]. destruct rest as [|x r]; cbn [v_iterate].
  { exists [], h. split; [done|]. split; [done|]. split; [done|]. simpl. split; [intros x; rewrite elem_of_nil; tauto|]. split; [constructor|].
    split; [by intros ? ?%elem_of_nil|]. split; [done|]. split; [done|]. by intros ? ?%elem_of_nil. }
  destruct (v_satisfy h loc r) as [h1 r1] eqn:E. apply v_satisfy_spec in E as (H1 & H2 & pre & -> & H3 & H4); [|done].
  simpl in Hf. rewrite app_length in Hf. destruct (IH h1 loc r1) as (out & h' & Eo & I1 & I2 & I3 & I4 & I5 & I6 & I7 & I8); [lia|lia|].
  rewrite Eo. cbn [result_map result_bind]. exists (x :: out), h'. cbn [fst snd tail head]. split; [done|]. split; [lia|].
  split; [intros l Hne; by rewrite I2, H2|].
  destruct r1 as [|y r1].
  - destruct out; [|done]. simpl in *. rewrite H4 in *. split; [intros z; rewrite I3; done|]. split; [constructor|]. split; [by intros ? ?%elem_of_nil|].
    split; [done|]. split; [intros z [->|?%elem_of_nil]%elem_of_cons; [by left|done]|]. intros z. rewrite app_nil_r. intros Hz. left. by apply H3.
  - destruct H4 as [Hy H4]. destruct out as [|y' out]; [done|]. injection I6 as ->. simpl in *. rewrite H4 in *.
    split. { intros z. rewrite I3, !elem_of_cons. tauto. }
    split. { constructor; [|done]. intros Hy'. apply (I5 y Hy'). by left. }
    split. { intros z [->|Hz]%elem_of_cons; [done|]. intros X. apply (I5 z Hz). by right. }
    split; [done|]. split.
    + intros z [->|Hz]%elem_of_cons; [by left|]. right. apply elem_of_app. right. by apply I7.
    + intros z. rewrite elem_of_app. intros [Hz|[->|Hz]%elem_of_cons]; [left; by apply H3|right; by left|].
      destruct (I8 z Hz) as [[->|?]%elem_of_cons|?]; [right; by left|by left|right; by right].
Qed.

(** ** The ranges of a substation *)
(** The elements at or after a position, and the first. *)
Definition s_all (it : sflat) : list string := match sf_outer it with [] => [] | _ :: o => sf_rest it ++ concat o end.
Definition s_ready (h : heap) (it : sflat) : Prop := sf_outer it = [] \/ (sf_rest it <> [] /\ sf_loc it < length h).
(** The set of the inner predicate has nothing but the current element and elements of [S]. *)
Definition inner_in (h : heap) (it : sflat) (S : list string) : Prop :=
  sf_outer it = [] \/ forall x, x ∈ hget h (sf_loc it) -> x ∈ S \/ head (sf_rest it) = Some x.
Lemma s_skip_spec outer : forall h rest loc h' it loc0 S, loc0 < length h -> loc < length h -> loc <> loc0 ->
  (forall x, x ∈ hget h loc -> x ∈ S \/ head rest = Some x) ->
  s_skip h outer rest loc = (h', it) ->
  length h <= length h' /\ (forall k, k < length h -> hget h' k = hget h k) /\ s_ready h' it /\ (sf_outer it = [] \/ sf_loc it <> loc0) /\
  s_all it = (match outer with [] => [] | _ :: o => rest ++ concat o end) /\ inner_in h' it S /\ (sf_outer it = [] \/ sf_loc it < length h').
Proof.
  induction outer as [|o outer IH]; intros h rest loc h' it loc0 S H0 Hl Hne HS; cbn [s_skip].
  - intros [= <- <-]. split; [done|]. split; [done|]. split; [by left|]. split; [by left|]. split; [done|]. split; by left.
  - destruct rest as [|x r].
    + destruct outer as [|l outer'].
      * intros [= <- <-]. split; [done|]. split; [done|]. split; [by left|]. split; [by left|]. split; [done|]. split; by left.
      * destruct (v_range h l) as [h1 [loc1 r1]] eqn:E. apply v_range_spec in E as (-> & E1 & E2 & -> & E3). intros E.
        apply (IH h1 l (length h) h' it loc0 S) in E as (I1 & I2 & I3 & I4 & I5 & I6 & I7); [|lia|lia|lia|].
        -- split; [lia|]. split; [intros k Hk; rewrite I2 by lia; by apply E2|]. repeat split; try done.
        -- intros x Hx. rewrite E3 in Hx. destruct l; [by apply elem_of_nil in Hx|]. apply elem_of_list_singleton in Hx as ->. by right.
    + intros [= <- <-]. split; [done|]. split; [done|]. split; [right; done|]. split; [by right|]. split; [done|]. split; by right.
Qed.
Lemma s_incr_spec h it loc0 S : s_ready h it -> loc0 < length h -> (sf_outer it = [] \/ sf_loc it <> loc0) -> sf_outer it <> [] ->
  exists x h' it' pre, s_incr h it = Ok (h', it') /\ head (sf_rest it) = Some x /\ length h <= length h' /\ hget h' loc0 = hget h loc0 /\
    s_ready h' it' /\ (sf_outer it' = [] \/ sf_loc it' <> loc0) /\ s_all it = x :: pre ++ s_all it' /\
    (forall y, y ∈ pre -> y ∈ hget h (sf_loc it)) /\ (inner_in h it S -> x ∈ S -> inner_in h' it' S).
Proof.
  intros [?|[Hr Hl]] H0 Hne Ho; [done|]. destruct Hne as [?|Hne]; [done|]. unfold s_incr. destruct (sf_outer it) as [|o outer] eqn:Eo; [done|].
  destruct (sf_rest it) as [|x r] eqn:Er; [done|]. destruct (v_satisfy h (sf_loc it) r) as [h1 r1] eqn:E.
  apply v_satisfy_spec in E as (H1 & H2 & pre & -> & H3 & H4); [|done].
  destruct (s_skip h1 (o :: outer) r1 (sf_loc it)) as [h' it'] eqn:E'.
  pose proof (s_skip_spec (o :: outer) h1 r1 (sf_loc it) h' it' loc0 (hget h (sf_loc it)) ltac:(lia) ltac:(lia) Hne) as Sp.
  destruct Sp as (I1 & I2 & I3 & I4 & I5 & I6 & I7); [|exact E'|].
  { intros y Hy. destruct r1 as [|z r1]; [left; by rewrite H4 in Hy|]. destruct H4 as [_ H4]. rewrite H4 in Hy. apply elem_of_cons in Hy as [->|?]; [by right|by left]. }
  exists x, h', it', pre. split; [done|]. split; [done|]. split; [lia|]. split; [rewrite I2 by lia; by apply H2|]. split; [done|]. split; [done|]. split.
  { rewrite I5. unfold s_all. rewrite Eo, Er. simpl. by rewrite <- app_assoc. }
  split; [done|]. intros Hin HS.
  pose proof (s_skip_spec (o :: outer) h1 r1 (sf_loc it) h' it' loc0 S ltac:(lia) ltac:(lia) Hne) as Sp.
  destruct Sp as (_ & _ & _ & _ & _ & J & _); [|exact E'|done].
  destruct Hin as [?|Hin]; [congruence|]. rewrite Er in Hin. simpl in Hin.
  intros y Hy. assert (y ∈ hget h (sf_loc it) -> y ∈ S) as X by (intros Q; destruct (Hin y Q) as [?|[= ->]]; done).
  destruct r1 as [|z r1]; [left; rewrite H4 in Hy; auto|]. destruct H4 as [_ H4]. rewrite H4 in Hy. apply elem_of_cons in Hy as [->|?]; [by right|left; auto].
Qed.
Lemma s_ready_cons h it : s_ready h it -> sf_outer it <> [] -> exists x r, sf_rest it = x :: r /\ s_all it = x :: r ++ concat (tail (sf_outer it)).
Proof.
  intros [?|[Hr _]] Ho; [done|]. destruct (sf_rest it) as [|x r] eqn:E; [done|]. exists x, r. split; [done|]. unfold s_all. rewrite E. by destruct (sf_outer it).
Qed.
Lemma s_satisfy_spec f : forall h loc0 it, s_ready h it -> loc0 < length h -> (sf_outer it = [] \/ sf_loc it <> loc0) -> length (s_all it) < f ->
  exists h' it' pre, s_satisfy f h loc0 it = Ok (h', it') /\ length h <= length h' /\ s_ready h' it' /\ (sf_outer it' = [] \/ sf_loc it' <> loc0) /\
    s_all it = pre ++ s_all it' /\
    match s_all it' with
    | [] => hget h' loc0 = hget h loc0
    | x :: _ => x ∉ hget h loc0 /\ hget h' loc0 = x :: hget h loc0
    end /\
    (inner_in h it (hget h loc0) -> inner_in h' it' (hget h loc0) /\ forall x, x ∈ pre -> x ∈ hget h loc0).
Proof.
  induction f as [|f IH]; intros h loc0 it R H0 Hne Hf; [lia|]. cbn [s_satisfy]. destruct (decide (sf_outer it = [])) as [Eo|Ho].
  { rewrite Eo. exists h, it, []. split; [by destruct (sf_rest it)|]. split; [done|]. split; [done|]. split; [done|]. split; [done|].
    assert (s_all it = []) as -> by (unfold s_all; by rewrite Eo). split; [done|]. intros Hin. split; [done|]. by intros ? ?%elem_of_nil. }
  destruct (s_ready_cons h it R Ho) as (x & r & Er & Ea). destruct (sf_outer it) as [|o outer] eqn:Eo; [done|]. rewrite Er. unfold distinct. case_bool_decide as Hx.
  - destruct (s_incr_spec h it loc0 (hget h loc0) R H0 ltac:(rewrite Eo; by right; destruct Hne) ltac:(by rewrite Eo)) as
      (x' & h1 & it1 & pre1 & E1 & E2 & E3 & E4 & E5 & E6 & E7 & E8 & E9). rewrite E1. cbn [result_bind]. rewrite Er in E2. injection E2 as <-.
    destruct (IH h1 loc0 it1) as (h' & it' & pre & I1 & I2 & I3 & I4 & I5 & I6 & I7); [done|lia|done| |].
    { rewrite E7 in Hf. simpl in Hf. rewrite app_length in Hf. lia. }
    exists h', it', (x :: pre1 ++ pre). split; [done|]. split; [lia|]. split; [done|]. split; [done|]. split.
    { rewrite E7, I5. simpl. by rewrite app_assoc. }
    rewrite E4 in I6, I7. split; [done|]. intros Hin. specialize (E9 Hin Hx). pose proof (I7 E9) as [J1 J2]. split; [done|].
    intros y. rewrite elem_of_cons, elem_of_app. intros [->|[Hy|Hy]]; [done| |by apply J2].
    apply E8 in Hy. destruct Hin as [?|Hin]; [congruence|]. destruct (Hin y Hy) as [?|Hh]; [done|]. rewrite Er in Hh. injection Hh as <-. done.
  - exists (<[loc0:=x :: hget h loc0]> h), it, []. split; [done|]. rewrite insert_length. split; [done|]. split.
    { destruct R as [?|[R1 R2]]; [by left|right]. by rewrite insert_length. }
    split; [by rewrite Eo|]. split; [done|]. rewrite Ea. rewrite hget_insert by done. split; [done|]. intros Hin. split; [|by intros ? ?%elem_of_nil].
    destruct Hin as [?|Hin]; [by left|right]. intros y. destruct Hne as [?|Hne]; [done|]. rewrite hget_insert_ne by done. apply Hin.
Qed.
(** One pass from a position: the first element, then elements that were not in the set; with a first pass, all of them. *)
Lemma s_iterate_spec f : forall h loc0 it, s_ready h it -> loc0 < length h -> (sf_outer it = [] \/ sf_loc it <> loc0) -> length (s_all it) < f ->
  exists out h', s_iterate f h loc0 it = Ok (out, h') /\ length h <= length h' /\ s_ready h' it /\
    (forall x, x ∈ hget h' loc0 <-> x ∈ hget h loc0 \/ x ∈ tail out) /\ NoDup (tail out) /\ (forall x, x ∈ tail out -> x ∉ hget h loc0) /\
    head out = head (s_all it) /\ (forall x, x ∈ out -> x ∈ s_all it) /\
    (inner_in h it (hget h loc0) -> (forall x, head (s_all it) = Some x -> x ∈ hget h loc0) -> forall x, x ∈ s_all it -> x ∈ hget h loc0 \/ x ∈ tail out).
Proof.
  induction f as [|f IH]; intros h loc0 it R H0 Hne Hf; [lia|]. cbn [s_iterate]. destruct (decide (sf_outer it = [])) as [Eo|Ho].
  { rewrite Eo. exists [], h. split; [by destruct (sf_rest it)|]. assert (s_all it = []) as -> by (unfold s_all; by rewrite Eo). simpl.
    split; [done|]. split; [done|]. split; [intros x; rewrite elem_of_nil; tauto|]. split; [constructor|]. split; [by intros ? ?%elem_of_nil|].
    split; [done|]. split; [done|]. by intros _ _ ? ?%elem_of_nil. }
  destruct (s_ready_cons h it R Ho) as (x & r & Er & Ea).
  destruct (s_incr_spec h it loc0 (hget h loc0) R H0 Hne Ho) as (x' & h1 & it1 & pre1 & E1 & E2 & E3 & E4 & E5 & E6 & E7 & E8 & E9).
  rewrite Er in E2. injection E2 as <-. destruct (sf_outer it) as [|o outer] eqn:Eo; [done|]. rewrite Er, E1. cbn [result_bind].
  rewrite E7 in Hf. simpl in Hf. rewrite app_length in Hf.
  destruct (s_satisfy_spec f h1 loc0 it1) as (h2 & it2 & pre2 & F1 & F2 & F3 & F4 & F5 & F6 & F7); [done|lia|done|lia|]. rewrite F1. cbn [result_bind].
  assert (length (s_all it2) < f) as Hf2 by (rewrite F5, app_length in Hf; lia).
  destruct (IH h2 loc0 it2) as (out & h' & I0 & I1 & I2 & I3 & I4 & I5 & I6 & I7 & I8); [done|lia|done|done|].
  rewrite I0. cbn [result_map result_bind fst snd]. exists (x :: out), h'. cbn [tail head]. split; [done|]. split; [lia|].
  split. { destruct R as [?|[R1 R2]]; [by left|right]. rewrite Er. split; [done|lia]. }
  rewrite E4 in F6, F7. rewrite E7.
  assert (forall z, z ∈ hget h2 loc0 <-> z ∈ hget h loc0 \/ head out = Some z) as G.
  { intros z. rewrite I6. destruct (s_all it2) as [|y l]; simpl in *; [rewrite F6; split; [by left|by intros [?|?]]|].
    destruct F6 as [_ ->]. rewrite elem_of_cons. split; [intros [->|?]; auto|intros [?|[= ->]]; auto]. }
  assert (forall z, z ∈ hget h2 loc0 \/ z ∈ tail out <-> z ∈ hget h loc0 \/ z ∈ out) as G'.
  { intros z. rewrite G. destruct out as [|y out]; simpl; [rewrite elem_of_nil; split; [by intros [[?|?]|?]; auto|intros [?|[]]; auto]|].
    rewrite elem_of_cons. split; [intros [[?|[= ->]]|?]; auto|intros [?|[->|?]]; auto]. }
  split; [intros z; rewrite I3; apply G'|]. split.
  { destruct out as [|y out]; [constructor|]. simpl in *. constructor; [|done]. intros Hy. apply (I5 y Hy). apply G. by right. }
  split.
  { intros z Hz Hin. destruct out as [|y out]; [by apply elem_of_nil in Hz|]. simpl in *. apply elem_of_cons in Hz as [->|Hz].
    - destruct (s_all it2) as [|y' l]; [done|]. injection I6 as ->. destruct F6 as [F6 _]. done.
    - apply (I5 z Hz). apply G. by left. }
  split; [done|]. split.
  { intros z [->|Hz]%elem_of_cons; [by left|]. right. rewrite F5, !elem_of_app. right. right. by apply I7. }
  intros Hin Hh. assert (x ∈ hget h loc0) as Hx by (by apply Hh). specialize (E9 Hin Hx). pose proof (F7 E9) as [J1 J2].
  intros z [->|Hz]%elem_of_cons; [by left|]. rewrite F5, !elem_of_app in Hz. destruct Hz as [Hz|[Hz|Hz]].
  - apply E8 in Hz. destruct Hin as [?|Hin]; [congruence|]. destruct (Hin z Hz) as [?|Hh']; [by left|]. rewrite Er in Hh'. injection Hh' as <-. by left.
  - left. by apply J2.
  - apply G', I8; [|intros y Hy; apply G; right; congruence|done].
    destruct J1 as [?|J1]; [by left|right]. intros y Hy. destruct (J1 y Hy) as [?|?]; [left; apply G; by left|by right].
Qed.
Lemma s_begin_spec h vls h' it loc0 : loc0 < length h -> s_begin h vls = (h', it) ->
  length h <= length h' /\ hget h' loc0 = hget h loc0 /\ s_ready h' it /\ (sf_outer it = [] \/ sf_loc it <> loc0) /\ s_all it = concat vls /\
  forall S, inner_in h' it S.
Proof.
  intros H0. unfold s_begin. destruct vls as [|l vls].
  - intros [= <- <-]. split; [done|]. split; [done|]. split; [by left|]. split; [by left|]. split; [done|]. intros S. by left.
  - destruct (v_range h l) as [h1 [loc1 r1]] eqn:E. apply v_range_spec in E as (-> & E1 & E2 & -> & E3). intros E.
    assert (forall (S : list string) x, x ∈ hget h1 (length h) -> x ∈ S \/ head l = Some x) as HS.
    { intros S x Hx. rewrite E3 in Hx. destruct l; [by apply elem_of_nil in Hx|]. apply elem_of_list_singleton in Hx as ->. by right. }
    pose proof (s_skip_spec (l :: vls) h1 l (length h) h' it loc0 [] ltac:(lia) ltac:(lia) ltac:(lia) (HS []) E) as (I1 & I2 & I3 & I4 & I5 & _).
    split; [lia|]. split; [rewrite I2 by lia; by apply E2|]. split; [done|]. split; [done|]. split; [done|]. intros S.
    by pose proof (s_skip_spec (l :: vls) h1 l (length h) h' it loc0 S ltac:(lia) ltac:(lia) ltac:(lia) (HS S) E) as (_ & _ & _ & _ & _ & ? & _).
Qed.
Lemma s_range_spec f h vls : length (concat vls) < f ->
  exists h' loc it, s_range f h vls = Ok (h', (loc, it)) /\ s_ready h' it /\ loc < length h' /\ (sf_outer it = [] \/ sf_loc it <> loc) /\
    s_all it = concat vls /\ inner_in h' it (hget h' loc) /\ hget h' loc = match concat vls with [] => [] | x :: _ => [x] end.
Proof.
  intros Hf. unfold s_range. destruct (s_begin (h ++ [[]]) vls) as [h1 it] eqn:E.
  assert (hget (h ++ [[]]) (length h) = []) as Hn by (unfold hget; by rewrite list_lookup_middle).
  apply (s_begin_spec _ _ _ _ (length h)) in E as (I1 & I2 & I3 & I4 & I5 & I6); [|rewrite app_length; simpl; lia]. rewrite app_length in I1. simpl in I1.
  destruct (s_satisfy_spec f h1 (length h) it) as (h2 & it2 & pre & F1 & F2 & F3 & F4 & F5 & F6 & F7); [done|lia|done|by rewrite I5|]. rewrite F1. cbn [result_bind].
  rewrite I2, Hn in *. destruct (F7 (I6 [])) as [J1 J2]. assert (pre = []) as ->.
  { destruct pre as [|y pre]; [done|]. exfalso. specialize (J2 y ltac:(by left)). by apply elem_of_nil in J2. }
  simpl in F5. exists h2, (length h), it2. split; [done|]. split; [done|]. split; [lia|]. split; [done|]. split; [congruence|]. split.
  - destruct J1 as [?|J1]; [by left|right]. intros x Hx. destruct (J1 x Hx) as [?%elem_of_nil|?]; [done|by right].
  - rewrite <- F5, I5 in F6. destruct (concat vls); [done|]. by destruct F6.
Qed.
(** Later passes give the first element only. *)
Lemma s_again_spec n f : forall h loc it, s_ready h it -> loc < length h -> (sf_outer it = [] \/ sf_loc it <> loc) -> length (s_all it) < f ->
  (forall x, x ∈ s_all it -> x ∈ hget h loc) -> s_again n f h loc it = Ok (replicate n (take 1 (s_all it))).
Proof.
  induction n as [|n IH]; intros h loc it R H0 Hne Hf Hall; [done|]. cbn [s_again].
  destruct (s_iterate_spec f h loc it R H0 Hne Hf) as (out & h' & E & I1 & I2 & I3 & I4 & I5 & I6 & I7 & _). rewrite E. cbn [result_bind].
  assert (out = take 1 (s_all it)) as ->.
  { destruct out as [|x out]; simpl in *; [by destruct (s_all it)|]. assert (out = []) as ->.
    { destruct out as [|y out]; [done|]. exfalso. apply (I5 y); [by left|]. apply Hall, I7. right. by left. }
    destruct (s_all it); [done|]. injection I6 as ->. simpl. by rewrite take_0. }
  rewrite IH; [done|done|lia|done|done|]. intros x Hx. apply I3. left. by apply Hall.
Qed.
