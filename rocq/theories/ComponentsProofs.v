From Verif Require Import Base Components.

(** Specification: an edge of the adjacency list, and connectivity. *)
Definition aedge (adj : list (list nat)) (a b : nat) : Prop := exists l, adj !! a = Some l /\ b ∈ l.
Definition adj_bounded (adj : list (list nat)) : Prop := forall a b, aedge adj a b -> b < length adj.
Definition adj_symmetric (adj : list (list nat)) : Prop := forall a b, aedge adj a b -> aedge adj b a.

Definition numbered (num : list (option nat)) (w : nat) : Prop := exists d, num !! w = Some (Some d).
Definition nnone (num : list (option nat)) : nat := length (filter (fun o => o = None) num).

#[global] Instance numbered_decision num w : Decision (numbered num w).
Proof.
  destruct (num !! w) as [[d|]|] eqn:H.
  - left. by exists d.
  - right. intros [d Hd]. congruence.
  - right. intros [d Hd]. congruence.
Defined.

Lemma nnone_insert num v d : num !! v = Some None -> S (nnone (<[v := Some d]> num)) = nnone num.
Proof.
  unfold nnone. revert v. induction num as [|o num IH]; intros [|v] H; simplify_eq/=.
  - rewrite filter_cons. rewrite decide_False by done. done.
  - rewrite !filter_cons. case_decide; simpl; rewrite <- (IH v H); done.
Qed.

Section dfs.
  Context (adj : list (list nat)) (Hb : adj_bounded adj) (c : nat).

  Record dpost (start : nat -> Prop) (sz : list nat) (num : list (option nat)) (sz' : list nat) (num' : list (option nat)) : Prop := {
    d_len : length num' = length num;
    d_mono : forall w d, num !! w = Some (Some d) -> num' !! w = Some (Some d);
    d_new : forall w d, num !! w = Some None -> num' !! w = Some (Some d) ->
              d = c /\ exists v, start v /\ rtc (aedge adj) v w;
    d_closed : forall w x, num !! w = Some None -> numbered num' w -> aedge adj w x -> numbered num' x;
    d_sz : exists k, sz !! c = Some k /\ nnone num' <= nnone num /\ sz' = <[c := k + (nnone num - nnone num')]> sz
  }.

  Lemma numbered_None num w : w < length num -> ~ numbered num w -> num !! w = Some None.
  Proof.
    intros Hl Hn. destruct (lookup_lt_is_Some_2 num w Hl) as [[d|] H]; [|done].
    exfalso. apply Hn. by exists d.
  Qed.
  Lemma mono_numbered sz num sz' num' st w : dpost st sz num sz' num' -> numbered num w -> numbered num' w.
  Proof. intros P [d Hd]. exists d. by apply (d_mono _ _ _ _ _ P). Qed.

  Lemma dpost_trans st1 st2 st sz num sz1 num1 sz2 num2 :
    dpost st1 sz num sz1 num1 -> dpost st2 sz1 num1 sz2 num2 ->
    (forall w, (exists v, st1 v /\ rtc (aedge adj) v w) -> exists v, st v /\ rtc (aedge adj) v w) ->
    (forall w, (exists v, st2 v /\ rtc (aedge adj) v w) -> exists v, st v /\ rtc (aedge adj) v w) ->
    dpost st sz num sz2 num2.
  Proof.
    intros P1 P2 H1 H2. split.
    - rewrite (d_len _ _ _ _ _ P2). apply (d_len _ _ _ _ _ P1).
    - intros w d Hw. by apply (d_mono _ _ _ _ _ P2), (d_mono _ _ _ _ _ P1).
    - intros w d Hw Hw'. destruct (decide (numbered num1 w)) as [[d1 Hd1]|Hn].
      + pose proof (d_mono _ _ _ _ _ P2 _ _ Hd1). assert (d = d1) as -> by congruence.
        destruct (d_new _ _ _ _ _ P1 w d1 Hw Hd1) as [-> ?]. split; [done|]. auto.
      + apply numbered_None in Hn. 2:{ rewrite (d_len _ _ _ _ _ P1). by eapply lookup_lt_Some. }
        destruct (d_new _ _ _ _ _ P2 w d Hn Hw') as [-> ?]. auto.
    - intros w x Hw Hw' Hx. destruct (decide (numbered num1 w)) as [Hn|Hn].
      + eapply mono_numbered; [exact P2|]. by apply (d_closed _ _ _ _ _ P1 w x Hw Hn Hx).
      + apply numbered_None in Hn. 2:{ rewrite (d_len _ _ _ _ _ P1). by eapply lookup_lt_Some. }
        by apply (d_closed _ _ _ _ _ P2 w x Hn).
    - destruct (d_sz _ _ _ _ _ P1) as (k1 & Hk1 & L1 & ->). destruct (d_sz _ _ _ _ _ P2) as (k2 & Hk2 & L2 & ->).
      exists k1. split; [done|]. split; [lia|].
      rewrite list_lookup_insert in Hk2 by (by eapply lookup_lt_Some). injection Hk2 as <-.
      rewrite list_insert_insert. f_equal. lia.
  Qed.

  Lemma dpost_refl st sz num k : sz !! c = Some k -> dpost st sz num sz num.
  Proof.
    intros Hk. split; auto.
    - intros w d H1 H2. congruence.
    - intros w x H1 [d H2]. congruence.
    - exists k. split; [done|]. split; [lia|]. rewrite Nat.sub_diag, Nat.add_0_r. by rewrite list_insert_id.
  Qed.

  Lemma dpost_szc st sz num sz' num' : dpost st sz num sz' num' -> is_Some (sz' !! c).
  Proof.
    intros P. destruct (d_sz _ _ _ _ _ P) as (k & Hk & _ & ->).
    rewrite list_lookup_insert; [by eexists|]. by eapply lookup_lt_Some.
  Qed.

  Lemma cc_loop_ok fuel ls sz num :
    (forall v sz num, num !! v = Some None -> length num = length adj -> is_Some (sz !! c) -> nnone num <= fuel ->
       exists sz' num', cc_rec adj c fuel v sz num = Ok (sz', num') /\
         dpost (fun x => x = v) sz num sz' num' /\ numbered num' v) ->
    length num = length adj -> is_Some (sz !! c) -> nnone num <= fuel -> (forall x, x ∈ ls -> x < length adj) ->
    exists sz' num', cc_loop (cc_rec adj c fuel) ls sz num = Ok (sz', num') /\
      dpost (fun x => x ∈ ls) sz num sz' num' /\ forall x, x ∈ ls -> numbered num' x.
  Proof.
    intros IH. revert sz num. induction ls as [|v2 t IHt]; intros sz num Hl Hc Hf Hls.
    - exists sz, num. destruct Hc as [k Hk]. split; [done|]. split; [by eapply dpost_refl|]. set_solver.
    - cbn [cc_loop]. assert (v2 < length num) as Hv2 by (rewrite Hl; apply Hls; set_solver).
      unfold vget. destruct (lookup_lt_is_Some_2 num v2 Hv2) as [[d|] Hn]; rewrite Hn; cbn [result_bind].
      + destruct (IHt sz num Hl Hc Hf) as (sz' & num' & Er & P & Hnum); [set_solver|].
        exists sz', num'. split; [exact Er|]. split.
        * eapply dpost_trans; [| exact P| |].
          { destruct Hc as [k Hk]. exact (dpost_refl (fun _ => False) _ _ k Hk). }
          { naive_solver. }
          { intros w (v & Hv & Hr). exists v. split; [set_solver|done]. }
        * intros x [->|Hx]%elem_of_cons; [|auto]. eapply mono_numbered; [exact P|]. by exists d.
      + destruct (IH v2 sz num Hn Hl Hc Hf) as (sz1 & num1 & E1 & P1 & N1). rewrite E1. cbn [result_bind fst snd].
        destruct (IHt sz1 num1) as (sz' & num' & Er & P & Hnum).
        { rewrite (d_len _ _ _ _ _ P1). done. }
        { by eapply dpost_szc. }
        { destruct (d_sz _ _ _ _ _ P1) as (? & _ & ? & _). lia. }
        { set_solver. }
        exists sz', num'. split; [exact Er|]. split.
        * eapply dpost_trans; [exact P1|exact P| |].
          { intros w (v & -> & Hr). exists v2. split; [set_solver|done]. }
          { intros w (v & Hv & Hr). exists v. split; [set_solver|done]. }
        * intros x [->|Hx]%elem_of_cons; [|auto]. eapply mono_numbered; [exact P|]. done.
  Qed.

  Lemma cc_rec_ok fuel v sz num :
    num !! v = Some None -> length num = length adj -> is_Some (sz !! c) -> nnone num <= fuel ->
    exists sz' num', cc_rec adj c fuel v sz num = Ok (sz', num') /\
      dpost (fun x => x = v) sz num sz' num' /\ numbered num' v.
  Proof.
    revert v sz num. induction fuel as [|fuel IH]; intros v sz num Hv Hl [k Hk] Hf.
    { pose proof (nnone_insert num v 0 Hv). lia. }
    assert (v < length num) as Hlt by (by eapply lookup_lt_Some).
    cbn [cc_rec]. rewrite vset_lt by done. cbn [result_bind].
    rewrite (proj2 (vget_Ok sz c k) Hk). cbn [result_bind].
    rewrite vset_lt by (by eapply lookup_lt_Some). cbn [result_bind].
    destruct (vget_lt adj v) as (ls & Els & Hls); [lia|]. rewrite Els. cbn [result_bind].
    pose proof (nnone_insert num v c Hv) as Hnn.
    destruct (cc_loop_ok fuel ls (<[c:=S k]> sz) (<[v:=Some c]> num) IH) as (sz' & num' & Er & P & Hnum).
    { by rewrite insert_length. }
    { rewrite list_lookup_insert; [by eexists|]. by eapply lookup_lt_Some. }
    { lia. }
    { intros x Hx. apply (Hb v). by exists ls. }
    exists sz', num'. split; [exact Er|]. split.
    - split.
      + rewrite (d_len _ _ _ _ _ P). apply insert_length.
      + intros w d Hw. apply (d_mono _ _ _ _ _ P). rewrite list_lookup_insert_ne; [done|]. congruence.
      + intros w d Hw Hw'. destruct (decide (w = v)) as [->|Hne].
        * assert (num' !! v = Some (Some c)) as Hvc.
          { apply (d_mono _ _ _ _ _ P). by apply list_lookup_insert. }
          split; [congruence|]. exists v. split; [done|]. apply rtc_refl.
        * destruct (d_new _ _ _ _ _ P w d) as [-> (x & Hx & Hr)]; [by rewrite list_lookup_insert_ne|done|].
          split; [done|]. exists v. split; [done|]. eapply rtc_l; [|exact Hr]. by exists ls.
      + intros w x Hw Hw' Hx. destruct (decide (w = v)) as [->|Hne].
        * apply Hnum. destruct Hx as (l & Hl' & Hx). congruence.
        * eapply (d_closed _ _ _ _ _ P); [by rewrite list_lookup_insert_ne|done|done].
      + destruct (d_sz _ _ _ _ _ P) as (k' & Hk' & L & ->).
        rewrite list_lookup_insert in Hk' by (by eapply lookup_lt_Some). injection Hk' as <-.
        exists k. split; [done|]. split; [lia|]. rewrite list_insert_insert. f_equal. lia.
    - exists c. apply (d_mono _ _ _ _ _ P). by apply list_lookup_insert.
  Qed.
End dfs.

(** Number of vertices with number [d]. *)
Definition ncount (num : list (option nat)) (d : nat) : nat := length (filter (fun o => o = Some d) num).

Lemma ncount_zero num d : (forall w, num !! w <> Some (Some d)) -> ncount num d = 0.
Proof.
  unfold ncount. intros H. destruct (filter _ num) as [|o l] eqn:Hf; [done|]. exfalso.
  assert (o ∈ filter (fun o => o = Some d) num) as Ho by (rewrite Hf; set_solver).
  apply elem_of_list_filter in Ho as [-> Ho]. apply elem_of_list_lookup in Ho as [i Hi]. by apply (H i).
Qed.

Lemma ncount_diff num num' c : length num' = length num ->
  (forall w d, num !! w = Some (Some d) -> num' !! w = Some (Some d) /\ d <> c) ->
  (forall w d, num !! w = Some None -> num' !! w = Some (Some d) -> d = c) ->
  ncount num' c + nnone num' = nnone num /\ (forall d, d <> c -> ncount num' d = ncount num d).
Proof.
  unfold ncount, nnone. revert num'. induction num as [|o num IH]; intros [|o' num'] Hl H1 H2; simplify_eq/=; [done|].
  destruct (IH num' Hl) as [IH1 IH2].
  { intros w d Hw. apply (H1 (S w) d Hw). }
  { intros w d Hw Hw'. apply (H2 (S w) d Hw Hw'). }
  pose proof (H1 0) as H1. pose proof (H2 0) as H2. simpl in H1, H2.
  destruct o as [d0|].
  - destruct (H1 d0 eq_refl) as [Ho Hd0]. injection Ho as ->. rewrite !filter_cons.
    rewrite (decide_False (P := Some d0 = None)) by done. rewrite (decide_False (P := Some d0 = Some c)) by congruence.
    split; [done|]. intros d Hd. rewrite !filter_cons. case_decide; simpl; rewrite IH2; auto.
  - rewrite !filter_cons. rewrite (decide_True (P := @None nat = None)) by done.
    destruct o' as [d'|].
    + rewrite (H2 d' eq_refl eq_refl). rewrite (decide_True (P := Some c = Some c)) by done.
      rewrite (decide_False (P := Some c = None)) by done. split; [simpl; lia|].
      intros d Hd. rewrite !filter_cons. rewrite decide_False by congruence. rewrite decide_False by done. by apply IH2.
    + rewrite (decide_False (P := None = Some c)) by done. rewrite (decide_True (P := @None nat = None)) by done.
      split; [simpl; lia|]. intros d Hd. rewrite !filter_cons. rewrite !decide_False by done. by apply IH2.
Qed.

Section outer.
  Context (adj : list (list nat)) (Hb : adj_bounded adj) (Hsym : adj_symmetric adj).

  Record oinv (v c : nat) (sz : list nat) (num : list (option nat)) : Prop := {
    o_len : length num = length adj;
    o_szlen : length sz = length adj;
    o_cv : c <= v;
    o_below : forall w, w < v -> w < length adj -> numbered num w;
    o_lt : forall w d, num !! w = Some (Some d) -> d < c;
    o_closed : forall w x d, num !! w = Some (Some d) -> aedge adj w x -> num !! x = Some (Some d);
    o_conn : forall w x d, num !! w = Some (Some d) -> num !! x = Some (Some d) -> rtc (aedge adj) w x;
    o_used : forall d, d < c -> exists w, num !! w = Some (Some d);
    o_size : forall d, d < length adj -> sz !! d = Some (ncount num d)
  }.

  Lemma rtc_sym a b : rtc (aedge adj) a b -> rtc (aedge adj) b a.
  Proof. induction 1 as [|a b x Hab _ IH]; [apply rtc_refl|]. eapply rtc_r; [exact IH|]. by apply Hsym. Qed.

  Lemma nnone_le num : nnone num <= length num.
  Proof. unfold nnone. apply filter_length. Qed.

  Lemma cc_outer_ok m : forall v c sz num, v + m = length adj -> oinv v c sz num ->
    exists c' sz' num', cc_outer adj (seq v m) c sz num = Ok (c', sz', num') /\ oinv (length adj) c' sz' num'.
  Proof.
    induction m as [|m IH]; intros v c sz num Hvm I.
    - exists c, sz, num. split; [done|]. replace (length adj) with v by lia. done.
    - cbn [seq cc_outer]. unfold vget.
      assert (v < length num) as Hlt by (rewrite (o_len _ _ _ _ I); lia).
      destruct (lookup_lt_is_Some_2 num v Hlt) as [[d|] Hn]; rewrite Hn; cbn [result_bind].
      + apply IH; [lia|]. destruct I. split; auto.
        intros w Hw1 Hw2. destruct (decide (w = v)) as [->|]; [by exists d|]. apply o_below0; lia.
      + assert (c < length adj) as Hc by (pose proof (o_cv _ _ _ _ I); lia).
        destruct (cc_rec_ok adj Hb c (S (length adj)) v sz num Hn) as (sz1 & num1 & E1 & P & N1).
        { apply (o_len _ _ _ _ I). }
        { apply lookup_lt_is_Some_2. by rewrite (o_szlen _ _ _ _ I). }
        { pose proof (nnone_le num). rewrite (o_len _ _ _ _ I) in H. lia. }
        rewrite E1. cbn [result_bind fst snd]. apply IH; [lia|].
        pose proof (d_len _ _ _ _ _ _ _ P) as Hlen.
        (* newly numbered vertices are exactly those with number c *)
        assert (forall w, num1 !! w = Some (Some c) -> num !! w = Some None /\ rtc (aedge adj) v w) as Hc_new.
        { intros w Hw. assert (w < length num) as Hwl by (rewrite <- Hlen; by eapply lookup_lt_Some).
          destruct (lookup_lt_is_Some_2 num w Hwl) as [[d|] Hw0].
          - pose proof (o_lt _ _ _ _ I w d Hw0). apply (d_mono _ _ _ _ _ _ _ P) in Hw0. assert (d = c) by congruence. lia.
          - destruct (d_new _ _ _ _ _ _ _ P w c Hw0 Hw) as [_ (x & -> & Hr)]. done. }
        destruct (ncount_diff num num1 c Hlen) as [Hcnt Hcnt'].
        { intros w d Hw. split; [by apply (d_mono _ _ _ _ _ _ _ P)|]. pose proof (o_lt _ _ _ _ I w d Hw). lia. }
        { intros w d Hw Hw'. by destruct (d_new _ _ _ _ _ _ _ P w d Hw Hw'). }
        split.
        * rewrite Hlen. apply I.
        * destruct (d_sz _ _ _ _ _ _ _ P) as (k & _ & _ & ->). rewrite insert_length. apply I.
        * pose proof (o_cv _ _ _ _ I). lia.
        * intros w Hw1 Hw2. destruct (decide (w = v)) as [->|]; [done|].
          eapply mono_numbered; [exact P|]. apply (o_below _ _ _ _ I); lia.
        * intros w d Hw. assert (w < length num) as Hwl by (rewrite <- Hlen; by eapply lookup_lt_Some).
          destruct (lookup_lt_is_Some_2 num w Hwl) as [[d0|] Hw0].
          -- pose proof (o_lt _ _ _ _ I w d0 Hw0). apply (d_mono _ _ _ _ _ _ _ P) in Hw0.
             assert (d = d0) by congruence. lia.
          -- destruct (d_new _ _ _ _ _ _ _ P w d Hw0 Hw) as [-> _]. lia.
        * intros w x d Hw Hx. assert (w < length num) as Hwl by (rewrite <- Hlen; by eapply lookup_lt_Some).
          destruct (lookup_lt_is_Some_2 num w Hwl) as [[d0|] Hw0].
          -- pose proof (o_closed _ _ _ _ I w x d0 Hw0 Hx) as Hx0.
             apply (d_mono _ _ _ _ _ _ _ P) in Hw0. apply (d_mono _ _ _ _ _ _ _ P) in Hx0. congruence.
          -- destruct (d_new _ _ _ _ _ _ _ P w d Hw0 Hw) as [-> _].
             destruct (d_closed _ _ _ _ _ _ _ P w x Hw0) as [d' Hd']; [by exists c|done|].
             assert (x < length num) as Hxl by (rewrite <- Hlen; by eapply lookup_lt_Some).
             destruct (lookup_lt_is_Some_2 num x Hxl) as [[dx|] Hx0].
             { exfalso. apply Hsym in Hx. pose proof (o_closed _ _ _ _ I x w dx Hx0 Hx). congruence. }
             destruct (d_new _ _ _ _ _ _ _ P x d' Hx0 Hd') as [-> _]. done.
        * intros w x d Hw Hx. destruct (decide (d = c)) as [->|Hne].
          -- apply Hc_new in Hw as [_ Hw]. apply Hc_new in Hx as [_ Hx].
             etrans; [apply rtc_sym; exact Hw|exact Hx].
          -- assert (forall y, num1 !! y = Some (Some d) -> num !! y = Some (Some d)) as Hold.
             { intros y Hy. assert (y < length num) as Hyl by (rewrite <- Hlen; by eapply lookup_lt_Some).
               destruct (lookup_lt_is_Some_2 num y Hyl) as [[d0|] Hy0].
               - rewrite Hy0. apply (d_mono _ _ _ _ _ _ _ P) in Hy0. congruence.
               - exfalso. destruct (d_new _ _ _ _ _ _ _ P y d Hy0 Hy) as [-> _]. done. }
             by apply (o_conn _ _ _ _ I w x d); apply Hold.
        * intros d Hd. destruct (decide (d = c)) as [->|Hne].
          -- destruct N1 as [d Hd1]. destruct (d_new _ _ _ _ _ _ _ P v d Hn Hd1) as [-> _]. by exists v.
          -- destruct (o_used _ _ _ _ I d) as [w Hw]; [lia|]. exists w. by apply (d_mono _ _ _ _ _ _ _ P).
        * intros d Hd. destruct (d_sz _ _ _ _ _ _ _ P) as (k & Hk & Hle & ->).
          destruct (decide (d = c)) as [->|Hne].
          -- rewrite list_lookup_insert by (rewrite (o_szlen _ _ _ _ I); lia). f_equal.
             pose proof (o_size _ _ _ _ I c Hd) as Hk'. rewrite (ncount_zero num c) in Hk'.
             { assert (k = 0) by congruence. lia. }
             intros w Hw. pose proof (o_lt _ _ _ _ I w c Hw). lia.
          -- rewrite list_lookup_insert_ne by done. rewrite Hcnt' by done. by apply I.
  Qed.

  Lemma oinv_init : oinv 0 0 (replicate (length adj) 0) (replicate (length adj) None).
  Proof.
    split; rewrite ?replicate_length; auto; try lia.
    - intros w d Hw. apply lookup_replicate in Hw as [? _]. done.
    - intros w x d Hw. apply lookup_replicate in Hw as [? _]. done.
    - intros w x d Hw. apply lookup_replicate in Hw as [? _]. done.
    - intros d Hd. rewrite lookup_replicate_2 by done. f_equal. symmetry. apply ncount_zero.
      intros w Hw. apply lookup_replicate in Hw as [? _]. done.
  Qed.

  Lemma cc_number_ok : exists c sz num, cc_number adj = Ok (c, sz, num) /\ oinv (length adj) c sz num.
  Proof. apply cc_outer_ok; [lia|]. apply oinv_init. Qed.

  (** ** The final renumbering *)
  Lemma cc_ordered_lookup c p k i : p ≡ₚ seq 0 c -> p !! i = Some k -> cc_ordered c p !! k = Some i.
  Proof.
    intros Hp Hi. unfold cc_ordered.
    assert (NoDup p) as Hnd by (rewrite Hp; apply NoDup_seq).
    assert (forall x, x ∈ p -> x < c) as Hlt. { intros x. rewrite Hp, elem_of_seq. lia. }
    assert (k < c) as Hkc by (apply Hlt; by eapply elem_of_list_lookup_2).
    clear Hp.
    assert (forall b o q j, length o = c -> (forall x, x ∈ q -> x < c) -> NoDup q ->
       (q !! j = Some k -> foldl (fun o ik => <[ik.2:=ik.1]> o) o (zip (seq b (length q)) q) !! k = Some (b + j)) /\
       (k ∉ q -> foldl (fun o ik => <[ik.2:=ik.1]> o) o (zip (seq b (length q)) q) !! k = o !! k)) as H.
    { intros b o q. revert b o. induction q as [|y q IH]; intros b o j Ho Hq Hq'; [done|].
      simpl. apply NoDup_cons in Hq' as [Hy Hq'].
      destruct (IH (S b) (<[y:=b]> o) (pred j)) as [IH1 IH2]; [by rewrite insert_length|set_solver|done|].
      split.
      - destruct j as [|j]; simpl; intros Hj.
        + injection Hj as ->. rewrite IH2 by done. rewrite list_lookup_insert by (rewrite Ho; done). f_equal. lia.
        + simpl in IH1. rewrite (IH1 Hj). f_equal. lia.
      - intros Hk. rewrite IH2 by set_solver. rewrite list_lookup_insert_ne; [done|]. set_solver. }
    destruct (H 0 (replicate c 0) p i) as [H1 _]; [by rewrite replicate_length|done|done|]. by apply H1.
  Qed.

  Lemma cc_ordered_lookup_inv c p k i : p ≡ₚ seq 0 c -> k < c -> cc_ordered c p !! k = Some i -> p !! i = Some k.
  Proof.
    intros Hp Hk Hi. assert (k ∈ p) as Hin by (rewrite Hp, elem_of_seq; lia).
    apply elem_of_list_lookup in Hin as [j Hj]. pose proof (cc_ordered_lookup c p k j Hp Hj). congruence.
  Qed.

  Lemma finish_sizes (c : nat) (sz p : list nat) : p ≡ₚ seq 0 c -> c <= length sz ->
    foldl (fun acc comp => let! s := acc in let! i := vget (cc_ordered c p) comp in let! n := vget sz comp in vset s i n)
      (Ok (resize c 0 sz)) p = Ok (map (fun k => default 0 (sz !! k)) p).
  Proof.
    intros Hp Hc.
    assert (length p = c) as Hpl by (rewrite Hp; apply seq_length).
    assert (forall q1 q2 s, p = q1 ++ q2 -> length s = c -> take (length q1) s = map (fun k => default 0 (sz !! k)) q1 ->
      foldl (fun acc comp => let! s := acc in let! i := vget (cc_ordered c p) comp in let! n := vget sz comp in vset s i n)
      (Ok s) q2 = Ok (map (fun k => default 0 (sz !! k)) p)) as H.
    { intros q1 q2. revert q1. induction q2 as [|y q2 IH]; intros q1 s Hq Hs Ht.
      - simpl. f_equal. rewrite app_nil_r in Hq. subst q1. rewrite <- Ht. rewrite take_ge; [done|lia].
      - cbn [foldl]. assert (p !! length q1 = Some y) as Hy. { rewrite Hq. by apply list_lookup_middle. }
        cbn [result_bind]. rewrite (proj2 (vget_Ok _ _ _) (cc_ordered_lookup c p y _ Hp Hy)). cbn [result_bind].
        assert (y < c) as Hyc. { assert (y ∈ p) as Hyp by (by eapply elem_of_list_lookup_2). rewrite Hp, elem_of_seq in Hyp. lia. }
        destruct (vget_lt sz y) as (n & En & Hn); [lia|]. rewrite En. cbn [result_bind].
        assert (length q1 < c) as Hql. { rewrite <- Hpl, Hq, app_length. simpl. lia. }
        rewrite vset_lt by lia.
        apply (IH (q1 ++ [y])).
        + by rewrite <- app_assoc.
        + by rewrite insert_length.
        + rewrite app_length, map_app. simpl. rewrite Hn. simpl.
          rewrite Nat.add_1_r. rewrite (take_S_r _ _ n).
          * rewrite take_insert by lia. by rewrite Ht.
          * apply list_lookup_insert. lia. }
    apply (H []); [done| |done]. rewrite resize_length. done.
  Qed.

  Lemma finish_nums (ord : list nat) (num : list (option nat)) :
    (forall w, w < length num -> exists d, num !! w = Some (Some d) /\ d < length ord) ->
    exists num', foldr (fun n acc => let! a := acc in
                          match n with None => UB | Some k => let! o := vget ord k in Ok (Some o :: a) end) (Ok []) num = Ok num' /\
      length num' = length num /\
      forall w d, num !! w = Some (Some d) -> exists o, ord !! d = Some o /\ num' !! w = Some (Some o).
  Proof.
    induction num as [|o num IH]; intros H.
    - exists []. done.
    - destruct IH as (num' & E & L & N). { intros w Hw. destruct (H (S w)) as [d Hd]; [simpl; lia|]. by exists d. }
      simpl. rewrite E. cbn [result_bind]. destruct (H 0) as (d & Hd & Hdl); [simpl; lia|]. simpl in Hd. injection Hd as ->.
      destruct (vget_lt ord d Hdl) as (x & E2 & Hx). rewrite E2. cbn [result_bind].
      exists (Some x :: num'). split; [done|]. split; [simpl; lia|].
      intros [|w] d' Hw; simpl in *; [|by apply N]. injection Hw as ->. by exists x.
  Qed.

  Lemma ord_length c p : length (cc_ordered c p) = c.
  Proof.
    unfold cc_ordered. assert (forall l o, length (foldl (fun o (ik : nat * nat) => <[ik.2 := ik.1]> o) o l) = length o) as H.
    { induction l as [|x l IHl]; intros o; [done|]. simpl. rewrite IHl. apply insert_length. }
    rewrite H. apply replicate_length.
  Qed.

  Lemma ncount_transport (num num' : list (option nat)) d i : length num' = length num ->
    (forall w, num !! w = Some (Some d) <-> num' !! w = Some (Some i)) -> ncount num d = ncount num' i.
  Proof.
    unfold ncount. revert num'. induction num as [|o num IH]; intros [|o' num'] Hl H; simplify_eq/=; [done|].
    assert (o = Some d <-> o' = Some i) as H0. { specialize (H 0). simpl in H. split; intros ->; naive_solver. }
    assert (length (filter (fun o => o = Some d) num) = length (filter (fun o => o = Some i) num')) as IH'.
    { apply (IH num' Hl). intros w. apply (H (S w)). }
    rewrite !filter_cons.
    destruct (decide (o = Some d)); destruct (decide (o' = Some i)); simpl; [lia|naive_solver|naive_solver|lia].
  Qed.

  Lemma ncount_sum num c : (forall w, w < length num -> exists d, num !! w = Some (Some d) /\ d < c) ->
    sum_list (map (ncount num) (seq 0 c)) = length num.
  Proof.
    induction num as [|o num IH]; intros H; simpl.
    - clear. generalize 0 at 1. induction c as [|c IHc]; intros b; [done|]. simpl. apply (IHc (S b)).
    - assert (exists d, o = Some d /\ d < c) as (d & -> & Hd).
      { destruct (H 0) as (d & Hd & Hdc); [simpl; lia|]. simpl in Hd. exists d. by injection Hd. }
      rewrite <- IH. 2:{ intros w Hw. apply (H (S w)). simpl; lia. }
      clear IH H. assert (forall b, sum_list (map (ncount (Some d :: num)) (seq b c)) =
         (if decide (b <= d < b + c) then 1 else 0) + sum_list (map (ncount num) (seq b c))) as Hx.
      { clear Hd. induction c as [|c IHc]; intros b; simpl.
        - case_decide; [lia|done].
        - rewrite IHc. unfold ncount at 1. rewrite filter_cons. fold (ncount num b).
          destruct (decide (Some d = Some b)) as [Hdb|Hdb].
          + injection Hdb as ->. rewrite decide_False by lia. rewrite decide_True by lia. simpl. unfold ncount. lia.
          + assert (d <> b) by congruence. unfold ncount at 2.
            destruct (decide (S b <= d < S b + c)); destruct (decide (b <= d < b + S c)); unfold ncount; lia. }
      rewrite Hx. rewrite decide_True by lia. done.
  Qed.

  (** Existence of a sorted order: insertion sort. *)
  Lemma sorted_components_exists r : exists p, sorted_components r p.
  Proof.
    destruct r as [[c sz] num]. unfold sorted_components.
    set (R := fun a b => default 0 (sz !! b) <= default 0 (sz !! a)).
    assert (forall x l, StronglySorted R l -> exists l', l' ≡ₚ x :: l /\ StronglySorted R l') as Hins.
    { intros x l. induction 1 as [|y l Hs IH Hf].
      - exists [x]. split; [done|]. repeat constructor.
      - destruct (decide (default 0 (sz !! y) <= default 0 (sz !! x))) as [Hxy|Hxy].
        + exists (x :: y :: l). split; [done|]. constructor; [by constructor|]. constructor; [done|].
          eapply Forall_impl; [exact Hf|]. unfold R in *. intros; simpl in *; lia.
        + destruct IH as (l' & Hp & Hs'). exists (y :: l'). split; [rewrite Hp; apply Permutation_swap|].
          constructor; [done|]. rewrite Hp. constructor; [unfold R in *; lia|done]. }
    generalize 0. induction c as [|c IH]; intros b.
    - exists []. split; [done|constructor].
    - destruct (IH (S b)) as (p & Hp & Hs). destruct (Hins b p Hs) as (p' & Hp' & Hs').
      exists p'. split; [|done]. rewrite Hp', Hp. done.
  Qed.

  Record cc_spec (num : list (option nat)) (sz : list nat) : Prop := {
    cs_len : length num = length adj;
    cs_num : forall a, a < length adj -> exists k, num !! a = Some (Some k) /\ k < length sz;
    cs_conn : forall a b, a < length adj -> b < length adj -> (num !! a = num !! b <-> rtc (aedge adj) a b);
    cs_used : forall k, k < length sz -> exists a, num !! a = Some (Some k);
    cs_size : forall k n, sz !! k = Some n -> n = ncount num k;
    cs_sum : sum_list sz = length adj;
    cs_sorted : forall i j n m, i <= j -> sz !! i = Some n -> sz !! j = Some m -> m <= n
  }.

  Lemma rtc_same c sz num a b d : oinv (length adj) c sz num -> num !! a = Some (Some d) -> rtc (aedge adj) a b ->
    num !! b = Some (Some d).
  Proof. intros I Ha Hr. revert Ha. induction Hr as [|x y z Hxy _ IH]; [done|]. intros Hx. apply IH. by eapply o_closed. Qed.

  Lemma cc_finish_ok c sz num p : oinv (length adj) c sz num -> sorted_components (c, sz, num) p ->
    exists num' sz', cc_finish p (c, sz, num) = Ok (num', sz') /\ cc_spec num' sz'.
  Proof.
    intros I [Hp Hs].
    assert (length p = c) as Hpl by (rewrite Hp; apply seq_length).
    assert (c <= length adj) as Hcl by apply (o_cv _ _ _ _ I).
    assert (forall w, w < length num -> exists d, num !! w = Some (Some d) /\ d < c) as Hall.
    { intros w Hw. rewrite (o_len _ _ _ _ I) in Hw. destruct (o_below _ _ _ _ I w Hw Hw) as [d Hd].
      exists d. split; [done|]. by apply (o_lt _ _ _ _ I w d). }
    destruct (finish_nums (cc_ordered c p) num) as (num' & E & L & N).
    { intros w Hw. rewrite ord_length. by apply Hall. }
    exists num', (map (fun k => default 0 (sz !! k)) p).
    split. { unfold cc_finish. rewrite (finish_sizes c sz p Hp) by (rewrite (o_szlen _ _ _ _ I); done).
             cbn [result_bind]. rewrite E. done. }
    (* correspondence between old and new numbers *)
    assert (forall w d i, p !! i = Some d -> num !! w = Some (Some d) <-> num' !! w = Some (Some i)) as Hcor.
    { intros w d i Hi. split.
      - intros Hw. destruct (N w d Hw) as (o & Ho & Hw'). rewrite (cc_ordered_lookup c p d i Hp Hi) in Ho. congruence.
      - intros Hw'. assert (w < length num) as Hwl by (rewrite <- L; by eapply lookup_lt_Some).
        destruct (Hall w Hwl) as (d' & Hd' & Hdc). destruct (N w d' Hd') as (o & Ho & Hw'').
        assert (o = i) by congruence. subst o.
        apply (cc_ordered_lookup_inv c p d' i Hp Hdc) in Ho. congruence. }
    assert (forall k n, map (fun k => default 0 (sz !! k)) p !! k = Some n -> n = ncount num' k) as Hsize.
    { intros k n Hk. apply list_lookup_fmap_inv in Hk as (d & -> & Hd).
      assert (d < c) as Hdc. { assert (d ∈ p) as Hx by (by eapply elem_of_list_lookup_2). rewrite Hp, elem_of_seq in Hx. lia. }
      rewrite (o_size _ _ _ _ I d) by lia. simpl. apply ncount_transport; [done|]. intros w. by apply Hcor. }
    split.
    - rewrite L. apply I.
    - intros a Ha. rewrite <- (o_len _ _ _ _ I) in Ha. destruct (Hall a Ha) as (d & Hd & Hdc).
      destruct (N a d Hd) as (o & Ho & Ha'). exists o. split; [done|]. rewrite map_length.
      apply (cc_ordered_lookup_inv c p d o Hp Hdc) in Ho. by eapply lookup_lt_Some.
    - intros a b Ha Hb'. rewrite <- (o_len _ _ _ _ I) in Ha, Hb'.
      destruct (Hall a Ha) as (d & Hd & Hdc). destruct (Hall b Hb') as (d' & Hd' & Hdc').
      destruct (N a d Hd) as (o & Ho & Hao). destruct (N b d' Hd') as (o' & Ho' & Hbo). split.
      + intros He. assert (o = o') by congruence. subst o'.
        apply (cc_ordered_lookup_inv c p d o Hp Hdc) in Ho. apply (cc_ordered_lookup_inv c p d' o Hp Hdc') in Ho'.
        assert (d = d') by congruence. subst d'. by apply (o_conn _ _ _ _ I a b d).
      + intros Hr. pose proof (rtc_same _ _ _ _ _ _ I Hd Hr). assert (d = d') by congruence. subst. congruence.
    - intros k Hk. rewrite map_length in Hk. destruct (lookup_lt_is_Some_2 p k Hk) as [d Hd].
      assert (d < c) as Hdc. { assert (d ∈ p) as Hx by (by eapply elem_of_list_lookup_2). rewrite Hp, elem_of_seq in Hx. lia. }
      destruct (o_used _ _ _ _ I d Hdc) as [w Hw]. exists w. by apply (Hcor w d k).
    - done.
    - rewrite <- (o_len _ _ _ _ I), <- L, <- (ncount_sum num' c).
      + f_equal. apply list_eq. intros i. rewrite !list_lookup_fmap.
        destruct (decide (i < c)) as [Hi|Hi].
        * rewrite lookup_seq_lt by done. destruct (lookup_lt_is_Some_2 p i) as [d Hd]; [lia|].
          simpl. rewrite Hd. simpl. f_equal. apply Hsize. by rewrite list_lookup_fmap, Hd.
        * rewrite lookup_seq_ge by lia. rewrite lookup_ge_None_2 by lia. done.
      + intros w Hw. rewrite L in Hw. destruct (Hall w Hw) as (d & Hd & Hdc). destruct (N w d Hd) as (o & Ho & Hw').
        exists o. split; [done|]. rewrite <- Hpl. apply (cc_ordered_lookup_inv c p d o Hp Hdc) in Ho. by eapply lookup_lt_Some.
    - intros i j n m Hij Hi Hj. apply list_lookup_fmap_inv in Hi as (a & -> & Ha).
      apply list_lookup_fmap_inv in Hj as (b & -> & Hbb).
      destruct (decide (i = j)) as [->|]; [assert (a = b) by congruence; subst; done|].
      clear - Hs Ha Hbb Hij n. revert i j Ha Hbb Hij n.
      induction Hs as [|x l Hs IH Hf]; intros i j Ha Hbb Hij Hne; [done|].
      destruct j as [|j]; [lia|]. destruct i as [|i]; simpl in *.
      + injection Ha as ->. rewrite Forall_forall in Hf. apply Hf. by eapply elem_of_list_lookup_2.
      + apply (IH i j Ha Hbb); lia.
  Qed.

  Lemma cc_result_ok num sz : cc_result adj num sz -> cc_spec num sz.
  Proof.
    intros (r & p & Hr & Hp & Hf). destruct cc_number_ok as (c & sz0 & num0 & E & I).
    rewrite E in Hr. injection Hr as <-. destruct (cc_finish_ok c sz0 num0 p I Hp) as (n' & s' & E' & S). congruence.
  Qed.

  Lemma cc_total : exists r, cc_number adj = Ok r /\ (exists p, sorted_components r p) /\
    forall p, sorted_components r p -> exists res, cc_finish p r = Ok res.
  Proof.
    destruct cc_number_ok as (c & sz0 & num0 & E & I). exists (c, sz0, num0). split; [done|].
    split; [apply sorted_components_exists|]. intros p Hp.
    destruct (cc_finish_ok c sz0 num0 p I Hp) as (n' & s' & E' & _). by exists (n', s').
  Qed.
End outer.

(** ** The adjacency list built by the components managers *)
Definition linked (links : list (option nat * option nat)) (a b : nat) : Prop :=
  (Some a, Some b) ∈ links \/ (Some b, Some a) ∈ links.

Lemma acm_add_length adj l : length (acm_add_link adj l) = length adj.
Proof. destruct l as [[b1|] [b2|]]; simpl; [|done|done|done]. by rewrite !alter_length. Qed.

Lemma aedge_alter adj v x a b : aedge (alter (fun l => l ++ [x]) v adj) a b <->
  aedge adj a b \/ (a = v /\ b = x /\ v < length adj).
Proof.
  unfold aedge. destruct (decide (a = v)) as [->|Hne].
  - rewrite list_lookup_alter. destruct (adj !! v) as [l|] eqn:Hv; simpl.
    + apply lookup_lt_Some in Hv as Hlt. split.
      * intros (l' & [= <-] & Hb). apply elem_of_app in Hb as [Hb|Hb]; [left; eauto|]. right. set_solver.
      * intros [(l' & [= <-] & Hb)|(_ & -> & _)]; eexists; (split; [done|]); set_solver.
    + apply lookup_ge_None in Hv. split; [naive_solver|]. intros [(?&?&?)|(_&_&?)]; [done|lia].
  - rewrite list_lookup_alter_ne by done. naive_solver.
Qed.

Lemma acm_fill_edge n links a b :
  Forall (fun l => (forall x, l.1 = Some x -> x < n) /\ (forall x, l.2 = Some x -> x < n)) links ->
  length (acm_fill n links) = n /\ (aedge (acm_fill n links) a b <-> linked links a b).
Proof.
  unfold acm_fill. intros H.
  assert (forall adj, length adj = n ->
    length (foldl acm_add_link adj links) = n /\
    (aedge (foldl acm_add_link adj links) a b <-> aedge adj a b \/ linked links a b)) as Hg.
  { induction links as [|l links IH]; intros adj Hl.
    - simpl. split; [done|]. unfold linked. set_solver.
    - apply Forall_cons in H as [[Hl1 Hl2] H]. simpl.
      destruct (IH H (acm_add_link adj l)) as [L E]; [by rewrite acm_add_length|].
      split; [done|]. rewrite E. clear E IH. unfold linked.
      destruct l as [[b1|] [b2|]]; simpl in *; [|set_solver|set_solver|set_solver].
      rewrite !aedge_alter, alter_length. rewrite !elem_of_cons.
      specialize (Hl1 b1 eq_refl). specialize (Hl2 b2 eq_refl). rewrite <- Hl in Hl1, Hl2.
      naive_solver. }
  destruct (Hg (replicate n [])) as [L E]; [by rewrite replicate_length|]. split; [done|].
  rewrite E. split; [|auto]. intros [(l & Hl & Hb)|?]; [|done].
  apply lookup_replicate in Hl as [-> _]. set_solver.
Qed.
