From stdpp Require Import gmap relations.
From Verif Require Import Base Equip Components ComponentsProofs CompNetSpec CompNetProofs CompNetLinks CompNetInv CompNetStep.

Section query.
  Context (order : nat * list nat * list (option nat) -> list nat) (sorted : forall r, sorted_components r (order r)).

  Lemma known_component hv s v num sz b o : cwf s -> cres hv s v num sz -> right_component hv s v num b o -> is_Some o <-> energised s v b.
  Proof.
    intros W R H. rewrite <- (bview_energised s v b W). split.
    - intros [k Hk]. apply H in Hk as (i & (c & Hc & Hb) & _). exists c. split; [|done]. by eapply elem_of_list_lookup_2.
    - intros (c & Hc & Hb). apply elem_of_list_lookup in Hc as [i Hi]. destruct (r_num _ _ _ _ _ R i) as (k & Hk & _); [by eapply lookup_lt_Some|].
      exists k. apply H. exists i. split; [by exists c|done].
  Qed.
  Lemma holds_fun s v i j b : cwf s -> holds (bview s v) i b -> holds (bview s v) j b -> i = j.
  Proof. intros W (c & Hc & Hb) (d & Hd & Hb'). by eapply (bview_disjoint s v W). Qed.
  Lemma holds_lt s v i b : holds (bview s v) i b -> i < length (bview s v).
  Proof. intros (c & Hc & _). by eapply lookup_lt_Some. Qed.
  Lemma holds_energised s v i b : cwf s -> holds (bview s v) i b -> energised s v b.
  Proof. intros W (c & Hc & Hb). apply (bview_energised s v b W). exists c. split; [by eapply elem_of_list_lookup_2|done]. Qed.
  Lemma slot_true s b : slot s b = true <-> askable s b.
  Proof.
    unfold slot, askable. rewrite bool_decide_eq_true, Exists_exists. split.
    - intros [?|([e [k bs]] & Hin & Hb)] Hn; [done|]. apply elem_of_map_to_list in Hin. exists e, k, bs. done.
    - intros H. destruct (decide (b ∈ cs_node s)) as [Hn|?]; [|by left]. right. destruct (H Hn) as (e & k & bs & He & Hb). exists (e, (k, bs)). split; [by apply elem_of_map_to_list|done].
  Qed.
  Lemma on_slot s v e i k b : on_bus s v e i k b -> slot s b = true.
  Proof. intros (bs & He & Hi & _). apply slot_true. intros _. exists e, k, bs. split; [done|]. by eapply elem_of_list_lookup_2. Qed.
  Lemma same_component hv s v num sz a b i j : cwf s -> cres hv s v num sz -> holds (bview s v) i a -> holds (bview s v) j b ->
    (num !! i = num !! j <-> electrical hv s v a b).
  Proof.
    intros W R Hi Hj. rewrite (r_same _ _ _ _ _ R i j) by eauto using holds_lt. split.
    - intros H. by eapply plink_electrical.
    - intros H. destruct (electrical_plink hv s v a b W H (holds_energised s v j b W Hj) i Hi) as (j' & Hj' & HR). by rewrite (holds_fun s v j j' b).
  Qed.
  Lemma component_eq hv s v num sz a b o o' : cwf s -> cres hv s v num sz -> right_component hv s v num a o -> right_component hv s v num b o' ->
    energised s v a -> (o = o' <-> electrical hv s v a b /\ energised s v b).
  Proof.
    intros W R Ha Hb Hen. apply (known_component hv s v num sz a o W R Ha) in Hen as [k Hk]. pose proof (proj1 (Ha k) Hk) as (i & Hi & Hnum). split.
    - intros <-. apply Hb in Hk as (j & Hj & Hnum'). split; [|by eapply holds_energised]. eapply (same_component hv s v num sz a b i j); try done. congruence.
    - intros [H He]. destruct (electrical_plink hv s v a b W H He i Hi) as (j & Hj & _). rewrite Hk. symmetry. apply Hb. exists j. split; [done|].
      rewrite <- Hnum. symmetry. by eapply same_component.
  Qed.

  Lemma bview_nonempty s v c : c ∈ bview s v -> exists x, x ∈ c.
  Proof. intros (p & Hp & Hin)%bview_in. apply vl_view_in in Hin as (x & Hx & -> & _). exists x. apply elem_of_list_filter. split; [apply eqv_refl|done]. Qed.
  Lemma bview_terminal s v c : c ∈ bview s v -> exists b, b ∈ c /\ slot s b = true.
  Proof.
    intros (p & Hp & Hin)%bview_in. apply vl_view_in in Hin as (x & Hx & Ec & Hv). apply valid_some in Hv as (e & i & k & b & Hb & Ho). exists b. split; [done|]. by eapply on_slot.
  Qed.
  Lemma view_ok m hv s c : forall v, covers m hv -> cinv order (covers m) s v -> cwf s -> c ∈ bview s v ->
    exists v' num sz k, view_component order hv s c v = (Ok (Some k), v') /\ cinv order (covers m) s v' /\ vsame v v' /\ compute order hv s v (bview s v) = Ok (num, sz) /\
      comps hv v' = sz /\ cres hv s v num sz /\ exists b, b ∈ c /\ right_component hv s v num b (Some k).
  Proof.
    intros v Hm I W Hin. assert (forall b, b ∈ c -> energised s v b) as He by (intros b Hb; apply (bview_energised s v b W); eauto).
    assert (exists b, b ∈ c /\ slot s b = true /\ view_component order hv s c v =
      match bus_component order hv s b v with (Ok None, v') => if node_class s c then (Ok None, v') else merged_component order hv s (tail c) v' | r => r end) as (b & Hb & Hsl & ->).
    { unfold view_component. destruct (node_class s c) eqn:Hn.
      - destruct (bview_terminal s v c Hin) as (b & Hb & Hsl). unfold calculated_component.
        destruct (list_find_elem_of (fun b => slot s b = true) c b Hb Hsl) as [[i y] E]. rewrite E. apply list_find_Some in E as (Hi & Hy & _).
        exists y. split; [by eapply elem_of_list_lookup_2|]. split; [done|]. by destruct (bus_component order hv s y v) as [[[k|]| | |] v'].
      - destruct (bview_nonempty s v c Hin) as [x Hx]. destruct c as [|b c]; [by apply elem_of_nil in Hx|]. exists b. split; [left|]. split.
        + apply slot_true. intros Hb. exfalso. apply not_true_iff_false in Hn. apply Hn, node_class_spec. exists b. split; [left|done].
        + cbn [merged_component tail]. by destruct (bus_component order hv s b v) as [[[k|]| | |] v']. }
    destruct (bus_component_ok order sorted (covers m) hv s v b Hm I W Hsl) as (v1 & num & sz & o & E1 & I1 & S1 & Ec & C & R & H1). rewrite E1.
    destruct (proj2 (known_component hv s v num sz b o W R H1)) as [k ->]; [by apply He|].
    exists v1, num, sz, k. split_and!; try done; try apply S1. exists b. done.
  Qed.
  Lemma buses_of_ok m hv s k : forall l n v num sz, covers m hv -> cinv order (covers m) s v -> cwf s -> compute order hv s v (bview s v) = Ok (num, sz) ->
    drop n (bview s v) = l -> exists r v', buses_of order hv s k l v = (Ok r, v') /\ cinv order (covers m) s v' /\ vsame v v' /\
      (forall c, c ∈ r <-> exists j, n <= j /\ bview s v !! j = Some c /\ num !! j = Some (Some k)) /\ length r = length (filter (fun o => o = Some k) (drop n num)).
  Proof.
    induction l as [|c l IH]; intros n v num sz Hm I W Ec Hd.
    - exists [], v. split; [done|]. split; [done|]. split; [done|]. assert (length (bview s v) <= n) as Hn. { assert (length (drop n (bview s v)) = 0) by (by rewrite Hd). rewrite drop_length in *. lia. }
      destruct (compute_ok order sorted hv s v W) as (num' & sz' & Ec' & R). rewrite Ec in Ec'. injection Ec' as <- <-. split.
      + intros c. split; [by intros ?%elem_of_nil|]. intros (j & Hj & Hc & _). apply lookup_lt_Some in Hc. lia.
      + rewrite drop_ge by (rewrite (r_len _ _ _ _ _ R); lia). done.
    - assert (bview s v !! n = Some c) as Hn. { rewrite <- (Nat.add_0_r n), <- lookup_drop, Hd. done. }
      assert (c ∈ bview s v) as Hin by (by eapply elem_of_list_lookup_2).
      destruct (compute_ok order sorted hv s v W) as (num' & sz' & Ec' & R). rewrite Ec in Ec'. injection Ec' as <- <-.
      destruct (view_ok m hv s c v Hm I W Hin) as (v1 & num' & sz' & k' & E1 & I1 & S1 & Ec1 & _ & _ & b & Hb & Hk).
      rewrite Ec in Ec1. injection Ec1 as <- <-.
      destruct (proj1 (Hk k') eq_refl) as (n' & (c' & Hc' & Hb') & Hk'). assert (n' = n) as -> by (by eapply (bview_disjoint s v W)).
      assert (drop (S n) (bview s v) = l) as Hd'. { change (S n) with (1 + n). rewrite Nat.add_comm, <- drop_drop, Hd. done. }
      destruct (IH (S n) v1 num sz Hm I1 W) as (r & v2 & E2 & I2 & S2 & Hr & Hl).
      { by rewrite (bview_same s v v1 S1), (compute_same order hv s v v1 _ S1). }
      { by rewrite (bview_same s v v1 S1). }
      cbn. rewrite E1. cbn. rewrite E2. cbn. eexists _, v2. split; [done|]. split; [done|]. split; [by eapply vsame_trans|].
      rewrite (bview_same s v v1 S1) in Hr. rewrite (drop_S num (Some k') n) by done. rewrite filter_cons. split.
      + intros d. case_bool_decide as Heq.
        * rewrite elem_of_cons, Hr. split.
          -- intros [->|(j & Hj & ?)]; [exists n; split; [lia|]; split; [done|]; congruence|]. exists j. split; [lia|done].
          -- intros (j & Hj & Hd1 & Hd2). destruct (decide (j = n)) as [->|Hne]; [left; congruence|]. right. exists j. split; [lia|done].
        * rewrite Hr. split.
          -- intros (j & Hj & ?). exists j. split; [lia|done].
          -- intros (j & Hj & Hd1 & Hd2). exists j. split; [|done]. destruct (decide (j = n)) as [->|]; [congruence|lia].
      + case_bool_decide as Heq; [rewrite decide_True by done|rewrite decide_False by done]; cbn; lia.
  Qed.
End query.
