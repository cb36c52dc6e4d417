(** Properties C12, C13, C14 and C26: ids, aliases, the index, generated ids. *)
From stdpp Require Import gmap pretty.
From Verif Require Import Base NetIndex NetIndexSpec NetIndexProofs.

(** ** C12 *)
(** Every history of creations, removals, alias additions and removals of the index is a history of the specification
    (a plain set of live objects with names) with the same accepted/refused outcomes, and all the lookups and listings
    answer as the specification does.  [IBroken] is no outcome of the specification: there is no undefined behaviour. *)
Theorem C12_index_refines_spec id ops rs ix : id <> "" -> irun (ix_init id) ops rs ix ->
  exists sp, sp_irun (sp_iinit id) ops (map ioutcome rs) sp /\ lookups_agree ix sp.
Proof.
  intros Hid H. pose proof (ix_init_wf id Hid) as W. destruct (refine_run _ _ _ _ _ H W (vw_init id)) as (sp & Hsp & V).
  exists sp. split; [done|]. apply vw_lookups; [by eapply irun_wf|done].
Qed.
(** In the specification a name never designates two objects. *)
Theorem C12_names_unambiguous id ops outs sp s p q : sp_irun (sp_iinit id) ops outs sp -> names sp s p -> names sp s q -> p = q.
Proof.
  intros H. assert (sp_wf sp) as W; [|by apply W]. remember (sp_iinit id) as sp0 eqn:E0.
  induction H as [|sp0 ops outs sp1 o out sp2 _ IH Hs]; [subst; apply sp_init_wf|]. by eapply sp_step_wf; [apply IH|].
Qed.
(** The same said of the index alone. *)
Theorem C12_ids_unique ix p q o o' : ireach ix -> ix_heap ix !! p = Some o -> ix_heap ix !! q = Some o' -> o_id o = o_id o' -> p = q.
Proof. intros W%ireach_wf Hp Hq E. pose proof (w_heap _ W _ _ Hp). pose proof (w_heap _ W _ _ Hq). congruence. Qed.
Theorem C12_found_by_id ix p o : ireach ix -> ix_heap ix !! p = Some o -> ix_find ix (o_id o) = Ok (Some p).
Proof.
  intros W%ireach_wf Hp. assert (designates ix (o_id o) p) as Hd by (exists o; auto).
  destruct (ix_find_spec ix (o_id o) W) as [(q & E & Hq)|[(_ & _ & H)|(_ & _ & H)]]; [|by destruct (H p)..].
  by rewrite (designates_unique ix (o_id o) p q).
Qed.
Theorem C12_no_dangling ix s p : ireach ix -> ix_find ix s = Ok (Some p) -> is_Some (ix_heap ix !! p).
Proof.
  intros W%ireach_wf H. destruct (ix_find_spec ix s W) as [(q & E & (o & Ho & _))|[(E & _)|([m E] & _)]]; [|congruence..].
  assert (p = q) as -> by congruence. eauto.
Qed.
Theorem C12_removed_not_found ix p o ix' : ireach ix -> ix_heap ix !! p = Some o -> p <> 0 -> ix_remove ix p = (Ok tt, ix') ->
  ix_find ix' (o_id o) = Ok None /\ (forall s, ix_find ix' s <> Ok (Some p)) /\ (forall ty, p ∉ ix_all ix' ty) /\
  forall s q, q <> p -> ix_find ix' s = Ok (Some q) <-> ix_find ix s = Ok (Some q).
Proof.
  intros W%ireach_wf Ho Hp H. destruct (ix_remove_ok ix p o W Ho) as (ix1 & E & W' & Eh). assert (ix1 = ix') as -> by congruence.
  assert (forall s q, designates ix' s q <-> q <> p /\ designates ix s q) as Hd.
  { intros s q. unfold designates. rewrite Eh. setoid_rewrite lookup_delete_Some. split.
    - intros (r & [? ?] & ?). eauto.
    - intros [? (r & ? & ?)]. exists r. auto. }
  assert (forall ix s q, iwf ix -> ix_find ix s = Ok (Some q) <-> designates ix s q) as Hf.
  { clear. intros ix s q W. destruct (ix_find_spec ix s W) as [(r & E & Hr)|[(E & _ & Hn)|([m E] & _ & Hn)]]; rewrite E.
    - split; [intros [= <-]; done|]. intros Hq. by rewrite (designates_unique ix s q r).
    - split; [done|]. intros Hq. by destruct (Hn q).
    - split; [done|]. intros Hq. by destruct (Hn q). }
  split; [|split; [|split]].
  - pose proof (w_heap _ W _ _ Ho) as Hb. destruct (ix_find_spec ix' (o_id o) W') as [(r & _ & Hr)|[(E' & _)|(_ & Hs & _)]].
    + exfalso. apply Hd in Hr as [Hne Hr]. apply Hne. apply (designates_unique ix (o_id o)); [done|done|]. exists o. auto.
    + done.
    + rewrite Hs, (w_empty _ W) in Hb. done.
  - intros s Hs. apply Hf in Hs; [|done]. by apply Hd in Hs as [? _].
  - intros ty Hin. apply (w_type _ W') in Hin as (r & Hr & _). rewrite Eh, lookup_delete in Hr. done.
  - intros s q Hne. rewrite !Hf by done. rewrite Hd. naive_solver.
Qed.

(** ** C13 *)
(** An accepted alias resolves to its object and changes no other name. *)
Theorem C13_alias_resolves ix p o a ty ix' : ireach ix -> ix_heap ix !! p = Some o -> ix_add_alias ix p a ty false = (Ok tt, ix') ->
  ix_find ix' a = Ok (Some p) /\ forall s, s <> a -> ix_find ix' s = ix_find ix s.
Proof.
  intros W%ireach_wf Ho H. destruct (ix_add_alias_ok ix p o a ty false W Ho) as [(u & ix1 & E & W' & (Eh & Ea & Eb) & Hno & _ & ->)|[(E & _ & Hd & _)|(m & E & _)]].
  - assert (ix1 = ix') as -> by congruence. unfold ix_find. rewrite Ea, Eb. split.
    + rewrite lookup_insert. simpl. rewrite (w_heap _ W _ _ Ho). rewrite bool_decide_false; [done|].
      intros Hs. pose proof (w_heap _ W _ _ Ho) as Hb. rewrite Hs, (w_empty _ W) in Hb. done.
    + intros s Hs. by rewrite lookup_insert_ne.
  - assert (ix = ix') as <- by congruence. split; [|done].
    destruct (ix_find_spec ix a W) as [(q & E' & Hq)|[(_ & _ & Hn)|(_ & _ & Hn)]]; [|by destruct (Hn p)..].
    by rewrite (designates_unique ix a p q).
  - congruence.
Qed.
(** With ensureAliasUnicity the alias is a fresh name and the operation is refused only for the alias type. *)
Theorem C13_unique_alias ix p o a ty : ireach ix -> ix_heap ix !! p = Some o ->
  (exists u ix', ix_add_alias ix p a ty true = (Ok tt, ix') /\ (forall q, ix_find ix u <> Ok (Some q)) /\
     ix_find ix' u = Ok (Some p) /\ u ∈ default [] (o_aliases <$> ix_heap ix' !! p)) \/
  (exists m, ix_add_alias ix p a ty true = (Throw m, ix) /\ exists b, o_alias_from_type o ty = Ok (Some b)).
Proof.
  intros W%ireach_wf Ho.
  destruct (ix_add_alias_ok ix p o a ty true W Ho) as [(u & ix1 & E & W' & (Eh & Ea & Eb) & Hno & Hty & Hu)|[(E & ? & _)|(m & E & Hbad)]]; [|done|].
  - left. exists u, ix1. split; [done|]. split.
    { intros q Hq. destruct (ix_find_spec ix u W) as [(r & E' & Hr)|[(E' & _)|([m E'] & _)]]; [by destruct (Hno r)|congruence..]. }
    split.
    + unfold ix_find. rewrite Ea, Eb, lookup_insert. simpl. rewrite (w_heap _ W _ _ Ho). rewrite bool_decide_false; [done|].
      intros Hs. pose proof (w_heap _ W _ _ Ho) as Hb. rewrite Hs, (w_empty _ W) in Hb. done.
    + rewrite Eh, lookup_insert. simpl. apply elem_of_o_aliases. apply has_alias_with; [done|]. auto.
  - right. exists m. split; [done|]. destruct Hbad as [[Hne [b Hb]]|[? _]]; [|done]. exists b. unfold o_alias_from_type.
    rewrite bool_decide_false by done. by rewrite Hb.
Qed.
(** A refused operation changes nothing. *)
Theorem C13_refused_unchanged ix o m ix' : ireach ix -> iop_ok ix o -> ix_step ix o = (Throw m, ix') -> ix' = ix.
Proof.
  intros W%ireach_wf Hok H. destruct (istep_wf ix o W Hok) as [_ [[r E]|[_ E]]]; rewrite H in E; simpl in E; [done|done].
Qed.
(** When an alias is refused: the name belongs to another object, or the object has an alias of that type. *)
Theorem C13_refused_iff ix p o a ty : ireach ix -> ix_heap ix !! p = Some o ->
  (exists m, (ix_add_alias ix p a ty false).1 = Throw m) <->
  (ty <> "" /\ is_Some (o_typed o !! ty)) \/ (exists q, q <> p /\ ix_find ix a = Ok (Some q)).
Proof.
  intros W%ireach_wf Ho.
  assert (forall q, ix_find ix a = Ok (Some q) <-> designates ix a q) as Hf.
  { intros q. destruct (ix_find_spec ix a W) as [(r & E & Hr)|[(E & _ & Hn)|([m E] & _ & Hn)]]; rewrite E.
    - split; [intros [= <-]; done|]. intros Hq. by rewrite (designates_unique ix a q r).
    - split; [done|]. intros Hq. by destruct (Hn q).
    - split; [done|]. intros Hq. by destruct (Hn q). }
  destruct (ix_add_alias_ok ix p o a ty false W Ho) as [(u & ix1 & E & W' & _ & Hno & Hty & ->)|[(E & _ & Hd & Hty)|(m & E & Hbad)]]; rewrite E; simpl.
  - split; [by intros [? ?]|]. intros [[Hne [b Hb]]|(q & Hne & Hq)].
    + destruct Hty; [done|congruence].
    + apply Hf in Hq. by destruct (Hno q).
  - split; [by intros [? ?]|]. intros [[Hne [b Hb]]|(q & Hne & Hq)].
    + destruct Hty; [done|congruence].
    + apply Hf in Hq. destruct Hne. by apply (designates_unique ix a).
  - split; [|eauto]. intros _. destruct Hbad as [?|(_ & q & Hne & Hq)]; [auto|]. right. exists q. split; [done|]. by apply Hf.
Qed.
(** An alias never equals an id and never designates two objects. *)
Theorem C13_alias_no_shadow ix p o a q o' : ireach ix -> ix_heap ix !! p = Some o -> a ∈ o_aliases o -> ix_heap ix !! q = Some o' ->
  o_id o' <> a /\ (a ∈ o_aliases o' -> q = p).
Proof.
  intros W%ireach_wf Hp Ha%elem_of_o_aliases Hq. split.
  - intros <-. assert (ix_alias ix !! o_id o' = Some (o_id o)) as E by (apply (w_alias _ W); eauto).
    apply (w_shadow _ W) in E. pose proof (w_heap _ W _ _ Hq). congruence.
  - intros Ha'%elem_of_o_aliases. apply (designates_unique ix a); [done|exists o'; auto|exists o; auto].
Qed.
(** The aliases an object lists are exactly the names other than its id that resolve to it. *)
Theorem C13_aliases_exact ix p o a : ireach ix -> ix_heap ix !! p = Some o ->
  a ∈ o_aliases o <-> ix_find ix a = Ok (Some p) /\ a <> o_id o.
Proof.
  intros W%ireach_wf Ho. rewrite elem_of_o_aliases. split.
  - intros Ha. assert (designates ix a p) as Hd by (exists o; auto). split.
    + destruct (ix_find_spec ix a W) as [(q & E' & Hq)|[(_ & _ & Hn)|(_ & _ & Hn)]]; [|by destruct (Hn p)..].
      by rewrite (designates_unique ix a p q).
    + intros ->. assert (ix_alias ix !! o_id o = Some (o_id o)) as E by (apply (w_alias _ W); eauto).
      apply (w_shadow _ W) in E. pose proof (w_heap _ W _ _ Ho). congruence.
  - intros [Hf Hne]. destruct (ix_find_spec ix a W) as [(q & E' & Hq)|[(E' & _ & Hn)|([m E'] & _ & Hn)]]; [|congruence..].
    assert (q = p) as -> by congruence. destruct Hq as (r & Hr & [E|Ha]); [|congruence]. congruence.
Qed.
Theorem C13_remove_alias ix p o a ix' : ireach ix -> ix_heap ix !! p = Some o -> ix_remove_alias ix p a = (Ok tt, ix') ->
  a ∈ o_aliases o /\ (forall q, ix_find ix' a <> Ok (Some q)) /\ (forall s, s <> a -> ix_find ix' s = ix_find ix s) /\
  exists o', ix_heap ix' !! p = Some o' /\ forall b, b ∈ o_aliases o' <-> b ∈ o_aliases o /\ b <> a.
Proof.
  intros W%ireach_wf Ho H. destruct (ix_remove_alias_ok ix p o a W Ho) as [(ix1 & E & W' & Ha & Eh & Ea & Eb & Hw)|(m & E & _)]; [|congruence].
  assert (ix1 = ix') as -> by congruence. split; [by apply elem_of_o_aliases|].
  assert (ix_alias ix !! a = Some (o_id o)) as Hal by (apply (w_alias _ W); eauto).
  split; [|split].
  - intros q. unfold ix_find. rewrite Ea, Eb, lookup_delete. simpl. case_bool_decide; [done|]. rewrite (w_shadow _ W _ _ Hal). done.
  - intros s Hs. unfold ix_find. rewrite Ea, Eb, lookup_delete_ne by done. done.
  - exists (without_alias o a). split; [by rewrite Eh, lookup_insert|]. intros b. rewrite !elem_of_o_aliases. apply Hw.
Qed.
Theorem C13_one_alias_per_type ix p o a b t : ireach ix -> ix_heap ix !! p = Some o -> t <> "" ->
  a ∈ o_aliases o -> b ∈ o_aliases o -> o_alias_type o a = t -> o_alias_type o b = t -> a = b.
Proof.
  intros W%ireach_wf Ho Ht Ha Hb Ea Eb.
  assert (forall c, c ∈ o_aliases o -> o_alias_type o c = t -> o_typed o !! t = Some c) as H.
  { intros c Hc E. unfold o_alias_type in E. case_bool_decide as Hu; [by subst|].
    destruct (list_find _ _) as [[k [t' c']]|] eqn:Hf; [|by subst].
    apply list_find_Some in Hf as (Hk & E2 & _). simpl in E2. subst t' c'.
    apply elem_of_map_to_list. by eapply elem_of_list_lookup_2. }
  pose proof (H a Ha Ea). pose proof (H b Hb Eb). congruence.
Qed.

(** ** C14 *)
(** Ids and listings survive a move. *)
Theorem C14_move_keeps_ids_partial ix : ireach ix ->
  (forall p o, ix_heap ix !! p = Some o -> ix_find (ix_move ix) (o_id o) = ix_find ix (o_id o)) /\
  (forall ty, ix_all (ix_move ix) ty = ix_all ix ty) /\ ix_heap (ix_move ix) = ix_heap ix.
Proof.
  intros R. pose proof (ireach_wf ix R) as W. split; [|done]. intros p o Ho. rewrite (C12_found_by_id ix p o R Ho).
  unfold ix_find, ix_move. cbn [ix_alias ix_byid]. rewrite lookup_empty. simpl.
  pose proof (w_heap _ W _ _ Ho) as Hb. rewrite Hb. rewrite bool_decide_false; [done|].
  intros E. rewrite E, (w_empty _ W) in Hb. done.
Qed.
(** Aliases do not: none of them resolves after the move, although the objects still list them. *)
Theorem C14_move_loses_aliases ix p o a : ireach ix -> ix_heap ix !! p = Some o -> a ∈ o_aliases o ->
  ix_find ix a = Ok (Some p) /\ (forall q, ix_find (ix_move ix) a <> Ok (Some q)) /\
  ix_heap (ix_move ix) !! p = Some o.
Proof.
  intros R Ho Ha. split; [by apply (C13_aliases_exact ix p o a R Ho)|]. split; [|done]. pose proof (ireach_wf ix R) as W.
  intros q. unfold ix_find, ix_move. cbn [ix_alias ix_byid]. rewrite lookup_empty. simpl. case_bool_decide; [done|].
  assert (ix_alias ix !! a = Some (o_id o)) as Hal by (apply (w_alias _ W); apply elem_of_o_aliases in Ha; eauto).
  rewrite (w_shadow _ W _ _ Hal). done.
Qed.
Definition ex_ops : list iop := [IAdd "S1" 1 false; IAdd "S1" 1 true; IAddAlias 1 "A" "T" false; IAddAlias 2 "B" "" false; IAdd "A" 2 true].
Definition ex_run : list (result (option nat)) * index :=
  foldl (fun st o => (st.1 ++ [(ix_step st.2 o).1], (ix_step st.2 o).2)) ([], ix_init "N") ex_ops.
Lemma ex_run_ok : irun (ix_init "N") ex_ops ex_run.1 ex_run.2.
Proof.
  assert (forall ops rs ix l st, irun (ix_init "N") ops rs ix -> st = (rs, ix) ->
    (forall k o, l !! k = Some o -> iop_ok (foldl (fun st o => (st.1 ++ [(ix_step st.2 o).1], (ix_step st.2 o).2)) st (take k l)).2 o) ->
    let st' := foldl (fun st o => (st.1 ++ [(ix_step st.2 o).1], (ix_step st.2 o).2)) st l in
    irun (ix_init "N") (ops ++ l) st'.1 st'.2) as H.
  { intros ops rs ix l. revert ops rs ix. induction l as [|o l IH]; intros ops rs ix st Hr -> Hok.
    - simpl. by rewrite app_nil_r.
    - assert (iop_ok ix o) as Ho by (apply (Hok 0 o); done). cbn [foldl fst snd].
      specialize (IH (ops ++ [o]) (rs ++ [(ix_step ix o).1]) (ix_step ix o).2 _ (irun_snoc _ _ _ _ _ Hr Ho) eq_refl).
      rewrite <- app_assoc in IH. apply IH. intros k o' Hk. apply (Hok (S k) o' Hk). }
  apply (H [] [] (ix_init "N") ex_ops ([], ix_init "N") (irun_nil _) eq_refl).
  intros k o Hk. do 5 (destruct k as [|k]; [injection Hk as <-; vm_compute; try done; try (eexists; reflexivity)|]). done.
Qed.
Lemma ex_reach : ireach ex_run.2.
Proof. exists "N", ex_ops, ex_run.1. split; [done|]. apply ex_run_ok. Qed.
(** The full statement fails. *)
Theorem C14_move_keeps_names_refuted : exists ix s p, ireach ix /\ ix_find ix s = Ok (Some p) /\ ix_find (ix_move ix) s = Ok None.
Proof. exists ex_run.2, "A", 1. split; [apply ex_reach|]. split; vm_compute; reflexivity. Qed.

(** The history used above: the second "S1" becomes "S1#0", the third creation becomes "A#0" because of the alias. *)
Example C12_ex : map ioutcome ex_run.1 = [IDone (Some 1); IDone (Some 2); IDone None; IDone None; IDone (Some 3)] /\
  ix_find ex_run.2 "S1#0" = Ok (Some 2) /\ ix_find ex_run.2 "A#0" = Ok (Some 3) /\ ix_find ex_run.2 "A" = Ok (Some 1) /\
  ix_find ex_run.2 "B" = Ok (Some 2) /\ ix_all ex_run.2 1 = [1; 2].
Proof. vm_compute. done. Qed.
Example C13_ex : exists m, (ix_add_alias ex_run.2 2 "A" "" false).1 = Throw m.
Proof. eexists. vm_compute. reflexivity. Qed.
Example C13_ex_type : exists m, (ix_add_alias ex_run.2 1 "C" "T" false).1 = Throw m.
Proof. eexists. vm_compute. reflexivity. Qed.

(** ** C26 *)
(** [L]: the names in use; [fuel]: any number of attempts larger than their number. *)
Theorem C26_unique_id_fresh contains (L : list string) fuel base :
  (forall x, contains x = true -> x ∈ L) -> length L < fuel ->
  exists u, get_unique_id contains fuel base = Ok u /\ contains u = false /\ u <> "" /\
    (base <> "" -> contains base = false -> u = base) /\
    (base <> "" -> contains base = true -> exists k, u = base +:+ "#" +:+ pretty (N.of_nat k) /\
        forall j, j < k -> contains (base +:+ "#" +:+ pretty (N.of_nat j)) = true) /\
    (base = "" -> exists k, u = "autoId#" +:+ pretty (N.of_nat k) /\
        forall j, j < k -> contains ("autoId#" +:+ pretty (N.of_nat j)) = true).
Proof.
  intros HL Hf. destruct (get_unique_id_enough contains fuel base L HL Hf) as [u Hu]. exists u. split; [done|].
  pose proof (get_unique_id_ok _ _ _ _ Hu) as Hs. destruct (is_unique_id_fresh _ _ _ Hs) as [H1 H2]. split; [done|]. split; [done|].
  unfold is_unique_id in Hs. split; [|split].
  - intros Hb Hc. by rewrite decide_True in Hs.
  - intros Hb Hc. rewrite decide_False in Hs by (rewrite Hc; naive_solver). rewrite decide_False in Hs by done.
    destruct Hs as (k & E & _ & Hall). eauto.
  - intros Hb. rewrite decide_False in Hs by naive_solver. rewrite decide_True in Hs by done.
    destruct Hs as (k & E & _ & Hall). exists k. eauto.
Qed.
(** The number of attempts needed does not change the answer. *)
Theorem C26_unique_id_fuel_irrelevant contains f g base u v :
  get_unique_id contains f base = Ok u -> get_unique_id contains g base = Ok v -> u = v.
Proof. intros H1%get_unique_id_ok H2%get_unique_id_ok. by eapply is_unique_id_det. Qed.
Example C26_ex : get_unique_id (fun x => bool_decide (x ∈ ["a"; "a#0"; "a#1"; "a#3"])) 5 "a" = Ok "a#2".
Proof. vm_compute. done. Qed.

Print Assumptions C12_index_refines_spec.
Print Assumptions C12_names_unambiguous.
Print Assumptions C12_ids_unique.
Print Assumptions C12_found_by_id.
Print Assumptions C12_no_dangling.
Print Assumptions C12_removed_not_found.
Print Assumptions C13_alias_resolves.
Print Assumptions C13_unique_alias.
Print Assumptions C13_refused_unchanged.
Print Assumptions C13_refused_iff.
Print Assumptions C13_alias_no_shadow.
Print Assumptions C13_aliases_exact.
Print Assumptions C13_remove_alias.
Print Assumptions C13_one_alias_per_type.
Print Assumptions C14_move_keeps_ids_partial.
Print Assumptions C14_move_loses_aliases.
Print Assumptions C14_move_keeps_names_refuted.
Print Assumptions C26_unique_id_fresh.
Print Assumptions C26_unique_id_fuel_irrelevant.
