(** Invariant of the graph storage and refinement of [GraphSpec]. *)
From stdpp Require Import gmap fin_maps.
From Verif Require Import Base Graph GraphSpec.

Section proofs.
  Context {V E : Type}.
  Implicit Types g : graph V E.
  Implicit Types vs : list (option (option V)).
  Implicit Types es : list (option (edge E)).

  Definition ends (ed : edge E) : nat * nat * option E := (e_v1 ed, e_v2 ed, e_obj ed).

  Lemma abs_vertices g v : s_vertices (abs g) !! v = mjoin (g_vertices g !! v).
  Proof.
    unfold abs; cbn. rewrite lookup_omap, lookup_map_seq_0.
    by destruct (g_vertices g !! v).
  Qed.

  Lemma abs_edges g e : s_edges (abs g) !! e = ends <$> mjoin (g_edges g !! e).
  Proof.
    unfold abs; cbn. rewrite lookup_omap, lookup_map_seq_0.
    by destruct (g_edges g !! e) as [[]|].
  Qed.

  Lemma sgraph_eq (s s' : sgraph V E) :
    (forall v, s_vertices s !! v = s_vertices s' !! v) ->
    (forall e, s_edges s !! e = s_edges s' !! e) -> s = s'.
  Proof.
    destruct s, s'; simpl. intros H1 H2. f_equal; by apply map_eq.
  Qed.

  #[local] Opaque abs.

  (** Incident edges computed from the raw vector. *)
  Fixpoint incid (i : nat) (es : list (option (edge E))) (v : nat) : list nat :=
    match es with
    | [] => []
    | None :: es' => incid (S i) es' v
    | Some ed :: es' =>
      (if decide (e_v1 ed = v) then [i] else []) ++
      (if decide (e_v2 ed = v) then [i] else []) ++ incid (S i) es' v
    end.

  Record ginv g : Prop := {
    inv_avail : forall v, v ∈ g_avail g <-> g_vertices g !! v = Some None;
    inv_avail_s : ssorted (g_avail g);
    inv_removed : forall e, e ∈ g_removed g <-> g_edges g !! e = Some None;
    inv_removed_s : ssorted (g_removed g);
    inv_edges : forall e ed, g_edges g !! e = Some (Some ed) ->
      (exists o, g_vertices g !! e_v1 ed = Some (Some o)) /\ (exists o, g_vertices g !! e_v2 ed = Some (Some o));
    inv_last : last (g_vertices g) <> Some None;
    inv_adj : g_adj g = [] \/ g_adj g = map (incid 0 (g_edges g)) (seq 0 (length (g_vertices g)));
  }.

  Lemma ginv_init : ginv g_init.
  Proof.
    split; simpl; try (constructor); try (intros; set_solver); try done.
  Qed.

  Lemma check_vertex_spec g v :
    match g_check_vertex g v with
    | Ok o => g_vertices g !! v = Some (Some o)
    | Throw _ => mjoin (g_vertices g !! v) = None
    | _ => False
    end.
  Proof. unfold g_check_vertex. by destruct (g_vertices g !! v) as [[]|] eqn:?. Qed.

  Lemma check_edge_spec g e :
    match g_check_edge g e with
    | Ok ed => g_edges g !! e = Some (Some ed)
    | Throw _ => mjoin (g_edges g !! e) = None
    | _ => False
    end.
  Proof. unfold g_check_edge. by destruct (g_edges g !! e) as [[]|] eqn:?. Qed.

  Lemma fresh_append {A B} (l : list (option A)) (f : A -> B) (m : gmap nat B) :
    (forall k, m !! k = f <$> mjoin (l !! k)) ->
    (forall k, l !! k <> Some None) -> fresh m (length l).
  Proof.
    intros Hm Hno. split.
    - rewrite Hm, (lookup_ge_None_2 l); done.
    - intros k Hk. rewrite Hm. destruct (lookup_lt_is_Some_2 l k Hk) as [[a|] Ha].
      + rewrite Ha. simpl. eauto.
      + by destruct (Hno k).
  Qed.

  Lemma fresh_recycled {A B} (l : list (option A)) (f : A -> B) (m : gmap nat B) x rem :
    (forall k, m !! k = f <$> mjoin (l !! k)) ->
    (forall k, k ∈ x :: rem <-> l !! k = Some None) -> ssorted (x :: rem) -> fresh m x.
  Proof.
    intros Hm Hfree Hs. split.
    - rewrite Hm. assert (l !! x = Some None) as -> by (apply Hfree; set_solver). done.
    - intros k Hk. rewrite Hm.
      assert (x < length l).
      { apply lookup_lt_is_Some. exists None. apply Hfree. set_solver. }
      destruct (lookup_lt_is_Some_2 l k) as [[a|] Ha]; [lia| |].
      + rewrite Ha. simpl. eauto.
      + apply Hfree in Ha. apply elem_of_cons in Ha as [->|Ha]; [lia|].
        inversion Hs as [|?? _ Hf]; subst. rewrite Forall_forall in Hf.
        apply Hf in Ha. lia.
  Qed.

  Lemma lookup_snoc_cases {A} (l : list A) (x : A) k :
    (l ++ [x]) !! k = if decide (k = length l) then Some x else l !! k.
  Proof.
    destruct (decide (k = length l)) as [->|Hne].
    - rewrite lookup_app_r by lia. by rewrite Nat.sub_diag.
    - destruct (decide (k < length l)).
      + by rewrite lookup_app_l by lia.
      + rewrite !(lookup_ge_None_2); [done|lia|rewrite app_length; simpl; lia].
  Qed.

  Lemma lookup_insert_cases {A} (l : list A) (x : A) i k :
    i < length l -> <[i:=x]> l !! k = if decide (k = i) then Some x else l !! k.
  Proof.
    intros Hi. destruct (decide (k = i)) as [->|Hne].
    - by rewrite list_lookup_insert.
    - by rewrite list_lookup_insert_ne.
  Qed.

  Lemma removelast_take {A} (l : list A) : removelast l = take (length l - 1) l.
  Proof.
    induction l as [|x l IH]; [done|]. destruct l as [|y l]; [done|].
    change (removelast (x :: y :: l)) with (x :: removelast (y :: l)).
    rewrite IH. simpl. by rewrite Nat.sub_0_r.
  Qed.

  Lemma lookup_removelast_cases {A} (l : list A) k :
    removelast l !! k = if decide (k < length l - 1) then l !! k else None.
  Proof.
    rewrite removelast_take. destruct (decide (k < length l - 1)).
    - by rewrite lookup_take.
    - rewrite lookup_take_ge; [done|lia].
  Qed.

  Lemma last_insert_some {A} (l : list (option A)) i x :
    last l <> Some None -> last (<[i := Some x]> l) <> Some None.
  Proof.
    rewrite !last_lookup, insert_length. intros H.
    destruct (decide (i < length l)) as [Hi|Hi].
    - rewrite lookup_insert_cases by done. by case_decide.
    - by rewrite list_insert_ge by lia.
  Qed.

  Lemma g_add_vertex_ok g : ginv g ->
    ginv (g_add_vertex g).1 /\
    s_step (abs g) OpAddVertex (abs (g_add_vertex g).1) (result_map OutIndex (g_add_vertex g).2).
  Proof.
    intros I. unfold g_add_vertex. destruct (g_avail g) as [|v av] eqn:Hav.
    - assert (forall k, g_vertices g !! k <> Some None) as Hno.
      { intros k Hk. apply (inv_avail g I) in Hk. rewrite Hav in Hk. set_solver. }
      split.
      + split; simpl.
        * intros v. rewrite lookup_snoc_cases. case_decide; [set_solver|].
          rewrite <- (inv_avail g I), Hav. done.
        * constructor.
        * apply (inv_removed g I).
        * apply (inv_removed_s g I).
        * intros e ed He. destruct (inv_edges g I e ed He) as [[o1 H1] [o2 H2]].
          rewrite !lookup_snoc_cases. split; case_decide; eauto.
        * rewrite last_snoc. done.
        * by left.
      + simpl. exists (length (g_vertices g)). split; [|split; [done|]].
        * apply (fresh_append _ (fun x => x)); [|done].
          intros k. rewrite abs_vertices. by destruct (mjoin _).
        * apply sgraph_eq; intros k; [|simpl; by rewrite !abs_edges].
          rewrite abs_vertices. simpl. rewrite lookup_snoc_cases.
          case_decide; [subst; by rewrite lookup_insert|].
          rewrite lookup_insert_ne by done. by rewrite <- abs_vertices.
    - assert (g_vertices g !! v = Some None) as Hv.
      { apply (inv_avail g I). rewrite Hav. set_solver. }
      assert (v < length (g_vertices g)) as Hlt by (apply lookup_lt_is_Some; eauto).
      rewrite vset_lt by done. simpl.
      pose proof (inv_avail_s g I) as Hs. rewrite Hav in Hs.
      pose proof (ssorted_nodup _ Hs) as Hnd. apply NoDup_cons in Hnd as [Hnin _].
      split.
      + split; simpl.
        * intros w. rewrite lookup_insert_cases by done. case_decide as Hd.
          { subst. split; [done|discriminate]. }
          rewrite <- (inv_avail g I), Hav. set_solver.
        * by inversion Hs.
        * apply (inv_removed g I).
        * apply (inv_removed_s g I).
        * intros e ed He. destruct (inv_edges g I e ed He) as [[o1 H1] [o2 H2]].
          rewrite !lookup_insert_cases by done. split; case_decide; eauto.
        * apply last_insert_some, (inv_last g I).
        * by left.
      + exists v. split; [|split; [done|]].
        * apply (fresh_recycled (g_vertices g) (fun x => x) _ v av); [| |done].
          -- intros k. rewrite <- abs_vertices. simpl. by destruct (_ !! k).
          -- intros k. rewrite <- Hav. apply (inv_avail g I).
        * apply sgraph_eq; intros k; [|simpl; by rewrite !abs_edges].
          rewrite abs_vertices. simpl. rewrite lookup_insert_cases by done.
          case_decide; [subst; by rewrite lookup_insert|].
          rewrite lookup_insert_ne by done. by rewrite <- abs_vertices.
  Qed.

  Lemma elem_of_foldl_insert k l av :
    k ∈ foldl (fun av i => sset_insert i av) av l <-> k ∈ l \/ k ∈ av.
  Proof.
    revert av. induction l as [|x l IH]; intros av; simpl; [set_solver|].
    rewrite IH, elem_of_sset_insert. set_solver.
  Qed.
  Lemma ssorted_foldl_insert l av :
    ssorted av -> ssorted (foldl (fun av i => sset_insert i av) av l).
  Proof.
    revert av. induction l as [|x l IH]; intros av H; simpl; [done|].
    apply IH. by apply ssorted_insert.
  Qed.

  Lemma lookup_grow {A} (l : list (option A)) x v k :
    length l <= v ->
    (l ++ replicate (v - length l) None ++ [Some x]) !! k =
    if decide (k = v) then Some (Some x)
    else if decide (length l <= k < v) then Some None else l !! k.
  Proof.
    intros Hv. case_decide as H1; [|case_decide as H2].
    - subst. rewrite lookup_app_r by lia. rewrite lookup_app_r by (rewrite replicate_length; lia).
      rewrite replicate_length. by replace (v - length l - (v - length l)) with 0 by lia.
    - rewrite lookup_app_r by lia. rewrite lookup_app_l by (rewrite replicate_length; lia).
      apply lookup_replicate. split; [done|lia].
    - destruct (decide (k < length l)); [by rewrite lookup_app_l|].
      rewrite !lookup_ge_None_2; [done|lia|].
      rewrite !app_length, replicate_length. simpl. lia.
  Qed.

  Lemma g_add_vertex_if_ok g v : ginv g ->
    ginv (g_add_vertex_if_not_present g v).1 /\
    s_step (abs g) (OpAddVertexIfNotPresent v) (abs (g_add_vertex_if_not_present g v).1)
      (result_map (fun _ => OutNone) (g_add_vertex_if_not_present g v).2).
  Proof.
    intros I. unfold g_add_vertex_if_not_present. case_decide as Hlt.
    - destruct (sset_mem v (g_avail g)) eqn:Hmem.
      + apply sset_mem_true in Hmem. pose proof (proj1 (inv_avail g I v) Hmem) as Hv.
        split.
        * split; simpl.
          -- intros w. rewrite elem_of_sset_erase, lookup_insert_cases by done. case_decide.
             { subst. split; [naive_solver|discriminate]. }
             rewrite <- (inv_avail g I). naive_solver.
          -- apply ssorted_erase, (inv_avail_s g I).
          -- apply (inv_removed g I).
          -- apply (inv_removed_s g I).
          -- intros e ed He. destruct (inv_edges g I e ed He) as [[o1 H1] [o2 H2]].
             rewrite !lookup_insert_cases by done. split; case_decide; eauto.
          -- apply last_insert_some, (inv_last g I).
          -- by left.
        * simpl. split; [done|]. right. split; [by rewrite abs_vertices, Hv|].
          apply sgraph_eq; intros k; [|simpl; by rewrite !abs_edges].
          rewrite abs_vertices. simpl. rewrite lookup_insert_cases by done.
          case_decide; [subst; by rewrite lookup_insert|].
          rewrite lookup_insert_ne by done. by rewrite <- abs_vertices.
      + apply sset_mem_false in Hmem. split.
        * destruct I; split; simpl; try done. by left.
        * simpl. split; [done|]. left. split; [|done].
          rewrite abs_vertices. destruct (lookup_lt_is_Some_2 _ _ Hlt) as [[o|] Ho].
          -- rewrite Ho. simpl. eauto.
          -- by apply (inv_avail g I) in Ho.
    - assert (length (g_vertices g) <= v) as Hge by lia. split.
      + split; simpl.
        * intros w. rewrite elem_of_foldl_insert, elem_of_seq, lookup_grow by done.
          rewrite (inv_avail g I w). case_decide; [|case_decide].
          -- subst. split; [|discriminate]. intros [?|H]; [lia|].
             assert (v < length (g_vertices g)) by (apply lookup_lt_is_Some; eauto). lia.
          -- split; [done|]. intros _. left. lia.
          -- split; [|by right]. intros [?|?]; [lia|done].
        * apply ssorted_foldl_insert, (inv_avail_s g I).
        * apply (inv_removed g I).
        * apply (inv_removed_s g I).
        * intros e ed He. destruct (inv_edges g I e ed He) as [[o1 H1] [o2 H2]].
          assert (e_v1 ed < length (g_vertices g)) by (apply lookup_lt_is_Some; eauto).
          assert (e_v2 ed < length (g_vertices g)) by (apply lookup_lt_is_Some; eauto).
          rewrite !lookup_app_l by done. eauto.
        * rewrite app_assoc, last_snoc. done.
        * by left.
      + simpl. split; [done|]. right. split; [by rewrite abs_vertices, lookup_ge_None_2|].
        apply sgraph_eq; intros k; [|simpl; by rewrite !abs_edges].
        rewrite abs_vertices. simpl. rewrite lookup_grow by done.
        case_decide; [subst; by rewrite lookup_insert|].
        rewrite lookup_insert_ne by done. rewrite abs_vertices.
        case_decide; [|done]. by rewrite lookup_ge_None_2 by lia.
  Qed.

  Lemma g_add_edge_ok g v1 v2 ob : ginv g ->
    ginv (g_add_edge g v1 v2 ob).1 /\
    s_step (abs g) (OpAddEdge v1 v2 ob) (abs (g_add_edge g v1 v2 ob).1)
      (result_map OutIndex (g_add_edge g v1 v2 ob).2).
  Proof.
    intros I. unfold g_add_edge.
    pose proof (check_vertex_spec g v1) as C1. pose proof (check_vertex_spec g v2) as C2.
    destruct (g_check_vertex g v1) as [o1|m1| |]; try done; swap 1 2.
    { split; [done|]. simpl. right. rewrite !abs_vertices. auto. }
    destruct (g_check_vertex g v2) as [o2|m2| |]; try done; swap 1 2.
    { split; [done|]. simpl. right. rewrite !abs_vertices. auto. }
    destruct (g_removed g) as [|e rem] eqn:Hr.
    - assert (forall k, g_edges g !! k <> Some None) as Hno.
      { intros k Hk. apply (inv_removed g I) in Hk. rewrite Hr in Hk. set_solver. }
      split.
      + split; simpl; try apply I.
        * intros e. rewrite lookup_snoc_cases. case_decide; [set_solver|].
          rewrite <- (inv_removed g I), Hr. done.
        * constructor.
        * intros e ed. rewrite lookup_snoc_cases. case_decide.
          -- intros [= <-]. simpl. eauto.
          -- apply (inv_edges g I).
        * by left.
      + simpl. left. rewrite !abs_vertices, C1, C2. split; [by eauto|]. split; [by eauto|].
        exists (length (g_edges g)). split; [|split; [done|]].
        * apply (fresh_append _ ends); [|done]. intros k. apply abs_edges.
        * apply sgraph_eq; intros k; [simpl; by rewrite !abs_vertices|].
          rewrite abs_edges. simpl. rewrite lookup_snoc_cases.
          case_decide; [subst; by rewrite lookup_insert|].
          rewrite lookup_insert_ne by done. by rewrite <- abs_edges.
    - assert (g_edges g !! e = Some None) as He.
      { apply (inv_removed g I). rewrite Hr. set_solver. }
      assert (e < length (g_edges g)) as Hlt by (apply lookup_lt_is_Some; eauto).
      rewrite vset_lt by done. simpl.
      pose proof (inv_removed_s g I) as Hs. rewrite Hr in Hs.
      pose proof (ssorted_nodup _ Hs) as Hnd. apply NoDup_cons in Hnd as [Hnin _].
      split.
      + split; simpl; try apply I.
        * intros w. rewrite lookup_insert_cases by done. case_decide as Hd.
          { subst. split; [done|discriminate]. }
          rewrite <- (inv_removed g I), Hr. set_solver.
        * by inversion Hs.
        * intros e' ed. rewrite lookup_insert_cases by done. case_decide.
          -- intros [= <-]. simpl. eauto.
          -- apply (inv_edges g I).
        * by left.
      + left. rewrite !abs_vertices, C1, C2. split; [by eauto|]. split; [by eauto|].
        exists e. split; [|split; [done|]].
        * apply (fresh_recycled (g_edges g) ends _ e rem); [| |done].
          -- intros k. apply abs_edges.
          -- intros k. rewrite <- Hr. apply (inv_removed g I).
        * apply sgraph_eq; intros k; [simpl; by rewrite !abs_vertices|].
          rewrite abs_edges. simpl. rewrite lookup_insert_cases by done.
          case_decide; [subst; by rewrite lookup_insert|].
          rewrite lookup_insert_ne by done. by rewrite <- abs_edges.
  Qed.

  Lemma g_remove_edge_ok g e : ginv g ->
    ginv (g_remove_edge g e).1 /\
    s_step (abs g) (OpRemoveEdge e) (abs (g_remove_edge g e).1)
      (result_map OutEdgeObj (g_remove_edge g e).2).
  Proof.
    intros I. unfold g_remove_edge. pose proof (check_edge_spec g e) as C.
    destruct (g_check_edge g e) as [ed|m| |]; try done; swap 1 2.
    { split; [done|]. simpl. right. by rewrite abs_edges, C. }
    assert (e < length (g_edges g)) as Hlt by (apply lookup_lt_is_Some; eauto).
    assert (e ∉ g_removed g) as Hnin.
    { intros H. apply (inv_removed g I) in H. congruence. }
    case_decide as Hlast; simpl.
    - split.
      + split; simpl; try apply I.
        * intros k. rewrite lookup_removelast_cases. rewrite (inv_removed g I). case_decide; [done|].
          split; [|discriminate]. intros Hk.
          assert (k < length (g_edges g)) by (apply lookup_lt_is_Some; eauto).
          assert (k = e) by lia. subst k. congruence.
        * intros k ed'. rewrite lookup_removelast_cases. case_decide; [|discriminate].
          apply (inv_edges g I).
        * by left.
      + left. exists (ends ed). rewrite abs_edges, C. split; [done|]. split; [done|].
        apply sgraph_eq; intros k; [simpl; by rewrite !abs_vertices|].
        rewrite abs_edges. simpl. rewrite lookup_removelast_cases.
        destruct (decide (k = e)) as [->|Hne].
        * rewrite lookup_delete. by rewrite decide_False by lia.
        * rewrite lookup_delete_ne by done. rewrite abs_edges. case_decide; [done|].
          by rewrite lookup_ge_None_2 by lia.
    - split.
      + split; simpl; try apply I.
        * intros k. rewrite elem_of_sset_insert, lookup_insert_cases, (inv_removed g I) by done.
          case_decide; naive_solver.
        * apply ssorted_insert, (inv_removed_s g I).
        * intros k ed'. rewrite lookup_insert_cases by done. case_decide; [discriminate|].
          apply (inv_edges g I).
        * by left.
      + left. exists (ends ed). rewrite abs_edges, C. split; [done|]. split; [done|].
        apply sgraph_eq; intros k; [simpl; by rewrite !abs_vertices|].
        rewrite abs_edges. simpl. rewrite lookup_insert_cases by done.
        case_decide; [subst; by rewrite lookup_delete|].
        rewrite lookup_delete_ne by done. by rewrite abs_edges.
  Qed.

  Lemma existsb_touches_true g v :
    existsb (edge_touches v) (g_edges g) = true -> ~ edge_free (abs g) v.
  Proof.
    rewrite existsb_exists. intros (s & Hin & Ht) Hfree.
    apply elem_of_list_In, elem_of_list_lookup in Hin as [e He].
    destruct s as [ed|]; [|done]. simpl in Ht.
    apply (Hfree e (ends ed)); [by rewrite abs_edges, He|].
    unfold touches; simpl. apply orb_true_iff in Ht as [H|H]; apply Nat.eqb_eq in H; auto.
  Qed.
  Lemma existsb_touches_false g v :
    existsb (edge_touches v) (g_edges g) = false -> edge_free (abs g) v.
  Proof.
    intros H e ed' He Ht. rewrite abs_edges in He.
    destruct (g_edges g !! e) as [[ed|]|] eqn:Hl; simpl in He; try discriminate.
    injection He as <-. assert (existsb (edge_touches v) (g_edges g) = true); [|congruence].
    apply existsb_exists. exists (Some ed). split.
    - apply elem_of_list_In, elem_of_list_lookup. eauto.
    - simpl. apply orb_true_iff. destruct Ht as [Ht|Ht]; simpl in Ht; rewrite Ht, Nat.eqb_refl; auto.
  Qed.

  Lemma clean_vertices_ok n vs av :
    length vs = n ->
    (forall v, v ∈ av <-> vs !! v = Some None) -> ssorted av ->
    exists vs' av', g_clean_vertices n vs av = Ok (vs', av') /\
      (forall v, mjoin (vs' !! v) = mjoin (vs !! v)) /\
      (forall v, v ∈ av' <-> vs' !! v = Some None) /\ ssorted av' /\
      last vs' <> Some None.
  Proof.
    revert vs av. induction n as [|n IH]; intros vs av Hl Hav Hs; simpl.
    - exists vs, av. destruct vs; [|done]. done.
    - destruct (sset_mem n av) eqn:Hmem.
      + apply sset_mem_true in Hmem.
        destruct vs as [|x vs0] eqn:Hvs; [done|]. rewrite <- Hvs in *. clear x vs0 Hvs.
        destruct (IH (removelast vs) (sset_erase n av)) as (vs' & av' & H1 & H2 & H3 & H4 & H5).
        * rewrite removelast_take, take_length. lia.
        * intros v. rewrite elem_of_sset_erase, lookup_removelast_cases, Hav.
          case_decide; [split; [naive_solver|]; intros; split; [lia|done]|].
          split; [|discriminate]. intros [Hne Hv].
          assert (v < length vs) by (apply lookup_lt_is_Some; eauto). lia.
        * by apply ssorted_erase.
        * exists vs', av'. split; [done|]. split; [|done].
          intros v. rewrite H2, lookup_removelast_cases. case_decide; [done|].
          destruct (decide (v = n)) as [->|].
          { by rewrite (proj1 (Hav n) Hmem). }
          by rewrite lookup_ge_None_2 by lia.
      + apply sset_mem_false in Hmem. exists vs, av. repeat split; try done; try apply Hav; try done.
        rewrite last_lookup, Hl. simpl. by rewrite <- Hav.
  Qed.

  Lemma g_remove_vertex_ok g v : ginv g ->
    ginv (g_remove_vertex g v).1 /\
    s_step (abs g) (OpRemoveVertex v) (abs (g_remove_vertex g v).1)
      (result_map OutVertexObj (g_remove_vertex g v).2).
  Proof.
    intros I. unfold g_remove_vertex. pose proof (check_vertex_spec g v) as C.
    destruct (g_check_vertex g v) as [ob|m| |]; try done; swap 1 2.
    { split; [done|]. simpl. right. rewrite abs_vertices. auto. }
    assert (v < length (g_vertices g)) as Hlt by (apply lookup_lt_is_Some; eauto).
    assert (v ∉ g_avail g) as Hnin.
    { intros H. apply (inv_avail g I) in H. congruence. }
    destruct (existsb (edge_touches v) (g_edges g)) eqn:Hex.
    { split; [done|]. simpl. right. apply existsb_touches_true in Hex. auto. }
    apply existsb_touches_false in Hex.
    assert (forall e ed, g_edges g !! e = Some (Some ed) -> e_v1 ed <> v /\ e_v2 ed <> v) as Hfr.
    { intros e ed He. split; intros <-; eapply (Hex e (ends ed)).
      - by rewrite abs_edges, He.
      - by left.
      - by rewrite abs_edges, He.
      - by right. }
    case_decide as Hlast; simpl.
    - destruct (clean_vertices_ok v (removelast (g_vertices g)) (g_avail g))
        as (vs' & av' & H1 & H2 & H3 & H4 & H5).
      + rewrite removelast_take, take_length. lia.
      + intros w. rewrite lookup_removelast_cases, (inv_avail g I). case_decide; [done|].
        split; [|discriminate]. intros Hw.
        assert (w < length (g_vertices g)) by (apply lookup_lt_is_Some; eauto).
        assert (w = v) by lia. subst. congruence.
      + apply (inv_avail_s g I).
      + rewrite H1. simpl.
        assert (forall k, mjoin (vs' !! k) = if decide (k = v) then None else mjoin (g_vertices g !! k)) as Hvs'.
        { intros k. rewrite H2, lookup_removelast_cases. case_decide; case_decide; subst; try done; try lia.
          by rewrite (lookup_ge_None_2 (g_vertices g) k) by lia. }
        split.
        * split; simpl; try apply I; try done.
          -- intros e ed He. destruct (inv_edges g I e ed He) as [[o1 Ho1] [o2 Ho2]].
             destruct (Hfr e ed He).
             pose proof (Hvs' (e_v1 ed)) as E1. pose proof (Hvs' (e_v2 ed)) as E2.
             rewrite Ho1 in E1. rewrite Ho2 in E2.
             rewrite decide_False in E1 by done. rewrite decide_False in E2 by done. simpl in *.
             destruct (vs' !! e_v1 ed) as [[]|]; simplify_eq/=.
             destruct (vs' !! e_v2 ed) as [[]|]; simplify_eq/=. eauto.
          -- by left.
        * left. exists ob. rewrite abs_vertices, C. split; [done|]. split; [done|]. split; [done|].
          apply sgraph_eq; intros k; [|simpl; by rewrite !abs_edges].
          rewrite abs_vertices. simpl. rewrite Hvs'.
          case_decide; [subst; by rewrite lookup_delete|].
          rewrite lookup_delete_ne by done. by rewrite abs_vertices.
    - split.
      + split; simpl; try apply I.
        * intros k. rewrite elem_of_sset_insert, lookup_insert_cases, (inv_avail g I) by done.
          case_decide; naive_solver.
        * apply ssorted_insert, (inv_avail_s g I).
        * intros e ed He. destruct (inv_edges g I e ed He) as [[o1 Ho1] [o2 Ho2]].
          destruct (Hfr e ed He).
          rewrite !lookup_insert_cases by done. rewrite !decide_False by done. eauto.
        * rewrite last_lookup, insert_length, lookup_insert_cases by done.
          rewrite decide_False by lia. pose proof (inv_last g I) as HL. by rewrite last_lookup in HL.
        * by left.
      + left. exists ob. rewrite abs_vertices, C. split; [done|]. split; [done|]. split; [done|].
        apply sgraph_eq; intros k; [|simpl; by rewrite !abs_edges].
        rewrite abs_vertices. simpl. rewrite lookup_insert_cases by done.
        case_decide; [subst; by rewrite lookup_delete|].
        rewrite lookup_delete_ne by done. by rewrite abs_vertices.
  Qed.

  Lemma g_remove_all_edges_ok g : ginv g ->
    ginv (g_remove_all_edges g) /\
    s_step (abs g) OpRemoveAllEdges (abs (g_remove_all_edges g)) (Ok OutNone).
  Proof.
    intros I. split.
    - split; simpl; try apply I; try done; try (by constructor); try (by left). set_solver.
    - simpl. split; [done|]. apply sgraph_eq; intros k; [simpl; by rewrite !abs_vertices|].
      rewrite abs_edges. simpl. by rewrite lookup_empty.
  Qed.

  Lemma g_remove_all_vertices_ok g : ginv g ->
    ginv (g_remove_all_vertices g).1 /\
    s_step (abs g) OpRemoveAllVertices (abs (g_remove_all_vertices g).1)
      (result_map (fun _ => OutNone) (g_remove_all_vertices g).2).
  Proof.
    intros I. unfold g_remove_all_vertices. destruct (g_edges g) as [|x es] eqn:He.
    - split.
      + split; simpl.
        * intros v. set_solver.
        * constructor.
        * intros e. rewrite (inv_removed g I), He. done.
        * apply (inv_removed_s g I).
        * done.
        * done.
        * by left.
      + simpl. split.
        * intros Hne. destruct Hne. apply map_eq. intros k.
          rewrite abs_edges, He. by rewrite lookup_empty.
        * intros _. left. split; [done|].
          apply sgraph_eq; intros k.
          -- rewrite abs_vertices. simpl. by rewrite lookup_empty.
          -- rewrite abs_edges. simpl. by rewrite lookup_empty.
    - split; [done|]. simpl. split; [done|]. intros _. by right.
  Qed.

  Lemma g_set_vertex_object_ok g v ob : ginv g ->
    ginv (g_set_vertex_object g v ob).1 /\
    s_step (abs g) (OpSetVertexObject v ob) (abs (g_set_vertex_object g v ob).1)
      (result_map (fun _ => OutNone) (g_set_vertex_object g v ob).2).
  Proof.
    intros I. unfold g_set_vertex_object. pose proof (check_vertex_spec g v) as C.
    destruct (g_check_vertex g v) as [o|m| |]; try done; swap 1 2.
    { split; [done|]. simpl. right. rewrite abs_vertices. auto. }
    assert (v < length (g_vertices g)) as Hlt by (apply lookup_lt_is_Some; eauto).
    split.
    - split; simpl; try apply I.
      + intros w. rewrite lookup_insert_cases, (inv_avail g I) by done. case_decide; naive_solver.
      + intros e ed He. destruct (inv_edges g I e ed He) as [[o1 H1] [o2 H2]].
        rewrite !lookup_insert_cases by done. split; case_decide; eauto.
      + apply last_insert_some, (inv_last g I).
      + rewrite insert_length. apply (inv_adj g I).
    - simpl. left. rewrite abs_vertices, C. split; [by eauto|]. split; [done|].
      apply sgraph_eq; intros k; [|simpl; by rewrite !abs_edges].
      rewrite abs_vertices. simpl. rewrite lookup_insert_cases by done.
      case_decide; [subst; by rewrite lookup_insert|].
      rewrite lookup_insert_ne by done. by rewrite abs_vertices.
  Qed.

  (** ** Adjacency list *)
  Lemma adj_push_ok adj v e : v < length adj ->
    exists adj', adj_push adj v e = Ok adj' /\ length adj' = length adj /\
      forall w, adj' !! w = (fun l => l ++ (if decide (v = w) then [e] else [])) <$> adj !! w.
  Proof.
    intros Hv. unfold adj_push. destruct (lookup_lt_is_Some_2 _ _ Hv) as [l Hl]. rewrite Hl.
    eexists. split; [done|]. split; [by rewrite insert_length|].
    intros w. rewrite lookup_insert_cases by done. case_decide.
    - subst w. rewrite Hl. simpl. by rewrite decide_True.
    - rewrite decide_False by done. destruct (adj !! w); simpl; [|done]. by rewrite app_nil_r.
  Qed.

  Lemma adj_fill_ok i es adj :
    (forall ed, Some ed ∈ es -> e_v1 ed < length adj /\ e_v2 ed < length adj) ->
    exists adj', adj_fill i es adj = Ok adj' /\ length adj' = length adj /\
      forall w, adj' !! w = (fun l => l ++ incid i es w) <$> adj !! w.
  Proof.
    revert i adj. induction es as [|[ed|] es IH]; intros i adj Hb; simpl.
    - exists adj. split; [done|]. split; [done|]. intros w.
      destruct (adj !! w); simpl; [|done]. by rewrite app_nil_r.
    - destruct (Hb ed) as [H1 H2]; [set_solver|].
      destruct (adj_push_ok adj (e_v1 ed) i H1) as (a1 & E1 & L1 & K1). rewrite E1. simpl.
      destruct (adj_push_ok a1 (e_v2 ed) i) as (a2 & E2 & L2 & K2); [lia|]. rewrite E2. simpl.
      destruct (IH (S i) a2) as (a3 & E3 & L3 & K3).
      { intros ed' Hin. rewrite L2, L1. apply Hb. set_solver. }
      exists a3. split; [done|]. split; [lia|].
      intros w. rewrite K3, K2, K1. destruct (adj !! w); simpl; [|done].
      by rewrite <- !app_assoc.
    - apply IH. intros ed Hin. apply Hb. set_solver.
  Qed.

  Lemma inv_edges_lt g : ginv g -> forall ed, Some ed ∈ g_edges g ->
    e_v1 ed < length (g_vertices g) /\ e_v2 ed < length (g_vertices g).
  Proof.
    intros I ed Hin. apply elem_of_list_lookup in Hin as [e He].
    destruct (inv_edges g I e ed He) as [[o1 H1] [o2 H2]].
    split; apply lookup_lt_is_Some; eauto.
  Qed.

  Lemma g_adjacency_ok g : ginv g ->
    let adj := map (incid 0 (g_edges g)) (seq 0 (length (g_vertices g))) in
    (g_adjacency g).2 = Ok adj /\
    g_vertices (g_adjacency g).1 = g_vertices g /\
    g_edges (g_adjacency g).1 = g_edges g /\
    ginv (g_adjacency g).1 /\ abs (g_adjacency g).1 = abs g.
  Proof.
    intros I adj. unfold g_adjacency. case_decide as Hsz.
    - assert (g_adj g = adj) as Hadj.
      { destruct (inv_adj g I) as [H0|H0]; [|done]. rewrite H0 in Hsz. simpl in Hsz.
        subst adj. rewrite <- Hsz. by rewrite H0. }
      split; [simpl; by rewrite Hadj|]. auto.
    - assert (g_adj g = []) as Hnil.
      { destruct (inv_adj g I) as [H0|H0]; [done|]. rewrite H0 in Hsz.
        by rewrite map_length, seq_length in Hsz. }
      rewrite Hnil, resize_nil.
      destruct (adj_fill_ok 0 (g_edges g) (replicate (length (g_vertices g)) []))
        as (a & Ea & La & Ka).
      { intros ed Hin. rewrite replicate_length. by apply inv_edges_lt. }
      rewrite Ea.
      assert (a = adj) as ->.
      { apply list_eq. intros w. rewrite Ka. subst adj.
        rewrite replicate_length in La.
        change (map (incid 0 (g_edges g))) with (fmap (M:=list) (incid 0 (g_edges g))).
        rewrite list_lookup_fmap. destruct (decide (w < length (g_vertices g))) as [Hw|Hw].
        - rewrite lookup_replicate_2 by done. rewrite lookup_seq_lt by done. done.
        - rewrite (proj1 (lookup_replicate_None _ _ _)) by lia. rewrite lookup_seq_ge by lia. done. }
      simpl. split; [done|]. split; [done|]. split; [done|]. split; [|done].
      destruct I; split; simpl; try done. by right.
  Qed.

  (** ** removeIsolatedVertices *)
  Lemma connected_vertices_spec g v :
    v ∈ g_connected_vertices g <-> exists e ed, g_edges g !! e = Some (Some ed) /\ (e_v1 ed = v \/ e_v2 ed = v).
  Proof.
    unfold g_connected_vertices. rewrite elem_of_list_In, in_flat_map. split.
    - intros ([ed|] & Hin & Hv); [|done].
      apply elem_of_list_In, elem_of_list_lookup in Hin as [e He]. exists e, ed.
      simpl in Hv. naive_solver.
    - intros (e & ed & He & Hv). exists (Some ed). split.
      + apply elem_of_list_In, elem_of_list_lookup. eauto.
      + simpl. naive_solver.
  Qed.

  Lemma connected_edge_free g v : v ∉ g_connected_vertices g <-> edge_free (abs g) v.
  Proof.
    rewrite connected_vertices_spec. split.
    - intros H e ed' He Ht. rewrite abs_edges in He.
      destruct (g_edges g !! e) as [[ed|]|] eqn:Hl; simpl in He; try discriminate.
      injection He as <-. apply H. exists e, ed. split; [done|]. exact Ht.
    - intros H (e & ed & He & Hv). apply (H e (ends ed)); [by rewrite abs_edges, He|exact Hv].
  Qed.

  (** After a removal only a suffix of the vector may have disappeared, and then [v] was last. *)
  Lemma g_remove_vertex_len g v o : ginv g -> g_vertices g !! v = Some (Some o) ->
    edge_free (abs g) v ->
    exists g', g_remove_vertex g v = (g', Ok o) /\ g_edges g' = g_edges g /\
      (S v = length (g_vertices g) \/ length (g_vertices g') = length (g_vertices g)).
  Proof.
    intros I Hv Hfree. pose proof (g_remove_vertex_ok g v I) as [_ Hs].
    unfold g_remove_vertex in *. unfold g_check_vertex in *. rewrite Hv in *.
    destruct (existsb (edge_touches v) (g_edges g)) eqn:Hex.
    { by apply existsb_touches_true in Hex. }
    assert (v < length (g_vertices g)) as Hlt by (apply lookup_lt_is_Some; eauto).
    case_decide.
    - destruct (g_clean_vertices _ _ _) as [[vs' av']|m| |]; simpl in Hs.
      + eexists. split; [done|]. split; [done|]. left. lia.
      + destruct Hs as [(? & ? & ? & ? & ?)|(? & ? & ?)]; done.
      + destruct Hs as [(? & ? & ? & ? & ?)|(? & ? & ?)]; done.
      + destruct Hs as [(? & ? & ? & ? & ?)|(? & ? & ?)]; done.
    - eexists. split; [done|]. split; [done|]. right. simpl. by rewrite insert_length.
  Qed.

  Lemma remove_isolated_loop_ok conn n k g :
    ginv g ->
    (forall v, v ∈ conn <-> v ∈ g_connected_vertices g) ->
    (n = 0 \/ k + n = length (g_vertices g)) ->
    exists g', g_remove_isolated_loop conn (seq k n) g = (g', Ok tt) /\ ginv g' /\
      s_edges (abs g') = s_edges (abs g) /\
      forall v,
        (k <= v < k + n /\ isolated (abs g) v /\ s_vertices (abs g') !! v = None) \/
        (~ (k <= v < k + n /\ isolated (abs g) v) /\ s_vertices (abs g') !! v = s_vertices (abs g) !! v).
  Proof.
    revert k g. induction n as [|n IH]; intros k g I Hc Hlen.
    - exists g. split; [done|]. split; [done|]. split; [done|].
      intros v. right. split; [lia|done].
    - destruct Hlen as [?|Hlen]; [done|].
      cbn [seq g_remove_isolated_loop].
      destruct (lookup_lt_is_Some_2 (g_vertices g) k) as [s Hs]; [lia|]. rewrite Hs.
      destruct s as [o|].
      + destruct (negb (sset_mem k conn) && _) eqn:Hcond.
        * apply andb_true_iff in Hcond as [Hm Ho].
          apply negb_true_iff, sset_mem_false in Hm. rewrite Hc in Hm.
          apply connected_edge_free in Hm. destruct o; [done|].
          destruct (g_remove_vertex_len g k None I Hs Hm) as (g1 & E1 & Eed & Hl1).
          pose proof (g_remove_vertex_ok g k I) as [I1 S1]. rewrite E1 in *. simpl in I1, S1.
          destruct S1 as [(ob & Hob & _ & _ & Habs)|(_ & Hbad & _)]; [|done].
          destruct (IH (S k) g1) as (g' & E' & I' & Ed' & Hv').
          { done. }
          { intros v. rewrite Hc. rewrite !connected_vertices_spec. by rewrite Eed. }
          { destruct Hl1 as [Hl1|Hl1]; [left; lia|right; lia]. }
          exists g'. split; [done|]. split; [done|].
          assert (s_edges (abs g') = s_edges (abs g)) as HE.
          { rewrite Ed'. by rewrite Habs. }
          split; [done|].
          intros v.
          assert (forall v, edge_free (abs g1) v <-> edge_free (abs g) v) as Hef.
          { intros w. unfold edge_free. by rewrite Habs. }
          assert (isolated (abs g) k) as Hik.
          { split; [by rewrite abs_vertices, Hs|done]. }
          destruct (decide (v = k)) as [->|Hne].
          { left. split; [lia|]. split; [done|].
            destruct (Hv' k) as [(? & _)|(_ & ->)]; [lia|].
            rewrite Habs. simpl. by rewrite lookup_delete. }
          assert (s_vertices (abs g1) !! v = s_vertices (abs g) !! v) as Hsame.
          { rewrite Habs. simpl. by rewrite lookup_delete_ne. }
          destruct (Hv' v) as [(Hr & [Hi1 Hi2] & Hn)|(Hno & ->)].
          { left. split; [lia|]. split; [|done]. split; [by rewrite <- Hsame|by apply Hef]. }
          right. split; [|done]. intros [Hr [Hi1 Hi2]]. apply Hno. split; [lia|].
          split; [by rewrite Hsame|by apply Hef].
        * destruct (IH (S k) g I Hc) as (g' & E' & I' & Ed' & Hv'); [right; lia|].
          exists g'. split; [done|]. split; [done|]. split; [done|].
          intros v. destruct (Hv' v) as [(Hr & Hi & Hn)|(Hno & Hk)].
          { left. split; [lia|done]. }
          right. split; [|done]. intros [Hr Hi].
          destruct (decide (v = k)) as [->|Hne]; [|apply Hno; split; [lia|done]].
          destruct Hi as [Hi1 Hi2]. rewrite abs_vertices, Hs in Hi1. simpl in Hi1. injection Hi1 as ->.
          rewrite andb_true_r in Hcond. apply negb_false_iff, sset_mem_true, Hc in Hcond.
          by apply connected_edge_free in Hi2.
      + destruct (IH (S k) g I Hc) as (g' & E' & I' & Ed' & Hv'); [right; lia|].
        exists g'. split; [done|]. split; [done|]. split; [done|].
        intros v. destruct (Hv' v) as [(Hr & Hi & Hn)|(Hno & Hk)].
        { left. split; [lia|done]. }
        right. split; [|done]. intros [Hr Hi].
        destruct (decide (v = k)) as [->|Hne]; [|apply Hno; split; [lia|done]].
        destruct Hi as [Hi1 Hi2]. by rewrite abs_vertices, Hs in Hi1.
  Qed.

  Lemma g_remove_isolated_ok g : ginv g ->
    ginv (g_remove_isolated g).1 /\
    s_step (abs g) OpRemoveIsolated (abs (g_remove_isolated g).1)
      (result_map (fun _ => OutNone) (g_remove_isolated g).2).
  Proof.
    intros I. unfold g_remove_isolated.
    destruct (remove_isolated_loop_ok (g_connected_vertices g) (length (g_vertices g)) 0 g)
      as (g' & E' & I' & Ed' & Hv'); [done|done|by right|].
    rewrite E'. simpl. split; [done|]. split; [done|]. split; [done|].
    intros v. destruct (Hv' v) as [(_ & ? & ?)|(Hno & ?)]; [by left|].
    right. split; [|done]. intros Hi. apply Hno. split; [|done].
    destruct Hi as [Hi _]. rewrite abs_vertices in Hi.
    destruct (g_vertices g !! v) eqn:Hl; [|done]. apply lookup_lt_Some in Hl. lia.
  Qed.

  Lemma g_step_ok g o : ginv g ->
    ginv (g_step g o).1 /\ s_step (abs g) o (abs (g_step g o).1) (g_step g o).2.
  Proof.
    intros I. destruct o; simpl.
    - pose proof (g_add_vertex_ok g I). by destruct (g_add_vertex g).
    - pose proof (g_add_vertex_if_ok g v I). by destruct (g_add_vertex_if_not_present g v).
    - pose proof (g_add_edge_ok g v1 v2 o I). by destruct (g_add_edge g v1 v2 o).
    - pose proof (g_remove_edge_ok g e I). by destruct (g_remove_edge g e).
    - pose proof (g_remove_vertex_ok g v I). by destruct (g_remove_vertex g v).
    - by apply g_remove_all_edges_ok.
    - pose proof (g_remove_all_vertices_ok g I). by destruct (g_remove_all_vertices g).
    - pose proof (g_remove_isolated_ok g I). by destruct (g_remove_isolated g).
    - pose proof (g_set_vertex_object_ok g v o I). by destruct (g_set_vertex_object g v o).
    - destruct (g_adjacency_ok g I) as (H1 & H2 & H3 & H4 & H5).
      destruct (g_adjacency g) as [g' r]. simpl in *. subst r. done.
  Qed.

  Lemma g_run_inv ops g : ginv g -> ginv (g_run ops g).
  Proof.
    revert g. induction ops as [|o ops IH]; intros g I; [done|].
    apply IH. by apply g_step_ok.
  Qed.

  Lemma g_reachable_inv g : g_reachable g -> ginv g.
  Proof. intros [ops ->]. apply g_run_inv, ginv_init. Qed.

  (** ** Counts and listings *)
  Lemma g_get_vertices_spec g v : v ∈ g_get_vertices g <-> is_Some (s_vertices (abs g) !! v).
  Proof.
    unfold g_get_vertices. rewrite elem_of_list_filter, elem_of_seq, abs_vertices.
    unfold g_vertex_exists. destruct (g_vertices g !! v) as [[o|]|] eqn:Hl; simpl.
    - apply lookup_lt_Some in Hl. split; [eauto|]. intros _. split; [done|lia].
    - split; [naive_solver|]. by intros [].
    - split; [naive_solver|]. by intros [].
  Qed.
  Lemma g_get_edges_spec g e : e ∈ g_get_edges g <-> is_Some (s_edges (abs g) !! e).
  Proof.
    unfold g_get_edges. rewrite elem_of_list_filter, elem_of_seq, abs_edges.
    destruct (g_edges g !! e) as [[o|]|] eqn:Hl; simpl.
    - apply lookup_lt_Some in Hl. split; [eauto|]. intros _. split; [done|lia].
    - split; [naive_solver|]. by intros [].
    - split; [naive_solver|]. by intros [].
  Qed.

  Lemma ssorted_seq k n : ssorted (seq k n).
  Proof.
    revert k. induction n as [|n IH]; intros k; simpl; constructor; [apply IH|].
    rewrite Forall_forall. intros x Hx. apply elem_of_seq in Hx. lia.
  Qed.
  Lemma ssorted_filter (P : nat -> Prop) `{!forall x, Decision (P x)} l :
    ssorted l -> ssorted (filter P l).
  Proof.
    induction 1 as [|y l Hs IH Hf]; [constructor|].
    rewrite filter_cons. destruct (decide (P y)); [|done].
    constructor; [done|]. rewrite Forall_forall in *. intros z Hz.
    apply elem_of_list_filter in Hz as [_ Hz]. auto.
  Qed.

  Lemma filter_compl_length {A} (f : A -> bool) (l : list A) :
    length (filter (fun x => f x = true) l) + length (filter (fun x => f x = false) l) = length l.
  Proof.
    induction l as [|x l IH]; [done|]. rewrite !filter_cons.
    destruct (f x) eqn:Hf; simpl; lia.
  Qed.

  Lemma size_dom_list {A} (m : gmap nat A) (l : list nat) :
    NoDup l -> (forall k, k ∈ l <-> is_Some (m !! k)) -> size m = length l.
  Proof.
    intros Hnd Hl. rewrite <- size_dom.
    assert (dom m = list_to_set l :> gset nat) as ->.
    { apply set_eq. intros k. rewrite elem_of_dom, elem_of_list_to_set. by rewrite Hl. }
    by apply size_list_to_set.
  Qed.

  Lemma g_vertex_count_spec g : ginv g -> g_vertex_count g = size (s_vertices (abs g)).
  Proof.
    intros I. rewrite (size_dom_list _ (g_get_vertices g)).
    - unfold g_vertex_count, g_get_vertices.
      pose proof (filter_compl_length (g_vertex_exists g) (seq 0 (length (g_vertices g)))) as H.
      rewrite seq_length in H.
      assert (g_avail g = filter (fun v => g_vertex_exists g v = false) (seq 0 (length (g_vertices g)))) as ->; [|lia].
      apply ssorted_ext; [apply (inv_avail_s g I)|apply ssorted_filter, ssorted_seq|].
      intros v. rewrite (inv_avail g I), elem_of_list_filter, elem_of_seq. unfold g_vertex_exists.
      destruct (g_vertices g !! v) as [[o|]|] eqn:Hl.
      + naive_solver.
      + apply lookup_lt_Some in Hl. split; [|done]. intros _. split; [done|lia].
      + apply lookup_ge_None in Hl. split; [done|]. intros [_ ?]. lia.
    - apply ssorted_nodup, ssorted_filter, ssorted_seq.
    - apply g_get_vertices_spec.
  Qed.

  Lemma g_edge_count_spec g : ginv g -> g_edge_count g = size (s_edges (abs g)).
  Proof.
    intros I. rewrite (size_dom_list _ (g_get_edges g)).
    - unfold g_edge_count, g_get_edges.
      set (f := fun e => match g_edges g !! e with Some (Some _) => true | _ => false end).
      pose proof (filter_compl_length f (seq 0 (length (g_edges g)))) as H.
      rewrite seq_length in H.
      assert (g_removed g = filter (fun v => f v = false) (seq 0 (length (g_edges g)))) as ->.
      2: { subst f. simpl in *. lia. }
      apply ssorted_ext; [apply (inv_removed_s g I)|apply ssorted_filter, ssorted_seq|].
      intros v. rewrite (inv_removed g I), elem_of_list_filter, elem_of_seq. unfold f.
      destruct (g_edges g !! v) as [[o|]|] eqn:Hl.
      + naive_solver.
      + apply lookup_lt_Some in Hl. split; [|done]. intros _. split; [done|lia].
      + apply lookup_ge_None in Hl. split; [done|]. intros [_ ?]. lia.
    - apply ssorted_nodup, ssorted_filter, ssorted_seq.
    - apply g_get_edges_spec.
  Qed.

  Lemma incid_spec g i es v :
    (forall k, s_edges (abs g) !! (i + k) = ends <$> mjoin (es !! k)) ->
    incid i es v = flat_map (fun e => match s_edges (abs g) !! e with
                       | Some ed => (if decide (ed.1.1 = v) then [e] else []) ++
                                    (if decide (ed.1.2 = v) then [e] else [])
                       | None => []
                       end) (seq i (length es)).
  Proof.
    revert i. induction es as [|s es IH]; intros i H; [done|].
    cbn [incid seq length flat_map].
    pose proof (H 0) as H0. rewrite Nat.add_0_r in H0. rewrite H0. cbn.
    rewrite <- (IH (S i)).
    2: { intros k. specialize (H (S k)). by rewrite Nat.add_succ_r in H. }
    destruct s as [ed|]; simpl; [|done]. by rewrite <- app_assoc.
  Qed.

  Lemma incid_incident g v : incid 0 (g_edges g) v = incident (abs g) (length (g_edges g)) v.
  Proof. apply incid_spec. intros k. apply abs_edges. Qed.

  Lemma elem_of_incid g v e :
    e ∈ incid 0 (g_edges g) v <->
    exists ed, g_edges g !! e = Some (Some ed) /\ (e_v1 ed = v \/ e_v2 ed = v).
  Proof.
    rewrite incid_incident. unfold incident. rewrite elem_of_list_In, in_flat_map. split.
    - intros (x & Hx & Hin). rewrite abs_edges in Hin.
      destruct (g_edges g !! x) as [[ed|]|] eqn:Hl; simpl in Hin; try done.
      apply in_app_iff in Hin as [Hin|Hin]; case_decide; simpl in Hin; naive_solver.
    - intros (ed & He & Hv). exists e. split.
      + apply elem_of_list_In, elem_of_seq. apply lookup_lt_Some in He. lia.
      + rewrite abs_edges, He. simpl. apply in_app_iff.
        destruct Hv as [Hv|Hv]; [left|right]; rewrite decide_True by done; simpl; auto.
  Qed.
End proofs.

#[global] Opaque abs.
