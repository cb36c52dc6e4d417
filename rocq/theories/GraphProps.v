(** Property theorems about the undirected graph: C01 - C05. *)
From stdpp Require Import gmap fin_maps.
From Verif Require Import Base Graph GraphSpec GraphProofs GraphTraverse GraphPaths GraphMore.

(** The example graph used below: vertices 0..4 (4 isolated, then 3 removed and re-created),
    a parallel pair 0-1, a self-loop on 2, a triangle 0-1-2. *)
Definition ex_ops : list (gop nat nat) :=
  [OpAddVertexIfNotPresent 4; OpAddVertex; OpAddVertex; OpAddVertex; OpAddVertex;
   OpAddEdge 0 1 (Some 10); OpAddEdge 0 1 (Some 11); OpAddEdge 1 2 (Some 12);
   OpAdjacency; OpRemoveEdge 1; OpAddEdge 2 2 (Some 13); OpAddEdge 0 1 None; OpAddEdge 2 0 (Some 14);
   OpSetVertexObject 2 (Some 7); OpRemoveVertex 3; OpAddVertex].
Definition ex_g : graph nat nat := g_run ex_ops g_init.
Lemma ex_g_reachable : g_reachable ex_g.
Proof. by exists ex_ops. Qed.

(** ** C01 *)

(** Every operation, from every reachable state, does what the two-maps specification says. *)
Theorem C01_graph_refines_spec {V E} (g : graph V E) (o : gop V E) :
  g_reachable g -> s_step (abs g) o (abs (g_step g o).1) (g_step g o).2.
Proof. intros H. exact (proj2 (g_step_ok g o (g_reachable_inv g H))). Qed.
Print Assumptions C01_graph_refines_spec.
Example C01_graph_refines_spec_ex :
  g_reachable ex_g /\ (g_step ex_g (OpAddEdge 3 4 None)).2 = Ok (OutIndex 5) /\
  (g_step ex_g (OpRemoveVertex 0)).2 = Throw "An edge is connected to the vertex".
Proof. split; [exact ex_g_reachable|]. vm_compute. done. Qed.

(** No operation has undefined behaviour, whatever the arguments. *)
Theorem C01_graph_memory_safe {V E} (g : graph V E) (o : gop V E) :
  g_reachable g -> (g_step g o).2 <> UB /\ (g_step g o).2 <> OutOfFuel.
Proof. intros H. exact (step_defined g o (g_reachable_inv g H)). Qed.
Print Assumptions C01_graph_memory_safe.
Example C01_graph_memory_safe_ex : g_reachable ex_g /\ (g_step ex_g (OpRemoveEdge 77)).2 = Throw "Edge not found".
Proof. split; [exact ex_g_reachable|]. vm_compute. done. Qed.

(** A throwing operation changes nothing. *)
Theorem C01_graph_throw_unchanged {V E} (g : graph V E) (o : gop V E) :
  g_reachable g -> is_throw (g_step g o).2 = true -> abs (g_step g o).1 = abs g.
Proof. intros H. exact (step_throw_unchanged g o (g_reachable_inv g H)). Qed.
Print Assumptions C01_graph_throw_unchanged.
Example C01_graph_throw_unchanged_ex : g_reachable ex_g /\ is_throw (g_step ex_g (OpAddEdge 0 9 None)).2 = true.
Proof. split; [exact ex_g_reachable|]. vm_compute. done. Qed.

(** Handles are stable: a live vertex keeps its object, a live edge its ends and object. *)
Theorem C01_vertex_stable {V E} (g : graph V E) (o : gop V E) v ob :
  g_reachable g -> s_vertices (abs g) !! v = Some ob ->
  ~ removes_vertex o (abs g) v -> ~ writes_vertex o v ->
  s_vertices (abs (g_step g o).1) !! v = Some ob.
Proof. intros H. exact (step_vertex_stable g o v ob (g_reachable_inv g H)). Qed.
Print Assumptions C01_vertex_stable.
Theorem C01_edge_stable {V E} (g : graph V E) (o : gop V E) e ed :
  g_reachable g -> s_edges (abs g) !! e = Some ed -> ~ removes_edge o e ->
  s_edges (abs (g_step g o).1) !! e = Some ed.
Proof. intros H. exact (step_edge_stable g o e ed (g_reachable_inv g H)). Qed.
Print Assumptions C01_edge_stable.
Example C01_stable_ex :
  g_reachable ex_g /\ s_vertices (abs ex_g) !! 2 = Some (Some 7) /\
  s_edges (abs ex_g) !! 1 = Some (2, 2, Some 13) /\ ~ removes_edge (V:=nat) (E:=nat) (OpRemoveEdge 0) 1.
Proof. split; [exact ex_g_reachable|]. vm_compute. done. Qed.

(** Listings and counts are exact. *)
Theorem C01_counts_exact {V E} (g : graph V E) : g_reachable g ->
  g_vertex_count g = size (s_vertices (abs g)) /\ g_edge_count g = size (s_edges (abs g)) /\
  (forall v, v ∈ g_get_vertices g <-> is_Some (s_vertices (abs g) !! v)) /\ NoDup (g_get_vertices g) /\
  (forall e, e ∈ g_get_edges g <-> is_Some (s_edges (abs g) !! e)) /\ NoDup (g_get_edges g).
Proof.
  intros H%g_reachable_inv.
  exact (conj (g_vertex_count_spec g H) (conj (g_edge_count_spec g H)
   (conj (g_get_vertices_spec g) (conj (ssorted_nodup _ (ssorted_filter _ _ (ssorted_seq _ _)))
   (conj (g_get_edges_spec g) (ssorted_nodup _ (ssorted_filter _ _ (ssorted_seq _ _)))))))).
Qed.
Print Assumptions C01_counts_exact.
Example C01_counts_exact_ex : g_reachable ex_g /\ g_vertex_count ex_g = 5 /\ g_edge_count ex_g = 5.
Proof. split; [exact ex_g_reachable|]. vm_compute. done. Qed.

(** ** C02: the adjacency list seen by any query lists exactly the incident edges
    (twice for a self-loop), whatever the history of mutations and queries. *)
Theorem C02_adjacency_exact {V E} (g : graph V E) : g_reachable g ->
  exists adj, (g_adjacency g).2 = Ok adj /\ length adj = g_vertex_capacity g /\
    forall v l, adj !! v = Some l -> forall e, occurrences e l = ends_at (abs g) e v.
Proof. intros H. exact (adjacency_exact g (g_reachable_inv g H)). Qed.
Print Assumptions C02_adjacency_exact.
Example C02_adjacency_exact_ex :
  g_reachable ex_g /\ (g_adjacency ex_g).2 = Ok [[0; 3; 4]; [0; 2; 3]; [1; 1; 2; 4]; []; []].
Proof. split; [exact ex_g_reachable|]. vm_compute. done. Qed.

(** ** C03: traverse marks exactly the reachable vertices, calls the visitor only on edges leaving
    a visited vertex, on every edge from a visited vertex to one that is not, and enters each vertex once. *)
Theorem C03_traverse_exact {V E St} (g : graph V E) (f : nat -> nat -> nat -> bool)
    (upd : St -> nat -> nat -> nat -> St) v s :
  g_reachable g -> is_Some (s_vertices (abs g) !! v) ->
  exists enc log,
    (g_traverse (ptrav f upd) g v s).2 = Ok (enc, foldl (fun s c => upd s c.1.1 c.1.2 c.2) s log) /\
    length enc = g_vertex_capacity g /\
    (forall w, enc !! w = Some true <-> rtc (sgo (abs g) f) v w) /\
    (forall a e b, (a, e, b) ∈ log -> (exists ob, sjoins (abs g) a e b ob) /\ rtc (sgo (abs g) f) v a) /\
    NoDup (map snd (filter (fun c => f c.1.1 c.1.2 c.2 = true) log)) /\
    (forall w, w ∈ map snd (filter (fun c => f c.1.1 c.1.2 c.2 = true) log) <-> w <> v /\ rtc (sgo (abs g) f) v w) /\
    (forall a e b ob, rtc (sgo (abs g) f) v a -> sjoins (abs g) a e b ob -> ~ rtc (sgo (abs g) f) v b -> (a, e, b) ∈ log).
Proof. intros H. exact (traverse_ok g f upd v s (g_reachable_inv g H)). Qed.
Print Assumptions C03_traverse_exact.
Example C03_traverse_exact_ex :
  g_reachable ex_g /\ is_Some (s_vertices (abs ex_g) !! 0) /\
  (g_traverse (ptrav (fun _ e _ => negb (e =? 4)) (fun s a e b => s ++ [(a, e, b)])) ex_g 0 []).2 =
    Ok ([true; true; true; false; false], [(0, 0, 1); (1, 2, 2)]).
Proof. split; [exact ex_g_reachable|]. split; [by exists None|]. vm_compute. done. Qed.

(** ** C04: findAllPaths, for every outcome of the (unstable) final sort. *)
Theorem C04_find_all_paths_exact {V E} (g : graph V E) complete cancel v res :
  g_reachable g -> is_Some (s_vertices (abs g) !! v) ->
  g_find_all_paths_result complete cancel g v res ->
  NoDup res /\ sorted_by_length res /\ forall p, p ∈ res <-> simple_path (abs g) complete cancel v p.
Proof. intros H. exact (find_all_paths_ok g complete cancel v res (g_reachable_inv g H)). Qed.
Print Assumptions C04_find_all_paths_exact.
(** It always returns normally on a live vertex. *)
Theorem C04_find_all_paths_total {V E} (g : graph V E) complete cancel v :
  g_reachable g -> is_Some (s_vertices (abs g) !! v) ->
  exists raw, (g_find_all_paths_raw complete cancel g v).2 = Ok raw /\ NoDup raw /\
    forall p, p ∈ raw <-> simple_path (abs g) complete cancel v p.
Proof. intros H. exact (find_all_paths_raw_ok g complete cancel v (g_reachable_inv g H)). Qed.
Print Assumptions C04_find_all_paths_total.
Example C04_find_all_paths_ex :
  g_reachable ex_g /\ is_Some (s_vertices (abs ex_g) !! 0) /\
  g_find_all_paths_result (fun o => match o with Some 7 => true | _ => false end)
    (fun o => match o with Some 10 => true | _ => false end) ex_g 0 [[4]; [3; 2]].
Proof.
  split; [exact ex_g_reachable|]. split; [by exists None|].
  exists [[3; 2]; [4]]. split; [vm_compute; done|]. split; [constructor|]. repeat constructor.
Qed.

(** ** C05 *)
Theorem C05_remove_isolated_exact {V E} (g : graph V E) : g_reachable g ->
  (g_step g OpRemoveIsolated).2 = Ok OutNone /\
  s_edges (abs (g_step g OpRemoveIsolated).1) = s_edges (abs g) /\
  forall v, (isolated (abs g) v /\ s_vertices (abs (g_step g OpRemoveIsolated).1) !! v = None) \/
            (~ isolated (abs g) v /\ s_vertices (abs (g_step g OpRemoveIsolated).1) !! v = s_vertices (abs g) !! v).
Proof. intros H. exact (proj2 (g_step_ok g OpRemoveIsolated (g_reachable_inv g H))). Qed.
Print Assumptions C05_remove_isolated_exact.
Example C05_remove_isolated_ex :
  g_reachable ex_g /\ g_get_vertices ex_g = [0; 1; 2; 3; 4] /\
  g_get_vertices (g_step ex_g OpRemoveIsolated).1 = [0; 1; 2].
Proof. split; [exact ex_g_reachable|]. vm_compute. done. Qed.

(** removeAllVertices is refused, without effect, while there are edges, and clears the graph when it
    returns.  Full claim "it succeeds whenever there is no edge left": false, see below. *)
Theorem C05_remove_all_vertices_partial {V E} (g : graph V E) : g_reachable g ->
  (s_edges (abs g) <> ∅ -> is_throw (g_step g OpRemoveAllVertices).2 = true /\
                           abs (g_step g OpRemoveAllVertices).1 = abs g) /\
  (s_edges (abs g) = ∅ ->
     ((g_step g OpRemoveAllVertices).2 = Ok OutNone /\ abs (g_step g OpRemoveAllVertices).1 = mkS ∅ ∅) \/
     (is_throw (g_step g OpRemoveAllVertices).2 = true /\ abs (g_step g OpRemoveAllVertices).1 = abs g)).
Proof. intros H. exact (proj2 (g_step_ok g OpRemoveAllVertices (g_reachable_inv g H))). Qed.
Print Assumptions C05_remove_all_vertices_partial.
(** After removeAllEdges it does succeed. *)
Theorem C05_remove_all_vertices_after_all_edges {V E} (g : graph V E) :
  (g_remove_all_vertices (g_remove_all_edges g)).2 = Ok tt.
Proof. reflexivity. Qed.
Print Assumptions C05_remove_all_vertices_after_all_edges.
(** Removing the edges one by one in the wrong order leaves a null slot behind: removeAllVertices
    then refuses although the graph has no edge. *)
Theorem C05_remove_all_vertices_refuted :
  exists g : graph nat nat, g_reachable g /\ g_edge_count g = 0 /\ s_edges (abs g) = ∅ /\
    is_throw (g_step g OpRemoveAllVertices).2 = true.
Proof.
  set (g := g_run [OpAddVertex; OpAddVertex; OpAddEdge 0 1 None; OpAddEdge 0 1 None;
                   OpRemoveEdge 0; OpRemoveEdge 1] (@g_init nat nat)).
  assert (g_reachable g) as Hg by (by eexists).
  exists g. split; [done|]. split; [done|]. split; [|vm_compute; done].
  apply map_size_empty_iff. rewrite <- (g_edge_count_spec g); [done|]. by apply g_reachable_inv.
Qed.
Print Assumptions C05_remove_all_vertices_refuted.
