(** Abstract specification of an undirected multigraph with numbered vertices and edges:
    two finite maps.  Written without reference to the storage of the C++ class. *)
From stdpp Require Export gmap fin_maps.
From Verif Require Import Base Graph.

Section spec.
  Context {V E : Type}.

  (** Live vertices (number -> object) and live edges (number -> end points and object). *)
  Record sgraph := mkS {
    s_vertices : gmap nat (option V);
    s_edges : gmap nat (nat * nat * option E);
  }.

  Definition s_empty : sgraph := mkS ∅ ∅.

  (** The number handed out by an insertion: the smallest one not in use. *)
  Definition fresh {A} (m : gmap nat A) (n : nat) : Prop :=
    m !! n = None /\ forall k, k < n -> is_Some (m !! k).

  Definition touches (v : nat) (ed : nat * nat * option E) : Prop := ed.1.1 = v \/ ed.1.2 = v.
  Definition edge_free (s : sgraph) (v : nat) : Prop :=
    forall e ed, s_edges s !! e = Some ed -> ~ touches v ed.
  Definition isolated (s : sgraph) (v : nat) : Prop :=
    s_vertices s !! v = Some None /\ edge_free s v.

  (** What each operation must do.  [r] is the outcome seen by the caller, [s'] the graph afterwards. *)
  Definition s_step (s : sgraph) (o : gop V E) (s' : sgraph) (r : result (gout V E)) : Prop :=
    match o with
    | OpAddVertex =>
      exists v, fresh (s_vertices s) v /\ r = Ok (OutIndex v) /\
        s' = mkS (<[v := None]> (s_vertices s)) (s_edges s)
    | OpAddVertexIfNotPresent v =>
      r = Ok OutNone /\
      ((is_Some (s_vertices s !! v) /\ s' = s) \/
       (s_vertices s !! v = None /\ s' = mkS (<[v := None]> (s_vertices s)) (s_edges s)))
    | OpAddEdge v1 v2 o =>
      (is_Some (s_vertices s !! v1) /\ is_Some (s_vertices s !! v2) /\
       exists e, fresh (s_edges s) e /\ r = Ok (OutIndex e) /\
         s' = mkS (s_vertices s) (<[e := (v1, v2, o)]> (s_edges s))) \/
      ((s_vertices s !! v1 = None \/ s_vertices s !! v2 = None) /\ is_throw r = true /\ s' = s)
    | OpRemoveEdge e =>
      (exists ed, s_edges s !! e = Some ed /\ r = Ok (OutEdgeObj ed.2) /\
         s' = mkS (s_vertices s) (delete e (s_edges s))) \/
      (s_edges s !! e = None /\ is_throw r = true /\ s' = s)
    | OpRemoveVertex v =>
      (exists ob, s_vertices s !! v = Some ob /\ edge_free s v /\ r = Ok (OutVertexObj ob) /\
         s' = mkS (delete v (s_vertices s)) (s_edges s)) \/
      ((s_vertices s !! v = None \/ ~ edge_free s v) /\ is_throw r = true /\ s' = s)
    | OpRemoveAllEdges => r = Ok OutNone /\ s' = mkS (s_vertices s) ∅
    | OpRemoveAllVertices =>
      (* guaranteed: refused, without effect, while there are edges *)
      (s_edges s <> ∅ -> is_throw r = true /\ s' = s) /\
      (s_edges s = ∅ -> (r = Ok OutNone /\ s' = mkS ∅ ∅) \/ (is_throw r = true /\ s' = s))
    | OpRemoveIsolated =>
      r = Ok OutNone /\ s_edges s' = s_edges s /\
      forall v, (isolated s v /\ s_vertices s' !! v = None) \/
                (~ isolated s v /\ s_vertices s' !! v = s_vertices s !! v)
    | OpSetVertexObject v ob =>
      (is_Some (s_vertices s !! v) /\ r = Ok OutNone /\ s' = mkS (<[v := ob]> (s_vertices s)) (s_edges s)) \/
      (s_vertices s !! v = None /\ is_throw r = true /\ s' = s)
    | OpAdjacency => r = Ok OutNone /\ s' = s
    end.

  (** Observation of a concrete graph: what is live in each slot. *)
  Definition abs (g : graph V E) : sgraph :=
    mkS (omap (fun x => x) (map_seq 0 (g_vertices g) : gmap nat _))
        (omap (fun x => (fun ed => (e_v1 ed, e_v2 ed, e_obj ed)) <$> x) (map_seq 0 (g_edges g) : gmap nat _)).

  (** Edges incident to [v], in increasing order; a self-loop appears twice. *)
  Definition incident (s : sgraph) (bound : nat) (v : nat) : list nat :=
    flat_map (fun e => match s_edges s !! e with
                       | Some ed => (if decide (ed.1.1 = v) then [e] else []) ++
                                    (if decide (ed.1.2 = v) then [e] else [])
                       | None => []
                       end) (seq 0 bound).
End spec.
Arguments sgraph : clear implicits.

Section paths_spec.
  Context {V E : Type}.

  (** Edge number [e] joins vertices [a] and [b]. *)
  Definition sjoins (s : sgraph V E) (a e b : nat) (ob : option E) : Prop :=
    s_edges s !! e = Some (a, b, ob) \/ s_edges s !! e = Some (b, a, ob).

  (** [p] is the edge list of a path from [v] that visits no vertex twice, uses no cancelled edge,
      stops at its first completing vertex (the start vertex is not tested) and at no other. *)
  Definition simple_path (s : sgraph V E) (complete : option V -> bool) (cancel : option E -> bool)
    (v : nat) (p : list nat) : Prop :=
    exists ws : list nat,
      ws !! 0 = Some v /\ length ws = S (length p) /\ NoDup ws /\ p <> [] /\
      (forall i e, p !! i = Some e -> exists a b ob, ws !! i = Some a /\ ws !! (S i) = Some b /\
         sjoins s a e b ob /\ cancel ob = false) /\
      (forall i w, 0 < i -> ws !! i = Some w -> exists o, s_vertices s !! w = Some o /\
         (complete o = true <-> i = length p)).
End paths_spec.

Section reach_spec.
  Context {V E : Type}.
  (** One step of a traversal whose visitor answers CONTINUE exactly when [f] is true. *)
  Definition sgo (s : sgraph V E) (f : nat -> nat -> nat -> bool) (a b : nat) : Prop :=
    exists e ob, sjoins s a e b ob /\ f a e b = true.

  (** How many ends of edge [e] are the vertex [v] (2 for a self-loop on [v]). *)
  Definition ends_at (s : sgraph V E) (e v : nat) : nat :=
    match s_edges s !! e with
    | Some (a, b, _) => (if decide (a = v) then 1 else 0) + (if decide (b = v) then 1 else 0)
    | None => 0
    end.
  Definition occurrences (e : nat) (l : list nat) : nat := length (filter (fun x => x = e) l).

  Definition removes_vertex (o : gop V E) (s : sgraph V E) (v : nat) : Prop :=
    match o with
    | OpRemoveVertex w => w = v
    | OpRemoveAllVertices => True
    | OpRemoveIsolated => isolated s v
    | _ => False
    end.
  Definition writes_vertex (o : gop V E) (v : nat) : Prop :=
    match o with OpSetVertexObject w _ => w = v | _ => False end.
  Definition removes_edge (o : gop V E) (e : nat) : Prop :=
    match o with OpRemoveEdge e' => e' = e | OpRemoveAllEdges | OpRemoveAllVertices => True | _ => False end.
End reach_spec.
