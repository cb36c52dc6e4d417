(** Model of [math::UndirectedGraph] (include/powsybl/math/UndirectedGraph.hxx, .hpp).

    Simplifications, valid for the whole file:
    - [unsigned long] and [std::size_t] are [nat] (no wrap-around, except that [v - 1] for [v = 0]
      in [removeVertex] is treated explicitly);
    - the mutex of the adjacency cache is not modelled (single-threaded use);
    - vertex and edge objects are values of arbitrary types [V] and [E]; a null
      [stdcxx::Reference] is [None]. *)
From Verif Require Import Base.

Section graph.
  Context {V E : Type}.

  (** Class [Edge]: UndirectedGraph.hpp:145-167. *)
  Record edge := mkEdge { e_v1 : nat; e_v2 : nat; e_obj : option E }.

  (** Data members: UndirectedGraph.hpp:131-141.  A null [unique_ptr] is [None];
      class [Vertex] (hpp:169-185) only holds the object reference. *)
  Record graph := mkGraph {
    g_vertices : list (option (option V));
    g_edges    : list (option edge);
    g_avail    : list nat;              (* m_availableVertices *)
    g_removed  : list nat;              (* m_removedEdges *)
    g_adj      : list (list nat);       (* m_adjacencyList: cache *)
  }.

  (** Default constructor: UndirectedGraph.hpp:42. *)
  Definition g_init : graph := mkGraph [] [] [] [] [].

  (** invalidateAdjacencyList: UndirectedGraph.hxx:328-333. *)
  Definition g_invalidate (g : graph) : graph :=
    mkGraph (g_vertices g) (g_edges g) (g_avail g) (g_removed g) [].

  (** vertexExists: UndirectedGraph.hxx:453-456. *)
  Definition g_vertex_exists (g : graph) (v : nat) : bool :=
    match g_vertices g !! v with Some (Some _) => true | _ => false end.

  (** checkVertex (hxx:95-99) passes iff the slot exists and is non null: same test as vertexExists. *)
  Definition g_check_vertex (g : graph) (v : nat) : result (option V) :=
    match g_vertices g !! v with
    | Some (Some o) => Ok o
    | _ => Throw "Vertex not found"
    end.

  (** checkEdge: UndirectedGraph.hxx:88-92. *)
  Definition g_check_edge (g : graph) (e : nat) : result edge :=
    match g_edges g !! e with
    | Some (Some ed) => Ok ed
    | _ => Throw "Edge not found"
    end.

  (** addEdge: UndirectedGraph.hxx:27-47.  [m_edges[e] = ...] on a recycled index is an
      unchecked access: out of bounds gives [UB]. *)
  Definition g_add_edge (g : graph) (v1 v2 : nat) (o : option E) : graph * result nat :=
    match g_check_vertex g v1 with
    | Ok _ =>
      match g_check_vertex g v2 with
      | Ok _ =>
        let ed := mkEdge v1 v2 o in
        match g_removed g with
        | [] =>
          (g_invalidate (mkGraph (g_vertices g) (g_edges g ++ [Some ed]) (g_avail g) [] (g_adj g)),
           Ok (length (g_edges g)))
        | e :: rem =>
          match vset (g_edges g) e (Some ed) with
          | Ok es => (g_invalidate (mkGraph (g_vertices g) es (g_avail g) rem (g_adj g)), Ok e)
          | _ => (g, UB)
          end
        end
      | _ => (g, Throw "Vertex not found")
      end
    | _ => (g, Throw "Vertex not found")
    end.

  (** addVertex: UndirectedGraph.hxx:49-67. *)
  Definition g_add_vertex (g : graph) : graph * result nat :=
    match g_avail g with
    | [] =>
      (g_invalidate (mkGraph (g_vertices g ++ [Some None]) (g_edges g) [] (g_removed g) (g_adj g)),
       Ok (length (g_vertices g)))
    | v :: av =>
      match vset (g_vertices g) v (Some None) with
      | Ok vs => (g_invalidate (mkGraph vs (g_edges g) av (g_removed g) (g_adj g)), Ok v)
      | _ => (g, UB)
      end
    end.

  (** addVertexIfNotPresent: UndirectedGraph.hxx:69-85.  The loop inserts the indices
      [size .. v-1] in the free list (the [unsigned int] loop counter is not narrowed here). *)
  Definition g_add_vertex_if_not_present (g : graph) (v : nat) : graph * result unit :=
    let n := length (g_vertices g) in
    if decide (v < n) then
      if sset_mem v (g_avail g) then
        (g_invalidate (mkGraph (<[v := Some None]> (g_vertices g)) (g_edges g)
                               (sset_erase v (g_avail g)) (g_removed g) (g_adj g)), Ok tt)
      else (g_invalidate g, Ok tt)
    else
      (g_invalidate (mkGraph (g_vertices g ++ replicate (v - n) None ++ [Some None]) (g_edges g)
                             (foldl (fun av i => sset_insert i av) (g_avail g) (seq n (v - n)))
                             (g_removed g) (g_adj g)), Ok tt).

  (** cleanVertices: UndirectedGraph.hxx:101-111, called with [v - 1]; here the argument is
      the number [n] of candidate slots ([v + 1] in the code, 0 standing for the wrapped [v = -1],
      for which the C++ loop looks up ULONG_MAX, fails and returns).  [pop_back] on an empty
      vector is undefined behaviour. *)
  Fixpoint g_clean_vertices (n : nat) (vs : list (option (option V))) (av : list nat)
    : result (list (option (option V)) * list nat) :=
    match n with
    | 0 => Ok (vs, av)
    | S k =>
      if sset_mem k av then
        match vs with
        | [] => UB
        | _ => g_clean_vertices k (removelast vs) (sset_erase k av)
        end
      else Ok (vs, av)
    end.

  (** getEdges / getVertices: UndirectedGraph.hxx:258-265 and 319-326. *)
  Definition g_get_edges (g : graph) : list nat :=
    filter (fun e => match g_edges g !! e with Some (Some _) => true | _ => false end = true)
           (seq 0 (length (g_edges g))).
  Definition g_get_vertices (g : graph) : list nat :=
    filter (fun v => g_vertex_exists g v = true) (seq 0 (length (g_vertices g))).

  (** getEdgeCount (hxx:207-210), getVertexCount (hxx:291-294), getVertexCapacity (hxx:286-289). *)
  Definition g_edge_count (g : graph) : nat := length (g_edges g) - length (g_removed g).
  Definition g_vertex_count (g : graph) : nat := length (g_vertices g) - length (g_avail g).
  Definition g_vertex_capacity (g : graph) : nat := length (g_vertices g).

  (** getEdgeObject, getVertex1, getVertex2, getVertexObject: hxx:212-217, 272-283, 296-301. *)
  Definition g_edge_object (g : graph) (e : nat) : result (option E) :=
    result_map e_obj (g_check_edge g e).
  Definition g_vertex1 (g : graph) (e : nat) : result nat := result_map e_v1 (g_check_edge g e).
  Definition g_vertex2 (g : graph) (e : nat) : result nat := result_map e_v2 (g_check_edge g e).
  Definition g_vertex_object (g : graph) (v : nat) : result (option V) := g_check_vertex g v.

  (** removeEdge: UndirectedGraph.hxx:355-370. *)
  Definition g_remove_edge (g : graph) (e : nat) : graph * result (option E) :=
    match g_check_edge g e with
    | Ok ed =>
      if decide (e = length (g_edges g) - 1) then
        (g_invalidate (mkGraph (g_vertices g) (removelast (g_edges g)) (g_avail g) (g_removed g) (g_adj g)),
         Ok (e_obj ed))
      else
        (g_invalidate (mkGraph (g_vertices g) (<[e := None]> (g_edges g)) (g_avail g)
                               (sset_insert e (g_removed g)) (g_adj g)),
         Ok (e_obj ed))
    | Throw m => (g, Throw m)
    | UB => (g, UB)
    | OutOfFuel => (g, OutOfFuel)
    end.

  (** removeAllEdges: UndirectedGraph.hxx:335-341. *)
  Definition g_remove_all_edges (g : graph) : graph :=
    g_invalidate (mkGraph (g_vertices g) [] (g_avail g) [] (g_adj g)).

  (** removeAllVertices: UndirectedGraph.hxx:343-353.  The test is on the raw vector,
      null slots included. *)
  Definition g_remove_all_vertices (g : graph) : graph * result unit :=
    match g_edges g with
    | [] => (g_invalidate (mkGraph [] (g_edges g) [] (g_removed g) (g_adj g)), Ok tt)
    | _ => (g, Throw "Cannot remove all vertices because there is still some edges in the graph")
    end.

  Definition edge_touches (v : nat) (s : option edge) : bool :=
    match s with
    | Some ed => (e_v1 ed =? v) || (e_v2 ed =? v)
    | None => false
    end.

  (** removeVertex: UndirectedGraph.hxx:388-411. *)
  Definition g_remove_vertex (g : graph) (v : nat) : graph * result (option V) :=
    match g_check_vertex g v with
    | Ok o =>
      if existsb (edge_touches v) (g_edges g) then
        (g, Throw "An edge is connected to the vertex")
      else if decide (v = length (g_vertices g) - 1) then
        match g_clean_vertices v (removelast (g_vertices g)) (g_avail g) with
        | Ok (vs, av) => (g_invalidate (mkGraph vs (g_edges g) av (g_removed g) (g_adj g)), Ok o)
        | _ => (g, UB)
        end
      else
        (g_invalidate (mkGraph (<[v := None]> (g_vertices g)) (g_edges g)
                               (sset_insert v (g_avail g)) (g_removed g) (g_adj g)), Ok o)
    | Throw m => (g, Throw m)
    | UB => (g, UB)
    | OutOfFuel => (g, OutOfFuel)
    end.

  (** removeIsolatedVertices: UndirectedGraph.hxx:372-386.  The range getVertices() is lazy:
      its bound is fixed at the start, its filter reads [m_vertices[v]] (unchecked) at each step. *)
  Definition g_connected_vertices (g : graph) : list nat :=
    flat_map (fun s => match s with Some ed => [e_v1 ed; e_v2 ed] | None => [] end) (g_edges g).
  Fixpoint g_remove_isolated_loop (conn : list nat) (vs : list nat) (g : graph) : graph * result unit :=
    match vs with
    | [] => (g, Ok tt)
    | v :: vs' =>
      match g_vertices g !! v with
      | None => (g, UB)                                       (* filter: m_vertices[v] *)
      | Some None => g_remove_isolated_loop conn vs' g        (* filtered out *)
      | Some (Some o) =>
        if negb (sset_mem v conn) && (match o with None => true | Some _ => false end) then
          match g_remove_vertex g v with
          | (g', Ok _) => g_remove_isolated_loop conn vs' g'
          | (g', Throw m) => (g', Throw m)
          | (g', UB) => (g', UB)
          | (g', OutOfFuel) => (g', OutOfFuel)
          end
        else g_remove_isolated_loop conn vs' g
      end
    end.
  Definition g_remove_isolated (g : graph) : graph * result unit :=
    g_remove_isolated_loop (g_connected_vertices g) (seq 0 (length (g_vertices g))) g.

  (** setVertexObject: UndirectedGraph.hxx:413-418. *)
  Definition g_set_vertex_object (g : graph) (v : nat) (o : option V) : graph * result unit :=
    match g_check_vertex g v with
    | Ok _ => (mkGraph (<[v := Some o]> (g_vertices g)) (g_edges g) (g_avail g) (g_removed g) (g_adj g), Ok tt)
    | _ => (g, Throw "Vertex not found")
    end.

  (** getAdjacencyList: UndirectedGraph.hxx:181-205.  Rebuilt only when its size differs from
      the number of vertex slots; [resize] keeps existing entries; [push_back] through
      unchecked [operator[]]. *)
  Definition adj_push (adj : list (list nat)) (v e : nat) : result (list (list nat)) :=
    match adj !! v with Some l => Ok (<[v := l ++ [e]]> adj) | None => UB end.
  Fixpoint adj_fill (i : nat) (es : list (option edge)) (adj : list (list nat)) : result (list (list nat)) :=
    match es with
    | [] => Ok adj
    | None :: es' => adj_fill (S i) es' adj
    | Some ed :: es' =>
      let! adj1 := adj_push adj (e_v1 ed) i in
      let! adj2 := adj_push adj1 (e_v2 ed) i in
      adj_fill (S i) es' adj2
    end.
  Definition g_adjacency (g : graph) : graph * result (list (list nat)) :=
    if decide (length (g_adj g) = length (g_vertices g)) then (g, Ok (g_adj g))
    else
      match adj_fill 0 (g_edges g) (resize (length (g_vertices g)) [] (g_adj g)) with
      | Ok adj => (mkGraph (g_vertices g) (g_edges g) (g_avail g) (g_removed g) adj, Ok adj)
      | r => (g, r)
      end.

  (** traverse: UndirectedGraph.hxx:427-451.  The traverser may carry a state [S] (C++ closures
      with side effects) and answers [true] for TraverseResult::CONTINUE.  The adjacency list is
      read once (it does not change during a const traversal). [encountered] is resized by the caller
      of the recursion (line 431: a no-op on recursive calls). *)
  Section traverse.
    Context {S : Type} (trav : S -> nat -> nat -> nat -> S * bool).
    Context (vs : list (option (option V))) (es : list (option edge)) (adj : list (list nat)).

    Definition trav_edges (rec : nat -> list bool -> S -> result (list bool * S)) :=
      fix loop (l : list nat) (enc : list bool) (s : S) : result (list bool * S) :=
      match l with
      | [] => Ok (enc, s)
      | e :: l' =>
        match es !! e with
        | Some (Some ed) =>
          match enc !! e_v1 ed with
          | None => UB
          | Some false =>
            match trav s (e_v2 ed) e (e_v1 ed) with
            | (s', true) =>
              let! r := rec (e_v1 ed) (<[e_v1 ed := true]> enc) s' in
              loop l' r.1 r.2
            | (s', false) => loop l' enc s'
            end
          | Some true =>
            match enc !! e_v2 ed with
            | None => UB
            | Some true => loop l' enc s
            | Some false =>
              match trav s (e_v1 ed) e (e_v2 ed) with
              | (s', true) =>
                let! r := rec (e_v2 ed) (<[e_v2 ed := true]> enc) s' in
                loop l' r.1 r.2
              | (s', false) => loop l' enc s'
              end
            end
          end
        | _ => UB                                   (* null or missing edge dereferenced *)
        end
      end.

    Fixpoint trav_rec (fuel : nat) (v : nat) (enc : list bool) (s : S) : result (list bool * S) :=
      match fuel with
      | 0 => OutOfFuel
      | Datatypes.S fuel' =>
        match vs !! v with
        | Some (Some _) =>
          match adj !! v with
          | None => UB
          | Some l =>
            match vset enc v true with
            | Ok enc' => trav_edges (trav_rec fuel') l enc' s
            | _ => UB
            end
          end
        | _ => Throw "Vertex not found"
        end
      end.
  End traverse.

  (** traverse with a caller-provided [encountered] (hxx:428-431): resize then recursion.
      Fuel: one unit per vertex slot is enough (theorem). *)
  Definition g_traverse_enc {S} (trav : S -> nat -> nat -> nat -> S * bool)
    (g : graph) (v : nat) (enc : list bool) (s : S) : graph * result (list bool * S) :=
    match g_check_vertex g v with
    | Ok _ =>
      match g_adjacency g with
      | (g', Ok adj) =>
        (g', trav_rec trav (g_vertices g') (g_edges g') adj (Datatypes.S (length (g_vertices g'))) v
               (resize (length (g_vertices g')) false enc) s)
      | (g', _) => (g', UB)
      end
    | _ => (g, Throw "Vertex not found")
    end.

  (** traverse(v, traverser): UndirectedGraph.hxx:420-425. *)
  Definition g_traverse {S} (trav : S -> nat -> nat -> nat -> S * bool)
    (g : graph) (v : nat) (s : S) : graph * result (list bool * S) :=
    g_traverse_enc trav g v (replicate (length (g_vertices g)) false) s.

  (** findAllPaths: UndirectedGraph.hxx:128-179 (the two private overloads).
      [complete] receives the object of the reached vertex, [cancel] the object of the edge. *)
  Section paths.
    Context (complete : option V -> bool) (cancel : option E -> bool).
    Context (vs : list (option (option V))) (es : list (option edge)) (adj : list (list nat)).

    Definition paths_edges (v : nat) (enc : list bool) (path : list nat)
        (rec : nat -> list bool -> list nat -> result (list (list nat))) :=
      (* body of the second overload (hxx:161-179) for the edge [e] and the opposite vertex [w] *)
      let follow (e w : nat) : result (list (list nat)) :=
        match enc !! w with
        | None => UB
        | Some true => Ok []
        | Some false =>
          match vs !! w with
          | Some (Some o) =>
            if complete o then Ok [path ++ [e]] else rec w enc (path ++ [e])
          | _ => UB                                 (* null vertex dereferenced *)
          end
        end in
      fix loop (l : list nat) : result (list (list nat)) :=
      match l with
      | [] => Ok []
      | e :: l' =>
        match es !! e with
        | Some (Some ed) =>
          if cancel (e_obj ed) then loop l'
          else
            let! ps := (if v =? e_v2 ed then follow e (e_v1 ed)
                        else if v =? e_v1 ed then follow e (e_v2 ed)
                        else Throw "Edge is not connected to vertex") in
            let! ps' := loop l' in
            Ok (ps ++ ps')
        | _ => UB
        end
      end.

    Fixpoint paths_rec (fuel : nat) (v : nat) (enc : list bool) (path : list nat) : result (list (list nat)) :=
      match fuel with
      | 0 => OutOfFuel
      | Datatypes.S fuel' =>
        match vs !! v with
        | Some (Some _) =>
          match vset enc v true with
          | Ok enc' =>
            match adj !! v with
            | None => UB
            | Some l => paths_edges v enc' path (paths_rec fuel') l
            end
          | _ => UB
          end
        | _ => Throw "Vertex not found"
        end
      end.
  End paths.

  (** Paths in discovery order, before the final [std::sort]. *)
  Definition g_find_all_paths_raw (complete : option V -> bool) (cancel : option E -> bool)
    (g : graph) (v : nat) : graph * result (list (list nat)) :=
    match g_check_vertex g v with
    | Ok _ =>
      match g_adjacency g with
      | (g', Ok adj) =>
        (g', paths_rec complete cancel (g_vertices g') (g_edges g') adj (Datatypes.S (length (g_vertices g'))) v
               (replicate (length (g_vertices g')) false) [])
      | (g', _) => (g', UB)
      end
    | _ => (g, Throw "Vertex not found")
    end.

  (** findAllPaths: UndirectedGraph.hxx:113-126.  [std::sort] on the sizes is not stable:
      its result is any permutation of the paths sorted by length. *)
  Definition sorted_by_length (ps : list (list nat)) : Prop :=
    StronglySorted (fun p q => length p <= length q) ps.
  Definition g_find_all_paths_result (complete : option V -> bool) (cancel : option E -> bool)
    (g : graph) (v : nat) (res : list (list nat)) : Prop :=
    exists raw, (g_find_all_paths_raw complete cancel g v).2 = Ok raw /\ raw ≡ₚ res /\ sorted_by_length res.

  (** Mutators and cache-filling queries of the public interface. *)
  Inductive gop :=
  | OpAddVertex
  | OpAddVertexIfNotPresent (v : nat)
  | OpAddEdge (v1 v2 : nat) (o : option E)
  | OpRemoveEdge (e : nat)
  | OpRemoveVertex (v : nat)
  | OpRemoveAllEdges
  | OpRemoveAllVertices
  | OpRemoveIsolated
  | OpSetVertexObject (v : nat) (o : option V)
  | OpAdjacency.                          (* any query that fills the adjacency cache *)

  Inductive gout :=
  | OutNone
  | OutIndex (n : nat)
  | OutEdgeObj (o : option E)
  | OutVertexObj (o : option V).

  Definition g_step (g : graph) (o : gop) : graph * result gout :=
    match o with
    | OpAddVertex => let '(g', r) := g_add_vertex g in (g', result_map OutIndex r)
    | OpAddVertexIfNotPresent v => let '(g', r) := g_add_vertex_if_not_present g v in (g', result_map (fun _ => OutNone) r)
    | OpAddEdge v1 v2 o => let '(g', r) := g_add_edge g v1 v2 o in (g', result_map OutIndex r)
    | OpRemoveEdge e => let '(g', r) := g_remove_edge g e in (g', result_map OutEdgeObj r)
    | OpRemoveVertex v => let '(g', r) := g_remove_vertex g v in (g', result_map OutVertexObj r)
    | OpRemoveAllEdges => (g_remove_all_edges g, Ok OutNone)
    | OpRemoveAllVertices => let '(g', r) := g_remove_all_vertices g in (g', result_map (fun _ => OutNone) r)
    | OpRemoveIsolated => let '(g', r) := g_remove_isolated g in (g', result_map (fun _ => OutNone) r)
    | OpSetVertexObject v o => let '(g', r) := g_set_vertex_object g v o in (g', result_map (fun _ => OutNone) r)
    | OpAdjacency => let '(g', r) := g_adjacency g in (g', result_map (fun _ => OutNone) r)
    end.

  (** A history: an exception leaves the program running on the state it left behind. *)
  Definition g_run (ops : list gop) (g : graph) : graph := foldl (fun g o => (g_step g o).1) g ops.
  Definition g_reachable (g : graph) : Prop := exists ops, g = g_run ops g_init.
End graph.
Arguments edge : clear implicits.
Arguments graph : clear implicits.
Arguments gop : clear implicits.
Arguments gout : clear implicits.
Arguments mkEdge {E} _ _ _.
Arguments mkGraph {V E} _ _ _ _ _.
