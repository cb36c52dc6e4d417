(** Model of src/math/GraphUtil.cpp (connected components of an adjacency list) and of the way
    src/iidm/AbstractComponentsManager.cpp builds that adjacency list. *)
From Verif Require Import Base.

Section components.
  Context (adj : list (list nat)).            (* AdjacencyList: GraphUtil.hpp:23 *)

  (** The loop of GraphUtil.cpp:27-31 over the neighbours [ls]. *)
  Definition cc_loop (rec : nat -> list nat -> list (option nat) -> result (list nat * list (option nat))) :=
    fix loop (ls : list nat) (sz : list nat) (num : list (option nat)) : result (list nat * list (option nat)) :=
    match ls with
    | [] => Ok (sz, num)
    | v2 :: t =>
      let! n := vget num v2 in
      match n with
      | None => let! r := rec v2 sz num in loop t r.1 r.2
      | Some _ => loop t sz num
      end
    end.

  (** computeConnectedComponents(v1, c, ...): GraphUtil.cpp:22-32.  [fuel] bounds the recursion depth. *)
  Fixpoint cc_rec (c : nat) (fuel : nat) (v1 : nat) (sz : list nat) (num : list (option nat))
    : result (list nat * list (option nat)) :=
    match fuel with
    | O => OutOfFuel
    | S fuel' =>
      let! num1 := vset num v1 (Some c) in
      let! n := vget sz c in
      let! sz1 := vset sz c (S n) in
      let! ls := vget adj v1 in
      cc_loop (cc_rec c fuel') ls sz1 num1
    end.

  (** The loop of GraphUtil.cpp:42-48: [todo] is the list of the vertices still to be examined. *)
  Fixpoint cc_outer (todo : list nat) (c : nat) (sz : list nat) (num : list (option nat))
    : result (nat * list nat * list (option nat)) :=
    match todo with
    | [] => Ok (c, sz, num)
    | v :: t =>
      let! n := vget num v in
      match n with
      | None => let! r := cc_rec c (S (length adj)) v sz num in cc_outer t (S c) r.1 r.2
      | Some _ => cc_outer t c sz num
      end
    end.

  (** GraphUtil.cpp:35-48. *)
  Definition cc_number : result (nat * list nat * list (option nat)) :=
    cc_outer (seq 0 (length adj)) 0 (replicate (length adj) 0) (replicate (length adj) None).

  (** GraphUtil.cpp:65-68: orderedComponents[i].orderedNumber = i, [p] being the list of the components
      in the order left by std::sort. *)
  Definition cc_ordered (c : nat) (p : list nat) : list nat :=
    foldl (fun o ik => <[ik.2 := ik.1]> o) (replicate c 0) (zip (seq 0 (length p)) p).

  (** GraphUtil.cpp:50-80 with [p] as above: components get their sizes, are renumbered. *)
  Definition cc_finish (p : list nat) (r : nat * list nat * list (option nat))
    : result (list (option nat) * list nat) :=
    let '(c, sz, num) := r in
    let ord := cc_ordered c p in
    let! sz' := foldl (fun acc comp => let! s := acc in let! i := vget ord comp in let! n := vget sz comp in vset s i n)
                      (Ok (resize c 0 sz)) p in
    let! num' := foldr (fun n acc => let! a := acc in
                          match n with
                          | None => UB                       (* *it of an empty optional *)
                          | Some k => let! o := vget ord k in Ok (Some o :: a)
                          end) (Ok []) num in
    Ok (num', sz').

  (** std::sort with the comparator of GraphUtil.cpp:61-63 (not stable): the order left is some permutation
      of the components in which no component is followed by a strictly larger one. *)
  Definition sorted_components (r : nat * list nat * list (option nat)) (p : list nat) : Prop :=
    let '(c, sz, _) := r in
    p ≡ₚ seq 0 c /\ StronglySorted (fun a b => default 0 (sz !! b) <= default 0 (sz !! a)) p.

  (** computeConnectedComponents(adjacencyList): GraphUtil.cpp:34-83, every possible result. *)
  Definition cc_result (num : list (option nat)) (sz : list nat) : Prop :=
    exists r p, cc_number = Ok r /\ sorted_components r p /\ cc_finish p r = Ok (num, sz).
End components.

(** addToAdjacencyList: AbstractComponentsManager.cpp:38-45, buses given by their number in the bus view
    (the id -> number map is modelled apart). *)
Definition acm_add_link (adj : list (list nat)) (l : option nat * option nat) : list (list nat) :=
  match l with
  | (Some b1, Some b2) => alter (fun x => x ++ [b1]) b2 (alter (fun x => x ++ [b2]) b1 adj)
  | _ => adj
  end.

(** fillAdjacencyList: AbstractComponentsManager.cpp:47-68, ConnectedComponentsManager.cpp:34-41.
    [links] are the pairs of buses of the lines and two windings transformers; a three windings transformer
    (and for connected components an HVDC line) contributes its pairs, see [twt3_links]. *)
Definition acm_fill (n : nat) (links : list (option nat * option nat)) : list (list nat) :=
  foldl acm_add_link (replicate n []) links.
Definition twt3_links (b : option nat * option nat * option nat) : list (option nat * option nat) :=
  let '(b1, b2, b3) := b in [(b1, b2); (b1, b3); (b2, b3)].
