(** Model of the range utilities: util/TerminalFinder.cpp, stdcxx/flattened.hpp, util/DistinctPredicate.cpp, and the ranges of
    Substation.cpp:60-102 and VoltageLevel.hxx:77-85 built with them. *)
From Verif Require Export Base.

(** ** TerminalFinder *)
Section finder.
  Context {T : Type} `{EqDecision T}.
  (** getComparator: TerminalFinder.cpp:27-39; areSame: equality of the objects. *)
  Fixpoint by_rules (rules : list (T -> bool)) (t1 t2 : T) : bool :=
    match rules with
    | [] => false
    | p :: rules' => if p t1 || p t2 then negb (p t1) && p t2 else by_rules rules' t1 t2
    end.
  Definition comparator (rules : list (T -> bool)) (t1 t2 : T) : bool := if bool_decide (t1 = t2) then false else by_rules rules t1 t2.
  (** std::max_element: the candidate is replaced when it is less than the element. *)
  Fixpoint max_loop (lt : T -> T -> bool) (best : T) (l : list T) : T :=
    match l with
    | [] => best
    | t :: l' => max_loop lt (if lt best t then t else best) l'
    end.
  (** find: 60-68. *)
  Definition tf_find (lt : T -> T -> bool) (l : list T) : option T := match l with [] => None | t :: l' => Some (max_loop lt t l') end.
End finder.
(** The connectables of the terminals by class: Injection is the class of the busbar sections and of the converter stations too
    (BusbarSection.hpp:17, HvdcConverterStation.hpp:20), Branch that of lines and two windings transformers. *)
Inductive ckind := KBusbar | KInjection | KBranch | KThreeWindings | KConverterStation.
Definition is_injection (k : ckind) : bool := match k with KBusbar | KInjection | KConverterStation => true | _ => false end.
(** getDefaultRules: 41-50. *)
Definition default_rules {T} (kind : T -> ckind) : list (T -> bool) :=
  [(fun t => match kind t with KBusbar => true | _ => false end); (fun t => is_injection (kind t));
   (fun t => match kind t with KBranch => true | _ => false end); (fun t => match kind t with KThreeWindings => true | _ => false end);
   (fun t => match kind t with KConverterStation => true | _ => false end)].

(** ** FlatteningIterator: flattened.hpp:24-102 *)
Section flat.
  Context {A : Type}.
  (** An iterator on [ll]: the outer position and the two inner positions (number of the inner range and position in it); [None] is
      a default constructed iterator.  The inner ranges are values: two evaluations of an outer position give the same range. *)
  Record fit := mkFit { fi_outer : nat; fi_begin : option (nat * nat); fi_end : option (nat * nat) }.
  Implicit Types (ll : list (list A)).
  (** skipEmptyRanges: 83-91; [m_outer_end] is [length ll]. *)
  Fixpoint fl_skip (fuel : nat) ll (it : fit) : result fit :=
    match fuel with
    | O => OutOfFuel
    | S f =>
      if bool_decide (fi_outer it <> length ll) && bool_decide (fi_begin it = fi_end it) then
        let o := S (fi_outer it) in
        if bool_decide (o <> length ll) then
          let! l := vget ll o in fl_skip f ll (mkFit o (Some (o, 0)) (Some (o, length l)))
        else fl_skip f ll (mkFit o (fi_begin it) (fi_end it))
      else Ok it
    end.
  (** Constructor from two outer iterators: 50-59. *)
  Definition fl_begin ll : result fit :=
    if bool_decide (0 <> length ll) then
      let! l := vget ll 0 in fl_skip (S (length ll)) ll (mkFit 0 (Some (0, 0)) (Some (0, length l)))
    else Ok (mkFit 0 None None).
  (** Constructor of the end: 43-48. *)
  Definition fl_end ll : fit := mkFit (length ll) None None.
  (** increment: 72-79. *)
  Definition fl_incr ll (it : fit) : result fit :=
    if bool_decide (fi_outer it = length ll) then Ok it
    else match fi_begin it with
         | None => UB
         | Some (i, p) => if bool_decide (Some (i, p) = fi_end it) then UB else fl_skip (S (length ll)) ll (mkFit (fi_outer it) (Some (i, S p)) (fi_end it))
         end.
  (** dereference: 81. *)
  Definition fl_deref ll (it : fit) : result A :=
    match fi_begin it with None => UB | Some (i, p) => let! l := vget ll i in vget l p end.
  (** boost::iterator_adaptor compares the adapted iterators, here the outer ones. *)
  Definition fl_eq (it1 it2 : fit) : bool := bool_decide (fi_outer it1 = fi_outer it2).
  (** for (x : range). *)
  Fixpoint fl_loop (fuel : nat) ll (it : fit) : result (list A) :=
    match fuel with
    | O => OutOfFuel
    | S f => if fl_eq it (fl_end ll) then Ok []
             else let! x := fl_deref ll it in let! it' := fl_incr ll it in result_map (cons x) (fl_loop f ll it')
    end.
  Definition fl_iterate (fuel : nat) ll : result (list A) := let! it := fl_begin ll in fl_loop fuel ll it.
End flat.

(** ** DistinctPredicate and the ranges filtered with it *)
(** The sets of ids shared by the copies of the predicates (std::shared_ptr, DistinctPredicate.cpp:19-22), by address. *)
Notation heap := (list (list string)).
Definition hget (h : heap) (loc : nat) : list string := default [] (h !! loc).
(** operator(): 24-31. *)
Definition distinct (h : heap) (loc : nat) (x : string) : bool * heap :=
  if bool_decide (x ∈ hget h loc) then (false, h) else (true, <[loc := x :: hget h loc]> h).
(** boost::filter_iterator on the ids of a voltage level: the ids from the position on; satisfy_predicate moves to the first id
    accepted by the predicate.  It is called by the constructor and by each increment, not by copies. *)
Fixpoint v_satisfy (h : heap) (loc : nat) (rest : list string) : heap * list string :=
  match rest with
  | [] => (h, [])
  | x :: r => match distinct h loc x with (true, h') => (h', x :: r) | (false, h') => v_satisfy h' loc r end
  end.
(** VoltageLevel::getConnectables<T>: VoltageLevel.hxx:77-85, a new predicate each time; [l]: the ids of the connectables of type T
    of the terminals of the voltage level, one per terminal. *)
Definition v_range (h : heap) (l : list string) : heap * (nat * list string) :=
  let loc := length h in let '(h', r) := v_satisfy (h ++ [[]]) loc l in (h', (loc, r)).
(** Iterating such a range from its begin iterator. *)
Fixpoint v_iterate (fuel : nat) (h : heap) (loc : nat) (rest : list string) : result (list string * heap) :=
  match fuel with
  | O => OutOfFuel
  | S f =>
    match rest with
    | [] => Ok ([], h)
    | x :: r => let '(h', r') := v_satisfy h loc r in result_map (fun p => (x :: p.1, p.2)) (v_iterate f h' loc r')
    end
  end.
(** The flattening iterator on the ranges of the voltage levels of a substation: the voltage levels from the current one on, and the
    inner iterator.  The range made to get the inner end is not represented: its predicate is never called again. *)
Record sflat := mkSf { sf_outer : list (list string); sf_rest : list string; sf_loc : nat }.
Fixpoint s_skip (h : heap) (outer : list (list string)) (rest : list string) (loc : nat) : heap * sflat :=
  match outer, rest with
  | [], _ => (h, mkSf [] rest loc)
  | _, _ :: _ => (h, mkSf outer rest loc)
  | _ :: outer', [] =>
    match outer' with
    | [] => (h, mkSf [] [] loc)
    | l :: _ => let '(h', (loc', rest')) := v_range h l in s_skip h' outer' rest' loc'
    end
  end.
Definition s_begin (h : heap) (vls : list (list string)) : heap * sflat :=
  match vls with
  | [] => (h, mkSf [] [] 0)
  | l :: _ => let '(h', (loc, rest)) := v_range h l in s_skip h' vls rest loc
  end.
Definition s_incr (h : heap) (it : sflat) : result (heap * sflat) :=
  match sf_outer it, sf_rest it with
  | [], _ => Ok (h, it)
  | _, [] => UB
  | o, _ :: r => let '(h', r') := v_satisfy h (sf_loc it) r in Ok (s_skip h' o r' (sf_loc it))
  end.
(** satisfy_predicate of the outer filter, with its own predicate. *)
Fixpoint s_satisfy (fuel : nat) (h : heap) (loc : nat) (it : sflat) : result (heap * sflat) :=
  match fuel with
  | O => OutOfFuel
  | S f =>
    match sf_outer it, sf_rest it with
    | [], _ => Ok (h, it)
    | _, [] => UB
    | _, x :: _ => match distinct h loc x with
                   | (true, h') => Ok (h', it)
                   | (false, h') => let! (h'', it') := s_incr h' it in s_satisfy f h'' loc it'
                   end
    end
  end.
(** Substation::getTwoWindingsTransformers, getThreeWindingsTransformers: Substation.cpp:60-79, 85-102; the begin iterator of the
    range and the address of its predicate. *)
Definition s_range (fuel : nat) (h : heap) (vls : list (list string)) : result (heap * (nat * sflat)) :=
  let loc := length h in
  let '(h1, it) := s_begin (h ++ [[]]) vls in
  let! (h2, it') := s_satisfy fuel h1 loc it in Ok (h2, (loc, it')).
Fixpoint s_iterate (fuel : nat) (h : heap) (loc : nat) (it : sflat) : result (list string * heap) :=
  match fuel with
  | O => OutOfFuel
  | S f =>
    match sf_outer it, sf_rest it with
    | [], _ => Ok ([], h)
    | _, [] => UB
    | _, x :: _ => let! (h', it') := s_incr h it in
                   let! (h'', it'') := s_satisfy f h' loc it' in
                   result_map (fun p => (x :: p.1, p.2)) (s_iterate f h'' loc it'')
    end
  end.
(** Iterating the same range object [n] more times. *)
Fixpoint s_again (n fuel : nat) (h : heap) (loc : nat) (it : sflat) : result (list (list string)) :=
  match n with
  | O => Ok []
  | S n' => let! (l, h') := s_iterate fuel h loc it in result_map (cons l) (s_again n' fuel h' loc it)
  end.
Definition s_passes (n fuel : nat) (h : heap) (vls : list (list string)) : result (list (list string)) :=
  let! (h', (loc, it)) := s_range fuel h vls in s_again n fuel h' loc it.
