(** Tie lines (src/iidm/TieLine.cpp, HalfLine.cpp, HalfLineAdder.cpp, TieLineAdder.cpp, LineCharacteristics.cpp).

    Parametric in the type of numbers: [A], its NaN test and its addition. Validation messages are reduced to their text after the header. The
    terminals, the identifier and the insertion in the network (C33, C50) are not part of this model: only the half lines are. *)
From stdpp Require Export list strings.
From Verif Require Export Base.

Inductive param := PR | PX | PG1 | PB1 | PG2 | PB2.
Inductive tside := TONE | TTWO.
Definition param_name (p : param) : string := match p with PR => "r" | PX => "x" | PG1 => "g1" | PB1 => "b1" | PG2 => "g2" | PB2 => "b2" end.

Section num.
  Context {A : Type} (nan : A) (isnan : A -> bool) (plus : A -> A -> A).

  (** LineCharacteristics: LineCharacteristics.hpp fields. *)
  Record chars := mkChars { c_r : A; c_x : A; c_g1 : A; c_b1 : A; c_g2 : A; c_b2 : A }.
  Definition c_get (p : param) (c : chars) : A := match p with PR => c_r c | PX => c_x c | PG1 => c_g1 c | PB1 => c_b1 c | PG2 => c_g2 c | PB2 => c_b2 c end.
  Definition c_put (p : param) (v : A) (c : chars) : chars :=
    match c, p with
    | mkChars r x g1 b1 g2 b2, PR => mkChars v x g1 b1 g2 b2
    | mkChars r x g1 b1 g2 b2, PX => mkChars r v g1 b1 g2 b2
    | mkChars r x g1 b1 g2 b2, PG1 => mkChars r x v b1 g2 b2
    | mkChars r x g1 b1 g2 b2, PB1 => mkChars r x g1 v g2 b2
    | mkChars r x g1 b1 g2 b2, PG2 => mkChars r x g1 b1 v b2
    | mkChars r x g1 b1 g2 b2, PB2 => mkChars r x g1 b1 g2 v
    end.
  (** The initial values of an adder's fields: HalfLineAdder.hpp (all stdcxx::nan()). *)
  Definition c_unset : chars := mkChars nan nan nan nan nan nan.
  (** LineCharacteristics::setR ... setB2 with checkR ... checkB2: LineCharacteristics.cpp:55-77, ValidationUtils.cpp:56-68, 117-129, 293-298, 439-444. *)
  Definition c_set (p : param) (v : A) (c : chars) : result chars := if isnan v then Throw (param_name p +:+ " is invalid") else Ok (c_put p v c).
  (** The constructor of LineCharacteristics calls the six setters: LineCharacteristics.cpp:21-29. *)
  Definition c_make (r x g1 b1 g2 b2 : A) : result chars :=
    let! c := c_set PB1 b1 c_unset in
    let! c := c_set PB2 b2 c in
    let! c := c_set PG1 g1 c in
    let! c := c_set PG2 g2 c in
    let! c := c_set PR r c in
    c_set PX x c.

  (** HalfLine: id, characteristics, the side kept by its boundary and whether it has a parent (HalfLine.cpp:21-28). *)
  Record half := mkHalf { h_id : string; h_chars : chars; h_side : tside; h_parent : bool }.
  (** Move construction, done once or more on the way to the tie line: HalfLine.cpp:30-37 (the characteristics are checked again). *)
  Definition h_move (h : half) : result half :=
    let c := h_chars h in
    let! c' := c_make (c_r c) (c_x c) (c_g1 c) (c_b1 c) (c_g2 c) (c_b2 c) in
    Ok (mkHalf (h_id h) c' (h_side h) (h_parent h)).
  (** HalfLine::setParent: HalfLine.cpp:120-125. *)
  Definition h_set_parent (h : half) : result half :=
    if h_parent h then Throw "TieLine.HalfLine already attached" else Ok (mkHalf (h_id h) (h_chars h) (h_side h) true).

  (** HalfLineAdder: number, id and values. *)
  Record half_adder := mkHAdder { ha_num : nat; ha_id : string; ha_chars : chars }.
  (** TieLineAdder: the UCTE code and the half line adders added (copies: m_halfLineAdder1.emplace(adder), TieLineAdder.cpp:80-86). *)
  Record tie_adder := mkTAdder { ta_xnode : string; ta_half1 : option half_adder; ta_half2 : option half_adder }.
  (** TieLineAdder::newHalfLine1, newHalfLine2: TieLineAdder.cpp:72-78; the setters of HalfLineAdder: HalfLineAdder.cpp:71-114. *)
  Definition ha_new (num : nat) : half_adder := mkHAdder num "" c_unset.
  Definition ha_set (p : param) (v : A) (a : half_adder) : half_adder := mkHAdder (ha_num a) (ha_id a) (c_put p v (ha_chars a)).
  Definition ha_set_id (id : string) (a : half_adder) : half_adder := mkHAdder (ha_num a) id (ha_chars a).
  (** HalfLineAdder::add: HalfLineAdder.cpp:25-60. *)
  Definition ha_add (a : half_adder) (t : tie_adder) : result tie_adder :=
    if String.eqb (ha_id a) "" then Throw "id is not set for half line"
    else if isnan (c_r (ha_chars a)) then Throw "r is not set for half line"
    else if isnan (c_x (ha_chars a)) then Throw "x is not set for half line"
    else if isnan (c_g1 (ha_chars a)) then Throw "g1 is not set for half line"
    else if isnan (c_b1 (ha_chars a)) then Throw "b1 is not set for half line"
    else if isnan (c_g2 (ha_chars a)) then Throw "g2 is not set for half line"
    else if isnan (c_b2 (ha_chars a)) then Throw "b2 is not set for half line"
    else match ha_num a with
         | 1 => Ok (mkTAdder (ta_xnode t) (Some a) (ta_half2 t))
         | 2 => Ok (mkTAdder (ta_xnode t) (ta_half1 t) (Some a))
         | _ => Throw "Unexpected half line number"
         end.
  (** HalfLineAdder::build: HalfLineAdder.cpp:62-65. *)
  Definition ha_build (a : half_adder) : result half :=
    let c := ha_chars a in
    let side := if ha_num a =? 1 then TONE else TTWO in
    let! c' := c_make (c_r c) (c_x c) (c_g1 c) (c_b1 c) (c_g2 c) (c_b2 c) in
    Ok (mkHalf (ha_id a) c' side false).

  Record tie := mkTie { t_half1 : half; t_half2 : half; t_xnode : string }.
  (** TieLineAdder::add, the part about the halves (TieLineAdder.cpp:30-42, 48) and the constructor of TieLine (TieLine.cpp:19-31). *)
  Definition ta_add (a : tie_adder) : result tie :=
    if String.eqb (ta_xnode a) "" then Throw "ucteXnodeCode is not set"
    else match ta_half1 a with
         | None => Throw "half line 1 is not set"
         | Some a1 => match ta_half2 a with
           | None => Throw "half line 2 is not set"
           | Some a2 =>
             let! h1 := ha_build a1 in
             let! h2 := ha_build a2 in
             let! h1 := h_move h1 in
             let! h2 := h_move h2 in
             let! h1 := h_set_parent h1 in
             let! h2 := h_set_parent h2 in
             Ok (mkTie h1 h2 (ta_xnode a))
           end
         end.
  (** TieLine::getR ... getB2: TieLine.cpp:33-47, 83-85, 97-99. *)
  Definition t_get (p : param) (t : tie) : A := plus (c_get p (h_chars (t_half1 t))) (c_get p (h_chars (t_half2 t))).
  (** TieLine::getHalf(side): TieLine.cpp:49-58. *)
  Definition t_half (s : tside) (t : tie) : half := match s with TONE => t_half1 t | TTWO => t_half2 t end.
  (** TieLine::setR ... setB2: TieLine.cpp:105-127. *)
  Definition t_set (p : param) (v : A) (t : tie) : result unit * tie := (Throw "direct modification of characteristics not supported for tie lines", t).
  (** HalfLine::setR ... setB2 on a half of the tie line: HalfLine.cpp:95-135. *)
  Definition t_set_half (s : tside) (p : param) (v : A) (t : tie) : result unit * tie :=
    match c_set p v (h_chars (t_half s t)) with
    | Ok c => (Ok tt, match s with
                      | TONE => mkTie (mkHalf (h_id (t_half1 t)) c (h_side (t_half1 t)) (h_parent (t_half1 t))) (t_half2 t) (t_xnode t)
                      | TTWO => mkTie (t_half1 t) (mkHalf (h_id (t_half2 t)) c (h_side (t_half2 t)) (h_parent (t_half2 t))) (t_xnode t)
                      end)
    | Throw m => (Throw m, t)
    | UB => (UB, t)
    | OutOfFuel => (OutOfFuel, t)
    end.
  (** A program using a tie line adder and two half line adders, then the tie line. *)
  Inductive aop := ANew (s : tside) | AId (s : tside) (id : string) | ASet (s : tside) (p : param) (v : A) | AAdd (s : tside) | AXnode (c : string).
  Record prog := mkProg { g_adder : tie_adder; g_half1 : half_adder; g_half2 : half_adder }.
  Definition g_init : prog := mkProg (mkTAdder "" None None) (ha_new 1) (ha_new 2).
  Definition g_half (s : tside) (g : prog) : half_adder := match s with TONE => g_half1 g | TTWO => g_half2 g end.
  Definition g_put (s : tside) (a : half_adder) (g : prog) : prog :=
    match s with TONE => mkProg (g_adder g) a (g_half2 g) | TTWO => mkProg (g_adder g) (g_half1 g) a end.
  Definition num_of (s : tside) : nat := match s with TONE => 1 | TTWO => 2 end.
  (** An operation that throws leaves everything unchanged. *)
  Definition a_step (g : prog) (o : aop) : prog :=
    match o with
    | ANew s => g_put s (ha_new (num_of s)) g
    | AId s id => g_put s (ha_set_id id (g_half s g)) g
    | ASet s p v => g_put s (ha_set p v (g_half s g)) g
    | AAdd s => match ha_add (g_half s g) (g_adder g) with Ok a => mkProg a (g_half1 g) (g_half2 g) | _ => g end
    | AXnode c => mkProg (mkTAdder c (ta_half1 (g_adder g)) (ta_half2 (g_adder g))) (g_half1 g) (g_half2 g)
    end.
  Inductive top := TSet (p : param) (v : A) | HSet (s : tside) (p : param) (v : A).
  Definition t_step (t : tie) (o : top) : result unit * tie := match o with TSet p v => t_set p v t | HSet s p v => t_set_half s p v t end.
  (** Histories, most recent operation first. *)
  Definition a_run (h : list aop) : prog := foldr (fun o g => a_step g o) g_init h.
  Definition t_run (h : list top) (t : tie) : tie := foldr (fun o t => (t_step t o).2) t h.
End num.
Arguments chars : clear implicits.
Arguments half : clear implicits.
Arguments tie : clear implicits.
Arguments aop : clear implicits.
Arguments top : clear implicits.
Arguments prog : clear implicits.

