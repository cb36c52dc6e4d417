(** The boundary point of a tie line (src/iidm/HalfLineBoundary.cpp) and the electrical meaning of its parameters, over the real numbers. *)
From Verif Require Export TieLine Sv SvSpec.
Local Open Scope C_scope.

(** half_line::Boundary::getP, getQ, getV, getAngle: HalfLineBoundary.cpp:26-30, 40-50, 64-68 - the state of the other side of the half line for
    the state [t] (P, Q, V, angle) of the terminal of its side (SV.cpp:177, 202, 227, 252; the four values are the parts of one answer, C36). *)
Definition line_of (c : chars R) : lineb := mkLineB (c_r c) (c_x c) (c_g1 c) (c_b1 c) (c_g2 c) (c_b2 c).
Definition sv_of_side (s : tside) : bside := match s with TONE => ONE | TTWO => TWO end.
Definition boundary (p q v angle : R) (h : half R) : option sv := other_side_line (mkSV p q v angle (sv_of_side (h_side h))) (line_of (h_chars h)).

(** Specification: two lines in series. The current leaving the first half at the boundary enters the second one. *)
Definition line_equations (c : chars R) (v1 v2 i1 i2 : C) : Prop :=
  branch_equations (RtoC 1) (c_r c, c_x c) (c_g1 c, c_b1 c) (c_g2 c, c_b2 c) v1 v2 i1 i2.
Definition in_series (c1 c2 : chars R) (v1 v2 i1 i2 vb ib : C) : Prop := line_equations c1 v1 vb i1 (- ib) /\ line_equations c2 vb v2 ib i2.
(** The parameters the tie line answers. *)
Definition tie_params (t : tie R) : chars R :=
  mkChars (t_get Rplus PR t) (t_get Rplus PX t) (t_get Rplus PG1 t) (t_get Rplus PB1 t) (t_get Rplus PG2 t) (t_get Rplus PB2 t).
Definition nonzero (c : chars R) : Prop := ~ (c_r c = 0%R /\ c_x c = 0%R).
