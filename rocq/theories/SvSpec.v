(** Specification: the equations of a branch. *)
From Verif Require Import Sv.
Local Open Scope C_scope.

(** A branch seen from side 1: an ideal transformer multiplying the voltage by [k], then a shunt admittance [ya], a series impedance [z] and
    a shunt admittance [yb] at side 2. [i1] and [i2] are the currents entering at each side. *)
Definition branch_equations (k z ya yb v1 v2 i1 i2 : C) : Prop :=
  exists i, (* current entering the series part and the shunt of side 1, after the ideal transformer: the power is conserved *)
    i1 = cconj k * i /\ i = ya * (k * v1) + (k * v1 - v2) / z /\ i2 = yb * v2 + (v2 - k * v1) / z.
(** The complex power entering at a side. *)
Definition power (v i : C) : C := v * cconj i.
(** The two states are those of the two sides of the branch with parameters r, x, ...: transformer voltage ratio [rho] and phase shift
    [alpha] (radians). *)
Definition voltage (s : sv) : C := polar (sv_u s) (sv_a s * to_radians).
Definition two_port (r x g1 b1 g2 b2 rho alpha : R) (s1 s2 : sv) : Prop :=
  exists i1 i2, branch_equations (polar rho alpha) (r, x) (g1, b1) (g2, b2) (voltage s1) (voltage s2) i1 i2 /\
    power (voltage s1) i1 = (sv_p s1, sv_q s1) /\ power (voltage s2) i2 = (sv_p s2, sv_q s2).
(** An angle in degrees as std::arg gives it. *)
Definition principal (a : R) : Prop := (-180 < a <= 180)%R.
(** Equal up to whole turns. *)
Definition same_angle (a b : R) : Prop := exists k : Z, a = (b + 360 * IZR k)%R.
Definition same_state (s t : sv) : Prop :=
  sv_p s = sv_p t /\ sv_q s = sv_q t /\ sv_u s = sv_u t /\ same_angle (sv_a s) (sv_a t) /\ sv_side s = sv_side t.
