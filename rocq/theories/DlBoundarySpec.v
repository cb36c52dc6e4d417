(** Specification: a dangling line of series impedance r + jx, with half of its shunt admittance g + jb at each end. *)
From Verif Require Import Sv SvSpec DlBoundary.
Local Open Scope C_scope.

(** [v], [i]: the voltage and the current entering the line at its terminal; [vb], [ib]: the same at its boundary. *)
Definition dl_equations (d : dline) (v i vb ib : C) : Prop :=
  let y := ((dl_g d / 2)%R, (dl_b d / 2)%R) in let z := (dl_r d, dl_x d) in
  i = y * v + (v - vb) / z /\ ib = y * vb + (vb - v) / z.
Definition has_impedance (d : dline) : Prop := ~ (dl_r d = 0%R /\ dl_x d = 0%R).
(** The terminal carries the power p + jq, its bus has the voltage [v] and the angle [a] (degrees). *)
Definition known (t : tstate) (p q v a : R) : Prop := ts_p t = Some p /\ ts_q t = Some q /\ ts_bus t = Some (Some v, Some a).
Definition phasor (v a : R) : C := ((v * cos (a * PI / 180))%R, (v * sin (a * PI / 180))%R).
(** The boundary answers the voltage [vb] and the power of [ib] entering the line. *)
Definition answers (t : tstate) (d : dline) (vb ib : C) : Prop :=
  exists a, dlb_v t d = Some (Cmod vb) /\ dlb_angle t d = Some a /\ (-180 < a <= 180)%R /\ phasor (Cmod vb) a = vb /\
    dlb_p t d = Some (fst (power vb ib)) /\ dlb_q t d = Some (snd (power vb ib)).
