(** The boundary of a dangling line: src/iidm/DanglingLineBoundary.cpp, src/iidm/Boundary.cpp, over the real numbers as in Sv.v.

    Simplifications: an undefined value (NaN) is [None], and what is computed from one is [None]; the answers concern the working variant,
    from which the terminal and the bus of the bus view are read. *)
From Verif Require Export Sv.

(** Terminal::getP, getQ, and the bus of the bus view with its voltage and its angle. *)
Record tstate := mkTState { ts_p : option R; ts_q : option R; ts_bus : option (option R * option R) }.
(** iidm::Boundary::getV, getAngle: Boundary.cpp:17-23. *)
Definition bus_v (b : option (option R * option R)) : option R := match b with Some (v, _) => v | None => None end.
Definition bus_angle (b : option (option R * option R)) : option R := match b with Some (_, a) => a | None => None end.
(** The SV that the four functions build: DanglingLineBoundary.cpp:28-30, 42-44, 48-50, 58-60. *)
Definition dl_sv (t : tstate) : option sv :=
  lets p := ts_p t in lets q := ts_q t in lets v := bus_v (ts_bus t) in lets a := bus_angle (ts_bus t) in Some (mkSV p q v a ONE).
(** The matrix of otherSideA, P, Q, U(r, x, g1, b1, g2, b2, 1.0, 0.0): SV.cpp:171-175, 196-200, 221-225, 246-250. *)
Definition plain_adm (r x g1 b1 g2 b2 : R) : option adm :=
  lets ir := rdiv 1 1 in branch_admittance r x ir (- 0) 1 0 (g1, b1) (g2, b2).
(** otherSideA, P, Q, U(dl, splitShuntAdmittance): SV.cpp:181-190, 206-215, 231-240, 256-265. *)
Definition dl_adm (d : dline) (split : bool) : option adm :=
  if split then plain_adm (dl_r d) (dl_x d) (dl_g d * (1/2)) (dl_b d * (1/2)) (dl_g d * (1/2)) (dl_b d * (1/2))
  else plain_adm (dl_r d) (dl_x d) (dl_g d) (dl_b d) 0 0.
(** getAngle: 27-31; getP: 41-45; getQ: 47-51; getV: 57-61. *)
Definition dlb_angle (t : tstate) (d : dline) : option R := lets s := dl_sv t in lets y := dl_adm d true in other_side_a s y.
Definition dlb_p (t : tstate) (d : dline) : option R := lets s := dl_sv t in lets y := dl_adm d true in other_side_p s y.
Definition dlb_q (t : tstate) (d : dline) : option R := lets s := dl_sv t in lets y := dl_adm d true in other_side_q s y.
Definition dlb_v (t : tstate) (d : dline) : option R := lets s := dl_sv t in lets y := dl_adm d true in other_side_u s y.
(** getSide: 53-55. *)
Definition dlb_side (d : dline) : option bside := None.
