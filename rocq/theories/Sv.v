(** State at the other side of a branch (src/iidm/util/SV.cpp, src/iidm/util/LinkData.cpp), in exact real arithmetic.

    Simplifications: doubles are real numbers, without rounding, NaN and infinities; a division by zero, which gives NaN or an infinity in
    the code, is [None]; std::polar of a negative modulus (undefined in C++) is computed with the same formula. *)
From Coq Require Export Reals Lra Lia.
From Coquelicot Require Export Complex.

(** std::conj, std::polar, std::abs is [Cmod]. *)
Definition cconj (z : C) : C := (fst z, (- snd z)%R).
Definition polar (u t : R) : C := ((u * cos t)%R, (u * sin t)%R).
(** std::arg: the angle in (-PI, PI]; 0 for 0. *)
Definition carg (z : C) : R :=
  if Req_EM_T (Cmod z) 0 then 0%R
  else if Rle_dec 0 (snd z) then acos (fst z / Cmod z) else (- acos (fst z / Cmod z))%R.
(** operator/ of std::complex. *)
Definition cdiv (x y : C) : option C := if Req_EM_T (Cmod y) 0 then None else Some (x / y)%C.
(** operator/ of double. *)
Definition rdiv (x y : R) : option R := if Req_EM_T y 0 then None else Some (x / y)%R.
Definition obind {A B} (x : option A) (f : A -> option B) : option B := match x with Some a => f a | None => None end.
Notation "'lets' x ':=' e1 'in' e2" := (obind e1 (fun x => e2)) (at level 200, x pattern, e1 at level 200, e2 at level 200, right associativity).
(** stdcxx/math.hpp: toRadians, toDegrees. *)
Definition to_radians : R := (PI / 180)%R.
Definition to_degrees : R := (180 / PI)%R.

(** LinkData::BranchAdmittanceMatrix. *)
Record adm := mkAdm { y11 : C; y12 : C; y21 : C; y22 : C }.
(** LinkData::calculateBranchAdmittance: LinkData.cpp:16-34. *)
Definition branch_admittance (r x ratio1 angle1 ratio2 angle2 : R) (ysh1 ysh2 : C) : option adm :=
  let a1 := polar ratio1 angle1 in
  let a2 := polar ratio2 angle2 in
  lets ytr := (if Req_EM_T r 0 then if Req_EM_T x 0 then Some (RtoC 0) else cdiv (RtoC 1) (r, x) else cdiv (RtoC 1) (r, x)) in
  lets z11 := cdiv (ytr + ysh1)%C (cconj a1 * a1)%C in
  lets z12 := cdiv (- ytr)%C (cconj a1 * a2)%C in
  lets z21 := cdiv (- ytr)%C (cconj a2 * a1)%C in
  lets z22 := cdiv (ytr + ysh2)%C (cconj a2 * a2)%C in
  Some (mkAdm z11 z12 z21 z22).

Inductive bside := ONE | TWO.
(** SV: SV.hpp, SV.cpp:20-26. *)
Record sv := mkSV { sv_p : R; sv_q : R; sv_u : R; sv_a : R; sv_side : bside }.
(** SV.cpp:28-34. *)
Definition flow1 (y : adm) (v1 v2 : C) : C := cconj ((y11 y * v1 + y12 y * v2) * cconj v1)%C.
Definition flow2 (y : adm) (v1 v2 : C) : C := cconj ((y21 y * v1 + y22 y * v2) * cconj v2)%C.
(** SV.cpp:285-291. *)
Definition voltage1 (y : adm) (v2 s2 : C) : option C :=
  lets i := cdiv (cconj s2) (cconj v2) in cdiv (i - y22 y * v2)%C (y21 y).
Definition voltage2 (y : adm) (v1 s1 : C) : option C :=
  lets i := cdiv (cconj s1) (cconj v1) in cdiv (i - y11 y * v1)%C (y12 y).
(** SV::otherSide(adm): SV.cpp:151-169. *)
Definition other_side_adm (s : sv) (y : adm) : option sv :=
  match sv_side s with
  | ONE =>
    let v1 := polar (sv_u s) (sv_a s * to_radians) in
    lets v := voltage2 y v1 (sv_p s, sv_q s) in
    let f := flow2 y v1 v in
    Some (mkSV (fst f) (snd f) (Cmod v) (carg v * to_degrees) TWO)
  | TWO =>
    let v2 := polar (sv_u s) (sv_a s * to_radians) in
    lets v := voltage1 y v2 (sv_p s, sv_q s) in
    let f := flow1 y v v2 in
    Some (mkSV (fst f) (snd f) (Cmod v) (carg v * to_degrees) ONE)
  end.
(** SV::otherSide(r, x, g1, b1, g2, b2, rho, alpha): SV.cpp:119-123. *)
Definition other_side (s : sv) (r x g1 b1 g2 b2 rho alpha : R) : option sv :=
  lets ir := rdiv 1 rho in
  lets y := branch_admittance r x ir (- alpha) 1 0 (g1, b1) (g2, b2) in
  other_side_adm s y.
(** SV::otherSideV, otherSideU, otherSideA, otherSideP, otherSideQ of an admittance matrix: SV.cpp:192-194, 217-219, 242-244, 267-283. *)
Definition other_side_v (s : sv) (y : adm) : option C :=
  let v0 := polar (sv_u s) (sv_a s * to_radians) in
  match sv_side s with ONE => voltage2 y v0 (sv_p s, sv_q s) | TWO => voltage1 y v0 (sv_p s, sv_q s) end.
Definition other_side_a (s : sv) (y : adm) : option R := lets v := other_side_v s y in Some (carg v * to_degrees)%R.
Definition other_side_u (s : sv) (y : adm) : option R := lets v := other_side_v s y in Some (Cmod v).
Definition other_side_p (s : sv) (y : adm) : option R := lets o := other_side_adm s y in Some (sv_p o).
Definition other_side_q (s : sv) (y : adm) : option R := lets o := other_side_adm s y in Some (sv_q o).

(** Lines, dangling lines and transformers: the fields SV reads. *)
Record lineb := mkLineB { lb_r : R; lb_x : R; lb_g1 : R; lb_b1 : R; lb_g2 : R; lb_b2 : R }.
Record dline := mkDLine { dl_r : R; dl_x : R; dl_g : R; dl_b : R }.
(** Current step of a tap changer: r, x, g, b in percent, rho, alpha in degrees (phase only). *)
Record tstep := mkTStep { st_r : R; st_x : R; st_g : R; st_b : R; st_rho : R; st_alpha : R }.
Record twt := mkTwt { tw_r : R; tw_x : R; tw_g : R; tw_b : R; tw_u1 : R; tw_u2 : R; tw_ratio : option tstep; tw_phase : option tstep }.
(** SV::getR, getX, getG, getB: SV.cpp:48-117. *)
Definition percent (f : tstep -> R) (t : twt) (v : R) : R :=
  let v := match tw_ratio t with Some s => (v * (1 + f s / 100))%R | None => v end in
  match tw_phase t with Some s => (v * (1 + f s / 100))%R | None => v end.
(** SV::getRho: SV.cpp:89-98; SV::getAlpha: SV.cpp:40-46. *)
Definition twt_rho (t : twt) : option R :=
  lets rho := rdiv (tw_u2 t) (tw_u1 t) in
  let rho := match tw_ratio t with Some s => (rho * st_rho s)%R | None => rho end in
  Some (match tw_phase t with Some s => (rho * st_rho s)%R | None => rho end).
Definition twt_alpha (t : twt) : R := (match tw_phase t with Some s => st_alpha s | None => 0 end * to_radians)%R.
(** SV::otherSide(line), (dl), (dl, split), (twt), (twt, split): SV.cpp:125-149. *)
Definition other_side_line (s : sv) (l : lineb) : option sv := other_side s (lb_r l) (lb_x l) (lb_g1 l) (lb_b1 l) (lb_g2 l) (lb_b2 l) 1 0.
Definition other_side_dl (s : sv) (d : dline) (split : bool) : option sv :=
  if split then other_side s (dl_r d) (dl_x d) (dl_g d * (1/2)) (dl_b d * (1/2)) (dl_g d * (1/2)) (dl_b d * (1/2)) 1 0
  else other_side s (dl_r d) (dl_x d) (dl_g d) (dl_b d) 0 0 1 0.
Definition other_side_twt (s : sv) (t : twt) (split : bool) : option sv :=
  let r := percent st_r t (tw_r t) in
  let x := percent st_x t (tw_x t) in
  let g := percent st_g t (tw_g t) in
  let b := percent st_b t (tw_b t) in
  lets rho := twt_rho t in
  if split then other_side s r x (g * (1/2)) (b * (1/2)) (g * (1/2)) (b * (1/2)) rho (twt_alpha t)
  else other_side s r x g b 0 0 rho (twt_alpha t).
