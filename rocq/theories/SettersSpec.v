(** What the setters of the equipment with set points should do, written without the checks of the model. *)
From Verif Require Export Setters.

(** ** The values an equipment may hold *)
(** [undef_or P x]: x is undefined or satisfies P. *)
Definition undef_or (P : dbl -> Prop) (x : dbl) : Prop := x = NaN \/ P x.
Definition in_between (a x b : dbl) : Prop := ele a x /\ ele x b.
(** A voltage regulator: on with a positive target voltage, or off with a defined reactive power target. *)
Definition regulator_ok (on : bool) (v q : dbl) : Prop := if on then positive v else defined q.

Definition gen_ok (s : gsh) (v : gvar) : Prop :=
  ele (g_minP s) (g_maxP s) /\ undef_or positive (g_ratedS s) /\ t_here (g_term s) = true /\ defined (g_p v) /\ regulator_ok (g_on v) (g_v v) (g_q v).
Definition bat_ok (s : bsh) (v : bvar) : Prop := ele (b_minP s) (b_maxP s) /\ defined (b_p v) /\ defined (b_q v).
Definition vsc_ok (s : vsh) (v : vvar) : Prop := in_between (Fin 0) (v_loss s) (Fin 100) /\ regulator_ok (v_on v) (v_v v) (v_q v).
Definition lcc_ok (s : lsh) (v : unit) : Prop := in_between (Fin 0) (l_loss s) (Fin 100) /\ in_between (Fin (-1)) (l_pf s) (Fin 1).
Definition svc_ok (s : svsh) (v : svvar) : Prop :=
  defined (sv_bmin s) /\ defined (sv_bmax s) /\ t_here (sv_term s) = true /\
  match sv_mode v with SvcVoltage => defined (sv_v v) | SvcReactive => defined (sv_q v) | SvcOff => True end.
Definition dlg_ok (s : dsh) (v : dvar) : Prop := ele (d_minP s) (d_maxP s) /\ defined (d_p v) /\ regulator_ok (d_on v) (d_v v) (d_q v).
Definition hvdc_ok (s : hsh) (v : hvar) : Prop := defined (h_r s) /\ positive (h_nomV s) /\ non_negative (h_maxP s) /\ non_negative (h_p v).
Definition vl_ok (s : vlsh) (v : unit) : Prop :=
  positive (vl_nomV s) /\ undef_or non_negative (vl_low s) /\ undef_or non_negative (vl_high s) /\
  (defined (vl_low s) -> defined (vl_high s) -> ele (vl_low s) (vl_high s)).
Definition load_ok (s : unit) (v : ldvar) : Prop := defined (ld_p v) /\ defined (ld_q v).
(** Shunt compensators: the section count first. *)
Definition count_ok (s : ssh) (v : svar) : Prop := s_count v <= sm_max (s_model s).
Definition model_ok (m : smodel) : Prop :=
  match m with Linear b g n => defined b /\ 0 < n | NonLinear l => l <> [] /\ Forall (fun e => defined (sec_b e) /\ defined (sec_g e)) l end.
Definition shunt_ok (s : ssh) (v : svar) : Prop :=
  model_ok (s_model s) /\ t_here (s_term s) = true /\
  (s_on v = true -> positive (s_v v) /\ defined (s_db v)) /\ undef_or non_negative (s_db v).

(** ** What each equipment shows: the values its getters return, in a fixed order *)
Inductive oval := OD (x : dbl) | OB (b : bool) | OT (t : term) | OM (m : svcmode) | OC (m : cmode) | ON (n : nat) | OS (x : string).
Definition gobs (s : gsh) (v : gvar) : list oval :=
  [OD (g_minP s); OD (g_maxP s); OD (g_ratedS s); OT (g_term s); OD (g_p v); OD (g_q v); OD (g_v v); OB (g_on v)].
Definition gwhat (c : gcall) : nat * oval :=
  match c with GSetMinP x => (0, OD x) | GSetMaxP x => (1, OD x) | GSetRatedS x => (2, OD x) | GSetTerm t => (3, OT (or_own t))
  | GSetP x => (4, OD x) | GSetQ x => (5, OD x) | GSetV x => (6, OD x) | GSetOn b => (7, OB b) end.
Definition bobs (s : bsh) (v : bvar) : list oval := [OD (b_minP s); OD (b_maxP s); OD (b_p v); OD (b_q v)].
Definition bwhat (c : bcall) : nat * oval :=
  match c with BSetMinP x => (0, OD x) | BSetMaxP x => (1, OD x) | BSetP x => (2, OD x) | BSetQ x => (3, OD x) end.
Definition vobs (s : vsh) (v : vvar) : list oval := [OD (v_loss s); OB (v_on v); OD (v_q v); OD (v_v v)].
Definition vwhat (c : vcall) : nat * oval :=
  match c with VSetLoss x => (0, OD x) | VSetOn b => (1, OB b) | VSetQ x => (2, OD x) | VSetV x => (3, OD x) end.
Definition lobs (s : lsh) (v : unit) : list oval := [OD (l_loss s); OD (l_pf s)].
Definition lwhat (c : lcall) : nat * oval := match c with LSetLoss x => (0, OD x) | LSetPf x => (1, OD x) end.
Definition svobs (s : svsh) (v : svvar) : list oval := [OD (sv_bmin s); OD (sv_bmax s); OT (sv_term s); OD (sv_v v); OD (sv_q v); OM (sv_mode v)].
Definition svwhat (c : svcall) : nat * oval :=
  match c with SvSetBmin x => (0, OD x) | SvSetBmax x => (1, OD x) | SvSetTerm t => (2, OT (or_own t)) | SvSetV x => (3, OD x)
  | SvSetQ x => (4, OD x) | SvSetMode m => (5, OM m) end.
Definition dobs (s : dsh) (v : dvar) : list oval := [OD (d_minP s); OD (d_maxP s); OD (d_p v); OD (d_q v); OD (d_v v); OB (d_on v)].
Definition dwhat (c : dcall) : nat * oval :=
  match c with DSetMinP x => (0, OD x) | DSetMaxP x => (1, OD x) | DSetP x => (2, OD x) | DSetQ x => (3, OD x) | DSetV x => (4, OD x) | DSetOn b => (5, OB b) end.
Definition hobs (s : hsh) (v : hvar) : list oval := [OD (h_r s); OD (h_nomV s); OD (h_maxP s); OC (h_mode v); OD (h_p v)].
Definition hwhat (c : hcall) : nat * oval :=
  match c with HSetR x => (0, OD x) | HSetNomV x => (1, OD x) | HSetMaxP x => (2, OD x) | HSetMode m => (3, OC m) | HSetP x => (4, OD x) end.
Definition vlobs (s : vlsh) (v : unit) : list oval := [OD (vl_nomV s); OD (vl_low s); OD (vl_high s)].
Definition vlwhat (c : vlcall) : nat * oval := match c with VlSetNomV x => (0, OD x) | VlSetLow x => (1, OD x) | VlSetHigh x => (2, OD x) end.
Definition ldobs (s : unit) (v : ldvar) : list oval := [OD (ld_p v); OD (ld_q v)].
Definition ldwhat (c : ldcall) : nat * oval := match c with LdSetP x => (0, OD x) | LdSetQ x => (1, OD x) end.

(** A setter call (with result [r]) that assigns the observation [n] the value [x], judged against [ok]: it succeeds exactly if
    the equipment with just that value changed is [ok] in the working variant; then that is what the working variant shows, and
    the values per variant of the other variants are the same; if it throws nothing changed. *)
Definition setter_spec {S V} (obs : S -> V -> list oval) (ok : S -> V -> Prop) (what : nat * oval) (st : est S V) (r : result unit) (st' : est S V) : Prop :=
  e_cur st' = e_cur st /\
  match e_cur st with
  | None => r <> Ok tt -> st' = st
  | Some i => exists v, e_vars st !! i = Some v /\
    let wanted := <[what.1 := what.2]> (obs (e_sh st) v) in
    (r = Ok tt /\ (exists s' v', obs s' v' = wanted /\ ok s' v') /\
      (exists v', e_vars st' !! i = Some v' /\ obs (e_sh st') v' = wanted) /\ forall j, j <> i -> e_vars st' !! j = e_vars st !! j) \/
    (exists m, r = Throw m /\ st' = st /\ ~ exists s' v', obs s' v' = wanted /\ ok s' v')
  end.
