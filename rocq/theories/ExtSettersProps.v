(** Property C72: the attributes of the extensions. *)
From Verif Require Import Equip TapChangerProofs SettersProofs ExtSetters ExtSettersSpec ExtSettersProofs.

Definition x_init (k : xkind) (s v : attrs) : Prop := exists a : xargs k, xadd a = Ok (s, v).
Notation xcall_act k := (fun c : xcall k => run_setter (xset c)).
Notation xreach k := (ereach (xcall_act k) (x_init k) always).

(** An adder succeeds exactly if no value without a default is missing and all the values are allowed; the extension then has
    the values given. *)
Theorem C72_adder k (a : xargs k) s v : xadd a = Ok (s, v) <-> given a = Some (x_obs s v) /\ x_ok k s v.
Proof. apply x_adder. Qed.
Lemma x_init_ok k s v : x_init k s v -> x_ok k s v.
Proof. intros [a H]. by apply x_adder in H as [_ H]. Qed.
(** Whatever is done to it, the variants included, an extension only ever holds allowed values, in every variant. *)
Theorem C72_consistent k st id v : xreach k st -> e_vars st !! id = Some v ->
  Forall2 (fun (P : oval -> Prop) x => P x) (allowed k) (x_obs (e_sh st) v).
Proof.
  intros R H. apply (local_inv xset x_obs (x_ok k) (x_init k) x_what (x_init_ok k) (x_no_ub k) (x_local k)) in R as [_ E].
  by destruct (E _ _ H).
Qed.
(** A setter changes the value of its own getter and nothing else, or throws and changes nothing; the values kept per variant
    change in the working variant only. *)
Theorem C72_setter k (c : xcall k) st r st' : xreach k st -> run_setter (xset c) st = (r, st') ->
  setter_spec x_obs (x_ok k) (x_what c) st r st'.
Proof. apply (local_setter xset x_obs (x_ok k) (x_init k) x_what (x_init_ok k) (x_no_ub k) (x_local k)). Qed.
(** Load details: the details of the other variants are left alone, and nothing is shared. *)
Theorem C72_detail_variants (c : xcall KLoadDetail) st st' r id : xreach KLoadDetail st -> run_setter (xset c) st = (r, st') ->
  e_cur st <> Some id -> e_sh st' = e_sh st /\ e_vars st' !! id = e_vars st !! id.
Proof.
  intros R E Hid. apply (local_inv xset x_obs (x_ok _) (x_init _) x_what (x_init_ok _) (x_no_ub _) (x_local _)) in R as [W _].
  assert (exists f, xset c = SVar f /\ forall s v, no_ub (f s v)) as (f & Hc & Hn).
  { pose proof (x_no_ub _ c) as H. revert H. refine (match c with SetFixedP _ => _ | SetFixedQ _ => _ | SetVariableP _ => _ | SetVariableQ _ => _ end); simpl; eauto. }
  rewrite Hc in E. simpl in E. destruct (upd_var_cases f st W Hn) as [(i & v & v' & Hi & Hv & Hf & E')|(m & E' & _)]; rewrite E' in E; injection E as <- <-; simpl; [|done].
  split; [done|]. apply lookup_insert_ne. congruence.
Qed.
(** The feeders of a position: a single one, or the first one, two or three of feeders 1, 2 and 3. *)
Theorem C72_feeders f f1 f2 f3 : position_check f f1 f2 f3 = Ok tt <->
  (f, f1, f2, f3) = (true, false, false, false) \/ (f, f1, f2, f3) = (false, true, false, false) \/
  (f, f1, f2, f3) = (false, true, true, false) \/ (f, f1, f2, f3) = (false, true, true, true).
Proof. destruct f, f1, f2, f3; simpl; intuition discriminate. Qed.

(** A load detail with two variants, then a refused and an accepted setter. *)
Example C72_case :
  xadd (LoadDetailArgs (Some (Fin 3)) None None (Some PInf)) = Ok ([], [OD (Fin 3); OD (Fin 0); OD (Fin 0); OD PInf]) /\
  (exists m, xadd (LoadDetailArgs (Some NaN) None None None) = Throw m) /\
  (exists m, xadd (AngleDroopArgs (Some (Fin 1)) None None) = Throw m) /\
  (exists m, xadd (SlopeArgs (Some (Fin (-1)))) = Throw m) /\
  xadd (OperatorRangeArgs (Some NaN) None) = Ok ([OD NaN; OD (Fin 0)], []) /\
  (exists m, xadd (ClockArgs (Some 12)) = Throw m) /\ xadd (ClockArgs (Some 11)) = Ok ([ON 11], []) /\
  (exists m, xadd (ClockArgs None) = Throw m) /\
  xadd (CoordinatedArgs (Some (Fin 250))) = Ok ([OD (Fin 250)], []).
Proof. repeat (split; [by eexists || reflexivity|]). reflexivity. Qed.
Example C72_run :
  let st := enew [] [OD (Fin 3); OD (Fin 0); OD (Fin 0); OD PInf] in
  xreach KLoadDetail st /\
  (let (r, st') := run_setter (xset (SetFixedQ (Fin 7))) st in
   r = Ok tt /\ e_vars st' !! initial_variant = Some [OD (Fin 3); OD (Fin 7); OD (Fin 0); OD PInf]) /\
  (let (r, st') := run_setter (xset (SetFixedQ NaN)) st in r = Throw "Invalid fixedReactivePower" /\ st' = st).
Proof.
  split; [|by vm_compute]. eapply er_new; [|apply enew_created]. exists (LoadDetailArgs (Some (Fin 3)) None None (Some PInf)). reflexivity.
Qed.
Print Assumptions C72_adder.
Print Assumptions C72_consistent.
Print Assumptions C72_setter.
Print Assumptions C72_detail_variants.
Print Assumptions C72_feeders.
