(** Equipment whose attributes are partly shared by all the variants and partly stored per variant, C++ doubles, and the
    validation functions of src/iidm/ValidationUtils.cpp. *)
From Coq Require Export QArith.
From stdpp Require Export gmap.
From Verif Require Export Base.
Close Scope Q_scope.
Open Scope nat_scope.

(** ** Doubles *)
(** A double: finite values are exact rationals (rounding is not modelled; negative zero is zero). *)
Inductive dbl := NaN | NInf | Fin (q : Q) | PInf.
Definition is_nan (x : dbl) : bool := match x with NaN => true | _ => false end.
Definition qleb (a b : Q) : bool := Qle_bool a b.
Definition qltb (a b : Q) : bool := negb (Qle_bool b a).
(** [a <= b] and [a < b] of C++: false as soon as an operand is NaN. *)
Definition dle (a b : dbl) : bool :=
  match a, b with
  | NaN, _ | _, NaN => false
  | NInf, _ | _, PInf => true
  | Fin x, Fin y => qleb x y
  | _, _ => false
  end.
Definition dlt (a b : dbl) : bool :=
  match a, b with
  | NaN, _ | _, NaN => false
  | NInf, NInf | PInf, PInf => false
  | NInf, _ | _, PInf => true
  | Fin x, Fin y => qltb x y
  | _, _ => false
  end.
Definition dzero : dbl := Fin 0%Q.
(** std::numeric_limits<double>::max(). *)
Definition dbl_max : Q := inject_Z (2 ^ 1024 - 2 ^ 971).

(** ** Equipment state *)
(** [e_sh]: attributes shared by the variants; [e_vars]: the attributes of each variant; [e_cur]: the working variant.
    The variant arrays are seen through the refinement proved for C08: one value per variant id. *)
Record est (S V : Type) := mkE { e_sh : S; e_vars : gmap string V; e_cur : option string }.
Arguments mkE {_ _}. Arguments e_sh {_ _}. Arguments e_vars {_ _}. Arguments e_cur {_ _}.

(** A member function: its result and the state it leaves, also when it throws. *)
Definition act (S V A : Type) := est S V -> result A * est S V.

Section act.
  Context {S V : Type}.
  Definition aret {A} (a : A) : act S V A := fun st => (Ok a, st).
  Definition abind {A B} (m : act S V A) (f : A -> act S V B) : act S V B := fun st =>
    match m st with
    | (Ok a, st') => f a st'
    | (Throw e, st') => (Throw e, st')
    | (UB, st') => (UB, st')
    | (OutOfFuel, st') => (OutOfFuel, st')
    end.
  Definition athrow {A} (e : string) : act S V A := fun st => (Throw e, st).
  (** throw [e] if [b]. *)
  Definition aif (b : bool) (e : string) : act S V unit := if b then athrow e else aret tt.
  Definition alift {A} (r : result A) : act S V A := fun st => (r, st).
  (** getNetwork().getVariantIndex(): MultipleVariantContext.cpp:20-25. *)
  Definition aindex : act S V string := fun st =>
    match e_cur st with Some i => (Ok i, st) | None => (Throw "Variant index not set", st) end.
  (** Reading and writing the array cells of the working variant. *)
  Definition aget : act S V V := abind aindex (fun i st =>
    match e_vars st !! i with Some v => (Ok v, st) | None => (UB, st) end).
  Definition aput (v : V) : act S V unit := abind aindex (fun i st =>
    match e_vars st !! i with Some _ => (Ok tt, mkE (e_sh st) (<[i := v]> (e_vars st)) (e_cur st)) | None => (UB, st) end).
  Definition ashared : act S V S := fun st => (Ok (e_sh st), st).
  Definition aset (s : S) : act S V unit := fun st => (Ok tt, mkE s (e_vars st) (e_cur st)).
End act.
Notation "'do!' x := e1 'in' e2" := (abind e1 (fun x => e2)) (at level 200, x binder, e1 at level 100, e2 at level 200).
Notation "e1 ';;!' e2" := (abind e1 (fun _ => e2)) (at level 199, right associativity).

(** Calls to the equipment, and the operations of the variant manager (VariantManager.cpp:82-253), by their effect on one
    equipment as established by C08: clone copies, remove drops, setWorkingVariant selects. *)
Inductive eop (O : Type) :=
| ECall (o : O)
| EClone (src tgt : string) (overwrite : bool)
| ERemove (id : string)
| EWork (id : string).
Arguments ECall {_}. Arguments EClone {_}. Arguments ERemove {_}. Arguments EWork {_}.
(** getInitialVariantId: VariantManager.cpp:142-146. *)
Definition initial_variant : string := "InitialVariant".

Definition estep {S V O} (call : O -> act S V unit) (st : est S V) (o : eop O) : result unit * est S V :=
  match o with
  | ECall c => call c st
  | EClone src tgt ow =>
    match e_vars st !! src with
    | None => (Throw "Variant not found", st)
    | Some v =>
      if bool_decide (is_Some (e_vars st !! tgt)) && negb ow then (Throw "Target variant already exists", st)
      else (Ok tt, mkE (e_sh st) (<[tgt := v]> (e_vars st)) (e_cur st))
    end
  | ERemove id =>
    if bool_decide (id = initial_variant) then (Throw "Removing initial variant is forbidden", st)
    else match e_vars st !! id with
         | None => (Throw "Variant not found", st)
         | Some _ => (Ok tt, mkE (e_sh st) (delete id (e_vars st)) (if bool_decide (e_cur st = Some id) then None else e_cur st))
         end
  | EWork id =>
    match e_vars st !! id with
    | None => (Throw "Variant not found", st)
    | Some _ => (Ok tt, mkE (e_sh st) (e_vars st) (Some id))
    end
  end.

(** State just after a creation by an adder: the same values in every existing variant. *)
Definition ecreated {S V} (s : S) (v : V) (st : est S V) : Prop :=
  e_sh st = s /\ (forall id w, e_vars st !! id = Some w -> w = v) /\
  is_Some (e_vars st !! initial_variant) /\ (forall id, e_cur st = Some id -> is_Some (e_vars st !! id)).

(** States reached from a creation satisfying [init] by operations satisfying [safe]. *)
Inductive ereach {S V O} (call : O -> act S V unit) (init : S -> V -> Prop) (safe : est S V -> eop O -> Prop) : est S V -> Prop :=
| er_new s v st : init s v -> ecreated s v st -> ereach call init safe st
| er_step st o : ereach call init safe st -> safe st o -> ereach call init safe (estep call st o).2.
Definition always {S V O} (st : est S V) (o : eop O) : Prop := True.

(** Well formed: the initial variant exists and the working variant, if set, exists. *)
Definition ewf {S V} (st : est S V) : Prop :=
  is_Some (e_vars st !! initial_variant) /\ (forall id, e_cur st = Some id -> is_Some (e_vars st !! id)).
Definition everywhere {S V} (I : S -> V -> Prop) (st : est S V) : Prop := forall id v, e_vars st !! id = Some v -> I (e_sh st) v.

(** A call keeps the set of variants and the working variant. *)
Definition keeps_variants {S V} (st st' : est S V) : Prop :=
  e_cur st' = e_cur st /\ forall id, is_Some (e_vars st' !! id) <-> is_Some (e_vars st !! id).

Lemma ereach_inv {S V O} (call : O -> act S V unit) (init : S -> V -> Prop) (safe : est S V -> eop O -> Prop) (I : S -> V -> Prop) :
  (forall s v, init s v -> I s v) ->
  (forall c st, ewf st -> keeps_variants st (call c st).2) ->
  (forall c st, ewf st -> everywhere I st -> safe st (ECall c) -> everywhere I (call c st).2) ->
  forall st, ereach call init safe st -> ewf st /\ everywhere I st.
Proof.
  intros Hi Hk Hc st. induction 1 as [s v st Hs (E1 & E2 & E3 & E4)|st o _ [W E] Hs].
  - split; [by split|]. intros id w Hw. rewrite (E2 id w Hw). subst s. auto.
  - destruct o as [c|src tgt ow|id|id]; simpl.
    + split; [|by apply Hc]. destruct (Hk c st W) as [K1 K2]. destruct W as [W1 W2]. split; [by apply K2|].
      intros id. rewrite K1. intros Hid. apply K2. by apply W2.
    + destruct (e_vars st !! src) as [v|] eqn:Hv; [|done]. destruct (bool_decide _ && _); [done|]. simpl. split.
      * destruct W as [W1 W2]. split; simpl.
        -- destruct (decide (tgt = initial_variant)) as [->|]; [rewrite lookup_insert|rewrite lookup_insert_ne by done]; eauto.
        -- intros id Hid. destruct (decide (tgt = id)) as [->|]; [rewrite lookup_insert; eauto|rewrite lookup_insert_ne by done; eauto].
      * intros id w. simpl. intros [[<- <-]|[? Hw]]%lookup_insert_Some; eapply E; eauto.
    + case_bool_decide; [done|]. destruct (e_vars st !! id) as [v|] eqn:Hv; [|done]. simpl. split.
      * destruct W as [W1 W2]. split; simpl; [by rewrite lookup_delete_ne|]. intros id' Hid.
        case_bool_decide as Hc'; [done|]. rewrite lookup_delete_ne; [by apply W2|]. congruence.
      * intros id' w. simpl. intros [? Hw]%lookup_delete_Some. eapply E; eauto.
    + destruct (e_vars st !! id) as [v|] eqn:Hv; [|done]. simpl. split; [|done]. destruct W as [W1 W2]. split; [done|]. simpl.
      intros id' [= <-]. eauto.
Qed.

(** Running a list of operations. *)
Fixpoint erun {S V O} (call : O -> act S V unit) (st : est S V) (ops : list (eop O)) : est S V :=
  match ops with [] => st | o :: ops => erun call (estep call st o).2 ops end.
Lemma ereach_run {S V O} (call : O -> act S V unit) (init : S -> V -> Prop) st ops :
  ereach call init always st -> ereach call init always (erun call st ops).
Proof. revert st. induction ops as [|o ops IH]; intros st H; [done|]. simpl. apply IH. by apply er_step. Qed.
Lemma ereach_run_safe {S V O} (call : O -> act S V unit) (init : S -> V -> Prop) (safe : est S V -> eop O -> Prop) st ops :
  Forall (fun o => forall st, safe st o) ops -> ereach call init safe st -> ereach call init safe (erun call st ops).
Proof. intros F. revert st. induction F as [|o ops Ho F IH]; intros st H; [done|]. simpl. apply IH. by apply er_step. Qed.
Lemma ereach_mono {S V O} (call : O -> act S V unit) (init init' : S -> V -> Prop) (safe safe' : est S V -> eop O -> Prop) st :
  (forall s v, init s v -> init' s v) -> (forall st o, safe st o -> safe' st o) ->
  ereach call init safe st -> ereach call init' safe' st.
Proof. intros Hi Hs. induction 1 as [s v st H1 H2|st o _ IH H]; [by eapply er_new; eauto|by apply er_step; auto]. Qed.
(** A state with only the initial variant. *)
Definition enew {S V} (s : S) (v : V) : est S V := mkE s {[initial_variant := v]} (Some initial_variant).
Lemma enew_created {S V} (s : S) (v : V) : ecreated s v (enew s v).
Proof.
  split; [done|]. unfold enew. simpl. split; [by intros id w [_ <-]%lookup_singleton_Some|]. rewrite lookup_singleton. split; [eauto|].
  intros id [= <-]. rewrite lookup_singleton. eauto.
Qed.

(** Specification of a call that validates, then writes the working variant or the shared attributes. *)
Lemma aget_ok {S V} (st : est S V) : ewf st ->
  (exists i v, e_cur st = Some i /\ e_vars st !! i = Some v /\ aget st = (Ok v, st)) \/
  (e_cur st = None /\ exists m, aget st = (Throw m, st)).
Proof.
  intros [_ W]. unfold aget, abind, aindex. destruct (e_cur st) as [i|] eqn:Hc.
  - left. destruct (W i eq_refl) as [v Hv]. exists i, v. by rewrite Hv.
  - right. eauto.
Qed.

(** ** ValidationUtils.cpp *)
(** Each function returns [Throw] where the code throws; the value returned is the argument. *)
Definition check (b : bool) (m : string) : result unit := if b then Throw m else Ok tt.
Notation "e1 ';;+' e2" := (result_bind (fun _ => e2) e1) (at level 199, right associativity).
(** 36-40 *)
Definition checkActivePowerLimits (minP maxP : dbl) := check (dlt maxP minP) "Invalid active limits".
(** 42-47 *)
Definition checkActivePowerSetpoint (p : dbl) := check (is_nan p) "Active power setpoint is not set".
(** 131-139 *)
Definition checkHvdcActivePowerSetpoint (p : dbl) := check (is_nan p) "invalid value" ;;+ check (dlt p dzero) "invalid value".
(** 141-149 *)
Definition checkHvdcMaxP (p : dbl) := check (is_nan p) "invalid value" ;;+ check (dlt p dzero) "invalid value".
(** 174-182 *)
Definition checkLossFactor (x : dbl) := check (is_nan x) "loss factor is invalid" ;;+ check (dlt x dzero || dlt (Fin 100) x) "loss factor must be >= 0 and <= 100".
(** 184-196 *)
Definition checkMaxP (x : dbl) := check (is_nan x) "Maximum active power is not set".
Definition checkMinP (x : dbl) := check (is_nan x) "Minimum active power is not set".
(** 198-206 *)
Definition checkNominalVoltage (x : dbl) := check (is_nan x) "Nominal voltage is undefined" ;;+ check (dle x dzero) "Nominal voltage is <= 0".
(** 235-240, 286-291, 293-298 *)
Definition checkP0 (x : dbl) := check (is_nan x) "p0 is invalid".
Definition checkQ0 (x : dbl) := check (is_nan x) "q0 is invalid".
Definition checkR (x : dbl) := check (is_nan x) "r is invalid".
(** 242-247: std::islessequal is false on NaN. *)
Definition checkPermanentLimit (x : dbl) := check (dle x dzero) "permanent limit must be > 0".
(** 276-284: std::abs(x) > 1. *)
Definition checkPowerFactor (x : dbl) := check (is_nan x) "power factor is invalid" ;;+ check (dlt (Fin 1) x || dlt x (Fin (-1))) "power factor is invalid, it should be between -1 and 1".
(** 300-305 *)
Definition checkRatedS (x : dbl) := check (negb (is_nan x) && dle x dzero) "Invalid rated S value".
(** 346-356; the section count given is always set in the setters. *)
Definition checkSections (current maximum : nat) :=
  check (bool_decide (maximum = 0)) "the maximum number of section should be greater than 0" ;;+
  check (bool_decide (maximum < current)) "the current number of section should be lesser than the maximum number of section".
(** 383-388 *)
Definition checkTapPosition (tap low high : Z) := check (bool_decide (tap < low)%Z || bool_decide (high < tap)%Z) "incorrect tap position".
(** 390-398 *)
Definition checkTargetDeadband (regulating : bool) (x : dbl) :=
  check (regulating && is_nan x) "Undefined value for target deadband" ;;+ check (dlt x dzero) "Unexpected value for target deadband".
(** 407-415 *)
Definition checkVoltageControl1 (on : bool) (v : dbl) :=
  if on then check (is_nan v || dle v dzero) "Invalid voltage setpoint" else Ok tt.
(** 417-425 *)
Definition checkVoltageControl (on : bool) (v q : dbl) :=
  if on then check (is_nan v || dle v dzero) "Invalid voltage setpoint" else check (is_nan q) "Invalid reactive power setpoint".
(** 427-437 *)
Definition checkVoltageLimits (low high : dbl) :=
  check (dlt low dzero) "Low voltage limit is < 0" ;;+ check (dlt high dzero) "High voltage limit is < 0" ;;+
  check (dlt high low) "Inconsistent voltage limit range".

(** A terminal, by a number, and whether it belongs to the network of the equipment. *)
Record term := mkT { t_num : nat; t_here : bool }.
(** 340-344 *)
Definition checkRegulatingTerminal (t : option term) :=
  match t with Some t => check (negb (t_here t)) "Regulating terminal is not part of the network" | None => Ok tt end.

(** ** Mathematical reading of the comparisons *)
Definition defined (x : dbl) : Prop := x <> NaN.
(** Order on the extended reals. *)
Definition ele (a b : dbl) : Prop :=
  match a, b with
  | NaN, _ | _, NaN => False
  | NInf, _ | _, PInf => True
  | Fin x, Fin y => (x <= y)%Q
  | _, _ => False
  end.
Definition elt (a b : dbl) : Prop :=
  match a, b with
  | NaN, _ | _, NaN => False
  | NInf, NInf | PInf, PInf => False
  | NInf, _ | _, PInf => True
  | Fin x, Fin y => (x < y)%Q
  | _, _ => False
  end.
Definition positive (x : dbl) : Prop := elt (Fin 0) x.
Definition non_negative (x : dbl) : Prop := ele (Fin 0) x.

Lemma qleb_spec a b : qleb a b = true <-> (a <= b)%Q.
Proof. unfold qleb. apply Qle_bool_iff. Qed.
Lemma qltb_spec a b : qltb a b = true <-> (a < b)%Q.
Proof.
  unfold qltb. rewrite negb_true_iff. split.
  - intros H. apply Qnot_le_lt. intros Hle%Qle_bool_iff. congruence.
  - intros H. destruct (Qle_bool b a) eqn:E; [|done]. apply Qle_bool_iff in E. exfalso. by apply (Qlt_not_le _ _ H).
Qed.
Lemma dle_spec a b : dle a b = true <-> ele a b.
Proof. destruct a, b; simpl; try done. apply qleb_spec. Qed.
Lemma dlt_spec a b : dlt a b = true <-> elt a b.
Proof. destruct a, b; simpl; try done. apply qltb_spec. Qed.
Lemma is_nan_spec x : is_nan x = true <-> x = NaN.
Proof. by destruct x. Qed.
Lemma is_nan_false x : is_nan x = false <-> defined x.
Proof. by destruct x. Qed.
Lemma elt_not_ele a b : defined a -> defined b -> elt a b <-> ~ ele b a.
Proof.
  intros Ha Hb. destruct a, b; simpl; try done; try tauto. split; [apply Qlt_not_le|apply Qnot_le_lt].
Qed.
Lemma ele_not_elt a b : defined a -> defined b -> ele a b <-> ~ elt b a.
Proof.
  intros Ha Hb. destruct a, b; simpl; try done; try tauto. split; [apply Qle_not_lt|apply Qnot_lt_le].
Qed.
Lemma dle_false a b : defined a -> defined b -> dle a b = false <-> elt b a.
Proof. intros Ha Hb. rewrite elt_not_ele by done. rewrite <- dle_spec. by destruct (dle a b). Qed.
Lemma dlt_false a b : defined a -> defined b -> dlt a b = false <-> ele b a.
Proof. intros Ha Hb. rewrite ele_not_elt by done. rewrite <- dlt_spec. by destruct (dlt a b). Qed.
Lemma check_ok b m : check b m = Ok tt <-> b = false.
Proof. by destruct b. Qed.
Lemma check_seq_ok (r : result unit) (r' : result unit) : (r ;;+ r') = Ok tt <-> r = Ok tt /\ r' = Ok tt.
Proof. destruct r as [[]| | |]; simpl; [tauto|split; [done|by intros [? _]]..]. Qed.

(** ** Setters *)
Section setters.
  Context {S V : Type}.
  (** A setter that checks its argument against the shared attributes and those of the working variant, then assigns the
      attributes of the working variant. *)
  Definition upd_var (f : S -> V -> result V) : act S V unit :=
    do! v := aget in do! s := ashared in do! v' := alift (f s v) in aput v'.
  (** ... then assigns the shared attributes. *)
  Definition upd_sh (f : S -> V -> result S) : act S V unit :=
    do! v := aget in do! s := ashared in do! s' := alift (f s v) in aset s'.
  (** A setter of a shared attribute that does not look at the working variant. *)
  Definition upd_sh0 (f : S -> result S) : act S V unit :=
    do! s := ashared in do! s' := alift (f s) in aset s'.

  Definition no_ub {A} (r : result A) : Prop := r <> UB /\ r <> OutOfFuel.

  Lemma abind_Ok {A B} (m : act S V A) (f : A -> act S V B) st a st' : m st = (Ok a, st') -> abind m f st = f a st'.
  Proof. intros E. unfold abind. by rewrite E. Qed.
  Lemma abind_Throw {A B} (m : act S V A) (f : A -> act S V B) st e st' : m st = (Throw e, st') -> abind m f st = (Throw e, st').
  Proof. intros E. unfold abind. by rewrite E. Qed.
  Lemma upd_var_cases f st : ewf st -> (forall s v, no_ub (f s v)) ->
    (exists i v v', e_cur st = Some i /\ e_vars st !! i = Some v /\ f (e_sh st) v = Ok v' /\
       upd_var f st = (Ok tt, mkE (e_sh st) (<[i := v']> (e_vars st)) (e_cur st))) \/
    (exists m, upd_var f st = (Throw m, st) /\
       (e_cur st = None \/ exists i v m', e_cur st = Some i /\ e_vars st !! i = Some v /\ f (e_sh st) v = Throw m')).
  Proof.
    intros W Hf. unfold upd_var. destruct (aget_ok st W) as [(i & v & Hc & Hv & E)|(Hc & m & E)].
    - rewrite (abind_Ok _ _ _ _ _ E). rewrite (abind_Ok ashared _ st (e_sh st) st eq_refl).
      destruct (Hf (e_sh st) v) as [H1 H2]. destruct (f (e_sh st) v) as [v'|m| |] eqn:Ef; [| |done|done].
      + rewrite (abind_Ok (alift (Ok v')) _ st v' st eq_refl). left. exists i, v, v'. split; [done|]. split; [done|]. split; [done|].
        unfold aput, aindex, abind. rewrite Hc. rewrite Hv. by rewrite Hc.
      + rewrite (abind_Throw (alift (Throw m)) _ st m st eq_refl). right. exists m. split; [done|]. right. eauto 10.
    - rewrite (abind_Throw _ _ _ _ _ E). right. exists m. auto.
  Qed.
  Lemma upd_sh_cases f st : ewf st -> (forall s v, no_ub (f s v)) ->
    (exists i v s', e_cur st = Some i /\ e_vars st !! i = Some v /\ f (e_sh st) v = Ok s' /\
       upd_sh f st = (Ok tt, mkE s' (e_vars st) (e_cur st))) \/
    (exists m, upd_sh f st = (Throw m, st) /\
       (e_cur st = None \/ exists i v m', e_cur st = Some i /\ e_vars st !! i = Some v /\ f (e_sh st) v = Throw m')).
  Proof.
    intros W Hf. unfold upd_sh. destruct (aget_ok st W) as [(i & v & Hc & Hv & E)|(Hc & m & E)].
    - rewrite (abind_Ok _ _ _ _ _ E). rewrite (abind_Ok ashared _ st (e_sh st) st eq_refl).
      destruct (Hf (e_sh st) v) as [H1 H2]. destruct (f (e_sh st) v) as [s'|m| |] eqn:Ef; [| |done|done].
      + rewrite (abind_Ok (alift (Ok s')) _ st s' st eq_refl). left. exists i, v, s'. done.
      + rewrite (abind_Throw (alift (Throw m)) _ st m st eq_refl). right. exists m. split; [done|]. right. eauto 10.
    - rewrite (abind_Throw _ _ _ _ _ E). right. exists m. auto.
  Qed.
  Lemma upd_sh0_cases f st : (forall s, no_ub (f s)) ->
    (exists s', f (e_sh st) = Ok s' /\ upd_sh0 f st = (Ok tt, mkE s' (e_vars st) (e_cur st))) \/
    (exists m, upd_sh0 f st = (Throw m, st) /\ exists m', f (e_sh st) = Throw m').
  Proof.
    intros Hf. unfold upd_sh0, abind, ashared, alift, aset. destruct (Hf (e_sh st)) as [H1 H2].
    destruct (f (e_sh st)) as [s'|m| |] eqn:Ef; [| |done|done]; [left|right]; eauto.
  Qed.

  (** A setter given by one of the three forms. *)
  Inductive setter := SVar (f : S -> V -> result V) | SSh (f : S -> V -> result S) | SSh0 (f : S -> result S).
  Definition run_setter (c : setter) : act S V unit :=
    match c with SVar f => upd_var f | SSh f => upd_sh f | SSh0 f => upd_sh0 f end.
  Definition setter_no_ub (c : setter) : Prop :=
    match c with SVar f => forall s v, no_ub (f s v) | SSh f => forall s v, no_ub (f s v) | SSh0 f => forall s, no_ub (f s) end.
  (** The setter keeps [I]; for a shared attribute: provided it keeps it in the other variants. *)
  Definition setter_keeps (I : S -> V -> Prop) (c : setter) : Prop :=
    match c with
    | SVar f => forall s v v', I s v -> f s v = Ok v' -> I s v'
    | SSh f => forall s v s' w, I s v -> f s v = Ok s' -> I s w -> I s' w
    | SSh0 f => forall s v s', I s v -> f s = Ok s' -> I s' v
    end.

  Lemma run_setter_throw c st m st' : ewf st -> setter_no_ub c -> run_setter c st = (Throw m, st') -> st' = st.
  Proof.
    intros W Hn. destruct c as [f|f|f]; simpl in *.
    - destruct (upd_var_cases f st W Hn) as [(i & v & v' & _ & _ & _ & ->)|(m' & -> & _)]; congruence.
    - destruct (upd_sh_cases f st W Hn) as [(i & v & v' & _ & _ & _ & ->)|(m' & -> & _)]; congruence.
    - destruct (upd_sh0_cases f st Hn) as [(s' & _ & ->)|(m' & -> & _)]; congruence.
  Qed.
  Lemma run_setter_no_ub c st : ewf st -> setter_no_ub c -> no_ub (run_setter c st).1.
  Proof.
    intros W Hn. destruct c as [f|f|f]; simpl in *.
    - destruct (upd_var_cases f st W Hn) as [(i & v & v' & _ & _ & _ & ->)|(m' & -> & _)]; by split.
    - destruct (upd_sh_cases f st W Hn) as [(i & v & v' & _ & _ & _ & ->)|(m' & -> & _)]; by split.
    - destruct (upd_sh0_cases f st Hn) as [(s' & _ & ->)|(m' & -> & _)]; by split.
  Qed.
  Lemma insert_keeps (m : gmap string V) i v w : m !! i = Some v -> forall id, is_Some (<[i := w]> m !! id) <-> is_Some (m !! id).
  Proof.
    intros Hv id. destruct (decide (i = id)) as [->|].
    - rewrite lookup_insert, Hv. split; eauto.
    - by rewrite lookup_insert_ne.
  Qed.
  Lemma run_setter_keeps_variants c st : ewf st -> setter_no_ub c -> keeps_variants st (run_setter c st).2.
  Proof.
    intros W Hn. destruct c as [f|f|f]; simpl in *.
    - destruct (upd_var_cases f st W Hn) as [(i & v & v' & _ & Hv & _ & ->)|(m' & -> & _)]; [|by split].
      split; [done|]. by eapply insert_keeps.
    - destruct (upd_sh_cases f st W Hn) as [(i & v & v' & _ & _ & _ & ->)|(m' & -> & _)]; by split.
    - destruct (upd_sh0_cases f st Hn) as [(s' & _ & ->)|(m' & -> & _)]; by split.
  Qed.
  (** Preservation of an invariant by a setter: a shared attribute must suit all the variants. *)
  Lemma run_setter_inv (I : S -> V -> Prop) c st : ewf st -> setter_no_ub c -> everywhere I st ->
    match c with
    | SVar f => forall i v v', e_cur st = Some i -> e_vars st !! i = Some v -> I (e_sh st) v -> f (e_sh st) v = Ok v' -> I (e_sh st) v'
    | SSh f => forall i v s', e_cur st = Some i -> e_vars st !! i = Some v -> f (e_sh st) v = Ok s' ->
                 forall id w, e_vars st !! id = Some w -> I (e_sh st) w -> I s' w
    | SSh0 f => forall s', f (e_sh st) = Ok s' -> forall id w, e_vars st !! id = Some w -> I (e_sh st) w -> I s' w
    end -> everywhere I (run_setter c st).2.
  Proof.
    intros W Hn E H. destruct c as [f|f|f]; simpl in *.
    - destruct (upd_var_cases f st W Hn) as [(i & v & v' & Hc & Hv & Hf & ->)|(m' & -> & _)]; [|done].
      intros id w. simpl. intros [[<- <-]|[? Hw]]%lookup_insert_Some; [|by eapply E].
      eapply H; [done|done| |done]. by eapply E.
    - destruct (upd_sh_cases f st W Hn) as [(i & v & s' & Hc & Hv & Hf & ->)|(m' & -> & _)]; [|done].
      intros id w Hw. simpl in *. eapply H; [done|done|done|done|]. by eapply E.
    - destruct (upd_sh0_cases f st Hn) as [(s' & Hf & ->)|(m' & -> & _)]; [|done].
      intros id w Hw. simpl in *. eapply H; [done|done|]. by eapply E.
  Qed.
  (** Equipment all of whose calls are setters that keep [ok]. *)
  Lemma equip_inv {C} (sets : C -> setter) (init ok : S -> V -> Prop) :
    (forall s v, init s v -> ok s v) -> (forall c, setter_no_ub (sets c)) -> (forall c, setter_keeps ok (sets c)) ->
    forall st, ereach (fun c => run_setter (sets c)) init always st -> ewf st /\ everywhere ok st.
  Proof.
    intros Hi Hn Hk. apply ereach_inv; [done| |].
    - intros c st W. by apply run_setter_keeps_variants.
    - intros c st W E _. apply run_setter_inv; [done|done|done|]. specialize (Hk c). destruct (sets c) as [f|f|f]; simpl in Hk.
      + intros i v v' _ _. by apply Hk.
      + intros i v s' Hc Hv Hf id w Hw Hok. eapply Hk; [|done|done]. by eapply E.
      + intros s' Hf id w Hw Hok. by eapply Hk.
  Qed.
End setters.
Arguments setter : clear implicits.
