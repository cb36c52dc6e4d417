(** Model of the loading limits: LoadingLimits.cpp, LoadingLimitsAdder.hxx, util/LimitViolationUtils.cpp, Branch.cpp (overloads).
    Line numbers refer to LoadingLimitsAdder.hxx unless stated otherwise. *)
From stdpp Require Export pretty.
From Verif Require Export DblArith.

(** LoadingLimits::TemporaryLimit: LoadingLimits.cpp:19-25. *)
Record tlimit := mkTl { tl_name : string; tl_value : dbl; tl_dur : nat; tl_fict : bool }.
(** TemporaryLimits = std::map<unsigned long, TemporaryLimit, std::greater<unsigned long>> (LoadingLimits.hpp:52): the limits in
    iteration order; the key of a limit is its acceptable duration. *)
Notation tlimits := (list tlimit).
(** std::map::emplace: nothing if the key is present. *)
Fixpoint tl_emplace (t : tlimit) (l : tlimits) : tlimits :=
  match l with
  | [] => [t]
  | u :: l' => if tl_dur t <? tl_dur u then u :: tl_emplace t l' else if tl_dur u <? tl_dur t then t :: u :: l' else u :: l'
  end.
(** nameExists: 159-164. *)
Definition name_exists (l : tlimits) (n : string) : bool := existsb (fun t => String.eqb (tl_name t) n) l.
(** The loop of checkAndGetUniqueName: 53-60; [fuel] stands for the distance to the maximum of unsigned long. *)
Fixpoint unique_name_loop (exists_ : string -> bool) (name : string) (fuel i : nat) (u : string) : result string :=
  match fuel with
  | O => OutOfFuel
  | S f => if exists_ u then unique_name_loop exists_ name f (S i) (name +:+ "#" +:+ pretty (N.of_nat i)) else Ok u
  end.
(** checkAndGetUniqueName: 49-62. *)
Definition check_unique_name (l : tlimits) (name : string) (ensure : bool) : result string :=
  if bool_decide (name = "") then Throw "name is not set"
  else if ensure then unique_name_loop (name_exists l) name (S (S (length l))) 0 name
  else Ok name.
(** endTemporaryLimit: 34-46, addTemporaryLimit: 100-103.  The name the temporary limit adder then holds is returned; the other
    attributes of the temporary limit adder are parameters. *)
Definition end_temporary_limit (name : string) (value : dbl) (dur : option nat) (fict ensure : bool) (l : tlimits) : result string * tlimits :=
  if is_nan value then (Throw "temporary limit value is not set", l)
  else if dle value dzero then (Throw "temporary limit value must be > 0", l)
  else match dur with
       | None => (Throw "acceptable duration is not set", l)
       | Some d =>
         match check_unique_name l name ensure with
         | Ok n => (Ok n, tl_emplace (mkTl n value d fict) l)
         | e => (e, l)
         end
       end.
(** checkTemporaryLimits: 117-141; the messages logged are not modelled. *)
Fixpoint check_names (seen : list string) (l : tlimits) : result unit :=
  match l with
  | [] => Ok tt
  | t :: l' => if bool_decide (tl_name t ∈ seen) then Throw "2 temporary limits have the same name" else check_names (tl_name t :: seen) l'
  end.
(** LoadingLimits: the permanent limit and the temporary limits. *)
Record limits := mkL { l_perm : dbl; l_temp : tlimits }.
(** checkLoadingLimits: 111-114 and CurrentLimitsAdder::add (CurrentLimitsAdder.cpp:21-25; the same for the two others); the
    adder keeps its values. *)
Definition limits_add (a : limits) : result limits :=
  match checkPermanentLimit (l_perm a) with
  | Ok _ => result_map (fun _ => a) (check_names [] (l_temp a))
  | Throw m => Throw m | UB => UB | OutOfFuel => OutOfFuel
  end.
(** An adder and the limits it has produced; LSetPermanent is the setter of the limits themselves (LoadingLimits.cpp:73-77) on
    the last ones produced. *)
Inductive laop :=
| LPermanent (x : dbl)
| LEnd (name : string) (value : dbl) (dur : option nat) (fict ensure : bool)
| LAdd
| LSetPermanent (x : dbl).
Definition la_step (st : limits * list limits) (o : laop) : limits * list limits :=
  match o with
  | LPermanent x => (mkL x (l_temp st.1), st.2)
  | LEnd n v d f e => (mkL (l_perm st.1) (end_temporary_limit n v d f e (l_temp st.1)).2, st.2)
  | LAdd => match limits_add st.1 with Ok l => (st.1, l :: st.2) | _ => st end
  | LSetPermanent x => match st.2 with
                       | l :: ls => match checkPermanentLimit x with Ok _ => (st.1, mkL x (l_temp l) :: ls) | _ => st end
                       | [] => st
                       end
  end.
Definition la_run (ops : list laop) : limits * list limits := fold_left la_step ops (mkL NaN [], []).
Definition accepted_limits (l : limits) : Prop := exists ops, l ∈ (la_run ops).2.

(** getTemporaryLimitValue: LoadingLimits.cpp:68-71. *)
Definition temporary_limit_value (l : limits) (d : nat) : dbl :=
  match list_find (fun t => tl_dur t = d) (l_temp l) with Some (_, t) => tl_value t | None => NaN end.

(** LimitViolationUtils::checkPermanentLimit: LimitViolationUtils.cpp:20-26; [lim]: branch.getLimits(type, side), [i]: the value. *)
Definition check_permanent (lim : option limits) (r i : dbl) : bool :=
  match lim with
  | None => false
  | Some l => negb (is_nan (l_perm l)) && negb (is_nan i) && dle (dmul (l_perm l) r) i
  end.
(** Branch::Overload: temporary limit, previous limit name, previous limit. *)
Record overload := mkOv { ov_limit : tlimit; ov_prev_name : string; ov_prev : dbl }.
(** checkTemporaryLimits: LimitViolationUtils.cpp:28-45. *)
Fixpoint check_temporary_loop (r i : dbl) (pn : string) (pl : dbl) (l : tlimits) : option overload :=
  match l with
  | [] => None
  | t :: l' =>
    if dle (dmul pl r) i && dlt i (dmul (tl_value t) r) then Some (mkOv t pn pl)
    else check_temporary_loop r i (tl_name t) (tl_value t) l'
  end.
Definition check_temporary (lim : option limits) (r i : dbl) : option overload :=
  match lim with
  | None => None
  | Some l => if negb (is_nan (l_perm l)) && negb (is_nan i) then check_temporary_loop r i "" (l_perm l) (l_temp l) else None
  end.
(** Branch::getOverloadDuration: Branch.cpp:232-240; [umax]: the maximum of unsigned long. *)
Definition umax : nat := N.to_nat 18446744073709551615.
Lemma umax_big : 4000 < umax.
Proof. unfold umax. lia. Qed.
Global Opaque umax.
Definition overload_duration (lim1 lim2 : option limits) (i1 i2 : dbl) : nat :=
  Nat.min (match check_temporary lim1 (Fin 1) i1 with Some o => tl_dur (ov_limit o) | None => umax end)
          (match check_temporary lim2 (Fin 1) i2 with Some o => tl_dur (ov_limit o) | None => umax end).
(** Branch::isOverloaded: Branch.cpp:323-329. *)
Definition is_overloaded (lim1 lim2 : option limits) (r i1 i2 : dbl) : bool := check_permanent lim1 r i1 || check_permanent lim2 r i2.
