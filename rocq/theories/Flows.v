(** Flows at the terminals and what the limits of a branch are compared with: src/iidm/Terminal.cpp, src/iidm/Branch.cpp,
    src/iidm/util/LimitViolationUtils.cpp.

    Simplifications: doubles are real numbers, without rounding and infinities, an undefined value (NaN) is [None], and what is computed
    from one is [None]; variants are numbered and the table of variants is a function (C07, C78 have the manager). *)
From Verif Require Export Base.
From Coq Require Export Reals.
From Coquelicot Require Import Complex.
Local Open Scope R_scope.

(** Connectable::getType, as far as Terminal.cpp looks at it. *)
Inductive ckind := KBusbar | KShunt | KOther.
(** Terminal::m_p, m_q in a variant: Terminal.hpp. *)
Record flow := mkFlow { f_p : option R; f_q : option R }.
(** The values of a new terminal: Terminal.cpp:26-31. *)
Definition flow0 : flow := mkFlow None None.

(** setP: Terminal.cpp:108-121; setQ: 123-133; in the working variant. *)
Definition set_p (k : ckind) (x : option R) (f : flow) : result flow :=
  match k, x with
  | KBusbar, _ => Throw "cannot set active power on a busbar section"
  | KShunt, Some _ => Throw "cannot set active power on a shunt compensator"
  | _, _ => Ok (mkFlow x (f_q f))
  end.
Definition set_q (k : ckind) (x : option R) (f : flow) : result flow :=
  match k with
  | KBusbar => Throw "cannot set reactive power on a busbar section"
  | _ => Ok (mkFlow (f_p f) x)
  end.
(** Calls in the working variant [w]; cloning and removing variants copies and forgets the two values: Terminal.cpp:33-55, 97-100. *)
Inductive fop := FSetP (w : nat) (x : option R) | FSetQ (w : nat) (x : option R) | FClone (s d : nat) | FRemove (w : nat).
Definition fmap_t : Type := nat -> option flow.
Definition fset (m : fmap_t) (w : nat) (x : option flow) : fmap_t := fun v => if Nat.eqb v w then x else m v.
Definition on_variant (m : fmap_t) (w : nat) (f : flow -> result flow) : result unit * fmap_t :=
  match m w with
  | None => (Throw "Variant index not set", m)
  | Some x => match f x with Ok y => (Ok tt, fset m w (Some y)) | Throw e => (Throw e, m) | UB => (UB, m) | OutOfFuel => (OutOfFuel, m) end
  end.
Definition fstep (k : ckind) (m : fmap_t) (o : fop) : result unit * fmap_t :=
  match o with
  | FSetP w x => on_variant m w (set_p k x)
  | FSetQ w x => on_variant m w (set_q k x)
  | FClone s d => match m s with None => (Throw "Variant not found", m) | Some x => (Ok tt, fset m d (Some x)) end
  | FRemove w => (Ok tt, fset m w None)
  end.
Definition frun (k : ckind) (ops : list fop) : fmap_t :=
  fold_left (fun m o => snd (fstep k m o)) ops (fset (fun _ => None) 0%nat (Some flow0)).

(** Operations on doubles: what an operand that is undefined gives is undefined. *)
Definition olift (f : R -> R -> R) (x y : option R) : option R := match x, y with Some a, Some b => Some (f a b) | _, _ => None end.
(** std::hypot. *)
Definition hypot (x y : R) : R := sqrt (x * x + y * y).
(** getI: Terminal.cpp:65-71.  The operators are left associative: the quotient by the square root is multiplied by the voltage. *)
Definition term_i (k : ckind) (f : flow) (v : option R) : option R :=
  match k with
  | KBusbar => Some 0
  | _ => olift Rdiv (olift Rmult (olift Rdiv (olift hypot (f_p f) (f_q f)) (Some (sqrt 3))) v) (Some 1000)
  end.

(** A side of a branch: the values of its terminal and its voltage. *)
Record bend := mkEnd { e_f : flow; e_v : option R }.
Inductive ltype := LtActive | LtApparent | LtCurrent | LtVoltage.
(** getValueForLimit: Branch.cpp:306-321. *)
Definition value_for_limit (e : bend) (t : ltype) : result (option R) :=
  match t with
  | LtActive => Ok (f_p (e_f e))
  | LtApparent => Ok (option_map sqrt (olift Rplus (olift Rmult (f_p (e_f e)) (f_p (e_f e))) (olift Rmult (f_q (e_f e)) (f_q (e_f e)))))
  | LtCurrent => Ok (term_i KOther (e_f e) (e_v e))
  | LtVoltage => Throw "Getting VOLTAGE limits is not supported"
  end.
(** LoadingLimits: the permanent limit, the temporary limits in iteration order with their durations. *)
Record rlimits := mkRL { rl_perm : option R; rl_temp : list (R * nat) }.
(** std::isgreaterequal, std::isless. *)
Definition rge (x y : R) : bool := if Rle_dec y x then true else false.
Definition rlt (x y : R) : bool := if Rlt_dec x y then true else false.
(** LimitViolationUtils::checkPermanentLimit: LimitViolationUtils.cpp:20-26. *)
Definition permanent_r (lim : option rlimits) (r : R) (i : option R) : bool :=
  match lim with
  | None => false
  | Some l => match rl_perm l, i with Some p, Some x => rge x (p * r) | _, _ => false end
  end.
(** checkTemporaryLimits: LimitViolationUtils.cpp:28-45; only the duration of the limit is kept. *)
Fixpoint temporary_loop (r x prev : R) (l : list (R * nat)) : option nat :=
  match l with
  | [] => None
  | (tv, d) :: l' => if rge x (prev * r) && rlt x (tv * r) then Some d else temporary_loop r x tv l'
  end.
Definition temporary_r (lim : option rlimits) (r : R) (i : option R) : option nat :=
  match lim with
  | None => None
  | Some l => match rl_perm l, i with Some p, Some x => temporary_loop r x p (rl_temp l) | _, _ => None end
  end.
(** Branch::checkPermanentLimit(side, limitReduction, type): Branch.cpp:60-85. *)
Definition check_permanent_limit (lims : ltype -> option rlimits) (r : R) (e : bend) (t : ltype) : result bool :=
  match value_for_limit e t with Ok x => Ok (permanent_r (lims t) r x) | Throw m => Throw m | UB => UB | OutOfFuel => OutOfFuel end.
(** Branch::isOverloaded(limitReduction): Branch.cpp:327-329; the current limits of the two sides. *)
Definition is_overloaded_r (l1 l2 : option rlimits) (r : R) (e1 e2 : bend) : bool :=
  permanent_r l1 r (term_i KOther (e_f e1) (e_v e1)) || permanent_r l2 r (term_i KOther (e_f e2) (e_v e2)).
(** Branch::getOverloadDuration: Branch.cpp:232-240; [None]: the maximum of unsigned long. *)
Definition shorter (a b : option nat) : option nat :=
  match a, b with Some x, Some y => Some (Nat.min x y) | Some x, None => Some x | None, y => y end.
Definition overload_duration_r (l1 l2 : option rlimits) (e1 e2 : bend) : option nat :=
  shorter (temporary_r l1 1 (term_i KOther (e_f e1) (e_v e1))) (temporary_r l2 1 (term_i KOther (e_f e2) (e_v e2))).
