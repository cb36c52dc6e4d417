(** What the flows at a terminal mean (C79), without the functions of the code. *)
From Verif Require Import Flows.
From Coquelicot Require Import Complex.
Local Open Scope R_scope.

(** The active power p (MW) and the reactive power q (Mvar) enter at the voltage v (kV between phases): the current i (A) in each of
    the three phases is such that the apparent power (MVA) is the square root of 3 times the voltage times the current. *)
Definition carries (e : bend) (v i : R) : Prop :=
  exists p q, f_p (e_f e) = Some p /\ f_q (e_f e) = Some q /\ e_v e = Some v /\ 0 < v /\ 0 <= i /\ Cmod (p, q) = sqrt 3 * v * (i / 1000).
(** The state of the terminal is known. *)
Definition known_end (e : bend) : Prop := f_p (e_f e) <> None /\ f_q (e_f e) <> None /\ e_v e <> None.
(** The last value that a history gives to the active power in variant [w]: the calls that were accepted count; a variant that is cloned
    starts with the value of its source.  The same for the reactive power. *)
Fixpoint last_value (val : fop -> option (nat * option R)) (ops : list fop) (w : nat) : option R :=
  match ops with
  | [] => None
  | o :: before =>
    match val o, o with
    | Some (w', x), _ => if Nat.eqb w w' then x else last_value val before w
    | None, FClone s d => if Nat.eqb w d then last_value val before s else last_value val before w
    | None, _ => last_value val before w
    end
  end.
Definition p_given (o : fop) : option (nat * option R) := match o with FSetP w x => Some (w, x) | _ => None end.
Definition q_given (o : fop) : option (nat * option R) := match o with FSetQ w x => Some (w, x) | _ => None end.
(** A history that a network allows: one works on variants that exist and clones them. *)
Definition has (ws : nat -> Prop) (o : fop) : Prop := match o with FSetP w _ | FSetQ w _ | FClone w _ | FRemove w => ws w end.
Definition after (ws : nat -> Prop) (o : fop) : nat -> Prop :=
  match o with FClone _ d => fun w => w = d \/ ws w | FRemove v => fun w => w <> v /\ ws w | _ => ws end.
(** Most recent call first. *)
Inductive legal : list fop -> (nat -> Prop) -> Prop :=
| lg_new : legal [] (fun w => w = 0%nat)
| lg_step ops ws o : legal ops ws -> has ws o -> legal (o :: ops) (after ws o).
