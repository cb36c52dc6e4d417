(** Arithmetic on [dbl]: IEEE rules for NaN and the infinities; exact on the finite values (no rounding, no overflow, one zero). *)
From Verif Require Export Equip.

Definition dneg (a : dbl) : dbl := match a with NaN => NaN | NInf => PInf | PInf => NInf | Fin x => Fin (- x) end.
Definition dplus (a b : dbl) : dbl :=
  match a, b with
  | NaN, _ | _, NaN => NaN
  | PInf, NInf | NInf, PInf => NaN
  | PInf, _ | _, PInf => PInf
  | NInf, _ | _, NInf => NInf
  | Fin x, Fin y => Fin (x + y)
  end.
Definition dminus (a b : dbl) : dbl := dplus a (dneg b).
(** The infinity with the sign of [a] (NaN for 0) and of [s]. *)
Definition dinf (pos : bool) : dbl := if pos then PInf else NInf.
Definition dmul (a b : dbl) : dbl :=
  match a, b with
  | NaN, _ | _, NaN => NaN
  | Fin x, Fin y => Fin (x * y)
  | _, _ => if dlt a dzero then if dlt b dzero then PInf else if dlt dzero b then NInf else NaN
            else if dlt dzero a then if dlt b dzero then NInf else if dlt dzero b then PInf else NaN else NaN
  end.
Definition ddiv (a b : dbl) : dbl :=
  match a, b with
  | NaN, _ | _, NaN => NaN
  | Fin x, Fin y => if Qeq_bool y 0 then if Qeq_bool x 0 then NaN else dinf (qltb 0 x) else Fin (x / y)
  | Fin _, _ => dzero
  | _, Fin y => if dlt a dzero then dinf (qltb y 0) else dinf (negb (qltb y 0))
  | _, _ => NaN
  end.
(** stdcxx::isEqual: include/powsybl/stdcxx/math.hpp:43-48. *)
Definition dis_equal (a b : dbl) : bool := if xorb (is_nan a) (is_nan b) then false else negb (dlt a b || dlt b a).

(** Equality of values. *)
Definition deqv (a b : dbl) : Prop :=
  match a, b with Fin x, Fin y => (x == y)%Q | NaN, NaN | PInf, PInf | NInf, NInf => True | _, _ => False end.
Lemma dis_equal_spec a b : dis_equal a b = true <-> deqv a b.
Proof.
  unfold dis_equal. destruct a as [| |x|], b as [| |y|]; simpl; try done.
  rewrite negb_true_iff, orb_false_iff. unfold qltb. rewrite !negb_false_iff, !Qle_bool_iff. split.
  - intros [H1 H2]. by apply Qle_antisym.
  - intros H. rewrite H. split; apply Qle_refl.
Qed.
Lemma deqv_refl a : deqv a a.
Proof. by destruct a. Qed.
