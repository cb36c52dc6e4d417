(** Power of a bus (C41). *)
From stdpp Require Import list.
From Coq Require Import QArith.
From Flocq Require Import IEEE754.BinarySingleNaN IEEE754.Bits IEEE754.Binary.
From Verif Require Import Base Equip DblArith BusSum BusSumSpec BusSumProofs.

(** P and Q are the totals of the defined values of the connected equipment of the documented types; they are NaN when nothing at all is
    connected (missing: also NaN when no value is defined - see the refutation). *)
Theorem C41_sum_partial (b : bus dbl) :
  (on_bus b = [] -> dbus_p b = NaN /\ dbus_q b = NaN) /\
  (on_bus b <> [] -> total (values p_types t_p (on_bus b)) (dbus_p b) /\ total (values q_types t_q (on_bus b)) (dbus_q b)).
Proof.
  unfold dbus_p, dbus_q, bus_p, bus_q. rewrite connected_count_ok, on_bus_ok. split.
  - intros ->. done.
  - intros H. destruct (on_bus b) as [|t l] eqn:E; [done|]. rewrite <- E. replace (length (on_bus b) =? 0) with false by (by rewrite E).
    rewrite (sum_values p_skipped p_types t_p _ _ p_skipped_spec), (sum_values q_skipped q_types t_q _ _ q_skipped_spec).
    split; apply total_foldl; intros x; apply values_defined.
Qed.
Print Assumptions C41_sum_partial.

(** The enumeration order of the terminals does not matter (exact arithmetic). *)
Theorem C41_order_partial (b b' : bus dbl) : Permutation (on_bus b) (on_bus b') -> deqv (dbus_p b) (dbus_p b') /\ deqv (dbus_q b) (dbus_q b').
Proof.
  intros P. destruct (C41_sum_partial b) as [E S]. destruct (C41_sum_partial b') as [E' S'].
  destruct (on_bus b) as [|t l] eqn:B.
  - apply Permutation_nil in P. destruct (E eq_refl) as [-> ->]. destruct (E' P) as [-> ->]. done.
  - assert (N : on_bus b' <> []). { intros Q. rewrite Q in P. by apply Permutation_sym, Permutation_nil in P. }
    destruct (S ltac:(done)) as [S1 S2]. destruct (S' N) as [S1' S2']. split.
    + apply (total_unique (values p_types t_p (on_bus b'))); [|done]. by apply (total_perm _ _ _ (values_perm p_types t_p _ _ P)).
    + apply (total_unique (values q_types t_q (on_bus b'))); [|done]. by apply (total_perm _ _ _ (values_perm q_types t_q _ _ P)).
Qed.
Print Assumptions C41_order_partial.

(** The value of a finite total is determined: it is the exact sum. *)
Theorem C41_finite (b : bus dbl) (ps : list Q) : on_bus b <> [] -> values p_types t_p (on_bus b) = Fin <$> ps ->
  exists q, dbus_p b = Fin q /\ (q == foldr Qplus 0 ps)%Q.
Proof.
  intros N E. destruct (C41_sum_partial b) as [_ S]. destruct (S N) as [(_ & _ & _ & D) _]. rewrite E in D.
  assert (F : forall x : dbl, (x = PInf \/ x = NInf) -> x ∉ Fin <$> ps). { intros x Hx Q. apply elem_of_list_fmap in Q as (y & -> & _). by destruct Hx. }
  destruct (D (F _ (or_introl eq_refl)) (F _ (or_intror eq_refl))) as (q & -> & Eq). exists q. split; [done|]. rewrite Eq.
  clear. unfold qsum. induction ps as [|p ps IH]; cbn; [reflexivity|]. by rewrite IH.
Qed.
Print Assumptions C41_finite.

(** ** A merged bus: a generator, a load without value, a disconnected load, a shunt and a line. *)
Definition mb : bus dbl := Merged [[mkTerm CGenerator (Fin (-10)) (Fin 3) true; mkTerm CLoad NaN (Fin 1) true]; [mkTerm CLoad (Fin 7) (Fin 7) false;
  mkTerm CShunt (Fin 2) (Fin 5) true; mkTerm CLine (Fin 100) (Fin 100) true; mkTerm CBattery (Fin 4) NaN true]].
Example C41_case : length (on_bus mb) = 5 /\ deqv (dbus_p mb) (Fin (-6)) /\ deqv (dbus_q mb) (Fin 9).
Proof. vm_compute. done. Qed.

(** No value is defined: the answer is 0, not NaN. *)
Theorem C41_undefined_refuted : exists b, on_bus b <> [] /\ values p_types t_p (on_bus b) = [] /\ dbus_p b = Fin 0.
Proof. exists (Calculated [mkTerm CLoad NaN NaN true]). vm_compute. done. Qed.
Print Assumptions C41_undefined_refuted.

(** ** IEEE doubles: the answer depends on the order of the terminals. *)
Definition ieee (m e : Z) : binary64 := binary_normalize 53 1024 eq_refl eq_refl mode_NE m e false.
Definition ieee_p (b : bus binary64) : binary64 := bus_p (ieee 0 0) (ieee 0 0) (Binary.is_nan 53 1024) (b64_plus mode_NE) b.
Theorem C41_rounding_refuted : exists l l', Permutation l l' /\ bits_of_b64 (ieee_p (Configured l)) = bits_of_b64 (ieee 1 0) /\
  bits_of_b64 (ieee_p (Configured l')) = bits_of_b64 (ieee 0 0).
Proof.
  set (t := fun m e => mkTerm CLoad (ieee m e) (ieee 0 0) true).
  exists [t 1%Z 60%Z; t (-1)%Z 60%Z; t 1%Z 0%Z], [t 1%Z 60%Z; t 1%Z 0%Z; t (-1)%Z 60%Z].
  split; [apply perm_skip, perm_swap|]. split; vm_compute; reflexivity.
Qed.
Print Assumptions C41_rounding_refuted.
