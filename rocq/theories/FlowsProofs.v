(** Proofs about the flows at a terminal (C79). *)
From Coq Require Import Psatz.
From Verif Require Import Flows FlowsSpec.
From Coquelicot Require Import Complex.
Local Open Scope R_scope.

Lemma sqrt3 : 0 < sqrt 3.
Proof. apply sqrt_lt_R0. lra. Qed.
Lemma hypot_cmod p q : hypot p q = Cmod (p, q).
Proof. unfold hypot, Cmod. cbn [fst snd]. f_equal. ring. Qed.
Lemma term_i_carries e v i : carries e v i -> term_i KOther (e_f e) (e_v e) = Some (i * (v / 1000) * (v / 1000)).
Proof.
  intros (p & q & Hp & Hq & Hv & V & _ & S). unfold term_i. rewrite Hp, Hq, Hv. cbn [olift]. f_equal. rewrite hypot_cmod, S. pose proof sqrt3. field. lra.
Qed.
Lemma carries_unique e v i v' i' : carries e v i -> carries e v' i' -> v' = v /\ i' = i.
Proof.
  intros (p & q & Hp & Hq & Hv & V & _ & S) (p' & q' & Hp' & Hq' & Hv' & V' & _ & S').
  rewrite Hp in Hp'. rewrite Hq in Hq'. rewrite Hv in Hv'. injection Hp' as <-. injection Hq' as <-. injection Hv' as <-. split; [reflexivity|].
  rewrite S in S'. pose proof sqrt3. assert (0 < sqrt 3 * v) by (apply Rmult_lt_0_compat; assumption).
  apply Rmult_eq_reg_l in S'; [lra|lra].
Qed.
Lemma carries_exists f v p q : f_p f = Some p -> f_q f = Some q -> 0 < v -> carries (mkEnd f (Some v)) v (1000 * Cmod (p, q) / (sqrt 3 * v)).
Proof.
  intros Hp Hq V. pose proof sqrt3. assert (0 < sqrt 3 * v) by (apply Rmult_lt_0_compat; assumption). exists p, q. cbn [e_f e_v]. do 4 (split; [assumption || reflexivity|]).
  split; [|field; lra]. apply Rmult_le_pos; [|apply Rlt_le, Rinv_0_lt_compat; assumption]. pose proof (Cmod_ge_0 (p, q)). lra.
Qed.
(** A flow of the active power only. *)
Definition flow_of (v i : R) : flow := mkFlow (Some (sqrt 3 * v * (i / 1000))) (Some 0).
Lemma flow_of_carries v i : 0 < v -> 0 <= i -> carries (mkEnd (flow_of v i) (Some v)) v i.
Proof.
  intros V I. exists (sqrt 3 * v * (i / 1000)), 0. cbn [e_f e_v flow_of f_p f_q]. do 5 (split; [assumption || reflexivity|]).
  change (sqrt 3 * v * (i / 1000), 0) with (RtoC (sqrt 3 * v * (i / 1000))). rewrite Cmod_R, Rabs_pos_eq; [reflexivity|]. pose proof sqrt3.
  apply Rmult_le_pos; [|lra]. apply Rmult_le_pos; lra.
Qed.
Lemma rge_spec x y : rge x y = true <-> y <= x.
Proof. unfold rge. destruct (Rle_dec y x); split; intros; try assumption; try reflexivity; [discriminate|contradiction]. Qed.
Lemma rlt_spec x y : rlt x y = true <-> x < y.
Proof. unfold rlt. destruct (Rlt_dec x y); split; intros; try assumption; try reflexivity; [discriminate|contradiction]. Qed.
Lemma rge_false x y : rge x y = false <-> x < y.
Proof. unfold rge. destruct (Rle_dec y x); split; intros; try reflexivity; try discriminate; lra. Qed.
Lemma rlt_false x y : rlt x y = false <-> y <= x.
Proof. unfold rlt. destruct (Rlt_dec x y); split; intros; try reflexivity; try discriminate; lra. Qed.

(** ** Histories *)
Lemma fset_eq m w x : fset m w x w = x.
Proof. unfold fset. by rewrite Nat.eqb_refl. Qed.
Lemma fset_ne m w x v : v <> w -> fset m w x v = m v.
Proof. intros H. unfold fset. by rewrite (proj2 (Nat.eqb_neq v w) H). Qed.
Lemma frun_snoc k ops o : frun k (ops ++ [o]) = snd (fstep k (frun k ops) o).
Proof. unfold frun. by rewrite fold_left_app. Qed.
Definition run_back (k : ckind) (ops : list fop) : fmap_t := frun k (rev ops).
Lemma run_back_cons k o ops : run_back k (o :: ops) = snd (fstep k (run_back k ops) o).
Proof. unfold run_back. cbn [rev]. apply frun_snoc. Qed.
Lemma run_has k ops ws : legal ops ws -> forall w, run_back k ops w <> None <-> ws w.
Proof.
  induction 1 as [|ops ws o L IH Ho]; intros w.
  - cbn. unfold run_back, frun. cbn. unfold fset. destruct (Nat.eqb_spec w 0); split; intros; try assumption; try discriminate; congruence.
  - rewrite run_back_cons. destruct o as [u x|u x|s d|u]; cbn [fstep has after] in *.
    + unfold on_variant. pose proof (proj2 (IH u) Ho) as E. destruct (run_back k ops u) as [f|] eqn:Eu; [|congruence].
      destruct (set_p k x f); cbn [snd]; try apply IH. unfold fset. destruct (Nat.eqb_spec w u) as [->|]; [|apply IH]. split; [done|discriminate].
    + unfold on_variant. pose proof (proj2 (IH u) Ho) as E. destruct (run_back k ops u) as [f|] eqn:Eu; [|congruence].
      destruct (set_q k x f); cbn [snd]; try apply IH. unfold fset. destruct (Nat.eqb_spec w u) as [->|]; [|apply IH]. split; [done|discriminate].
    + pose proof (proj2 (IH s) Ho) as E. destruct (run_back k ops s) as [f|] eqn:Es; [|congruence]. cbn [snd]. unfold fset.
      destruct (Nat.eqb_spec w d) as [->|N]; [split; [by left|discriminate]|]. rewrite IH. split; [by right|]. intros [?|?]; [contradiction|assumption].
    + cbn [snd]. unfold fset. destruct (Nat.eqb_spec w u) as [->|N]; [split; [done|]; intros [H _]; congruence|]. rewrite IH. split; [by split|by intros [_ ?]].
Qed.
Lemma run_other ops ws : legal ops ws -> forall w, ws w -> run_back KOther ops w = Some (mkFlow (last_value p_given ops w) (last_value q_given ops w)).
Proof.
  induction 1 as [|ops ws o L IH Ho]; intros w Hw.
  - subst w. reflexivity.
  - rewrite run_back_cons. destruct o as [u x|u x|s d|u]; cbn [fstep has after last_value p_given q_given] in *.
    + unfold on_variant. rewrite (IH u Ho). cbn [set_p snd f_q]. unfold fset. destruct (Nat.eqb_spec w u) as [->|]; [reflexivity|by apply IH].
    + unfold on_variant. rewrite (IH u Ho). cbn [set_q snd f_p]. unfold fset. destruct (Nat.eqb_spec w u) as [->|]; [reflexivity|by apply IH].
    + rewrite (IH s Ho). cbn [snd]. unfold fset. destruct (Nat.eqb_spec w d) as [->|N]; [reflexivity|]. destruct Hw as [|Hw]; [contradiction|]. by apply IH.
    + destruct Hw as [N Hw]. cbn [snd]. rewrite fset_ne by assumption. by apply IH.
Qed.
Lemma run_shunt_q ops ws : legal ops ws -> forall w, ws w -> run_back KShunt ops w = Some (mkFlow None (last_value q_given ops w)).
Proof.
  induction 1 as [|ops ws o L IH Ho]; intros w Hw.
  - subst w. reflexivity.
  - rewrite run_back_cons. destruct o as [u x|u x|s d|u]; cbn [fstep has after last_value q_given] in *.
    + unfold on_variant. rewrite (IH u Ho). destruct x; cbn [set_p snd f_q]; [by apply IH|]. unfold fset. destruct (Nat.eqb_spec w u) as [->|]; [reflexivity|by apply IH].
    + unfold on_variant. rewrite (IH u Ho). cbn [set_q snd f_p]. unfold fset. destruct (Nat.eqb_spec w u) as [->|]; [reflexivity|by apply IH].
    + rewrite (IH s Ho). cbn [snd]. unfold fset. destruct (Nat.eqb_spec w d) as [->|N]; [reflexivity|]. destruct Hw as [|Hw]; [contradiction|]. by apply IH.
    + destruct Hw as [N Hw]. cbn [snd]. rewrite fset_ne by assumption. by apply IH.
Qed.
Lemma run_busbar ops ws : legal ops ws -> forall w, ws w -> run_back KBusbar ops w = Some flow0.
Proof.
  induction 1 as [|ops ws o L IH Ho]; intros w Hw.
  - by subst w.
  - rewrite run_back_cons. destruct o as [u x|u x|s d|u]; cbn [fstep has after] in *.
    + unfold on_variant. rewrite (IH u Ho). by apply IH.
    + unfold on_variant. rewrite (IH u Ho). by apply IH.
    + rewrite (IH s Ho). cbn [snd]. unfold fset. destruct (Nat.eqb_spec w d) as [->|N]; [reflexivity|]. destruct Hw as [|Hw]; [contradiction|]. by apply IH.
    + destruct Hw as [N Hw]. cbn [snd]. rewrite fset_ne by assumption. by apply IH.
Qed.
