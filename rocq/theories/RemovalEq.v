(** Proofs on the removal of one equipment. *)
From stdpp Require Import gmap.
From Verif Require Import Base RemovalSpec RemovalProofs.

Lemma mjoin_some {A} (o : option (option A)) x : mjoin o = Some x <-> o = Some (Some x).
Proof. destruct o as [[]|]; cbn; naive_solver. Qed.
Lemma node_end_dec es i : bool_decide (Exists (fun e : nat * nat * option string => e.1.1 = i \/ e.1.2 = i) es) = true <-> node_end es i.
Proof.
  rewrite bool_decide_eq_true, Exists_exists. split.
  - intros ([[a b] sw] & Hin & H). by exists a, b, sw.
  - intros (a & b & sw & Hin & H). by exists (a, b, sw).
Qed.
Lemma clean_some ns es i o : clean ns es !! i = Some (Some o) <-> ns !! i = Some (Some o) /\ (o = None -> node_end es i).
Proof.
  rewrite <- mjoin_some. unfold clean. rewrite trim_at, list_lookup_imap, mjoin_some.
  destruct (ns !! i) as [[[e|]|]|]; cbn; [naive_solver| |naive_solver|naive_solver].
  pose proof (node_end_dec es i) as H. destruct (bool_decide _); [|naive_solver]. destruct H as [H _]. naive_solver.
Qed.
Lemma trim_last l : last (trim l) <> Some None.
Proof.
  induction l as [|x l IH]; [done|]. cbn [trim]. destruct x as [x|].
  - destruct (trim l) as [|y t]; [done|]. exact IH.
  - destruct (trim l) as [|y t]; [done|]. exact IH.
Qed.
Lemma detach_shed e x : shed e x (detach e x).
Proof.
  split; [done|]. unfold detach. destruct (rv_topo x) as [ns es|bs sw]; cbn.
  - split; [done|]. split; [apply trim_last|]. intros i. split; [intros e'|]; rewrite clean_some, list_lookup_fmap; destruct (ns !! i) as [[[e1|]|]|]; cbn; try case_bool_decide; naive_solver.
  - split; [done|]. apply Forall2_fmap_r, Forall_Forall2_diag, Forall_forall. intros b _. cbn. split; [done|]. intros e'. rewrite elem_of_list_filter. tauto.
Qed.
Lemma shed_trans e x y z : shed e x y -> shed e y z -> shed e x z.
Proof.
  intros [S1 H1] [S2 H2]. split; [congruence|]. destruct (rv_topo x) as [ns es|bs sw], (rv_topo y) as [ns1 es1|bs1 sw1], (rv_topo z) as [ns2 es2|bs2 sw2]; try done.
  - destruct H1 as (-> & _ & H1), H2 as (-> & L & H2). split; [done|]. split; [done|]. intros i. destruct (H1 i) as [A1 B1], (H2 i) as [A2 B2]. split.
    + intros e'. rewrite A2, A1. tauto.
    + rewrite B2, B1, A1. tauto.
  - destruct H1 as [-> H1], H2 as [-> H2]. split; [done|]. eapply Forall2_transitive; [|done|done]. cbn. intros b b1 b2 [E1 F1] [E2 F2]. split; [congruence|].
    intros e'. rewrite F2, F1. tauto.
Qed.
Lemma detach_all_shed e vs : forall m v, match m !! v, detach_all e vs m !! v with
  | Some x, Some x' => if bool_decide (v ∈ vs) then shed e x x' else x' = x
  | None, None => True
  | _, _ => False
  end.
Proof.
  unfold detach_all. induction vs as [|w vs IH]; intros m v; cbn; [by destruct (m !! v)|]. specialize (IH (alter (detach e) w m) v).
  destruct (decide (w = v)) as [->|Hne].
  - rewrite lookup_alter in IH. destruct (m !! v) as [x|]; cbn in IH; [|done]. destruct (_ !! v) as [x'|]; [|done].
    rewrite bool_decide_eq_true_2 by left. case_bool_decide; [|subst; apply detach_shed]. eapply shed_trans; [apply detach_shed|done].
  - rewrite lookup_alter_ne in IH by done. destruct (m !! v) as [x|]; [|done]. destruct (_ !! v) as [x'|]; [|done].
    rewrite (bool_decide_ext (v ∈ w :: vs) (v ∈ vs)); [done|]. rewrite elem_of_cons. naive_solver.
Qed.
Lemma remove_eq_spec n e k vs : nwf n -> r_eqs n !! e = Some (k, vs) -> (forall h s1 s2, r_hv n !! h = Some (s1, s2) -> s1 <> e /\ s2 <> e) ->
  exists n', remove_eq e n = (Ok tt, n') /\ eq_removed e vs n n' /\ nwf n'.
Proof.
  intros W He Hh.
  assert (line_of n e = None) as Hl.
  { destruct (line_of n e) as [[h [s1 s2]]|] eqn:E; [|done]. apply line_of_some in E as [Hs Hp]. destruct (Hh _ _ _ Hs). cbn in Hp. naive_solver. }
  destruct (remove_eq_erased e n k vs W He (fun _ => Hl)) as (n' & E & R). exists n'. split; [done|]. split.
  - unfold remove_eq in E. rewrite He, Hl, (bool_decide_eq_false_2 (is_Some None)), andb_false_r in E by (by intros []). injection E as <-. split; try done. intros v. apply detach_all_shed.
  - eapply erased_wf; [done|done|]. intros h s1 s2 Hs _. by apply (Hh h).
Qed.
Lemma remove_eq_refused n e k vs h s1 s2 : nwf n -> r_eqs n !! e = Some (k, vs) -> r_hv n !! h = Some (s1, s2) -> s1 = e \/ s2 = e ->
  exists m, remove_eq e n = (Throw m, n).
Proof.
  intros W He Hh Hs. unfold remove_eq. rewrite He.
  assert (k = RStation) as ->.
  { destruct (n_hv _ W _ _ _ Hh e) as [v Hv]; [destruct Hs; by auto|]. rewrite He in Hv. by injection Hv. }
  destruct (line_of n e) as [p|] eqn:E; [eauto|]. destruct (line_of_none _ _ E _ _ Hh). naive_solver.
Qed.
