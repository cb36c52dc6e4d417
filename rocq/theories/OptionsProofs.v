(** Proofs about the options. *)
From Verif Require Import Base.
From Verif Require Export Options OptionsSpec PropMapProps.

Lemma value_of_ok h names : match value_of names (prun h) with
  | Some r => exists i n v, names !! i = Some n /\ last_value h n = Some v /\ absent h (take i names) /\ r = Ok v
  | None => absent h names
  end.
Proof.
  induction names as [|n names IH]; cbn [value_of]; [intros ? []%elem_of_nil|].
  pose proof (C42_read h n "") as R. destruct (last_value h n) as [v|] eqn:E.
  - destruct R as (-> & _ & ->). exists 0, n, v. split; [done|]. split; [done|]. split; [intros ? []%elem_of_nil|done].
  - destruct R as (_ & _ & ->). destruct (value_of names (prun h)) as [r|].
    + destruct IH as (i & m & v & Hi & Hv & Ha & ->). exists (S i), m, v. split; [done|]. split; [done|]. split; [|done].
      intros x Hx. cbn in Hx. apply elem_of_cons in Hx as [->|Hx]; [done|]. by apply Ha.
    + intros x Hx. apply elem_of_cons in Hx as [->|Hx]; [done|]. by apply IH.
Qed.
Lemma read_string_ok h p : exists v, asked h (pa_names p) (pa_default p) v /\ read_string (prun h) p = Ok v.
Proof.
  pose proof (value_of_ok h (pa_names p)) as H. unfold read_string. destruct (value_of _ _) as [r|].
  - destruct H as (i & n & v & ? & ? & ? & ->). exists v. split; [by econstructor|done].
  - exists (pa_default p). split; [by constructor|done].
Qed.
Lemma upper_eq c l u : (l, u) ∈ [("t", "T"); ("r", "R"); ("u", "U"); ("e", "E")]%char -> upper c = upper l <-> c ∈ [l; u].
Proof.
  intros H. assert (B : forallb (fun p => Bool.eqb (bool_decide (upper c = upper p.1)) (bool_decide (c ∈ [p.1; p.2]))) [("t", "T"); ("r", "R"); ("u", "U"); ("e", "E")]%char = true).
  { clear H. by destruct c as [[] [] [] [] [] [] [] []]; vm_compute. }
  rewrite forallb_forall in B. specialize (B (l, u) (proj1 (elem_of_list_In _ _) H)). cbn [fst snd] in B. apply Bool.eqb_prop in B.
  rewrite <- (bool_decide_eq_true (upper c = _)), <- (bool_decide_eq_true (c ∈ _)), B. done.
Qed.
Lemma iequals_true v : iequals v "true" = true <-> true_text v.
Proof.
  unfold true_text. assert (S : forall c s l u w, (l, u) ∈ [("t", "T"); ("r", "R"); ("u", "U"); ("e", "E")]%char -> iequals (String c s) (String l w) = true <-> c ∈ [l; u] /\ iequals s w = true).
  { intros c s l u w H. cbn [iequals]. rewrite andb_true_iff, bool_decide_eq_true, (upper_eq c l u) by done. done. }
  assert (N : forall (l : list ascii) ls, Forall2 (fun c l => c ∈ l) (list_ascii_of_string "") (l :: ls) <-> False) by (intros; split; [intros H; inversion H|done]).
  destruct v as [|a [|b [|c [|d v]]]].
  - by rewrite N.
  - rewrite (S a "" _ "T"%char) by (by left). cbn [list_ascii_of_string]. rewrite Forall2_cons. cbn [iequals]. split; [by intros []|]. intros [_ H]; inversion H.
  - rewrite (S a _ _ "T"%char) by (by left). rewrite (S b _ _ "R"%char) by (by right; left). cbn [list_ascii_of_string]. rewrite !Forall2_cons. cbn [iequals]. split; [by intros (? & ? & ?)|]. intros (_ & _ & H); inversion H.
  - rewrite (S a _ _ "T"%char) by (by left). rewrite (S b _ _ "R"%char) by (by right; left). rewrite (S c _ _ "U"%char) by (by right; right; left). cbn [list_ascii_of_string]. rewrite !Forall2_cons. cbn [iequals]. split; [by intros (? & ? & ? & ?)|]. intros (_ & _ & _ & H); inversion H.
  - rewrite (S a _ _ "T"%char) by (by left). rewrite (S b _ _ "R"%char) by (by right; left). rewrite (S c _ _ "U"%char) by (by right; right; left). rewrite (S d _ _ "E"%char) by (by right; right; right; left).
    cbn [list_ascii_of_string]. rewrite !Forall2_cons. destruct v; cbn [iequals list_ascii_of_string].
    + split; [intros (? & ? & ? & ? & _)|intros (? & ? & ? & ? & _)]; repeat split; done || constructor.
    + split; [by intros (? & ? & ? & ? & ?)|]. intros (_ & _ & _ & _ & H); inversion H.
Qed.
Lemma read_boolean_ok h p : exists v b, asked h (pa_names p) (pa_default p) v /\ read_boolean (prun h) p = Ok b /\ (b = true <-> true_text v).
Proof.
  pose proof (value_of_ok h (pa_names p)) as H. unfold read_boolean. destruct (value_of _ _) as [r|].
  - destruct H as (i & n & v & ? & ? & ? & ->). exists v, (iequals v "true"). split; [by econstructor|]. split; [done|]. apply iequals_true.
  - exists (pa_default p), (iequals (pa_default p) "true"). split; [by constructor|]. split; [done|]. apply iequals_true.
Qed.
Lemma pieces_of_ne s : pieces_of s <> [].
Proof. destruct s as [|c s]; cbn [pieces_of]; [done|]. destruct (is_separator c); [done|]. by destruct (pieces_of s). Qed.
Lemma plain_empty : plain "".
Proof. split; intros []%elem_of_nil. Qed.
Lemma is_separator_true c : is_separator c = true <-> c = ","%char \/ c = ":"%char.
Proof. unfold is_separator. by rewrite orb_true_iff, !bool_decide_eq_true. Qed.
Lemma pieces_of_pieces s : pieces s (pieces_of s).
Proof.
  induction s as [|c s IH]; cbn [pieces_of]; [apply pieces_one, plain_empty|]. destruct (is_separator c) eqn:E.
  - apply (pieces_more "" c s); [apply plain_empty|by apply is_separator_true|done].
  - assert (c <> ","%char /\ c <> ":"%char) as [N1 N2].
    { split; intros ->; by vm_compute in E. }
    assert (C : forall p, plain p -> plain (String c p)).
    { intros p [P1 P2]. split; cbn; intros [H|H]%elem_of_cons; done. }
    inversion IH as [p P|p d s' l P D H]; subst; [by apply pieces_one, C|]. apply (pieces_more (String c p)); [by apply C|done|done].
Qed.
Lemma pieces_unique s l l' : pieces s l -> pieces s l' -> l = l'.
Proof.
  intros H. revert l'. assert (A : forall p q c d s t, plain p -> plain q -> c = ","%char \/ c = ":"%char -> d = ","%char \/ d = ":"%char ->
    p +:+ String c s = q +:+ String d t -> p = q /\ s = t).
  { induction p as [|a p IH]; intros [|b q] c d s0 t P Q C D E; cbn in E.
    - by injection E as -> ->.
    - injection E as -> E. exfalso. destruct Q as [Q1 Q2]. cbn in Q1, Q2. destruct C as [->| ->]; [apply Q1|apply Q2]; by left.
    - injection E as <- E. exfalso. destruct P as [P1 P2]. cbn in P1, P2. destruct D as [->| ->]; [apply P1|apply P2]; by left.
    - injection E as <- E. destruct (IH q c d s0 t) as [-> ->]; [| |done..].
      + destruct P as [P1 P2]. split; [intros X; apply P1|intros X; apply P2]; by right.
      + destruct Q as [P1 P2]. split; [intros X; apply P1|intros X; apply P2]; by right. }
  assert (B : forall p c s, c = ","%char \/ c = ":"%char -> ~ plain (p +:+ String c s)).
  { induction p as [|a p IH]; intros c s0 C [P1 P2]; cbn in P1, P2.
    - destruct C as [->| ->]; [apply P1|apply P2]; by left.
    - apply (IH c s0 C). split; [intros X; apply P1|intros X; apply P2]; by right. }
  induction H as [p P|p c s0 l P C H IH]; intros l' H'.
  - inversion H' as [q Q|q d t l0 Q D K]; subst; [done|]. by apply B in P.
  - inversion H' as [q Q E|q d t l0 Q D K E]; subst; [by apply B in Q|]. destruct (A _ _ _ _ _ _ Q P D C E) as [-> ->]. f_equal. by apply IH.
Qed.
Lemma read_list_ok h p : pa_default p = "" -> exists l, read_list (prun h) p = Ok l /\
  ((absent h (pa_names p) /\ l = []) \/ exists v, asked h (pa_names p) "" v /\ ~ absent h (pa_names p) /\ pieces v l /\ l <> []).
Proof.
  intros D. pose proof (value_of_ok h (pa_names p)) as H. unfold read_list. destruct (value_of _ _) as [r|].
  - destruct H as (i & n & v & Hi & Hv & ? & ->). exists (pieces_of v). split; [done|]. right. exists v. split; [by econstructor|]. split; [|split; [apply pieces_of_pieces|apply pieces_of_ne]].
    intros A. rewrite (A n) in Hv; [done|]. by eapply elem_of_list_lookup_2.
  - exists []. split; [by rewrite bool_decide_true|]. by left.
Qed.
Lemma index_of_ok s l : match index_of s l with Some i => l !! i = Some s | None => s ∉ l end.
Proof.
  induction l as [|x l IH]; cbn [index_of]; [intros []%elem_of_nil|]. case_bool_decide as E; [by subst|]. destruct (index_of s l); cbn; [done|].
  intros [?|?]%elem_of_cons; [by subst|done].
Qed.
Lemma from_string_ok e s : match from_string e s with Ok i => en_names e !! i = Some s | Throw _ => s ∉ en_names e | _ => False end.
Proof. unfold from_string. pose proof (index_of_ok s (en_names e)) as H. by destruct (index_of s (en_names e)). Qed.
Lemma asked_unique h names d v w : asked h names d v -> asked h names d w -> v = w.
Proof.
  assert (A : forall i n (l : list string) v, l !! i = Some n -> last_value h n = Some v -> absent h l -> False).
  { intros i n l x Hi Hv Ha. rewrite (Ha n) in Hv; [done|]. by eapply elem_of_list_lookup_2. }
  assert (B : forall i j n v, names !! i = Some n -> last_value h n = Some v -> absent h (take j names) -> i < j -> False).
  { intros i j n x Hi Hv Ha L. apply (A i n (take j names) x); [by rewrite lookup_take|done|done]. }
  intros [i n x Hi Hx Ha|Ha] [j m y Hj Hy Hb|Hb].
  - destruct (Nat.lt_trichotomy i j) as [L|[->|L]].
    + exfalso. by apply (B i j n x).
    + congruence.
    + exfalso. by apply (B j i m y).
  - exfalso. by apply (A i n names x).
  - exfalso. by apply (A j m names y).
  - done.
Qed.

(** The calls. *)
Lemma xruns_snoc cs c o : xruns (cs ++ [c]) o = (xcall_run c (xruns cs o)).2.
Proof. unfold xruns. by rewrite fold_left_app. Qed.
#[global] Instance result_unit_dec : EqDecision (result unit).
Proof. solve_decision. Defined.
(** What a call does to the versions and to the list of extensions. *)
Lemma run_versions c o n : x_versions (xo_ext (xcall_run c o).2) !! n =
  match c with XAddVersion m v => if bool_decide (m = n) && bool_decide ((xcall_run c o).1 = Ok tt) then Some v else x_versions (xo_ext o) !! n | _ => x_versions (xo_ext o) !! n end.
Proof.
  destruct o as [an ind cc tl sv e ve be]; destruct c; cbn [xcall_run snd xo_ext x_versions with_ext]; try done. rename n0 into m.
  destruct (bool_decide (x_only e <> ∅) && bool_decide (m ∉ x_only e)).
  { cbn [fst snd]. rewrite (bool_decide_false (Throw _ = _)) by done. by rewrite andb_false_r. }
  destruct (x_versions e !! m) eqn:E; cbn [fst snd].
  - rewrite (bool_decide_false (Throw _ = _)) by done. by rewrite andb_false_r.
  - rewrite (bool_decide_true (Ok tt = _)) by done. rewrite andb_true_r. cbn [xo_ext x_versions with_ext]. case_bool_decide as M; [subst; apply lookup_insert|by apply lookup_insert_ne].
Qed.
Lemma run_only c o n : n ∈ x_only (xo_ext (xcall_run c o).2) <->
  match c with XAddExtension m => n = m \/ n ∈ x_only (xo_ext o) | XSetExtensions l => n ∈ l | _ => n ∈ x_only (xo_ext o) end.
Proof.
  destruct o as [an ind cc tl sv e ve be]; destruct c; cbn [xcall_run snd xo_ext x_only with_ext]; try done; [set_solver|].
  destruct (bool_decide (x_only e <> ∅) && bool_decide (n0 ∉ x_only e)); [done|]. by destruct (x_versions e !! n0).
Qed.
Lemma add_version_accepted o n v : (xcall_run (XAddVersion n v) o).1 = Ok tt <-> with_extension o n = true /\ x_versions (xo_ext o) !! n = None.
Proof.
  destruct o as [an ind cc tl sv e ve be]. cbn [xcall_run]. unfold with_extension, selected. cbn [xo_ext]. rewrite bool_decide_eq_true.
  destruct (bool_decide (x_only e <> ∅) && bool_decide (n ∉ x_only e)) eqn:B.
  - apply andb_true_iff in B as [B1%bool_decide_eq_true B2%bool_decide_eq_true]. split; [done|]. by intros [[?|?] _].
  - assert (x_only e = ∅ \/ n ∈ x_only e) as H.
    { apply andb_false_iff in B as [B|B]; apply bool_decide_eq_false in B; apply dec_stable in B; auto. }
    destruct (x_versions e !! n) eqn:E; cbn; [split; [done|by intros []]|]. split; [done|done].
Qed.
