From Verif Require Import Anonymizer.

(** ** Codes *)
(** The number a word of letters stands for in bijective base 26, from [k]. *)
Definition word_number (k : nat) (s : str) : nat := fold_left (fun v a => 26 * v + (nat_of_ascii a - 65) + 1) s k.
Definition letter (a : ascii) : Prop := 65 <= nat_of_ascii a < 91.
Lemma letter_digit r : r < 26 -> nat_of_ascii (ascii_of_nat (r + 65)) = r + 65.
Proof. intros H. apply nat_ascii_embedding. lia. Qed.
Lemma alpha_step m : let r := m mod 26 in r < 26 /\ 26 * ((m - r) / 26) + r + 1 = S m /\ (m - r) / 26 <= m.
Proof.
  cbv zeta. pose proof (Nat.mod_upper_bound m 26 ltac:(lia)). split; [done|].
  pose proof (Nat.div_mod m 26 ltac:(lia)) as E. assert (m - m mod 26 = (m / 26) * 26) as -> by lia. rewrite Nat.div_mul by lia. lia.
Qed.
Lemma alpha_number f : forall n acc, n <= f -> word_number 0 (alpha_loop f n acc) = word_number n acc.
Proof.
  induction f as [|f IH]; intros n acc Hn; [assert (n = 0) as -> by lia; done|]. destruct n as [|m]; [done|]. cbn [alpha_loop].
  destruct (alpha_step m) as (H1 & H2 & H3). rewrite IH by lia. unfold word_number at 1. cbn [fold_left]. fold (word_number).
  rewrite letter_digit by done. replace (26 * ((m - m mod 26) / 26) + (m mod 26 + 65 - 65) + 1) with (S m) by lia. done.
Qed.
Lemma alpha_letters f : forall n acc, Forall letter acc -> Forall letter (alpha_loop f n acc).
Proof.
  induction f as [|f IH]; intros n acc Ha; [done|]. destruct n as [|m]; [done|]. cbn [alpha_loop]. apply IH. constructor; [|done].
  unfold letter. pose proof (Nat.mod_upper_bound m 26 ltac:(lia)). rewrite letter_digit by done. lia.
Qed.
Lemma get_alpha_number n : word_number 0 (get_alpha n) = n.
Proof. unfold get_alpha. by rewrite alpha_number. Qed.
Lemma get_alpha_inj n k : get_alpha n = get_alpha k -> n = k.
Proof. intros E. rewrite <- (get_alpha_number n), <- (get_alpha_number k). by rewrite E. Qed.
Lemma get_alpha_letters n : Forall letter (get_alpha n).
Proof. by apply alpha_letters. Qed.
Lemma get_alpha_ne n : get_alpha (n + 1) <> [].
Proof. intros E. pose proof (get_alpha_number (n + 1)) as H. rewrite E in H. simpl in H. lia. Qed.

(** ** The bimap *)
Definition bm_wf (m : mapping) : Prop := NoDup (map fst m) /\ NoDup (map snd m).
Lemma bm_left_Some m s c : bm_wf m -> bm_left m s = Some c <-> (s, c) ∈ m.
Proof.
  intros [N _]. unfold bm_left. destruct (list_find (fun p => p.1 = s) m) as [[i p]|] eqn:E; simpl.
  - apply list_find_Some in E as (Hi & Hp & _). split.
    + intros [= <-]. destruct p. simpl in *. subst. by eapply elem_of_list_lookup_2.
    + intros [j Hj]%elem_of_list_lookup. assert (i = j) as ->; [|by assert (p = (s, c)) as -> by congruence].
      eapply NoDup_lookup; [exact N| |]; rewrite list_lookup_fmap; [rewrite Hi; simpl; by rewrite Hp|by rewrite Hj].
  - apply list_find_None in E. rewrite Forall_forall in E. split; [done|]. intros H. by apply E in H.
Qed.
Lemma bm_left_None m s : bm_left m s = None <-> s ∉ map fst m.
Proof.
  unfold bm_left. destruct (list_find (fun p => p.1 = s) m) as [[i p]|] eqn:E; simpl.
  - apply list_find_Some in E as (Hi & <- & _). split; [done|]. intros H. exfalso. apply H, elem_of_list_fmap. exists p. split; [done|]. by eapply elem_of_list_lookup_2.
  - apply list_find_None in E. rewrite Forall_forall in E. split; [|done]. intros _ (p & -> & Hp)%elem_of_list_fmap. by apply (E p).
Qed.
Lemma bm_right_Some m s c : bm_wf m -> bm_right m c = Some s <-> (s, c) ∈ m.
Proof.
  intros [_ N]. unfold bm_right. destruct (list_find (fun p => p.2 = c) m) as [[i p]|] eqn:E; simpl.
  - apply list_find_Some in E as (Hi & Hp & _). split.
    + intros [= <-]. destruct p. simpl in *. subst. by eapply elem_of_list_lookup_2.
    + intros [j Hj]%elem_of_list_lookup. assert (i = j) as ->; [|by assert (p = (s, c)) as -> by congruence].
      eapply NoDup_lookup; [exact N| |]; rewrite list_lookup_fmap; [rewrite Hi; simpl; by rewrite Hp|by rewrite Hj].
  - apply list_find_None in E. rewrite Forall_forall in E. split; [done|]. intros H. by apply E in H.
Qed.
Lemma bm_right_None m c : bm_right m c = None <-> c ∉ map snd m.
Proof.
  unfold bm_right. destruct (list_find (fun p => p.2 = c) m) as [[i p]|] eqn:E; simpl.
  - apply list_find_Some in E as (Hi & <- & _). split; [done|]. intros H. exfalso. apply H, elem_of_list_fmap. exists p. split; [done|]. by eapply elem_of_list_lookup_2.
  - apply list_find_None in E. rewrite Forall_forall in E. split; [|done]. intros _ (p & -> & Hp)%elem_of_list_fmap. by apply (E p).
Qed.
Lemma bm_insert_fresh m s c : s ∉ map fst m -> c ∉ map snd m -> bm_insert s c m = (s, c) :: m.
Proof. intros H1%bm_left_None H2%bm_right_None. unfold bm_insert. by rewrite H1, H2. Qed.
Lemma bm_insert_cases m s c : bm_insert s c m = m \/ (bm_insert s c m = (s, c) :: m /\ s ∉ map fst m /\ c ∉ map snd m).
Proof.
  unfold bm_insert. destruct (bm_left m s) eqn:E1; [by left|]. destruct (bm_right m c) eqn:E2; [by left|].
  right. by rewrite <- bm_left_None, <- bm_right_None.
Qed.
Lemma bm_insert_wf m s c : bm_wf m -> bm_wf (bm_insert s c m).
Proof.
  intros W. destruct (bm_insert_cases m s c) as [->|(-> & H1 & H2)]; [done|]. destruct W as [W1 W2]. split; simpl; by constructor.
Qed.
Lemma bm_insert_incl m s c p : p ∈ m -> p ∈ bm_insert s c m.
Proof. intros Hp. destruct (bm_insert_cases m s c) as [->|(-> & _)]; [done|by right]. Qed.
Lemma read_lines_wf ls : forall m, bm_wf m -> bm_wf (read_lines ls m).2.
Proof.
  induction ls as [|l ls IH]; intros m W; simpl; [done|]. destruct (split_on ";" l) as [|a [|b [|? ?]]]; try done.
  apply IH. by apply bm_insert_wf.
Qed.
Lemma read_lines_incl ls : forall m p, p ∈ m -> p ∈ (read_lines ls m).2.
Proof.
  induction ls as [|l ls IH]; intros m p Hp; simpl; [done|]. destruct (split_on ";" l) as [|a [|b [|? ?]]]; try done.
  apply IH. by apply bm_insert_incl.
Qed.
Lemma anonymize_wf s m : bm_wf m -> bm_wf (anonymize s m).2.
Proof.
  intros W. unfold anonymize. case_bool_decide; [done|]. destruct (bm_left m s); [done|]. by apply bm_insert_wf.
Qed.
Lemma a_step_wf m o : bm_wf m -> bm_wf (a_step m o).
Proof. destruct o; simpl; [apply anonymize_wf|apply read_lines_wf]. Qed.
Lemma a_step_incl m o p : p ∈ m -> p ∈ a_step m o.
Proof.
  destruct o as [s|f]; simpl; [|apply read_lines_incl]. intros Hp. unfold anonymize. case_bool_decide; [done|].
  destruct (bm_left m s); [done|]. by apply bm_insert_incl.
Qed.
Lemma fold_wf ops m : bm_wf m -> bm_wf (fold_left a_step ops m).
Proof. revert m. induction ops as [|o ops IH]; intros m W; simpl; [done|]. by apply IH, a_step_wf. Qed.
Lemma fold_incl ops m p : p ∈ m -> p ∈ fold_left a_step ops m.
Proof. revert m. induction ops as [|o ops IH]; intros m W; simpl; [done|]. by apply IH, a_step_incl. Qed.
Lemma a_run_wf ops : bm_wf (a_run ops).
Proof. apply fold_wf. split; constructor. Qed.

(** ** Mappings whose codes are the first ones *)
Definition numbered (m : mapping) : Prop :=
  bm_wf m /\ (forall s c, (s, c) ∈ m -> s <> [] /\ exists k, 1 <= k <= length m /\ c = get_alpha k).
Lemma numbered_fresh m : numbered m -> get_alpha (length m + 1) ∉ map snd m.
Proof.
  intros [_ H] ([s c] & E & Hp)%elem_of_list_fmap. destruct (H s c Hp) as (_ & k & Hk & ->). simpl in E. apply get_alpha_inj in E. lia.
Qed.
Lemma anonymize_numbered s m : numbered m -> numbered (anonymize s m).2.
Proof.
  intros N. split; [apply anonymize_wf, N|]. intros s' c'. unfold anonymize. case_bool_decide as Hs; [apply N|].
  destruct (bm_left m s) eqn:E; [apply N|]. simpl. rewrite bm_insert_fresh; [|by apply bm_left_None|by apply numbered_fresh].
  rewrite elem_of_cons. intros [[= -> ->]|H].
  - split; [done|]. exists (length m + 1). simpl. split; [lia|done].
  - apply N in H as (? & k & ? & ->). split; [done|]. exists k. simpl. split; [lia|done].
Qed.
Lemma anonymize_spec s m : numbered m -> s <> [] -> (s, (anonymize s m).1) ∈ (anonymize s m).2.
Proof.
  intros N Hs. unfold anonymize. rewrite bool_decide_false by done. destruct (bm_left m s) as [c|] eqn:E; simpl.
  - by apply bm_left_Some in E; [|apply N].
  - rewrite bm_insert_fresh; [by left|by apply bm_left_None|by apply numbered_fresh].
Qed.
Lemma fold_anon_numbered ss m : numbered m -> numbered (fold_left a_step (map AAnon ss) m).
Proof. revert m. induction ss as [|s ss IH]; intros m N; simpl; [done|]. by apply IH, anonymize_numbered. Qed.
Lemma numbered_nil : numbered [].
Proof. split; [split; constructor|]. by intros ? ? ?%elem_of_nil. Qed.

(** ** The file *)
Lemma split_on_none sep s : sep ∉ s -> split_on sep s = [s].
Proof.
  induction s as [|a s IH]; simpl; [done|]. intros [H1 H2]%not_elem_of_cons. rewrite bool_decide_false by done. by rewrite IH.
Qed.
Lemma split_on_app sep s t : sep ∉ s -> split_on sep (s ++ sep :: t) = s :: split_on sep t.
Proof.
  induction s as [|a s IH]; simpl; [by rewrite bool_decide_true by done|]. intros [H1 H2]%not_elem_of_cons.
  rewrite bool_decide_false by done. by rewrite IH.
Qed.
Lemma letters_no a s : Forall letter s -> ~ letter a -> a ∉ s.
Proof. intros H Hn Ha. rewrite Forall_forall in H. by apply Hn, H. Qed.
Definition writable (m : mapping) : Prop := forall s c, (s, c) ∈ m -> ";"%char ∉ s /\ newline ∉ s /\ ";"%char ∉ c /\ newline ∉ c.
Definition file_line (p : str * str) : str := p.1 ++ ";"%char :: p.2.
Lemma split_pairs l : writable l -> split_on newline (write_pairs l) = map file_line l ++ [[]].
Proof.
  unfold write_pairs. induction l as [|[s c] l IH]; intros W; [done|]. cbn [map concat fst snd].
  replace ((s ++ ";"%char :: c ++ [newline]) ++ concat (map (fun p => p.1 ++ ";"%char :: p.2 ++ [newline]) l)) with
    (file_line (s, c) ++ newline :: concat (map (fun p => p.1 ++ ";"%char :: p.2 ++ [newline]) l)).
  2:{ unfold file_line. simpl. rewrite <- !app_assoc. simpl. rewrite <- app_assoc. done. }
  destruct (W s c) as (H1 & H2 & H3 & H4); [by left|]. rewrite split_on_app.
  - rewrite IH; [done|]. intros s' c' H. apply W. by right.
  - unfold file_line. simpl. rewrite elem_of_app, elem_of_cons. intros [?|[?|?]]; done.
Qed.
Lemma get_lines_pairs l : writable l -> get_lines (write_pairs l) = map file_line l.
Proof.
  intros W. unfold get_lines. rewrite split_pairs by done. rewrite last_snoc. rewrite app_length. simpl.
  replace (pred (length (map file_line l) + 1)) with (length (map file_line l)) by lia. by rewrite take_app.
Qed.
Lemma read_pairs l : writable l -> NoDup (map fst l) -> NoDup (map snd l) -> forall m, (forall s c, (s, c) ∈ l -> s ∉ map fst m /\ c ∉ map snd m) ->
  read_lines (map file_line l) m = (Ok tt, reverse l ++ m).
Proof.
  induction l as [|[s c] l IH]; intros W N1 N2 m D; [done|]. cbn [map read_lines].
  destruct (W s c) as (H1 & H2 & H3 & H4); [by left|]. unfold file_line at 1. cbn [fst snd]. rewrite split_on_app, split_on_none by done.
  cbn [map fst snd] in N1, N2. apply NoDup_cons in N1 as [N1 N1'], N2 as [N2 N2']. destruct (D s c) as [D1 D2]; [by left|].
  rewrite bm_insert_fresh by done. rewrite IH; [|intros s' c' H; apply W; by right|done|done|].
  - rewrite reverse_cons, <- app_assoc. done.
  - intros s' c' H. simpl. rewrite !not_elem_of_cons. destruct (D s' c') as [D3 D4]; [by right|]. split; split; try done.
    + intros ->. apply N1, elem_of_list_fmap. by exists (s, c').
    + intros ->. apply N2, elem_of_list_fmap. by exists (s', c).
Qed.
