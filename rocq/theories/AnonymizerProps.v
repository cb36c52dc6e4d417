(** Property C25: anonymization. *)
From Verif Require Import Anonymizer AnonymizerProofs.

(** The mappings of anonymizers that only ever anonymized strings, or started by reading a mapping written by such a one (the
    strings written having no separator). *)
Inductive good : mapping -> Prop :=
| g_new : good []
| g_anonymize m s : good m -> good (anonymize s m).2
| g_copy m l m' : good m -> (forall s c, (s, c) ∈ m -> ";"%char ∉ s /\ newline ∉ s) -> l ≡ₚ m -> read_mapping (write_pairs l) [] = (Ok tt, m') -> good m'.
Lemma numbered_writable m : numbered m -> (forall s c, (s, c) ∈ m -> ";"%char ∉ s /\ newline ∉ s) -> writable m.
Proof.
  intros [_ N] H s c Hs. destruct (H s c Hs) as [H1 H2]. destruct (N s c Hs) as (_ & k & _ & ->).
  repeat split; try done; (eapply letters_no; [apply get_alpha_letters|]); unfold letter; vm_compute; lia.
Qed.
Lemma copy_eq m l : numbered m -> (forall s c, (s, c) ∈ m -> ";"%char ∉ s /\ newline ∉ s) -> l ≡ₚ m ->
  read_mapping (write_pairs l) [] = (Ok tt, reverse l).
Proof.
  intros N H E. assert (writable l) as W by (intros s c Hs; rewrite E in Hs; by apply (numbered_writable m)).
  unfold read_mapping. rewrite get_lines_pairs by done. destruct N as [[N1 N2] _].
  rewrite read_pairs; [by rewrite app_nil_r|done|rewrite E; done|rewrite E; done|]. intros s c _. split; apply not_elem_of_nil.
Qed.
Lemma numbered_perm m m' : m' ≡ₚ m -> numbered m -> numbered m'.
Proof.
  intros E [[N1 N2] N]. split; [split; rewrite E; done|]. intros s c H. rewrite E in H. rewrite (Permutation_length E). by apply N.
Qed.
Lemma good_numbered m : good m -> numbered m.
Proof.
  induction 1 as [|m s _ IH|m l m' _ IH H E R]; [apply numbered_nil|by apply anonymize_numbered|].
  rewrite (copy_eq m l) in R by done. injection R as <-. eapply numbered_perm; [|done]. by rewrite reverse_Permutation.
Qed.

(** The code given to a string is given again whatever has been anonymized in between, gives the string back, and is not given to
    another string. *)
Theorem C25_injective_reversible m s ss : good m -> s <> [] ->
  let c := (anonymize s m).1 in
  let m' := fold_left a_step (map AAnon ss) (anonymize s m).2 in
  anonymize s m' = (c, m') /\ deanonymize c m' = Ok s /\ c <> [] /\ forall s', s' <> s -> (anonymize s' m').1 <> c.
Proof.
  intros N%good_numbered Hs c m'. pose proof (anonymize_numbered s m N) as N1. pose proof (fold_anon_numbered ss _ N1) as N2. fold m' in N2.
  assert ((s, c) ∈ m') as Hin by (by apply fold_incl, anonymize_spec).
  assert (anonymize s m' = (c, m')) as E.
  { unfold anonymize. rewrite bool_decide_false by done. apply bm_left_Some in Hin; [|apply N2]. by rewrite Hin. }
  assert (c <> []) as Hc.
  { destruct N2 as [_ H2]. apply H2 in Hin as (_ & k & Hk & ->). destruct k as [|k]; [lia|]. rewrite <- Nat.add_1_r. apply get_alpha_ne. }
  split; [done|]. split; [|split; [done|]].
  - unfold deanonymize. rewrite bool_decide_false by done. apply bm_right_Some in Hin; [|apply N2]. by rewrite Hin.
  - intros s' Hne Ec. destruct (decide (s' = [])) as [->|Hs']; [done|]. pose proof (anonymize_spec s' m' N2 Hs') as H'. rewrite Ec in H'.
    assert ((s, c) ∈ (anonymize s' m').2) as Hin' by (by apply (a_step_incl m' (AAnon s'))).
    pose proof (anonymize_wf s' m' (proj1 N2)) as W. apply bm_right_Some in H', Hin'; [|done|done]. congruence.
Qed.
(** The empty string is its own code; a code gives a string back exactly when it has been given to it, and is refused otherwise. *)
Theorem C25_empty_and_unknown m c : anonymize [] m = ([], m) /\ deanonymize [] m = Ok [] /\
  (good m -> c <> [] -> (forall s, deanonymize c m = Ok s <-> s <> [] /\ anonymize s m = (c, m)) /\
                        ((forall s, s <> [] -> anonymize s m <> (c, m)) <-> exists e, deanonymize c m = Throw e)).
Proof.
  split; [done|]. split; [done|]. intros N%good_numbered Hc.
  assert (forall s, deanonymize c m = Ok s <-> s <> [] /\ anonymize s m = (c, m)) as H.
  { intros s. unfold deanonymize. rewrite bool_decide_false by done. transitivity (bm_right m c = Some s).
    { destruct (bm_right m c); split; congruence. }
    rewrite bm_right_Some by apply N. split.
    - intros Hp. assert (s <> []) as Hs by (by apply N in Hp as [? _]). split; [done|]. unfold anonymize. rewrite bool_decide_false by done.
      apply bm_left_Some in Hp; [|apply N]. by rewrite Hp.
    - intros [Hs E]. pose proof (anonymize_spec s m N Hs) as Hp. by rewrite E in Hp. }
  split; [done|]. split.
  - intros Hn. unfold deanonymize in *. rewrite bool_decide_false in * by done. destruct (bm_right m c) as [s|]; [|eauto].
    destruct (proj1 (H s) eq_refl) as [? ?]. exfalso. by apply (Hn s).
  - intros [e He] s Hs E. assert (deanonymize c m = Ok s) by (by apply H). congruence.
Qed.
(** Codes are the words of letters in order: A ... Z, AA, AB, ...: the n-th string anonymized has number n in base 26. *)
Theorem C25_code_numbers n : word_number 0 (get_alpha n) = n /\ Forall letter (get_alpha n).
Proof. split; [apply get_alpha_number|apply get_alpha_letters]. Qed.
(** The file read back, for strings without the separators. *)
Theorem C25_round_trip_partial m l : good m -> (forall s c, (s, c) ∈ m -> ";"%char ∉ s /\ newline ∉ s) -> l ≡ₚ m ->
  exists m', read_mapping (write_pairs l) [] = (Ok tt, m') /\ m' ≡ₚ m /\ (forall s, bm_left m' s = bm_left m s) /\ (forall c, deanonymize c m' = deanonymize c m).
Proof.
  intros N%good_numbered H E. exists (reverse l). split; [by apply (copy_eq m)|]. assert (reverse l ≡ₚ m) as P by (by rewrite reverse_Permutation).
  split; [done|]. pose proof (numbered_perm _ _ P N) as N'. assert (forall s, bm_left (reverse l) s = bm_left m s) as L.
  { intros s. apply option_eq. intros c. rewrite !bm_left_Some; [by rewrite P|apply N|apply N']. }
  split; [done|]. intros c. unfold deanonymize. case_bool_decide; [done|]. replace (bm_right (reverse l) c) with (bm_right m c); [done|].
  apply option_eq. intros s. rewrite !bm_right_Some; [by rewrite P|apply N'|apply N].
Qed.
(** A string with a separator: the file is refused when read back. *)
Theorem C25_separator_refuted : exists s m, good m /\ (s, get_alpha 1) ∈ m /\ exists e, (read_mapping (write_pairs m) []).1 = Throw e.
Proof.
  exists (list_ascii_of_string "a;b"), (anonymize (list_ascii_of_string "a;b") []).2. split; [apply g_anonymize, g_new|].
  split; [vm_compute; by left|]. eexists. vm_compute. reflexivity.
Qed.
(** Anonymizing after reading an arbitrary mapping: two strings get the same code. *)
Theorem C25_read_then_anonymize_refuted : exists file s s', let m := (read_mapping file []).2 in
  (read_mapping file []).1 = Ok tt /\ s <> s' /\ (anonymize s m).1 = (anonymize s' m).1 /\ deanonymize (anonymize s' m).1 (anonymize s' m).2 = Ok s.
Proof.
  exists (list_ascii_of_string "x;B"), (list_ascii_of_string "x"), (list_ascii_of_string "y"). vm_compute. repeat split; try done.
Qed.
Example C25_case : exists m, good m /\ length m = 3 /\ (forall s c, (s, c) ∈ m -> ";"%char ∉ s /\ newline ∉ s) /\
  bm_left m (list_ascii_of_string "gen") = Some (list_ascii_of_string "B") /\ get_alpha 703 = list_ascii_of_string "AAA".
Proof.
  exists (fold_left a_step (map AAnon (map list_ascii_of_string ["load"; "gen"; ""; "load"; "line 1"])) []). split.
  - cbn [map fold_left a_step]. repeat apply g_anonymize. apply g_new.
  - split; [vm_compute; reflexivity|]. split; [|split; vm_compute; reflexivity].
    assert (Forall (fun p : str * str => ";"%char ∉ p.1 /\ newline ∉ p.1) (fold_left a_step (map AAnon (map list_ascii_of_string ["load"; "gen"; ""; "load"; "line 1"])) [])) as H
      by (apply (bool_decide_unpack _); vm_compute; exact I).
    rewrite Forall_forall in H. intros s c Hs. by apply H in Hs.
Qed.
Print Assumptions C25_injective_reversible.
Print Assumptions C25_empty_and_unknown.
Print Assumptions C25_code_numbers.
Print Assumptions C25_round_trip_partial.
Print Assumptions C25_separator_refuted.
Print Assumptions C25_read_then_anonymize_refuted.
