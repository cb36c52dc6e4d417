(** Proofs about the files. *)
From Verif Require Import Base.
From Verif Require Export Files FilesSpec.
From Verif Require Import XmlSpec AnonymizerProofs AnonymizerProps NetXmlSpec NetXmlProofs NetXmlMore NetXmlDec NetXmlShape NetXmlShapeProofs NetXmlProps.

Lemma split_on_ne c s : split_on c s <> [].
Proof. destruct s as [|a s]; cbn [split_on]; [done|]. case_bool_decide; [done|]. by destruct (split_on c s). Qed.
Lemma split_on_plain c s : c ∉ s -> split_on c s = [s].
Proof.
  induction s as [|a s IH]; intros N; [done|]. cbn [split_on]. rewrite bool_decide_false by (intros ->; apply N; by left). rewrite IH; [done|]. intros X. apply N. by right.
Qed.
Lemma last_split_app c s t : last (split_on c (s ++ c :: t)) = last (split_on c t).
Proof.
  induction s as [|a s IH]; cbn [app split_on].
  - rewrite bool_decide_true by done. destruct (split_on c t) eqn:E; [by apply split_on_ne in E|done].
  - case_bool_decide.
    + destruct (split_on c (s ++ c :: t)) eqn:E; [by apply split_on_ne in E|]. done.
    + destruct (split_on c (s ++ c :: t)) as [|w ws] eqn:E; [by apply split_on_ne in E|]. destruct ws as [|x ws]; [|done].
      exfalso. clear - E. revert w E. induction s as [|b s IH]; cbn [app split_on]; intros w.
      * rewrite bool_decide_true by done. destruct (split_on c t) eqn:E'; [by apply split_on_ne in E'|done].
      * case_bool_decide; [destruct (split_on c (s ++ c :: t)) eqn:E'; [by apply split_on_ne in E'|done]|]. destruct (split_on c (s ++ c :: t)) as [|v [|]] eqn:E'; [by apply split_on_ne in E'| |done]. intros _. by apply (IH v).
Qed.
Lemma file_name_ok d name : is_dir d -> "/"%char ∉ name -> file_name (d ++ name) = name.
Proof.
  intros [->|[d' ->]] N; unfold file_name.
  - cbn [app]. by rewrite split_on_plain.
  - rewrite <- app_assoc. cbn [app]. rewrite last_split_app. by rewrite split_on_plain.
Qed.
Lemma from_dot_none s : "."%char ∉ s -> from_dot s = [].
Proof.
  induction s as [|c s IH]; intros N; [done|]. cbn [from_dot]. rewrite IH by (intros X; apply N; by right). rewrite bool_decide_false; [done|]. intros ->. apply N. by left.
Qed.
Lemma from_dot_some s e : "."%char ∉ e -> from_dot (s ++ "."%char :: e) = "."%char :: e.
Proof.
  intros N. induction s as [|c s IH]; cbn [app from_dot]; [by rewrite from_dot_none, bool_decide_true by done|]. by rewrite IH.
Qed.
Lemma csv_path_beside p t : beside p t -> csv_path p = t.
Proof.
  intros [d stem ext D S E1 E2 E|d name D N1 N2|d name D N]; unfold csv_path.
  - rewrite file_name_ok; [|done|].
    2:{ intros [H|H]%elem_of_app; [done|]. apply elem_of_cons in H as [H|H]; [discriminate|done]. }
    unfold extension. rewrite bool_decide_false.
    2:{ intros H. apply elem_of_cons in H as [H|H]; [|apply elem_of_list_singleton in H].
        - destruct stem as [|a stem]; cbn in H; [injection H as ->; by destruct (E eq_refl)|]. injection H as _ H. by destruct stem.
        - destruct stem as [|a stem]; cbn in H.
          + injection H as ->. apply E2. by left.
          + injection H as -> H. destruct stem as [|b stem]; cbn in H; [injection H as ->; by destruct (E eq_refl)|]. injection H as _ H. by destruct stem. }
    rewrite from_dot_some by done. rewrite !app_length. replace (length d + (length stem + length ("."%char :: ext)) - length ("."%char :: ext)) with (length (d ++ stem)) by (rewrite app_length; lia).
    rewrite (app_assoc d stem), take_app. by rewrite <- app_assoc.
  - rewrite file_name_ok by done. unfold extension. rewrite bool_decide_false.
    2:{ intros H. apply elem_of_cons in H as [->|H]; [apply N2; by left|]. apply elem_of_list_singleton in H as ->. apply N2. by left. }
    rewrite from_dot_none by done. cbn [length]. rewrite Nat.sub_0_r, firstn_all. by rewrite <- app_assoc.
  - rewrite file_name_ok; [|done|].
    2:{ intros H. destruct N as [->| ->]; repeat (apply elem_of_cons in H as [H|H]; [discriminate|]); by apply elem_of_nil in H. }
    unfold extension. rewrite bool_decide_true by (destruct N as [->| ->]; [by left|right; by left]). cbn [length]. rewrite Nat.sub_0_r, firstn_all. by rewrite <- app_assoc.
Qed.
(** Every path is of one of the three kinds. *)
Lemma from_dot_cut s : ("."%char ∉ s) \/ exists stem ext, s = stem ++ "."%char :: ext /\ "."%char ∉ ext.
Proof.
  induction s as [|c s [IH|(st & e & -> & N)]].
  - left. intros []%elem_of_nil.
  - destruct (decide (c = "."%char)) as [->|Ne]; [right; by exists [], s|]. left. intros [?|?]%elem_of_cons; [by subst|done].
  - right. by exists (c :: st), e.
Qed.
Lemma dir_cut s : exists d name, s = d ++ name /\ is_dir d /\ "/"%char ∉ name.
Proof.
  induction s as [|c s (d & name & -> & D & N)]; [exists [], []; split; [done|]; split; [by left|intros []%elem_of_nil]|].
  destruct D as [->|[d' ->]].
  - destruct (decide (c = "/"%char)) as [->|Ne]; [exists ["/"%char], name; split; [done|]; split; [right; by exists []|done]|].
    exists [], (c :: name). split; [done|]. split; [by left|]. intros [?|?]%elem_of_cons; [by subst|done].
  - exists (c :: d' ++ ["/"%char]), name. split; [done|]. split; [right; by exists (c :: d')|done].
Qed.
Lemma beside_total p : exists t, beside p t.
Proof.
  destruct (dir_cut p) as (d & name & -> & D & N). destruct (decide (name = ["."%char])) as [->|N1]; [eexists; apply beside_dots; [done|by left]|].
  destruct (decide (name = [".";"."]%char)) as [->|N2]; [eexists; apply beside_dots; [done|by right]|].
  destruct (from_dot_cut name) as [M|(st & e & -> & M)]; [eexists; by apply beside_none|]. eexists. apply beside_extension; [done|..].
  - intros X. apply N, elem_of_app. by left.
  - intros X. apply N, elem_of_app. right. by right.
  - done.
  - intros ->. split; intros ->; [by apply N1|by apply N2].
Qed.
Lemma sorted_perm m : sorted m ≡ₚ m.
Proof. apply merge_sort_Permutation. Qed.
