(** Property C82, continued: each value is written under its own name. *)
From Verif Require Import Xml NetXml NetXmlSpec NetXmlMore NetXmlDec NetXmlShape NetXmlShapeProofs NetXmlProps VocabularySpec VocabularyProofs VocabularyProps ColumnsSpec ColumnsProofs.

(** Each object of a network exported without anonymization has an element in the document, whose attributes and elements are its own values, each under the name of
    its column. *)
Theorem C82_values o n y m l : net_valid false (o_ver o) n -> write_network o false n = Ok (y, m) -> l ∈ mjoin (sub_leaves <$> n_subs n) ++ n_lines n ++ n_hvdcs n -> said (o_ver o) l y.
Proof. intros Hn E Hl. by apply (proj2 (network_said _ _ _ _ Hn E)). Qed.
(** A name of an attribute determines the value: no two columns share it. *)
Theorem C82_columns v c k : distinct v (columns c) /\ distinct v (part_columns k) /\ forall e, e ∈ part_elements k -> distinct v (element_columns k e.1).
Proof.
  pose proof distinct_all as H. rewrite forallb_forall in H. specialize (H v (proj1 (elem_of_list_In _ _) (in_vers v))). apply andb_true_iff in H as [H1 H2]. rewrite forallb_forall in H1. rewrite forallb_forall in H2.
  assert (In k all_kinds) as Hk by (destruct k; cbn; tauto). specialize (H2 k Hk). apply andb_true_iff in H2 as [H2 H3]. rewrite forallb_forall in H3.
  split; [|split].
  - apply distinctb_spec, H1, elem_of_list_In, in_classes.
  - by apply distinctb_spec.
  - intros e He. apply distinctb_spec. by apply (H3 e), elem_of_list_In.
Qed.
(** The network of [full_net] has a shunt compensator with a non linear model; a section with two values. *)
Example C82_values_case :
  net_valid false V1_5 full_net /\ write_network (x_opts V1_5 false) false full_net = Ok (full_doc V1_5, None) /\
  (exists l, l ∈ mjoin (sub_leaves <$> n_subs full_net) ++ n_lines full_net ++ n_hvdcs full_net /\ l_id l = "SH2" /\ said V1_5 l (full_doc V1_5)) /\
  tells V1_5 (element_columns PNonLinear "section") [VNum (Some "1"); VNum (Some "2")] [("b", "1"); ("g", "2")] /\
  ~ tells V1_5 (element_columns PNonLinear "section") [VNum (Some "1"); VNum (Some "2")] [("b", "2"); ("g", "1")].
Proof.
  split; [apply full_valid|]. split; [apply full_doc_ok|]. split; [|split].
  - assert (exists l, l ∈ mjoin (sub_leaves <$> n_subs full_net) ++ n_lines full_net ++ n_hvdcs full_net /\ l_id l = "SH2") as (l & Hl & Ei).
    { assert (existsb (fun l => String.eqb (l_id l) "SH2") (mjoin (sub_leaves <$> n_subs full_net) ++ n_lines full_net ++ n_hvdcs full_net) = true) as H by (vm_compute; reflexivity).
      apply existsb_exists in H as (l & Hl%elem_of_list_In & E%String.eqb_eq). eauto. }
    exists l. split; [done|]. split; [done|]. change V1_5 with (o_ver (x_opts V1_5 false)). eapply C82_values; [apply full_valid|apply full_doc_ok|done].
  - intros a t [[= -> ->]|[[= -> ->]|H%elem_of_nil]%elem_of_cons]%elem_of_cons; [exists 0|exists 1|done]; do 4 eexists; (split; [reflexivity|]); (split; [left|]); (split; [cbn; lia|]); done.
  - intros T. destruct (T "b" "2" ltac:(left)) as (i & c & x & lo & hi & Hc & Hin & _ & Hx & Hs). destruct i as [|[|i]]; cbn in Hc, Hx; [| |done].
    + injection Hx as <-. done.
    + injection Hc as <-. apply elem_of_list_singleton in Hin. done.
Qed.
Print Assumptions C82_values.
Print Assumptions C82_columns.
