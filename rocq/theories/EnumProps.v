(** C70: the names of the values of the enumerations. *)
From Verif Require Import Enum EnumTables EnumProofs.

(** For every enumeration of the library: each enumerator has a text, read back as this enumerator and no other; a text is accepted
    exactly when it is the text of an enumerator; values that are no enumerators are refused. *)
Theorem C70_roundtrip (e : enumeration) : e ∈ enumerations ->
  (forall v, v < length (en_ids e) -> exists s, to_string e v = Ok s /\ from_string e s = Ok v) /\
  (forall s v, from_string e s = Ok v <-> v < length (en_ids e) /\ to_string e v = Ok s) /\
  (forall s, is_throw (from_string e s) = true <-> forall v, to_string e v <> Ok s) /\
  (forall v, length (en_ids e) <= v -> is_throw (to_string e v) = true) /\
  (forall v w s, to_string e v = Ok s -> to_string e w = Ok s -> v = w).
Proof.
  intros He. destruct (good_in e He) as [Hl Hn]. unfold to_string, from_string. split_and!.
  - intros v Hv. rewrite <- Hl in Hv. destruct (lookup_lt_is_Some_2 _ _ Hv) as [s Hs]. exists s. rewrite Hs.
    split; [done|]. by rewrite (index_of_lookup s _ v).
  - intros s v. destruct (index_of s (en_names e)) as [i|] eqn:E.
    + apply index_of_Some in E as [Hi _]. split.
      * intros [= <-]. rewrite Hi. split; [|done]. rewrite <- Hl. by eapply lookup_lt_Some.
      * intros [_ Hv]. destruct (en_names e !! v) as [s'|] eqn:Ev; [|done]. injection Hv as ->. f_equal. by eapply NoDup_lookup.
    + apply index_of_None in E. split; [done|]. intros [_ Hv]. destruct (en_names e !! v) as [s'|] eqn:Ev; [|done]. injection Hv as ->.
      exfalso. apply E. by eapply elem_of_list_lookup_2.
  - intros s. destruct (index_of s (en_names e)) as [i|] eqn:E.
    + split; [done|]. intros H. apply index_of_Some in E as [Hi _]. exfalso. apply (H i). by rewrite Hi.
    + split; [|done]. intros _ v Hv. destruct (en_names e !! v) as [s'|] eqn:Ev; [|done]. injection Hv as ->.
      apply index_of_None in E. apply E. by eapply elem_of_list_lookup_2.
  - intros v Hv. rewrite <- Hl in Hv. by rewrite (lookup_ge_None_2 _ _ Hv).
  - intros v w s Hv Hw. destruct (en_names e !! v) as [s1|] eqn:Ev; [|done]. destruct (en_names e !! w) as [s2|] eqn:Ew; [|done].
    injection Hv as ->. injection Hw as ->. by eapply NoDup_lookup.
Qed.
Print Assumptions C70_roundtrip.

(** The text of an enumerator is its identifier: Country::FR is "FR".  Missing: HvdcConverterStation::HvdcType, for which it is false. *)
Theorem C70_identifier_partial (e : enumeration) (v : nat) (x : string) : e ∈ enumerations -> e <> e_HvdcConverterStation_HvdcType ->
  en_ids e !! v = Some x -> to_string e v = Ok x /\ from_string e x = Ok v.
Proof.
  intros He Hne Hx. pose proof all_faithful as A. rewrite forallb_forall in A. specialize (A e (proj1 (elem_of_list_In _ _) He)).
  rewrite bool_decide_eq_false_2 in A by done. apply bool_decide_eq_true in A.
  destruct (good_in e He) as [_ Hn]. unfold to_string, from_string. rewrite A in *. rewrite Hx. split; [done|]. by rewrite (index_of_lookup x _ v).
Qed.
Print Assumptions C70_identifier_partial.

(** The two kinds of converter stations have each other's name: a VSC station is written "LCC", "VSC" is read as LCC. *)
Theorem C70_hvdc_type_refuted : exists vsc lcc,
  en_ids e_HvdcConverterStation_HvdcType !! vsc = Some "VSC" /\ en_ids e_HvdcConverterStation_HvdcType !! lcc = Some "LCC" /\
  to_string e_HvdcConverterStation_HvdcType vsc = Ok "LCC" /\ to_string e_HvdcConverterStation_HvdcType lcc = Ok "VSC" /\
  from_string e_HvdcConverterStation_HvdcType "VSC" = Ok lcc.
Proof. by exists 0, 1. Qed.
Print Assumptions C70_hvdc_type_refuted.

(** Every country has a name of its own; a value that is no country is refused. *)
Theorem C70_country (v : nat) :
  (v < length (en_ids e_Country) -> exists s, country_name country_names v = Ok s /\ forall w, country_name country_names w = Ok s -> w = v) /\
  (length (en_ids e_Country) <= v -> is_throw (country_name country_names v) = true).
Proof.
  assert (Hl : length country_names = length (en_ids e_Country)) by by vm_compute.
  assert (Hn : NoDup country_names) by (apply (bool_decide_eq_true (NoDup country_names)); by vm_compute).
  unfold country_name. rewrite <- Hl. split.
  - intros Hv. destruct (lookup_lt_is_Some_2 _ _ Hv) as [s Hs]. exists s. rewrite Hs. split; [done|]. intros w Hw.
    destruct (country_names !! w) as [s'|] eqn:Ew; [|done]. injection Hw as ->. by eapply NoDup_lookup.
  - intros Hv. by rewrite (lookup_ge_None_2 _ _ Hv).
Qed.
Print Assumptions C70_country.

(** ** Cases *)
Example C70_case : e_Country ∈ enumerations /\ e_Country <> e_HvdcConverterStation_HvdcType /\ en_ids e_Country !! 75 = Some "FR" /\
  to_string e_Country 75 = Ok "FR" /\ country_name country_names 75 = Ok "FRANCE" /\ is_throw (from_string e_Country "fr") = true /\
  from_string e_SwitchKind "LOAD_BREAK_SWITCH" = Ok 2 /\ length enumerations = 24.
Proof. split_and!; [|done|by vm_compute..]. do 2 right. by left. Qed.
