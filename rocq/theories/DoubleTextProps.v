(** C54: numbers written as attributes are read back as the same numbers. *)
From Coq Require Import Reals Lra Lia.
From Flocq Require Import Core.Core IEEE754.BinarySingleNaN.
From Coq Require Import Floats.SpecFloat Strings.Ascii Strings.String.
From stdpp Require Import list strings.
From Verif Require Import Base DoubleText DoubleTextProofs.
Local Open Scope Z_scope.

(** The real number of a double is [SF2R radix2]. Below the smallest normal number, and not zero. *)
Definition subnormal (x : spec_float) : Prop := (0 < Rabs (SF2R radix2 x) < bpow radix2 (-1022))%R.
Lemma subnormal_finite x : subnormal x -> exists s m e, x = S754_finite s m e.
Proof. intros [H _]. destruct x as [s|s| |s m e]; [cbn in H; rewrite Rabs_R0 in H; lra..|by exists s, m, e]. Qed.
Lemma subnormal_iff s m e : double (S754_finite s m e) -> subnormal (S754_finite s m e) <-> subnormal_mantissa m = true.
Proof.
  intros V. rewrite (mantissa_subnormal s m e V). unfold subnormal. cbn [SF2R]. assert (0 < F2R (Float radix2 (Zpos m) e))%R by (by apply F2R_gt_0).
  assert (Rabs (F2R (Float radix2 (cond_Zopp s (Zpos m)) e)) = F2R (Float radix2 (Zpos m) e)) as ->; [|intuition lra].
  destruct s; cbn [cond_Zopp]; [rewrite F2R_Zopp, Rabs_Ropp|]; apply Rabs_pos_eq; lra.
Qed.

(** Seventeen digits are enough: a double written as the value of an attribute, including infinities and the sign of zero, is read back the same,
    unless it is below the smallest normal number. *)
Theorem C54_double x : double x -> x <> S754_nan -> ~ subnormal x -> stod (to_string x) = Ok x.
Proof.
  intros V N S. destruct x as [s|s| |s m e]; [by destruct s|by destruct s|done|]. destruct (read_written s m e V) as (a & b & d & k & _ & _ & _ & _ & _ & ->).
  destruct (subnormal_mantissa m) eqn:E; [|done]. destruct S. by apply subnormal_iff.
Qed.
(** The attribute of a NaN is left out, and its absence is read as NaN. *)
Theorem C54_attribute x : double x -> ~ subnormal x -> read_double (write_double x) = Ok x.
Proof. intros V S. destruct x as [s|s| |s m e]; try done; by apply C54_double. Qed.
(** Every other double, without exception, ends the import. *)
Theorem C54_subnormal_refuted x : double x -> subnormal x -> read_double (write_double x) = Throw "out of range: stod".
Proof.
  intros V S. destruct (subnormal_finite x S) as (s & m & e & ->). cbn [write_double read_double]. destruct (read_written s m e V) as (a & b & d & k & A & B & F & D & _ & ->).
  apply (subnormal_iff s m e V) in S. by rewrite S, (subnormal_inexact s m e a b d k V S B F D).
Qed.
(** What the texts mean: the number denoted by the text of a finite double, once its sign removed, differs from it by at most half a unit of
    the seventeenth digit; and reading a decimal number gives the double nearest to it, when that is a normal number. *)
Theorem C54_text s m e : double (S754_finite s m e) -> let x := F2R (Float radix2 (Zpos m) e) in
  exists l n k, to_string (S754_finite s m e) = string_of_list_ascii (sign_text s ++ l) /\ decimal l = Some (n, k) /\
    exists d q, F2R (Float radix10 n k) = F2R (Float radix10 d q) /\ 10 ^ 16 <= d < 10 ^ 17 /\ (Rabs (F2R (Float radix10 d q) - x) <= / 2 * / IZR (10 ^ 16) * x)%R.
Proof.
  intros V x. destruct (written s m e V) as (d & k & E & D & K & R). destruct (layout_decimal (digs 17 d) (k + 16)) as (j & m' & Ed & Nd); [apply digs_length|apply digs_dig|done|].
  rewrite digs_number in Nd by (change (10 ^ Z.of_nat 17) with (10 ^ 17); lia). exists (layout (digs 17 d) (k + 16)), m', (k + 16 - 16 + Z.of_nat j). split; [done|]. split; [done|]. exists d, k. split; [|done].
  rewrite (dec_scale m' j _ k) by lia. by rewrite <- Nd.
Qed.
Theorem C54_nearest s l n k : decimal l = Some (n, k) -> (exists c r, l = c :: r /\ is_digit c = true) ->
  let r := round radix2 (FLT_exp (-1074) 53) ZnearestE (F2R (Float radix10 n k)) in (bpow radix2 (-1022) <= r < bpow radix2 1024)%R ->
  exists y, stod (string_of_list_ascii (sign_text s ++ l)) = Ok y /\ double y /\ SF2R radix2 y = (if s then - r else r)%R.
Proof.
  intros Ed (c & l' & -> & Hc) r [R1 R2]. assert (N0 : 0 < n).
  { destruct (Z.lt_ge_cases 0 n) as [|G]; [done|]. exfalso. assert (r <= 0)%R; [|pose proof (bpow_gt_0 radix2 (-1022)); lra]. apply round_le_generic; [apply _|apply _|apply generic_format_0|]. by apply F2R_le_0. }
  unfold stod. rewrite list_ascii_of_string_of_list_ascii, sign_of_text by done. rewrite !not_starts by done. rewrite Ed. destruct (Z.eqb_spec n 0); [lia|].
  pose proof (fraction_spec n k N0) as F. destruct (fraction n k) as [a b]. destruct F as (A & B & F). destruct (nearest_spec s a b A B) as (N1 & N2 & N3 & N4); [rewrite F; exact R2|]. rewrite F in N4. fold r in N4.
  assert (Ry : (Rabs (SF2R radix2 (nearest s a b)) = r)%R). { pose proof (bpow_gt_0 radix2 (-1022)). rewrite N4. destruct s; [rewrite Rabs_Ropp|]; apply Rabs_pos_eq; lra. }
  destruct (nearest s a b) as [s'|s'| |s' m' e'] eqn:E; try done.
  - cbn in Ry. rewrite Rabs_R0 in Ry. pose proof (bpow_gt_0 radix2 (-1022)). lra.
  - exists (S754_finite s' m' e'). destruct (subnormal_mantissa m') eqn:Sm; [|done]. apply (subnormal_iff s' m' e' N1) in Sm as [_ Sm]. rewrite Ry in Sm. lra.
Qed.
(** Integers and booleans. *)
Theorem C54_int z : - 2 ^ 31 <= z < 2 ^ 31 -> stoi (to_string_int z) = Ok z.
Proof.
  intros H. destruct (read_int z) as (s & ds & E & Sp & Ne & V & _). unfold stoi, stoi_range. rewrite E, Sp. destruct ds; [done|]. rewrite V. destruct (Z.leb_spec (- 2 ^ 31) z), (Z.leb_spec z (2 ^ 31 - 1)); try lia. done.
Qed.
Theorem C54_long z : - 2 ^ 63 <= z < 2 ^ 63 -> stol (to_string_int z) = Ok z.
Proof.
  intros H. destruct (read_int z) as (s & ds & E & Sp & Ne & V & _). unfold stol, stoi_range. rewrite E, Sp. destruct ds; [done|]. rewrite V. destruct (Z.leb_spec (- 2 ^ 63) z), (Z.leb_spec z (2 ^ 63 - 1)); try lia. done.
Qed.
Theorem C54_unsigned_long z : 0 <= z < 2 ^ 64 -> stoul (to_string_int z) = Ok z.
Proof.
  intros H. destruct (read_int z) as (s & ds & E & Sp & Ne & V & Va & Hs). unfold stoul. rewrite E, Sp. destruct ds; [done|]. destruct s; [specialize (Hs eq_refl); lia|]. rewrite V. destruct (Z.ltb_spec z (2 ^ 64)); [done|lia].
Qed.
Theorem C54_bool b : read_bool (write_bool b) = b.
Proof. by destruct b. Qed.

(** The words for booleans, NaN and infinities are read whatever their case, and nothing else is read as true. *)
Lemma lower_is (l u : ascii) : (forall c, lower c = l <-> c = l \/ c = u) -> forall c, lower c = l <-> c ∈ [l; u].
Proof. intros H c. rewrite H. set_solver. Qed.
Ltac lower_tac := apply lower_is; intros [[] [] [] [] [] [] [] []]; vm_compute; (split; [first [by left|by right|discriminate]|first [by intros [[=]|[=]]|by intros _]]).
Theorem C54_bool_words t :
  read_bool t = true <-> Forall2 (fun c cs => c ∈ cs) (list_ascii_of_string t) [["t"; "T"]; ["r"; "R"]; ["u"; "U"]; ["e"; "E"]]%char.
Proof.
  unfold read_bool. rewrite bool_decide_eq_true.
  assert (forall c, lower c = "t"%char <-> c ∈ ["t"; "T"]%char) as Ht by lower_tac. assert (forall c, lower c = "r"%char <-> c ∈ ["r"; "R"]%char) as Hr by lower_tac.
  assert (forall c, lower c = "u"%char <-> c ∈ ["u"; "U"]%char) as Hu by lower_tac. assert (forall c, lower c = "e"%char <-> c ∈ ["e"; "E"]%char) as He by lower_tac.
  generalize (list_ascii_of_string t) as l. intros l. split.
  - intros E. destruct l as [|a [|b [|c [|d [|x l]]]]]; try discriminate. injection E as E1 E2 E3 E4.
    constructor; [by apply Ht|]. constructor; [by apply Hr|]. constructor; [by apply Hu|]. constructor; [by apply He|]. constructor.
  - intros H. apply Forall2_cons_inv_r in H as (a & l1 & Ha & H & ->). apply Forall2_cons_inv_r in H as (b & l2 & Hb & H & ->).
    apply Forall2_cons_inv_r in H as (c & l3 & Hc & H & ->). apply Forall2_cons_inv_r in H as (d & l4 & Hd & H & ->). apply Forall2_nil_inv_r in H as ->.
    cbn [map]. by rewrite (proj2 (Ht a) Ha), (proj2 (Hr b) Hb), (proj2 (Hu c) Hc), (proj2 (He d) Hd).
Qed.
Theorem C54_double_words t :
  (Forall2 (fun c cs => c ∈ cs) (list_ascii_of_string t) [["n"; "N"]; ["a"; "A"]; ["n"; "N"]]%char -> stod t = Ok S754_nan) /\
  (Forall2 (fun c cs => c ∈ cs) (list_ascii_of_string t) [["i"; "I"]; ["n"; "N"]; ["f"; "F"]]%char ->
     stod t = Ok (S754_infinity false) /\ stod (String "-" t) = Ok (S754_infinity true) /\ stod (String "+" t) = Ok (S754_infinity false)).
Proof.
  unfold stod. cbn [list_ascii_of_string]. generalize (list_ascii_of_string t) as l. intros l. split.
  - intros H. destruct l as [|a [|b [|c [|]]]]; repeat match goal with H : Forall2 _ _ _ |- _ => inversion H; clear H; subst end. 
    repeat match goal with H : _ ∈ [_; _] |- _ => apply elem_of_cons in H as [->|H%elem_of_list_singleton]; subst end; reflexivity.
  - intros H. destruct l as [|a [|b [|c [|]]]]; repeat match goal with H : Forall2 _ _ _ |- _ => inversion H; clear H; subst end. 
    repeat match goal with H : _ ∈ [_; _] |- _ => apply elem_of_cons in H as [->|H%elem_of_list_singleton]; subst end; done.
Qed.
Example C54_words_case : read_bool "TruE" = true /\ read_bool "tru" = false /\ read_bool "yes" = false /\ stod "NaN" = Ok S754_nan /\ stod "-INF" = Ok (S754_infinity true).
Proof. vm_compute. done. Qed.

(** 0.1, the largest double, minus the smallest normal number, and 5e-324 (text checked against printf). *)
Definition tenth : spec_float := S754_finite false 7205759403792794 (-56).
Definition largest : spec_float := S754_finite false 9007199254740991 971.
Definition smallest_normal : spec_float := S754_finite true 4503599627370496 (-1074).
Definition smallest : spec_float := S754_finite false 1 (-1074).
Lemma finite_subnormal s m e : double (S754_finite s m e) -> subnormal_mantissa m = false -> ~ subnormal (S754_finite s m e).
Proof. intros V E H. apply (subnormal_iff s m e V) in H. congruence. Qed.
Example C54_case : (double tenth /\ ~ subnormal tenth /\ to_string tenth = "0.10000000000000001") /\
  (double largest /\ ~ subnormal largest /\ to_string largest = "1.7976931348623157e+308") /\
  (double smallest_normal /\ ~ subnormal smallest_normal /\ to_string smallest_normal = "-2.2250738585072014e-308") /\
  (double smallest /\ subnormal smallest /\ to_string smallest = "4.9406564584124654e-324").
Proof.
  split; [split; [reflexivity|split; [by apply finite_subnormal|vm_compute; reflexivity]]|]. split; [split; [reflexivity|split; [by apply finite_subnormal|vm_compute; reflexivity]]|].
  split; [split; [reflexivity|split; [by apply finite_subnormal|vm_compute; reflexivity]]|]. split; [reflexivity|]. split; [by apply subnormal_iff|vm_compute; reflexivity].
Qed.
Example C54_int_case : to_string_int (- 2 ^ 31) = "-2147483648" /\ to_string_int (2 ^ 64 - 1) = "18446744073709551615".
Proof. vm_compute. done. Qed.
Print Assumptions C54_double.
Print Assumptions C54_attribute.
Print Assumptions C54_subnormal_refuted.
Print Assumptions C54_text.
Print Assumptions C54_nearest.
Print Assumptions C54_int.
Print Assumptions C54_long.
Print Assumptions C54_unsigned_long.
Print Assumptions C54_bool.
Print Assumptions C54_bool_words.
Print Assumptions C54_double_words.
