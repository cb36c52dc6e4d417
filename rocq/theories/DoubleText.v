(** Numbers in attributes: the texts XmlStreamWriter gives to doubles, integers and booleans, and what XmlStreamReader reads in them.

    The texts are those of the standard library: operator<< with the default format and a precision of 17 digits, i.e. printf("%.17g"), with exact
    rounding to nearest, ties to even, as in glibc; std::stod, which is strtod with the rounding of glibc. Not modelled: leading blanks,
    hexadecimal numbers, "infinity" in full and "nan(...)", which are never written. *)
From Flocq Require Import Core.Zaux Core.Raux Core.Digits Core.Defs Core.FLT Calc.Div IEEE754.BinarySingleNaN.
From Coq Require Import Floats.SpecFloat Strings.Ascii Strings.String.
From stdpp Require Import list strings.
From Verif Require Import Base.
Local Open Scope Z_scope.

(** A double: one datum of the format binary64. *)
Definition double (x : spec_float) : Prop := valid_binary 53 1024 x = true.

(** * Digits. *)
Definition radix10 : radix := Build_radix 10 eq_refl.
Definition text := list ascii.
Definition digit (d : Z) : ascii := ascii_of_nat (48 + Z.to_nat d).
Definition digits (ds : list Z) : text := map digit ds.
Definition is_digit (c : ascii) : bool := (48 <=? nat_of_ascii c)%nat && (nat_of_ascii c <=? 57)%nat.
Definition digit_value (c : ascii) : Z := Z.of_nat (nat_of_ascii c) - 48.
(** The last [k] decimal digits of [n]. *)
Fixpoint digs (k : nat) (n : Z) : list Z := match k with O => [] | S k' => digs k' (n / 10) ++ [n mod 10] end.
(** The number with the given digits. *)
Definition number_of (ds : list Z) : Z := fold_left (fun a d => a * 10 + d) ds 0.

(** * Writing: stdcxx::to_string: math.hpp:55-61, used by XmlStreamWriter::writeAttribute(double): XmlStreamWriter.cpp:47-51. *)
(** [m * 2^e] as [n * 10^q]. *)
Definition exact_decimal (m : positive) (e : Z) : Z * Z := if 0 <=? e then (Zpos m * 2 ^ e, 0) else (Zpos m * 5 ^ (- e), e).
Definition half_even (n p : Z) : Z :=
  let d := n / p in let r := n mod p in match 2 * r ?= p with Lt => d | Gt => d + 1 | Eq => if Z.even d then d else d + 1 end.
(** Seventeen digits (max_digits10: 58) and the exponent of the last. *)
Definition round17 (n q : Z) : Z * Z :=
  let k := Zdigits radix10 n - 17 in
  if k <=? 0 then (n * 10 ^ (- k), q + k)
  else let d := half_even n (10 ^ k) in if d =? 10 ^ 17 then (10 ^ 16, q + k + 1) else (d, q + k).
(** %g removes the zeros at the end of the fractional part, and the point if nothing is left. *)
Fixpoint strip (ds : list Z) : list Z := match ds with [] => [] | d :: ds' => match strip ds' with [] => if d =? 0 then [] else [d] | s => d :: s end end.
Definition point (a b : list Z) : text := digits a ++ match strip b with [] => [] | b' => "."%char :: digits b' end.
(** [x]: the exponent of the first digit. Style f when -4 <= x < 17, style e otherwise, with at least two digits of exponent. *)
Definition layout (ds : list Z) (x : Z) : text :=
  if (-4 <=? x) && (x <? 17) then
    if 0 <=? x then point (take (Z.to_nat (x + 1)) ds) (drop (Z.to_nat (x + 1)) ds) else point [0] (replicate (Z.to_nat (- x - 1)) 0 ++ ds)
  else point (take 1 ds) (drop 1 ds) ++ "e"%char :: (if x <? 0 then "-"%char else "+"%char) :: digits (digs (if Z.abs x <? 100 then 2 else 3) (Z.abs x)).
Definition sign_text (s : bool) : text := if s then ["-"%char] else [].
Definition to_string (x : spec_float) : string :=
  string_of_list_ascii (match x with
  | S754_finite s m e => let '(n, q) := exact_decimal m e in let '(d, k) := round17 n q in sign_text s ++ layout (digs 17 d) (k + 16)
  | S754_zero s => sign_text s ++ digits [0]
  | S754_infinity s => sign_text s ++ ["i"; "n"; "f"]%char
  | S754_nan => ["n"; "a"; "n"]%char
  end).
(** XmlStreamWriter::writeAttribute(double): 47-51: the value of the attribute, if it is written. *)
Definition write_double (x : spec_float) : option string := match x with S754_nan => None | _ => Some (to_string x) end.

(** * Reading: std::stod, used by XmlStreamReader::getAttributeValue<double>: XmlStreamReader.cpp:72-75 and getOptionalAttributeValue<double>: 175-184. *)
Fixpoint span (l : text) : list Z * text :=
  match l with c :: l' => if is_digit c then let '(ds, r) := span l' in (digit_value c :: ds, r) else ([], l) | [] => ([], []) end.
Definition sign_of (l : text) : bool * text :=
  match l with c :: l' => if Ascii.eqb c "-" then (true, l') else if Ascii.eqb c "+" then (false, l') else (false, l) | [] => (false, l) end.
(** The exponent at the head of the text, 0 if there is none. *)
Definition exponent (l : text) : Z :=
  match l with
  | c :: l' => if Ascii.eqb c "e" || Ascii.eqb c "E" then let '(s, l1) := sign_of l' in let n := number_of (fst (span l1)) in if s then - n else n else 0
  | [] => 0
  end.
(** The decimal number [m * 10^e] at the head of the text. *)
Definition decimal (l : text) : option (Z * Z) :=
  let '(a, l1) := span l in
  let '(b, l2) := match l1 with c :: l' => if Ascii.eqb c "." then span l' else ([], l1) | [] => ([], l1) end in
  match a ++ b with [] => None | ds => Some (number_of ds, exponent l2 - Z.of_nat (length b)) end.
(** [a/b], to the nearest double. *)
Definition nearest (s : bool) (a b : Z) : spec_float :=
  let '(q, e, l) := Fdiv (FLT_exp (-1074) 53) (Float radix2 a 0) (Float radix2 b 0) in BinarySingleNaN.binary_round_aux 53 1024 mode_NE s q e l.
(** The fraction equal to [m * 10^e]. *)
Definition fraction (m e : Z) : Z * Z := if 0 <=? e then (m * 10 ^ e, 1) else (m, 10 ^ (- e)).
(** The result is exact. *)
Definition exact (m : positive) (e a b : Z) : bool := if 0 <=? e then Zpos m * 2 ^ e * b =? a else Zpos m * b =? a * 2 ^ (- e).
(** The result is below the smallest normal number. *)
Definition subnormal_mantissa (m : positive) : bool := Zpos m <? 2 ^ 52.
Definition lower (c : ascii) : ascii := let n := nat_of_ascii c in if (65 <=? n)%nat && (n <=? 90)%nat then ascii_of_nat (n + 32) else c.
Definition starts_with (p l : text) : bool := bool_decide (map lower (take (length p) l) = p).
(** strtod reports ERANGE, hence stod throws, on overflow and on an inexact result below the smallest normal number (what the standard leaves
    to the implementation: this is glibc). *)
Definition stod (t : string) : result spec_float :=
  let '(s, l) := sign_of (list_ascii_of_string t) in
  if starts_with ["i"; "n"; "f"]%char l then Ok (S754_infinity s)
  else if starts_with ["n"; "a"; "n"]%char l then Ok S754_nan
  else match decimal l with
  | None => Throw "stod"
  | Some (m, e) =>
      if m =? 0 then Ok (S754_zero s)
      else let '(a, b) := fraction m e in
        match nearest s a b with
        | S754_infinity _ => Throw "out of range: stod"
        | S754_finite s' m' e' => if subnormal_mantissa m' && negb (exact m' e' a b) then Throw "out of range: stod" else Ok (S754_finite s' m' e')
        | z => if m =? 0 then Ok z else Throw "out of range: stod"
        end
  end.
(** getOptionalAttributeValue(name, nan). *)
Definition read_double (t : option string) : result spec_float := match t with Some t => stod t | None => Ok S754_nan end.

(** * Integers: std::to_string and std::stoi: XmlStreamWriter.cpp:53-55, XmlStreamReader.cpp:78-81; std::stoul: 90-93. *)
(** The number of decimal digits of a positive number. *)
Definition int_digits (n : Z) : nat := Z.to_nat (Zdigits radix10 n).
Definition to_string_int (z : Z) : string :=
  string_of_list_ascii (if z =? 0 then digits [0] else sign_text (z <? 0) ++ digits (digs (int_digits (Z.abs z)) (Z.abs z))).
(** strtol, then the range of the type. *)
Definition stoi_range (lo hi : Z) (t : string) : result Z :=
  let '(s, l) := sign_of (list_ascii_of_string t) in
  match fst (span l) with
  | [] => Throw "stoi"
  | ds => let n := number_of ds in let z := if s then - n else n in if (lo <=? z) && (z <=? hi) then Ok z else Throw "out of range: stoi"
  end.
Definition stoi : string -> result Z := stoi_range (- 2 ^ 31) (2 ^ 31 - 1).
Definition stol : string -> result Z := stoi_range (- 2 ^ 63) (2 ^ 63 - 1).
(** strtoul takes a sign: the opposite is then taken modulo 2^64, when the number without its sign is in range. *)
Definition stoul (t : string) : result Z :=
  let '(s, l) := sign_of (list_ascii_of_string t) in
  match fst (span l) with
  | [] => Throw "stoul"
  | ds => let n := number_of ds in if n <? 2 ^ 64 then Ok (if s then (- n) mod 2 ^ 64 else n) else Throw "out of range: stoul"
  end.

(** * Booleans: XmlStreamWriter.cpp:39-41; boost::iequals with "true": XmlStreamReader.cpp:65-69, 151-160. *)
Definition write_bool (b : bool) : string := if b then "true" else "false".
Definition read_bool (t : string) : bool := bool_decide (map lower (list_ascii_of_string t) = ["t"; "r"; "u"; "e"]%char).
