(** Decimal text for integers and doubles: what the C++ formatted output and input functions write
    and read (printf / ostream with std::fixed and std::scientific, strtod / istream).

    No part of ACEtk itself is modelled in this file: it models the standard library functions that
    ACEtk's printing and parsing rely on (src/ACEtk/XsdirEntry/src/print.hpp:11-43 and
    src/ACEtk/Xsdir/src/print.hpp:34-36 directly, src/ACEtk/Table/Data/src/print.hpp and
    src/ACEtk/Table/Header/src/print.hpp through the disco library). *)
From Coq Require Import String.
From Coq Require Import ZArith Bool List Lia Ascii.
From Coq Require Import ZifyBool ZifyNat.
From Verif Require Import Base SZA.
Import ListNotations.
Open Scope Z_scope.

Notation text := (list ascii).
(** string literals *)
Definition txt (s : string) : text := list_ascii_of_string s.
Arguments txt s%string.

(** * Integers *)

Definition digit_char (d : Z) : ascii := ascii_of_N (48 + Z.to_N d).
(** the last [w] decimal digits of [z], with leading zeros *)
Fixpoint show_pad (w : nat) (z : Z) : text :=
  match w with O => [] | S n => show_pad n (z / 10) ++ [digit_char (z mod 10)] end.
(** number of decimal digits *)
Fixpoint ndig_fuel (f : nat) (z : Z) : nat :=
  match f with O => 1%nat | S f => if z <? 10 then 1%nat else S (ndig_fuel f (z / 10)) end.
Definition ndig (z : Z) : nat := ndig_fuel (Z.to_nat (Z.log2 z)) z.
(** [<< n] for a non-negative and for any integer *)
Definition show_nat (z : Z) : text := show_pad (ndig z) z.
Definition show_Z (z : Z) : text := if z <? 0 then "-"%char :: show_nat (- z) else show_nat z.

(** * Doubles to text *)

(** Every finite double is a whole number of units of 2^-1074. *)
Definition dunit : Z := 2 ^ 1074.
Definition magnitude (m : positive) (e : Z) : Z := Z.pos m * 2 ^ (e + 1074).

(** nearest integer to n / d, ties to even *)
Definition rdiv (n d : Z) : Z :=
  let q := n / d in let r := n mod d in
  if 2 * r <? d then q else if d <? 2 * r then q + 1 else if Z.even q then q else q + 1.

Definition sign_text (s : bool) : text := if s then ["-"%char] else [].

(** printf("%.pf"): the nearest multiple of 10^-p, ties to even (exact, as in glibc). *)
Definition fixed_digits (p : nat) (V : Z) : Z := rdiv (V * 10 ^ Z.of_nat p) dunit.
Definition show_decimals (p : nat) (q : Z) : text :=
  show_nat (q / 10 ^ Z.of_nat p) ++ "."%char :: show_pad p (q mod 10 ^ Z.of_nat p).
Definition show_fixed (p : nat) (x : double) : text :=
  match x with
  | S754_zero s => sign_text s ++ show_decimals p 0
  | S754_finite s m e => sign_text s ++ show_decimals p (fixed_digits p (magnitude m e))
  | S754_infinity s => sign_text s ++ ["i"%char; "n"%char; "f"%char]
  | S754_nan => ["n"%char; "a"%char; "n"%char]
  end.

(** printf("%.pe"): p + 1 significant digits.  [sci_exp V] is the decimal exponent of V * 2^-1074
    (plus 400); [sci_dec p V = (q, k)] stands for the decimal q * 10^(k - p). *)
Definition sci_exp (V : Z) : Z := Z.of_nat (ndig (V * 10 ^ 400 / dunit)) - 1.
Definition sci_dec (p : nat) (V : Z) : Z * Z :=
  let k := sci_exp V in
  let q := rdiv (V * 10 ^ 400) (dunit * 10 ^ (k - Z.of_nat p)) in
  if q =? 10 ^ (Z.of_nat p + 1) then (10 ^ Z.of_nat p, k + 1 - 400) else (q, k - 400).
Definition show_exponent (k : Z) : text :=
  (if k <? 0 then "-"%char else "+"%char) :: show_pad (Nat.max 2 (ndig (Z.abs k))) (Z.abs k).
Definition show_scientific (E : ascii) (p : nat) (q k : Z) : text :=
  show_decimals p q ++ E :: show_exponent k.
Definition show_sci (E : ascii) (p : nat) (x : double) : text :=
  match x with
  | S754_zero s => sign_text s ++ show_scientific E p 0 0
  | S754_finite s m e => let '(q, k) := sci_dec p (magnitude m e) in sign_text s ++ show_scientific E p q k
  | S754_infinity s => sign_text s ++ ["i"%char; "n"%char; "f"%char]
  | S754_nan => ["n"%char; "a"%char; "n"%char]
  end.

(** * Text to doubles *)

Definition is_digit (c : ascii) : bool := match digit_of c with Some _ => true | None => false end.
(** longest prefix of characters satisfying [p], and the rest *)
Fixpoint span (p : ascii -> bool) (s : text) : text * text :=
  match s with
  | c :: r => if p c then let '(a, b) := span p r in (c :: a, b) else ([], s)
  | [] => ([], [])
  end.
Definition read_sign (s : text) : bool * text :=
  match s with
  | "-"%char :: r => (true, r)
  | "+"%char :: r => (false, r)
  | _ => (false, s)
  end.
(** [sign] digits [. digits] [e|E [sign] digits], all of the text: (negative, M, K) for M * 10^K *)
Definition read_exponent (s : text) : option Z :=
  let '(neg, r) := read_sign s in
  let '(d, r) := span is_digit r in
  match d, r with
  | _ :: _, [] => Some (if neg : bool then - digits_value d else digits_value d)
  | _, _ => None
  end.
Definition read_decimal (s : text) : option (bool * Z * Z) :=
  let '(neg, r) := read_sign s in
  let '(ip, r) := span is_digit r in
  let '(fp, r) := match r with "."%char :: r => span is_digit r | _ => ([], r) end in
  match ip ++ fp with
  | [] => None
  | _ =>
      match r with
      | [] => Some (neg, digits_value (ip ++ fp), - len fp)
      | "e"%char :: r | "E"%char :: r =>
          match read_exponent r with Some k => Some (neg, digits_value (ip ++ fp), k - len fp) | None => None end
      | _ => None
      end
  end.

(** The double nearest to n / d (ties to even), as strtod returns it. *)
Definition nearest_ratio (neg : bool) (n d : Z) : double :=
  let N := n * dunit in
  let e := Z.max 0 (Z.log2 (N / d) - 52) in
  let q := rdiv N (d * 2 ^ e) in
  let '(q, e) := if q =? 2 ^ 53 then (2 ^ 52, e + 1) else (q, e) in
  match q with
  | Z.pos m => if 2045 <? e then S754_infinity neg else S754_finite neg m (e - 1074)
  | _ => S754_zero neg
  end.
Definition nearest_double (d : bool * Z * Z) : double :=
  let '(neg, M, K) := d in
  nearest_ratio neg (M * 10 ^ Z.max 0 K) (10 ^ Z.max 0 (- K)).
Definition read_double (s : text) : option double :=
  match read_decimal s with Some d => Some (nearest_double d) | None => None end.

(** * Examples *)
Definition num (s : string) : double := match read_double (txt s) with Some x => x | None => S754_nan end.
Arguments num s%string.
Example show_ex :
  (show_fixed 6 (num "236.0058"), show_sci "E" 4 (num "2.5301E-08"), show_sci "E" 12 (num "1.9"),
   show_fixed 7 (num "-0.00000004"), show_sci "e" 6 (num "9.9999999e99"), show_Z (-40), show_sci "E" 12 (dbl 0))
  = (txt "236.005800", txt "2.5301E-08", txt "1.900000000000E+00", txt "-0.0000000", txt "1.000000e+100", txt "-40", txt "0.000000000000E+00").
Proof. vm_compute. reflexivity. Qed.
Example read_ex :
  (num "0.1", num "2.5", num "1e308", num "1.8e308", num "4.94e-324", num "-0.0")
  = (S754_finite false 7205759403792794 (-56), S754_finite false 5629499534213120 (-51),
     S754_finite false 5010420900022432 971, S754_infinity false, S754_finite false 1 (-1074), S754_zero true).
Proof. vm_compute. reflexivity. Qed.
