(** Text: header strings, fixed width fields and records, and string streams.

    [strip], [left] and [right] are ACEtk's own; the fixed width fields stand for the external disco
    library (Character, Integer, FixedPoint, Scientific, Column, Record: fields are written right
    aligned in their width as printf does it, and a record ends with a newline), and the extraction
    operators for the standard string streams. *)
From Coq Require Import ZArith Bool List Lia Ascii.
From Coq Require Import ZifyBool ZifyNat.
From Verif Require Import Base SZA.
From Verif Require Export Decimal.
Import ListNotations.
Open Scope Z_scope.

Definition sp : ascii := " "%char.
Definition nl : ascii := "010"%char.
Definition blanks (n : nat) : text := repeat sp n.
Fixpoint text_eqb (a b : text) : bool :=
  match a, b with
  | [], [] => true
  | c :: a, d :: b => Ascii.eqb c d && text_eqb a b
  | _, _ => false
  end.

(** * Header strings (src/ACEtk/Table/Header/src/strip.hpp:1-29) *)

(** Characters are ASCII (std::isspace of a negative char is undefined). *)
Definition rstrip (s : text) : text := rev (skip_spaces (rev s)).
Definition strip (s : text) : text := rstrip (skip_spaces s).
Definition left (s : text) (length' : nat) : text := firstn length' s ++ blanks (length' - length s).
(** std::next past the end of the resized string is undefined. *)
Definition right (s : text) (length' : nat) : outcome text :=
  let pivot := length s in
  let result := left s length' in
  if (pivot <=? length')%nat then Ok (skipn pivot result ++ firstn pivot result) else UB.

(** * Fixed width fields (disco) *)
Definition rjust (w : nat) (s : text) : text := blanks (w - length s) ++ s.
Definition w_int (w : nat) (n : Z) : text := rjust w (show_Z n).
Definition w_fix (w p : nat) (x : double) : text := rjust w (show_fixed p x).
Definition w_sci (w p : nat) (x : double) : text := rjust w (show_sci "E" p x).

(** at most [w] characters of the current line *)
Fixpoint take_field (w : nat) (s : text) : text * text :=
  match w, s with
  | S w, c :: r => if Ascii.eqb c nl then ([], s) else let '(f, r) := take_field w r in (c :: f, r)
  | _, _ => ([], s)
  end.
Definition r_chr (w : nat) (s : text) : text * text :=
  let '(f, r) := take_field w s in (f ++ blanks (w - length f), r).
Definition read_int (s : text) : option Z :=
  let '(neg, r) := read_sign s in
  match r with
  | [] => None
  | _ => if forallb is_digit r then Some (if neg : bool then - digits_value r else digits_value r) else None
  end.
Definition r_int (w : nat) (s : text) : outcome (Z * text) :=
  let '(f, r) := take_field w s in
  match read_int (strip f) with Some n => Ok (n, r) | None => Throw StdException end.
Definition r_real (rd : text -> option double) (w : nat) (s : text) : outcome (double * text) :=
  let '(f, r) := take_field w s in
  match rd (strip f) with Some x => Ok (x, r) | None => Throw StdException end.
Definition r_col (w : nat) (s : text) : text := snd (take_field w s).
(** the end of a record: the rest of the line and its newline are skipped *)
Fixpoint r_eol (s : text) : text :=
  match s with c :: r => if Ascii.eqb c nl then r else r_eol r | [] => [] end.

(** * String streams: [in >> x] on the remaining characters, [None] when the extraction fails *)
Definition is_word (c : ascii) : bool := negb (is_space c).
Definition get_word (s : text) : option (text * text) :=
  match span is_word (skip_spaces s) with
  | ([], _) => None
  | (w, r) => Some (w, r)
  end.
(** the characters num_get accumulates for a floating point number *)
Definition scan_sign (s : text) : text * text :=
  match s with
  | "-"%char :: r => (["-"%char], r)
  | "+"%char :: r => (["+"%char], r)
  | _ => ([], s)
  end.
Definition scan_float (s : text) : text * text :=
  let '(sg, r) := scan_sign s in
  let '(ip, r) := span is_digit r in
  let '(dot, r) := match r with "."%char :: r => (["."%char], r) | _ => ([], r) end in
  let '(fp, r) := match dot with [] => ([], r) | _ => span is_digit r end in
  let mant := sg ++ ip ++ dot ++ fp in
  match ip ++ fp, r with
  | _ :: _, "e"%char :: r' => let '(s2, r') := scan_sign r' in let '(d, r') := span is_digit r' in (mant ++ "e"%char :: s2 ++ d, r')
  | _ :: _, "E"%char :: r' => let '(s2, r') := scan_sign r' in let '(d, r') := span is_digit r' in (mant ++ "E"%char :: s2 ++ d, r')
  | _, _ => (mant, r)
  end.
Definition get_double (s : text) : option (double * text) :=
  let '(a, r) := scan_float (skip_spaces s) in
  match read_double a with Some x => Some (x, r) | None => None end.
Definition scan_int (s : text) : option (bool * Z * text) :=
  let '(neg, r) := read_sign (skip_spaces s) in
  match span is_digit r with
  | ([], _) => None
  | (d, r) => Some (neg, digits_value d, r)
  end.
(** [unsigned int]: the magnitude must fit, a minus sign wraps around *)
Definition get_uint (s : text) : option (Z * text) :=
  match scan_int s with
  | Some (neg, n, r) => if n <? 2 ^ 32 then Some (u32 (if neg then - n else n), r) else None
  | None => None
  end.
Definition get_int (s : text) : option (Z * text) :=
  match scan_int s with
  | Some (neg, n, r) => let n := if neg then - n else n in if in_int n then Some (n, r) else None
  | None => None
  end.
