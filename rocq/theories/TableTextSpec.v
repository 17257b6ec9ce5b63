(** Which tables can be written to text, and what reading the text gives back. *)
From Coq Require Import String.
From Coq Require Import ZArith Bool List Lia Ascii.
From Verif Require Import Base SZA.
From Verif Require Export TableText TextFacts DecimalStable.
Import ListNotations.
Open Scope Z_scope.

(** ** Numbers *)

(** finite numbers that are zero or between 10^-307 and 10^308 in magnitude *)
Definition printable (x : double) : Prop := valid x /\ finite x /\ below_1e308 x /\ above_1em307 x.

(** [y] is [x] up to its printed decimals: a finite number with the same sign that is printed
    identically and differs by at most one unit of the last printed decimal ([units x / dunit] is the
    magnitude of x) *)
Definition same_fixed (p : nat) (x y : double) : Prop :=
  valid y /\ finite y /\ negative y = negative x /\ show_fixed p y = show_fixed p x /\
  Z.abs (units y - units x) * 10 ^ Z.of_nat p <= dunit.
(** the same for scientific notation with p decimals: a relative difference of at most 2 * 10^-p *)
Definition same_sci (p : nat) (x y : double) : Prop :=
  valid y /\ finite y /\ negative y = negative x /\ (units y = 0 <-> units x = 0) /\ show_sci "E" p y = show_sci "E" p x /\
  Z.abs (units y - units x) * 10 ^ Z.of_nat p <= 2 * units x.

(** What is asked of the library that converts numeric fields: the printed number is read, not
    necessarily correctly rounded. *)
Definition reads_numbers (rd : text -> option double) : Prop :=
  (forall p x, (p <= 7)%nat -> printable x -> exists y, rd (show_fixed p x) = Some y /\ same_fixed p x y) /\
  (forall p x, (p <= 12)%nat -> printable x -> exists y, rd (show_sci "E" p x) = Some y /\ same_sci p x y).

(** ** Headers *)
Definition first_word (s : text) : text := fst (span is_word s).
Definition version_word (v : text) : Prop := v = txt "2.0.0" \/ v = txt "2.0.1".
(** a string that survives being written in [n] columns *)
Definition column_ok (n : nat) (s : text) : Prop := stripped s /\ one_line s /\ (length s <= n)%nat.
Definition positive_ok (x : double) : Prop := printable x /\ negative x = false.

Definition header_ok (h : header1) : Prop :=
  column_ok 10 (h_zaid h) /\ ~ version_word (first_word (h_zaid h)) /\
  positive_ok (h_awr h) /\ (length (show_fixed 6 (h_awr h)) <= 12)%nat /\ positive_ok (h_temp h) /\
  column_ok 10 (h_date h) /\ column_ok 70 (h_title h) /\ column_ok 10 (h_material h).
Definition comment_ok (s : text) : Prop := one_line s /\ (length s <= 80)%nat /\ rstrip s = s.
Definition header201_ok (g : header201) : Prop :=
  version_word (g_vers g) /\ column_ok 24 (g_szaid g) /\ column_ok 24 (g_src g) /\
  positive_ok (g_awr g) /\ (length (show_fixed 6 (g_awr g)) <= 12)%nat /\ positive_ok (g_temp g) /\
  word (g_date g) /\ g_date g <> [] /\ (length (g_date g) <= 10)%nat /\
  len (g_comments g) < 2 ^ 31 /\ Forall comment_ok (g_comments g).

Definition same_header (h h' : header1) : Prop :=
  h_zaid h' = h_zaid h /\ same_fixed 6 (h_awr h) (h_awr h') /\ same_sci 4 (h_temp h) (h_temp h') /\
  h_date h' = h_date h /\ h_title h' = h_title h /\ h_material h' = h_material h.
Definition same_header201 (g g' : header201) : Prop :=
  g_vers g' = g_vers g /\ g_szaid g' = g_szaid g /\ g_src g' = g_src g /\
  same_fixed 6 (g_awr g) (g_awr g') /\ same_sci 4 (g_temp g) (g_temp g') /\
  g_date g' = g_date g /\ g_comments g' = g_comments g.

(** ** Data *)
Definition data_ok (d : tdata) : Prop :=
  data_wf d /\
  Forall (fun n => (length (show_Z n) <= 7)%nat) (d_iz d) /\
  Forall (fun x => printable x /\ (length (show_fixed 7 x) <= 11)%nat) (d_aw d) /\
  Forall (fun n => (length (show_Z n) <= 9)%nat) (tl (d_nxs d)) /\
  Forall (fun n => (length (show_Z n) <= 9)%nat) (d_jxs d) /\
  len (d_xss d) < 10 ^ 9 /\ Forall printable (d_xss d).
(** NXS(1) becomes the number of values *)
Definition same_data (d d' : tdata) : Prop :=
  d_iz d' = d_iz d /\ Forall2 (same_fixed 7) (d_aw d) (d_aw d') /\
  d_nxs d' = len (d_xss d) :: tl (d_nxs d) /\ d_jxs d' = d_jxs d /\
  len (d_xss d') = len (d_xss d) /\ Forall2 (same_sci 12) (d_xss d) (d_xss d').

(** ** Tables *)
Definition table_ok (t : table) : Prop :=
  match fst t with Legacy h => header_ok h | Modern g => header201_ok g end /\ data_ok (snd t).
Definition same_table (t t' : table) : Prop :=
  match fst t, fst t' with
  | Legacy h, Legacy h' => same_header h h'
  | Modern g, Modern g' => same_header201 g g'
  | _, _ => False
  end /\ same_data (snd t) (snd t').
