(** Tables as text: headers, the data arrays, tables and concatenated files. *)
From Coq Require Import String.
From Coq Require Import ZArith Bool List Lia Ascii.
From Coq Require Import ZifyBool ZifyNat.
From Verif Require Import Base SZA BlockWithLocators.
From Verif Require Export TableData Text.
Import ListNotations.
Open Scope Z_scope.

(** * The original header: src/ACEtk/Table/Header.hpp *)
Record header1 := Header1 { h_zaid : text; h_awr : double; h_temp : double; h_date : text; h_title : text; h_material : text }.
(** src/ACEtk/Table/Header/src/ctor.hpp:17-23 (VERS is always "1.0.0") *)
Definition make_header (zaid : text) (awr temp : double) (date title material : text) : header1 :=
  Header1 (strip zaid) awr temp (strip date) (strip title) (strip material).

(** src/ACEtk/Table/Header/src/print.hpp:1-19 *)
Definition print_header (h : header1) : outcome text :=
  zaid <- right (h_zaid h) 10 ;;
  date <- right (h_date h) 10 ;;
  material <- right (h_material h) 10 ;;
  Ok (zaid ++ w_fix 12 6 (h_awr h) ++ w_sci 12 4 (h_temp h) ++ blanks 1 ++ date ++ nl ::
      left (h_title h) 70 ++ material ++ [nl]).

(** [rd] is the function that converts a numeric field (disco); negative values are rejected by
    comparing with 0.0. *)
Definition negative_value (x : double) : bool := SFltb x (dbl 0).
(** src/ACEtk/Table/Header/src/parse.hpp:1-42 *)
Definition parse_header (rd : text -> option double) (s : text) : outcome (header1 * text) :=
  let '(zaid, s) := r_chr 10 s in
  a <- r_real rd 12 s ;; let '(awr, s) := (a : double * text) in
  a <- r_real rd 12 s ;; let '(temp, s) := (a : double * text) in
  let s := r_col 1 s in
  let '(date, s) := r_chr 10 s in
  let s := r_eol s in
  _ <- throw_if (negative_value awr) StdException ;;
  _ <- throw_if (negative_value temp) StdException ;;
  let '(title, s) := r_chr 70 s in
  let '(material, s) := r_chr 10 s in
  let s := r_eol s in
  Ok (make_header zaid awr temp date title material, s).

(** * The 2.0.1 header: src/ACEtk/Table/Header201.hpp *)
Record header201 := Header201 { g_vers : text; g_szaid : text; g_src : text; g_awr : double; g_temp : double; g_date : text; g_comments : list text }.
(** src/ACEtk/Table/Header201/src/ctor.hpp:12-18 *)
Definition make_header201 (vers szaid src : text) (awr temp : double) (date : text) (comments : list text) : header201 :=
  Header201 (strip vers) (strip szaid) (strip src) awr temp (strip date) comments.

(** src/ACEtk/Table/Header201/src/print.hpp:1-33 *)
Definition print_header201 (g : header201) : outcome text :=
  szaid <- right (g_szaid g) 24 ;;
  src <- right (g_src g) 24 ;;
  date <- right (g_date g) 10 ;;
  Ok (left (g_vers g) 10 ++ blanks 1 ++ szaid ++ blanks 1 ++ src ++ nl ::
      w_fix 12 6 (g_awr g) ++ blanks 1 ++ w_sci 12 4 (g_temp g) ++ blanks 1 ++ date ++ blanks 1 ++ w_int 10 (len (g_comments g)) ++ nl ::
      concat (map (fun line => line ++ [nl]) (g_comments g))).

(** src/ACEtk/Table/Header201/src/parse.hpp:55-61 *)
Fixpoint parse_comments (n : nat) (s : text) : list text * text :=
  match n with
  | O => ([], s)
  | S n => let '(line, s) := r_chr 80 s in
           let '(l, s) := parse_comments n (r_eol s) in
           (rstrip line :: l, s)
  end.
(** src/ACEtk/Table/Header201/src/parse.hpp:1-71.  The variables are not initialised: a failing
    extraction leaves (at least) the number of comment lines indeterminate when the line has fewer than
    four words; every failing extraction is modelled as undefined. *)
Definition parse_header201 (rd : text -> option double) (s : text) : outcome (header201 * text) :=
  let '(version, s) := r_chr 10 s in
  let s := r_col 1 s in
  let '(szaid, s) := r_chr 24 s in
  let s := r_col 1 s in
  let '(source, s) := r_chr 24 s in
  let s := r_eol s in
  let version := strip version in
  _ <- throw_if (negb (text_eqb version (txt "2.0.0")) && negb (text_eqb version (txt "2.0.1"))) StdException ;;
  let '(line, s) := r_chr 80 s in
  let s := r_eol s in
  match get_double line with None => UB | Some (awr, i) =>
  match get_double i with None => UB | Some (temp, i) =>
  match get_word i with None => UB | Some (date, i) =>
  match get_int i with None => UB | Some (number, _) =>
    _ <- throw_if (negative_value awr) StdException ;;
    _ <- throw_if (negative_value temp) StdException ;;
    _ <- throw_if (number <? 0) StdException ;;
    let '(comments, s) := parse_comments (Z.to_nat number) s in
    Ok (make_header201 version szaid source awr temp date comments, s)
  end end end end.

(** * The data arrays: src/ACEtk/Table/Data *)
Definition int_record (w : nat) (l : list Z) : text := concat (map (w_int w) l) ++ [nl].
Definition izaw_record (l : list (Z * double)) : text := concat (map (fun x => w_int 7 (fst x) ++ w_fix 11 7 (snd x)) l) ++ [nl].
Definition pair_at bm (d : tdata) (i : Z) : outcome (Z * double) := iz <- d_IZ bm d i ;; aw <- d_AW bm d i ;; Ok (iz, aw).
(** the loop over full lines, src/ACEtk/Table/Data/src/print.hpp:69-73 *)
Fixpoint print_xss_lines (n : nat) (l : list double) : outcome (text * list double) :=
  match n with
  | O => Ok ([], l)
  | S n => match l with
           | a :: b :: c :: d :: r =>
               x <- print_xss_lines n r ;;
               Ok (w_sci 20 12 a ++ w_sci 20 12 b ++ w_sci 20 12 c ++ w_sci 20 12 d ++ nl :: fst x, snd x)
           | _ => UB
           end
  end.
(** the partial last line, src/ACEtk/Table/Data/src/print.hpp:75-83 *)
Fixpoint print_xss_rest (n : nat) (l : list double) : outcome text :=
  match n with
  | O => Ok []
  | S n => match l with x :: r => t <- print_xss_rest n r ;; Ok (w_sci 20 12 x ++ t) | [] => UB end
  end.
Definition print_xss (l : list double) : outcome text :=
  let n := length l in
  x <- print_xss_lines (n / 4) l ;;
  match (n mod 4)%nat with
  | O => Ok (fst x)
  | S _ as k => t <- print_xss_rest k (snd x) ;; Ok (fst x ++ t ++ [nl])
  end.
(** src/ACEtk/Table/Data/src/print.hpp:1-84; NXS(1) is printed as the number of XSS values *)
Definition print_data bm (d : tdata) : outcome text :=
  z1 <- mapM (pair_at bm d) [1; 2; 3; 4] ;;
  z2 <- mapM (pair_at bm d) [5; 6; 7; 8] ;;
  z3 <- mapM (pair_at bm d) [9; 10; 11; 12] ;;
  z4 <- mapM (pair_at bm d) [13; 14; 15; 16] ;;
  n1 <- mapM (d_NXS bm d) [2; 3; 4; 5; 6; 7; 8] ;;
  n2 <- mapM (d_NXS bm d) [9; 10; 11; 12; 13; 14; 15; 16] ;;
  j1 <- mapM (d_JXS bm d) [1; 2; 3; 4; 5; 6; 7; 8] ;;
  j2 <- mapM (d_JXS bm d) [9; 10; 11; 12; 13; 14; 15; 16] ;;
  j3 <- mapM (d_JXS bm d) [17; 18; 19; 20; 21; 22; 23; 24] ;;
  j4 <- mapM (d_JXS bm d) [25; 26; 27; 28; 29; 30; 31; 32] ;;
  x <- print_xss (d_xss d) ;;
  Ok (izaw_record z1 ++ izaw_record z2 ++ izaw_record z3 ++ izaw_record z4 ++
      int_record 9 (len (d_xss d) :: n1) ++ int_record 9 n2 ++
      int_record 9 j1 ++ int_record 9 j2 ++ int_record 9 j3 ++ int_record 9 j4 ++ x).

Fixpoint read_ints (w n : nat) (s : text) : outcome (list Z * text) :=
  match n with
  | O => Ok ([], s)
  | S n => a <- r_int w s ;; b <- read_ints w n (snd a) ;; Ok (fst a :: fst b, snd b)
  end.
Fixpoint read_pairs (rd : text -> option double) (n : nat) (s : text) : outcome (list Z * list double * text) :=
  match n with
  | O => Ok ([], [], s)
  | S n => a <- r_int 7 s ;; x <- r_real rd 11 (snd a) ;; b <- read_pairs rd n (snd x) ;;
           Ok (fst a :: fst (fst b), fst x :: snd (fst b), snd b)
  end.
Fixpoint read_reals (rd : text -> option double) (w n : nat) (s : text) : outcome (list double * text) :=
  match n with
  | O => Ok ([], s)
  | S n => a <- r_real rd w s ;; b <- read_reals rd w n (snd a) ;; Ok (fst a :: fst b, snd b)
  end.
(** src/ACEtk/Table/Data/Parse/src/NXS.hpp:1-42 and JXS.hpp:1-42: [lines] lines of eight integers *)
Fixpoint parse_int_lines (lines : nat) (s : text) : outcome (list Z * text) :=
  match lines with
  | O => Ok ([], s)
  | S n => a <- read_ints 9 8 s ;; b <- parse_int_lines n (r_eol (snd a)) ;; Ok (fst a ++ fst b, snd b)
  end.
(** src/ACEtk/Table/Data/Parse/src/IZAW.hpp:1-47 *)
Fixpoint parse_izaw_lines rd (lines : nat) (s : text) : outcome (list Z * list double * text) :=
  match lines with
  | O => Ok ([], [], s)
  | S n => a <- read_pairs rd 4 s ;; b <- parse_izaw_lines rd n (r_eol (snd a)) ;;
           Ok (fst (fst a) ++ fst (fst b), snd (fst a) ++ snd (fst b), snd b)
  end.
(** src/ACEtk/Table/Data/Parse/src/XSS.hpp:1-54; a negative size is a std::length_error of resize *)
Fixpoint parse_xss_lines rd (lines : nat) (s : text) : outcome (list double * text) :=
  match lines with
  | O => Ok ([], s)
  | S n => a <- read_reals rd 20 4 s ;; b <- parse_xss_lines rd n (r_eol (snd a)) ;; Ok (fst a ++ fst b, snd b)
  end.
Definition parse_xss rd (size : Z) (s : text) : outcome (list double * text) :=
  _ <- throw_if (size <? 0) LengthError ;;
  let n := Z.to_nat size in
  a <- parse_xss_lines rd (n / 4) s ;;
  match (n mod 4)%nat with
  | O => Ok a
  | S _ as k => b <- read_reals rd 20 k (snd a) ;; Ok (fst a ++ fst b, r_eol (snd b))
  end.
(** src/ACEtk/Table/Data/src/ctor.hpp:39-80 *)
Definition parse_data rd (s : text) : outcome (tdata * text) :=
  z <- parse_izaw_lines rd 4 s ;;
  n <- parse_int_lines 2 (snd z) ;;
  j <- parse_int_lines 4 (snd n) ;;
  match fst n with
  | [] => UB
  | size :: _ =>
      x <- parse_xss rd size (snd j) ;;
      Ok (TData (fst (fst z)) (snd (fst z)) (fst n) (fst j) (fst x), snd x)
  end.

(** * Tables *)
Inductive header := Legacy (h : header1) | Modern (g : header201).
Definition table := (header * tdata)%type.
(** src/ACEtk/Table/src/print.hpp:1-12 *)
Definition print_table bm (t : table) : outcome text :=
  h <- match fst t with Legacy h => print_header h | Modern g => print_header201 g end ;;
  d <- print_data bm (snd t) ;;
  Ok (h ++ d).
(** src/ACEtk/Table/src/parse.hpp:1-18 *)
Definition read_version (s : text) : text :=
  match get_word (fst (r_chr 80 s)) with Some (v, _) => v | None => [] end.
(** src/ACEtk/Table/src/parse.hpp:20-32 and src/ACEtk/Table/src/ctor.hpp:10-38 *)
Definition parse_table rd (s : text) : outcome (table * text) :=
  let version := read_version s in
  h <- (if text_eqb version (txt "2.0.0") || text_eqb version (txt "2.0.1")
        then g <- parse_header201 rd s ;; Ok (Modern (fst g), snd g)
        else h <- parse_header rd s ;; Ok (Legacy (fst h), snd h)) ;;
  d <- parse_data rd (snd h) ;;
  Ok ((fst h, fst d), snd d).
(** src/ACEtk/fromFile.hpp:60-75, on the content of the file; every table consumes at least one
    character, so that the length of the content bounds the number of iterations *)
Fixpoint parse_tables rd (fuel : nat) (s : text) : outcome (list table) :=
  match s with
  | [] => Ok []
  | _ => match fuel with
         | O => UB
         | S fuel => t <- parse_table rd s ;; l <- parse_tables rd fuel (snd t) ;; Ok (fst t :: l)
         end
  end.
Definition from_concatenated rd (s : text) : outcome (list table) := parse_tables rd (length s) s.
(** src/ACEtk/fromFile.hpp:46-58 *)
Definition from_content rd (s : text) : outcome table := t <- parse_table rd s ;; Ok (fst t).
