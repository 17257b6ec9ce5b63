(** Directory files: src/ACEtk/XsdirEntry.hpp and src/ACEtk/Xsdir.hpp.

    Streams are texts: the characters that are still to be read.  A line is read by std::getline, which
    reports the end of the file exactly if the line is not terminated by a newline; [in >> x] is
    [get_word], [get_double] and [get_uint] of Text.v.  Conversions are those of the standard streams
    (correctly rounded). *)
From Coq Require Import String.
From Coq Require Import ZArith Bool List Lia Ascii.
From Verif Require Import Base SZA.
From Verif Require Export Text.
Import ListNotations.
Open Scope Z_scope.

(** * Entries *)

(** src/ACEtk/XsdirEntry.hpp:36-47 *)
Record xentry := XEntry {
  x_zaid : text; x_awr : double; x_file : text; x_access : option text;
  x_type : Z; x_address : Z; x_length : Z;
  x_record : option Z; x_entries : option Z; x_temp : option double; x_ptable : bool }.

(** ** Printing, src/ACEtk/XsdirEntry/src/print.hpp:6-65 *)

(** the entry on one line (lines 8-43), without the final newline *)
Definition entry_text (e : xentry) : text :=
  rjust 10 (x_zaid e) ++ rjust 13 (show_fixed 6 (x_awr e)) ++ sp :: x_file e ++
  sp :: (match x_access e with Some a => a | None => txt "0" end) ++
  sp :: show_nat (x_type e) ++ sp :: show_nat (x_address e) ++ sp :: show_nat (x_length e) ++
  (match x_record e, x_entries e with
   | Some a, Some b => sp :: show_nat a ++ sp :: show_nat b
   | _, _ => match x_temp e, x_ptable e with None, false => [] | _, _ => txt " 0 0" end
   end) ++
  (match x_temp e with
   | Some t => rjust 13 (show_sci "e" 6 t)
   | None => if x_ptable e then txt " 0" else []
   end) ++
  (if x_ptable e then txt " ptable" else []).

(** [std::find( begin, iter, ' ' ) + 1] (line 56) on the characters read backwards from [begin]; when
    there is no blank the iterator moves past the end, and (line 58) past the beginning of the string
    on the first line: undefined. *)
Fixpoint before_blank (r : text) : option text :=
  match r with
  | [] => None
  | c :: r => if Ascii.eqb c sp then Some r else before_blank r
  end.
(** lines 54-57: [r] are the characters of [iter .. begin), backwards *)
Fixpoint back_up (fuel : nat) (r : text) : option text :=
  if (length r <=? 100)%nat then Some r else
  match fuel with
  | O => None
  | S fuel => match before_blank r with Some r => back_up fuel r | None => None end
  end.
(** lines 46-62 on the last [size] characters [w] of the string: the text before them does not change
    any more.  [None]: the loop is still running after [steps] insertions. *)
Fixpoint split_lines (steps : nat) (w : text) : option (outcome text) :=
  if (length w <=? 100)%nat then Some (Ok w) else
  match steps with
  | O => None
  | S steps =>
      match back_up (length w) (rev w) with
      | None => Some UB
      | Some r =>
          let pos := length r in
          match split_lines steps (blanks 4 ++ skipn pos w) with
          | Some (Ok t) => Some (Ok (firstn pos w ++ txt " +" ++ nl :: t))
          | o => o
          end
      end
  end.
Definition print_entry_steps (steps : nat) (e : xentry) : option (outcome text) := split_lines steps (entry_text e ++ [nl]).
(** PropsXsdir shows that a loop that is still running after as many steps as there are characters
    never ends: such a call never returns and is reported as [UB]. *)
Definition print_entry (e : xentry) : outcome text :=
  match print_entry_steps (length (entry_text e) + 1) e with Some o => o | None => UB end.

(** ** Reading, src/ACEtk/XsdirEntry/src/parse.hpp *)

(** std::getline: the line, the rest, and whether the end of the file was met *)
Definition not_nl (c : ascii) : bool := negb (Ascii.eqb c nl).
Definition get_line (s : text) : text * text * bool :=
  match span not_nl s with
  | (l, _ :: r) => (l, r, false)
  | (l, []) => (l, [], true)
  end.
Definition is_comment (l : text) : bool := match l with c :: _ => Ascii.eqb c "#" | [] => false end.
(** getline, parse.hpp:13-36; a comment at the end of the file without newline is read for ever
    (std::getline fails and leaves the line): [UB] *)
Fixpoint entry_getline (fuel : nat) (s : text) : outcome (text * text * bool) :=
  match get_line s with (l, r, eof) =>
    if is_comment l then (if eof then UB else match fuel with O => UB | S fuel => entry_getline fuel r end)
    else Ok (strip l, r, eof)
  end.
(** parse.hpp:46-52: back() of an empty line is undefined *)
Fixpoint join_lines (fuel : nat) (line s : text) (eof : bool) : outcome (text * text * bool) :=
  match rev line with
  | [] => UB
  | c :: t =>
      if Ascii.eqb c "+" then
        match fuel with
        | O => UB
        | S fuel => n <- entry_getline (length s) s ;;
                    match n with (next, r, eof) => join_lines fuel (rev t ++ sp :: next) r eof end
        end
      else Ok (line, s, eof)
  end.
Definition entry_line (s : text) : outcome (text * text * bool) :=
  a <- entry_getline (length s) s ;;
  match a with (l, r, eof) => join_lines (S (length s)) l r eof end.

Definition is_zero (x : double) : bool := match x with S754_zero _ => true | _ => false end.
Definition opt_uint (n : Z) : option Z := if n =? 0 then None else Some n.
Definition opt_temp (x : double) : option double := if is_zero x then None else Some x.
(** the value an unsigned number has after a failed extraction: the largest one when it overflows, else 0 *)
Definition failed_uint (s : text) : Z :=
  match scan_int s with Some (_, n, _) => if n <? 2 ^ 32 then 0 else 2 ^ 32 - 1 | None => 0 end.

(** parse.hpp:56-128 on the joined line; [None]: the stream failed *)
Definition read_entry (line : text) : option xentry :=
  match get_word line with None => None | Some (zaid, s) =>
  match get_double s with None => None | Some (awr, s) =>
  match get_word s with None => None | Some (file, s) =>
  match get_word s with None => None | Some (access, s) =>
  match get_uint s with None => None | Some (ftype, s) =>
  match get_uint s with None => None | Some (address, s) =>
  match get_uint s with None => None | Some (length', s) =>
    let make r n t p := XEntry zaid awr file (if text_eqb access (txt "0") then None else Some access) ftype address length' (opt_uint r) (opt_uint n) (opt_temp t) p in
    match get_uint s with
    | None => Some (make (failed_uint s) 0 (S754_zero false) false)
    | Some (record, s) =>
        match get_uint s with None => None | Some (entries, s) =>
        match get_double s with None => None | Some (temp, s) =>
        match get_word s with
        | None => Some (make record entries temp false)
        | Some (next, _) => if text_eqb next (txt "ptable") then Some (make record entries temp true) else None
        end end end
    end
  end end end end end end end.
(** parse.hpp:38-135 *)
Definition parse_entry (s : text) : outcome (xentry * text) :=
  a <- entry_line s ;;
  match a with (line, r, eof) =>
    if (eof : bool) then Throw StdException
    else match read_entry line with None => Throw StdException | Some e => Ok (e, r) end
  end.

(** * Directories *)

(** src/ACEtk/Xsdir.hpp:28-32; the map of ratios is the list of its elements in the order of the keys *)
Record xsdir := XSDir { xs_path : option text; xs_ratios : list (Z * double); xs_list : list xentry }.

(** std::map::operator[] ... = *)
Fixpoint map_set (k : Z) (x : double) (m : list (Z * double)) : list (Z * double) :=
  match m with
  | [] => [(k, x)]
  | (k', x') :: m' => if k <? k' then (k, x) :: m else if k =? k' then (k, x) :: m' else (k', x') :: map_set k x m'
  end.
(** std::map::find *)
Fixpoint map_get (k : Z) (m : list (Z * double)) : option double :=
  match m with
  | [] => None
  | (k', x) :: m => if k =? k' then Some x else map_get k m
  end.
(** src/ACEtk/Xsdir.hpp:63-74 *)
Definition xs_ratio (x : xsdir) (za : Z) : outcome double :=
  match map_get za (xs_ratios x) with Some r => Ok r | None => Throw StdException end.

(** src/ACEtk/Xsdir/src/indices.hpp:1-10; the hash map is a list of (key, index), the newest first *)
Fixpoint xs_indices (i : Z) (l : list xentry) (m : list (text * Z)) : list (text * Z) :=
  match l with
  | [] => m
  | e :: l => xs_indices (i + 1) l ((x_zaid e, i) :: m)
  end.
Fixpoint index_of (zaid : text) (m : list (text * Z)) : option Z :=
  match m with
  | [] => None
  | (k, i) :: m => if text_eqb zaid k then Some i else index_of zaid m
  end.
(** src/ACEtk/Xsdir.hpp:84-96 *)
Definition xs_entry (x : xsdir) (zaid : text) : outcome xentry :=
  match index_of zaid (xs_indices 0 (xs_list x) []) with
  | Some i => match nth_error (xs_list x) (Z.to_nat i) with Some e => Ok e | None => UB end
  | None => Throw StdException
  end.

(** ** Printing, src/ACEtk/Xsdir/src/print.hpp:6-49 *)

(** lines 17-39 *)
Fixpoint print_ratios (count : Z) (l : list (Z * double)) : text :=
  match l with
  | [] => []
  | (za, x) :: l =>
      let first := (za =? 1) || (za mod 1000 =? 0) in
      let count := if first then -1 else count in
      (if first && negb (za =? 1) then [nl] else []) ++
      (if negb (count =? 0) && (Z.rem count 3 =? 0) then nl :: blanks 21 else []) ++
      rjust 8 (show_nat za) ++ rjust 13 (show_fixed 8 x) ++ print_ratios (count + 1) l
  end.
Definition print_xsdir (x : xsdir) : outcome text :=
  entries <- mapM print_entry (xs_list x) ;;
  Ok ((match xs_path x with Some p => txt "datapath=" ++ p | None => [] end) ++ nl ::
      txt "atomic weight ratios" ++ nl :: print_ratios (-1) (xs_ratios x) ++ nl ::
      nl :: txt "directory" ++ nl :: concat entries).

(** ** Reading, src/ACEtk/Xsdir/src/parse.hpp *)
Definition lower_char (c : ascii) : ascii :=
  let n := nat_of_ascii c in if ((65 <=? n) && (n <=? 90))%nat then ascii_of_nat (n + 32) else c.
Definition lower (s : text) : text := map lower_char s.
(** getline, parse.hpp:25-51: the line, the rest, whether the end of the file was met, whether the
    stream failed, and the text from the beginning of the line on ([position]) *)
Record xline := XLine { l_text : text; l_rest : text; l_eof : bool; l_fail : bool; l_start : text }.
Fixpoint xs_getline (fuel : nat) (s : text) : xline :=
  match get_line s with (l, r, eof) =>
    if negb eof && (is_comment l || match l with [] => true | _ => false end)
    then match fuel with O => XLine [] [] true true [] | S fuel => xs_getline fuel r end
    else XLine (strip l) r eof (eof && match l with [] => true | _ => false end) s
  end.
Definition next_line (s : text) : xline := xs_getline (length s) s.
(** once the end of the file was met nothing is read any more *)
Definition next_line_of (l : xline) : xline := if l_eof l then XLine [] [] true true [] else next_line (l_rest l).

(** parse.hpp:107-111 *)
Fixpoint read_ratios (fuel : nat) (s : text) (m : list (Z * double)) : list (Z * double) :=
  match fuel with
  | O => m
  | S fuel => match get_uint s with None => m | Some (za, s) =>
              match get_double s with None => m | Some (awr, s) => read_ratios fuel s (map_set za awr m) end end
  end.
(** parse.hpp:103-125; [current] is the text of the last line read, [l] its state *)
Fixpoint ratio_lines (fuel : nat) (current : text) (l : xline) (m : list (Z * double)) : outcome (list (Z * double) * xline) :=
  if text_eqb current (txt "directory") then Ok (m, l) else
  let m := read_ratios (length current) current m in
  let l := next_line_of l in
  if l_fail l then Throw StdException else
  match fuel with
  | O => UB
  | S fuel => ratio_lines fuel (lower (l_text l)) l m
  end.
(** parse.hpp:127-159.  When an entry ends with the end of the file, the constructor throws without
    setting the stream in the failed state: the loop goes on with an entry that was not read (its
    numbers not initialised or left over), which is reported as [UB]. *)
Fixpoint read_entries (fuel : nat) (s : text) : outcome (list xentry) :=
  match fuel with
  | O => UB
  | S fuel =>
      a <- entry_line s ;;
      match a with (line, r, eof) =>
        if (eof : bool) then UB else
        match read_entry line with
        | None => Throw StdException
        | Some e =>
            let next := next_line r in
            if l_eof next then Ok [e] else l <- read_entries fuel (l_start next) ;; Ok (e :: l)
        end
      end
  end.
(** parse.hpp:61-86 *)
Definition read_path (line : text) : option text :=
  match strip (skipn 8 line) with
  | [] => None
  | c :: r => if Ascii.eqb c "=" then match r with [] => None | p => Some p end else None
  end.
(** parse.hpp:53-163 *)
Definition parse_xsdir (s : text) : outcome xsdir :=
  let l := next_line s in
  let '(path, current, l) :=
    if text_eqb (lower (firstn 8 (l_text l))) (txt "datapath")
    then let l' := next_line_of l in (read_path (l_text l), lower (l_text l'), l')
    else (None, l_text l, l) in
  _ <- throw_if (negb (text_eqb current (txt "atomic weight ratios"))) StdException ;;
  let first := next_line_of l in
  a <- ratio_lines (length s) (l_text first) first [] ;;
  e <- (if l_eof (snd a) then UB else read_entries (S (length s)) (l_rest (snd a))) ;;
  Ok (XSDir path (fst a) e).
