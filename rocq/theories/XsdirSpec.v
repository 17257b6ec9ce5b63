(** Which directory entries can be written, and what reading them gives back. *)
From Coq Require Import String.
From Coq Require Import ZArith Bool List Lia Ascii.
From Verif Require Import Base SZA.
From Verif Require Export Xsdir Words TableTextSpec.
Import ListNotations.
Open Scope Z_scope.

(** a name that fits on a line: a non-empty word of at most [n] characters *)
Definition name_ok (n : nat) (s : text) : Prop := word s /\ s <> [] /\ (length s <= n)%nat.
Definition is_uint (n : Z) : Prop := 0 <= n < 2 ^ 32.

(** The entries that survive being printed:
    - the identifier does not start with '#' (it would make the line a comment);
    - the atomic weight ratio and the temperature take at most 12 of the 13 columns (they would run
      into the preceding word);
    - an access route is not called "0", and temperature, record length and entries per record are not
      0 (0 means "not given");
    - record length and entries per record are given together, and only with a temperature or a
      probability table. *)
Definition entry_ok (e : xentry) : Prop :=
  name_ok 80 (x_zaid e) /\ is_comment (x_zaid e) = false /\
  printable (x_awr e) /\ (length (show_fixed 6 (x_awr e)) <= 12)%nat /\
  name_ok 95 (x_file e) /\
  (forall a, x_access e = Some a -> name_ok 95 a /\ a <> txt "0") /\
  is_uint (x_type e) /\ is_uint (x_address e) /\ is_uint (x_length e) /\
  (match x_record e, x_entries e with
   | Some a, Some b => is_uint a /\ is_uint b /\ a <> 0 /\ b <> 0 /\ (x_temp e <> None \/ x_ptable e = true)
   | None, None => True
   | _, _ => False
   end) /\
  (forall t, x_temp e = Some t -> printable t /\ units t <> 0 /\ (length (show_sci "e" 6 t) <= 12)%nat).

(** equality up to the printed decimals, as [same_sci] but with the letter e *)
Definition same_temp (x y : double) : Prop :=
  valid y /\ finite y /\ negative y = negative x /\ (units y = 0 <-> units x = 0) /\ show_sci "e" 6 y = show_sci "e" 6 x /\
  Z.abs (units y - units x) * 10 ^ 6 <= 2 * units x.
Definition same_option {A} (R : A -> A -> Prop) (a b : option A) : Prop :=
  match a, b with Some x, Some y => R x y | None, None => True | _, _ => False end.
Definition same_entry (e e' : xentry) : Prop :=
  x_zaid e' = x_zaid e /\ same_fixed 6 (x_awr e) (x_awr e') /\ x_file e' = x_file e /\ x_access e' = x_access e /\
  x_type e' = x_type e /\ x_address e' = x_address e /\ x_length e' = x_length e /\
  x_record e' = x_record e /\ x_entries e' = x_entries e /\ same_option same_temp (x_temp e) (x_temp e') /\ x_ptable e' = x_ptable e.

(** the words of an entry *)
Definition entry_words (e : xentry) : list text :=
  [x_zaid e; show_fixed 6 (x_awr e); x_file e; match x_access e with Some a => a | None => txt "0" end;
   show_nat (x_type e); show_nat (x_address e); show_nat (x_length e)] ++
  (match x_record e, x_entries e with
   | Some a, Some b => [show_nat a; show_nat b]
   | _, _ => match x_temp e, x_ptable e with None, false => [] | _, _ => [txt "0"; txt "0"] end
   end) ++
  (match x_temp e with Some t => [show_sci "e" 6 t] | None => if x_ptable e then [txt "0"] else [] end) ++
  (if x_ptable e then [txt "ptable"] else []).

(** lines that are continued: each but the last one ends with " +" *)
Definition continued_text (pieces : list text) (last : text) : text :=
  concat (map (fun p => p ++ txt " +" ++ [nl]) pieces) ++ last ++ [nl].

(** ** Directories *)
Definition ratio_ok (r : Z * double) : Prop :=
  0 <= fst r < 10 ^ 7 /\ printable (snd r) /\ (length (show_fixed 8 (snd r)) <= 12)%nat.
(** the keys of a map are in increasing order *)
Fixpoint increasing (l : list Z) : Prop :=
  match l with
  | a :: ((b :: _) as r) => a < b /\ increasing r
  | _ => True
  end.
Definition path_ok (p : text) : Prop := one_line p /\ p <> [] /\ rstrip p = p.
Definition xsdir_ok (x : xsdir) : Prop :=
  (forall p, xs_path x = Some p -> path_ok p) /\
  increasing (map fst (xs_ratios x)) /\ Forall ratio_ok (xs_ratios x) /\
  xs_list x <> [] /\ Forall entry_ok (xs_list x).
Definition same_ratio (r r' : Z * double) : Prop := fst r' = fst r /\ same_fixed 8 (snd r) (snd r').
Definition same_xsdir (x x' : xsdir) : Prop :=
  xs_path x' = xs_path x /\ Forall2 same_ratio (xs_ratios x) (xs_ratios x') /\ Forall2 same_entry (xs_list x) (xs_list x').
