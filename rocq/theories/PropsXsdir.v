(** C31-C34: xsdir entries and xsdir files.  [XsdirSpec] says which entries and directories can be
    written ([entry_ok], [xsdir_ok]) and what "the same up to the printed decimals" means. *)
From Coq Require Import String.
From Coq Require Import ZArith Bool List Lia Ascii.
From Verif Require Import Base SZA SimpleLaws.
From Verif Require Export XsdirDirProofs PropsText.
Import ListNotations.
Open Scope Z_scope.

(** ** C31: an entry that was printed is read back, whatever follows it in the stream, and printing the
    entry that was read gives the same text. *)
Theorem C31_printed_entries_are_read_back : forall e, entry_ok e ->
  exists t e', print_entry e = Ok t /\ (forall rest, parse_entry (t ++ rest) = Ok (e', rest)) /\ same_entry e e'.
Proof.
  intros e H. destruct (entry_round_trip e H) as (t & e' & l0 & r0 & P & _ & _ & _ & _ & R & S). exists t, e'. split; [exact P|]. split; [|exact S].
  intros rest. destruct (R rest) as (L & EL & RL). unfold parse_entry. rewrite EL. cbn [bind]. rewrite RL. reflexivity.
Qed.
Print Assumptions C31_printed_entries_are_read_back.
Theorem C31_printing_is_stable : forall e t e' rest rest', entry_ok e -> print_entry e = Ok t -> parse_entry (t ++ rest) = Ok (e', rest') ->
  rest' = rest /\ print_entry e' = Ok t.
Proof.
  intros e t e' rest rest' H P Q. destruct (C31_printed_entries_are_read_back e H) as (t2 & e2 & P2 & Q2 & S). rewrite P2 in P. apply Ok_inj in P. subst t2.
  rewrite Q2 in Q. apply Ok_inj in Q. apply pair_equal_spec in Q as [<- <-]. split; [reflexivity|]. rewrite (same_entry_print _ _ S). exact P2.
Qed.
Print Assumptions C31_printing_is_stable.
Lemma join_at_end fuel : forall line l r eof, join_lines fuel line [] true = Ok (l, r, eof) -> eof = true.
Proof.
  induction fuel as [|fuel IH]; intros line l r eof J; cbn [join_lines] in J; (destruct (rev line) as [|c t]; [discriminate J|]); destruct (Ascii.eqb c "+").
  - discriminate J.
  - injection J as _ _ J. symmetry. exact J.
  - change (entry_getline (length (@nil ascii)) []) with (Ok (@nil ascii, @nil ascii, true)) in J. cbn [bind] in J. exact (IH _ _ _ _ J).
  - injection J as _ _ J. symmetry. exact J.
Qed.
(** An entry is only read when the stream holds its whole line: without the newline at the end it throws,
    whatever the entry. *)
Theorem C31_entries_without_newline_are_refused : forall s, one_line s -> (forall e, parse_entry s <> Ok e).
Proof.
  intros s O e H. unfold parse_entry, entry_line in H. assert (G : forall fuel, entry_getline fuel s = if is_comment s then UB else Ok (strip s, [], true)).
  { intros fuel. assert (GL : get_line s = (s, [], true)).
    { unfold get_line. assert (SP : span not_nl s = (s, [])). { clear -O. induction s as [|c s IH]; [reflexivity|]. cbn [span]. replace (not_nl c) with true. - rewrite IH; [reflexivity|]. intros I. apply O. right. exact I. - symmetry. unfold not_nl. destruct (Ascii.eqb_spec c nl) as [->|]; [|reflexivity]. exfalso. apply O. left. reflexivity. }
      rewrite SP. reflexivity. }
    destruct fuel; cbn [entry_getline]; rewrite GL; destruct (is_comment s); reflexivity. }
  rewrite G in H. destruct (is_comment s); [discriminate H|]. cbn [bind] in H.
  destruct (join_lines (S (length s)) (strip s) [] true) as [[[l r] eof]| |] eqn:J; try discriminate H. cbn [bind] in H.
  apply join_at_end in J. subst eof. discriminate H.
Qed.
Print Assumptions C31_entries_without_newline_are_refused.

(** Findings: entries outside [entry_ok] that are printed and not read back.  *)
Definition sample_entry := Eval vm_compute in
  XEntry (txt "1001.80c") (num "0.999167") (txt "xdata/endf80/H/1001.800nc") None 1 4 17969 None None (Some (num "2.5301e-8")) false.
(** a record length and a number of entries per record without temperature: the reader wants one *)
Definition binary_entry := Eval vm_compute in
  XEntry (txt "1001.80c") (num "0") (txt "1001.800nc") None 2 4 17969 (Some 4096) (Some 512) None false.
Definition binary_text := Eval vm_compute in match print_entry binary_entry with Ok t => t | _ => [] end.
Theorem C31_records_without_temperature_refuted : exists t, print_entry binary_entry = Ok t /\ parse_entry t = Throw StdException.
Proof. exists binary_text. split; vm_compute; reflexivity. Qed.
Print Assumptions C31_records_without_temperature_refuted.
(** a temperature that takes 13 columns runs into the preceding number *)
Definition cold_entry := Eval vm_compute in
  XEntry (txt "1001.80c") (num "0") (txt "1001.800nc") None 2 4 17969 (Some 4096) (Some 512) (Some (num "2.5301e-100")) false.
Definition cold_text := Eval vm_compute in match print_entry cold_entry with Ok t => t | _ => [] end.
Definition cold_read := Eval vm_compute in match parse_entry cold_text with Ok e => fst e | _ => cold_entry end.
Theorem C31_thirteen_columns_refuted : exists t e', print_entry cold_entry = Ok t /\ parse_entry t = Ok (e', []) /\
  x_entries cold_entry = Some 512 /\ x_entries e' = Some 5122.
Proof.
  exists cold_text, cold_read.
  split; [vm_compute; reflexivity|]. split; [vm_compute; reflexivity|]. split; vm_compute; reflexivity.
Qed.
Print Assumptions C31_thirteen_columns_refuted.
(** an optional number that is given as 0 is lost *)
Definition zero_entry := Eval vm_compute in
  XEntry (txt "1001.80c") (num "0") (txt "1001.800nc") (Some (txt "0")) 2 4 17969 (Some 0) (Some 0) (Some (num "0")) false.
Definition zero_text := Eval vm_compute in match print_entry zero_entry with Ok t => t | _ => [] end.
Definition zero_read := Eval vm_compute in match parse_entry zero_text with Ok e => fst e | _ => zero_entry end.
Theorem C31_zeros_are_lost_refuted : exists t e', print_entry zero_entry = Ok t /\ parse_entry t = Ok (e', []) /\
  x_access e' = None /\ x_record e' = None /\ x_entries e' = None /\ x_temp e' = None.
Proof.
  exists zero_text, zero_read.
  split; [vm_compute; reflexivity|]. split; [vm_compute; reflexivity|]. split; [vm_compute; reflexivity|]. split; [vm_compute; reflexivity|]. split; vm_compute; reflexivity.
Qed.
Print Assumptions C31_zeros_are_lost_refuted.
(** a record length that does not fit in 32 bits is replaced by the largest number, and the rest of the
    line (entries per record, temperature, probability tables) is ignored without an error *)
Definition large_text := Eval vm_compute in txt "1001.80c 0.999167 1001.800nc 0 2 4 17969 4294967296 512 2.5301e-8 ptable" ++ [nl].
Definition large_read := Eval vm_compute in match parse_entry large_text with Ok e => fst e | _ => zero_entry end.
Theorem C31_large_record_lengths_refuted : exists e', parse_entry large_text = Ok (e', []) /\
  x_record e' = Some 4294967295 /\ x_entries e' = None /\ x_temp e' = None /\ x_ptable e' = false.
Proof.
  exists large_read.
  split; [vm_compute; reflexivity|]. split; [vm_compute; reflexivity|]. split; [vm_compute; reflexivity|]. split; vm_compute; reflexivity.
Qed.
Print Assumptions C31_large_record_lengths_refuted.

(** ** C32: long entries.  Printing ends within as many steps as the line has characters; the text is made
    of lines of at most 102 characters (100 and the mark " +"), the last one of at most 99; without the
    marks the words are those of the entry, in order. *)
Theorem C32_printing_ends_and_keeps_the_words : forall e, entry_ok e -> exists pieces last,
  (forall steps, (length (entry_text e) <= steps)%nat -> print_entry_steps steps e = Some (Ok (continued_text pieces last))) /\
  print_entry e = Ok (continued_text pieces last) /\
  Forall (fun p => (length p <= 100)%nat /\ ~ In nl p) pieces /\ (length last <= 99)%nat /\ ~ In nl last /\
  concat (map words pieces) ++ words last = entry_words e.
Proof.
  intros e H. destruct (entry_printed e H) as (pieces & lst & l & c & P & _ & _ & _ & F & L & O & _ & W). exists pieces, lst. split; [exact P|].
  assert (NL : forall p, only_blanks p -> ~ In nl p). { intros p B I. unfold only_blanks in B. rewrite Forall_forall in B. specialize (B nl I). discriminate (B eq_refl). }
  split; [unfold print_entry; rewrite P by lia; reflexivity|]. split; [eapply Forall_impl; [|exact F]; intros p (Hl & Hb & _); split; [exact Hl|apply NL; exact Hb]|].
  split; [exact L|]. split; [apply NL; exact O|exact W].
Qed.
Print Assumptions C32_printing_ends_and_keeps_the_words.
(** An entry of at most 99 characters is printed on one line. *)
Theorem C32_short_entries_are_not_split : forall e, (length (entry_text e) <= 99)%nat -> print_entry e = Ok (entry_text e ++ [nl]).
Proof.
  intros e L. unfold print_entry, print_entry_steps. rewrite Nat.add_comm. cbn [plus split_lines]. rewrite app_length. cbn [length]. destruct (Nat.leb_spec (length (entry_text e) + 1) 100); [reflexivity|lia].
Qed.
Print Assumptions C32_short_entries_are_not_split.

(** Finding: a file name of 96 or more characters: the loop never ends (it inserts continuation marks and
    blanks for ever). *)
Lemma before_blank_app r u a : (~ In sp u) -> (forall q, before_blank r <> Some q) -> before_blank (r ++ u ++ sp :: a) = Some a.
Proof.
  intros U R. induction r as [|c r IH]; cbn [app before_blank] in *.
  - clear R. induction u as [|c u IH]; cbn [app before_blank]; [reflexivity|]. destruct (Ascii.eqb_spec c sp) as [->|]; [exfalso; apply U; left; reflexivity|]. apply IH. intros I. apply U. right. exact I.
  - destruct (Ascii.eqb c sp); [exfalso; apply (R r); reflexivity|]. apply IH. exact R.
Qed.
Lemma before_blank_in r q u : before_blank r = Some q -> before_blank (r ++ u) = Some (q ++ u) /\ (length q < length r)%nat.
Proof.
  induction r as [|c r IH]; cbn [app before_blank length]; [discriminate|]. destruct (Ascii.eqb c sp).
  - intros E. injection E as ->. split; [reflexivity|lia].
  - intros E. destruct (IH E) as [A B]. split; [exact A|lia].
Qed.
Lemma back_up_to f a : ~ In sp f -> (length a <= 100)%nat -> (100 < length a + 1 + length f)%nat -> forall fuel r, (length r < fuel)%nat ->
  back_up fuel (r ++ rev f ++ sp :: a) = Some a.
Proof.
  intros Hf La Lf. induction fuel as [|fuel IH]; intros r L; [lia|]. cbn [back_up]. rewrite !app_length, rev_length. cbn [length].
  destruct (Nat.leb_spec (length r + (length f + S (length a))) 100); [lia|]. destruct (before_blank r) as [q|] eqn:E.
  - destruct (before_blank_in r q (rev f ++ sp :: a) E) as [-> Q]. apply IH. lia.
  - rewrite before_blank_app; [|intros I; apply Hf, in_rev; exact I|intros q; congruence]. destruct fuel; cbn [back_up]; (destruct (Nat.leb_spec (length a) 100); [reflexivity|lia]).
Qed.
Lemma split_at a f r : ~ In sp f -> (length a <= 100)%nat -> (100 < length a + 1 + length f)%nat -> forall steps,
  split_lines (S steps) (a ++ sp :: f ++ r) = match split_lines steps (blanks 4 ++ sp :: f ++ r) with Some (Ok t) => Some (Ok (a ++ txt " +" ++ nl :: t)) | o => o end.
Proof.
  intros Hf La Lf steps. cbn [split_lines]. rewrite !app_length. cbn [length]. rewrite app_length. destruct (Nat.leb_spec (length a + S (length f + length r)) 100); [lia|].
  assert (E : rev (a ++ sp :: f ++ r) = rev r ++ rev f ++ sp :: rev a). { rewrite rev_app_distr. cbn [rev]. rewrite rev_app_distr, <- !app_assoc. reflexivity. }
  rewrite E, (back_up_to f (rev a)); [|exact Hf|rewrite rev_length; exact La|rewrite rev_length; exact Lf|rewrite rev_length; lia].
  rewrite rev_length, firstn_app, skipn_app, Nat.sub_diag, firstn_all, skipn_all. cbn [firstn skipn app]. rewrite app_nil_r. reflexivity.
Qed.
Lemma split_for_ever f r : ~ In sp f -> (96 <= length f)%nat -> forall steps, split_lines steps (blanks 4 ++ sp :: f ++ r) = None.
Proof.
  intros Hf Lf. induction steps as [|steps IH].
  - cbn [split_lines]. rewrite app_length. cbn [length]. rewrite app_length. change (length (blanks 4)) with 4%nat. destruct (Nat.leb_spec (4 + S (length f + length r)) 100); [lia|reflexivity].
  - rewrite split_at; [|exact Hf|cbn; lia|change (length (blanks 4)) with 4%nat; lia]. rewrite IH. reflexivity.
Qed.
Theorem C32_long_file_names_never_end_refuted : forall e, (length (x_zaid e) <= 80)%nat -> (length (show_fixed 6 (x_awr e)) <= 13)%nat ->
  ~ In sp (x_file e) -> (96 <= length (x_file e))%nat -> forall steps, print_entry_steps steps e = None.
Proof.
  intros e Lz La Hf Lf steps. unfold print_entry_steps. rewrite entry_text_eq. set (tail := sp :: access_text e ++ _). clearbody tail.
  set (a := rjust 10 (x_zaid e) ++ rjust 13 (show_fixed 6 (x_awr e))).
  assert (Aa : (length a <= 93)%nat) by (unfold a, rjust, blanks; rewrite !app_length, !repeat_length; lia).
  assert (E : (rjust 10 (x_zaid e) ++ rjust 13 (show_fixed 6 (x_awr e)) ++ sp :: x_file e ++ tail) ++ [nl] = a ++ sp :: x_file e ++ (tail ++ [nl])).
  { unfold a. rewrite <- !app_assoc. cbn [app]. rewrite <- !app_assoc. reflexivity. }
  rewrite E. assert (A4 : (23 <= length a)%nat) by (unfold a, rjust, blanks; rewrite !app_length, !repeat_length; lia).
  destruct steps as [|steps].
  - cbn [split_lines]. rewrite !app_length. cbn [length]. rewrite !app_length. destruct (Nat.leb_spec (length a + S (length (x_file e) + (length tail + length [nl]))) 100); [lia|reflexivity].
  - rewrite split_at by (try assumption; lia). rewrite split_for_ever by assumption. reflexivity.
Qed.
Print Assumptions C32_long_file_names_never_end_refuted.
(** Finding: the mark " +" is not counted: lines of 101 and 102 characters are printed. *)
Definition long_entry := Eval vm_compute in
  XEntry (txt "1001.80c") (num "0.999167") (repeat "x"%char 76) (Some (txt "route")) 1 4 17969 None None (Some (num "2.5301e-8")) true.
Definition long_text := Eval vm_compute in match print_entry long_entry with Ok t => t | _ => [] end.
Definition long_line := Eval vm_compute in fst (span not_nl long_text).
Definition long_rest := Eval vm_compute in tl (snd (span not_nl long_text)).
Theorem C32_lines_of_more_than_100_characters_refuted : exists line rest, print_entry long_entry = Ok (line ++ nl :: rest) /\ length line = 102%nat /\ ~ In nl line.
Proof.
  exists long_line, long_rest.
  split; [vm_compute; reflexivity|]. split; [vm_compute; reflexivity|]. vm_compute. not_in_line.
Qed.
Print Assumptions C32_lines_of_more_than_100_characters_refuted.

(** ** C33: lookup.  entry(zaid) is the last entry listed with that ZAID; it throws if and only if there
    is none. *)
Lemma index_of_indices z l : forall i m, index_of z (xs_indices i l m) =
  match index_of z (xs_indices i l []) with Some j => Some j | None => index_of z m end.
Proof.
  induction l as [|e l IH]; intros i m; [reflexivity|]. cbn [xs_indices]. rewrite IH, (IH _ [(x_zaid e, i)]). destruct (index_of z (xs_indices (i + 1) l [])); [reflexivity|]. cbn [index_of]. destruct (text_eqb z (x_zaid e)); reflexivity.
Qed.
Lemma index_of_spec z l : forall i, match index_of z (xs_indices i l []) with
  | Some j => exists before e after, l = before ++ e :: after /\ x_zaid e = z /\ j = i + len before /\ Forall (fun e' => x_zaid e' <> z) after
  | None => Forall (fun e => x_zaid e <> z) l end.
Proof.
  induction l as [|e l IH]; intros i; [constructor|]. cbn [xs_indices]. rewrite index_of_indices. specialize (IH (i + 1)). destruct (index_of z (xs_indices (i + 1) l [])) as [j|].
  - destruct IH as (b & e' & a & -> & Z & J & F). exists (e :: b), e', a. split; [reflexivity|]. split; [exact Z|]. split; [|exact F]. unfold len in *. cbn [length]. lia.
  - cbn [index_of]. destruct (text_eqb z (x_zaid e)) eqn:T.
    + exists [], e, l. split; [reflexivity|]. split; [symmetry; apply text_eqb_eq; exact T|]. split; [unfold len; cbn; lia|exact IH].
    + constructor; [|exact IH]. intros E. rewrite E in T. rewrite (proj2 (text_eqb_eq z z) eq_refl) in T. discriminate T.
Qed.
Lemma last_unique z (b b' a a' : list xentry) e e' : b ++ e :: a = b' ++ e' :: a' -> x_zaid e = z -> x_zaid e' = z ->
  Forall (fun x => x_zaid x <> z) a -> Forall (fun x => x_zaid x <> z) a' -> e = e'.
Proof.
  revert b'. induction b as [|x b IH]; intros [|x' b'] E Z Z' F F'; cbn [app] in E.
  - injection E as E _. exact E.
  - injection E as _ E. exfalso. rewrite E in F. apply Forall_app in F as [_ F]. inversion F; subst. congruence.
  - injection E as _ E. exfalso. rewrite <- E in F'. apply Forall_app in F' as [_ F']. inversion F'; subst. congruence.
  - injection E as _ E. apply (IH b'); assumption.
Qed.
Theorem C33_entry_is_the_last_one_listed : forall x z e, xs_entry x z = Ok e <->
  exists before after, xs_list x = before ++ e :: after /\ x_zaid e = z /\ Forall (fun e' => x_zaid e' <> z) after.
Proof.
  intros x z e. unfold xs_entry. pose proof (index_of_spec z (xs_list x) 0) as S. destruct (index_of z (xs_indices 0 (xs_list x) [])) as [j|].
  - destruct S as (b & e0 & a & E & Z & J & F). assert (N : nth_error (xs_list x) (Z.to_nat j) = Some e0).
    { rewrite E. unfold len in J. replace (Z.to_nat j) with (length b) by lia. rewrite nth_error_app2 by lia. rewrite Nat.sub_diag. reflexivity. }
    rewrite N. split.
    + intros H. apply Ok_inj in H. subst e0. exists b, a. split; [exact E|]. split; assumption.
    + intros (b' & a' & E' & Z' & F'). f_equal. rewrite E in E'. exact (last_unique z b b' a a' e0 e E' Z Z' F F').
  - split; [discriminate|]. intros (b & a & E & Z & _). exfalso. rewrite E in S. apply Forall_app in S as [_ S]. inversion S; subst. congruence.
Qed.
Print Assumptions C33_entry_is_the_last_one_listed.
Theorem C33_entry_throws_iff_absent : forall x z, xs_entry x z = Throw StdException <-> Forall (fun e => x_zaid e <> z) (xs_list x).
Proof.
  intros x z. unfold xs_entry. pose proof (index_of_spec z (xs_list x) 0) as S. destruct (index_of z (xs_indices 0 (xs_list x) [])) as [j|].
  - destruct S as (b & e0 & a & E & Z & J & F). split.
    + destruct (nth_error (xs_list x) (Z.to_nat j)); discriminate.
    + intros H. exfalso. rewrite E in H. apply Forall_app in H as [_ H]. inversion H; subst. congruence.
  - split; [intros _; exact S|reflexivity].
Qed.
Print Assumptions C33_entry_throws_iff_absent.
Theorem C33_entry_is_never_undefined : forall x z, (exists e, xs_entry x z = Ok e) \/ xs_entry x z = Throw StdException.
Proof.
  intros x z. pose proof (index_of_spec z (xs_list x) 0) as S. unfold xs_entry. destruct (index_of z (xs_indices 0 (xs_list x) [])) as [j|]; [|right; reflexivity].
  left. destruct S as (b & e0 & a & E & Z & J & F). exists e0. rewrite E. unfold len in J. replace (Z.to_nat j) with (length b) by lia. rewrite nth_error_app2 by lia. rewrite Nat.sub_diag. reflexivity.
Qed.
Print Assumptions C33_entry_is_never_undefined.

(** The ratios: atomicWeightRatio(za) is the value in the map, else it throws; a map that is filled from a
    list of pairs holds the last value given for each ZA, and its keys are in increasing order. *)
Lemma map_get_set k k' x m : map_get k (map_set k' x m) = if k =? k' then Some x else map_get k m.
Proof.
  induction m as [|[a b] m IH]; cbn [map_set map_get]; [reflexivity|]. destruct (Z.ltb_spec k' a) as [L|L]; [reflexivity|]. destruct (Z.eqb_spec k' a) as [->|N]; cbn [map_get].
  - destruct (k =? a); reflexivity.
  - rewrite IH. destruct (Z.eqb_spec k a) as [->|]; [|reflexivity]. destruct (Z.eqb_spec a k'); [congruence|reflexivity].
Qed.
(** the last pair of [l] for [za] *)
Definition last_given (za : Z) (l : list (Z * double)) (x : double) : Prop :=
  exists before after, l = before ++ (za, x) :: after /\ Forall (fun r => fst r <> za) after.
Lemma set_all_get za l : forall m, (forall x, last_given za l x -> map_get za (set_all l m) = Some x) /\
  (Forall (fun r => fst r <> za) l -> map_get za (set_all l m) = map_get za m).
Proof.
  induction l as [|[k y] l IH]; intros m; unfold set_all in *; cbn [fold_left fst snd] in *.
  - split; [|reflexivity]. intros x (b & a & E & _). destruct b; discriminate E.
  - destruct (IH (map_set k y m)) as [I1 I2]. split.
    + intros x (b & a & E & F). destruct b as [|r b]; cbn [app] in E.
      * injection E as -> -> ->. rewrite I2 by exact F. rewrite map_get_set, Z.eqb_refl. reflexivity.
      * injection E as _ E. apply I1. exists b, a. split; assumption.
    + intros F. inversion F as [|? ? F1 F2]; subst. rewrite I2 by exact F2. rewrite map_get_set. cbn [fst] in F1. destruct (Z.eqb_spec za k); [congruence|reflexivity].
Qed.
Theorem C33_atomic_weight_ratio_is_the_last_given : forall x given za, xs_ratios x = set_all given [] ->
  (forall y, last_given za given y -> xs_ratio x za = Ok y) /\
  (Forall (fun r => fst r <> za) given -> xs_ratio x za = Throw StdException).
Proof.
  intros x given za E. unfold xs_ratio. rewrite E. destruct (set_all_get za given []) as [A B]. split.
  - intros y H. rewrite (A y H). reflexivity.
  - intros H. rewrite (B H). reflexivity.
Qed.
Print Assumptions C33_atomic_weight_ratio_is_the_last_given.
(** reading a line of pairs adds them to the map in order, so later lines win *)
Theorem C33_lines_of_ratios_are_added_in_order : forall line given read m fuel, words line = ratio_tokens given -> Forall2 ratio_read given read ->
  (length given <= fuel)%nat -> read_ratios fuel line m = set_all read m.
Proof. intros line given read m fuel W F L. exact (read_ratios_w given read F fuel line m W L). Qed.
Print Assumptions C33_lines_of_ratios_are_added_in_order.

(** ** C34: a directory that was printed is read back, and is printed identically. *)
Theorem C34_printed_directories_are_read_back : forall x, xsdir_ok x ->
  exists t x', print_xsdir x = Ok t /\ parse_xsdir t = Ok x' /\ same_xsdir x x'.
Proof. exact xsdir_round_trip. Qed.
Print Assumptions C34_printed_directories_are_read_back.
Theorem C34_printing_is_stable : forall x t x', xsdir_ok x -> print_xsdir x = Ok t -> parse_xsdir t = Ok x' -> print_xsdir x' = Ok t.
Proof.
  intros x t x' H P Q. destruct (xsdir_round_trip x H) as (t2 & x2 & P2 & Q2 & S). rewrite P2 in P. apply Ok_inj in P. subst t2. rewrite Q2 in Q. apply Ok_inj in Q. subst x2.
  rewrite (same_xsdir_print _ _ S). exact P2.
Qed.
Print Assumptions C34_printing_is_stable.
(** lookup is preserved *)
Theorem C34_lookup_is_preserved : forall x t x' z e, xsdir_ok x -> print_xsdir x = Ok t -> parse_xsdir t = Ok x' -> xs_entry x z = Ok e ->
  exists e', xs_entry x' z = Ok e' /\ same_entry e e'.
Proof.
  intros x t x' z e H P Q L. destruct (xsdir_round_trip x H) as (t2 & x2 & P2 & Q2 & S). rewrite P2 in P. apply Ok_inj in P. subst t2. rewrite Q2 in Q. apply Ok_inj in Q. subst x2.
  apply C33_entry_is_the_last_one_listed in L as (b & a & E & Z & F). destruct S as (_ & _ & S). rewrite E in S. apply Forall2_app_inv_l in S as (b' & r & Sb & Sr & E').
  inversion Sr as [|? e' ? a' Se Sa]; subst. exists e'. split; [|exact Se]. apply C33_entry_is_the_last_one_listed. exists b', a'. split; [exact E'|]. split; [destruct Se as [-> _]; reflexivity|].
  clear -Sa F. revert F. generalize (x_zaid e). intros z F. induction Sa as [|u v a a' [Hz _] _ IH]; [constructor|]. inversion F; subst. constructor; [rewrite Hz; assumption|apply IH; assumption].
Qed.
Print Assumptions C34_lookup_is_preserved.

(** Findings *)
Definition sample_ratios := Eval vm_compute in
  [(1, num "1.00866492"); (1000, num "0.99931697"); (1001, num "0.99916733"); (1002, num "1.99679968"); (1003, num "2.98959710"); (1004, num "3.99320565"); (1005, num "4.99205575"); (2000, num "3.96821760")].
Definition zero_ratios := Eval vm_compute in [(1, num "0"); (1000, num "0"); (1001, num "0"); (1002, num "0"); (1003, num "0")].
Definition plain_entry := Eval vm_compute in XEntry (txt "1001.80c") (num "0") (txt "xdata/endf80/H/1001.800nc") None 1 4 17969 None None None false.
Definition plain_dir := Eval vm_compute in XSDir (Some (txt "/data/my lib")) zero_ratios [plain_entry; plain_entry; plain_entry].
Definition sample_dir := Eval vm_compute in
  XSDir (Some (txt "/data/my lib")) sample_ratios [sample_entry; long_entry; sample_entry].
(** a directory without entries is written, but reading it is undefined *)
Definition no_entries_text := Eval vm_compute in match print_xsdir (XSDir None zero_ratios []) with Ok t => t | _ => [] end.
Theorem C34_no_entries_refuted : exists t, print_xsdir (XSDir None zero_ratios []) = Ok t /\ parse_xsdir t = UB.
Proof. exists no_entries_text. split; vm_compute; reflexivity. Qed.
Print Assumptions C34_no_entries_refuted.
(** without the newline at its end the last entry of a file is dropped silently *)
Definition dir_text := Eval vm_compute in match print_xsdir plain_dir with Ok t => removelast t | _ => [] end.
Definition dir_read := Eval vm_compute in match parse_xsdir dir_text with Ok x => x | _ => plain_dir end.
Theorem C34_last_entry_without_newline_refuted : exists t x', print_xsdir plain_dir = Ok (t ++ [nl]) /\ parse_xsdir t = Ok x' /\
  length (xs_list plain_dir) = 3%nat /\ length (xs_list x') = 2%nat.
Proof.
  exists dir_text, dir_read.
  split; [vm_compute; reflexivity|]. split; [vm_compute; reflexivity|]. split; vm_compute; reflexivity.
Qed.
Print Assumptions C34_last_entry_without_newline_refuted.

(** ** Examples *)
Ltac a_name := split; [repeat constructor|split; [discriminate|vm_compute; lia]].
Example C31_example : entry_ok sample_entry.
Proof.
  unfold entry_ok, sample_entry. cbn [x_zaid x_awr x_file x_access x_type x_address x_length x_record x_entries x_temp x_ptable].
  split; [a_name|]. split; [reflexivity|]. split; [apply printable_compute; vm_compute; reflexivity|]. split; [vm_compute; lia|]. split; [a_name|]. split; [intros a E; discriminate E|].
  split; [vm_compute; split; [discriminate|reflexivity]|]. split; [vm_compute; split; [discriminate|reflexivity]|]. split; [vm_compute; split; [discriminate|reflexivity]|]. split; [exact I|].
  intros t E. injection E as <-. split; [apply printable_compute; vm_compute; reflexivity|]. split; [vm_compute; discriminate|vm_compute; lia].
Qed.
Example C31_text : print_entry sample_entry = Ok (txt "  1001.80c     0.999167 xdata/endf80/H/1001.800nc 0 1 4 17969 0 0 2.530100e-08" ++ [nl]).
Proof. vm_compute. reflexivity. Qed.
Example C32_example : entry_ok long_entry.
Proof.
  unfold entry_ok, long_entry. cbn [x_zaid x_awr x_file x_access x_type x_address x_length x_record x_entries x_temp x_ptable].
  split; [a_name|]. split; [reflexivity|]. split; [apply printable_compute; vm_compute; reflexivity|]. split; [vm_compute; lia|]. split; [a_name|]. split; [intros a E; injection E as <-; split; [a_name|discriminate]|].
  split; [vm_compute; split; [discriminate|reflexivity]|]. split; [vm_compute; split; [discriminate|reflexivity]|]. split; [vm_compute; split; [discriminate|reflexivity]|]. split; [exact I|].
  intros t E. injection E as <-. split; [apply printable_compute; vm_compute; reflexivity|]. split; [vm_compute; discriminate|vm_compute; lia].
Qed.
Example C33_example : xs_entry sample_dir (txt "1001.80c") = Ok sample_entry /\ xs_ratio sample_dir 1001 = Ok (num "0.99916733") /\ xs_ratio sample_dir 92235 = Throw StdException.
Proof. split; [|split]; vm_compute; reflexivity. Qed.
Example C34_example : xsdir_ok sample_dir.
Proof.
  unfold xsdir_ok, sample_dir. cbn [xs_path xs_ratios xs_list]. split; [intros p E; injection E as <-; split; [not_in_line|split; [discriminate|reflexivity]]|].
  split; [vm_compute; repeat split|]. split; [|split; [discriminate|constructor; [exact C31_example|constructor; [exact C32_example|constructor; [exact C31_example|constructor]]]]].
  repeat (constructor; [split; [vm_compute; split; [discriminate|reflexivity]|split; [apply printable_compute; vm_compute; reflexivity|vm_compute; lia]]|]). constructor.
Qed.
