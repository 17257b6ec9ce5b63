(** C27-C30: tables as text.  [TableTextSpec] says which tables fit the columns of the format
    ([table_ok]) and what "the same table up to the printed decimals" means ([same_table]). *)
From Coq Require Import String.
From Coq Require Import ZArith Bool List Lia Ascii.
From Verif Require Import Base SZA.
From Verif Require Export TableTextProofs.
Import ListNotations.
Open Scope Z_scope.

(** ** C27: a table written to text is read back.

    [rd] is the conversion of numeric fields done by the disco library; nothing is assumed of it but
    [reads_numbers]. *)
Theorem C27_printed_tables_are_read_back : forall rd bm t, reads_numbers rd -> table_ok t ->
  exists text t', print_table bm t = Ok text /\
    (forall rest, parse_table rd (text ++ rest) = Ok (t', rest)) /\ same_table t t'.
Proof. exact table_round_trip. Qed.
Print Assumptions C27_printed_tables_are_read_back.

(** NXS(1) of the table that is read is the number of XSS values. *)
Theorem C27_nxs1_is_the_number_of_values : forall rd bm t text t' rest rest', reads_numbers rd -> table_ok t ->
  print_table bm t = Ok text -> parse_table rd (text ++ rest) = Ok (t', rest') -> d_NXS bm (snd t') 1 = Ok (len (d_xss (snd t'))).
Proof.
  intros rd bm t text t' rest rest' R H P Q. destruct (table_round_trip rd bm t R H) as (text2 & t2 & P2 & Q2 & S). rewrite P2 in P. apply Ok_inj in P. subst text2.
  rewrite Q2 in Q. apply Ok_inj in Q. apply pair_equal_spec in Q as [<- _]. destruct S as [_ (_ & _ & S3 & _ & S5 & _)].
  unfold d_NXS. rewrite S5. apply (fetch_in bm _ 0%nat). - rewrite S3. reflexivity.
  - rewrite S3. destruct H as [_ ((_ & _ & W & _) & _)]. unfold len in *. cbn [length]. destruct (d_nxs (snd t)); cbn [tl length] in *; lia.
Qed.
Print Assumptions C27_nxs1_is_the_number_of_values.

(** The correctly rounded conversion (strtod) is such a reader. *)
Theorem C27_correct_rounding_reads_numbers : reads_numbers read_double.
Proof. exact read_double_reads. Qed.
Print Assumptions C27_correct_rounding_reads_numbers.

(** ** C28: printing the table that was read gives the same text. *)
Theorem C28_printing_is_stable : forall rd bm t text t' rest rest', reads_numbers rd -> table_ok t ->
  print_table bm t = Ok text -> parse_table rd (text ++ rest) = Ok (t', rest') -> rest' = rest /\ print_table bm t' = Ok text.
Proof.
  intros rd bm t text t' rest rest' R H P Q. destruct (table_round_trip rd bm t R H) as (text2 & t2 & P2 & Q2 & S). rewrite P2 in P. apply Ok_inj in P. subst text2.
  rewrite Q2 in Q. apply Ok_inj in Q. apply pair_equal_spec in Q as [<- <-]. split; [reflexivity|]. exact (print_table_same bm t t2 text H S P2).
Qed.
Print Assumptions C28_printing_is_stable.

(** ** C29: concatenated files. *)
Theorem C29_concatenated_tables_are_split : forall rd bm ts, reads_numbers rd -> Forall table_ok ts ->
  exists texts ts', Forall2 (fun t text => print_table bm t = Ok text) ts texts /\
    from_concatenated rd (concat texts) = Ok ts' /\ Forall2 same_table ts ts'.
Proof.
  intros rd bm ts R H. destruct (parse_tables_texts rd bm ts R H) as (texts & ts' & P & S & Q). exists texts, ts'. split; [exact P|]. split; [|exact S].
  apply Q. apply le_n.
Qed.
Print Assumptions C29_concatenated_tables_are_split.
Theorem C29_a_file_with_one_table : forall rd bm t, reads_numbers rd -> table_ok t ->
  exists text t', print_table bm t = Ok text /\ from_content rd text = Ok t' /\ same_table t t'.
Proof.
  intros rd bm t R H. destruct (table_round_trip rd bm t R H) as (text & t' & P & Q & S). exists text, t'. split; [exact P|]. split; [|exact S].
  unfold from_content. specialize (Q []). rewrite app_nil_r in Q. rewrite Q. reflexivity.
Qed.
Print Assumptions C29_a_file_with_one_table.

(** ** C30: header strings. *)
Theorem C30_left_and_right_have_the_length : forall s n, length (left s n) = n /\ forall t, right s n = Ok t -> length t = n.
Proof.
  intros s n. split; [apply length_left|]. intros t H. unfold right in H. destruct (Nat.leb_spec (length s) n) as [L|L]; [|discriminate H].
  apply Ok_inj in H. subst t. rewrite app_length, skipn_length, firstn_length, length_left. lia.
Qed.
Print Assumptions C30_left_and_right_have_the_length.
Theorem C30_fitting_strings_are_only_padded : forall s n, (length s <= n)%nat ->
  left s n = s ++ repeat sp (n - length s) /\ right s n = Ok (repeat sp (n - length s) ++ s).
Proof. intros s n L. split; [apply left_fits|apply right_fits]; exact L. Qed.
Print Assumptions C30_fitting_strings_are_only_padded.
Theorem C30_stripping_undoes_padding : forall s n, (length s <= n)%nat ->
  strip (left s n) = strip s /\ forall t, right s n = Ok t -> strip t = strip s.
Proof.
  intros s n L. split.
  - rewrite left_fits by exact L. unfold strip. destruct (skip_spaces_shape s) as (a & E & Fa & C). rewrite E at 1. rewrite <- app_assoc, skip_spaces_app by exact Fa.
    destruct C as [C|(c & r & C & Hc)].
    + rewrite C. cbn [app]. rewrite <- (app_nil_r (blanks _)), skip_spaces_app by apply blanks_space. reflexivity.
    + rewrite C. cbn [app]. rewrite skip_spaces_head by exact Hc. change (c :: r ++ blanks (n - length s)) with ((c :: r) ++ blanks (n - length s)). apply rstrip_app, blanks_space.
  - intros t H. rewrite right_fits in H by exact L. apply Ok_inj in H. subst t. unfold strip. rewrite skip_spaces_app by apply blanks_space. reflexivity.
Qed.
Print Assumptions C30_stripping_undoes_padding.
(** the result of stripping has no blank at either end and loses only blanks *)
Theorem C30_strip_removes_only_outer_white_space : forall s, exists a b, s = a ++ strip s ++ b /\
  Forall (fun c => is_space c = true) a /\ Forall (fun c => is_space c = true) b /\ stripped (strip s) /\ strip (strip s) = strip s.
Proof.
  intros s. destruct (skip_spaces_shape s) as (a & Ea & Fa & _). destruct (rstrip_shape (skip_spaces s)) as (b & Eb & Fb & _). exists a, b.
  split; [unfold strip; rewrite <- Eb; exact Ea|]. split; [exact Fa|]. split; [exact Fb|]. split; [apply stripped_strip|apply strip_stripped, stripped_strip].
Qed.
Print Assumptions C30_strip_removes_only_outer_white_space.
(** the white space that is removed: the horizontal tab, newline, vertical tab, form feed, carriage return and blank of the C locale *)
Definition white_space : list ascii := ["009"; "010"; "011"; "012"; "013"; "032"]%char.
Theorem C30_strip_removes_all_white_space : forall a s b, Forall (fun c => In c white_space) a -> Forall (fun c => In c white_space) b ->
  (s = [] \/ (exists c r, s = c :: r /\ ~ In c white_space) /\ (exists r c, s = r ++ [c] /\ ~ In c white_space)) -> strip (a ++ s ++ b) = s.
Proof.
  assert (W : forall c, In c white_space <-> is_space c = true).
  { intros c. split; [intros H; cbn [white_space In] in H; repeat (destruct H as [<-|H]; [reflexivity|]); destruct H|].
    destruct c as [[] [] [] [] [] [] [] []]; cbv; intros H; try discriminate H; tauto. }
  intros a s b Ha Hb Hs. apply strip_pad.
  - revert Ha. apply Forall_impl. intros c. apply W.
  - revert Hb. apply Forall_impl. intros c. apply W.
  - destruct Hs as [Hs|((c & r & E & N) & (r' & c' & E' & N'))]; [left; exact Hs|right]. rewrite W in N, N'. apply not_true_is_false in N, N'. eauto 8.
Qed.
Print Assumptions C30_strip_removes_all_white_space.
Example C30_strip_white_space_example : strip (["009"; "012"]%char ++ ["a"; " "; "b"]%char ++ ["013"; "010"]%char) = ["a"; " "; "b"]%char.
Proof. reflexivity. Qed.
Theorem C30_left_cuts_long_strings : forall s n, (n <= length s)%nat -> left s n = firstn n s.
Proof. intros s n L. unfold left. replace (n - length s)%nat with 0%nat by lia. apply app_nil_r. Qed.
Print Assumptions C30_left_cuts_long_strings.
(** Finding: a string that is longer than its column is undefined behaviour (std::rotate with a pivot
    past the end), and nothing prevents a header from holding one: *)
Theorem C30_long_strings_on_the_right_refuted : forall s n, (n < length s)%nat -> right s n = UB.
Proof. exact right_too_long. Qed.
Print Assumptions C30_long_strings_on_the_right_refuted.
Theorem C30_printing_a_long_identifier_refuted : exists h, h = make_header (txt "1001.80c.long") (num "1") (num "2.53e-8") (txt "01/01/2020") (txt "title") (txt "mat125") /\ print_header h = UB.
Proof. eexists. split; [reflexivity|]. vm_compute. reflexivity. Qed.
Print Assumptions C30_printing_a_long_identifier_refuted.

(** ** Tables outside [table_ok] that are printed but not read back *)
Definition sample_data := Eval vm_compute in
  TData (repeat 0 16) (repeat (num "0") 16) (5 :: 1001 :: repeat 0 14) (repeat 1 32)
        [num "1.5"; num "-2.25e-11"; num "0"; num "3.14159265358979"; num "20"].
Definition zero_data := Eval vm_compute in TData (repeat 0 16) (repeat (num "0") 16) (5 :: 1001 :: repeat 0 14) (repeat 1 32) (repeat (num "0") 5).
Definition zero_header := Eval vm_compute in Header1 (txt "1001.80c") (num "0") (num "0") (txt "01/02/2020") (txt "H1 ENDF/B-VIII.0") (txt "mat 125").
Definition zero_201 := Eval vm_compute in Header201 (txt "2.0.1") (txt "1001.710nc") (txt "ENDFB-VII.1") (num "0") (num "0") (txt "2013-05-29") [txt "first comment"; []; txt "  indented"].
Definition sample_header := Eval vm_compute in Header1 (txt "1001.80c") (num "0.999167") (num "2.5301e-8") (txt "01/02/2020") (txt "H1 ENDF/B-VIII.0") (txt "mat 125").
Definition sample_201 := Eval vm_compute in Header201 (txt "2.0.1") (txt "1001.710nc") (txt "ENDFB-VII.1") (num "0.999167") (num "2.5301e-8") (txt "2013-05-29") [txt "first comment"; []; txt "  indented"].

(** a blank in the date of a 2.0.1 header: the rest of the date is taken for the number of comments *)
Theorem C27_blank_in_the_date_refuted : exists g t, print_header201 g = Ok t /\
  (forall c, parse_header201 read_double t = Ok c -> g_date (fst c) <> g_date g) /\
  g = Header201 (txt "2.0.1") (txt "1001.710nc") (txt "src") (num "0") (num "0") (txt "1 May 13") [].
Proof. eexists. eexists. split; [|split; [|reflexivity]]. - vm_compute. reflexivity. - vm_compute. discriminate. Qed.
Print Assumptions C27_blank_in_the_date_refuted.
(** comments of more than 80 characters are cut *)
Definition long_comments := Eval vm_compute in
  match print_header201 (Header201 (txt "2.0.1") (txt "1001.710nc") (txt "src") (num "0") (num "0") (txt "1/1/13") [repeat "x"%char 81]) with Ok t => t | _ => [] end.
Theorem C27_long_comments_refuted : exists g t c, g_comments g = [repeat "x"%char 81] /\ print_header201 g = Ok t /\
  parse_header201 read_double t = Ok (c, []) /\ g_comments c = [repeat "x"%char 80].
Proof.
  exists (Header201 (txt "2.0.1") (txt "1001.710nc") (txt "src") (num "0") (num "0") (txt "1/1/13") [repeat "x"%char 81]).
  exists long_comments.
  exists (Header201 (txt "2.0.1") (txt "1001.710nc") (txt "src") (num "0") (num "0") (txt "1/1/13") [repeat "x"%char 80]).
  split; [reflexivity|]. split; [vm_compute; reflexivity|]. split; vm_compute; reflexivity.
Qed.
Print Assumptions C27_long_comments_refuted.
(** an original header whose identifier starts with the word 2.0.1 is taken for a 2.0.1 header *)
Definition version_table := Eval vm_compute in
  match print_table Release (Legacy (Header1 (txt "2.0.1") (num "0") (num "0") (txt "01/01/20") (txt "title") (txt "mat")), zero_data) with Ok t => t | _ => [] end.
Theorem C27_identifier_like_a_version_refuted : exists t text, fst t = Legacy (Header1 (txt "2.0.1") (num "0") (num "0") (txt "01/01/20") (txt "title") (txt "mat")) /\
  print_table Release t = Ok text /\ parse_table read_double text = UB.
Proof. exists (Legacy (Header1 (txt "2.0.1") (num "0") (num "0") (txt "01/01/20") (txt "title") (txt "mat")), zero_data).
  exists version_table.
  split; [reflexivity|]. split; vm_compute; reflexivity. Qed.
Print Assumptions C27_identifier_like_a_version_refuted.

(** ** Examples: the hypotheses are met, and the texts are the expected ones *)
Lemma printable_compute x : (valid_binary 53 1024 x && match x with S754_zero _ | S754_finite _ _ _ => true | _ => false end && (units x <=? 10 ^ 308 * dunit) && ((units x =? 0) || (dunit <=? units x * 10 ^ 307))) = true -> printable x.
Proof.
  intros H. apply andb_prop in H as [H H4]. apply andb_prop in H as [H H3]. apply andb_prop in H as [H1 H2].
  split; [exact H1|]. split; [destruct x; try discriminate; exact I|]. split; [apply Zle_bool_imp_le; exact H3|].
  apply orb_prop in H4 as [H4|H4]; [left; apply Z.eqb_eq; exact H4|right; apply Zle_bool_imp_le; exact H4].
Qed.
Ltac not_in_line := intros N; repeat (destruct N as [N|N]; [discriminate N|]); exact N.
Ltac column := split; [right; split; [eexists; eexists; split; reflexivity|let s := match goal with |- exists r c, ?s = _ /\ _ => s end in
    let l := eval vm_compute in (removelast s) in let c := eval vm_compute in (last s " "%char) in exists l, c; split; reflexivity]|split; [not_in_line|vm_compute; lia]].
Example sample_data_ok : data_ok sample_data.
Proof.
  split; [vm_compute; repeat split|]. unfold sample_data. cbn [d_iz d_aw d_nxs d_jxs d_xss tl]. split; [repeat (constructor; [vm_compute; lia|]); constructor|]. split; [repeat (constructor; [split; [apply printable_compute; vm_compute; reflexivity|vm_compute; lia]|]); constructor|].
  split; [repeat (constructor; [vm_compute; lia|]); constructor|]. split; [repeat (constructor; [vm_compute; lia|]); constructor|].
  split; [reflexivity|]. repeat (constructor; [apply printable_compute; vm_compute; reflexivity|]). constructor.
Qed.
Example C27_example : table_ok (Legacy sample_header, sample_data).
Proof.
  split; [|exact sample_data_ok]. cbn [fst]. unfold header_ok, sample_header. cbn [h_zaid h_awr h_temp h_date h_title h_material].
  split; [column|]. split; [intros [E|E]; vm_compute in E; discriminate E|]. split; [split; [apply printable_compute; vm_compute; reflexivity|vm_compute; reflexivity]|]. split; [vm_compute; lia|].
  split; [split; [apply printable_compute; vm_compute; reflexivity|vm_compute; reflexivity]|]. split; [column|]. split; column.
Qed.
Example C27_example_201 : table_ok (Modern sample_201, sample_data).
Proof.
  split; [|exact sample_data_ok]. cbn [fst]. unfold header201_ok, sample_201. cbn [g_vers g_szaid g_src g_awr g_temp g_date g_comments].
  split; [right; reflexivity|]. split; [column|]. split; [column|]. split; [split; [apply printable_compute; vm_compute; reflexivity|vm_compute; reflexivity]|]. split; [vm_compute; lia|].
  split; [split; [apply printable_compute; vm_compute; reflexivity|vm_compute; reflexivity]|]. split; [repeat constructor|]. split; [discriminate|]. split; [vm_compute; lia|].
  split; [reflexivity|]. repeat (constructor; [split; [not_in_line|split; [vm_compute; lia|reflexivity]]|]). constructor.
Qed.
Example C28_example : print_header sample_header = Ok (txt "  1001.80c    0.999167  2.5301E-08 01/02/2020" ++ nl ::
  left (txt "H1 ENDF/B-VIII.0") 70 ++ txt "   mat 125" ++ [nl]).
Proof. vm_compute. reflexivity. Qed.
Example C28_example_xss : print_xss [num "1.5"; num "-20"; num "0"; num "0"; num "0"] = Ok (
  txt "  1.500000000000E+00 -2.000000000000E+01  0.000000000000E+00  0.000000000000E+00" ++ nl :: txt "  0.000000000000E+00" ++ [nl]).
Proof. vm_compute. reflexivity. Qed.
Example C29_example : match print_table Release (Legacy zero_header, zero_data), print_table Release (Modern zero_201, zero_data) with
  | Ok a, Ok b => match from_concatenated read_double (a ++ b ++ a) with Ok l => map (fun t => match fst t with Legacy h => h_zaid h | Modern g => g_szaid g end) l | _ => [] end
  | _, _ => [] end = [txt "1001.80c"; txt "1001.710nc"; txt "1001.80c"].
Proof. vm_compute. reflexivity. Qed.
Example C30_example : left (txt "abc") 5 = txt "abc  " /\ right (txt "abc") 5 = Ok (txt "  abc") /\ strip (txt "  a b ") = txt "a b".
Proof. repeat split. Qed.
