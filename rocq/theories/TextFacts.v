(** Facts about text: stripping, padding, fields and streams. *)
From Coq Require Import ZArith Bool List Lia Ascii.
From Coq Require Import ZifyBool ZifyNat.
From Verif Require Import Base SZA.
From Verif Require Export DecimalStable Text.
Import ListNotations.
Open Scope Z_scope.

Definition word (s : text) : Prop := Forall (fun c => is_space c = false) s.
Definition one_line (s : text) : Prop := ~ In nl s.

(** * Stripping *)
Lemma blanks_space n : Forall (fun c => is_space c = true) (blanks n).
Proof. unfold blanks. induction n; cbn [repeat]; constructor; [reflexivity|assumption]. Qed.
Lemma length_blanks n : length (blanks n) = n.
Proof. apply repeat_length. Qed.
Lemma skip_spaces_app a s : Forall (fun c => is_space c = true) a -> skip_spaces (a ++ s) = skip_spaces s.
Proof. induction 1 as [|c r Hc _ IH]; [reflexivity|]. cbn [app skip_spaces]. rewrite Hc. exact IH. Qed.
Lemma skip_spaces_head c s : is_space c = false -> skip_spaces (c :: s) = c :: s.
Proof. intros H. cbn [skip_spaces]. rewrite H. reflexivity. Qed.
Lemma skip_spaces_shape s : exists a, s = a ++ skip_spaces s /\ Forall (fun c => is_space c = true) a /\ (skip_spaces s = [] \/ exists c r, skip_spaces s = c :: r /\ is_space c = false).
Proof.
  induction s as [|c r IH]; [exists []; repeat split; [constructor|left; reflexivity]|]. cbn [skip_spaces]. destruct (is_space c) eqn:E.
  - destruct IH as (a & Ha & Fa & Ca). exists (c :: a). split; [cbn [app]; congruence|]. split; [constructor; assumption|exact Ca].
  - exists []. split; [reflexivity|]. split; [constructor|]. right. exists c, r. split; [reflexivity|exact E].
Qed.
Lemma rstrip_app s b : Forall (fun c => is_space c = true) b -> rstrip (s ++ b) = rstrip s.
Proof. intros H. unfold rstrip. rewrite rev_app_distr. rewrite skip_spaces_app; [reflexivity|]. apply Forall_rev. exact H. Qed.
Lemma rstrip_last s c : is_space c = false -> rstrip (s ++ [c]) = s ++ [c].
Proof. intros H. unfold rstrip. rewrite rev_app_distr. cbn [rev app]. rewrite skip_spaces_head by exact H. cbn [rev]. rewrite rev_involutive. reflexivity. Qed.
Lemma rstrip_shape s : exists b, s = rstrip s ++ b /\ Forall (fun c => is_space c = true) b /\ (rstrip s = [] \/ exists r c, rstrip s = r ++ [c] /\ is_space c = false).
Proof.
  unfold rstrip. destruct (skip_spaces_shape (rev s)) as (a & Ha & Fa & C). exists (rev a). split.
  { rewrite <- rev_app_distr, <- Ha, rev_involutive. reflexivity. }
  split; [apply Forall_rev; exact Fa|]. destruct C as [-> | (c & r & -> & Hc)]; [left; reflexivity|]. right. exists (rev r), c. split; [reflexivity|exact Hc].
Qed.

(** stripped: no white space at either end *)
Definition stripped (s : text) : Prop := s = [] \/ ((exists c r, s = c :: r /\ is_space c = false) /\ (exists r c, s = r ++ [c] /\ is_space c = false)).
Lemma strip_stripped s : stripped s -> strip s = s.
Proof.
  intros [->|[(c & r & E & Hc) (r' & c' & E' & Hc')]]; [reflexivity|]. unfold strip.
  rewrite E, skip_spaces_head by exact Hc. rewrite <- E, E'. apply rstrip_last. exact Hc'.
Qed.
Lemma stripped_strip s : stripped (strip s).
Proof.
  unfold strip. destruct (skip_spaces_shape s) as (a & _ & _ & [E|(c & r & E & Hc)]); [left; rewrite E; reflexivity|].
  destruct (rstrip_shape (skip_spaces s)) as (b & Hb & Fb & C). rewrite E in *. destruct C as [C|(r' & c' & C & Hc')].
  - left. exact C.
  - right. split; [|exists r', c'; split; assumption]. rewrite C in Hb |- *. destruct r' as [|d r']; cbn [app] in *.
    + exists c', []. split; [reflexivity|exact Hc'].
    + exists d, (r' ++ [c']). split; [reflexivity|]. congruence.
Qed.
Lemma strip_pad a s b : Forall (fun c => is_space c = true) a -> Forall (fun c => is_space c = true) b -> stripped s -> strip (a ++ s ++ b) = s.
Proof.
  intros Ha Hb [->|[(c & r & E & Hc) (r' & c' & E' & Hc')]]; unfold strip; rewrite skip_spaces_app by exact Ha.
  - cbn [app]. rewrite <- (app_nil_r b), skip_spaces_app by exact Hb. reflexivity.
  - rewrite E at 1. cbn [app]. rewrite skip_spaces_head by exact Hc. change (c :: r ++ b) with ((c :: r) ++ b). rewrite <- E. rewrite rstrip_app by exact Hb.
    rewrite E' . apply rstrip_last. exact Hc'.
Qed.
Lemma word_stripped s : word s -> stripped s.
Proof.
  intros W. destruct s as [|c r]; [left; reflexivity|]. right. split.
  - exists c, r. split; [reflexivity|]. inversion W; assumption.
  - destruct (@exists_last _ (c :: r) ltac:(discriminate)) as (r' & c' & E). exists r', c'. split; [exact E|]. rewrite E in W. apply Forall_app in W as [_ W]. inversion W; assumption.
Qed.
Lemma word_one_line s : word s -> one_line s.
Proof. intros W I. unfold word in W. rewrite Forall_forall in W. specialize (W _ I). discriminate. Qed.
Lemma blanks_one_line n : one_line (blanks n).
Proof. unfold one_line, blanks. intros I. apply repeat_spec in I. discriminate. Qed.
Lemma one_line_app a b : one_line a -> one_line b -> one_line (a ++ b).
Proof. unfold one_line. intros A B I. apply in_app_or in I. tauto. Qed.
Lemma one_line_firstn n s : one_line s -> one_line (firstn n s).
Proof. unfold one_line. intros A I. apply A. rewrite <- (firstn_skipn n s). apply in_or_app. left. exact I. Qed.

(** * left and right *)
Lemma length_left s n : length (left s n) = n.
Proof. unfold left. rewrite app_length, firstn_length, length_blanks. lia. Qed.
Lemma left_fits s n : (length s <= n)%nat -> left s n = s ++ blanks (n - length s).
Proof. intros H. unfold left. rewrite firstn_all2 by exact H. reflexivity. Qed.
Lemma right_fits s n : (length s <= n)%nat -> right s n = Ok (blanks (n - length s) ++ s).
Proof.
  intros H. unfold right. destruct (Nat.leb_spec (length s) n); [|lia]. rewrite left_fits by exact H.
  rewrite skipn_app, skipn_all, Nat.sub_diag, firstn_app, firstn_all, Nat.sub_diag. cbn [skipn firstn app]. rewrite app_nil_r. reflexivity.
Qed.
Lemma right_too_long s n : (n < length s)%nat -> right s n = UB.
Proof. intros H. unfold right. destruct (Nat.leb_spec (length s) n); [lia|reflexivity]. Qed.
Lemma strip_left s n : (length s <= n)%nat -> stripped s -> strip (left s n) = s.
Proof. intros L S. rewrite left_fits by exact L. apply (strip_pad []); [constructor|apply blanks_space|exact S]. Qed.
Lemma strip_right s n r : (length s <= n)%nat -> stripped s -> right s n = Ok r -> strip r = s.
Proof. intros L S E. rewrite right_fits in E by exact L. apply Ok_inj in E. subst r. rewrite <- (app_nil_r s) at 2. apply strip_pad; [apply blanks_space|constructor|exact S]. Qed.

(** * Fields *)
Lemma take_field_exact f : forall w r, length f = w -> one_line f -> take_field w (f ++ r) = (f, r).
Proof.
  induction f as [|c f IH]; intros w r L O; destruct w as [|w]; cbn [length] in L; try lia; [destruct r; reflexivity|].
  cbn [app take_field]. destruct (Ascii.eqb_spec c nl) as [->|N]; [exfalso; apply O; left; reflexivity|].
  rewrite IH by (try lia; intros I; apply O; right; exact I). reflexivity.
Qed.
Lemma take_field_line f : forall w r, (length f <= w)%nat -> one_line f -> take_field w (f ++ nl :: r) = (f, nl :: r).
Proof.
  induction f as [|c f IH]; intros w r L O.
  - destruct w; reflexivity.
  - destruct w as [|w]; cbn [length] in L; [lia|]. cbn [app take_field]. destruct (Ascii.eqb_spec c nl) as [->|N]; [exfalso; apply O; left; reflexivity|].
    rewrite IH by (try lia; intros I; apply O; right; exact I). reflexivity.
Qed.
Lemma r_eol_line f r : one_line f -> r_eol (f ++ nl :: r) = r.
Proof. induction f as [|c f IH]; intros O; [reflexivity|]. cbn [app r_eol]. destruct (Ascii.eqb_spec c nl) as [->|N]; [exfalso; apply O; left; reflexivity|]. apply IH. intros I. apply O. right. exact I. Qed.
Lemma r_chr_exact w f r : length f = w -> one_line f -> r_chr w (f ++ r) = (f, r).
Proof. intros L O. unfold r_chr. rewrite take_field_exact by assumption. rewrite L, Nat.sub_diag. cbn. rewrite app_nil_r. reflexivity. Qed.
Lemma length_rjust w s : (length s <= w)%nat -> length (rjust w s) = w.
Proof. intros H. unfold rjust. rewrite app_length, length_blanks. lia. Qed.
Lemma rjust_one_line w s : word s -> one_line (rjust w s).
Proof. intros W. apply one_line_app; [apply blanks_one_line|apply word_one_line; exact W]. Qed.
Lemma strip_rjust w s : word s -> strip (rjust w s) = s.
Proof. intros W. unfold rjust. rewrite <- (app_nil_r s) at 2. apply strip_pad; [apply blanks_space|constructor|apply word_stripped; exact W]. Qed.

(** * Number texts are words *)
Lemma digit_is_word c : is_digit c = true -> is_space c = false.
Proof. unfold is_digit. intros H. destruct (digit_of c) eqn:E; [|discriminate]. apply digit_not_space. congruence. Qed.
Lemma digits_word s : Forall (fun c => is_digit c = true) s -> word s.
Proof. apply Forall_impl. apply digit_is_word. Qed.
Lemma sign_word s : word (sign_text s).
Proof. destruct s; repeat constructor. Qed.
Lemma word_app a b : word a -> word b -> word (a ++ b).
Proof. intros A B. apply Forall_app. split; assumption. Qed.
Lemma word_cons c b : is_space c = false -> word b -> word (c :: b).
Proof. intros A B. constructor; assumption. Qed.
Lemma show_nat_word n : word (show_nat n).
Proof. apply digits_word, show_nat_digits. Qed.
Lemma show_Z_word n : word (show_Z n).
Proof. unfold show_Z. destruct (n <? 0); [apply word_cons; [reflexivity|]|]; apply show_nat_word. Qed.
Lemma decimals_word p q : word (show_decimals p q).
Proof. apply word_app; [apply show_nat_word|]. apply word_cons; [reflexivity|]. apply digits_word, show_pad_digits. Qed.
Lemma show_fixed_word p x : word (show_fixed p x).
Proof. destruct x as [s|s| |s m e]; cbn [show_fixed]; try (apply word_app; [apply sign_word|]); try apply decimals_word; repeat constructor. Qed.
Lemma scientific_word E p q k : is_space E = false -> word (show_scientific E p q k).
Proof.
  intros HE. apply word_app; [apply decimals_word|]. apply word_cons; [exact HE|]. apply word_cons; [destruct (k <? 0); reflexivity|]. apply digits_word, show_pad_digits.
Qed.
Lemma show_sci_word E p x : is_space E = false -> word (show_sci E p x).
Proof.
  intros HE. destruct x as [s|s| |s m e]; cbn [show_sci]; try (apply word_app; [apply sign_word|]); try apply scientific_word; try exact HE; repeat constructor.
  destruct (sci_dec p (magnitude m e)). apply word_app; [apply sign_word|apply scientific_word; exact HE].
Qed.

(** * Reading fields back *)
Lemma forallb_digits s : Forall (fun c => is_digit c = true) s -> forallb is_digit s = true.
Proof. intros H. apply forallb_forall. rewrite Forall_forall in H. exact H. Qed.
Lemma read_int_show n : read_int (show_Z n) = Some n.
Proof.
  unfold show_Z. destruct (Z.ltb_spec n 0) as [L|L]; unfold read_int.
  - cbn [read_sign]. destruct (show_nat (- n)) as [|c r] eqn:E; [exfalso; exact (show_nat_nonempty _ E)|]. rewrite <- E, forallb_digits by apply show_nat_digits.
    rewrite show_nat_value by lia. f_equal. lia.
  - pose proof (read_sign_text false (show_nat n)) as R. cbn [sign_text app] in R. rewrite R.
    + destruct (show_nat n) as [|c r] eqn:E; [exfalso; exact (show_nat_nonempty _ E)|]. rewrite <- E, forallb_digits by apply show_nat_digits.
      rewrite show_nat_value by lia. reflexivity.
    + pose proof (head_digit (show_nat n) [] (show_nat_digits n) (show_nat_nonempty n)) as H. rewrite app_nil_r in H. exact H.
Qed.
Lemma r_int_w w n r : (length (show_Z n) <= w)%nat -> r_int w (w_int w n ++ r) = Ok (n, r).
Proof.
  intros L. unfold r_int, w_int. rewrite take_field_exact by (try apply length_rjust; try apply rjust_one_line; try apply show_Z_word; exact L).
  rewrite strip_rjust by apply show_Z_word. rewrite read_int_show. reflexivity.
Qed.
Lemma r_real_w rd w t y r : (length t <= w)%nat -> word t -> rd t = Some y -> r_real rd w (rjust w t ++ r) = Ok (y, r).
Proof.
  intros L W R. unfold r_real. rewrite take_field_exact by (try apply length_rjust; try apply rjust_one_line; assumption).
  rewrite strip_rjust by exact W. rewrite R. reflexivity.
Qed.
Lemma r_col_blanks n r : r_col n (blanks n ++ r) = r.
Proof. unfold r_col. rewrite take_field_exact; [reflexivity|apply length_blanks|apply blanks_one_line]. Qed.

(** * Streams *)
Lemma get_word_w a w r : Forall (fun c => is_space c = true) a -> word w -> w <> [] -> (match r with c :: _ => is_space c = true | [] => True end) ->
  get_word (a ++ w ++ r) = Some (w, r).
Proof.
  intros Ha Hw N Hr. unfold get_word. rewrite skip_spaces_app by exact Ha. destruct w as [|c w]; [congruence|].
  cbn [app]. inversion Hw as [|? ? Hc Hw']; subst. rewrite skip_spaces_head by exact Hc. change (c :: w ++ r) with ((c :: w) ++ r).
  rewrite span_stop; [reflexivity| |].
  - eapply Forall_impl; [|exact Hw]. intros d Hd. unfold is_word. rewrite Hd. reflexivity.
  - destruct r as [|d r]; [exact I|]. unfold is_word. rewrite Hr. reflexivity.
Qed.
Lemma scan_sign_text s r : (match r with c :: _ => is_digit c = true | [] => True end) -> scan_sign (sign_text s ++ r) = (sign_text s, r).
Proof.
  destruct s; [reflexivity|]. cbn [sign_text app]. destruct r as [|c r]; [reflexivity|]. intros H.
  destruct c as [[] [] [] [] [] [] [] []]; try reflexivity; discriminate H.
Qed.
Definition ends_number (r : text) : Prop := match r with c :: _ => is_space c = true | [] => True end.
Lemma ends_digit r : ends_number r -> match r with c :: _ => is_digit c = false | [] => True end.
Proof. destruct r as [|c r]; [trivial|]. cbn [ends_number]. intros H. destruct (is_digit c) eqn:E; [|reflexivity]. apply digit_is_word in E. congruence. Qed.
Lemma is_space_not_e r : ends_number r -> match r with "e"%char :: _ | "E"%char :: _ | "."%char :: _ => False | _ => True end.
Proof. destruct r as [|c r]; [trivial|]. cbn. intros H. destruct c as [[] [] [] [] [] [] [] []]; try exact I; discriminate H. Qed.

Lemma scan_decimals s p q r : ends_number r -> scan_float ((sign_text s ++ show_decimals p q) ++ r) = (sign_text s ++ show_decimals p q, r).
Proof.
  intros Hr. unfold scan_float, show_decimals. rewrite <- !app_assoc. rewrite scan_sign_text by (apply head_digit; [apply show_nat_digits|apply show_nat_nonempty]).
  cbn [app]. rewrite span_stop by (try apply show_nat_digits; reflexivity). rewrite span_stop by (try apply show_pad_digits; apply ends_digit; exact Hr).
  pose proof (is_space_not_e r Hr) as Ne.
  destruct (show_nat (q / 10 ^ Z.of_nat p)) as [|c l] eqn:E; [exfalso; exact (show_nat_nonempty _ E)|]. cbn [app].
  destruct r as [|d r]; [reflexivity|]. destruct d as [[] [] [] [] [] [] [] []]; try reflexivity; contradiction.
Qed.
Lemma scan_scientific s E p q k r : E = "e"%char \/ E = "E"%char -> ends_number r ->
  scan_float ((sign_text s ++ show_scientific E p q k) ++ r) = (sign_text s ++ show_scientific E p q k, r).
Proof.
  intros HE Hr. unfold scan_float, show_scientific, show_decimals. rewrite <- !app_assoc. rewrite scan_sign_text by (apply head_digit; [apply show_nat_digits|apply show_nat_nonempty]).
  cbn [app]. rewrite span_stop by (try apply show_nat_digits; reflexivity). rewrite <- ?app_assoc. cbn [app]. rewrite span_stop by (try apply show_pad_digits; destruct HE as [->| ->]; reflexivity).
  destruct (show_nat (q / 10 ^ Z.of_nat p)) as [|c l] eqn:E'; [exfalso; exact (show_nat_nonempty _ E')|]. cbn [app].
  assert (X : forall e, (let '(s2, r') := scan_sign (show_exponent k ++ r) in let '(d, r') := span is_digit r' in
     (sign_text s ++ (c :: l ++ "."%char :: show_pad p (q mod 10 ^ Z.of_nat p)) ++ e :: s2 ++ d, r')) =
     (sign_text s ++ (c :: l ++ "."%char :: show_pad p (q mod 10 ^ Z.of_nat p)) ++ e :: show_exponent k, r)).
  { intros e. unfold show_exponent. destruct (k <? 0); cbn [app scan_sign]; rewrite span_stop by (try apply show_pad_digits; apply ends_digit; exact Hr); reflexivity. }
  destruct HE as [->| ->].
  - specialize (X "e"%char). destruct (scan_sign (show_exponent k ++ r)) as [s2 r']. destruct (span is_digit r') as [d r''].
    apply pair_equal_spec in X as [X1 X2]. subst r''. f_equal. rewrite <- ?app_assoc in *. cbn [app] in *. rewrite <- ?app_assoc in *. cbn [app] in *. exact X1.
  - specialize (X "E"%char). destruct (scan_sign (show_exponent k ++ r)) as [s2 r']. destruct (span is_digit r') as [d r''].
    apply pair_equal_spec in X as [X1 X2]. subst r''. f_equal. rewrite <- ?app_assoc in *. cbn [app] in *. rewrite <- ?app_assoc in *. cbn [app] in *. exact X1.
Qed.

Lemma get_fixed a p x r y : finite x -> Forall (fun c => is_space c = true) a -> ends_number r -> read_double (show_fixed p x) = Some y ->
  get_double (a ++ show_fixed p x ++ r) = Some (y, r).
Proof.
  intros F Ha Hr E. unfold get_double. rewrite skip_spaces_app by exact Ha. rewrite show_fixed_eq in * by exact F.
  assert (NS : skip_spaces ((sign_text (negative x) ++ show_decimals p (fixed_digits p (units x))) ++ r) = (sign_text (negative x) ++ show_decimals p (fixed_digits p (units x))) ++ r).
  { pose proof (word_app _ _ (sign_word (negative x)) (decimals_word p (fixed_digits p (units x)))) as W.
    destruct (sign_text (negative x) ++ show_decimals p (fixed_digits p (units x))) as [|c l] eqn:E'; [discriminate E|]. cbn [app]. apply skip_spaces_head. inversion W; assumption. }
  rewrite NS, scan_decimals by exact Hr. rewrite E. reflexivity.
Qed.
Lemma get_sci a E p x r y : finite x -> valid x -> E = "e"%char \/ E = "E"%char -> Forall (fun c => is_space c = true) a -> ends_number r -> read_double (show_sci E p x) = Some y ->
  get_double (a ++ show_sci E p x ++ r) = Some (y, r).
Proof.
  intros F V HE Ha Hr ER. unfold get_double. rewrite skip_spaces_app by exact Ha. rewrite show_sci_eq in * by assumption.
  set (q := fst (sci_digits p x)) in *. set (k := snd (sci_digits p x)) in *.
  assert (NS : skip_spaces ((sign_text (negative x) ++ show_scientific E p q k) ++ r) = (sign_text (negative x) ++ show_scientific E p q k) ++ r).
  { pose proof (word_app _ _ (sign_word (negative x)) (scientific_word E p q k ltac:(destruct HE as [->| ->]; reflexivity))) as W.
    destruct (sign_text (negative x) ++ show_scientific E p q k) as [|c l] eqn:E'; [discriminate ER|]. cbn [app]. apply skip_spaces_head. inversion W; assumption. }
  rewrite NS, scan_scientific by assumption. rewrite ER. reflexivity.
Qed.
Lemma scan_int_nat a n r : 0 <= n -> Forall (fun c => is_space c = true) a -> (match r with c :: _ => is_digit c = false | [] => True end) -> scan_int (a ++ show_nat n ++ r) = Some (false, n, r).
Proof.
  intros Hn Ha Hr. unfold scan_int. rewrite skip_spaces_app by exact Ha.
  assert (NS : skip_spaces (show_nat n ++ r) = show_nat n ++ r).
  { pose proof (show_nat_word n) as W. pose proof (show_nat_nonempty n). destruct (show_nat n) as [|c l]; [congruence|]. cbn [app]. apply skip_spaces_head. inversion W; assumption. }
  rewrite NS. pose proof (read_sign_text false (show_nat n ++ r)) as R. cbn [sign_text app] in R. rewrite R by (apply head_digit; [apply show_nat_digits|apply show_nat_nonempty]).
  rewrite span_stop by (try apply show_nat_digits; exact Hr). destruct (show_nat n) as [|c l] eqn:E; [exfalso; exact (show_nat_nonempty _ E)|]. rewrite <- E, show_nat_value by exact Hn. reflexivity.
Qed.
Lemma get_uint_nat a n r : 0 <= n < 2 ^ 32 -> Forall (fun c => is_space c = true) a -> ends_number r -> get_uint (a ++ show_nat n ++ r) = Some (n, r).
Proof.
  intros Hn Ha Hr. unfold get_uint. rewrite scan_int_nat by (try assumption; try lia; apply ends_digit; exact Hr).
  destruct (Z.ltb_spec n (2 ^ 32)); [|lia]. rewrite u32_small by lia. reflexivity.
Qed.
Lemma get_int_nat a n r : 0 <= n < 2 ^ 31 -> Forall (fun c => is_space c = true) a -> ends_number r -> get_int (a ++ show_nat n ++ r) = Some (n, r).
Proof.
  intros Hn Ha Hr. unfold get_int. rewrite scan_int_nat by (try assumption; try lia; apply ends_digit; exact Hr).
  unfold in_int. destruct (Z.leb_spec (- 2 ^ 31) n); [|lia]. destruct (Z.ltb_spec n (2 ^ 31)); [|lia]. reflexivity.
Qed.
