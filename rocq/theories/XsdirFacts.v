(** Directory entries: splitting in lines, and reading back. *)
From Coq Require Import String.
From Coq Require Import ZArith Bool List Lia Ascii.
From Coq Require Import ZifyBool ZifyNat.
From Verif Require Import Base SZA SimpleLaws.
From Verif Require Export XsdirSpec.
Import ListNotations.
Open Scope Z_scope.

(** * Splitting *)
Definition only_blanks (f : text) : Prop := Forall (fun c => is_space c = true -> c = sp) f.
Definition runs_ok (f : text) : Prop :=
  (forall a b c, f = a ++ b ++ c -> word b -> (length b <= 95)%nat) /\
  (forall a b, f = a ++ b -> word b -> (length b <= 94)%nat).

Lemma only_blanks_one_line f : only_blanks f -> one_line f.
Proof. intros H I. unfold only_blanks in H. rewrite Forall_forall in H. specialize (H nl I eq_refl). discriminate H. Qed.
Lemma only_blanks_app a b : only_blanks a -> only_blanks b -> only_blanks (a ++ b).
Proof. intros A B. apply Forall_app. split; assumption. Qed.
Lemma word_only_blanks a : word a -> only_blanks a.
Proof. intros H. eapply Forall_impl; [|exact H]. intros c E E2. cbv beta in E. congruence. Qed.
Lemma blanks_only n : only_blanks (blanks n).
Proof. unfold only_blanks, blanks. induction n; cbn [repeat]; constructor; auto. Qed.
Lemma not_word b : ~ word b -> exists b1 c b2, b = b1 ++ c :: b2 /\ is_space c = true.
Proof.
  induction b as [|c b IH]; intros H; [exfalso; apply H; constructor|]. destruct (is_space c) eqn:C; [exists [], c, b; split; [reflexivity|exact C]|].
  destruct IH as (b1 & d & b2 & -> & D); [intros W; apply H; constructor; assumption|]. exists (c :: b1), d, b2. split; [reflexivity|exact D].
Qed.
Lemma word_dec b : word b \/ ~ word b.
Proof.
  induction b as [|c b [H|H]]; [left; constructor| |right; intros W; inversion W; auto]. destruct (is_space c) eqn:C; [right; intros W; inversion W; congruence|left; constructor; assumption].
Qed.

Lemma before_blank_spec r : forall u v, r = u ++ sp :: v -> exists u1 v1, r = u1 ++ sp :: v1 /\ before_blank r = Some v1 /\ (length v <= length v1)%nat /\ (v1 = v \/ exists u2, v1 = u2 ++ sp :: v).
Proof.
  induction r as [|c r IH]; intros u v E; [destruct u; discriminate E|]. cbn [before_blank]. destruct (Ascii.eqb_spec c sp) as [->|N].
  - exists [], r. split; [reflexivity|]. split; [reflexivity|]. destruct u as [|x u]; cbn [app] in E.
    + injection E as E. subst v. split; [lia|left; reflexivity].
    + injection E as E1 E. subst r. split; [rewrite app_length; cbn [length]; lia|right; exists u; reflexivity].
  - destruct u as [|x u]; cbn [app] in E; injection E as -> E; [congruence|]. destruct (IH u v E) as (u1 & v1 & E1 & B & L & C).
    exists (x :: u1), v1. split; [cbn [app]; congruence|]. split; [exact B|]. split; assumption.
Qed.
Lemma back_up_spec fuel : forall r u v, r = u ++ sp :: v -> (length v <= 100)%nat -> (100 < length r)%nat -> (length r <= fuel)%nat ->
  exists u' v', r = u' ++ sp :: v' /\ (length v <= length v' <= 100)%nat /\ back_up fuel r = Some v'.
Proof.
  induction fuel as [|fuel IH]; intros r u v E L G F; [lia|]. cbn [back_up]. destruct (Nat.leb_spec (length r) 100) as [|_]; [lia|].
  destruct (before_blank_spec r u v E) as (u1 & v1 & E1 & -> & L1 & C). destruct (Nat.le_gt_cases (length v1) 100) as [S|S].
  - exists u1, v1. split; [exact E1|]. split; [lia|]. destruct fuel; cbn [back_up]; destruct (Nat.leb_spec (length v1) 100); try lia; reflexivity.
  - destruct C as [->|(u2 & C)]; [lia|].
    destruct (IH v1 u2 v C L S) as (u' & v' & E' & L' & B); [rewrite E1, app_length in F; cbn [length] in F; lia|].
    exists (u1 ++ sp :: u'), v'. split; [rewrite E1, E', <- app_assoc; reflexivity|]. split; [exact L'|exact B].
Qed.
Lemma blank_found f : runs_ok f -> only_blanks f -> (100 <= length f)%nat -> exists p q, f = p ++ sp :: q /\ (5 <= length p <= 100)%nat.
Proof.
  intros [R1 R2] O L. set (b := firstn 96 (skipn 5 f)).
  assert (E : f = firstn 5 f ++ b ++ skipn 96 (skipn 5 f)) by (unfold b; rewrite firstn_skipn, firstn_skipn; reflexivity).
  assert (LB : length b = Nat.min 96 (length f - 5)) by (unfold b; rewrite firstn_length, skipn_length; reflexivity).
  assert (NW : ~ word b).
  { intros W. destruct (Nat.eq_dec (length f) 100) as [E100|N100].
    - assert (S : skipn 96 (skipn 5 f) = []) by (apply skipn_all2; rewrite skipn_length; lia). rewrite S, app_nil_r in E. pose proof (R2 _ _ E W). lia.
    - pose proof (R1 _ _ _ E W). lia. }
  destruct (not_word b NW) as (b1 & c & b2 & Eb & Sc).
  assert (C : c = sp). { assert (I : In c f) by (rewrite E, Eb; apply in_or_app; right; apply in_or_app; left; apply in_or_app; right; left; reflexivity).
    unfold only_blanks in O. rewrite Forall_forall in O. apply O; [exact I|exact Sc]. }
  subst c. exists (firstn 5 f ++ b1), (b2 ++ skipn 96 (skipn 5 f)). split.
  - rewrite E at 1. rewrite Eb, <- !app_assoc. reflexivity.
  - rewrite app_length, firstn_length. rewrite Eb, app_length in LB. cbn [length] in LB. lia.
Qed.
Lemma word_in_blanks n g : forall a b c, blanks n ++ g = a ++ b ++ c -> word b -> b <> [] -> exists a', g = a' ++ b ++ c.
Proof.
  unfold blanks. induction n as [|n IH]; intros a b c E W N; cbn [repeat app] in E; [exists a; exact E|].
  destruct a as [|x a]; cbn [app] in E.
  - destruct b as [|y b]; [congruence|]. cbn [app] in E. injection E as <- E. inversion W; subst. discriminate.
  - injection E as E1 E. exact (IH a b c E W N).
Qed.
Lemma runs_skip f p q : runs_ok f -> f = p ++ q -> runs_ok (blanks 4 ++ q).
Proof.
  intros [R1 R2] E. split.
  - intros a b c E' W. destruct b as [|x b]; [cbn; lia|]. destruct (word_in_blanks 4 q a (x :: b) c E' W ltac:(discriminate)) as (a' & ->).
    apply (R1 (p ++ a') _ c); [rewrite E, <- !app_assoc; reflexivity|exact W].
  - intros a b E' W. destruct b as [|x b]; [cbn; lia|]. destruct (word_in_blanks 4 q a (x :: b) [] ltac:(rewrite app_nil_r; exact E') W ltac:(discriminate)) as (a' & Q). rewrite app_nil_r in Q. subst q.
    apply (R2 (p ++ a')); [rewrite E, <- !app_assoc; reflexivity|exact W].
Qed.

Lemma split_spec steps : forall f g c, f = g ++ [c] -> is_space c = false -> runs_ok f -> only_blanks f -> is_comment f = false -> (length f <= steps)%nat ->
  exists pieces last l, split_lines steps (f ++ [nl]) = Some (Ok (continued_text pieces last)) /\ last = l ++ [c] /\
    Forall (fun p => (length p <= 100)%nat /\ only_blanks p /\ is_comment p = false) pieces /\ (length last <= 99)%nat /\ only_blanks last /\ is_comment last = false /\
    concat (map words pieces) ++ words last = words f.
Proof.
  induction steps as [|steps IH]; intros f g c E Sc R O C L; [rewrite E, app_length in L; cbn in L; lia|]. cbn [split_lines].
  destruct (Nat.leb_spec (length (f ++ [nl])) 100) as [S|S]; rewrite app_length in S; cbn [length] in S.
  - exists [], f, g. split; [reflexivity|]. split; [exact E|]. split; [constructor|]. split; [lia|]. repeat (split; [assumption|]). reflexivity.
  - destruct (blank_found f R O ltac:(lia)) as (p & q & Ef & Lp).
    destruct (back_up_spec (length (f ++ [nl])) (rev (f ++ [nl])) (nl :: rev q) (rev p)) as (u' & v' & Er & Lv & B).
    { rewrite Ef, !rev_app_distr. cbn [rev app]. rewrite <- app_assoc. reflexivity. }
    { rewrite rev_length. lia. } { rewrite rev_length, app_length. cbn; lia. } { rewrite rev_length. lia. }
    rewrite B. rewrite rev_length in Lv.
    (* the blank that is used *)
    assert (D : exists p' q', f = p' ++ sp :: q' /\ length p' = length v' /\ q' <> []).
    { apply (f_equal (@rev ascii)) in Er. rewrite rev_involutive, rev_app_distr in Er. cbn [rev] in Er. rewrite <- app_assoc in Er. cbn [app] in Er.
      destruct u' as [|y u'].
      - exfalso. cbn [rev app] in Er. assert (X : last (f ++ [nl]) "a"%char = last (rev v' ++ [sp]) "a"%char) by (f_equal; exact Er). rewrite !last_last in X. discriminate X.
      - cbn [rev] in Er. exists (rev v'), (rev u'). change (rev v' ++ sp :: rev u' ++ [y]) with (rev v' ++ (sp :: rev u') ++ [y]) in Er. rewrite app_assoc in Er. apply app_inj_tail in Er as [Er _].
        split; [exact Er|]. split; [apply rev_length|]. intros Q. rewrite Q in Er. rewrite E in Er. apply app_inj_tail in Er as [_ X]. subst c. discriminate Sc. }
    destruct D as (p' & q' & Ef' & Lp' & Nq). rewrite <- Lp'.
    assert (F1 : firstn (length p') (f ++ [nl]) = p') by (rewrite Ef', <- app_assoc, firstn_app, firstn_all, Nat.sub_diag; cbn [firstn]; apply app_nil_r).
    assert (F2 : skipn (length p') (f ++ [nl]) = (sp :: q') ++ [nl]) by (rewrite Ef', <- app_assoc, skipn_app, skipn_all, Nat.sub_diag; reflexivity).
    rewrite F1, F2, app_assoc.
    destruct (exists_last Nq) as (q2 & c2 & ->). assert (c2 = c). { rewrite E in Ef'. change (p' ++ sp :: q2 ++ [c2]) with (p' ++ (sp :: q2) ++ [c2]) in Ef'. rewrite app_assoc in Ef'. apply app_inj_tail in Ef' as [_ X]. congruence. } subst c2.
    assert (Op : only_blanks p' /\ only_blanks (q2 ++ [c])). { unfold only_blanks in *. rewrite Ef' in O. apply Forall_app in O as [O1 O2]. inversion O2; subst. split; assumption. } destruct Op as [Op Oq].
    destruct (IH (blanks 4 ++ sp :: q2 ++ [c]) (blanks 4 ++ sp :: q2) c) as (pieces & lst & l & Sp & El & Fp & Ll & Ol & Cl & Wd).
    + rewrite <- app_assoc. reflexivity.
    + exact Sc.
    + apply (runs_skip f p'); assumption.
    + apply only_blanks_app; [apply blanks_only|]. constructor; [reflexivity|exact Oq].
    + reflexivity.
    + rewrite app_length, length_blanks. cbn [length]. rewrite Ef', app_length in L. cbn [length] in L. lia.
    + rewrite Sp. exists (p' :: pieces), lst, l. split; [unfold continued_text; cbn [map concat]; rewrite <- !app_assoc; reflexivity|]. split; [exact El|].
      split. { constructor; [|exact Fp]. split; [lia|]. split; [exact Op|]. destruct p' as [|x p']; [reflexivity|]. rewrite Ef' in C. exact C. }
      repeat (split; [assumption|]). cbn [map concat]. rewrite <- app_assoc, Wd.
      rewrite (words_spaces (blanks 4)) by apply blanks_space. rewrite Ef', (words_app_space sp) by reflexivity. reflexivity.
Qed.

(** * Reading the lines *)
Lemma get_line_nl l r : one_line l -> get_line (l ++ nl :: r) = (l, r, false).
Proof.
  intros O. unfold get_line. rewrite span_stop; [reflexivity| |reflexivity]. apply Forall_forall. intros c I. unfold not_nl. destruct (Ascii.eqb_spec c nl) as [->|]; [contradiction|reflexivity].
Qed.
Lemma entry_getline_line fuel l r : one_line l -> is_comment l = false -> entry_getline fuel (l ++ nl :: r) = Ok (strip l, r, false).
Proof. intros O C. destruct fuel; cbn [entry_getline]; rewrite get_line_nl by exact O; rewrite C; reflexivity. Qed.
Lemma strip_continued p : only_blanks p -> exists v, strip (p ++ txt " +") = v ++ txt "+" /\ words v = words p.
Proof.
  intros O. unfold strip. destruct (skip_spaces_shape p) as (a & E & Fa & C).
  assert (EE : skip_spaces (p ++ txt " +") = skip_spaces (skip_spaces p ++ txt " +")) by (rewrite E at 1; rewrite <- app_assoc, skip_spaces_app by exact Fa; reflexivity).
  rewrite EE. clear EE. destruct C as [C|(c & r & C & Hc)].
  - exists []. split; [rewrite C; reflexivity|]. rewrite E, C, app_nil_r. rewrite <- (app_nil_r a), words_spaces by exact Fa. reflexivity.
  - exists (skip_spaces p ++ [sp]). split.
    + rewrite C. cbn [app]. rewrite skip_spaces_head by exact Hc. change (c :: r ++ txt " +") with ((c :: r) ++ [sp; "+"%char]).
      replace ((c :: r) ++ [sp; "+"%char]) with (((c :: r) ++ [sp]) ++ ["+"%char]) by (rewrite <- app_assoc; reflexivity). rewrite rstrip_last by reflexivity. reflexivity.
    + rewrite words_trailing by (constructor; [reflexivity|constructor]). rewrite E at 2. rewrite words_spaces by exact Fa. reflexivity.
Qed.
Lemma strip_ends l c : is_space c = false -> exists l', strip (l ++ [c]) = l' ++ [c] /\ words (l' ++ [c]) = words (l ++ [c]).
Proof.
  intros Sc. unfold strip. destruct (skip_spaces_shape (l ++ [c])) as (a & E & Fa & C). destruct (exists_last (l := skip_spaces (l ++ [c]))) as (u & d & Eu).
  { intros Z. rewrite Z, app_nil_r in E. unfold spaces in Fa. rewrite <- E in Fa. apply Forall_app in Fa as [_ Fa]. inversion Fa; subst. congruence. }
  assert (D : d = c). { rewrite Eu, app_assoc in E. apply app_inj_tail in E as [_ E]. congruence. } subst d.
  exists u. rewrite Eu, rstrip_last by exact Sc. split; [reflexivity|]. rewrite <- Eu. rewrite E at 2. rewrite words_spaces by exact Fa. reflexivity.
Qed.
(** the accumulated line is empty or ends with a blank *)
Definition open_end (u : text) : Prop := u = [] \/ exists u', u = u' ++ [sp].
Lemma words_open u l : open_end u -> words (u ++ l) = words u ++ words l.
Proof.
  intros [->|(u' & ->)]; [reflexivity|]. rewrite <- app_assoc. cbn [app]. rewrite (words_app_space sp) by reflexivity. rewrite words_trailing by (constructor; [reflexivity|constructor]). reflexivity.
Qed.
Lemma read_pieces pieces : forall lst l c rest, lst = l ++ [c] -> is_space c = false -> c <> "+"%char ->
  Forall (fun p => (length p <= 100)%nat /\ only_blanks p /\ is_comment p = false) pieces -> only_blanks lst -> is_comment lst = false ->
  exists l1 r1, (forall fuel, entry_getline fuel (continued_text pieces lst ++ rest) = Ok (l1, r1, false)) /\
    forall u fuel, open_end u -> (length pieces <= fuel)%nat -> exists L, join_lines fuel (u ++ l1) r1 false = Ok (L, rest, false) /\ words L = words u ++ concat (map words pieces) ++ words lst.
Proof.
  induction pieces as [|p pieces IH]; intros lst l c rest El Sc Nc Fp Ol Cl.
  - destruct (strip_ends l c Sc) as (l' & Es & Ws). rewrite <- El in Es, Ws. exists (strip lst), rest. unfold continued_text. cbn [map concat app]. split.
    + intros fuel. rewrite <- app_assoc. apply entry_getline_line; [apply only_blanks_one_line; exact Ol|exact Cl].
    + intros u fuel U _. exists (u ++ strip lst). rewrite Es. split.
      * assert (RR : rev (u ++ l' ++ [c]) = c :: rev (u ++ l')) by (rewrite app_assoc, rev_app_distr; reflexivity).
        destruct (Ascii.eqb_spec c "+"%char) as [|N]; [contradiction|]. destruct fuel; cbn [join_lines]; rewrite RR; destruct (Ascii.eqb_spec c "+"%char); try contradiction; reflexivity.
      * rewrite words_open by exact U. rewrite <- Ws. reflexivity.
  - inversion Fp as [|? ? (Lp & Op & Cp) Fp']; subst x l0. destruct (IH lst l c rest El Sc Nc Fp' Ol Cl) as (l1 & r1 & G & J).
    destruct (strip_continued p Op) as (v & Ev & Wv). exists (strip (p ++ txt " +")), (continued_text pieces lst ++ rest). split.
    + intros fuel. unfold continued_text. cbn [map concat]. rewrite <- !app_assoc. cbn [app]. rewrite app_assoc. apply entry_getline_line.
      * apply one_line_app; [apply only_blanks_one_line; exact Op|]. intros [X|[X|[]]]; discriminate X.
      * destruct p; [reflexivity|exact Cp].
    + intros u fuel U Lf. cbn [length] in Lf. destruct fuel as [|fuel]; [lia|]. cbn [join_lines]. rewrite Ev.
      assert (RR : rev (u ++ v ++ txt "+") = "+"%char :: rev (u ++ v)) by (rewrite app_assoc, rev_app_distr; reflexivity). rewrite RR. cbn [Ascii.eqb].
      replace (("+" =? "+")%char) with true by reflexivity. rewrite G. cbn [bind]. rewrite rev_involutive.
      destruct (J ((u ++ v) ++ [sp]) fuel ltac:(right; exists (u ++ v); reflexivity) ltac:(lia)) as (L & EJ & WL). rewrite <- app_assoc in EJ. cbn [app] in EJ. exists L. split; [exact EJ|].
      rewrite WL. rewrite words_trailing by (constructor; [reflexivity|constructor]). rewrite words_open by exact U. rewrite Wv. cbn [map concat]. rewrite <- !app_assoc. reflexivity.
Qed.

(** * Reading the words *)
Lemma gw s t ws : words s = t :: ws -> exists r, get_word s = Some (t, r) /\ words r = ws.
Proof. intros H. apply words_cons in H as (a & r & -> & A & W & N & R & E). exists r. split; [apply get_word_w; assumption|exact E]. Qed.
Lemma gw_none s : words s = [] -> get_word s = None.
Proof.
  intros H. apply words_nil_spaces in H. unfold get_word. rewrite <- (app_nil_r s), skip_spaces_app by exact H. reflexivity.
Qed.
Lemma gu s n ws : is_uint n -> words s = show_nat n :: ws -> exists r, get_uint s = Some (n, r) /\ words r = ws.
Proof. intros U H. apply words_cons in H as (a & r & -> & A & W & N & R & E). exists r. split; [apply get_uint_nat; assumption|exact E]. Qed.
Lemma gu_none s : words s = [] -> get_uint s = None /\ failed_uint s = 0.
Proof.
  intros H. apply words_nil_spaces in H. assert (E : scan_int s = None) by (unfold scan_int; rewrite <- (app_nil_r s), skip_spaces_app by exact H; reflexivity).
  unfold get_uint, failed_uint. rewrite E. split; reflexivity.
Qed.
Lemma gd_fixed s p x y ws : finite x -> read_double (show_fixed p x) = Some y -> words s = show_fixed p x :: ws -> exists r, get_double s = Some (y, r) /\ words r = ws.
Proof. intros F R0 H. apply words_cons in H as (a & r & -> & A & W & N & R & E). exists r. split; [apply get_fixed; assumption|exact E]. Qed.
Lemma gd_sci s p x y ws : finite x -> valid x -> read_double (show_sci "e" p x) = Some y -> words s = show_sci "e" p x :: ws -> exists r, get_double s = Some (y, r) /\ words r = ws.
Proof. intros F V R0 H. apply words_cons in H as (a & r & -> & A & W & N & R & E). exists r. split; [apply get_sci; try assumption; left; reflexivity|exact E]. Qed.
Lemma gd_zero s ws : words s = txt "0" :: ws -> exists r, get_double s = Some (S754_zero false, r) /\ words r = ws.
Proof.
  intros H. apply words_cons in H as (a & r & -> & A & W & N & R & E). exists r. split; [|exact E]. unfold get_double. rewrite skip_spaces_app by exact A. change (txt "0" ++ r) with ("0"%char :: r).
  rewrite skip_spaces_head by reflexivity. assert (SF : scan_float ("0"%char :: r) = (txt "0", r)).
  { destruct r as [|c r]; [reflexivity|]. cbn [ends_number] in R. clear -R. destruct c as [[] [] [] [] [] [] [] []]; try discriminate R; reflexivity. }
  rewrite SF. vm_compute. reflexivity.
Qed.
Lemma zero_is_nat0 : txt "0" = show_nat 0. Proof. reflexivity. Qed.

Lemma sci_e_stable x : printable x -> exists y, read_double (show_sci "e" 6 x) = Some y /\ same_temp x y.
Proof.
  intros (V & F & B & A). destruct (sci_stable "e" 6 x ltac:(cbn; lia) (or_introl eq_refl) V F B A) as (y & R & V' & F' & N & U & S & D). exists y. split; [exact R|].
  repeat split; try assumption; apply U.
Qed.
Lemma fixed_stable' p x : printable x -> exists y, read_double (show_fixed p x) = Some y /\ same_fixed p x y.
Proof.
  intros (V & F & B & A). destruct (fixed_stable p x V F B) as (y & R & V' & F' & N & S & D). exists y. split; [exact R|]. repeat split; assumption.
Qed.
Lemma temp_nonzero t y : same_temp t y -> units t <> 0 -> opt_temp y = Some y.
Proof. intros (_ & _ & _ & U & _) N. unfold opt_temp. destruct y; try reflexivity. exfalso. apply N, U. reflexivity. Qed.
Lemma text_eqb_neq a b : a <> b -> text_eqb a b = false.
Proof.
  revert b. induction a as [|c a IH]; intros [|d b] N; cbn [text_eqb]; try reflexivity; [congruence|]. destruct (Ascii.eqb_spec c d) as [->|]; [|reflexivity]. cbn [andb]. apply IH. congruence.
Qed.
Lemma opt_uint_some n : n <> 0 -> opt_uint n = Some n.
Proof. intros H. unfold opt_uint. destruct (Z.eqb_spec n 0); [contradiction|reflexivity]. Qed.

Lemma read_entry_words e line : entry_ok e -> words line = entry_words e -> exists e', read_entry line = Some e' /\ same_entry e e'.
Proof.
  intros (Z1 & Z2 & PA & LA & F1 & AC & U1 & U2 & U3 & RE & TE) W. unfold entry_words in W. cbn [app] in W. unfold read_entry.
  apply gw in W as (s1 & -> & W). destruct (fixed_stable' 6 _ PA) as (a & Ra & Sa). destruct (gd_fixed _ 6 _ a _ (proj1 (proj2 PA)) Ra W) as (s2 & -> & W'). clear W. rename W' into W.
  apply gw in W as (s3 & -> & W). apply gw in W as (s4 & -> & W). destruct (gu _ _ _ U1 W) as (s5 & -> & W5). clear W. destruct (gu _ _ _ U2 W5) as (s6 & -> & W6). clear W5. destruct (gu _ _ _ U3 W6) as (s7 & -> & W). clear W6.
  set (acc := if text_eqb _ (txt "0") then None else _).
  assert (EA : acc = x_access e).
  { unfold acc. destruct (x_access e) as [t|] eqn:X; [|reflexivity]. destruct (AC t eq_refl) as [_ N]. rewrite text_eqb_neq by exact N. reflexivity. }
  clearbody acc. subst acc. assert (U0 : is_uint 0) by (split; reflexivity || lia).
  (* what follows the table length *)
  assert (G : forall rec ent, is_uint rec -> is_uint ent -> opt_uint rec = x_record e -> opt_uint ent = x_entries e -> (x_temp e <> None \/ x_ptable e = true) ->
    words s7 = [show_nat rec; show_nat ent] ++ (match x_temp e with Some t => [show_sci "e" 6 t] | None => if x_ptable e then [txt "0"] else [] end) ++ (if x_ptable e then [txt "ptable"] else []) ->
    exists e', (match get_uint s7 with
     | None => Some (XEntry (x_zaid e) a (x_file e) (x_access e) (x_type e) (x_address e) (x_length e) (opt_uint (failed_uint s7)) (opt_uint 0) (opt_temp (S754_zero false)) false)
     | Some (record, s) =>
        match get_uint s with None => None | Some (entries, s) =>
        match get_double s with None => None | Some (temp, s) =>
        match get_word s with
        | None => Some (XEntry (x_zaid e) a (x_file e) (x_access e) (x_type e) (x_address e) (x_length e) (opt_uint record) (opt_uint entries) (opt_temp temp) false)
        | Some (next, _) => if text_eqb next (txt "ptable") then Some (XEntry (x_zaid e) a (x_file e) (x_access e) (x_type e) (x_address e) (x_length e) (opt_uint record) (opt_uint entries) (opt_temp temp) true) else None
        end end end
     end) = Some e' /\ same_entry e e').
  { intros rec ent Ur Ue Or Oe H Ws. cbn [app] in Ws. destruct (gu _ _ _ Ur Ws) as (s8 & -> & W8). clear Ws. destruct (gu _ _ _ Ue W8) as (s9 & -> & Ws). clear W8.
    assert (T : exists t r, get_double s9 = Some (t, r) /\ words r = (if x_ptable e then [txt "ptable"] else []) /\ same_option same_temp (x_temp e) (opt_temp t)).
    { destruct (x_temp e) as [t|] eqn:ET.
      - destruct (TE t eq_refl) as (Pt & Nt & Lt). destruct (sci_e_stable t Pt) as (y & Ry & Sy). cbn [app] in Ws. destruct (gd_sci _ 6 t y _ (proj1 (proj2 Pt)) (proj1 Pt) Ry Ws) as (s10 & E & W10).
        exists y, s10. split; [exact E|]. split; [exact W10|]. rewrite (temp_nonzero t y Sy Nt). exact Sy.
      - destruct H as [H|H]; [congruence|]. rewrite H in *. cbn [app] in Ws. apply gd_zero in Ws as (s10 & E & Ws). eexists. exists s10. split; [exact E|]. split; [exact Ws|exact I]. }
    destruct T as (t & r & -> & Wr & St). destruct (x_ptable e) eqn:EP.
    - apply gw in Wr as (s11 & -> & _). cbn [text_eqb]. replace (text_eqb (txt "ptable") (txt "ptable")) with true by reflexivity. eexists. split; [reflexivity|]. unfold same_entry. cbn [x_zaid x_awr x_file x_access x_type x_address x_length x_record x_entries x_temp x_ptable]. rewrite Or, Oe, EP. repeat (split; [first [reflexivity|exact Sa|exact St]|]). reflexivity.
    - rewrite (gw_none _ Wr). eexists. split; [reflexivity|]. unfold same_entry. cbn [x_zaid x_awr x_file x_access x_type x_address x_length x_record x_entries x_temp x_ptable]. rewrite Or, Oe, EP. repeat (split; [first [reflexivity|exact Sa|exact St]|]). reflexivity. }
  destruct (x_record e) as [rec|] eqn:ER, (x_entries e) as [ent|] eqn:EE; try contradiction.
  - destruct RE as (Ur & Ue & Nr & Ne & H). apply (G rec ent Ur Ue); [apply opt_uint_some; exact Nr|apply opt_uint_some; exact Ne|exact H|exact W].
  - destruct (x_temp e) as [t|] eqn:ET; [|destruct (x_ptable e) eqn:EP].
    + apply (G 0 0 U0 U0); [reflexivity|reflexivity|left; discriminate|exact W].
    + apply (G 0 0 U0 U0); [reflexivity|reflexivity|right; reflexivity|exact W].
    + cbn [app] in W. destruct (gu_none _ W) as [-> ->]. eexists. split; [reflexivity|]. unfold same_entry. cbn [x_zaid x_awr x_file x_access x_type x_address x_length x_record x_entries x_temp x_ptable].
      rewrite ER, EE, ET, EP. repeat (split; [first [reflexivity|exact Sa|exact I]|]). reflexivity.
Qed.
