(** Printed tables are read back: proofs. *)
From Coq Require Import String.
From Coq Require Import ZArith Bool List Lia Ascii.
From Coq Require Import ZifyBool ZifyNat.
From Verif Require Import Base SZA BlockWithLocators Angular.
From Verif Require Export TableTextFacts TableTextSpec.
Import ListNotations.
Open Scope Z_scope.

Lemma read_double_reads : reads_numbers read_double.
Proof.
  split; intros p x Hp (V & F & B & A).
  - destruct (fixed_stable p x V F B) as (y & R & V' & F' & N & S & D). exists y. split; [exact R|]. repeat split; assumption.
  - destruct (sci_stable "E" p x ltac:(lia) (or_intror eq_refl) V F B A) as (y & R & V' & F' & N & U & S & D). exists y. split; [exact R|]. repeat split; try assumption; apply U.
Qed.

(** ** Lengths *)
Lemma length_show_nat n w : 0 <= n < 10 ^ Z.of_nat w -> (1 <= w)%nat -> (length (show_nat n) <= w)%nat.
Proof. intros H W. pose proof (len_show_nat n) as L. pose proof (ndig_bound n (Z.of_nat w) H ltac:(lia)). unfold len in L. lia. Qed.
Lemma length_show_Z n w : 0 <= n < 10 ^ Z.of_nat w -> (1 <= w)%nat -> (length (show_Z n) <= w)%nat.
Proof. intros H W. unfold show_Z. destruct (Z.ltb_spec n 0); [lia|]. apply length_show_nat; assumption. Qed.
Lemma length_decimals p q : 0 <= q < 10 ^ (Z.of_nat p + 1) -> (length (show_decimals p q) <= p + 2)%nat.
Proof.
  intros H. unfold show_decimals. rewrite app_length. cbn [length]. rewrite length_show_pad.
  pose proof (pow10_pos (Z.of_nat p) ltac:(lia)) as P.
  assert (D : 0 <= q / 10 ^ Z.of_nat p < 10 ^ Z.of_nat 1).
  { split; [apply Z.div_pos; lia|]. apply Z.div_lt_upper_bound; [lia|]. rewrite Z.pow_add_r in H by lia. change (10 ^ Z.of_nat 1) with 10. change (10 ^ 1) with 10 in H. lia. }
  pose proof (length_show_nat _ 1 D ltac:(lia)). lia.
Qed.
Lemma length_exponent k : -999 <= k <= 999 -> (length (show_exponent k) <= 4)%nat.
Proof.
  intros H. unfold show_exponent. cbn [length]. rewrite length_show_pad. pose proof (ndig_bound (Z.abs k) 3 ltac:(change (10 ^ 3) with 1000; lia) ltac:(lia)). lia.
Qed.
Lemma length_sci p x : (p <= 12)%nat -> printable x -> (length (show_sci "E" p x) <= p + 8)%nat.
Proof.
  intros Hp (V & F & B & A). rewrite show_sci_eq by assumption. rewrite app_length.
  assert (S : (length (sign_text (negative x)) <= 1)%nat) by (destruct (negative x); cbn; lia).
  assert (K : 0 <= fst (sci_digits p x) < 10 ^ (Z.of_nat p + 1) /\ -999 <= snd (sci_digits p x) <= 999).
  { unfold sci_digits. pose proof (pow10_pos (Z.of_nat p + 1) ltac:(lia)) as P. destruct (Z.eqb_spec (units x) 0) as [E|E]; [cbn [fst snd]; lia|].
    destruct A as [A|A]; [contradiction|]. pose proof (units_nonneg x) as X. destruct (sci_dec_spec p (units x) ltac:(lia) ltac:(lia) A B) as (q & k & -> & K & Q & _).
    cbn [fst snd]. pose proof (pow10_pos (Z.of_nat p) ltac:(lia)). lia. }
  destruct K as [K1 K2]. unfold show_scientific. rewrite app_length. cbn [length].
  pose proof (length_decimals p _ K1). pose proof (length_exponent _ K2). lia.
Qed.
Lemma length_fixed_ge x : finite x -> (8 <= length (show_fixed 6 x))%nat.
Proof.
  intros F. rewrite show_fixed_eq by exact F. rewrite app_length. unfold show_decimals. rewrite app_length. cbn [length]. rewrite length_show_pad.
  set (n := _ / _). pose proof (show_nat_nonempty n). destruct (show_nat n); [congruence|]. cbn [length]. lia.
Qed.
Lemma positive_value y : negative y = false -> finite y -> negative_value y = false.
Proof. intros N F. destruct y as [[]|[]| |[] m e]; try contradiction; try discriminate; reflexivity. Qed.

(** ** The numbers as the reader returns them *)
Definition header_read (rd : text -> option double) (h h' : header1) : Prop :=
  rd (show_fixed 6 (h_awr h)) = Some (h_awr h') /\ rd (show_sci "E" 4 (h_temp h)) = Some (h_temp h').
Definition header201_read (g g' : header201) : Prop :=
  read_double (show_fixed 6 (g_awr g)) = Some (g_awr g') /\ read_double (show_sci "E" 4 (g_temp g)) = Some (g_temp g').
Definition data_read (rd : text -> option double) (d d' : tdata) : Prop :=
  Forall2 (fun x y => rd (show_fixed 7 x) = Some y) (d_aw d) (d_aw d') /\ Forall2 (fun x y => rd (show_sci "E" 12 x) = Some y) (d_xss d) (d_xss d').
Definition table_read (rd : text -> option double) (t t' : table) : Prop :=
  match fst t, fst t' with
  | Legacy h, Legacy h' => header_read rd h h'
  | Modern g, Modern g' => header201_read g g'
  | _, _ => False
  end /\ data_read rd (snd t) (snd t').

(** ** The original header *)
Lemma rj_one_line n s : one_line s -> one_line (blanks n ++ s).
Proof. intros O. apply one_line_app; [apply blanks_one_line|exact O]. Qed.
Lemma left_one_line n s : one_line s -> one_line (left s n).
Proof. intros O. unfold left. apply one_line_app; [apply one_line_firstn; exact O|apply blanks_one_line]. Qed.
Lemma right_column n s : column_ok n s -> exists t, right s n = Ok t /\ length t = n /\ one_line t /\ strip t = s.
Proof.
  intros (S & O & L). exists (blanks (n - length s) ++ s). rewrite (right_fits s n L). split; [reflexivity|]. split; [rewrite app_length, length_blanks; lia|].
  split; [apply rj_one_line; exact O|]. apply (strip_right s n); [exact L|exact S|apply right_fits; exact L].
Qed.
Lemma header_round_trip rd h : reads_numbers rd -> header_ok h ->
  exists t h', print_header h = Ok t /\ (forall r, parse_header rd (t ++ r) = Ok (h', r)) /\ same_header h h' /\ header_read rd h h'.
Proof.
  intros [RF RS] (Z1 & _ & [PA NA] & LA & [PT NT] & D1 & T1 & M1). unfold print_header.
  destruct (right_column 10 _ Z1) as (zt & -> & ZL & ZO & ZS). destruct (right_column 10 _ D1) as (dt & -> & DL & DO & DS). destruct (right_column 10 _ M1) as (mt & -> & ML & MO & MS). cbn [bind].
  destruct (RF 6%nat _ ltac:(lia) PA) as (a & Ra & Sa). destruct (RS 4%nat _ ltac:(lia) PT) as (t & Rt & St).
  destruct T1 as (TS & TO & TL).
  eexists. exists (Header1 (h_zaid h) a t (h_date h) (h_title h) (h_material h)). split; [reflexivity|]. split.
  - intros r. unfold parse_header. rewrite <- !app_assoc. rewrite (r_chr_exact 10 zt) by assumption.
    unfold w_fix. rewrite (r_real_w rd 12 _ a) by (try apply show_fixed_word; assumption). cbn [bind].
    unfold w_sci. rewrite (r_real_w rd 12 _ t) by (first [apply show_sci_word; reflexivity|assumption|exact (length_sci 4 _ ltac:(lia) PT)]). cbn [bind].
    rewrite r_col_blanks. rewrite (r_chr_exact 10 dt) by assumption. cbn [app]. rewrite r_eol_nl.
    destruct Sa as (_ & Fa & Na & _). destruct St as (_ & Ft & Nt & _). rewrite (positive_value a), (positive_value t) by congruence. cbn [throw_if bind].
    rewrite <- !app_assoc. rewrite (r_chr_exact 70 (left (h_title h) 70)) by (try apply length_left; apply left_one_line; exact TO).
    rewrite (r_chr_exact 10 mt) by assumption. cbn [app]. rewrite r_eol_nl. unfold make_header. rewrite ZS, DS, MS, (strip_left _ 70 TL TS). reflexivity.
  - split; [|split; assumption]. repeat split; try reflexivity; try apply Sa; try apply St.
Qed.
Lemma take_field_line_w f w r : (length f <= w)%nat -> one_line f -> r_chr w (f ++ nl :: r) = (f ++ blanks (w - length f), nl :: r).
Proof. intros L O. unfold r_chr. rewrite take_field_line by assumption. reflexivity. Qed.

Lemma word_char c : is_space c = false -> is_word c = true.
Proof. intros H. unfold is_word. rewrite H. reflexivity. Qed.
Lemma span_word s : exists a r, s = a ++ r /\ word a /\ span is_word s = (a, r) /\ (match r with c :: _ => is_space c = true | [] => True end).
Proof.
  induction s as [|c s (a & r & -> & W & E & R)]; [exists [], []; repeat split; constructor|]. cbn [span]. unfold is_word at 1. destruct (is_space c) eqn:S.
  - exists [], (c :: a ++ r). repeat split; [constructor|exact S].
  - rewrite E. exists (c :: a), r. repeat split; [constructor; assumption|exact R].
Qed.
Lemma legacy_version h t r : header_ok h -> print_header h = Ok t -> ~ version_word (read_version (t ++ r)).
Proof.
  intros ((ZS & ZO & ZL) & NV & [PA NA] & LA & [PT NT] & D1 & _ & M1) E. unfold print_header in E.
  rewrite (right_fits _ 10 ZL) in E. destruct (right_column 10 _ D1) as (dt & DE & DL & DO & DS). rewrite DE in E. destruct (right_column 10 _ M1) as (mt & ME & _). rewrite ME in E.
  cbn [bind] in E. apply Ok_inj in E. subst t. unfold read_version. set (m := left (h_title h) 70 ++ mt ++ [nl]). set (zaid := h_zaid h) in *.
  set (awr := show_fixed 6 (h_awr h)) in *. assert (AW : word awr) by apply show_fixed_word. assert (AL : (8 <= length awr)%nat) by (apply length_fixed_ge; apply PA).
  set (temp := show_sci "E" 4 (h_temp h)). assert (TW : word temp) by (apply show_sci_word; reflexivity). assert (TL : (length temp <= 12)%nat) by exact (length_sci 4 _ ltac:(lia) PT).
  assert (EQ : ((blanks (10 - length zaid) ++ zaid) ++ w_fix 12 6 (h_awr h) ++ w_sci 12 4 (h_temp h) ++ blanks 1 ++ dt ++ nl :: m) ++ r =
    (blanks (10 - length zaid) ++ zaid ++ blanks (12 - length awr) ++ awr ++ blanks (12 - length temp) ++ temp ++ blanks 1 ++ dt) ++ nl :: (m ++ r)).
  { unfold w_fix, w_sci, rjust. fold awr temp. rewrite <- !app_assoc. reflexivity. }
  rewrite EQ. clear EQ. set (tail := blanks (12 - length temp) ++ temp ++ blanks 1 ++ dt).
  assert (OT : one_line tail) by (unfold tail; repeat apply one_line_app; try apply blanks_one_line; try assumption; apply word_one_line; exact TW).
  assert (LT : length tail = 23%nat) by (unfold tail; rewrite !app_length, !length_blanks; lia). clearbody tail m.
  rewrite take_field_line_w.
  2:{ rewrite !app_length, !length_blanks. lia. }
  2:{ repeat apply one_line_app; try apply blanks_one_line; try assumption; apply word_one_line; exact AW. }
  cbn [fst]. set (pad := blanks (80 - _)). clearbody pad. rewrite <- !app_assoc.
  unfold get_word. rewrite skip_spaces_app by apply blanks_space.
  (* the word that starts with the text of the atomic weight ratio is too long *)
  assert (K : forall q u, word q -> exists w' r', span is_word (q ++ awr ++ u) = (w', r') /\ (8 <= length w')%nat).
  { intros q u Wq. destruct (span_word u) as (a & b & -> & Wa & _ & Rb). exists (q ++ awr ++ a), b. split.
    - rewrite !app_assoc. rewrite span_stop; [reflexivity| |].
      + rewrite <- app_assoc. assert (Wd : word (q ++ awr ++ a)) by (repeat apply word_app; assumption). unfold word in Wd. eapply Forall_impl; [|exact Wd]. apply word_char.
      + destruct b; [exact I|]. unfold is_word. rewrite Rb. reflexivity.
    - rewrite !app_length. lia. }
  assert (F : forall w', (8 <= length w')%nat -> ~ version_word w') by (intros w' Lw [-> | ->]; cbn in Lw; lia).
  destruct ZS as [ZE|[(c & z & ZE & Hc) _]].
  - rewrite ZE. cbn [app length]. rewrite skip_spaces_app by apply blanks_space.
    destruct awr as [|c awr'] eqn:EA; [cbn in AL; lia|]. assert (Hc : is_space c = false) by (inversion AW; assumption).
    cbn [app]. rewrite skip_spaces_head by exact Hc. destruct (K [] (tail ++ pad) ltac:(constructor)) as (w' & r' & Es & Lw). cbn [app] in Es. rewrite Es.
    destruct w' as [|x w']; [cbn in Lw; lia|]. apply F. exact Lw.
  - rewrite ZE at 1. cbn [app]. rewrite skip_spaces_head by exact Hc.
    change (c :: z ++ blanks (12 - length awr) ++ awr ++ tail ++ pad) with ((c :: z) ++ blanks (12 - length awr) ++ awr ++ tail ++ pad). rewrite <- ZE.
    destruct (span_word zaid) as (a & b & Ez & Wa & Es & Rb). unfold first_word in NV. rewrite Es in NV. cbn [fst] in NV.
    assert (Na : a <> []). { intros ->. cbn [app] in Ez. subst b. rewrite ZE in Rb. rewrite Hc in Rb. discriminate. }
    assert (P : Forall (fun c => is_word c = true) a) by (eapply Forall_impl; [|exact Wa]; apply word_char).
    destruct b as [|s b].
    + rewrite app_nil_r in Ez. rewrite Ez. destruct (12 - length awr)%nat as [|n] eqn:En.
      * cbn [blanks repeat app]. destruct (K a (tail ++ pad) Wa) as (w' & r' & Es' & Lw). rewrite Es'. destruct w' as [|x w']; [cbn in Lw; lia|]. apply F. exact Lw.
      * rewrite span_stop; [|exact P|reflexivity]. destruct a; [congruence|]. exact NV.
    + rewrite Ez, <- app_assoc. rewrite span_stop; [|exact P|unfold is_word; cbn [app]; rewrite Rb; reflexivity]. destruct a; [congruence|]. exact NV.
Qed.

(** ** The 2.0.1 header *)
Lemma comments_round_trip l r : Forall comment_ok l -> parse_comments (length l) (concat (map (fun line => line ++ [nl]) l) ++ r) = (l, r).
Proof.
  induction 1 as [|s l (O & L & R) _ IH]; cbn [length parse_comments map concat]; [reflexivity|]. rewrite <- !app_assoc. cbn [app].
  rewrite take_field_line_w by assumption. rewrite r_eol_nl, IH. rewrite rstrip_app by apply blanks_space. rewrite R. reflexivity.
Qed.
Lemma modern_line1 g r : header201_ok g -> exists s1 s2, right (g_szaid g) 24 = Ok s1 /\ right (g_src g) 24 = Ok s2 /\ length s1 = 24%nat /\ length s2 = 24%nat /\ one_line s1 /\ one_line s2 /\ strip s1 = g_szaid g /\ strip s2 = g_src g /\
  read_version (left (g_vers g) 10 ++ blanks 1 ++ s1 ++ blanks 1 ++ s2 ++ nl :: r) = g_vers g.
Proof.
  intros (V & S & C & _). destruct (right_column 24 _ S) as (s1 & E1 & L1 & O1 & P1). destruct (right_column 24 _ C) as (s2 & E2 & L2 & O2 & P2).
  exists s1, s2. repeat (split; [assumption|]). unfold read_version.
  assert (VW : word (g_vers g) /\ (length (g_vers g) <= 10)%nat /\ g_vers g <> []) by (destruct V as [-> | ->]; (split; [repeat constructor|split; [cbn; lia|discriminate]])).
  destruct VW as (VW & VL & VN). rewrite (left_fits _ 10 VL).
  replace ((g_vers g ++ blanks (10 - length (g_vers g))) ++ blanks 1 ++ s1 ++ blanks 1 ++ s2 ++ nl :: r)
    with ((g_vers g ++ blanks (10 - length (g_vers g)) ++ blanks 1 ++ s1 ++ blanks 1 ++ s2) ++ nl :: r) by (rewrite <- !app_assoc; reflexivity).
  rewrite take_field_line_w.
  2:{ rewrite !app_length, !length_blanks. lia. }
  2:{ repeat apply one_line_app; try apply blanks_one_line; try assumption; apply word_one_line; exact VW. }
  cbn [fst]. rewrite <- !app_assoc. match goal with |- context [get_word (g_vers g ++ ?u)] => change (get_word (g_vers g ++ u)) with (get_word ([] ++ g_vers g ++ u)) end.
  rewrite get_word_w; [reflexivity|constructor|exact VW|exact VN|].
  destruct V as [-> | ->]; reflexivity.
Qed.
Lemma header201_round_trip rd g : header201_ok g ->
  exists t g', print_header201 g = Ok t /\ (forall r, parse_header201 rd (t ++ r) = Ok (g', r)) /\ same_header201 g g' /\ header201_read g g' /\ (forall r, read_version (t ++ r) = g_vers g).
Proof.
  intros OK. pose proof OK as (V & S & C & [PA NA] & LA & [PT NT] & DW & DN & DL & CL & CO).
  destruct (modern_line1 g [] OK) as (s1 & s2 & E1 & E2 & L1 & L2 & O1 & O2 & P1 & P2 & _).
  destruct read_double_reads as [RF RS].
  destruct (RF 6%nat _ ltac:(lia) PA) as (a & Ra & Sa). destruct (RS 4%nat _ ltac:(lia) PT) as (t & Rt & St).
  assert (DC : column_ok 10 (g_date g)) by (split; [apply word_stripped; exact DW|split; [apply word_one_line; exact DW|exact DL]]).
  unfold print_header201. rewrite E1, E2, (right_fits _ 10 DL). cbn [bind].
  eexists. exists (Header201 (g_vers g) (g_szaid g) (g_src g) a t (g_date g) (g_comments g)). split; [reflexivity|].
  assert (VW : word (g_vers g) /\ (length (g_vers g) <= 10)%nat) by (destruct V as [-> | ->]; (split; [repeat constructor|cbn; lia])). destruct VW as [VW VL].
  split; [|split; [|split]].
  - intros r. unfold parse_header201. rewrite <- !app_assoc.
    rewrite (r_chr_exact 10 (left (g_vers g) 10)) by (try apply length_left; apply left_one_line, word_one_line; exact VW).
    rewrite r_col_blanks, (r_chr_exact 24 s1), r_col_blanks, (r_chr_exact 24 s2) by assumption. cbn [app]. rewrite r_eol_nl.
    rewrite (strip_left _ 10 VL (word_stripped _ VW)).
    assert (VE : negb (text_eqb (g_vers g) (txt "2.0.0")) && negb (text_eqb (g_vers g) (txt "2.0.1")) = false) by (destruct V as [-> | ->]; reflexivity). rewrite VE. cbn [throw_if bind]. clear VE.
    set (number := w_int 10 (len (g_comments g))). set (body := concat _).
    rewrite <- !app_assoc. cbn [app].
    assert (NL : (length (show_Z (len (g_comments g))) <= 10)%nat) by (apply length_show_Z; [pose proof (len_nonneg (g_comments g)); change (10 ^ Z.of_nat 10) with 10000000000; lia|lia]).
    replace (w_fix 12 6 (g_awr g) ++ blanks 1 ++ w_sci 12 4 (g_temp g) ++ blanks 1 ++ (blanks (10 - length (g_date g)) ++ g_date g ++ blanks 1 ++ number ++ nl :: body ++ r))
      with ((w_fix 12 6 (g_awr g) ++ blanks 1 ++ w_sci 12 4 (g_temp g) ++ blanks 1 ++ blanks (10 - length (g_date g)) ++ g_date g ++ blanks 1 ++ number) ++ nl :: body ++ r) by (rewrite <- !app_assoc; reflexivity).
    assert (LF : length (w_fix 12 6 (g_awr g)) = 12%nat) by (apply length_rjust; exact LA).
    assert (LS : length (w_sci 12 4 (g_temp g)) = 12%nat) by (apply length_rjust; exact (length_sci 4 _ ltac:(lia) PT)).
    assert (LN : length number = 10%nat) by (apply length_rjust; exact NL).
    rewrite take_field_line_w.
    2:{ rewrite !app_length, !length_blanks. lia. }
    2:{ repeat apply one_line_app; first [apply blanks_one_line|apply word_one_line; first [exact DW|apply show_fixed_word|apply show_sci_word; reflexivity|apply show_Z_word]]. }
    rewrite r_eol_nl. set (pad := blanks (80 - _)).
    rewrite <- !app_assoc. unfold w_fix, rjust at 1. rewrite <- !app_assoc.
    rewrite (get_fixed _ 6 (g_awr g) _ a); [|apply PA|apply blanks_space|reflexivity|exact Ra].
    unfold w_sci, rjust at 1. rewrite <- !app_assoc. rewrite (app_assoc (blanks 1)).
    rewrite (get_sci _ "E" 4 (g_temp g) _ t); [|apply PT|apply PT|right; reflexivity|apply Forall_app; split; apply blanks_space|reflexivity|exact Rt].
    rewrite (app_assoc (blanks 1)). rewrite get_word_w; [|apply Forall_app; split; apply blanks_space|exact DW|exact DN|reflexivity].
    unfold number, w_int, rjust. rewrite <- !app_assoc. rewrite (app_assoc (blanks 1)).
    unfold show_Z. destruct (Z.ltb_spec (len (g_comments g)) 0) as [|]; [pose proof (len_nonneg (g_comments g)); lia|].
    rewrite get_int_nat; [|pose proof (len_nonneg (g_comments g)); lia|apply Forall_app; split; apply blanks_space|unfold pad; destruct (80 - _)%nat; [exact I|reflexivity]].
    destruct Sa as (_ & Fa & Na & _). destruct St as (_ & Ft & Nt & _). rewrite (positive_value a), (positive_value t) by congruence. cbn [throw_if bind].
    destruct (Z.ltb_spec (len (g_comments g)) 0) as [|]; [lia|]. cbn [throw_if bind].
    replace (Z.to_nat (len (g_comments g))) with (length (g_comments g)) by (unfold len; lia). unfold body. rewrite (comments_round_trip _ r CO).
    unfold make_header201. rewrite (strip_stripped _ (word_stripped _ VW)), P1, P2, (strip_stripped _ (word_stripped _ DW)). reflexivity.
  - repeat split; try reflexivity; try apply Sa; try apply St.
  - split; assumption.
  - intros r. rewrite <- !app_assoc. cbn [app]. set (rest := w_fix 12 6 (g_awr g) ++ _). clearbody rest.
    destruct (modern_line1 g (rest ++ r) OK) as (s1' & s2' & E1' & E2' & _ & _ & _ & _ & _ & _ & RV).
    assert (s1' = s1) by congruence. assert (s2' = s2) by congruence. subst s1' s2'. exact RV.
Qed.

(** ** Data *)
Lemma Forall_exists2 {A B} (P : A -> B -> Prop) l : Forall (fun x => exists y, P x y) l -> exists l', Forall2 P l l'.
Proof. induction 1 as [|x l (y & Hy) _ (l' & H)]; [exists []; constructor|]. exists (y :: l'). constructor; assumption. Qed.
Lemma Forall2_impl' {A B} (P Q : A -> B -> Prop) l l' : (forall x y, P x y -> Q x y) -> Forall2 P l l' -> Forall2 Q l l'.
Proof. intros H. induction 1; constructor; auto. Qed.
Lemma combine_pairs rd iz : forall aw aw', length iz = length aw ->
  Forall (fun n => (length (show_Z n) <= 7)%nat) iz ->
  Forall2 (fun x y => (length (show_fixed 7 x) <= 11)%nat /\ rd (show_fixed 7 x) = Some y) aw aw' -> Forall2 (pair_ok rd) (combine iz aw) aw'.
Proof.
  induction iz as [|n iz IH]; intros aw aw' L H1 H2; destruct H2 as [|x y aw aw' [Hx Hy] H2]; cbn [length] in L; try discriminate; cbn [combine]; [constructor|].
  inversion H1; subst. constructor; [split; [assumption|split; assumption]|]. apply IH; [congruence|assumption|assumption].
Qed.
Lemma sl_concat {A} (l : list A) : length l = 16%nat -> sl 0 4 l ++ sl 4 4 l ++ sl 8 4 l ++ sl 12 4 l = l.
Proof. intros L. rewrite (sl_app 8 4 4), (sl_app 4 4 8), (sl_app 0 4 12). apply sl_all. exact L. Qed.
Lemma map_fst_combine {A B} (l : list A) : forall (m : list B), length l = length m -> map fst (combine l m) = l.
Proof. induction l as [|a l IH]; intros [|b m] L; cbn in *; try discriminate; [reflexivity|]. f_equal. apply IH. congruence. Qed.

Lemma data_round_trip rd bm d : reads_numbers rd -> data_ok d ->
  exists t d', print_data bm d = Ok t /\ (forall r, parse_data rd (t ++ r) = Ok (d', r)) /\ same_data d d' /\ data_read rd d d'.
Proof.
  intros [RF RS] ((W1 & W2 & W3 & W4) & H1 & H2 & H3 & H4 & H5 & H6). unfold len in W1, W2, W3, W4.
  assert (L1 : length (d_iz d) = 16%nat) by lia. assert (L2 : length (d_aw d) = 16%nat) by lia. assert (L3 : length (d_nxs d) = 16%nat) by lia. assert (L4 : length (d_jxs d) = 32%nat) by lia.
  assert (B : forall n : nat, (n <= 32)%nat -> Z.of_nat n < 2 ^ 63) by (intros n Hn; apply Z.le_lt_trans with 32; [lia|reflexivity]).
  (* the numbers as they are read *)
  assert (A : exists aw', Forall2 (fun x y => ((length (show_fixed 7 x) <= 11)%nat /\ rd (show_fixed 7 x) = Some y) /\ same_fixed 7 x y) (d_aw d) aw').
  { apply Forall_exists2. eapply Forall_impl; [|exact H2]. intros x [Px Lx]. destruct (RF 7%nat x ltac:(lia) Px) as (y & R & S). exists y. tauto. }
  destruct A as (aw' & A).
  assert (X : exists xss', Forall2 (fun x y => real_ok rd x y /\ same_sci 12 x y) (d_xss d) xss').
  { apply Forall_exists2. eapply Forall_impl; [|exact H6]. intros x Px. destruct (RS 12%nat x ltac:(lia) Px) as (y & R & S). exists y. split; [|exact S]. split; [exact (length_sci 12 x ltac:(lia) Px)|exact R]. }
  destruct X as (xss' & X).
  (* IZ and AW *)
  set (pairs := combine (d_iz d) (d_aw d)). assert (LP : length pairs = 16%nat) by (unfold pairs; rewrite combine_length; lia).
  assert (PZ : forall a, (a + 4 <= 16)%nat -> mapM (pair_at bm d) (seqZ (Z.of_nat a + 1) 4) = Ok (sl a 4 pairs)).
  { intros a Ha. apply seqZ_pair; unfold len; rewrite ?L1, ?L2; try lia; apply B; lia. }
  pose proof (PZ 0%nat ltac:(lia)) as Z1. pose proof (PZ 4%nat ltac:(lia)) as Z2. pose proof (PZ 8%nat ltac:(lia)) as Z3. pose proof (PZ 12%nat ltac:(lia)) as Z4.
  cbn [seqZ Z.of_nat Z.add Pos.add Pos.succ Pos.of_succ_nat] in Z1, Z2, Z3, Z4. clear PZ.
  assert (PN : forall (s : list Z) a n, (a + n <= length s)%nat -> (length s <= 32)%nat -> mapM (fetch bm s) (seqZ (Z.of_nat a + 1) n) = Ok (sl a n s)).
  { intros s a n Ha Hs. apply seqZ_fetch; [lia|]. unfold len. apply B. lia. }
  pose proof (PN (d_nxs d) 1%nat 7%nat ltac:(lia) ltac:(lia)) as N1. pose proof (PN (d_nxs d) 8%nat 8%nat ltac:(lia) ltac:(lia)) as N2.
  pose proof (PN (d_jxs d) 0%nat 8%nat ltac:(lia) ltac:(lia)) as J1. pose proof (PN (d_jxs d) 8%nat 8%nat ltac:(lia) ltac:(lia)) as J2.
  pose proof (PN (d_jxs d) 16%nat 8%nat ltac:(lia) ltac:(lia)) as J3. pose proof (PN (d_jxs d) 24%nat 8%nat ltac:(lia) ltac:(lia)) as J4.
  cbn [seqZ Z.of_nat Z.add Pos.add Pos.succ Pos.of_succ_nat] in N1, N2, J1, J2, J3, J4. clear PN.
  destruct (xss_round_trip rd (d_xss d) xss' (Forall2_impl' _ _ _ _ (fun x y H => proj1 H) X)) as (tx & PX & RX).
  unfold print_data. rewrite Z1, Z2, Z3, Z4. cbn [bind]. change (d_NXS bm d) with (fetch bm (d_nxs d)). change (d_JXS bm d) with (fetch bm (d_jxs d)).
  rewrite N1, N2, J1, J2, J3, J4. cbn [bind]. rewrite PX. cbn [bind].
  set (nxs' := len (d_xss d) :: tl (d_nxs d)).
  eexists. exists (TData (d_iz d) aw' nxs' (d_jxs d) xss'). split; [reflexivity|]. split.
  2:{ split; [|split; [exact (Forall2_impl' _ _ _ _ (fun x y H => proj2 (proj1 H)) A)|exact (Forall2_impl' _ _ _ _ (fun x y H => proj2 (proj1 H)) X)]].
      split; [reflexivity|]. split; [exact (Forall2_impl' _ _ _ _ (fun x y H => proj2 H) A)|]. split; [reflexivity|]. split; [reflexivity|].
      cbn [d_xss]. split; [|exact (Forall2_impl' _ _ _ _ (fun x y H => proj2 H) X)]. unfold len. rewrite (Forall2_len _ _ _ X). reflexivity. }
  intros r. unfold parse_data.
  (* IZ and AW *)
  pose proof (combine_pairs rd (d_iz d) (d_aw d) aw' ltac:(lia) H1 (Forall2_impl' _ _ _ _ (fun x y H => proj1 H) A)) as CP. fold pairs in CP.
  assert (LA : length aw' = 16%nat) by (rewrite <- (Forall2_len _ _ _ A); exact L2).
  match goal with |- context [parse_izaw_lines rd 4 ?u] => set (text1 := u) end.
  set (rest1 := int_record 9 (len (d_xss d) :: sl 1 7 (d_nxs d)) ++ int_record 9 (sl 8 8 (d_nxs d)) ++ (int_record 9 (sl 0 8 (d_jxs d)) ++ int_record 9 (sl 8 8 (d_jxs d)) ++ int_record 9 (sl 16 8 (d_jxs d)) ++ int_record 9 (sl 24 8 (d_jxs d)) ++ tx ++ r)).
  pose proof (parse_izaw_lines_w rd [sl 0 4 pairs; sl 4 4 pairs; sl 8 4 pairs; sl 12 4 pairs] [sl 0 4 aw'; sl 4 4 aw'; sl 8 4 aw'; sl 12 4 aw'] rest1) as IZ.
  assert (C1 : forall a, (a + 4 <= 16)%nat -> length (sl a 4 pairs) = 4%nat /\ Forall2 (pair_ok rd) (sl a 4 pairs) (sl a 4 aw')).
  { intros a Ha. split; [apply sl_length; lia|apply sl_Forall2; exact CP]. }
  specialize (IZ ltac:(repeat (constructor; [apply C1; lia|]); constructor)). cbn [map concat length] in IZ. rewrite !app_nil_r in IZ. rewrite (sl_concat pairs LP), (sl_concat aw' LA) in IZ.
  assert (T1 : text1 = (izaw_record (sl 0 4 pairs) ++ izaw_record (sl 4 4 pairs) ++ izaw_record (sl 8 4 pairs) ++ izaw_record (sl 12 4 pairs)) ++ rest1).
  { unfold text1, rest1. rewrite <- !app_assoc. reflexivity. }
  rewrite T1, IZ. cbn [bind snd fst]. clear IZ T1 text1. unfold rest1. clear rest1.
  (* NXS *)
  match goal with |- context [int_record 9 (sl 8 8 (d_nxs d)) ++ ?u] => set (rest2 := u) end.
  pose proof (parse_int_lines_w [len (d_xss d) :: sl 1 7 (d_nxs d); sl 8 8 (d_nxs d)] rest2) as NX.
  assert (LX : (length (show_Z (len (d_xss d))) <= 9)%nat) by (apply length_show_Z; [pose proof (len_nonneg (d_xss d)); change (10 ^ Z.of_nat 9) with (10 ^ 9); lia|lia]).
  assert (SN : forall a n, sl (S a) n (d_nxs d) = sl a n (tl (d_nxs d))) by (intros a n; destruct (d_nxs d) as [|z zs]; [discriminate L3|reflexivity]).
  specialize (NX ltac:(constructor; [split; [cbn [length]; rewrite sl_length by lia; reflexivity|constructor; [exact LX|rewrite SN; apply sl_Forall; exact H3]]|
    constructor; [split; [apply sl_length; lia|rewrite SN; apply sl_Forall; exact H3]|constructor]])).
  cbn [map concat length] in NX. rewrite !app_nil_r in NX. rewrite <- app_assoc in NX. rewrite NX. cbn [bind snd fst app]. clear NX. unfold rest2. clear rest2.
  (* JXS *)
  pose proof (parse_int_lines_w [sl 0 8 (d_jxs d); sl 8 8 (d_jxs d); sl 16 8 (d_jxs d); sl 24 8 (d_jxs d)] (tx ++ r)) as JX.
  assert (C2 : forall a, (a + 8 <= 32)%nat -> length (sl a 8 (d_jxs d)) = 8%nat /\ Forall (fun n => (length (show_Z n) <= 9)%nat) (sl a 8 (d_jxs d))).
  { intros a Ha. split; [apply sl_length; lia|apply sl_Forall; exact H4]. }
  specialize (JX ltac:(repeat (constructor; [apply C2; lia|]); constructor)). cbn [map concat length] in JX. rewrite !app_nil_r in JX. rewrite <- !app_assoc in JX. rewrite JX. cbn [bind snd fst]. clear JX.
  rewrite RX. cbn [bind snd fst].
  unfold pairs. rewrite (map_fst_combine (d_iz d) (d_aw d)) by lia.
  assert (E1 : (len (d_xss d) :: sl 1 7 (d_nxs d)) ++ sl 8 8 (d_nxs d) = nxs').
  { cbn [app]. rewrite (sl_app 1 7 8). unfold nxs'. f_equal. rewrite SN. apply sl_all. destruct (d_nxs d); cbn in *; lia. }
  assert (E2 : sl 0 8 (d_jxs d) ++ sl 8 8 (d_jxs d) ++ sl 16 8 (d_jxs d) ++ sl 24 8 (d_jxs d) = d_jxs d).
  { rewrite (sl_app 16 8 8), (sl_app 8 8 16), (sl_app 0 8 24). apply sl_all. exact L4. }
  cbn [app] in E1. rewrite E1, E2. reflexivity.
Qed.

(** ** Tables *)
Lemma text_eqb_eq a b : text_eqb a b = true <-> a = b.
Proof.
  revert b. induction a as [|c a IH]; intros [|d b]; cbn [text_eqb]; split; intros H; try reflexivity; try discriminate.
  - apply andb_prop in H as [H1 H2]. apply Ascii.eqb_eq in H1. apply IH in H2. congruence.
  - injection H as -> ->. rewrite Ascii.eqb_refl. apply IH. reflexivity.
Qed.
Lemma version_eqb v : text_eqb v (txt "2.0.0") || text_eqb v (txt "2.0.1") = true <-> version_word v.
Proof. unfold version_word. rewrite <- (text_eqb_eq v (txt "2.0.0")), <- (text_eqb_eq v (txt "2.0.1")). destruct (text_eqb v (txt "2.0.0")), (text_eqb v (txt "2.0.1")); cbn; intuition congruence. Qed.

Lemma table_round_trip_read rd bm t : reads_numbers rd -> table_ok t ->
  exists text t', print_table bm t = Ok text /\ (forall r, parse_table rd (text ++ r) = Ok (t', r)) /\ same_table t t' /\ table_read rd t t'.
Proof.
  intros R [H D]. destruct t as [h d]. cbn [fst snd] in *. destruct (data_round_trip rd bm d R D) as (td & d' & PD & RD & SD & DD). unfold print_table. cbn [fst snd].
  destruct h as [h|g].
  - destruct (header_round_trip rd h R H) as (th & h' & PH & RH & SH & HH). rewrite PH, PD. cbn [bind].
    exists (th ++ td), (Legacy h', d'). split; [reflexivity|]. split; [|split; split; assumption]. intros r. unfold parse_table. rewrite <- app_assoc.
    pose proof (legacy_version h th (td ++ r) H PH) as NV. rewrite <- version_eqb in NV. destruct (_ || _); [exfalso; apply NV; reflexivity|].
    rewrite RH. cbn [bind fst snd]. rewrite RD. reflexivity.
  - destruct (header201_round_trip rd g H) as (th & g' & PH & RH & SH & HH & RV). rewrite PH, PD. cbn [bind].
    exists (th ++ td), (Modern g', d'). split; [reflexivity|]. split; [|split; split; assumption]. intros r. unfold parse_table. rewrite <- app_assoc.
    rewrite RV. replace (text_eqb (g_vers g) (txt "2.0.0") || text_eqb (g_vers g) (txt "2.0.1")) with true by (symmetry; apply version_eqb; apply H).
    rewrite RH. cbn [bind fst snd]. rewrite RD. reflexivity.
Qed.

Lemma table_round_trip rd bm t : reads_numbers rd -> table_ok t ->
  exists text t', print_table bm t = Ok text /\ (forall r, parse_table rd (text ++ r) = Ok (t', r)) /\ same_table t t'.
Proof. intros R H. destruct (table_round_trip_read rd bm t R H) as (x & t' & A & B & C & _). exists x, t'. auto. Qed.

(** ** The text of the table that was read *)
Lemma map_w_sci l l' : Forall2 (same_sci 12) l l' -> map (w_sci 20 12) l' = map (w_sci 20 12) l.
Proof. induction 1 as [|x y l l' (_ & _ & _ & _ & E & _) _ IH]; [reflexivity|]. cbn [map]. unfold w_sci at 1 3. rewrite E, IH. reflexivity. Qed.
Lemma print_xss_lines_map n : forall l l' t s, map (w_sci 20 12) l' = map (w_sci 20 12) l -> print_xss_lines n l = Ok (t, s) ->
  exists s', print_xss_lines n l' = Ok (t, s') /\ map (w_sci 20 12) s' = map (w_sci 20 12) s.
Proof.
  induction n as [|n IH]; intros l l' t s M H; cbn [print_xss_lines] in *.
  - apply Ok_inj in H. apply pair_equal_spec in H as [<- <-]. exists l'. split; [reflexivity|exact M].
  - destruct l as [|a [|b [|c [|d l]]]]; try discriminate H. destruct l' as [|a' [|b' [|c' [|d' l']]]]; try discriminate M. cbn [map] in M. injection M as M1 M2 M3 M4 M.
    destruct (print_xss_lines n l) as [[u v]|e|] eqn:E; try discriminate H. cbn [bind fst snd] in H. apply Ok_inj in H. apply pair_equal_spec in H as [<- <-].
    destruct (IH l l' u v M E) as (s' & -> & Ms). exists s'. cbn [bind fst snd]. rewrite M1, M2, M3, M4. split; [reflexivity|exact Ms].
Qed.
Lemma print_xss_rest_map n : forall l l', map (w_sci 20 12) l' = map (w_sci 20 12) l -> print_xss_rest n l' = print_xss_rest n l.
Proof.
  induction n as [|n IH]; intros l l' M; cbn [print_xss_rest]; [reflexivity|]. destruct l as [|a l], l' as [|a' l']; try discriminate M; [reflexivity|]. cbn [map] in M. injection M as M1 M.
  rewrite (IH l l' M), M1. reflexivity.
Qed.
Lemma print_xss_same l l' t : Forall2 (same_sci 12) l l' -> print_xss l = Ok t -> print_xss l' = Ok t.
Proof.
  intros H P. pose proof (map_w_sci l l' H) as M. unfold print_xss in *. rewrite <- (Forall2_len _ _ _ H).
  destruct (print_xss_lines (length l / 4) l) as [[u v]|e|] eqn:E; try discriminate P. destruct (print_xss_lines_map _ l l' u v M E) as (s' & -> & Ms). cbn [bind fst snd] in *.
  destruct (length l mod 4)%nat; [exact P|]. rewrite (print_xss_rest_map _ v s' Ms). exact P.
Qed.
Lemma print_data_same bm d d' t : data_ok d -> same_data d d' -> print_data bm d = Ok t -> print_data bm d' = Ok t.
Proof.
  intros ((W1 & W2 & W3 & W4) & _) (S1 & S2 & S3 & S4 & S5 & S6) P. unfold len in W1, W2, W3, W4.
  assert (L2' : length (d_aw d') = 16%nat) by (rewrite <- (Forall2_len _ _ _ S2); lia).
  assert (B : forall n : nat, (n <= 32)%nat -> Z.of_nat n < 2 ^ 63) by (intros n Hn; apply Z.le_lt_trans with 32; [lia|reflexivity]).
  assert (EP : forall a, (a + 4 <= 16)%nat -> exists l l', mapM (pair_at bm d) (seqZ (Z.of_nat a + 1) 4) = Ok l /\ mapM (pair_at bm d') (seqZ (Z.of_nat a + 1) 4) = Ok l' /\ izaw_record l' = izaw_record l).
  { intros a Ha. exists (sl a 4 (combine (d_iz d) (d_aw d))), (sl a 4 (combine (d_iz d') (d_aw d'))).
    split; [apply seqZ_pair; unfold len; try lia; apply B; lia|]. split; [apply seqZ_pair; unfold len; rewrite ?S1; try lia; apply B; lia|].
    unfold izaw_record. f_equal. f_equal. rewrite S1.
    assert (F : Forall2 (fun x y => fst y = fst x /\ show_fixed 7 (snd y) = show_fixed 7 (snd x)) (combine (d_iz d) (d_aw d)) (combine (d_iz d) (d_aw d'))).
    { clear -S2. revert S2. generalize (d_aw d), (d_aw d'). induction (d_iz d) as [|n iz IH]; intros l l' H; [constructor|]. destruct H as [|x y l l' (_ & _ & _ & E & _) H]; cbn [combine]; [constructor|].
      constructor; [split; [reflexivity|exact E]|]. apply IH. exact H. }
    apply (sl_Forall2 _ a 4) in F. induction F as [|x y l l' [E1 E2] _ IH]; [reflexivity|]. cbn [map]. unfold w_fix at 1 3. rewrite E1, E2, IH. reflexivity. }
  assert (EN : forall a n, (a + n <= 15)%nat -> mapM (d_NXS bm d') (seqZ (Z.of_nat (S a) + 1) n) = mapM (d_NXS bm d) (seqZ (Z.of_nat (S a) + 1) n)).
  { intros a n Ha. change (d_NXS bm d) with (fetch bm (d_nxs d)). change (d_NXS bm d') with (fetch bm (d_nxs d')). rewrite S3.
    rewrite !(seqZ_fetch bm) by (unfold len; cbn [length]; destruct (d_nxs d); cbn [tl length] in *; try lia; apply B; lia). destruct (d_nxs d); [cbn in W3; lia|]. reflexivity. }
  destruct (EP 0%nat ltac:(lia)) as (l1 & m1 & A1 & B1 & C1). destruct (EP 4%nat ltac:(lia)) as (l2 & m2 & A2 & B2 & C2).
  destruct (EP 8%nat ltac:(lia)) as (l3 & m3 & A3 & B3 & C3). destruct (EP 12%nat ltac:(lia)) as (l4 & m4 & A4 & B4 & C4).
  pose proof (EN 0%nat 7%nat ltac:(lia)) as N1. pose proof (EN 7%nat 8%nat ltac:(lia)) as N2.
  cbn [seqZ Z.of_nat Z.add Pos.add Pos.succ Pos.of_succ_nat] in A1, A2, A3, A4, B1, B2, B3, B4, N1, N2.
  unfold print_data in *. rewrite A1, A2, A3, A4 in P. rewrite B1, B2, B3, B4. cbn [bind] in *. rewrite N1, N2.
  change (d_JXS bm d') with (fetch bm (d_jxs d')). change (d_JXS bm d) with (fetch bm (d_jxs d)) in P. rewrite S4, S5, C1, C2, C3, C4.
  destruct (print_xss (d_xss d)) as [tx|e|] eqn:X.
  - rewrite (print_xss_same _ _ tx S6 X). exact P.
  - exfalso. revert P. repeat (match goal with |- context [bind ?u _] => destruct u; cbn [bind]; try discriminate end).
  - exfalso. revert P. repeat (match goal with |- context [bind ?u _] => destruct u; cbn [bind]; try discriminate end).
Qed.
Lemma print_table_same bm t t' text : table_ok t -> same_table t t' -> print_table bm t = Ok text -> print_table bm t' = Ok text.
Proof.
  intros [H D] [SH SD] P. destruct t as [h d], t' as [h' d']. cbn [fst snd] in *. unfold print_table in *. cbn [fst snd] in *.
  destruct (match h with Legacy h0 => print_header h0 | Modern g => print_header201 g end) as [th|e|] eqn:E; try discriminate P. cbn [bind] in P.
  destruct (print_data bm d) as [td|e|] eqn:ED; try discriminate P. cbn [bind] in P.
  rewrite (print_data_same bm d d' td D SD ED). replace (match h' with Legacy h0 => print_header h0 | Modern g => print_header201 g end) with (Ok th); [exact P|]. symmetry. rewrite <- E.
  destruct h as [h|g], h' as [h'|g']; try contradiction.
  - destruct SH as (S1 & (_ & _ & _ & S2 & _) & (_ & _ & _ & _ & S3 & _) & S4 & S5 & S6). unfold print_header, w_fix, w_sci. rewrite S1, S2, S3, S4, S5, S6. reflexivity.
  - destruct SH as (S1 & S2 & S3 & (_ & _ & _ & S4 & _) & (_ & _ & _ & _ & S5 & _) & S6 & S7). unfold print_header201, w_fix, w_sci. rewrite S1, S2, S3, S4, S5, S6, S7. reflexivity.
Qed.

(** ** Files *)
Lemma parse_tables_texts_read rd bm ts : reads_numbers rd -> Forall table_ok ts ->
  exists texts ts', Forall2 (fun t text => print_table bm t = Ok text) ts texts /\ Forall2 same_table ts ts' /\ Forall2 (table_read rd) ts ts' /\
    forall fuel, (length (concat texts) <= fuel)%nat -> parse_tables rd fuel (concat texts) = Ok ts'.
Proof.
  intros R. induction 1 as [|t ts Ht _ (texts & ts' & P & S & SR & Q)].
  - exists [], []. split; [constructor|]. split; [constructor|]. split; [constructor|]. intros [|fuel] _; reflexivity.
  - destruct (table_round_trip_read rd bm t R Ht) as (text & t' & Pt & Rt & St & SRt). exists (text :: texts), (t' :: ts'). split; [constructor; assumption|]. split; [constructor; assumption|]. split; [constructor; assumption|].
    intros fuel L. cbn [concat] in *. rewrite app_length in L.
    assert (NE : text <> []).
    { intros ->. specialize (Rt []). pose proof (Rt) as R0. cbn [app] in R0.
      assert (R1 := table_round_trip rd bm t R Ht). unfold print_table in Pt. destruct (match fst t with Legacy h => print_header h | Modern g => print_header201 g end) as [th|e|] eqn:E; try discriminate Pt. cbn [bind] in Pt.
      destruct (print_data bm (snd t)) as [td|e|]; try discriminate Pt. cbn [bind] in Pt. apply Ok_inj in Pt. apply app_eq_nil in Pt as [-> _].
      destruct (fst t) as [h|g]; [unfold print_header in E|unfold print_header201 in E]; repeat (match type of E with context [bind ?u _] => destruct u; cbn [bind] in E; try discriminate E end);
        apply Ok_inj in E; apply (f_equal (@length ascii)) in E; rewrite ?app_length in E; cbn [length] in E; rewrite ?app_length in E; cbn [length] in E; lia. }
    destruct text as [|c text]; [congruence|]. cbn [length] in L. destruct fuel as [|fuel]; [lia|].
    cbn [app parse_tables]. specialize (Rt (concat texts)). cbn [app] in Rt. rewrite Rt. cbn [bind fst snd]. rewrite Q by lia. reflexivity.
Qed.
Lemma parse_tables_texts rd bm ts : reads_numbers rd -> Forall table_ok ts ->
  exists texts ts', Forall2 (fun t text => print_table bm t = Ok text) ts texts /\ Forall2 same_table ts ts' /\
    forall fuel, (length (concat texts) <= fuel)%nat -> parse_tables rd fuel (concat texts) = Ok ts'.
Proof. intros R H. destruct (parse_tables_texts_read rd bm ts R H) as (texts & ts' & P & S & _ & Q). exists texts, ts'. auto. Qed.
