(** Directory entries and directories: round trips. *)
From Coq Require Import String.
From Coq Require Import ZArith Bool List Lia Ascii.
From Coq Require Import ZifyBool ZifyNat.
From Verif Require Import Base SZA SimpleLaws.
From Verif Require Export XsdirFacts.
From Verif Require Import TableTextProofs.
Import ListNotations.
Open Scope Z_scope.

(** * The text of an entry *)
Lemma words_rjust n w r : word w -> w <> [] -> ends_number r -> words (rjust n w ++ r) = w :: words r.
Proof. intros W N R. unfold rjust. rewrite <- app_assoc, words_spaces by apply blanks_space. apply words_word; assumption. Qed.
Lemma words_sp w r : word w -> w <> [] -> ends_number r -> words (sp :: w ++ r) = w :: words r.
Proof. intros W N R. change (sp :: w ++ r) with ([sp] ++ w ++ r). rewrite words_spaces by (constructor; [reflexivity|constructor]). apply words_word; assumption. Qed.
Lemma ends_rjust n w r : (length w < n)%nat -> ends_number (rjust n w ++ r).
Proof. intros L. unfold rjust. destruct (n - length w)%nat eqn:E; [lia|]. reflexivity. Qed.
Lemma show_fixed_nonempty p x : finite x -> show_fixed p x <> [].
Proof. intros F. rewrite show_fixed_eq by exact F. unfold show_decimals. intros E. apply app_eq_nil in E as [_ E]. apply app_eq_nil in E as [E _]. exact (show_nat_nonempty _ E). Qed.
Lemma show_sci_nonempty c p x : finite x -> valid x -> show_sci c p x <> [].
Proof. intros F V. rewrite show_sci_eq by assumption. unfold show_scientific, show_decimals. intros E. apply app_eq_nil in E as [_ E]. apply app_eq_nil in E as [E _]. apply app_eq_nil in E as [E _]. exact (show_nat_nonempty _ E). Qed.

Definition access_text (e : xentry) : text := match x_access e with Some a => a | None => txt "0" end.
Definition tail2 (e : xentry) : text :=
  match x_record e, x_entries e with
  | Some a, Some b => sp :: show_nat a ++ sp :: show_nat b
  | _, _ => match x_temp e, x_ptable e with None, false => [] | _, _ => txt " 0 0" end
  end.
Definition tail3 (e : xentry) : text := match x_temp e with Some t => rjust 13 (show_sci "e" 6 t) | None => if x_ptable e then txt " 0" else [] end.
Definition tail4 (e : xentry) : text := if x_ptable e then txt " ptable" else [].
Lemma entry_text_eq e : entry_text e = rjust 10 (x_zaid e) ++ rjust 13 (show_fixed 6 (x_awr e)) ++ (sp :: x_file e ++ (sp :: access_text e ++ (sp :: show_nat (x_type e) ++ (sp :: show_nat (x_address e) ++ (sp :: show_nat (x_length e) ++ (tail2 e ++ tail3 e ++ tail4 e)))))).
Proof. reflexivity. Qed.
Lemma access_name e : entry_ok e -> name_ok 95 (access_text e).
Proof.
  intros (_ & _ & _ & _ & _ & AC & _). unfold access_text. destruct (x_access e) as [a|]; [apply (AC a eq_refl)|].
  split; [repeat constructor|]. split; [discriminate|cbn; lia].
Qed.
Lemma ends_tail4 e : ends_number (tail4 e).
Proof. unfold tail4. destruct (x_ptable e); [reflexivity|exact I]. Qed.
Lemma ends_tail3 e : entry_ok e -> ends_number (tail3 e ++ tail4 e).
Proof.
  intros (_ & _ & _ & _ & _ & _ & _ & _ & _ & _ & TE). unfold tail3. destruct (x_temp e) as [t|]; [apply ends_rjust; destruct (TE t eq_refl) as (_ & _ & L); lia|].
  destruct (x_ptable e); [reflexivity|apply ends_tail4].
Qed.
Lemma ends_tail2 e : entry_ok e -> ends_number (tail2 e ++ tail3 e ++ tail4 e).
Proof.
  intros H. unfold tail2. destruct (x_record e), (x_entries e); try reflexivity; (destruct (x_temp e) eqn:E; [reflexivity|]; destruct (x_ptable e) eqn:P; [reflexivity|]; apply ends_tail3; exact H).
Qed.
Lemma words_tail4 e : words (tail4 e) = if x_ptable e then [txt "ptable"] else [].
Proof. unfold tail4. destruct (x_ptable e); reflexivity. Qed.
Lemma words_tail3 e : entry_ok e -> words (tail3 e ++ tail4 e) = (match x_temp e with Some t => [show_sci "e" 6 t] | None => if x_ptable e then [txt "0"] else [] end) ++ (if x_ptable e then [txt "ptable"] else []).
Proof.
  intros (_ & _ & _ & _ & _ & _ & _ & _ & _ & _ & TE). rewrite <- words_tail4. unfold tail3. destruct (x_temp e) as [t|].
  - destruct (TE t eq_refl) as (P & _ & L). rewrite words_rjust; [reflexivity|apply show_sci_word; reflexivity|apply show_sci_nonempty; apply P|apply ends_tail4].
  - destruct (x_ptable e) eqn:P; [|reflexivity]. unfold tail4. rewrite P. reflexivity.
Qed.
Lemma words_tail2 e : entry_ok e -> words (tail2 e ++ tail3 e ++ tail4 e) =
  (match x_record e, x_entries e with
   | Some a, Some b => [show_nat a; show_nat b]
   | _, _ => match x_temp e, x_ptable e with None, false => [] | _, _ => [txt "0"; txt "0"] end
   end) ++ words (tail3 e ++ tail4 e).
Proof.
  intros H. pose proof (ends_tail3 e H) as E3. unfold tail2.
  assert (Z : words (txt " 0 0" ++ tail3 e ++ tail4 e) = [txt "0"; txt "0"] ++ words (tail3 e ++ tail4 e)).
  { change (txt " 0 0" ++ tail3 e ++ tail4 e) with (sp :: txt "0" ++ (sp :: txt "0" ++ (tail3 e ++ tail4 e))). rewrite words_sp; [|repeat constructor|discriminate|reflexivity]. rewrite words_sp; [reflexivity|repeat constructor|discriminate|exact E3]. }
  destruct (x_record e) as [a|], (x_entries e) as [b|].
  - cbn [app]. rewrite <- !app_assoc. cbn [app]. rewrite words_sp by (first [apply show_nat_word|apply show_nat_nonempty|reflexivity]). rewrite words_sp by (first [apply show_nat_word|apply show_nat_nonempty|exact E3]). reflexivity.
  - destruct (x_temp e); [exact Z|]. destruct (x_ptable e); [exact Z|reflexivity].
  - destruct (x_temp e); [exact Z|]. destruct (x_ptable e); [exact Z|reflexivity].
  - destruct (x_temp e); [exact Z|]. destruct (x_ptable e); [exact Z|reflexivity].
Qed.
Lemma entry_text_words e : entry_ok e -> words (entry_text e) = entry_words e.
Proof.
  intros H. pose proof H as ((Z1 & Z2 & Z3) & _ & PA & LA & (F1 & F2 & F3) & _). destruct (access_name e H) as (A1 & A2 & _). rewrite entry_text_eq.
  rewrite words_rjust by (first [assumption|apply ends_rjust; lia]). rewrite words_rjust by (first [apply show_fixed_word|apply show_fixed_nonempty; apply PA|reflexivity]).
  rewrite words_sp by (first [assumption|reflexivity]). rewrite words_sp by (first [assumption|reflexivity]).
  rewrite words_sp by (first [apply show_nat_word|apply show_nat_nonempty|reflexivity]). rewrite words_sp by (first [apply show_nat_word|apply show_nat_nonempty|reflexivity]).
  rewrite words_sp by (first [apply show_nat_word|apply show_nat_nonempty|apply ends_tail2; exact H]). rewrite (words_tail2 e H), (words_tail3 e H). reflexivity.
Qed.

(** ** Its end and its runs *)
Definition good_end (f : text) : Prop := exists g c, f = g ++ [c] /\ is_space c = false /\ c <> "+"%char.
Lemma good_app a b : good_end b -> good_end (a ++ b).
Proof. intros (g & c & -> & S & N). exists (a ++ g), c. split; [apply app_assoc|split; assumption]. Qed.
Lemma good_cons c b : good_end b -> good_end (c :: b).
Proof. exact (good_app [c] b). Qed.
Lemma good_digits s : Forall (fun c => is_digit c = true) s -> s <> [] -> good_end s.
Proof.
  intros D N. destruct (exists_last N) as (g & c & ->). apply Forall_app in D as [_ D]. inversion D; subst. exists g, c. split; [reflexivity|]. split; [apply digit_is_word; assumption|].
  intros ->. discriminate.
Qed.
Lemma good_nat n : good_end (show_nat n).
Proof. apply good_digits; [apply show_nat_digits|apply show_nat_nonempty]. Qed.
Lemma good_sci c p x : finite x -> valid x -> good_end (show_sci c p x).
Proof.
  intros F V. rewrite show_sci_eq by assumption. apply good_app. unfold show_scientific. apply good_app. apply good_cons. unfold show_exponent. apply good_cons.
  apply good_digits; [apply show_pad_digits|]. intros E. apply (f_equal (@length ascii)) in E. rewrite length_show_pad in E. cbn [length] in E. pose proof (ndig_pos (Z.abs (snd (sci_digits p x)))). lia.
Qed.
Lemma entry_good_end e : entry_ok e -> good_end (entry_text e).
Proof.
  intros (_ & _ & _ & _ & _ & _ & _ & _ & _ & _ & TE). rewrite entry_text_eq. apply good_app, good_app, good_cons, good_app, good_cons, good_app, good_cons, good_app, good_cons, good_app, good_cons.
  unfold tail4. destruct (x_ptable e) eqn:P; [do 3 apply good_app; apply good_cons; exists (txt "ptabl"), "e"%char; repeat split; discriminate|]. rewrite app_nil_r.
  unfold tail3. destruct (x_temp e) as [t|] eqn:T.
  - do 2 apply good_app. unfold rjust. apply good_app. destruct (TE t eq_refl) as (Q & _). apply good_sci; apply Q.
  - rewrite P, app_nil_r. unfold tail2. rewrite T, P. destruct (x_record e), (x_entries e); [apply good_app, good_cons, good_app, good_cons, good_nat| | | ]; rewrite app_nil_r; apply good_nat.
Qed.
Lemma entry_not_comment e : entry_ok e -> is_comment (entry_text e) = false.
Proof.
  intros ((_ & N & _) & C & _). rewrite entry_text_eq. unfold rjust at 1. destruct (10 - length (x_zaid e))%nat; [|reflexivity]. cbn [blanks repeat app].
  destruct (x_zaid e) as [|c z]; [congruence|exact C].
Qed.
Lemma only_blanks_rjust n w : word w -> only_blanks (rjust n w).
Proof. intros W. unfold rjust. apply only_blanks_app; [apply blanks_only|apply word_only_blanks; exact W]. Qed.
Lemma only_blanks_sp w : only_blanks w -> only_blanks (sp :: w).
Proof. intros W. constructor; [reflexivity|exact W]. Qed.
Lemma entry_only_blanks e : entry_ok e -> only_blanks (entry_text e).
Proof.
  intros H. pose proof H as ((Z1 & Z2 & Z3) & _ & PA & LA & (F1 & F2 & F3) & _). destruct (access_name e H) as (A1 & A2 & _). rewrite entry_text_eq.
  assert (N : forall n, only_blanks (show_nat n)) by (intros n; apply word_only_blanks, show_nat_word).
  apply only_blanks_app; [apply only_blanks_rjust; exact Z1|]. apply only_blanks_app; [apply only_blanks_rjust, show_fixed_word|].
  apply only_blanks_sp, only_blanks_app; [apply word_only_blanks; exact F1|]. apply only_blanks_sp, only_blanks_app; [apply word_only_blanks; exact A1|].
  do 3 (apply only_blanks_sp, only_blanks_app; [apply N|]).
  apply only_blanks_app; [|apply only_blanks_app].
  - assert (Z : only_blanks (txt " 0 0")) by (repeat constructor; discriminate). unfold tail2. destruct (x_record e), (x_entries e); [apply only_blanks_sp, only_blanks_app; [apply N|apply only_blanks_sp, N]| | | ]; (destruct (x_temp e); [exact Z|]; destruct (x_ptable e); [exact Z|constructor]).
  - unfold tail3. destruct (x_temp e); [apply only_blanks_rjust, show_sci_word; reflexivity|]. destruct (x_ptable e); [repeat constructor; discriminate|constructor].
  - unfold tail4. destruct (x_ptable e); [repeat constructor; discriminate|constructor].
Qed.
Lemma words_last b : word b -> b <> [] -> forall a, exists ws w, words (a ++ b) = ws ++ [w] /\ (length b <= length w)%nat.
Proof.
  intros W N. induction a as [|x a (ws & w & E & L)].
  - exists [], b. cbn [app]. rewrite <- (app_nil_r b) at 1. rewrite (words_word b [] W N I). split; [reflexivity|lia].
  - cbn [app words]. destruct (is_space x) eqn:X; [exists ws, w; split; assumption|]. destruct (a ++ b) as [|d s] eqn:Es; [destruct ws; discriminate E|].
    rewrite E. destruct (is_space d); [exists ([x] :: ws), w; split; [reflexivity|exact L]|]. destruct ws as [|v ws]; cbn [app].
    + exists [], (x :: w). split; [reflexivity|cbn [length]; lia].
    + exists ((x :: v) :: ws), w. split; [reflexivity|exact L].
Qed.
Lemma nat_short n : is_uint n -> (length (show_nat n) <= 10)%nat.
Proof. intros [A B]. apply length_show_nat; [|lia]. split; [exact A|]. eapply Z.lt_trans; [exact B|reflexivity]. Qed.
Lemma entry_runs e : entry_ok e -> runs_ok (entry_text e).
Proof.
  intros H. pose proof H as ((Z1 & Z2 & Z3) & _ & PA & LA & (F1 & F2 & F3) & _ & U1 & U2 & U3 & RE & TE). destruct (access_name e H) as (A1 & A2 & A3).
  pose proof (entry_text_words e H) as W. pose proof (nat_short _ U1) as N1. pose proof (nat_short _ U2) as N2. pose proof (nat_short _ U3) as N3.
  set (rest := (match x_record e, x_entries e with
   | Some a, Some b => [show_nat a; show_nat b]
   | _, _ => match x_temp e, x_ptable e with None, false => [] | _, _ => [txt "0"; txt "0"] end
   end) ++
  (match x_temp e with Some t => [show_sci "e" 6 t] | None => if x_ptable e then [txt "0"] else [] end) ++
  (if x_ptable e then [txt "ptable"] else [])).
  assert (RS : Forall (fun w => (length w <= 94)%nat) rest).
  { unfold rest. apply Forall_app. split; [|apply Forall_app; split].
    - destruct (x_record e) as [a|], (x_entries e) as [b|]; try contradiction.
      + destruct RE as (Ua & Ub & _). pose proof (nat_short _ Ua). pose proof (nat_short _ Ub). repeat (constructor; [lia|]); constructor.
      + destruct (x_temp e), (x_ptable e); repeat (constructor; [cbn; lia|]); constructor.
    - destruct (x_temp e) as [t|]; [destruct (TE t eq_refl) as (_ & _ & L); constructor; [lia|constructor]|]. destruct (x_ptable e); repeat (constructor; [cbn; lia|]); constructor.
    - destruct (x_ptable e); repeat (constructor; [cbn; lia|]); constructor. }
  assert (W' : words (entry_text e) = [x_zaid e; show_fixed 6 (x_awr e); x_file e; access_text e; show_nat (x_type e); show_nat (x_address e)] ++ show_nat (x_length e) :: rest) by exact W.
  clearbody rest. clear W. split.
  - intros a b c E Wb. destruct b as [|x b]; [cbn; lia|]. destruct (words_run (x :: b) c Wb ltac:(discriminate) a) as (w & I & L). rewrite <- E, W' in I.
    assert (F : Forall (fun w => (length w <= 95)%nat) ([x_zaid e; show_fixed 6 (x_awr e); x_file e; access_text e; show_nat (x_type e); show_nat (x_address e)] ++ show_nat (x_length e) :: rest)).
    { apply Forall_app. split; [repeat (constructor; [lia|]); constructor|]. constructor; [lia|]. eapply Forall_impl; [|exact RS]. intros u Hu. cbv beta in Hu. lia. }
    rewrite Forall_forall in F. specialize (F w I). lia.
  - intros a b E Wb. destruct b as [|x b]; [cbn; lia|]. destruct (words_last (x :: b) Wb ltac:(discriminate) a) as (ws & w & Ew & L). rewrite <- E, W' in Ew.
    destruct (exists_last (l := show_nat (x_length e) :: rest) ltac:(discriminate)) as (r1 & r2 & Er). rewrite Er, app_assoc in Ew. apply app_inj_tail in Ew as [_ ->].
    assert (F : Forall (fun w => (length w <= 94)%nat) (r1 ++ [w])) by (rewrite <- Er; constructor; [lia|exact RS]). apply Forall_app in F as [_ F]. inversion F; subst. lia.
Qed.

(** ** Printing and reading an entry *)
Lemma split_more n : forall m w o, split_lines n w = Some o -> (n <= m)%nat -> split_lines m w = Some o.
Proof.
  induction n as [|n IH]; intros m w o H L; cbn [split_lines] in H.
  - destruct (Nat.leb_spec (length w) 100) as [S|S]; [|discriminate H]. destruct m; cbn [split_lines]; destruct (Nat.leb_spec (length w) 100); try lia; exact H.
  - destruct m as [|m]; [lia|]. cbn [split_lines]. destruct (length w <=? 100)%nat; [exact H|]. destruct (back_up (length w) (rev w)) as [r|]; [|exact H].
    destruct (split_lines n (blanks 4 ++ skipn (length r) w)) as [o'|] eqn:E; [|discriminate H]. rewrite (IH m _ o' E ltac:(lia)). exact H.
Qed.
Lemma entry_printed e : entry_ok e -> exists pieces lst l c,
  (forall steps, (length (entry_text e) <= steps)%nat -> print_entry_steps steps e = Some (Ok (continued_text pieces lst))) /\
  lst = l ++ [c] /\ is_space c = false /\ c <> "+"%char /\
  Forall (fun p => (length p <= 100)%nat /\ only_blanks p /\ is_comment p = false) pieces /\ (length lst <= 99)%nat /\ only_blanks lst /\ is_comment lst = false /\
  concat (map words pieces) ++ words lst = entry_words e.
Proof.
  intros H. destruct (entry_good_end e H) as (g & c & E & Sc & Nc).
  destruct (split_spec (length (entry_text e)) _ g c E Sc (entry_runs e H) (entry_only_blanks e H) (entry_not_comment e H) (le_n _)) as (pieces & lst & l & Sp & El & Fp & Ll & Ol & Cl & Wd).
  exists pieces, lst, l, c. split; [intros steps L; unfold print_entry_steps; exact (split_more _ _ _ _ Sp L)|]. repeat (split; [assumption|]). rewrite Wd. apply entry_text_words. exact H.
Qed.
Lemma pieces_length pieces lst : (length pieces <= length (continued_text pieces lst))%nat.
Proof. unfold continued_text. induction pieces as [|p ps IH]; cbn [map concat length]; [lia|]. rewrite <- !app_assoc, !app_length. rewrite !app_length in IH. cbn [length] in *. lia. Qed.
Lemma entry_round_trip e : entry_ok e -> exists t e' l0 r0, print_entry e = Ok t /\ t = l0 ++ nl :: r0 /\ one_line l0 /\ l0 <> [] /\ is_comment l0 = false /\
  (forall rest, exists L, entry_line (t ++ rest) = Ok (L, rest, false) /\ read_entry L = Some e') /\ same_entry e e'.
Proof.
  intros H. destruct (entry_printed e H) as (pieces & lst & l & c & P & El & Sc & Nc & Fp & Ll & Ol & Cl & Wd). set (t := continued_text pieces lst) in *.
  assert (R : forall rest, exists L, entry_line (t ++ rest) = Ok (L, rest, false) /\ words L = entry_words e).
  { intros rest. destruct (read_pieces pieces lst l c rest El Sc Nc Fp Ol Cl) as (l1 & r1 & G & J). unfold entry_line. fold t in G. rewrite G. cbn [bind].
    pose proof (pieces_length pieces lst) as PL. fold t in PL.
    destruct (J [] (S (length (t ++ rest))) (or_introl eq_refl) ltac:(rewrite app_length; lia)) as (L & EJ & WL). cbn [app] in EJ. exists L. split; [exact EJ|]. rewrite WL. exact Wd. }
  (* the value does not depend on the joined line *)
  destruct (R []) as (L0 & E0 & W0). destruct (read_entry_words e L0 H W0) as (e' & RE & SE).
  assert (U : forall L, words L = entry_words e -> read_entry L = Some e').
  { intros L W. destruct (read_entry_words e L H W) as (e2 & R2 & S2). assert (Q : e2 = e'); [|congruence].
    (* both are determined by the words *)
    clear -RE R2 W W0 H.
    pose proof H as (Z1 & Z2 & PA & LA & F1 & AC & U1 & U2 & U3 & RC & TE). unfold entry_words in W, W0. cbn [app] in W, W0. unfold read_entry in RE, R2.
    destruct (fixed_stable' 6 _ PA) as (a & Ra & Sa).
    destruct (gw _ _ _ W) as (s1 & E1 & V1). destruct (gw _ _ _ W0) as (u1 & E1' & V1'). rewrite E1 in R2. rewrite E1' in RE.
    destruct (gd_fixed _ 6 _ a _ (proj1 (proj2 PA)) Ra V1) as (s2 & E2 & V2). destruct (gd_fixed _ 6 _ a _ (proj1 (proj2 PA)) Ra V1') as (u2 & E2' & V2'). rewrite E2 in R2. rewrite E2' in RE.
    destruct (gw _ _ _ V2) as (s3 & E3 & V3). destruct (gw _ _ _ V2') as (u3 & E3' & V3'). rewrite E3 in R2. rewrite E3' in RE.
    destruct (gw _ _ _ V3) as (s4 & E4 & V4). destruct (gw _ _ _ V3') as (u4 & E4' & V4'). rewrite E4 in R2. rewrite E4' in RE.
    destruct (gu _ _ _ U1 V4) as (s5 & E5 & V5). destruct (gu _ _ _ U1 V4') as (u5 & E5' & V5'). rewrite E5 in R2. rewrite E5' in RE.
    destruct (gu _ _ _ U2 V5) as (s6 & E6 & V6). destruct (gu _ _ _ U2 V5') as (u6 & E6' & V6'). rewrite E6 in R2. rewrite E6' in RE.
    destruct (gu _ _ _ U3 V6) as (s7 & E7 & V7). destruct (gu _ _ _ U3 V6') as (u7 & E7' & V7'). rewrite E7 in R2. rewrite E7' in RE.
    assert (U0 : is_uint 0) by (split; reflexivity || lia).
    assert (T : forall s u ws, words s = ws ++ (if x_ptable e then [txt "ptable"] else []) -> words u = ws ++ (if x_ptable e then [txt "ptable"] else []) ->
      ws = (match x_temp e with Some t => [show_sci "e" 6 t] | None => if x_ptable e then [txt "0"] else [] end) -> ws <> [] ->
      exists x s' u' , get_double s = Some (x, s') /\ get_double u = Some (x, u') /\ words s' = (if x_ptable e then [txt "ptable"] else []) /\ words u' = (if x_ptable e then [txt "ptable"] else [])).
    { intros s u ws Ws Wu Ew Nw. destruct (x_temp e) as [t|] eqn:ET.
      - destruct (TE t eq_refl) as (Pt & _). destruct (sci_e_stable t Pt) as (y & Ry & _). subst ws. cbn [app] in Ws, Wu.
        destruct (gd_sci _ 6 t y _ (proj1 (proj2 Pt)) (proj1 Pt) Ry Ws) as (s' & G1 & V1a). destruct (gd_sci _ 6 t y _ (proj1 (proj2 Pt)) (proj1 Pt) Ry Wu) as (u' & G2 & V2a).
        exists y, s', u'. tauto.
      - destruct (x_ptable e); [|congruence]. subst ws. cbn [app] in Ws, Wu. destruct (gd_zero _ _ Ws) as (s' & G1 & V1a). destruct (gd_zero _ _ Wu) as (u' & G2 & V2a). eexists. exists s', u'. split; [exact G1|]. split; [exact G2|]. tauto. }
    destruct (words s7) as [|w ws] eqn:E8.
    - rewrite <- V7 in V7'. destruct (gu_none _ E8) as [G F]. destruct (gu_none _ V7') as [G' F']. rewrite G, F in R2. rewrite G', F' in RE. congruence.
    - assert (Q : exists r n, is_uint r /\ is_uint n /\ words s7 = [show_nat r; show_nat n] ++ (match x_temp e with Some t => [show_sci "e" 6 t] | None => if x_ptable e then [txt "0"] else [] end) ++ (if x_ptable e then [txt "ptable"] else []) /\ (x_temp e <> None \/ x_ptable e = true)).
      { rewrite E8, V7. destruct (x_record e) as [r|], (x_entries e) as [n|]; try contradiction.
        - exists r, n. destruct RC as (? & ? & _ & _ & K). tauto.
        - exists 0, 0. split; [exact U0|]. split; [exact U0|]. destruct (x_temp e); [split; [reflexivity|left; discriminate]|]. destruct (x_ptable e); [split; [reflexivity|right; reflexivity]|]. discriminate V7. }
      destruct Q as (r & n & Ur & Un & Q & K). assert (Q' : words u7 = [show_nat r; show_nat n] ++ (match x_temp e with Some t => [show_sci "e" 6 t] | None => if x_ptable e then [txt "0"] else [] end) ++ (if x_ptable e then [txt "ptable"] else [])) by (rewrite V7', <- V7, <- E8; exact Q).
      cbn [app] in Q, Q'. destruct (gu _ _ _ Ur Q) as (s8 & G8 & V8). destruct (gu _ _ _ Ur Q') as (u8 & G8' & V8'). rewrite G8 in R2. rewrite G8' in RE.
      destruct (gu _ _ _ Un V8) as (s9 & G9 & V9). destruct (gu _ _ _ Un V8') as (u9 & G9' & V9'). rewrite G9 in R2. rewrite G9' in RE.
      destruct (T s9 u9 _ V9 V9' eq_refl) as (x & s' & u' & D1 & D2 & X1 & X2). { destruct (x_temp e); [discriminate|]. destruct K as [K|K]; [congruence|]. rewrite K. discriminate. }
      rewrite D1 in R2. rewrite D2 in RE. destruct (x_ptable e).
      + destruct (gw _ _ _ X1) as (? & Y1 & _). destruct (gw _ _ _ X2) as (? & Y2 & _). rewrite Y1 in R2. rewrite Y2 in RE. congruence.
      + rewrite (gw_none _ X1) in R2. rewrite (gw_none _ X2) in RE. congruence. }
  assert (Lines : exists l0 r0, t = l0 ++ nl :: r0 /\ one_line l0 /\ l0 <> [] /\ is_comment l0 = false).
  { destruct pieces as [|p ps].
    - exists lst, []. split; [reflexivity|]. split; [apply only_blanks_one_line; exact Ol|]. split; [rewrite El; destruct l; discriminate|exact Cl].
    - inversion Fp as [|? ? (Lp & Op & Cp) Fp']; subst. exists (p ++ txt " +"), (continued_text ps (l ++ [c])). split; [unfold t, continued_text; cbn [map concat]; rewrite <- !app_assoc; reflexivity|].
      split; [apply one_line_app; [apply only_blanks_one_line; exact Op|intros [X|[X|[]]]; discriminate X]|]. split; [destruct p; discriminate|destruct p; [reflexivity|exact Cp]]. }
  destruct Lines as (l0 & r0 & Et & O0 & N0 & C0). exists t, e', l0, r0. split.
  { unfold print_entry. rewrite P by lia. reflexivity. }
  repeat (split; [assumption|]). split; [|exact SE]. intros rest. destruct (R rest) as (L & EL & WL). exists L. split; [exact EL|apply U; exact WL].
Qed.
