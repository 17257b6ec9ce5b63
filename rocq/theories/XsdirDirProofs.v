(** Directories: round trip. *)
From Coq Require Import String.
From Coq Require Import ZArith Bool List Lia Ascii.
From Coq Require Import ZifyBool ZifyNat.
From Verif Require Import Base SZA SimpleLaws Angular.
From Verif Require Export XsdirProofs.
From Verif Require Import TableTextProofs.
Import ListNotations.
Open Scope Z_scope.

(** * Lines *)
Lemma next_line_line l r : one_line l -> l <> [] -> is_comment l = false -> next_line (l ++ nl :: r) = XLine (strip l) r false false (l ++ nl :: r).
Proof.
  intros O N C. unfold next_line. set (n := length _). destruct n; cbn [xs_getline]; rewrite get_line_nl by exact O; rewrite C; (destruct l; [congruence|reflexivity]).
Qed.
Lemma next_line_blank r : next_line (nl :: r) = next_line r.
Proof. unfold next_line. cbn [length xs_getline]. reflexivity. Qed.
Lemma next_line_end : next_line [] = XLine [] [] true true [].
Proof. reflexivity. Qed.
Lemma lower_fixed s : Forall (fun c => lower_char c = c) s -> lower s = s.
Proof. induction 1 as [|c s H _ IH]; [reflexivity|]. unfold lower in *. cbn [map]. rewrite H, IH. reflexivity. Qed.
Lemma strip_Forall (P : ascii -> Prop) s : Forall P s -> Forall P (strip s).
Proof.
  intros H. unfold strip. destruct (skip_spaces_shape s) as (a & Ea & _ & _). destruct (rstrip_shape (skip_spaces s)) as (b & Eb & _ & _). rewrite Ea, Eb in H.
  apply Forall_app in H as [_ H]. apply Forall_app in H as [H _]. exact H.
Qed.
Lemma words_length s : (length (words s) <= length s)%nat.
Proof.
  induction s as [|c s IH]; cbn [words length]; [lia|]. destruct (is_space c); [lia|]. destruct s as [|d s]; [cbn; lia|]. destruct (is_space d); [cbn [length] in *; lia|].
  destruct (words (d :: s)); cbn [length] in *; lia.
Qed.

(** * Ratios *)
Definition ratio_tokens (l : list (Z * double)) : list text := flat_map (fun r => [show_nat (fst r); show_fixed 8 (snd r)]) l.
Lemma ratio_tokens_length l : length (ratio_tokens l) = (2 * length l)%nat.
Proof. induction l as [|r l IH]; [reflexivity|]. unfold ratio_tokens in *. cbn [flat_map app length]. lia. Qed.
Definition ratio_read (r r' : Z * double) : Prop := is_uint (fst r) /\ finite (snd r) /\ fst r' = fst r /\ read_double (show_fixed 8 (snd r)) = Some (snd r').
Definition set_all (l m : list (Z * double)) : list (Z * double) := fold_left (fun m r => map_set (fst r) (snd r) m) l m.

Lemma read_ratios_w l l' : Forall2 ratio_read l l' -> forall fuel s m, words s = ratio_tokens l -> (length l <= fuel)%nat -> read_ratios fuel s m = set_all l' m.
Proof.
  induction 1 as [|[za x] [za' y] l l' (U & F & E & R) _ IH]; intros fuel s m W L.
  - destruct fuel; [reflexivity|]. cbn [read_ratios]. destruct (gu_none s W) as [-> _]. reflexivity.
  - cbn [fst snd] in *. cbn [ratio_tokens flat_map app fst snd] in W. destruct fuel as [|fuel]; [cbn in L; lia|]. cbn [read_ratios].
    destruct (gu _ _ _ U W) as (s1 & -> & W1). destruct (gd_fixed _ 8 _ y _ F R W1) as (s2 & -> & W2). rewrite (IH fuel s2 _ W2 ltac:(cbn in L; lia)). subst za'. reflexivity.
Qed.

Definition reads_ratios (X : text) (ps : list (Z * double)) (rest : text) : Prop := forall m fuel, (length X <= fuel)%nat ->
  let xl := next_line X in l_fail xl = false /\ l_eof xl = false /\ lower (l_text xl) = l_text xl /\
  exists xl', ratio_lines fuel (l_text xl) xl m = Ok (set_all ps m, xl') /\ l_eof xl' = false /\ l_rest xl' = rest.
Lemma reads_directory rest : reads_ratios (txt "directory" ++ nl :: rest) [] rest.
Proof.
  intros m fuel L xl. unfold xl. rewrite next_line_line; [|intros I; repeat (destruct I as [I|I]; [discriminate I|]); exact I|discriminate|reflexivity].
  cbn [l_fail l_eof l_text l_rest]. split; [reflexivity|]. split; [reflexivity|]. split; [reflexivity|]. eexists. split; [destruct fuel; reflexivity|]. split; reflexivity.
Qed.
Lemma reads_blank X ps rest : reads_ratios X ps rest -> reads_ratios (nl :: X) ps rest.
Proof. intros H m fuel L. rewrite next_line_blank. apply H. cbn [length] in L. lia. Qed.
Lemma directory_not_ratio s q : words s = ratio_tokens q -> q <> [] -> text_eqb s (txt "directory") = false.
Proof.
  intros W N. apply text_eqb_neq. intros ->. destruct q as [|[za x] q]; [congruence|]. cbn [ratio_tokens flat_map app fst snd] in W. change (words (txt "directory")) with [txt "directory"] in W. apply (f_equal (fun l => match l with a :: _ => a | [] => [] end)) in W. cbv beta iota in W.
  pose proof (show_nat_digits za) as D. rewrite <- W in D. inversion D; subst. discriminate.
Qed.
Lemma reads_line p q q' X ps rest : one_line p -> p <> [] -> is_comment p = false -> Forall (fun c => lower_char c = c) p -> words p = ratio_tokens q -> q <> [] -> Forall2 ratio_read q q' ->
  reads_ratios X ps rest -> reads_ratios (p ++ nl :: X) (q' ++ ps) rest.
Proof.
  intros O Np C Lp W N Q H m fuel L xl. unfold xl. clear xl. rewrite next_line_line by assumption. cbn [l_fail l_eof l_text l_rest]. split; [reflexivity|]. split; [reflexivity|].
  split; [apply lower_fixed, strip_Forall; exact Lp|]. rewrite app_length in L. cbn [length] in L. destruct fuel as [|fuel]; [lia|].
  cbn [ratio_lines]. rewrite (directory_not_ratio (strip p) q) by (try rewrite words_strip; assumption).
  unfold next_line_of. cbn [l_eof l_rest].
  rewrite (read_ratios_w q q' Q) by (first [rewrite words_strip; exact W|
    pose proof (words_length (strip p)) as WL; rewrite words_strip, W in WL; rewrite ratio_tokens_length in WL; lia]).
  destruct (H (set_all q' m) fuel ltac:(lia)) as (F & E & Lw & xl' & R & E' & Rs). rewrite F, Lw, R. exists xl'. split; [|split; assumption].
  unfold set_all. rewrite fold_left_app. reflexivity.
Qed.

(** the current, not yet finished line *)
Definition open_line (p : text) (q : list (Z * double)) : Prop :=
  one_line p /\ is_comment p = false /\ Forall (fun c => lower_char c = c) p /\ words p = ratio_tokens q /\ (p = [] <-> q = []).
Lemma reads_open p q q' X ps rest : open_line p q -> Forall2 ratio_read q q' -> reads_ratios X ps rest -> reads_ratios (p ++ nl :: X) (q' ++ ps) rest.
Proof.
  intros (O & C & L & W & E) Q H. destruct p as [|c p].
  - destruct q; [|exfalso; destruct E as [E _]; specialize (E eq_refl); discriminate]. inversion Q; subst. cbn [app]. apply reads_blank. exact H.
  - apply (reads_line _ q); try assumption; [discriminate|]. intros ->. destruct E as [_ E]. specialize (E eq_refl). discriminate.
Qed.
Lemma lower_digit c : is_digit c = true -> lower_char c = c.
Proof. destruct c as [[] [] [] [] [] [] [] []]; intros H; try discriminate H; reflexivity. Qed.
Lemma lower_digits s : Forall (fun c => is_digit c = true) s -> Forall (fun c => lower_char c = c) s.
Proof. intros H. eapply Forall_impl; [|exact H]. exact lower_digit. Qed.
Lemma lower_blanks n : Forall (fun c => lower_char c = c) (blanks n).
Proof. unfold blanks. induction n; cbn [repeat]; constructor; [reflexivity|assumption]. Qed.
Lemma lower_fixed_text p x : finite x -> Forall (fun c => lower_char c = c) (show_fixed p x).
Proof.
  intros F. rewrite show_fixed_eq by exact F. apply Forall_app. split; [destruct (negative x); repeat constructor|]. unfold show_decimals. apply Forall_app. split; [apply lower_digits, show_nat_digits|].
  constructor; [reflexivity|apply lower_digits, show_pad_digits].
Qed.
Definition ratio_piece (r : Z * double) : text := rjust 8 (show_nat (fst r)) ++ rjust 13 (show_fixed 8 (snd r)).
Lemma ratio_piece_words r : ratio_ok r -> words (ratio_piece r) = ratio_tokens [r].
Proof.
  intros (U & P & L). unfold ratio_piece. rewrite words_rjust by (first [apply show_nat_word|apply show_nat_nonempty|rewrite <- (app_nil_r (rjust 13 _)); apply ends_rjust; lia]).
  rewrite <- (app_nil_r (rjust 13 _)), words_rjust by (first [apply show_fixed_word|apply show_fixed_nonempty; apply P|exact I]). reflexivity.
Qed.
Lemma ratio_piece_ends r u : ratio_ok r -> ends_number (ratio_piece r ++ u).
Proof.
  intros (U & P & L). unfold ratio_piece. rewrite <- app_assoc. apply ends_rjust. pose proof (length_show_nat (fst r) 7 ltac:(change (10 ^ Z.of_nat 7) with (10 ^ 7); lia) ltac:(lia)). lia.
Qed.
Lemma open_extend p q r b : ratio_ok r -> open_line p q \/ (p = blanks b /\ q = []) -> open_line (p ++ ratio_piece r) (q ++ [r]).
Proof.
  intros R Hp. pose proof R as (U & P & L).
  assert (G : one_line p /\ Forall (fun c => lower_char c = c) p /\ words p = ratio_tokens q /\ is_comment p = false).
  { destruct Hp as [(O & C & Lw & W & E)|[-> ->]]; [tauto|]. split; [apply blanks_one_line|]. split; [apply lower_blanks|]. split; [|destruct b; reflexivity].
    rewrite <- (app_nil_r (blanks b)), words_spaces by apply blanks_space. reflexivity. }
  destruct G as (O & Lw & W & C). split; [apply one_line_app; [exact O|apply one_line_app; apply rjust_one_line; [apply show_nat_word|apply show_fixed_word]]|].
  split.
  { destruct p as [|c p]; [|exact C]. cbn [app]. pose proof (ratio_piece_ends r [] R) as E. rewrite app_nil_r in E. destruct (ratio_piece r) as [|c t]; [reflexivity|]. cbn [ends_number is_comment] in *.
    destruct (Ascii.eqb_spec c "#"%char) as [->|]; [discriminate E|reflexivity]. }
  split; [apply Forall_app; split; [exact Lw|apply Forall_app; split; apply Forall_app; split; try apply lower_blanks; [apply lower_digits, show_nat_digits|apply lower_fixed_text; apply P]]|].
  split.
  - assert (E : ends_number (ratio_piece r)) by (rewrite <- (app_nil_r (ratio_piece r)); apply ratio_piece_ends; exact R).
    rewrite words_app_words by exact E. rewrite W, (ratio_piece_words r R). unfold ratio_tokens. rewrite flat_map_app. reflexivity.
  - split; intros X; [|destruct q; discriminate X]. exfalso. apply app_eq_nil in X as [_ X]. apply (f_equal words) in X. rewrite (ratio_piece_words r R) in X. discriminate X.
Qed.
Lemma open_nil : open_line [] [].
Proof. split; [intros []|]. split; [reflexivity|]. split; [constructor|]. split; [reflexivity|split; reflexivity]. Qed.
Lemma print_ratios_read l : forall l' p q q' count rest, Forall ratio_ok l -> Forall2 ratio_read l l' -> open_line p q -> Forall2 ratio_read q q' ->
  reads_ratios (p ++ print_ratios count l ++ nl :: nl :: txt "directory" ++ nl :: rest) (q' ++ l') rest.
Proof.
  induction l as [|r l IH]; intros l' p q q' count rest R F O Q; inversion F; subst.
  - cbn [print_ratios app]. apply (reads_open p q); [exact O|exact Q|]. apply reads_blank, reads_directory.
  - inversion R as [|? ? R1 R2]; subst. destruct r as [za x]. cbn [print_ratios].
    set (first := (za =? 1) || (za mod 1000 =? 0)). set (cnt := if first then -1 else count).
    assert (G : forall b, reads_ratios ((blanks b ++ ratio_piece (za, x)) ++ print_ratios (cnt + 1) l ++ nl :: nl :: txt "directory" ++ nl :: rest) ([y] ++ l'0) rest).
    { intros b. apply (IH l'0 _ [(za, x)] [y]); [exact R2|assumption|exact (open_extend (blanks b) [] (za, x) b R1 (or_intror (conj eq_refl eq_refl)))|constructor; [assumption|constructor]]. }
    rewrite <- !app_assoc.
    assert (A : forall u, rjust 8 (show_nat za) ++ rjust 13 (show_fixed 8 x) ++ u = ratio_piece (za, x) ++ u) by (intros u; unfold ratio_piece; rewrite <- app_assoc; reflexivity).
    rewrite A. destruct (first && negb (za =? 1)) eqn:E1.
    + assert (E2 : negb (cnt =? 0) && (Z.rem cnt 3 =? 0) = false) by (unfold cnt; apply andb_prop in E1 as [-> _]; reflexivity). rewrite E2. cbn [app].
      apply (reads_open p q); [exact O|exact Q|]. exact (G 0%nat).
    + cbn [app]. destruct (negb (cnt =? 0) && (Z.rem cnt 3 =? 0)).
      * cbn [app]. apply (reads_open p q); [exact O|exact Q|]. specialize (G 21%nat). rewrite <- app_assoc in G. exact G.
      * cbn [app]. replace (q' ++ y :: l'0) with ((q' ++ [y]) ++ l'0) by (rewrite <- app_assoc; reflexivity).
        pose proof (IH l'0 (p ++ ratio_piece (za, x)) (q ++ [(za, x)]) (q' ++ [y]) (cnt + 1) rest R2 ltac:(assumption) (open_extend p q (za, x) 0 R1 (or_introl O)) ltac:(apply Forall2_app; [exact Q|constructor; [assumption|constructor]])) as K.
        rewrite <- app_assoc in K. exact K.
Qed.

(** the map of the ratios *)
Lemma map_set_last m : forall k x, increasing (map fst m ++ [k]) -> map_set k x m = m ++ [(k, x)].
Proof.
  induction m as [|[k' x'] m IH]; intros k x H; [reflexivity|]. cbn [map_set app]. cbn [map app fst] in H.
  assert (K : k' < k).
  { clear -H. revert k' H. induction m as [|[a b] m IH]; intros k' H; cbn [map app fst] in H; [destruct H as [H _]; exact H|]. destruct H as [H1 H2]. specialize (IH a H2). lia. }
  destruct (Z.ltb_spec k k'); [lia|]. destruct (Z.eqb_spec k k'); [lia|]. f_equal. apply IH. destruct m; [exact I|]. cbn [map app fst] in H. destruct H as [_ H]. exact H.
Qed.
Lemma increasing_app a b : increasing (a ++ b) -> increasing a.
Proof.
  induction a as [|x a IH]; intros H; [exact I|]. destruct a as [|y a]; [exact I|]. cbn [app] in H. destruct H as [H1 H2]. split; [exact H1|apply IH; exact H2].
Qed.
Lemma set_all_increasing l : forall m, increasing (map fst (m ++ l)) -> set_all l m = m ++ l.
Proof.
  induction l as [|[k x] l IH]; intros m H; [rewrite app_nil_r; reflexivity|]. unfold set_all in *. cbn [fold_left fst snd].
  assert (E : m ++ (k, x) :: l = (m ++ [(k, x)]) ++ l) by (rewrite <- app_assoc; reflexivity). rewrite E in *. rewrite map_set_last.
  - apply IH. exact H.
  - rewrite map_app in H. apply increasing_app in H. rewrite map_app in H. exact H.
Qed.

(** * Entries *)
Lemma read_entries_texts es : Forall entry_ok es -> es <> [] -> exists texts es', mapM print_entry es = Ok texts /\ Forall2 same_entry es es' /\
  (exists l0 r0, concat texts = l0 ++ nl :: r0 /\ one_line l0 /\ l0 <> [] /\ is_comment l0 = false) /\
  forall fuel, (length (concat texts) <= fuel)%nat -> read_entries fuel (concat texts) = Ok es'.
Proof.
  induction es as [|e es IH]; intros H N; [congruence|]. inversion H as [|? ? He Hes]; subst.
  destruct (entry_round_trip e He) as (t & e' & l0 & r0 & P & Et & O0 & N0 & C0 & R & S).
  assert (LT : (1 <= length t)%nat) by (rewrite Et, app_length; cbn [length]; lia).
  destruct es as [|e2 es].
  - exists [t], [e']. cbn [mapM concat]. rewrite P. cbn [bind]. rewrite app_nil_r. split; [reflexivity|]. split; [constructor; [exact S|constructor]|]. split; [exists l0, r0; tauto|].
    intros fuel L. destruct fuel as [|fuel]; [lia|]. cbn [read_entries]. destruct (R []) as (L1 & EL & RL). rewrite app_nil_r in EL. rewrite EL. cbn [bind]. rewrite RL, next_line_end. reflexivity.
  - destruct (IH Hes ltac:(discriminate)) as (texts & es' & P2 & S2 & (l1 & r1 & E1 & O1 & N1 & C1) & R2). exists (t :: texts), (e' :: es'). cbn [mapM]. rewrite P. cbn [bind]. cbn [mapM] in P2. rewrite P2. cbn [bind concat].
    split; [reflexivity|]. split; [constructor; assumption|]. split; [exists l0, (r0 ++ concat texts); rewrite Et, <- app_assoc; tauto|].
    intros fuel L. rewrite app_length in L. destruct fuel as [|fuel]; [lia|]. cbn [read_entries]. destruct (R (concat texts)) as (L1 & EL & RL). rewrite EL. cbn [bind]. rewrite RL.
    cbv zeta. assert (NX : next_line (concat texts) = XLine (strip l1) r1 false false (concat texts)) by (rewrite E1; apply next_line_line; assumption).
    rewrite NX. cbn [l_eof l_start]. rewrite R2 by lia. reflexivity.
Qed.

(** * Directories *)
Lemma path_line p : path_ok p -> strip (txt "datapath=" ++ p) = txt "datapath=" ++ p /\ strip (skipn 8 (txt "datapath=" ++ p)) = "="%char :: p /\ one_line (txt "datapath=" ++ p).
Proof.
  intros (O & N & R). destruct (rstrip_shape p) as (b & _ & _ & [C|(r & c & C & Hc)]); [congruence|]. rewrite R in C.
  split; [|split].
  - unfold strip. cbn [txt list_ascii_of_string app]. rewrite skip_spaces_head by reflexivity. rewrite C.
    change ("d" :: "a" :: "t" :: "a" :: "p" :: "a" :: "t" :: "h" :: "=" :: r ++ [c])%char with (txt "datapath=" ++ r ++ [c]). rewrite app_assoc. apply rstrip_last. exact Hc.
  - cbn [txt list_ascii_of_string app skipn]. unfold strip. rewrite skip_spaces_head by reflexivity. rewrite C. change ("="%char :: r ++ [c]) with (("="%char :: r) ++ [c]). apply rstrip_last. exact Hc.
  - apply one_line_app; [|exact O]. intros I. repeat (destruct I as [I|I]; [discriminate I|]). exact I.
Qed.
Lemma read_path_line p : path_ok p -> read_path (txt "datapath=" ++ p) = Some p.
Proof.
  intros H. destruct (path_line p H) as (_ & S2 & _). unfold read_path.
  match goal with |- match ?a with _ => _ end = _ => change a with (strip (skipn 8 (txt "datapath=" ++ p))) end.
  rewrite S2. destruct p as [|c p]; [destruct H as (_ & N & _); congruence|reflexivity].
Qed.
Lemma xsdir_round_trip x : xsdir_ok x -> exists t x', print_xsdir x = Ok t /\ parse_xsdir t = Ok x' /\ same_xsdir x x'.
Proof.
  intros (HP & HI & HR & HN & HE). destruct (read_entries_texts _ HE HN) as (texts & es' & PE & SE & _ & RE).
  assert (L : exists l', Forall2 (fun r r' => ratio_read r r' /\ same_ratio r r') (xs_ratios x) l').
  { apply Forall_exists2. eapply Forall_impl; [|exact HR]. intros [za y] (U & P & _). cbn [fst snd] in *. destruct (fixed_stable' 8 y P) as (y' & R & S). exists (za, y').
    split; [split; [split; [apply U|]|split; [apply P|split; [reflexivity|exact R]]]|split; [reflexivity|exact S]]. cbn [fst]. eapply Z.lt_trans; [apply U|reflexivity]. }
  destruct L as (l' & L). assert (L1 : Forall2 ratio_read (xs_ratios x) l') by (eapply Forall2_impl'; [|exact L]; intros ? ? K; apply K). assert (L2 : Forall2 same_ratio (xs_ratios x) l') by (eapply Forall2_impl'; [|exact L]; intros ? ? K; apply K).
  assert (KE : map fst l' = map fst (xs_ratios x)) by (clear -L2; induction L2 as [|a b l l' [E _] _ IH]; [reflexivity|cbn [map]; congruence]).
  unfold print_xsdir. rewrite PE. cbn [bind]. set (R := print_ratios (-1) (xs_ratios x) ++ nl :: nl :: txt "directory" ++ nl :: concat texts).
  pose proof (print_ratios_read (xs_ratios x) l' [] [] [] (-1) (concat texts) HR L1 open_nil ltac:(constructor)) as G. cbn [app] in G. change (print_ratios (-1) (xs_ratios x) ++ nl :: nl :: txt "directory" ++ nl :: concat texts) with R in G.
  eexists. exists (XSDir (xs_path x) l' es'). split; [reflexivity|]. split; [|split; [reflexivity|split; assumption]].
  assert (AO : one_line (txt "atomic weight ratios")) by (intros I; repeat (destruct I as [I|I]; [discriminate I|]); exact I).
  set (awr := XLine (txt "atomic weight ratios") R false false (txt "atomic weight ratios" ++ nl :: R)).
  assert (NA : next_line (txt "atomic weight ratios" ++ nl :: R) = awr) by (rewrite next_line_line; [reflexivity|exact AO|discriminate|reflexivity]).
  match goal with |- parse_xsdir ?t = _ => set (s := t) end.
  assert (LR : (length R <= length s)%nat). { unfold s. rewrite app_length. cbn [length]. rewrite app_length. cbn [length]. lia. }
  assert (LE : (length (concat texts) <= length s)%nat). { unfold R in LR. rewrite app_length in LR. cbn [length] in LR. rewrite app_length in LR. cbn [length] in LR. lia. }
  (* the part after the first lines *)
  assert (K : (a <- ratio_lines (length s) (l_text (next_line_of awr)) (next_line_of awr) [] ;;
    e <- (if l_eof (snd a) then UB else read_entries (S (length s)) (l_rest (snd a))) ;; Ok (XSDir (xs_path x) (fst a) e)) = Ok (XSDir (xs_path x) l' es')).
  { unfold next_line_of. cbn [awr l_eof l_rest]. destruct (G [] (length s) LR) as (_ & _ & _ & xl' & -> & E' & Rs). cbn [bind snd fst]. rewrite E', Rs, RE by lia. cbn [bind].
    rewrite set_all_increasing by (cbn [app]; rewrite KE; exact HI). reflexivity. }
  unfold parse_xsdir. destruct (xs_path x) as [p|] eqn:EP.
  - destruct (path_line p (HP p eq_refl)) as (S1 & S2 & S3).
    assert (N1 : next_line s = XLine (txt "datapath=" ++ p) (txt "atomic weight ratios" ++ nl :: R) false false s).
    { unfold s at 1. fold R. rewrite <- app_assoc. rewrite app_assoc. rewrite next_line_line; [rewrite S1; reflexivity|exact S3|discriminate|reflexivity]. }
    rewrite N1. cbn [l_text l_eof l_rest]. replace (text_eqb (lower (firstn 8 (txt "datapath=" ++ p))) (txt "datapath")) with true by reflexivity.
    unfold next_line_of at 1 2 3. cbn [l_eof l_rest]. rewrite NA. cbn [awr l_text]. replace (text_eqb (lower (txt "atomic weight ratios")) (txt "atomic weight ratios")) with true by reflexivity. cbn [negb throw_if bind].
    assert (RP : read_path (txt "datapath=" ++ p) = Some p) by (apply read_path_line, HP; reflexivity). rewrite RP. destruct p as [|c p]; [destruct (HP [] eq_refl) as (_ & Np & _); congruence|]. exact K.
  - assert (N1 : next_line s = awr) by (unfold s; cbn [app]; rewrite next_line_blank; exact NA). rewrite N1. cbn [awr l_text]. exact K.
Qed.

(** * Printing what was read *)
Lemma same_entry_text e e' : same_entry e e' -> entry_text e' = entry_text e.
Proof.
  intros (S1 & (_ & _ & _ & S2 & _) & S3 & S4 & S5 & S6 & S7 & S8 & S9 & S10 & S11). rewrite !entry_text_eq. unfold access_text, tail2, tail3, tail4.
  rewrite S1, S2, S3, S4, S5, S6, S7, S8, S9, S11. destruct (x_temp e) as [t|], (x_temp e') as [t'|]; cbn [same_option] in S10; try contradiction; [|reflexivity].
  destruct S10 as (_ & _ & _ & _ & -> & _). reflexivity.
Qed.
Lemma same_entry_print e e' : same_entry e e' -> print_entry e' = print_entry e.
Proof. intros S. unfold print_entry, print_entry_steps. rewrite (same_entry_text e e' S). reflexivity. Qed.
Lemma same_ratios_print l l' : Forall2 same_ratio l l' -> forall count, print_ratios count l' = print_ratios count l.
Proof.
  induction 1 as [|[za x] [za' x'] l l' [E (_ & _ & _ & S & _)] _ IH]; intros count; [reflexivity|]. cbn [fst snd] in *. subst za'. cbn [print_ratios]. rewrite S, IH. reflexivity.
Qed.
Lemma same_xsdir_print x x' : same_xsdir x x' -> print_xsdir x' = print_xsdir x.
Proof.
  intros (S1 & S2 & S3). unfold print_xsdir. rewrite S1, (same_ratios_print _ _ S2). replace (mapM print_entry (xs_list x')) with (mapM print_entry (xs_list x)); [reflexivity|].
  clear -S3. induction S3 as [|e e' l l' S _ IH]; [reflexivity|]. cbn [mapM]. rewrite (same_entry_print e e' S), IH. reflexivity.
Qed.
