(** PhotoatomicTable: the data generated from blocks and its reading. *)
From Coq Require Import ZArith Bool List Lia Ascii.
From Coq Require Import ZifyBool ZifyNat.
From Verif Require Import PropLemmasBasic.
From Verif Require Export PhotoatomicRead.
Import ListNotations.
Open Scope Z_scope.

(** Electron blocks given to the constructor and their words *)
Record pe_given (i : paIn) (w : pew) (h : pe_shape) : Prop := {
  g_subsh : exists o, pa_subsh i = Some o /\ content (ad_v o) (w_subsh w) /\ ss_NSSH o = h_nssh h;
  g_sphel : exists o, pa_sphel i = Some o /\ content (ad_v o) (w_sphel w) /\ sp_NES o = h_nes h;
  g_xprob : exists o, pa_xprob i = Some o /\ content (bl_v o) (w_xprob w) /\ bl_n o = h_nssh h;
  g_esze : exists o, pa_esze i = Some o /\ content (ad_v o) (w_esze w) /\ ez_NSSH o = h_nssh h /\ ez_NE o = h_ne h;
  g_excit : exists o, pa_excit i = Some o /\ content (ad_v o) (w_excit w) /\ two_N o = h_nxl h;
  g_elas : exists o, pa_elas i = Some o /\ content (eb_v o) (w_elas w) /\ eb_N o = h_na h;
  g_eion : Forall2 ei_given (pa_eion i) (w_eion w) /\ Forall (fun i => fst i < 2 ^ 30) (w_eion w);
  g_breme : exists o, pa_breme i = Some o /\ content (eb_v o) (w_breme w) /\ eb_N o = h_nb h;
  g_breml : exists o, pa_breml i = Some o /\ content (ad_v o) (w_breml w) /\ two_N o = h_nbl h;
  g_selas : match pa_selas i, w_selas w with Some o, Some x => content (ad_v o) x /\ two_N o = h_ne h | None, None => True | _, _ => False end;
  g_nepr : h_nepr h = match w_selas w with Some _ => 3 | None => 1 end;
  g_nssh : h_nssh h = len (w_eion w);
  g_na : 0 <= h_na h; g_na3 : 3 * h_na h <= len (w_elas w); g_nb : 0 <= h_nb h; g_nb3 : 3 * h_nb h <= len (w_breme w) }.

Ltac mk := match goal with |- context [mark ?k ?n ?st] => unfold mark at 1; cbn [upd bind fst snd] end.

Lemma pa_write_electrons_ok i w h a0 a1 a2 a3 a4 a5 a6 a7 a8 a9 pre : pe_given i w h -> len pre + len (pew_all (len pre) w) < 2 ^ 31 ->
  let j := [a0; a1; a2; a3; a4; a5; a6; a7; a8; a9] in
  pa_write_electrons i (h_nepr h) (h_nssh h) (h_na h) (h_nb h) (j ++ zeros 22, pre) = Ok (j ++ pe_jxs (len pre) w h ++ zeros 5, pre ++ pew_all (len pre) w).
Proof.
  intros G B j. destruct (g_subsh _ _ _ G) as (o1 & E1 & C1 & N1). destruct (g_sphel _ _ _ G) as (o2 & E2 & C2 & N2). destruct (g_xprob _ _ _ G) as (o3 & E3 & C3 & N3).
  destruct (g_esze _ _ _ G) as (o4 & E4 & C4 & N4 & N4'). destruct (g_excit _ _ _ G) as (o5 & E5 & C5 & N5). destruct (g_elas _ _ _ G) as (o6 & E6 & C6 & N6).
  destruct (g_eion _ _ _ G) as (F7 & B7). destruct (g_breme _ _ _ G) as (o8 & E8 & C8 & N8). destruct (g_breml _ _ _ G) as (o9 & E9 & C9 & N9).
  pose proof (g_selas _ _ _ G) as GS. pose proof (g_nepr _ _ _ G) as GN. pose proof (g_nssh _ _ _ G) as Gs. pose proof (g_na _ _ _ G) as Ha. pose proof (g_na3 _ _ _ G) as Ha3.
  pose proof (g_nb _ _ _ G) as Hb. pose proof (g_nb3 _ _ _ G) as Hb3.
  assert (BB : len pre + len (pew_1 w) + 3 * len (w_eion w) + len (concat (map snd (w_eion w))) + len (pew_2 w) < 2 ^ 31).
  { unfold pew_all, ei_all in B. repeat rewrite len_app in B. rewrite len_ei_header in B. lia. }
  assert (L1 : len (pew_1 w) = len (w_subsh w) + len (w_sphel w) + len (w_xprob w) + len (w_esze w) + len (w_excit w) + len (w_elas w)) by (unfold pew_1; repeat rewrite len_app; lia).
  assert (L2 : len (pew_2 w) = len (w_breme w) + len (w_breml w) + len (or_nil (w_selas w))) by (unfold pew_2; repeat rewrite len_app; lia).
  pose proof (len_nonneg pre) as G0. pose proof (len_nonneg (w_subsh w)) as G1. pose proof (len_nonneg (w_sphel w)) as G2. pose proof (len_nonneg (w_xprob w)) as G3. pose proof (len_nonneg (w_esze w)) as G4.
  pose proof (len_nonneg (w_excit w)) as G5. pose proof (len_nonneg (w_elas w)) as G6. pose proof (len_nonneg (concat (map snd (w_eion w)))) as G7. pose proof (len_nonneg (w_eion w)) as G8.
  pose proof (len_nonneg (w_breme w)) as G9. pose proof (len_nonneg (w_breml w)) as G10. pose proof (len_nonneg (or_nil (w_selas w))) as G11.
  assert (U1 : u32 (3 * h_na h) = 3 * h_na h) by (apply u32_small; lia). assert (U2 : u32 (3 * h_nb h) = 3 * h_nb h) by (apply u32_small; lia).
  assert (U3 : u32 (3 * h_nssh h) = 3 * len (w_eion w)) by (rewrite Gs; apply u32_small; lia).
  unfold pa_write_electrons. rewrite E1, E2, E3, E4, E5, E6, E8, E9, U1, U2, U3. cbn [deref_opt bind]. subst j. unfold zeros. cbn [repeat app Z.to_nat Pos.to_nat Pos.iter_op Nat.add].
  repeat mk. rewrite (append_eq _ _ _ C1). cbn [bind fst snd]. repeat mk. rewrite (append_eq _ _ _ C2). cbn [bind fst snd]. repeat mk. rewrite (append_eq _ _ _ C3). cbn [bind fst snd].
  repeat mk. rewrite (append_eq _ _ _ C4). cbn [bind fst snd]. repeat mk. rewrite (append_eq _ _ _ C5). cbn [bind fst snd]. repeat mk. rewrite (append_eq _ _ _ C6). cbn [bind fst snd].
  repeat mk. set (P := (((((pre ++ w_subsh w) ++ w_sphel w) ++ w_xprob w) ++ w_esze w) ++ w_excit w) ++ w_elas w).
  assert (EP : P = pre ++ pew_1 w) by (unfold P, pew_1; rewrite <- !app_assoc; reflexivity). assert (LP : len P = len pre + len (pew_1 w)) by (rewrite EP, len_app; reflexivity).
  rewrite (u32_small (len P)) by lia. rewrite Gs. rewrite (pa_write_eion_all P _ _ F7) by (assumption || lia). cbn [bind fst snd].
  repeat mk. rewrite (append_eq _ _ _ C8). cbn [bind fst snd]. repeat mk. rewrite (append_eq _ _ _ C9). cbn [bind fst snd].
  assert (Lei : len (ei_all (len P) (w_eion w)) = 3 * len (w_eion w) + len (concat (map snd (w_eion w)))) by (unfold ei_all; rewrite len_app, len_ei_header; reflexivity).
  rewrite GN. unfold pew_all. rewrite <- LP. destruct (pa_selas i) as [o10|], (w_selas w) as [x|] eqn:Ex; try contradiction.
  - change (3 =? 3) with true. cbn iota. cbn [deref_opt bind]. destruct GS as [C10 N10]. repeat mk. rewrite (append_eq _ _ _ C10). cbn [fst snd]. unfold pew_2. rewrite Ex. cbn [or_nil].
    f_equal. apply f_equal2.
    + unfold pe_jxs. rewrite Ex. cbn [app]. repeat (apply f_equal2; [repeat rewrite len_app; try rewrite Lei; try rewrite LP, L1; lia|]). reflexivity.
    + rewrite EP. rewrite <- !app_assoc. reflexivity.
  - change (1 =? 3) with false. cbn iota. unfold pew_2. rewrite Ex. cbn [or_nil]. rewrite app_nil_r.
    f_equal. apply f_equal2.
    + unfold pe_jxs. rewrite Ex. cbn [app]. repeat (apply f_equal2; [repeat rewrite len_app; try rewrite Lei; try rewrite LP, L1; lia|]). reflexivity.
    + rewrite EP. rewrite <- !app_assoc. reflexivity.
Qed.

(** * The whole table *)
(** NES, and the words of the blocks: fluorescence with its NFLO, electron shells (EPS and SWD) with NSH, electron data *)
Record paW := PaW { wa_nes : Z; wa_eszg : list double; wa_jinc : list double; wa_jcoh : list double; wa_jflo : option (Z * list double); wa_lhnm : list double;
  wa_shells : option (Z * list double * list double); wa_el : option (pew * pe_shape) }.
Definition wa_shell_words (w : paW) : list double := match wa_shells w with Some (_, a, b) => a ++ b | None => [] end.
Definition wa_pre (w : paW) : list double := wa_eszg w ++ wa_jinc w ++ wa_jcoh w ++ or_nil (option_map snd (wa_jflo w)) ++ wa_lhnm w ++ wa_shell_words w.
Definition wa_xss (w : paW) : list double := wa_pre w ++ match wa_el w with Some (e, _) => pew_all (len (wa_pre w)) e | None => [] end.
Definition wa_jxs (w : paW) : list Z :=
  let p2 := len (wa_eszg w) + 1 in
  let p3 := p2 + len (wa_jinc w) in
  let p4 := p3 + len (wa_jcoh w) in
  let p5 := p4 + len (or_nil (option_map snd (wa_jflo w))) in
  let p6 := p5 + len (wa_lhnm w) in
  [1; p2; p3; p4; p5]
  ++ match wa_shells w with Some (n, a, b) => [p6; p6 + n; p6 + 2 * n; p6 + len a; p6 + len a + n] | None => [0; 0; 0; 0; 0] end
  ++ match wa_el w with Some (e, h) => pe_jxs (len (wa_pre w)) e h | None => zeros 17 end ++ zeros 5.
Definition wa_nxs (w : paW) (z nm_inc nm_coh : Z) : list Z :=
  [len (wa_xss w); z; wa_nes w; match wa_jflo w with Some (n, _) => n | None => 0 end; match wa_shells w with Some (n, _, _) => n | None => 0 end]
  ++ match wa_el w with
     | Some (e, h) => [h_nepr h; h_nssh h; h_ne h; h_nxl h; h_na h; h_nb h; h_nbl h] ++ (if h_nepr h =? 3 then [nm_inc; nm_coh] else [0; 0])
     | None => zeros 9
     end ++ [0; 0].

(** Blocks given to the constructor and their words *)
Record pa_given (i : paIn) (w : paW) : Prop := {
  g_za : len (pa_za i) = len (pa_awr i); g_za16 : len (pa_za i) <= 16;
  g_eszg : content (ad_v (pa_eszg i)) (wa_eszg w) /\ eg_NES (pa_eszg i) = wa_nes w;
  g_jinc : content (ad_v (ji_a (pa_jinc i))) (wa_jinc w);
  g_jcoh : content (ad_v (ji_a (pa_jcoh i))) (wa_jcoh w);
  g_jflo : match pa_jflo i, wa_jflo w with Some o, Some (n, x) => content (ad_v o) x /\ jf_NFLO o = n | None, None => True | _, _ => False end;
  g_lhnm : content (ad_v (pa_lhnm i)) (wa_lhnm w) /\ ad_n (pa_lhnm i) = wa_nes w;
  g_shells : match pa_eps i, pa_swd i, wa_shells w with
             | Some e, Some s, Some (n, x, y) => content (ad_v e) x /\ content (bl_v s) y /\ bl_n s = n /\ 0 < n /\ 3 * n <= len x /\ n <= len y
             | None, None, None => True | _, _, _ => False end;
  g_el : match wa_el w with
         | Some (e, h) => pe_given i e h /\ h_nes h = wa_nes w
         | None => pa_subsh i = None /\ pa_sphel i = None
         end }.

Definition iza (za : list Z) : list Z := map s32 za ++ repeat 0 (16 - length za).
Definition awra (awr : list double) : list double := awr ++ repeat (dbl 0) (16 - length awr).

Lemma bind_bind {A B C} (x : outcome A) (f : A -> outcome B) (g : B -> outcome C) : bind x (fun a => bind (f a) g) = bind (bind x f) g.
Proof. destruct x; reflexivity. Qed.

Lemma set_izaw_ok : forall za awr k pz pa n m, len za + Z.of_nat k = len awr -> length pz = k -> length pa = k -> firstn k awr = pa -> (length za <= n)%nat -> n = m ->
  set_izaw k za awr (pz ++ repeat 0 n) (pa ++ repeat (dbl 0) m) = Ok (pz ++ map s32 za ++ repeat 0 (n - length za), awr ++ repeat (dbl 0) (m - length za)).
Proof.
  induction za as [|z za IH]; intros awr k pz pa n m H1 H2 H3 H4 H5 ->.
  - cbn [set_izaw map length app]. rewrite Nat.sub_0_r. f_equal. f_equal. f_equal. rewrite <- H4. rewrite firstn_all2; [reflexivity|]. unfold len in H1. cbn [length] in H1. lia.
  - cbn [length] in H5. rewrite len_cons in H1. destruct m as [|m]; [lia|]. pose proof (len_nonneg za). cbn [set_izaw repeat map]. rewrite (upd_at pz) by (unfold len; lia). cbn [bind].
    destruct (nth_error awr k) as [a|] eqn:Ea; [|apply nth_error_None in Ea; unfold len in *; lia].
    unfold nth_or_UB. rewrite Ea. cbn [bind]. rewrite (upd_at pa) by (unfold len; lia). cbn [bind].
    specialize (IH awr (S k) (pz ++ [s32 z]) (pa ++ [a]) m m ltac:(lia) ltac:(rewrite app_length; cbn [length]; lia) ltac:(rewrite app_length; cbn [length]; lia)).
    rewrite <- !app_assoc in IH. cbn [app] in IH. cbn [length Nat.sub app]. apply IH; [|lia|reflexivity].
    destruct (nth_split_len _ _ _ Ea) as (l1 & l2 & E & L). rewrite E in *. rewrite firstn_app in *. rewrite firstn_all2 in * by lia.
    replace (S k - length l1)%nat with 1%nat by lia. cbn [firstn]. f_equal. rewrite <- H4. replace (k - length l1)%nat with 0%nat by lia. cbn [firstn]. rewrite app_nil_r. reflexivity.
Qed.

Lemma pa_generateData_ok i w : pa_given i w -> len (wa_xss w) < 2 ^ 31 ->
  pa_generateData i = Ok (TData (iza (pa_za i)) (awra (pa_awr i)) (wa_nxs w (pa_z i) (ji_NM (pa_jinc i)) (ji_NM (pa_jcoh i))) (wa_jxs w) (wa_xss w)).
Proof.
  intros G B. destruct G as [Gz Gz16 [C1 N1] C2 C3 G4 [C5 N5] G6 Ge]. unfold pa_generateData.
  assert (EI : set_izaw 0 (pa_za i) (pa_awr i) (zeros 16) (dzeros 16) = Ok (iza (pa_za i), awra (pa_awr i))).
  { pose proof (set_izaw_ok (pa_za i) (pa_awr i) 0 [] [] 16 16) as H. cbn [app] in H. unfold zeros, dzeros, iza, awra. cbn [app] in H. rewrite H; try reflexivity; try (unfold len in *; lia).
    f_equal. f_equal. f_equal. f_equal. unfold len in *. lia. }
  rewrite EI. cbn [bind].
  (* sizes and checks *)
  set (n := PaN (match wa_el w with Some (_, h) => h_nepr h | None => 0 end) (wa_nes w) (match wa_shells w with Some (n, _, _) => n | None => 0 end)
      (match wa_jflo w with Some (n, _) => n | None => 0 end) (match wa_el w with Some (_, h) => h_nssh h | None => 0 end) (match wa_el w with Some (_, h) => h_ne h | None => 0 end)
      (match wa_el w with Some (_, h) => h_nxl h | None => 0 end) (match wa_el w with Some (_, h) => h_na h | None => 0 end) (match wa_el w with Some (_, h) => h_nb h | None => 0 end)
      (match wa_el w with Some (_, h) => h_nbl h | None => 0 end) (match wa_el w with Some (_, h) => if h_nepr h =? 3 then ji_NM (pa_jinc i) else 0 | None => 0 end)
      (match wa_el w with Some (_, h) => if h_nepr h =? 3 then ji_NM (pa_jcoh i) else 0 | None => 0 end)).
  assert (ES : pa_sizes i = Ok n).
  { unfold pa_sizes. assert (Ensh : match pa_swd i with Some s => bl_n s | None => 0 end = match wa_shells w with Some (n, _, _) => n | None => 0 end).
    { destruct (pa_eps i), (pa_swd i), (wa_shells w) as [[[? ?] ?]|]; tauto || reflexivity. }
    assert (Enf : match pa_jflo i with Some s => jf_NFLO s | None => 0 end = match wa_jflo w with Some (n, _) => n | None => 0 end).
    { destruct (pa_jflo i), (wa_jflo w) as [[? ?]|]; tauto || reflexivity. }
    rewrite Ensh, Enf, N1. subst n. destruct (wa_el w) as [[e h]|].
    - destruct Ge as [Ge _]. destruct (g_subsh _ _ _ Ge) as (o1 & E1 & _ & M1). destruct (g_esze _ _ _ Ge) as (o4 & E4 & _ & _ & M4). destruct (g_excit _ _ _ Ge) as (o5 & E5 & _ & M5).
      destruct (g_elas _ _ _ Ge) as (o6 & E6 & _ & M6). destruct (g_breme _ _ _ Ge) as (o8 & E8 & _ & M8). destruct (g_breml _ _ _ Ge) as (o9 & E9 & _ & M9).
      pose proof (g_selas _ _ _ Ge) as GS. pose proof (g_nepr _ _ _ Ge) as GN. rewrite E1, E4, E5, E6, E8, E9. cbn [has_value deref_opt bind].
      destruct (pa_selas i), (w_selas e); try contradiction; cbn [has_value]; rewrite GN; cbn [bind Z.ltb Z.compare Pos.compare Pos.compare_cont Z.eqb Pos.eqb]; rewrite M1, M4, M5, M6, M8, M9; reflexivity.
    - destruct Ge as [-> _]. cbn [has_value]. destruct (pa_selas i); reflexivity. }
  rewrite ES. cbn [bind].
  assert (EC : pa_check i n = Ok tt).
  { unfold pa_check. replace (len (pa_za i) =? len (pa_awr i)) with true by lia. cbn [negb throw_if bind]. subst n. cbn [n_nes n_nepr n_nssh n_ne]. rewrite N5, Z.eqb_refl. cbn [negb orb].
    destruct (wa_el w) as [[e h]|].
    - destruct Ge as [Ge Hn]. destruct (g_sphel _ _ _ Ge) as (o2 & E2 & _ & M2). destruct (g_xprob _ _ _ Ge) as (o3 & E3 & _ & M3). destruct (g_esze _ _ _ Ge) as (o4 & E4 & _ & M4 & M4').
      destruct (g_eion _ _ _ Ge) as [F _]. pose proof (g_selas _ _ _ Ge) as GS. pose proof (g_nepr _ _ _ Ge) as GN. pose proof (g_nssh _ _ _ Ge) as Gs. assert (FL : length (pa_eion i) = length (w_eion e)) by (clear -F; induction F; cbn [length]; congruence).
      rewrite E2, M2, Hn, Z.eqb_refl, E3, E4. cbn [negb throw_if bind deref_opt orb]. rewrite M3, M4, Z.eqb_refl. cbn [negb orb]. replace (h_nssh h =? len (pa_eion i)) with true by (unfold len in *; lia).
      cbn [negb throw_if]. destruct (pa_selas i), (w_selas e); try contradiction; rewrite GN.
      + change (0 <? 3) with true. change (3 =? 3) with true. cbn [bind deref_opt]. destruct GS as [_ ->]. rewrite Z.eqb_refl. reflexivity.
      + change (0 <? 1) with true. change (1 =? 3) with false. cbn [bind]. reflexivity.
    - destruct Ge as [_ ->]. reflexivity. }
  rewrite EC. cbn [bind]. unfold zeros. cbn [repeat Z.to_nat Pos.to_nat Pos.iter_op Nat.add upd bind].
  rewrite (append_eq _ _ _ C1). cbn [bind fst snd]. repeat mk. rewrite (append_eq _ _ _ C2). cbn [bind fst snd]. repeat mk. rewrite (append_eq _ _ _ C3). cbn [bind fst snd]. repeat mk.
  assert (EJ : forall st, match pa_jflo i with Some o => append (ad_v o) st | None => Ok st end = Ok (fst st, snd st ++ or_nil (option_map snd (wa_jflo w)))).
  { intros st. destruct (pa_jflo i), (wa_jflo w) as [[? ?]|]; try contradiction; cbn [option_map or_nil snd]; [apply append_eq; tauto|rewrite app_nil_r; destruct st; reflexivity]. }
  rewrite EJ. clear EJ. cbn [bind fst snd]. repeat mk. rewrite (append_eq _ _ _ C5). cbn [bind fst snd]. cbn [app].
  assert (Bp : len (wa_pre w) < 2 ^ 31).
  { unfold wa_xss in B. rewrite len_app in B. match type of B with len _ + len ?x < _ => pose proof (len_nonneg x) end. lia. }
  match goal with |- context [match pa_eps i with _ => _ end] => idtac end.
  set (w4 := or_nil (option_map snd (wa_jflo w))) in *.
  set (m := (((wa_eszg w ++ wa_jinc w) ++ wa_jcoh w) ++ w4) ++ wa_lhnm w).
  assert (Em : m ++ wa_shell_words w = wa_pre w) by (unfold m, wa_pre; fold w4; rewrite <- !app_assoc; reflexivity).
  assert (Lm : len m = len (wa_eszg w) + len (wa_jinc w) + len (wa_jcoh w) + len w4 + len (wa_lhnm w)) by (unfold m; repeat rewrite len_app; lia).
  assert (SH : exists j6 j7 j8 j9 j10, match wa_shells w with Some (n, a, b) => let p6 := len m + 1 in [p6; p6 + n; p6 + 2 * n; p6 + len a; p6 + len a + n] | None => [0; 0; 0; 0; 0] end = [j6; j7; j8; j9; j10]
    /\ forall a0 a1 a2 a3 a4, (st <- match pa_eps i with
        | Some o => st <- mark 5 1 ([a0; a1; a2; a3; a4] ++ zeros 27, m) ;; st <- mark 6 (n_nsh n + 1) st ;; st <- mark 7 (u32 (2 * n_nsh n) + 1) st ;; append (ad_v o) st
        | None => Ok ([a0; a1; a2; a3; a4] ++ zeros 27, m)
        end ;;
  match pa_swd i with
        | Some o => st <- mark 8 1 st ;; st <- mark 9 (n_nsh n + 1) st ;; append (bl_v o) st
        | None => Ok st
        end) = Ok ([a0; a1; a2; a3; a4; j6; j7; j8; j9; j10] ++ zeros 22, wa_pre w)).
  { unfold zeros. cbn [repeat Z.to_nat Pos.to_nat Pos.iter_op Nat.add app]. rewrite <- Em. unfold wa_shell_words, n. cbn [n_nsh]. destruct (pa_eps i), (pa_swd i), (wa_shells w) as [[[k x] y]|] eqn:Es; try contradiction.
    - destruct G6 as (C6 & C9 & N9 & Hk & Hx & Hy). do 5 eexists. split; [reflexivity|]. intros. repeat mk. rewrite (append_eq _ _ _ C6). cbn [bind fst snd]. repeat mk. rewrite (append_eq _ _ _ C9). cbn [bind fst snd].
      f_equal. apply f_equal2; [|rewrite app_assoc; reflexivity]. rewrite <- Em in Bp. unfold wa_shell_words in Bp. rewrite Es in Bp. repeat rewrite len_app in Bp. pose proof (len_nonneg m). rewrite (u32_small (2 * k)) by lia.
      repeat (apply f_equal2; [repeat rewrite len_app; lia|]). reflexivity.
    - do 5 eexists. split; [reflexivity|]. intros. cbn [bind]. rewrite app_nil_r. reflexivity. }
  destruct SH as (j6 & j7 & j8 & j9 & j10 & EJ & SH). unfold zeros in SH. cbn [repeat Z.to_nat Pos.to_nat Pos.iter_op Nat.add app] in SH.
  rewrite bind_bind, SH. clear SH. cbn [bind].
  assert (EL : (if 0 <? n_nepr n then pa_write_electrons i (n_nepr n) (n_nssh n) (n_na n) (n_nb n)
      ([1; len (wa_eszg w) + 1; len (wa_eszg w ++ wa_jinc w) + 1; len ((wa_eszg w ++ wa_jinc w) ++ wa_jcoh w) + 1; len (((wa_eszg w ++ wa_jinc w) ++ wa_jcoh w) ++ w4) + 1; j6; j7; j8; j9; j10] ++ zeros 22, wa_pre w)
      else Ok ([1; len (wa_eszg w) + 1; len (wa_eszg w ++ wa_jinc w) + 1; len ((wa_eszg w ++ wa_jinc w) ++ wa_jcoh w) + 1; len (((wa_eszg w ++ wa_jinc w) ++ wa_jcoh w) ++ w4) + 1; j6; j7; j8; j9; j10] ++ zeros 22, wa_pre w))
    = Ok (wa_jxs w, wa_xss w)).
  { assert (EW : wa_jxs w = [1; len (wa_eszg w) + 1; len (wa_eszg w ++ wa_jinc w) + 1; len ((wa_eszg w ++ wa_jinc w) ++ wa_jcoh w) + 1; len (((wa_eszg w ++ wa_jinc w) ++ wa_jcoh w) ++ w4) + 1; j6; j7; j8; j9; j10]
        ++ match wa_el w with Some (e, h) => pe_jxs (len (wa_pre w)) e h | None => zeros 17 end ++ zeros 5).
    { unfold wa_jxs. fold w4. change [1; len (wa_eszg w) + 1; len (wa_eszg w ++ wa_jinc w) + 1; len ((wa_eszg w ++ wa_jinc w) ++ wa_jcoh w) + 1; len (((wa_eszg w ++ wa_jinc w) ++ wa_jcoh w) ++ w4) + 1; j6; j7; j8; j9; j10]
        with ([1; len (wa_eszg w) + 1; len (wa_eszg w ++ wa_jinc w) + 1; len ((wa_eszg w ++ wa_jinc w) ++ wa_jcoh w) + 1; len (((wa_eszg w ++ wa_jinc w) ++ wa_jcoh w) ++ w4) + 1] ++ [j6; j7; j8; j9; j10]).
      rewrite <- app_assoc. apply f_equal2; [repeat (apply f_equal2; [repeat rewrite len_app; lia|]); reflexivity|]. apply f_equal2; [|reflexivity]. rewrite <- EJ.
      destruct (wa_shells w) as [[[k x] y]|]; [|reflexivity]. cbn zeta. repeat (apply f_equal2; [lia|]). reflexivity. }
    rewrite EW. unfold wa_xss in *. subst n. cbn [n_nepr n_nssh n_na n_nb] in *. destruct (wa_el w) as [[e h]|].
    - destruct Ge as [Ge _]. pose proof (g_nepr _ _ _ Ge) as GN. replace (0 <? h_nepr h) with true by (destruct (w_selas e); lia). rewrite len_app in B.
      apply (pa_write_electrons_ok i e h _ _ _ _ _ _ _ _ _ _ (wa_pre w) Ge B).
    - change (0 <? 0) with false. cbn iota. rewrite app_nil_r. reflexivity. }
  unfold zeros in EL. cbn [repeat Z.to_nat Pos.to_nat Pos.iter_op Nat.add app] in EL. rewrite EL. cbn [bind fst snd].
  apply TData_eq; [|reflexivity|reflexivity]. unfold wa_nxs. subst n. cbn [n_nes n_nflo n_nsh n_nepr n_nssh n_ne n_nxl n_na n_nb n_nbl n_ninc n_ncoh].
  destruct (wa_el w) as [[e h]|]; [destruct (h_nepr h =? 3)|]; reflexivity.
Qed.

(** * Reading it back *)
Record pa_reads := PaReads { s_eszg : arrayData -> Prop; s_jinc : jinc -> Prop; s_jcoh : jinc -> Prop; s_jflo : arrayData -> Prop; s_lhnm : arrayData -> Prop;
  s_eps : arrayData -> Prop; s_swd : blockWithLocators view -> Prop; s_el : pe_reads }.
Record pa_readable bm (w : paW) (R : pa_reads) : Prop := {
  qa_eszg : readable (fun v => eg_make v (wa_nes w)) (wa_eszg w) (s_eszg R);
  qa_jinc : readable ji_make (wa_jinc w) (s_jinc R);
  qa_jcoh : readable jc_make (wa_jcoh w) (s_jcoh R);
  qa_jflo : forall n x, wa_jflo w = Some (n, x) -> 0 < n /\ readable (fun v => jf_make v n) x (s_jflo R);
  qa_lhnm : readable (fun v => lq_make v (wa_nes w)) (wa_lhnm w) (s_lhnm R);
  qa_shells : forall n x y, wa_shells w = Some (n, x, y) -> 0 < n /\ 3 * n <= len x /\ n <= len y
              /\ readable (fun v => ep_make v n) x (s_eps R) /\ readable (fun v => bl_make bm (swd_gd bm) v (vbeg v + n) n true) y (s_swd R);
  qa_el : forall e h, wa_el w = Some (e, h) -> pe_readable bm e h (s_el R) /\ h_nes h = wa_nes w /\ h_nepr h = (match w_selas e with Some _ => 3 | None => 1 end)
          /\ h_nssh h = len (w_eion e) /\ h_nssh h <= len (w_xprob e) /\ 5 * h_nssh h <= len (w_subsh e) /\ 0 <= h_na h /\ 3 * h_na h <= len (w_elas e) /\ 0 <= h_nb h /\ 3 * h_nb h <= len (w_breme e) }.
Record pa_result (w : paW) (R : pa_reads) (t : paTable) : Prop := {
  ra_eszg : s_eszg R (pt_eszg t); ra_jinc : s_jinc R (pt_jinc t); ra_jcoh : s_jcoh R (pt_jcoh t); ra_lhnm : s_lhnm R (pt_lhnm t);
  ra_jflo : match wa_jflo w, pt_jflo t with Some _, Some x => s_jflo R x | None, None => True | _, _ => False end;
  ra_eps : match wa_shells w, pt_eps t with Some _, Some x => s_eps R x | None, None => True | _, _ => False end;
  ra_swd : match wa_shells w, pt_swd t with Some _, Some x => s_swd R x | None, None => True | _, _ => False end;
  ra_el : match wa_el w with
          | Some (e, h) => exists o, pe_result e (s_el R) o /\ pt_subsh t = Some (pe_subsh o) /\ pt_sphel t = Some (pe_sphel o) /\ pt_xprob t = Some (pe_xprob o) /\ pt_esze t = Some (pe_esze o)
              /\ pt_excit t = Some (pe_excit o) /\ pt_elas t = Some (pe_elas o) /\ pt_eion t = pe_eion o /\ pt_breme t = Some (pe_breme o) /\ pt_breml t = Some (pe_breml o) /\ pt_selas t = pe_selas o
          | None => pt_subsh t = None /\ pt_sphel t = None /\ pt_xprob t = None /\ pt_esze t = None /\ pt_excit t = None /\ pt_elas t = None /\ pt_eion t = [] /\ pt_breme t = None /\ pt_breml t = None /\ pt_selas t = None
          end }.

Lemma pa_N_nth bm d k x : nth_error (d_nxs d) k = Some x -> 0 <= x < 2 ^ 32 -> (k < 16)%nat -> len (d_nxs d) = 16 -> pa_N bm d (Z.of_nat k + 1) = Ok x.
Proof. intros H B Hk L. unfold pa_N, d_NXS. rewrite (fetch_in bm _ _ _ H) by lia. cbn [bind]. rewrite u32_small by lia. reflexivity. Qed.

Lemma pa_make_ok bm zaid iz aw w z a b R : verifyType ["p"%char] zaid = Ok tt -> len (wa_xss w) < max_words -> Forall (fun x => 0 <= x < 2 ^ 32) (wa_nxs w z a b) -> pa_readable bm w R ->
  let d := TData iz aw (wa_nxs w z a b) (wa_jxs w) (wa_xss w) in
  exists t, pa_make bm zaid d = Ok t /\ pt_zaid t = zaid /\ pt_data t = d /\ pa_result w R t.
Proof.
  intros V B F Q d. assert (Bx : len (wa_xss w) < 2 ^ 31) by exact B.
  assert (Nn : forall k x, (k < 16)%nat -> nth_error (wa_nxs w z a b) k = Some x -> pa_N bm d (Z.of_nat k + 1) = Ok x).
  { intros k x Hk Hx. apply pa_N_nth; [exact Hx| |exact Hk|]. 
    - rewrite Forall_forall in F. apply F. apply nth_error_In in Hx. exact Hx.
    - unfold d, wa_nxs. cbn [d_nxs]. repeat rewrite len_app. destruct (wa_el w) as [[e h]|]; [repeat rewrite len_app; destruct (h_nepr h =? 3)|]; reflexivity. }
  assert (NES := Nn 2%nat _ ltac:(lia) eq_refl). assert (NFLO := Nn 3%nat _ ltac:(lia) eq_refl). assert (NSH := Nn 4%nat _ ltac:(lia) eq_refl).
  change (Z.of_nat 2 + 1) with 3 in NES. change (Z.of_nat 3 + 1) with 4 in NFLO. change (Z.of_nat 4 + 1) with 5 in NSH.
  assert (Ln : len (wa_jxs w) = 32). { unfold wa_jxs. repeat rewrite len_app. destruct (wa_shells w) as [[[? ?] ?]|], (wa_el w) as [[? ?]|]; reflexivity. }
  set (w4 := or_nil (option_map snd (wa_jflo w))).
  set (p6 := len (wa_eszg w) + len (wa_jinc w) + len (wa_jcoh w) + len w4 + len (wa_lhnm w)).
  pose proof (len_nonneg (wa_eszg w)) as G1. pose proof (len_nonneg (wa_jinc w)) as G2. pose proof (len_nonneg (wa_jcoh w)) as G3. pose proof (len_nonneg w4) as G4. pose proof (len_nonneg (wa_lhnm w)) as G5.
  assert (Lp : len (wa_pre w) = p6 + len (wa_shell_words w)) by (unfold wa_pre, p6; fold w4; repeat rewrite len_app; lia).
  assert (LX : len (wa_xss w) = len (wa_pre w) + len (match wa_el w with Some (e, _) => pew_all (len (wa_pre w)) e | None => [] end)) by (unfold wa_xss; apply len_app).
  pose proof (len_nonneg (match wa_el w with Some (e, _) => pew_all (len (wa_pre w)) e | None => [] end)) as G7. pose proof (len_nonneg (wa_shell_words w)) as G6.
  assert (Hp6 : p6 = len (wa_eszg w) + len (wa_jinc w) + len (wa_jcoh w) + len w4 + len (wa_lhnm w)) by reflexivity. clearbody p6.
  assert (BL : forall k s e, nth_error (wa_jxs w) k = Some s -> nth_error (wa_jxs w) (S k) = Some e -> 0 < s <= e -> e < 2 ^ 64 -> pa_block bm d (Z.of_nat k + 1) = Ok (s - 1, e - 1)).
  { intros k s e H1 H2 H3 H4. apply pa_block_next; assumption. }
  assert (B1 := BL 0%nat _ _ eq_refl eq_refl ltac:(lia) ltac:(lia)). assert (B2 := BL 1%nat _ _ eq_refl eq_refl ltac:(lia) ltac:(lia)).
  assert (B3 := BL 2%nat _ _ eq_refl eq_refl ltac:(lia) ltac:(lia)). assert (B4 := BL 3%nat _ _ eq_refl eq_refl ltac:(fold w4; lia) ltac:(fold w4; lia)). fold w4 in B4.
  change (Z.of_nat 0 + 1) with 1 in B1. change (Z.of_nat 1 + 1) with 2 in B2. change (Z.of_nat 2 + 1) with 3 in B3. change (Z.of_nat 3 + 1) with 4 in B4.
  (* what follows the first 10 locators *)
  set (TAIL := match wa_el w with Some (e, h) => pe_jxs (len (wa_pre w)) e h | None => zeros 17 end ++ zeros 5).
  assert (EndB : forall k s, nth_error (wa_jxs w) k = Some s -> 0 < s <= len (wa_pre w) + 1 -> jxs_find s (skipn (S k) (wa_jxs w)) = jxs_find s TAIL -> pa_block bm d (Z.of_nat k + 1) = Ok (s - 1, len (wa_pre w))).
  { intros k s Hs Bs E. unfold TAIL in E. destruct (wa_el w) as [[e h]|].
    - unfold pe_jxs in E. cbn [app] in E. rewrite (jf_hit (len (wa_pre w) + 1)) in E by lia. rewrite (pa_block_find bm d k s _ Hs Ln E) by lia. do 2 f_equal. lia.
    - rewrite (jxs_tail s (zeros 17 ++ zeros 5)) in E by first [lia | repeat constructor]. rewrite (pa_block_last bm d k s Hs Ln E) by lia. do 2 f_equal. cbn [d_xss d]. rewrite LX. change (len (@nil double)) with 0. lia. }
  assert (XW : wa_xss w = wa_eszg w ++ wa_jinc w ++ wa_jcoh w ++ w4 ++ wa_lhnm w ++ wa_shell_words w ++ (match wa_el w with Some (e, _) => pew_all (len (wa_pre w)) e | None => [] end)).
  { unfold wa_xss, wa_pre at 1. fold w4. rewrite <- !app_assoc. reflexivity. }
  assert (B5 : pa_block bm d 5 = Ok (p6 - len (wa_lhnm w), p6)).
  { change 5 with (Z.of_nat 4 + 1). destruct (wa_shells w) as [[[n x] y]|] eqn:Es.
    - pose proof (BL 4%nat) as B5. unfold wa_jxs in B5 at 1 2. rewrite Es in B5. fold w4 in B5. cbn [app nth_error] in B5. rewrite (B5 _ _ eq_refl eq_refl) by lia. do 2 f_equal; lia.
    - pose proof (EndB 4%nat) as B5. unfold wa_jxs in B5. rewrite Es in B5. fold w4 TAIL in B5. cbn [app nth_error skipn] in B5.
      assert (E0 : len (wa_pre w) = p6) by (rewrite Lp; unfold wa_shell_words; rewrite Es; change (len (@nil double)) with 0; lia).
      rewrite (B5 _ eq_refl); [do 2 f_equal; lia|lia|]. repeat (rewrite jf_skip by lia). reflexivity. }
  destruct (pa_basic_ok bm d (wa_eszg w) (wa_jinc w) (wa_jcoh w) w4 (wa_lhnm w) (wa_shell_words w ++ (match wa_el w with Some (e, _) => pew_all (len (wa_pre w)) e | None => [] end))
    (wa_nes w) (match wa_jflo w with Some (n, _) => n | None => 0 end) (s_eszg R) (s_jinc R) (s_jcoh R) (s_jflo R) (s_lhnm R)) as (o1 & o2 & o3 & o4 & o5 & Eb & S1 & S2 & S3 & S5 & S4).
  { exact XW. } { exact B. } { exact NES. } { exact NFLO. } { rewrite B1. do 2 f_equal; lia. } { rewrite B2. do 2 f_equal; lia. } { rewrite B3. do 2 f_equal; lia. } { intros _. rewrite B4. do 2 f_equal; lia. }
  { rewrite B5. do 2 f_equal; lia. } { exact (qa_eszg _ _ _ Q). } { exact (qa_jinc _ _ _ Q). } { exact (qa_jcoh _ _ _ Q). }
  { intros Hn. unfold w4. destruct (wa_jflo w) as [[n x]|] eqn:Ej; [|lia]. cbn [option_map or_nil snd]. exact (proj2 (qa_jflo _ _ _ Q _ _ Ej)). } { exact (qa_lhnm _ _ _ Q). }
  assert (S4' : match wa_jflo w, o4 with Some _, Some x => s_jflo R x | None, None => True | _, _ => False end).
  { destruct (wa_jflo w) as [[n x]|] eqn:Ej.
    - destruct (qa_jflo _ _ _ Q _ _ Ej) as [Hn _]. replace (0 <? n) with true in S4 by lia. destruct S4 as (x' & -> & Sx). exact Sx.
    - change (0 <? 0) with false in S4. cbn iota in S4. subst o4. exact I. }
  clear S4.
  assert (SH : exists sh, pa_shells bm d = Ok sh /\ match wa_shells w, sh with Some _, Some (e, s) => s_eps R e /\ s_swd R s | None, None => True | _, _ => False end).
  { destruct (wa_shells w) as [[[n x] y]|] eqn:Es.
    - destruct (qa_shells _ _ _ Q _ _ _ Es) as (Hn & Hx & Hy & R6 & R9). assert (Lsw : len (wa_shell_words w) = len x + len y) by (unfold wa_shell_words; rewrite Es; apply len_app).
      assert (B6 := BL 5%nat). assert (B8 := BL 7%nat). assert (B9 := BL 8%nat). assert (B10 := EndB 9%nat). unfold wa_jxs in B6, B8, B9, B10. rewrite Es in B6, B8, B9, B10. fold w4 in B6, B8, B9, B10. fold TAIL in B10.
      cbn [app nth_error skipn] in B6, B8, B9, B10. specialize (B6 _ _ eq_refl eq_refl ltac:(lia) ltac:(lia)). specialize (B8 _ _ eq_refl eq_refl ltac:(lia) ltac:(lia)). specialize (B9 _ _ eq_refl eq_refl ltac:(lia) ltac:(lia)).
      specialize (B10 _ eq_refl ltac:(lia) eq_refl). change (Z.of_nat 5 + 1) with 6 in B6. change (Z.of_nat 7 + 1) with 8 in B8. change (Z.of_nat 8 + 1) with 9 in B9. change (Z.of_nat 9 + 1) with 10 in B10.
      set (pre := wa_eszg w ++ wa_jinc w ++ wa_jcoh w ++ w4 ++ wa_lhnm w). assert (Lpre : len pre = p6) by (unfold pre; repeat rewrite len_app; lia).
      destruct (pa_shells_ok bm d pre x y (match wa_el w with Some (e, _) => pew_all (len (wa_pre w)) e | None => [] end) n (s_eps R) (s_swd R) (p6 + n) (p6 + 2 * n) (p6 + len x + n)) as (o6 & o7 & E67 & S6 & S7).
      { cbn [d_xss d]. rewrite XW. unfold pre, wa_shell_words. rewrite Es. rewrite <- !app_assoc. reflexivity. } { exact B. } { exact NSH. } { exact Hn. }
      { rewrite B6. do 2 f_equal; lia. } { rewrite B8. do 2 f_equal; lia. } { rewrite B9. do 2 f_equal; lia. } { rewrite B10. do 2 f_equal; lia. } { exact R6. } { exact R9. }
      exists (Some (o6, o7)). auto.
    - exists None. split; [|exact I]. unfold pa_shells, pa_NSH. rewrite NSH. reflexivity. }
  destruct SH as (sh & Esh & Ssh).
  assert (EL : exists eo, pa_electrons bm d = Ok eo /\ match wa_el w, eo with Some (e, h), Some o => pe_result e (s_el R) o | None, None => True | _, _ => False end).
  { destruct (wa_el w) as [[e h]|] eqn:Ee.
    - destruct (qa_el _ _ _ Q _ _ Ee) as (Qe & H1 & H2 & H3 & H4 & H5 & H6 & H7 & H8 & H9).
      assert (NE := fun k => Nn k). unfold wa_nxs in NE. rewrite Ee in NE.
      assert (M5 := NE 5%nat _ ltac:(lia) eq_refl). assert (M6 := NE 6%nat _ ltac:(lia) eq_refl). assert (M7 := NE 7%nat _ ltac:(lia) eq_refl). assert (M8 := NE 8%nat _ ltac:(lia) eq_refl).
      assert (M9 := NE 9%nat _ ltac:(lia) eq_refl). assert (M10 := NE 10%nat _ ltac:(lia) eq_refl). assert (M11 := NE 11%nat _ ltac:(lia) eq_refl).
      destruct (pa_electrons_ok bm d (wa_pre w) e h (s_el R) (firstn 10 (wa_jxs w))) as (o & Eo & So); try assumption.
      { cbn [d_xss d]. unfold wa_xss. rewrite Ee. reflexivity. }
      { cbn [d_jxs d]. unfold wa_jxs. rewrite Ee. destruct (wa_shells w) as [[[? ?] ?]|]; reflexivity. }
      { unfold wa_jxs. destruct (wa_shells w) as [[[? ?] ?]|]; reflexivity. }
      { rewrite H1. exact NES. }
      exists (Some o). auto.
    - exists None. split; [|exact I]. unfold pa_electrons. assert (NE := Nn 5%nat). unfold wa_nxs in NE. rewrite Ee in NE. specialize (NE _ ltac:(lia) eq_refl). change (Z.of_nat 5 + 1) with 6 in NE. unfold pa_NEPR. rewrite NE. reflexivity. }
  destruct EL as (eo & Eel & Sel).
  unfold pa_make. rewrite V. cbn [bind]. rewrite Eb. cbn [bind]. rewrite Esh. cbn [bind]. rewrite Eel. cbn [bind]. eexists. split; [reflexivity|]. cbn [pt_zaid pt_data]. split; [reflexivity|]. split; [reflexivity|].
  constructor; cbn [pt_eszg pt_jinc pt_jcoh pt_jflo pt_lhnm pt_eps pt_swd pt_subsh pt_sphel pt_xprob pt_esze pt_excit pt_elas pt_eion pt_breme pt_breml pt_selas]; auto.
  - destruct (wa_shells w) as [p|], sh as [[? ?]|]; try contradiction; cbn [option_map fst]; tauto.
  - destruct (wa_shells w) as [p|], sh as [[? ?]|]; try contradiction; cbn [option_map snd]; tauto.
  - destruct (wa_el w) as [[e h]|], eo as [o|]; try contradiction; cbn [option_map].
    + exists o. repeat (split; [assumption || reflexivity|]). reflexivity.
    + repeat (split; [reflexivity|]). reflexivity.
Qed.
