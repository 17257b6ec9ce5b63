(** ContinuousEnergyTable built from blocks: the secondary particle blocks, and the whole table. *)
From Coq Require Import ZArith Bool List Lia Ascii.
From Coq Require Import ZifyBool ZifyNat.
From Verif Require Import PropLemmasBasic.
From Verif Require Export ContinuousBlocks.
Import ListNotations.
Open Scope Z_scope.

(** * Secondary particles *)

Lemma pblock_at bm d o pre start x post p i : content (nt_v o) (map dbl (pre ++ start :: x :: post)) -> 0 < start < 2 ^ 31 -> 0 <= x < 2 ^ 31 ->
  (p - 1) * 10 + i = len pre + 1 ->
  (start <= x -> ce_pblock bm d o p i = Ok (start - 1, x - 1)) /\ (x < start -> post = [] -> ce_pblock bm d o p i = Ok (start - 1, len (d_xss d))).
Proof.
  intros [Hv Ev] Bs Bx E. rewrite map_app in Hv, Ev. cbn [map] in Hv, Ev. unfold ce_pblock, ix_LLOC.
  rewrite (ixss_size_at bm (nt_v o) _ _ _ _ Hv) by (rewrite ?len_map; lia). cbn [bind].
  destruct Hv as (a & b & Eb & Ea & Bv). assert (R : read_range (buf (nt_v o)) (vbeg (nt_v o) + (p - 1) * 10 + i) (vend (nt_v o)) = Ok (dbl x :: map dbl post)).
  { rewrite Eb. replace (a ++ (map dbl pre ++ dbl start :: dbl x :: map dbl post) ++ b) with ((a ++ map dbl pre ++ [dbl start]) ++ (dbl x :: map dbl post) ++ b)
      by (rewrite <- !app_assoc; reflexivity).
    apply read_range_app; rewrite ?len_app, ?len_cons, ?len_map in *; change (len (@nil double)) with 0; lia. }
  rewrite R. cbn [bind find]. rewrite dbl_leb by lia. split.
  - intros L. destruct (Z.leb_spec start x); [|lia]. rewrite trunc_to_size_dbl by lia. cbn [bind]. destruct (Z.eqb_spec x 0); [lia|]. reflexivity.
  - intros L ->. destruct (Z.leb_spec start x); [lia|]. reflexivity.
Qed.

Definition pw_start (b : Z) (ps : list partW) (k : nat) : Z := b + len (concat (map pw_words (firstn k ps))).
Lemma all_locs_at : forall ps b k p, nth_error ps k = Some p ->
  exists pre post, all_locs b ps = pre ++ pw_locs (pw_start b ps k) p :: post /\ length pre = k
    /\ match post with [] => S k = length ps | ls :: _ => exists p', ls = pw_locs (pw_start b ps k + len (pw_words p)) p' end
    /\ exists w w', concat (map pw_words ps) = w ++ pw_words p ++ w' /\ len w = len (concat (map pw_words (firstn k ps))) /\ (post = [] -> w' = [])
      /\ (Forall (fun p => 0 < len (pw_words p)) ps -> post <> [] -> 0 < len w').
Proof.
  induction ps as [|q ps IH]; intros b [|k] p H; try discriminate.
  - injection H as ->. exists [], (all_locs (b + len (pw_words p)) ps). unfold pw_start. cbn [firstn map concat all_locs app length]. change (len (@nil double)) with 0.
    rewrite !Z.add_0_r. split; [reflexivity|]. split; [reflexivity|]. split.
    + destruct ps as [|p' ps]; cbn [all_locs]; [reflexivity|eauto].
    + exists [], (concat (map pw_words ps)). cbn [app]. split; [reflexivity|]. split; [reflexivity|]. destruct ps as [|p' ps]; [split; [reflexivity|intros _ C; contradiction C; reflexivity]|].
      split; [discriminate|]. intros F _. inversion F as [|? ? _ F']; subst. inversion F' as [|? ? F'' _]; subst. cbn [map concat]. rewrite len_app. pose proof (len_nonneg (concat (map pw_words ps))). lia.
  - cbn [nth_error] in H. destruct (IH (b + len (pw_words q)) k p H) as (pre & post & E & L & P & w & w' & W & Lw & N & N').
    assert (X : pw_start (b + len (pw_words q)) ps k = pw_start b (q :: ps) (S k)).
    { unfold pw_start. rewrite firstn_cons. cbn [map concat]. rewrite len_app. lia. }
    rewrite X in *. exists (pw_locs b q :: pre), post. cbn [all_locs]. rewrite E. split; [reflexivity|]. split; [cbn [length]; lia|]. split.
    + destruct post; [cbn [length]; lia|exact P].
    + exists (pw_words q ++ w), w'. cbn [map concat]. rewrite W, <- app_assoc. split; [reflexivity|]. split; [rewrite firstn_cons; cbn [map concat]; rewrite !len_app; lia|]. split; [exact N|]. intros F. inversion F; subst. apply N'; assumption.
Qed.

Lemma len_concat_ten (l : list (list Z)) : Forall (fun ls => len ls = 10) l -> len (concat l) = 10 * len l.
Proof. induction 1 as [|x l H _ IH]; [reflexivity|]. cbn [concat]. rewrite len_app, len_cons, IH. lia. Qed.

Section Second.
  Variables (bm : build) (s : ceS) (f : Z) (d : tdata).
  Hypothesis HJ : d_jxs d = ce_locators s f.
  Hypothesis HX : d_xss d = ce_words s.
  Hypothesis HZ : ce_sizes s.
  Hypothesis HF : ce_fission s f.
  Hypothesis HD : ce_found s.
  Hypothesis HN : s_particles s <> [].
  Let ntype := s_ntype s.
  Let lp := len (fst (s_ptype s)).
  Let END := ce_END s.

  Let words_eq : d_xss d = concat (ce_pieces s) ++ fst (s_ptype s) ++ map dbl (map pw_n (parts s)) ++ ix_generateXSS (all_locs (ce_base s) (parts s)) ++ concat (map pw_words (parts s)).
  Proof. rewrite HX. unfold ce_words, ce_second. destruct (s_particles s); [contradiction HN; reflexivity|reflexivity]. Qed.
  Let room : len (d_xss d) < max_words.
  Proof. rewrite HX. exact (sz_room _ HZ). Qed.
  Let se_on {A} (a b : A) : match s_particles s with [] => a | _ :: _ => b end = b.
  Proof. destruct (s_particles s); [contradiction HN; reflexivity|reflexivity]. Qed.
  Let sizes : 0 < ntype /\ len (map pw_n (parts s)) = ntype /\ len (parts s) = ntype
    /\ len (ix_generateXSS (all_locs (ce_base s) (parts s))) = 10 * ntype
    /\ END + lp + ntype + 10 * ntype + len (concat (map pw_words (parts s))) = len (d_xss d) /\ 0 <= END /\ 0 <= lp /\ 0 <= len (concat (map pw_words (parts s))).
  Proof.
    assert (L : len (parts s) = ntype) by (unfold parts, ntype, s_ntype; rewrite len_map; reflexivity).
    pose proof (ix_len_any (ce_base s) (parts s)) as LI. rewrite len_all_locs, L in LI.
    split. { unfold ntype, s_ntype. destruct (s_particles s); [contradiction HN; reflexivity|]. rewrite len_cons. pose proof (len_nonneg l). lia. }
    split; [rewrite len_map; exact L|]. split; [exact L|]. split; [exact LI|]. rewrite words_eq. rewrite !len_app, len_map, len_map, LI, L.
    unfold END, lp. change (ce_END s) with (len (concat (ce_pieces s))). split; [lia|]. split; [apply len_nonneg|]. split; apply len_nonneg.
  Qed.

  Lemma b_ptype : ce_block bm d ntype 30 = Ok (END, END + lp).
  Proof.
    pose proof sizes as SZ. unfold max_words in room. pose proof (r_order s HZ HD). pose proof (r_f s f d HJ HZ HF HD).
    eapply (r_plain bm s f d HJ HZ HF HD 30%nat 30%nat); [rewrite HJ; cbn [nth_error ce_locators Nat.sub]; rewrite se_on; reflexivity|lia|lia|lia
      |rewrite HJ; cbn [skipn ce_locators]; rewrite !se_on; unfold END, lp, ntype in SZ |- *; apply jf_hit; lia|cbn [nth_error ce_locators]; rewrite se_on; reflexivity|unfold END, lp, ntype in SZ |- *; lia..].
  Qed.
  Lemma b_ntro : ce_block bm d ntype 31 = Ok (END + lp, END + lp + ntype).
  Proof.
    pose proof sizes as SZ. unfold max_words in room. pose proof (r_order s HZ HD). pose proof (r_f s f d HJ HZ HF HD).
    eapply (r_plain bm s f d HJ HZ HF HD 31%nat 31%nat); [rewrite HJ; cbn [nth_error ce_locators Nat.sub]; rewrite se_on; reflexivity|lia|lia|lia
      |rewrite HJ; cbn [skipn ce_locators]; rewrite !se_on; unfold END, lp, ntype in SZ |- *; apply jf_hit; lia|cbn [nth_error ce_locators]; rewrite se_on; reflexivity|unfold END, lp, ntype in SZ |- *; lia..].
  Qed.
  Lemma b_ixs : ce_block bm d ntype 32 = Ok (END + lp + ntype, END + lp + ntype + 10 * ntype + 1).
  Proof.
    pose proof sizes as SZ. unfold max_words in room.
    rewrite (ce_block_32 bm d ntype ltac:(rewrite HJ; reflexivity) (END + lp + ntype + 1)) by (try (rewrite HJ; cbn [nth_error ce_locators]; rewrite se_on; reflexivity); lia).
    do 2 f_equal; lia.
  Qed.
  Lemma v_ptype : content (tview d END (END + lp)) (fst (s_ptype s)).
  Proof. unfold tview. pose proof room as R. rewrite words_eq in R |- *. apply piece_content; [exact R|reflexivity|reflexivity]. Qed.
  Lemma v_ntro : content (tview d (END + lp) (END + lp + ntype)) (nt_generateXSS (map q_n (s_particles s))).
  Proof.
    unfold tview. pose proof room as R. pose proof sizes as SZ. rewrite words_eq in R |- *. rewrite app_assoc in R |- *.
    replace (nt_generateXSS (map q_n (s_particles s))) with (map dbl (map pw_n (parts s))).
    - apply piece_content; [exact R|rewrite len_app; reflexivity|rewrite len_app, len_map; unfold END, lp; change (ce_END s) with (len (concat (ce_pieces s))); lia].
    - unfold nt_generateXSS, parts. rewrite !map_map. reflexivity.
  Qed.
  Lemma v_ixs : exists ie, 0 <= ie <= END /\ content (tview d (END + lp + ntype) (END + lp + ntype + 10 * ntype + 1)) (map dbl (concat (all_locs (ce_base s) (parts s)) ++ [ie])).
  Proof.
    unfold tview. pose proof room as R. pose proof sizes as SZ. rewrite words_eq in R |- *.
    destruct (s_particles s) as [|q r] eqn:E; [contradiction HN; reflexivity|]. destruct (fd_hpd _ HD _ _ E) as (ie & w & Eq & B). exists ie. split; [exact B|].
    assert (X : exists w', concat (map pw_words (parts s)) = [dbl ie] ++ w').
    { unfold parts. rewrite E. cbn [map concat pw_words pw_list part_words pw_hpd]. rewrite Eq. cbn [app]. eexists. reflexivity. }
    destruct X as (w' & X). rewrite X in R |- *. unfold ix_generateXSS in *. rewrite <- concat_map in *.
    rewrite map_app. cbn [map]. rewrite !app_assoc in R |- *. rewrite <- (app_assoc (_ ++ map dbl (map pw_n (parts s)))) in R |- *.
    rewrite <- (app_assoc _ _ w') in R |- *.
    destruct SZ as (S1 & S2 & S3 & S4 & _). apply piece_content; [exact R| |]; rewrite ?len_app, ?len_map in *; unfold END, lp; change (ce_END s) with (len (concat (ce_pieces s))); change (len [dbl ie]) with 1; lia.
  Qed.

  Variables (k : nat) (q : particleS) (ixs : ntro) (ie : Z).
  Hypothesis HQ : nth_error (s_particles s) k = Some q.
  Hypothesis HI : content (nt_v ixs) (map dbl (concat (all_locs (ce_base s) (parts s)) ++ [ie])).
  Hypothesis HE : 0 <= ie <= END.
  Let p := part_words q.
  Let b := pw_start (ce_base s) (parts s) k.

  Let part_words_pos : Forall (fun p => 0 < len (pw_words p)) (parts s).
  Proof. unfold parts. rewrite Forall_map. eapply Forall_impl; [|exact (fd_yh _ HD)]. cbv beta. intros x X. rewrite pw_words_off. change (pw_yh (part_words x)) with (fst (q_yh x)). unfold pw_off. pose proof (len_nonneg (concat (firstn 6 (pw_list (part_words x))))). lia. Qed.

  Lemma p_views : END < b /\ b + len (pw_words p) <= len (d_xss d)
    /\ (forall j w, nth_error (pw_list p) j = Some w -> content (tview d (b + pw_off p j) (b + pw_off p (S j))) w)
    /\ exists pre post, concat (all_locs (ce_base s) (parts s)) ++ [ie] = pre ++ pw_locs b p ++ post /\ len pre = 10 * Z.of_nat k
         /\ (post = [ie] /\ b + len (pw_words p) = len (d_xss d) \/ b + len (pw_words p) < len (d_xss d) /\ exists post', post = (b + len (pw_words p) + 1) :: post').
  Proof.
    assert (HP : nth_error (parts s) k = Some p) by (unfold parts; apply map_nth_error; exact HQ).
    destruct (all_locs_at (parts s) (ce_base s) k p HP) as (pre & post & E & Lk & P & w & w' & W & Lw & Nw & Nw'). fold b in E, P.
    pose proof sizes as (S1 & S2 & S3 & S4 & S5 & S6 & S7 & S8). pose proof room as R.
    pose proof W as LW. apply (f_equal len) in LW. rewrite !len_app in LW. pose proof (len_nonneg w). pose proof (len_nonneg w').
    assert (Eb : b = ce_base s + len w) by (unfold b, pw_start; lia).
    assert (Ebase : ce_base s = END + lp + ntype + 10 * ntype) by reflexivity.
    split; [lia|]. split; [lia|]. split.
    - intros j x Hj. unfold pw_off. rewrite (firstn_succ_concat _ _ _ Hj). destruct (nth_split_len _ _ _ Hj) as (l1 & l2 & El & Ll).
      unfold tview. rewrite words_eq in R |- *. rewrite W in R |- *. unfold pw_words in R |- *. rewrite El in R |- *. rewrite <- Ll. rewrite firstn_app, firstn_all, Nat.sub_diag. cbn [firstn]. rewrite app_nil_r.
      rewrite concat_app in R |- *. cbn [concat] in R |- *. rewrite <- !app_assoc in R |- *.
      set (W0 := concat (ce_pieces s) ++ fst (s_ptype s) ++ map dbl (map pw_n (parts s)) ++ ix_generateXSS (all_locs (ce_base s) (parts s))).
      assert (L0 : len W0 = ce_base s). { unfold W0. rewrite !len_app, len_map, S2, S4. rewrite Ebase. unfold END, lp. change (ce_END s) with (len (concat (ce_pieces s))). lia. }
      match goal with |- content (View ?l _ _) _ => replace l with ((W0 ++ w ++ concat l1) ++ x ++ concat l2 ++ w') by (unfold W0; rewrite <- !app_assoc; reflexivity) end.
      match type of R with len ?l < _ => replace l with ((W0 ++ w ++ concat l1) ++ x ++ concat l2 ++ w') in R by (unfold W0; rewrite <- !app_assoc; reflexivity) end.
      apply piece_content; [exact R|rewrite !len_app; lia|rewrite !len_app; lia].
    - rewrite E. pose proof (all_locs_ten (ce_base s) (parts s)) as T. rewrite E in T. apply Forall_app in T. destruct T as [T _].
      exists (concat pre), (concat post ++ [ie]). rewrite concat_app. cbn [concat]. rewrite <- !app_assoc. split; [reflexivity|]. split.
      + rewrite (len_concat_ten _ T). unfold len. lia.
      + destruct post as [|ls post].
        * left. split; [reflexivity|]. rewrite (Nw eq_refl) in LW. change (len (@nil double)) with 0 in LW. lia.
        * right. split; [assert (0 < len w') by (apply Nw'; [exact part_words_pos|discriminate]); lia|]. destruct P as (p' & ->). cbn [concat app pw_locs]. eexists. reflexivity.
  Qed.

  Lemma p_blocks : let e := fun j => b + pw_off p j in
    ce_pblock bm d ixs (Z.of_nat k + 1) 1 = Ok (e 0%nat, e 1%nat) /\ ce_pblock bm d ixs (Z.of_nat k + 1) 2 = Ok (e 1%nat, e 2%nat)
    /\ ce_pblock bm d ixs (Z.of_nat k + 1) 3 = Ok (e 2%nat, e 3%nat)
    /\ ce_pblock bm d ixs (Z.of_nat k + 1) 4 = Ok (e 3%nat, e 3%nat + q_n q) /\ ce_pblock bm d ixs (Z.of_nat k + 1) 5 = Ok (e 3%nat + q_n q, e 4%nat)
    /\ ce_pblock bm d ixs (Z.of_nat k + 1) 6 = Ok (e 4%nat, e 4%nat + q_n q) /\ ce_pblock bm d ixs (Z.of_nat k + 1) 7 = Ok (e 4%nat + q_n q, e 5%nat)
    /\ ce_pblock bm d ixs (Z.of_nat k + 1) 8 = Ok (e 5%nat, e 5%nat + q_n q) /\ ce_pblock bm d ixs (Z.of_nat k + 1) 9 = Ok (e 5%nat + q_n q, e 6%nat)
    /\ ce_pblock bm d ixs (Z.of_nat k + 1) 10 = Ok (e 6%nat, e 7%nat).
  Proof.
    cbv zeta. destruct p_views as (B1 & B2 & _ & pre & post & E & Lp & Post). pose proof room as R. unfold max_words in R.
    pose proof (sz_particles _ HZ) as SP. rewrite Forall_forall in SP. destruct (SP q (nth_error_In _ _ HQ)) as (Q1 & Q2 & Q3 & Q4 & Q5).
    pose proof sizes as (S1 & S2 & S3 & S4 & S5 & S6 & S7 & S8).
    assert (O0 : pw_off p 0 = 0) by reflexivity. pose proof (firstn_succ_concat 0 (pw_list p) _ eq_refl : pw_off p 1 = _) as O1. pose proof (firstn_succ_concat 1 (pw_list p) _ eq_refl : pw_off p 2 = _) as O2.
    pose proof (firstn_succ_concat 2 (pw_list p) _ eq_refl : pw_off p 3 = _) as O3. pose proof (firstn_succ_concat 3 (pw_list p) _ eq_refl : pw_off p 4 = _) as O4.
    pose proof (firstn_succ_concat 4 (pw_list p) _ eq_refl : pw_off p 5 = _) as O5. pose proof (firstn_succ_concat 5 (pw_list p) _ eq_refl : pw_off p 6 = _) as O6.
    pose proof (pw_words_off p) as OW. assert (O7 : pw_off p 7 = len (pw_words p)) by reflexivity.
    fold (pw_off p 0) in O1. fold (pw_off p 1) in O2. fold (pw_off p 2) in O3. fold (pw_off p 3) in O4. fold (pw_off p 4) in O5. fold (pw_off p 5) in O6.
    change (pw_sigh p) with (fst (q_sigh q)) in O4. change (pw_andh p) with (fst (q_andh q)) in O5. change (pw_dlwh p) with (fst (q_dlwh q)) in O6.
    pose proof (len_nonneg (pw_hpd p)). pose proof (len_nonneg (pw_mtrh p)). pose proof (len_nonneg (pw_tyrh p)). pose proof (len_nonneg (pw_yh p)).
    pose proof (fd_yh _ HD) as FY. rewrite Forall_forall in FY. pose proof (FY q (nth_error_In _ _ HQ)) as Y. change (fst (q_yh q)) with (pw_yh p) in Y.
    assert (STEP : forall l1 a x r i, pw_locs b p ++ post = l1 ++ a :: x :: r -> i = len l1 + 1 -> 0 < a <= x -> x < 2 ^ 31 ->
       ce_pblock bm d ixs (Z.of_nat k + 1) i = Ok (a - 1, x - 1)).
    { intros l1 a x r i El Ei Ba Bx. pose proof HI as C'. rewrite E, El, app_assoc in C'. apply (pblock_at bm d ixs (pre ++ l1) a x r _ _ C'); [lia|lia|rewrite len_app; lia|lia]. }
    unfold pw_locs in STEP. cbn [app] in STEP. change (pw_n p) with (q_n q) in STEP.
    split. { rewrite (STEP [] _ _ _ 1 eq_refl eq_refl) by lia. do 2 f_equal; lia. }
    split. { rewrite (STEP [_] _ _ _ 2 eq_refl eq_refl) by lia. do 2 f_equal; lia. }
    split. { rewrite (STEP [_; _] _ _ _ 3 eq_refl eq_refl) by lia. do 2 f_equal; lia. }
    split. { rewrite (STEP [_; _; _] _ _ _ 4 eq_refl eq_refl) by lia. do 2 f_equal; lia. }
    split. { rewrite (STEP [_; _; _; _] _ _ _ 5 eq_refl eq_refl) by lia. do 2 f_equal; lia. }
    split. { rewrite (STEP [_; _; _; _; _] _ _ _ 6 eq_refl eq_refl) by lia. do 2 f_equal; lia. }
    split. { rewrite (STEP [_; _; _; _; _; _] _ _ _ 7 eq_refl eq_refl) by lia. do 2 f_equal; lia. }
    split. { rewrite (STEP [_; _; _; _; _; _; _] _ _ _ 8 eq_refl eq_refl) by lia. do 2 f_equal; lia. }
    split. { rewrite (STEP [_; _; _; _; _; _; _; _] _ _ _ 9 eq_refl eq_refl) by lia. do 2 f_equal; lia. }
    destruct Post as [[-> Last]|(More & post' & ->)].
    - assert (X : pw_locs b p = firstn 9 (pw_locs b p) ++ [b + pw_off p 6 + 1]) by reflexivity.
      pose proof HI as C'. rewrite E, X, <- app_assoc, app_assoc in C'. cbn [app] in C'.
      rewrite (proj2 (pblock_at bm d ixs _ _ _ _ (Z.of_nat k + 1) 10 C' ltac:(lia) ltac:(lia) ltac:(rewrite len_app; change (len (firstn 9 (pw_locs b p))) with 9; lia))) by (try reflexivity; lia).
      do 2 f_equal; lia.
    - rewrite (STEP [_; _; _; _; _; _; _; _; _] _ _ _ 10 eq_refl eq_refl) by lia. do 2 f_equal; lia.
  Qed.
End Second.

Lemma ty_make_layout bm v frames ms : Forall2 ty_ok frames ms -> has v (ty_layout frames ms) -> exists o, ty_make bm v (len frames) = Ok o /\ ty_shows bm o frames ms.
Proof.
  intros H Hv. assert (Lw : len (ty_layout frames ms) = len frames).
  { unfold ty_layout. rewrite len_map. unfold len. pose proof (Forall2_len _ _ _ H) as L. rewrite combine_length, <- L, Nat.min_id. reflexivity. }
  unfold ty_make. rewrite (verify_at_least_has _ _ _ Hv) by lia. cbn [bind]. destruct (ty_blocks_has bm v _ _ H Hv) as (o & G & _ & Sh). eauto.
Qed.
Lemma ty_make_frames bm v frames : has v (ty_generateXSS_frames frames) -> exists o, ty_make bm v (len frames) = Ok o /\ ty_shows bm o frames (repeat 1 (length frames)).
Proof. intros Hv. apply ty_make_layout; [apply ty_frames_ok|]. unfold ty_layout. rewrite <- ty_frames_words. exact Hv. Qed.

Lemma p_ok bm s f d k q ixs ntro ie : d_jxs d = ce_locators s f -> d_xss d = ce_words s -> ce_sizes s -> ce_found s -> ce_reads bm s -> s_particles s <> [] ->
  nth_error (s_particles s) k = Some q -> content (nt_v ixs) (map dbl (concat (all_locs (ce_base s) (parts s)) ++ [ie])) -> 0 <= ie <= ce_END s ->
  nt_shows bm ntro (map q_n (s_particles s)) ->
  exists p, ce_particle_blocks bm d ntro ixs (Z.of_nat k + 1) = Ok p /\ particle_shows bm p q.
Proof.
  intros HJ HX HZ HD HR HN HQ HI HE (_ & _ & NP).
  pose proof (p_blocks bm s d HX HZ HD HN k q ixs ie HQ HI HE) as (P1 & P2 & P3 & P4 & P5 & P6 & P7 & P8 & P9 & P10).
  pose proof (p_views s d HX HZ HD HN k q ie HQ) as (_ & _ & V & _). cbv zeta in *.
  pose proof (rd_particles _ _ HR) as RP. rewrite Forall_forall in RP. destruct (RP q (nth_error_In _ _ HQ)) as (R1 & R2 & R3 & R4 & R5 & R6).
  pose proof (sz_particles _ HZ) as SP. rewrite Forall_forall in SP. destruct (SP q (nth_error_In _ _ HQ)) as (Q1 & Q2 & Q3 & Q4 & Q5).
  unfold ce_particle_blocks. rewrite P1. cbn [bind fst snd].
  destruct (R1 _ (V 0%nat _ eq_refl)) as (o1 & -> & S1). cbn [bind].
  rewrite (NP k (q_n q) (map_nth_error q_n _ _ HQ)). cbn [bind].
  rewrite P2. cbn [bind fst snd]. destruct (R2 _ (V 1%nat _ eq_refl)) as (o2 & -> & S2). cbn [bind].
  rewrite P3. cbn [bind fst snd]. destruct (ty_make_frames bm _ (q_frames q) (content_has _ _ (V 2%nat _ eq_refl))) as (o3 & M3 & S3). rewrite Q2 in M3. rewrite M3. cbn [bind].
  rewrite P4. cbn [bind fst snd]. change (4 + 1) with 5. rewrite P5. cbn [bind fst snd]. destruct (R3 _ (V 3%nat _ eq_refl)) as (o4 & M4 & S4). cbn [tview vbeg] in M4. rewrite M4. cbn [bind].
  rewrite P6. cbn [bind fst snd]. change (6 + 1) with 7. rewrite P7. cbn [bind fst snd]. destruct (R4 _ (V 4%nat _ eq_refl)) as (o5 & M5 & S5). cbn [tview vbeg] in M5. rewrite M5. cbn [bind].
  rewrite P8. cbn [bind fst snd]. change (8 + 1) with 9. rewrite P9. cbn [bind fst snd]. destruct (R5 o3 S3 _ (V 5%nat _ eq_refl)) as (o6 & M6 & S6). cbn [tview vbeg] in M6. rewrite M6. cbn [bind].
  rewrite P10. cbn [bind fst snd]. destruct (R6 _ (V 6%nat _ eq_refl)) as (o7 & -> & S7). cbn [bind].
  eexists. split; [reflexivity|]. constructor; assumption.
Qed.

Lemma mapM_Forall2 {A B C} (F : A -> outcome B) (R : B -> C -> Prop) : forall (l : list A) (cs : list C),
  length l = length cs -> (forall k a c, nth_error l k = Some a -> nth_error cs k = Some c -> exists b, F a = Ok b /\ R b c) ->
  exists bs, mapM F l = Ok bs /\ Forall2 R bs cs.
Proof.
  induction l as [|a l IH]; intros [|c cs] L H; try discriminate; [exists []; split; [reflexivity|constructor]|].
  destruct (H 0%nat a c eq_refl eq_refl) as (b & Eb & Rb). destruct (IH cs ltac:(cbn in L; lia) (fun k a' c' => H (S k) a' c')) as (bs & Ebs & Rbs).
  exists (b :: bs). cbn [mapM]. rewrite Eb. cbn [bind]. rewrite Ebs. cbn [bind]. split; [reflexivity|constructor; assumption].
Qed.

Lemma length_seqZ n : forall a, length (seqZ a n) = n.
Proof. induction n as [|n IH]; intros a; [reflexivity|]. cbn [seqZ length]. rewrite IH. reflexivity. Qed.
Lemma nth_seqZ n : forall a k x, nth_error (seqZ a n) k = Some x -> x = a + Z.of_nat k.
Proof. induction n as [|n IH]; intros a [|k] x H; try discriminate; cbn [seqZ nth_error] in H; [injection H as ->; lia|]. rewrite (IH _ _ _ H). lia. Qed.

Lemma pw_locs_valid' b p : part_ok p -> 0 < len (pw_yh p) -> 0 <= b -> b + len (pw_words p) < 2 ^ 31 -> len (pw_locs b p) = 10 /\ mt_valid (pw_locs b p).
Proof.
  intros (O1 & O2 & O3 & O4) Hy Hb B. split; [reflexivity|]. unfold pw_words, pw_list in B. cbn [concat] in B. repeat rewrite ?len_app, ?len_nil in B.
  unfold pw_locs, pw_off, pw_list, mt_valid. cbn [firstn concat]. repeat rewrite ?len_app, ?len_nil. change (len (@nil double)) with 0.
  repeat match goal with |- context [len (?f p)] => lazymatch goal with H : 0 <= len (f p) |- _ => fail | _ => pose proof (len_nonneg (f p)) end end.
  repeat (apply Forall_cons; [lia|]). apply Forall_nil.
Qed.
Lemma all_locs_valid' : forall ps b, Forall part_ok ps -> Forall (fun p => 0 < len (pw_yh p)) ps -> 0 <= b -> b + len (concat (map pw_words ps)) < 2 ^ 31 -> ix_valid (all_locs b ps).
Proof.
  induction ps as [|p ps IH]; intros b F F' Hb B; [constructor|]. inversion F as [|? ? F1 F2]; subst. inversion F' as [|? ? F1' F2']; subst.
  cbn [map concat] in B. rewrite len_app in B. pose proof (len_nonneg (concat (map pw_words ps))). pose proof (len_nonneg (pw_words p)).
  cbn [all_locs]. constructor; [apply pw_locs_valid'; [assumption|assumption|lia|lia]|]. apply IH; [assumption|assumption|lia|lia].
Qed.

Section Table.
  Variables (bm : build) (s : ceS) (f : Z) (z a st : Z) (zaid : list ascii).
  Hypothesis HZ : ce_sizes s.
  Hypothesis HF : ce_fission s f.
  Hypothesis HD : ce_found s.
  Hypothesis HR : ce_reads bm s.
  Let d := TData (zeros 16) (dzeros 16) (ce_nxs z a st s) (ce_locators s f) (ce_words s).
  Let HJ : d_jxs d = ce_locators s f := eq_refl.
  Let HX : d_xss d = ce_words s := eq_refl.
  Let e := ce_off s.
  Let ntype := s_ntype s.

  Let bounds : 0 <= s_ntr s < 2 ^ 31 /\ 0 <= s_nr s < 2 ^ 31 /\ 0 <= or0 g_n (s_photon s) < 2 ^ 31 /\ 0 <= or0 b_n (s_delayed s) < 2 ^ 31 /\ 0 <= ntype < 2 ^ 31.
  Proof.
    pose proof (r_order s HZ HD) as O. pose proof (r_END s HZ) as E. pose proof (len_nonneg (ce_second s)) as L.
    assert (N : ntype <= len (ce_second s)).
    { unfold ntype, s_ntype, ce_second. destruct (s_particles s) eqn:Q; [cbn; lia|]. rewrite <- Q. repeat rewrite len_app. rewrite !len_map. unfold parts. rewrite len_map.
      pose proof (len_nonneg (fst (s_ptype s))). match goal with |- _ <= _ + (_ + (?x + ?y)) => assert (0 <= x) by apply len_nonneg; assert (0 <= y) by apply len_nonneg end. lia. }
    pose proof (len_nonneg (s_particles s)). unfold ntype, s_ntype in *. lia.
  Qed.
  Let N_at k n : nth_error (ce_nxs z a st s) k = Some n -> 0 <= n < 2 ^ 32 -> ce_N bm d (Z.of_nat k + 1) = Ok n.
  Proof. intros H B. unfold ce_N. assert (Q : d_NXS bm d (Z.of_nat k + 1) = Ok n) by (apply fetch_in; [exact H|reflexivity]). rewrite Q. cbn [bind]. rewrite u32_small by lia. reflexivity. Qed.
  Let J_at k n : nth_error (ce_locators s f) k = Some n -> d_JXS bm d (Z.of_nat k + 1) = Ok n.
  Proof. intros H. apply fetch_in; [exact H|reflexivity]. Qed.
  Let view_at k w : nth_error (ce_pieces s) k = Some w -> content (tview d (e k) (e (S k))) w.
  Proof. intros H. exact (r_view s d HX HZ k w _ _ H eq_refl eq_refl). Qed.

  Lemma ce_blocks_ok : exists t, ce_generateBlocks bm zaid d = Ok t /\ ct_zaid t = zaid /\ ct_data t = d /\ ce_shows bm s t.
  Proof.
    pose proof bounds as (B1 & B2 & B3 & B4 & B5). pose proof (fd_nes _ HD) as B0. pose proof (r_order s HZ HD) as OO.
    unfold ce_generateBlocks.
    rewrite (N_at 6 ntype eq_refl ltac:(lia) : ce_N bm d 7 = _). cbn [bind].
    rewrite (N_at 2 (s_nes s) eq_refl ltac:(lia) : ce_N bm d 3 = _). cbn [bind].
    destruct (one_ok bm d ntype 1 _ _ _ _ _ (b_esz bm s f d HJ HZ HF HD) (view_at 0 _ eq_refl) (rd_esz _ _ HR)) as (o1 & -> & S1). cbn [bind].
    rewrite (J_at 1 _ eq_refl : d_JXS bm d 2 = _). cbn [bind].
    assert (exists o, opt_block (0 <? (if given (s_nu s) then e 1%nat + 1 else 0)) (one bm d ntype 2 (nu_make bm)) = Ok o /\ opt_says (s_nu s) o) as (o2 & E2 & S2).
    { pose proof (view_at 1 _ eq_refl) as V. destruct (s_nu s) as [c|] eqn:Nu; cbn [given words_or] in *.
      - destruct (Z.ltb_spec 0 (e 1%nat + 1)); [|unfold e in *; lia]. destruct (one_ok bm d ntype 2 _ _ _ _ _ (b_nu bm s f d HJ HZ HF HD _ Nu) V (rd_nu _ _ HR _ Nu)) as (o & E & Sh).
        exists (Some o). cbn [opt_block]. rewrite E. cbn. auto.
      - exists None. cbn. auto. }
    cbn [ce_locators nth_error] in E2. unfold e in E2. rewrite E2. cbn [bind]. clear E2.
    rewrite (N_at 3 (s_ntr s) eq_refl ltac:(lia) : ce_N bm d 4 = _). cbn [bind].
    destruct (one_ok bm d ntype 3 _ _ _ _ _ (b_mtr bm s f d HJ HZ HF HD) (view_at 2 _ eq_refl) (rd_mtr _ _ HR)) as (o3 & -> & S3). cbn [bind].
    destruct (one_ok bm d ntype 4 _ _ _ _ _ (b_lqr bm s f d HJ HZ HF HD) (view_at 3 _ eq_refl) (rd_lqr _ _ HR)) as (o4 & -> & S4). cbn [bind].
    assert (TY : readable (fun v => ty_make bm v (s_ntr s)) (ty_layout (all_frames s) (all_ms s)) (fun t => ty_shows bm t (all_frames s) (all_ms s))).
    { intros v C. destruct (sz_tyr _ HZ) as (F & L). pose proof (Forall2_len _ _ _ F) as LF.
      assert (F2 : Forall2 ty_ok (all_frames s) (all_ms s)).
      { apply Forall2_app; [exact F|]. induction (Z.to_nat (s_ntr s - s_nr s)); cbn [repeat]; constructor; auto. split; [lia|discriminate]. }
      assert (LL : len (all_frames s) = s_ntr s). { unfold all_frames. rewrite len_app. pose proof (sz_nr _ HZ). unfold len in *. rewrite repeat_length. lia. }
      rewrite <- LL. apply ty_make_layout; [exact F2|apply content_has; exact C]. }
    destruct (one_ok bm d ntype 5 _ _ _ _ _ (b_tyr bm s f d HJ HZ HF HD) (view_at 4 _ eq_refl) TY) as (o5 & -> & S5). cbn [bind].
    destruct (b_sig0 bm s f d HJ HZ HF HD) as (x6 & E6).
    destruct (two_ok bm d ntype 6 (fun v x => bl_make bm (sig_generateData bm) v x (s_ntr s) true) _ _ _ _ _ _ _ E6 (b_sig bm s f d HJ HZ HF HD) (view_at 5 _ eq_refl) eq_refl (rd_sig _ _ HR)) as (o6 & -> & S6). cbn [bind].
    rewrite (N_at 4 (s_nr s) eq_refl ltac:(lia) : ce_N bm d 5 = _). cbn [bind].
    destruct (b_ang0 bm s f d HJ HZ HF HD) as (x8 & E8).
    assert (RA : readable (fun v => ab_make bm v (vbeg v + (s_nr s + 1)) (s_nr s) true) (fst (s_ang s)) (snd (s_ang s))).
    { intros v C. rewrite Z.add_assoc. exact (rd_ang _ _ HR v C). }
    destruct (two_ok bm d ntype 8 (fun v x => ab_make bm v x (s_nr s) true) _ _ _ _ _ _ _ E8 (b_ang bm s f d HJ HZ HF HD) (view_at 6 _ eq_refl) (eq_sym (Z.add_assoc _ _ _)) RA) as (o8 & -> & S8). cbn [bind].
    destruct (b_dlw0 bm s f d HJ HZ HF HD) as (x10 & E10).
    destruct (two_ok bm d ntype 10 (fun v x => dl_make bm v x o5 (s_nr s)) _ _ _ _ _ _ _ E10 (b_dlw bm s f d HJ HX HZ HF HD) (view_at 7 _ eq_refl) eq_refl (rd_dlw _ _ HR o5 S5)) as (o10 & -> & S10). cbn [bind].
    rewrite (N_at 5 (or0 g_n (s_photon s)) eq_refl ltac:(lia) : ce_N bm d 6 = _). cbn [bind].
    assert (exists a1 a2 a3 a4 a5 a6, let n := or0 g_n (s_photon s) in
      opt_block (0 <? n) (one bm d ntype 12 (fun v => lq_make v (s_nes s))) = Ok a1 /\ opt_block (0 <? n) (one bm d ntype 13 (fun v => mt_make v n)) = Ok a2
      /\ opt_block (0 <? n) (two bm d ntype 14 (fun v x => bl_make bm (sigp_generateData bm) v x n true)) = Ok a3
      /\ opt_block (0 <? n) (two bm d ntype 16 (fun v x => ab_make bm v x n false)) = Ok a4
      /\ opt_block (0 <? n) (two bm d ntype 18 (fun v x => dh_make bm v x n None)) = Ok a5 /\ opt_block (0 <? n) (one bm d ntype 20 (yp_make bm)) = Ok a6
      /\ group_says (s_photon s) g_gpd a1 /\ group_says (s_photon s) g_mtrp a2 /\ group_says (s_photon s) g_sigp a3 /\ group_says (s_photon s) g_andp a4
      /\ group_says (s_photon s) g_dlwp a5 /\ group_says (s_photon s) g_yp a6) as (a1 & a2 & a3 & a4 & a5 & a6 & A1 & A2 & A3 & A4 & A5 & A6 & T1 & T2 & T3 & T4 & T5 & T6).
    { pose proof (view_at 12 _ eq_refl) as V12. pose proof (view_at 13 _ eq_refl) as V13. pose proof (view_at 14 _ eq_refl) as V14. pose proof (view_at 15 _ eq_refl) as V15.
      pose proof (view_at 16 _ eq_refl) as V16. pose proof (view_at 17 _ eq_refl) as V17. change (e 18%nat) with (ce_END s) in V17. cbv zeta.
      destruct (s_photon s) as [g|] eqn:G.
      - cbn [or0 words_or] in *. destruct (fd_photon _ HD _ G) as (Gn & _). destruct (Z.ltb_spec 0 (g_n g)); [|lia]. destruct (rd_photon _ _ HR _ G) as (R1 & R2 & R3 & R4 & R5 & R6).
        destruct (one_ok bm d ntype 12 _ _ _ _ _ (b_gpd bm s f d HJ HZ HF HD g G) V12 R1) as (p1 & -> & P1).
        destruct (one_ok bm d ntype 13 _ _ _ _ _ (b_mtrp bm s f d HJ HZ HF HD g G) V13 R2) as (p2 & -> & P2).
        destruct (b_sigp0 bm s f d HJ HZ HF HD g G) as (y1 & Y1). destruct (b_andp0 bm s f d HJ HZ HF HD g G) as (y2 & Y2). destruct (b_dlwp0 bm s f d HJ HZ HF HD g G) as (y3 & Y3).
        destruct (two_ok bm d ntype 14 (fun v x => bl_make bm (sigp_generateData bm) v x (g_n g) true) _ _ _ _ _ _ _ Y1 (b_sigp bm s f d HJ HZ HF HD g G) V14 eq_refl R3) as (p3 & -> & P3).
        destruct (two_ok bm d ntype 16 (fun v x => ab_make bm v x (g_n g) false) _ _ _ _ _ _ _ Y2 (b_andp bm s f d HJ HZ HF HD g G) V15 eq_refl R4) as (p4 & -> & P4).
        destruct (two_ok bm d ntype 18 (fun v x => dh_make bm v x (g_n g) None) _ _ _ _ _ _ _ Y3 (b_dlwp bm s f d HJ HZ HF HD g G) V16 eq_refl R5) as (p5 & -> & P5).
        destruct (one_ok bm d ntype 20 _ _ _ _ _ (b_yp bm s f d HJ HZ HF HD g G) V17 R6) as (p6 & -> & P6).
        cbn [opt_block bind]. exists (Some p1), (Some p2), (Some p3), (Some p4), (Some p5), (Some p6). unfold group_says. cbn [option_map opt_says]. tauto.
      - cbn. exists None, None, None, None, None, None. unfold group_says. cbn. tauto. }
    rewrite A1. cbn [bind]. rewrite A2. cbn [bind]. rewrite A3. cbn [bind]. rewrite A4. cbn [bind]. rewrite A5. cbn [bind]. rewrite A6. cbn [bind]. clear A1 A2 A3 A4 A5 A6.
    rewrite (J_at 22 _ eq_refl : d_JXS bm d 23 = _). cbn [bind].
    assert (exists o, opt_block (0 <? (if given (s_unr s) then e 8%nat + 1 else 0)) (one bm d ntype 23 (un_make bm)) = Ok o /\ opt_says (s_unr s) o) as (o23 & E23 & S23).
    { pose proof (view_at 8 _ eq_refl) as V. destruct (s_unr s) as [c|] eqn:U; cbn [given words_or] in *.
      - destruct (Z.ltb_spec 0 (e 8%nat + 1)); [|unfold e in *; lia].
        assert (X : exists b', ce_block bm d ntype 23 = Ok (e 8%nat, b') /\ has (tview d (e 8%nat) b') (fst c)).
        { destruct (b_unr bm s f d HJ HX HZ HF HD c U) as [[_ X]|[_ X]].
          - exists (e 9%nat). split; [exact X|]. apply content_has. exact V.
          - exists (ce_END s). split; [exact X|]. destruct V as [(pre & post & Eb & Ev & Bv) _]. exists pre, post. cbn [tview buf vbeg vend] in *.
            split; [exact Eb|]. split; [exact Ev|]. pose proof (r_END s HZ). assert (ce_END s <= len (d_xss d)). { rewrite HX. unfold ce_words. rewrite len_app. change (len (concat (ce_pieces s))) with (ce_END s). pose proof (len_nonneg (ce_second s)). lia. }
            unfold e in *. lia. }
        destruct X as (b' & X & Y). destruct (rd_unr _ _ HR _ U _ Y) as (o & Eo & So). unfold one. rewrite X. cbn [bind fst snd]. rewrite Eo. cbn. exists (Some o). auto.
      - exists None. cbn. auto. }
    cbn [ce_locators nth_error] in E23. unfold e in E23. rewrite E23. cbn [bind]. clear E23.
    rewrite (J_at 23 _ eq_refl : d_JXS bm d 24 = _). cbn [bind].
    assert (exists a1 a2 a3, let n := or0 b_n (s_delayed s) in
      opt_block (0 <? (if given (s_delayed s) then e 9%nat + 1 else 0)) (one bm d ntype 24 (nu_make bm)) = Ok a1
      /\ opt_block (0 <? n) (one bm d ntype 25 (fun v => bd_make bm v n)) = Ok a2
      /\ opt_block (0 <? n) (two bm d ntype 26 (fun v x => dh_make bm v x n None)) = Ok a3
      /\ group_says (s_delayed s) b_dnu a1 /\ group_says (s_delayed s) b_bdd a2 /\ group_says (s_delayed s) b_dned a3) as (c1 & c2 & c3 & C1 & C2 & C3 & U1 & U2 & U3).
    { pose proof (view_at 9 _ eq_refl) as V9. pose proof (view_at 10 _ eq_refl) as V10. pose proof (view_at 11 _ eq_refl) as V11. cbv zeta.
      destruct (s_delayed s) as [b|] eqn:G.
      - cbn [or0 words_or given] in *. destruct (fd_delayed _ HD _ G) as (Gn & _). destruct (Z.ltb_spec 0 (b_n b)); [|lia]. destruct (Z.ltb_spec 0 (e 9%nat + 1)); [|unfold e in *; lia].
        destruct (rd_delayed _ _ HR _ G) as (R1 & R2 & R3).
        destruct (one_ok bm d ntype 24 _ _ _ _ _ (blk_dnu bm s f d HJ HZ HF HD b G) V9 R1) as (p1 & -> & P1).
        destruct (one_ok bm d ntype 25 _ _ _ _ _ (blk_bdd bm s f d HJ HZ HF HD b G) V10 R2) as (p2 & -> & P2).
        destruct (b_dned0 bm s f d HJ HZ HF HD b G) as (y1 & Y1).
        destruct (two_ok bm d ntype 26 (fun v x => dh_make bm v x (b_n b) None) _ _ _ _ _ _ _ Y1 (blk_dned bm s f d HJ HZ HF HD b G) V11 eq_refl R3) as (p3 & -> & P3).
        cbn [opt_block bind]. exists (Some p1), (Some p2), (Some p3). unfold group_says. cbn [option_map opt_says]. tauto.
      - cbn. exists None, None, None. unfold group_says. cbn. tauto. }
    cbn [ce_locators nth_error] in C1. unfold e in C1. rewrite C1. cbn [bind]. clear C1.
    rewrite (N_at 7 (or0 b_n (s_delayed s)) eq_refl ltac:(lia) : ce_N bm d 8 = _). cbn [bind].
    rewrite C2. cbn [bind]. rewrite C3. cbn [bind]. clear C2 C3.
    assert (s_particles s = [] \/ s_particles s <> []) as [E|HN] by (destruct (s_particles s); [left; reflexivity|right; discriminate]).
    - assert (N0 : ntype = 0) by (unfold ntype, s_ntype; rewrite E; reflexivity). rewrite N0. cbn [Z.ltb Z.compare].
      eexists. split; [reflexivity|]. split; [reflexivity|]. split; [reflexivity|]. constructor; cbn [ct_esz ct_nu ct_mtr ct_lqr ct_tyr ct_sig ct_ang ct_dlw ct_gpd ct_mtrp ct_sigp ct_andp ct_dlwp ct_yp ct_unr ct_dnu ct_bdd ct_dned ct_ptype ct_ntro ct_ixs ct_particles];
        try assumption; rewrite E; try exact I. constructor.
    - assert (N0 : 0 < ntype) by (unfold ntype, s_ntype; destruct (s_particles s); [contradiction HN; reflexivity|rewrite len_cons; pose proof (len_nonneg l); lia]).
      destruct (Z.ltb_spec 0 ntype); [|lia].
      destruct (one_ok bm d ntype 30 (fun v => mt_make v ntype) _ _ _ _ (b_ptype bm s f d HJ HX HZ HF HD HN) (v_ptype s d HX HZ HN) (rd_ptype _ _ HR)) as (o30 & -> & S30). cbn [bind].
      assert (SQ : mt_valid (map q_n (s_particles s))).
      { unfold mt_valid. rewrite Forall_map. pose proof (sz_particles _ HZ) as SP. rewrite Forall_forall in SP |- *. intros q Hq. destruct (SP q Hq) as (Q1 & Q2 & Q3 & _).
        pose proof (ce_words_parts s q Hq) as W. pose proof (sz_room _ HZ) as R. unfold max_words in R. rewrite pw_words_off in W. unfold pw_off, pw_list, part_words in W.
        cbn [firstn concat pw_hpd pw_mtrh pw_tyrh pw_sigh pw_andh pw_dlwh pw_yh] in W. repeat rewrite len_app in W. change (len (@nil double)) with 0 in W.
        pose proof (len_nonneg (fst (q_hpd q))). pose proof (len_nonneg (fst (q_mtrh q))). pose proof (len_nonneg (ty_generateXSS_frames (q_frames q))).
        pose proof (len_nonneg (fst (q_andh q))). pose proof (len_nonneg (fst (q_dlwh q))). pose proof (len_nonneg (fst (q_yh q))). lia. }
      assert (RN : readable (fun v => nt_make v ntype) (nt_generateXSS (map q_n (s_particles s))) (fun o => nt_shows bm o (map q_n (s_particles s)))).
      { intros v C. destruct (nt_has bm v _ SQ (content_has _ _ C)) as [M Sh]. rewrite len_map in M, Sh. eauto. }
      destruct (one_ok bm d ntype 31 _ _ _ _ _ (b_ntro bm s f d HJ HX HZ HF HD HN) (v_ntro s d HX HZ HN) RN) as (o31 & -> & S31). cbn [bind].
      destruct (v_ixs s d HX HZ HD HN) as (ie & Bie & CI).
      assert (VI : ix_valid (all_locs (ce_base s) (parts s))).
      { pose proof (parts_ok _ HZ) as PO. pose proof (sz_room _ HZ) as RM. unfold max_words in RM. pose proof (len_nonneg (fst (s_ptype s))). pose proof (fd_yh _ HD) as FY.
        apply all_locs_valid'; [exact PO|unfold parts; rewrite Forall_map; exact FY|unfold ce_base; fold ntype; pose proof (r_END s HZ); lia|].
        unfold ce_words, ce_second in RM. assert (X : forall A (x y : A), match s_particles s with [] => x | _ :: _ => y end = y) by (intros; destruct (s_particles s); [contradiction HN; reflexivity|reflexivity]).
        rewrite X in RM. repeat rewrite len_app in RM. rewrite !len_map, ix_len_any, len_all_locs in RM. unfold parts in RM at 1 2. rewrite !len_map in RM.
        unfold ce_base, s_ntype. change (ce_END s) with (len (concat (ce_pieces s))). lia. }
      assert (exists o32, one bm d ntype 32 (fun v => ix_make v ntype) = Ok o32 /\ ix_shows bm o32 (all_locs (ce_base s) (parts s))
         /\ content (nt_v o32) (map dbl (concat (all_locs (ce_base s) (parts s)) ++ [ie]))) as (o32 & -> & S32 & C32).
      { unfold one. rewrite (b_ixs bm s f d HJ HX HZ HN : ce_block bm d ntype 32 = _). cbn [bind fst snd]. match goal with |- context [ix_make ?v ntype] => set (v0 := v) in * end.
        assert (H0 : has v0 (ix_generateXSS (all_locs (ce_base s) (parts s)))).
        { destruct CI as [H0 _]. rewrite map_app, concat_map in H0. apply has_app in H0. exact H0. }
        destruct (ix_has bm v0 _ VI H0) as [M Sh]. rewrite len_all_locs in M, Sh. unfold parts in M, Sh. rewrite len_map in M, Sh. fold ntype in M, Sh. eexists. split; [exact M|]. split; [exact Sh|]. exact CI. }
      cbn [bind].
      destruct (mapM_Forall2 (ce_particle_blocks bm d o31 o32) (particle_shows bm) (seqZ 1 (Z.to_nat ntype)) (s_particles s)) as (ps & -> & SP).
      { unfold ntype, s_ntype, len. rewrite Nat2Z.id. rewrite length_seqZ. reflexivity. }
      { intros k x q Hk Hq. apply nth_seqZ in Hk. subst x. rewrite Z.add_comm. exact (p_ok bm s f d k q o32 o31 ie HJ HX HZ HD HR HN Hq C32 Bie S31). }
      cbn [bind]. eexists. split; [reflexivity|]. split; [reflexivity|]. split; [reflexivity|]. constructor; cbn [ct_esz ct_nu ct_mtr ct_lqr ct_tyr ct_sig ct_ang ct_dlw ct_gpd ct_mtrp ct_sigp ct_andp ct_dlwp ct_yp ct_unr ct_dnu ct_bdd ct_dned ct_ptype ct_ntro ct_ixs ct_particles];
        try assumption; destruct (s_particles s); try assumption; contradiction HN; reflexivity.
  Qed.
End Table.
