(** ContinuousEnergyTable built from blocks: finding the blocks again. *)
From Coq Require Import ZArith Bool List Lia Ascii.
From Coq Require Import ZifyBool ZifyNat.
From Verif Require Import PropLemmasBasic.
From Verif Require Export FloatOrder ContinuousData.
Import ListNotations.
Open Scope Z_scope.

(** * Looking up JXS *)

Lemma jf_skip a r start : 0 <= a < start -> start < 2 ^ 64 -> jxs_find start (a :: r) = jxs_find start r.
Proof. intros H B. unfold jxs_find. cbn [find]. rewrite u64_small by lia. destruct (Z.leb_spec start a); [lia|reflexivity]. Qed.
Lemma jf_hit a r start : 0 <= start <= a -> a < 2 ^ 64 -> jxs_find start (a :: r) = Some a.
Proof. intros H B. unfold jxs_find. cbn [find]. rewrite u64_small by lia. destruct (Z.leb_spec start a); [reflexivity|lia]. Qed.
Lemma jf_nil start : jxs_find start [] = None.
Proof. reflexivity. Qed.
Lemma jf_find start pre a r : Forall (fun x => 0 <= x < start) pre -> start < 2 ^ 64 -> 0 <= start <= a -> a < 2 ^ 64 -> jxs_find start (pre ++ a :: r) = Some a.
Proof. induction 1 as [|x pre Hx _ IH]; intros B Ha Ba; cbn [app]; [apply jf_hit; lia|]. rewrite jf_skip by lia. apply IH; assumption. Qed.
Lemma jf_none start l : Forall (fun x => 0 <= x < start) l -> start < 2 ^ 64 -> jxs_find start l = None.
Proof. induction 1 as [|x l Hx _ IH]; intros B; [reflexivity|]. rewrite jf_skip by lia. apply IH; assumption. Qed.

Section Block.
  Variables (bm : build) (d : tdata) (ntype j21 j22 : Z).
  Hypothesis L32 : len (d_jxs d) = 32.
  Hypothesis N21 : nth_error (d_jxs d) 20 = Some j21.
  Hypothesis N22 : nth_error (d_jxs d) 21 = Some j22.
  Hypothesis B21 : 0 <= j21 < 2 ^ 32.
  Hypothesis B22 : 0 <= j22 < 2 ^ 32.

  Lemma jxs_at k j : nth_error (d_jxs d) k = Some j -> d_JXS bm d (Z.of_nat k + 1) = Ok j.
  Proof. intros H. apply fetch_in; [exact H|lia]. Qed.
  Lemma jxs_21 : d_JXS bm d 21 = Ok j21.
  Proof. exact (jxs_at 20 j21 N21). Qed.
  Lemma jxs_22 : d_JXS bm d 22 = Ok j22.
  Proof. exact (jxs_at 21 j22 N22). Qed.

  (** the first found value, turned into an end *)
  Definition fix_end (x : Z) : Z := if x =? j22 then j22 + 1 else if x =? j21 then j22 + 1 else x.
  Lemma found_end x : 0 <= x < 2 ^ 32 -> j21 <> j22 + 1 ->
    (j22' <- d_JXS bm d 22 ;; j21' <- d_JXS bm d 21 ;; Ok (if u64 (if negb (x =? j22') then x else x + 1) =? u64 j21' then u64 (j22' + 1) else u64 (if negb (x =? j22') then x else x + 1))) = Ok (fix_end x).
  Proof.
    intros Hx N. rewrite jxs_22. cbn [bind]. rewrite jxs_21. cbn [bind]. unfold fix_end.
    destruct (Z.eqb_spec x j22) as [->|E]; cbn [negb]; rewrite !u64_small by lia.
    - destruct (Z.eqb_spec (j22 + 1) j21); [lia|]. reflexivity.
    - destruct (Z.eqb_spec x j21); reflexivity.
  Qed.

  Lemma ce_block_plain k start x : nth_error (d_jxs d) (k - 1) = Some start -> 0 < start < 2 ^ 32 -> (1 <= k <= 31)%nat -> k <> 11%nat -> k <> 27%nat ->
    jxs_find start (skipn k (d_jxs d)) = Some x -> 0 <= x < 2 ^ 32 -> j21 <> j22 + 1 -> fix_end x <> 0 ->
    ce_block bm d ntype (Z.of_nat k) = Ok (start - 1, fix_end x - 1).
  Proof.
    intros N B K N11 N27 F Bx NE Nf. unfold ce_block. pose proof (jxs_at _ _ N) as Q. replace (Z.of_nat (k - 1) + 1) with (Z.of_nat k) in Q by lia. rewrite Q. cbn [bind].
    rewrite (u64_small start) by lia.
    destruct (Z.eqb_spec (Z.of_nat k) 32); [lia|]. cbn [negb]. destruct (Z.eqb_spec start 0); [lia|]. cbn [negb].
    rewrite Nat2Z.id, F. rewrite (found_end x Bx NE). cbn [bind].
    destruct (Z.eqb_spec (Z.of_nat k) 11); [lia|]. destruct (Z.eqb_spec (Z.of_nat k) 27); [lia|]. cbn [bind].
    destruct (Z.eqb_spec (fix_end x) 0); [contradiction|]. reflexivity.
  Qed.
  (** nothing found: up to the end of the XSS array *)
  Lemma ce_block_last k start : nth_error (d_jxs d) (k - 1) = Some start -> 0 < start < 2 ^ 32 -> (1 <= k <= 31)%nat -> k <> 11%nat -> k <> 27%nat ->
    jxs_find start (skipn k (d_jxs d)) = None -> ce_block bm d ntype (Z.of_nat k) = Ok (start - 1, len (d_xss d)).
  Proof.
    intros N B K N11 N27 F. unfold ce_block. pose proof (jxs_at _ _ N) as Q. replace (Z.of_nat (k - 1) + 1) with (Z.of_nat k) in Q by lia. rewrite Q. cbn [bind].
    rewrite (u64_small start) by lia.
    destruct (Z.eqb_spec (Z.of_nat k) 32); [lia|]. cbn [negb]. destruct (Z.eqb_spec start 0); [lia|]. cbn [negb].
    rewrite Nat2Z.id, F. cbn [bind].
    destruct (Z.eqb_spec (Z.of_nat k) 11); [lia|]. destruct (Z.eqb_spec (Z.of_nat k) 27); [lia|]. cbn [bind]. reflexivity.
  Qed.
  (** only the beginning *)
  Lemma ce_block_start k start : nth_error (d_jxs d) (k - 1) = Some start -> 0 < start < 2 ^ 32 -> (1 <= k <= 31)%nat -> k <> 11%nat -> k <> 27%nat ->
    exists e, ce_block bm d ntype (Z.of_nat k) = Ok (start - 1, e).
  Proof.
    intros N B K N11 N27. unfold ce_block. pose proof (jxs_at _ _ N) as Q. replace (Z.of_nat (k - 1) + 1) with (Z.of_nat k) in Q by lia. rewrite Q. cbn [bind].
    rewrite (u64_small start) by lia.
    destruct (Z.eqb_spec (Z.of_nat k) 32); [lia|]. cbn [negb]. destruct (Z.eqb_spec start 0); [lia|]. cbn [negb].
    rewrite Nat2Z.id. destruct (jxs_find start (skipn k (d_jxs d))) as [x|].
    - rewrite jxs_22, jxs_21. cbn [bind]. destruct (Z.eqb_spec (Z.of_nat k) 11); [lia|]. destruct (Z.eqb_spec (Z.of_nat k) 27); [lia|]. cbn [bind]. eauto.
    - cbn [bind]. destruct (Z.eqb_spec (Z.of_nat k) 11); [lia|]. destruct (Z.eqb_spec (Z.of_nat k) 27); [lia|]. cbn [bind]. eauto.
  Qed.
  (** DLW *)
  Lemma ce_block_11 start r1 r2 e1 : nth_error (d_jxs d) 10 = Some start -> 0 < start < 2 ^ 32 ->
    jxs_find start (skipn 11 (d_jxs d)) = r1 -> jxs_find start (skipn 22 (d_jxs d)) = r2 ->
    (match r1 with Some x => 0 <= x < 2 ^ 32 | None => True end) -> (match r2 with Some x => 0 <= x < 2 ^ 32 | None => True end) -> j21 <> j22 + 1 ->
    e1 = (let e := match r1 with Some x => fix_end x | None => 0 end in match r2 with Some x => if x <? e then x else e | None => e end) ->
    ce_block bm d ntype 11 = Ok (start - 1, if negb (e1 =? 0) then e1 - 1 else len (d_xss d)).
  Proof.
    intros N B F1 F2 H1 H2 NE E. unfold ce_block. rewrite (jxs_at 10 start N : d_JXS bm d 11 = _). cbn [bind]. rewrite (u64_small start) by lia.
    cbn [Z.eqb Pos.eqb negb]. destruct (Z.eqb_spec start 0); [lia|]. cbn [negb].
    change (Z.to_nat 11) with 11%nat. rewrite F1, F2.
    assert (X : (match r1 with
       | Some x => j22' <- d_JXS bm d 22 ;; j21' <- d_JXS bm d 21 ;; Ok (if u64 (if negb (x =? j22') then x else x + 1) =? u64 j21' then u64 (j22' + 1) else u64 (if negb (x =? j22') then x else x + 1))
       | None => Ok 0 end) = Ok (match r1 with Some x => fix_end x | None => 0 end)) by (destruct r1; [apply found_end; assumption|reflexivity]).
    rewrite X. cbn [bind]. destruct r2 as [y|].
    - rewrite (u64_small y) by lia. cbn [bind]. cbv zeta in E. rewrite <- E. reflexivity.
    - cbn [bind]. cbv zeta in E. rewrite <- E. reflexivity.
  Qed.
  (** DNED *)
  Lemma ce_block_27 start r1 j12 e1 : nth_error (d_jxs d) 26 = Some start -> 0 < start < 2 ^ 32 ->
    jxs_find start (skipn 27 (d_jxs d)) = r1 -> nth_error (d_jxs d) 11 = Some j12 -> 0 <= j12 < 2 ^ 32 ->
    (match r1 with Some x => 0 <= x < 2 ^ 32 | None => True end) -> j21 <> j22 + 1 ->
    e1 = (let e := match r1 with Some x => fix_end x | None => j22 + 1 end in if negb (j12 =? 0) then (if j12 <? e then j12 else e) else e) ->
    (match r1 with Some x => fix_end x <> 0 | None => True end) -> e1 <> 0 ->
    ce_block bm d ntype 27 = Ok (start - 1, e1 - 1).
  Proof.
    intros N B F1 N12 B12 H1 NE E Nf Ne. unfold ce_block. rewrite (jxs_at 26 start N : d_JXS bm d 27 = _). cbn [bind]. rewrite (u64_small start) by lia.
    cbn [Z.eqb Pos.eqb negb]. destruct (Z.eqb_spec start 0); [lia|]. cbn [negb].
    change (Z.to_nat 27) with 27%nat. rewrite F1.
    assert (X : (match r1 with
       | Some x => j22' <- d_JXS bm d 22 ;; j21' <- d_JXS bm d 21 ;; Ok (if u64 (if negb (x =? j22') then x else x + 1) =? u64 j21' then u64 (j22' + 1) else u64 (if negb (x =? j22') then x else x + 1))
       | None => Ok 0 end) = Ok (match r1 with Some x => fix_end x | None => 0 end)) by (destruct r1; [apply found_end; assumption|reflexivity]).
    rewrite X. cbn [bind]. rewrite jxs_22. cbn [bind]. rewrite (jxs_at 11 j12 N12 : d_JXS bm d 12 = _). cbn [bind].
    rewrite (u64_small (j22 + 1)), (u64_small j12) by lia.
    assert (Y : (if (match r1 with Some x => fix_end x | None => 0 end) =? 0 then j22 + 1 else match r1 with Some x => fix_end x | None => 0 end)
       = match r1 with Some x => fix_end x | None => j22 + 1 end).
    { destruct r1; [|reflexivity]. destruct (Z.eqb_spec (fix_end z) 0); [contradiction|reflexivity]. }
    rewrite Y. cbv zeta in E. rewrite <- E. cbn [bind]. destruct (Z.eqb_spec e1 0); [contradiction|]. reflexivity.
  Qed.
  (** IXS *)
  Lemma ce_block_32 start : nth_error (d_jxs d) 31 = Some start -> 0 < start < 2 ^ 32 -> 0 < ntype -> ntype * 10 < 2 ^ 32 ->
    ce_block bm d ntype 32 = Ok (start - 1, start + ntype * 10).
  Proof.
    intros N B H1 H2. unfold ce_block. rewrite (jxs_at 31 start N : d_JXS bm d 32 = _). cbn [bind]. rewrite (u64_small start) by lia.
    cbn [Z.eqb Pos.eqb negb]. destruct (Z.eqb_spec ntype 0); [lia|]. cbn [negb]. rewrite u32_small by lia. rewrite u64_small by lia. cbn [bind].
    destruct (Z.eqb_spec (start + ntype * 10 + 1) 0); [lia|]. cbn [negb]. do 2 f_equal. lia.
  Qed.
End Block.

(** * Specification: what can be read *)

(** every block constructor accepts a view with exactly the words of the block *)
Record ce_reads bm (s : ceS) : Prop := {
  rd_esz : readable (fun v => esz_make v (s_nes s)) (fst (s_esz s)) (snd (s_esz s));
  rd_nu : forall c, s_nu s = Some c -> readable (nu_make bm) (fst c) (snd c);
  rd_mtr : readable (fun v => mt_make v (s_ntr s)) (map dbl (s_mts s)) (s_mtr s);
  rd_lqr : readable (fun v => lq_make v (s_ntr s)) (fst (s_lqr s)) (snd (s_lqr s));
  rd_sig : readable (fun v => bl_make bm (sig_generateData bm) v (vbeg v + s_ntr s) (s_ntr s) true) (bl_layout true (s_xs s)) (s_sig s);
  rd_ang : readable (fun v => ab_make bm v (vbeg v + s_nr s + 1) (s_nr s) true) (fst (s_ang s)) (snd (s_ang s));
  rd_dlw : forall t, ty_shows bm t (all_frames s) (all_ms s) -> readable (fun v => dl_make bm v (vbeg v + s_nr s) t (s_nr s)) (fst (s_dlw s)) (snd (s_dlw s));
  (** the UNR block may see more words after its own *)
  rd_unr : forall c, s_unr s = Some c -> forall v, has v (fst c) -> exists o, un_make bm v = Ok o /\ snd c o;
  rd_delayed : forall b, s_delayed s = Some b ->
    readable (nu_make bm) (fst (b_dnu b)) (snd (b_dnu b)) /\ readable (fun v => bd_make bm v (b_n b)) (fst (b_bdd b)) (snd (b_bdd b))
    /\ readable (fun v => dh_make bm v (vbeg v + b_n b) (b_n b) None) (fst (b_dned b)) (snd (b_dned b));
  rd_photon : forall g, s_photon s = Some g ->
    readable (fun v => lq_make v (s_nes s)) (fst (g_gpd g)) (snd (g_gpd g)) /\ readable (fun v => mt_make v (g_n g)) (fst (g_mtrp g)) (snd (g_mtrp g))
    /\ readable (fun v => bl_make bm (sigp_generateData bm) v (vbeg v + g_n g) (g_n g) true) (fst (g_sigp g)) (snd (g_sigp g))
    /\ readable (fun v => ab_make bm v (vbeg v + g_n g) (g_n g) false) (fst (g_andp g)) (snd (g_andp g))
    /\ readable (fun v => dh_make bm v (vbeg v + g_n g) (g_n g) None) (fst (g_dlwp g)) (snd (g_dlwp g))
    /\ readable (yp_make bm) (fst (g_yp g)) (snd (g_yp g));
  rd_ptype : readable (fun v => mt_make v (s_ntype s)) (fst (s_ptype s)) (snd (s_ptype s));
  rd_particles : Forall (fun q =>
    readable (hpd_make bm) (fst (q_hpd q)) (snd (q_hpd q)) /\ readable (fun v => mt_make v (q_n q)) (fst (q_mtrh q)) (snd (q_mtrh q))
    /\ readable (fun v => bl_make bm (sigh_generateData bm) v (vbeg v + q_n q) (q_n q) true) (fst (q_sigh q)) (snd (q_sigh q))
    /\ readable (fun v => ab_make bm v (vbeg v + q_n q) (q_n q) false) (fst (q_andh q)) (snd (q_andh q))
    /\ (forall t, ty_shows bm t (q_frames q) (repeat 1 (length (q_frames q))) ->
          readable (fun v => dh_make bm v (vbeg v + q_n q) (q_n q) (Some t)) (fst (q_dlwh q)) (snd (q_dlwh q)))
    /\ readable (yp_make bm) (fst (q_yh q)) (snd (q_yh q))) (s_particles s) }.

(** where the search for the end of a block succeeds *)
Record ce_found (s : ceS) : Prop := {
  fd_xs : Forall (fun c => 0 < len c) (s_xs s);
  fd_nr : 0 <= s_nr s; fd_nes : 0 <= s_nes s < 2 ^ 32;
  fd_ang : s_nr s + 1 <= len (fst (s_ang s)); fd_dlw : s_nr s <= len (fst (s_dlw s));
  (** optional data without reactions are not found again *)
  fd_delayed : forall b, s_delayed s = Some b -> 0 < b_n b <= len (fst (b_dned b));
  fd_photon : forall g, s_photon s = Some g -> 0 < g_n g /\ g_n g <= len (fst (g_sigp g)) /\ g_n g <= len (fst (g_andp g)) /\ g_n g <= len (fst (g_dlwp g)) /\ 0 < len (fst (g_yp g));
  (** no conventional block consists of the last conventional word only *)
  fd_end : forall f k, ce_fission s f -> k <> 21%nat -> nth_error (ce_locators s f) k <> Some (ce_END s);
  fd_yh : Forall (fun q => 0 < len (fst (q_yh q))) (s_particles s);
  (** the energy index of the first total production cross section is the first word after IXS *)
  fd_hpd : forall q r, s_particles s = q :: r -> exists ie w, fst (q_hpd q) = dbl ie :: w /\ 0 <= ie <= ce_END s }.

Definition opt_says {A} (c : option (claim A)) (o : option A) : Prop := match c, o with None, None => True | Some c, Some x => snd c x | _, _ => False end.
Definition group_says {A B} (g : option A) (f : A -> claim B) (o : option B) : Prop := opt_says (option_map f g) o.

(** The table returns the blocks *)
Record particle_shows bm (p : particle) (q : particleS) : Prop := {
  ps_hpd : snd (q_hpd q) (p_hpd p); ps_mtrh : snd (q_mtrh q) (p_mtrh p); ps_tyrh : ty_shows bm (p_tyrh p) (q_frames q) (repeat 1 (length (q_frames q)));
  ps_sigh : snd (q_sigh q) (p_sigh p); ps_andh : snd (q_andh q) (p_andh p); ps_dlwh : snd (q_dlwh q) (p_dlwh p); ps_yh : snd (q_yh q) (p_yh p) }.
Record ce_shows bm (s : ceS) (t : ceTable) : Prop := {
  sh_esz : snd (s_esz s) (ct_esz t); sh_nu : opt_says (s_nu s) (ct_nu t); sh_mtr : s_mtr s (ct_mtr t); sh_lqr : snd (s_lqr s) (ct_lqr t);
  sh_tyr : ty_shows bm (ct_tyr t) (all_frames s) (all_ms s); sh_sig : s_sig s (ct_sig t); sh_ang : snd (s_ang s) (ct_ang t); sh_dlw : snd (s_dlw s) (ct_dlw t);
  sh_gpd : group_says (s_photon s) g_gpd (ct_gpd t); sh_mtrp : group_says (s_photon s) g_mtrp (ct_mtrp t); sh_sigp : group_says (s_photon s) g_sigp (ct_sigp t);
  sh_andp : group_says (s_photon s) g_andp (ct_andp t); sh_dlwp : group_says (s_photon s) g_dlwp (ct_dlwp t); sh_yp : group_says (s_photon s) g_yp (ct_yp t);
  sh_unr : opt_says (s_unr s) (ct_unr t);
  sh_dnu : group_says (s_delayed s) b_dnu (ct_dnu t); sh_bdd : group_says (s_delayed s) b_bdd (ct_bdd t); sh_dned : group_says (s_delayed s) b_dned (ct_dned t);
  sh_ptype : match s_particles s, ct_ptype t with [], None => True | _ :: _, Some o => snd (s_ptype s) o | _, _ => False end;
  sh_ntro : match s_particles s, ct_ntro t with [], None => True | _ :: _, Some o => nt_shows bm o (map q_n (s_particles s)) | _, _ => False end;
  sh_ixs : match s_particles s, ct_ixs t with [], None => True | _ :: _, Some o => ix_shows bm o (all_locs (ce_base s) (parts s)) | _, _ => False end;
  sh_particles : Forall2 (particle_shows bm) (ct_particles t) (s_particles s) }.

(** * Lemmas *)

Lemma one_ok {A} bm d ntype k (make : view -> outcome A) w S b e : ce_block bm d ntype k = Ok (b, e) -> content (tview d b e) w -> readable make w S ->
  exists o, one bm d ntype k make = Ok o /\ S o.
Proof. intros E C R. unfold one. rewrite E. cbn [bind fst snd]. exact (R _ C). Qed.
Lemma two_ok {A} bm d ntype k (make : view -> Z -> outcome A) w S b e0 x e n : ce_block bm d ntype k = Ok (b, e0) -> ce_block bm d ntype (k + 1) = Ok (x, e) ->
  content (tview d b e) w -> x = b + n -> readable (fun v => make v (vbeg v + n)) w S -> exists o, two bm d ntype k make = Ok o /\ S o.
Proof. intros E1 E2 C -> R. unfold two. rewrite E1. cbn [bind fst snd]. rewrite E2. cbn [bind fst snd]. exact (R _ C). Qed.

Section Read.
  Variables (bm : build) (s : ceS) (f : Z) (d : tdata).
  Hypothesis HJ : d_jxs d = ce_locators s f.
  Hypothesis HX : d_xss d = ce_words s.
  Hypothesis HZ : ce_sizes s.
  Hypothesis HF : ce_fission s f.
  Hypothesis HD : ce_found s.
  Let e := ce_off s.
  Let ntype := s_ntype s.

  Lemma r_piece k w : nth_error (ce_pieces s) k = Some w -> e (S k) = e k + len w.
  Proof. apply firstn_succ_concat. Qed.
  Lemma r_END : 0 <= ce_END s /\ ce_END s + len (ce_second s) < 2 ^ 31.
  Proof.
    pose proof (sz_room _ HZ) as R. unfold ce_words, max_words in R. rewrite len_app in R. change (ce_END s) with (len (concat (ce_pieces s))). pose proof (len_nonneg (concat (ce_pieces s))). lia.
  Qed.
  Lemma r_view k w b b' : nth_error (ce_pieces s) k = Some w -> b = e k -> b' = e (S k) -> content (tview d b b') w.
  Proof.
    intros H -> ->. unfold tview. rewrite HX. unfold ce_words. rewrite (r_piece _ _ H). unfold e, ce_off.
    destruct (nth_split_len _ _ _ H) as (l1 & l2 & E & L). rewrite E. rewrite <- L. rewrite firstn_app, firstn_all, Nat.sub_diag. cbn [firstn]. rewrite app_nil_r.
    rewrite concat_app. cbn [concat]. rewrite <- !app_assoc. apply piece_content; [|reflexivity|reflexivity].
    pose proof (sz_room _ HZ) as R. unfold ce_words in R. rewrite E, concat_app in R. cbn [concat] in R. rewrite <- !app_assoc in R. exact R.
  Qed.
  Lemma r_f : f = 0 \/ e 5%nat + s_ntr s < f <= e 6%nat /\ 0 < s_ntr s.
  Proof.
    destruct (in_dec Z.eq_dec 18 (s_mts s)) as [H|H]; [right|left; exact (proj2 HF H)].
    destruct (proj1 HF H) as (k & (K & _) & ->). pose proof (nth_error_len _ _ _ K) as B. fold (s_ntr s) in B. pose proof (sz_xs _ HZ) as L.
    pose proof (r_piece 5 _ eq_refl) as P. cbn in P. rewrite len_bl_layout, L in P.
    destruct (nth_error (s_xs s) k) as [c|] eqn:E. 2:{ apply nth_error_None in E. unfold len in *. lia. }
    pose proof (firstn_succ_concat _ _ _ E). pose proof (concat_firstn_le (S k) (s_xs s)). pose proof (fd_xs _ HD) as X. rewrite Forall_forall in X. pose proof (X c (nth_error_In _ _ E)).
    fold e. pose proof (len_nonneg (concat (firstn k (s_xs s)))). lia.
  Qed.

  (** the order of the blocks *)
  Lemma r_order : e 0%nat = 0 /\ 0 <= e 1%nat /\ e 1%nat <= e 2%nat /\ e 2%nat <= e 3%nat /\ e 3%nat <= e 4%nat /\ e 4%nat <= e 5%nat /\ e 5%nat + s_ntr s <= e 6%nat
    /\ e 6%nat + s_nr s + 1 <= e 7%nat /\ e 7%nat + s_nr s <= e 8%nat /\ e 8%nat <= e 9%nat /\ e 9%nat <= e 10%nat /\ e 10%nat <= e 11%nat
    /\ e 11%nat + or0 b_n (s_delayed s) <= e 12%nat /\ e 12%nat <= e 13%nat /\ e 13%nat <= e 14%nat /\ e 14%nat + or0 g_n (s_photon s) <= e 15%nat
    /\ e 15%nat + or0 g_n (s_photon s) <= e 16%nat /\ e 16%nat + or0 g_n (s_photon s) <= e 17%nat /\ e 17%nat <= ce_END s
    /\ 0 <= s_ntr s /\ 0 <= s_nr s /\ 0 <= or0 b_n (s_delayed s) /\ 0 <= or0 g_n (s_photon s).
  Proof.
    assert (P : forall k w, nth_error (ce_pieces s) k = Some w -> e k <= e (S k)) by (intros k w H; rewrite (r_piece _ _ H); pose proof (len_nonneg w); lia).
    split; [reflexivity|]. split; [apply len_nonneg|]. split; [apply (P 1%nat _ eq_refl)|]. split; [apply (P 2%nat _ eq_refl)|]. split; [apply (P 3%nat _ eq_refl)|]. split; [apply (P 4%nat _ eq_refl)|].
    split. { pose proof (r_piece 5 _ eq_refl) as Q. cbn in Q. rewrite len_bl_layout, (sz_xs _ HZ) in Q. pose proof (len_nonneg (concat (s_xs s))). lia. }
    split. { pose proof (r_piece 6 _ eq_refl) as Q. cbn in Q. pose proof (fd_ang _ HD). lia. }
    split. { pose proof (r_piece 7 _ eq_refl) as Q. cbn in Q. pose proof (fd_dlw _ HD). lia. }
    split; [apply (P 8%nat _ eq_refl)|]. split; [apply (P 9%nat _ eq_refl)|]. split; [apply (P 10%nat _ eq_refl)|].
    split. { pose proof (r_piece 11 _ eq_refl) as Q. cbn in Q. pose proof (fd_delayed _ HD) as D. destruct (s_delayed s) as [b|]; cbn [words_or or0] in *; [specialize (D _ eq_refl)|change (len (@nil double)) with 0 in Q]; lia. }
    split; [apply (P 12%nat _ eq_refl)|]. split; [apply (P 13%nat _ eq_refl)|].
    pose proof (r_piece 14 _ eq_refl) as Q14. pose proof (r_piece 15 _ eq_refl) as Q15. pose proof (r_piece 16 _ eq_refl) as Q16. cbn in Q14, Q15, Q16.
    pose proof (fd_photon _ HD) as D. pose proof (P 17%nat _ eq_refl) as P17. change (e 18%nat) with (ce_END s) in P17.
    assert (0 <= or0 b_n (s_delayed s)) by (pose proof (fd_delayed _ HD) as D'; destruct (s_delayed s); cbn; [specialize (D' _ eq_refl); lia|lia]).
    pose proof (len_nonneg (s_mts s)). pose proof (fd_nr _ HD). unfold s_ntr.
    destruct (s_photon s) as [g|]; cbn [words_or or0] in *; [specialize (D _ eq_refl)|change (len (@nil double)) with 0 in *]; lia.
  Qed.

  Lemma r_len : len (d_jxs d) = 32.
  Proof. rewrite HJ. reflexivity. Qed.
  Lemma r_n21 : nth_error (d_jxs d) 20 = Some f.
  Proof. rewrite HJ. reflexivity. Qed.
  Lemma r_n22 : nth_error (d_jxs d) 21 = Some (ce_END s).
  Proof. rewrite HJ. reflexivity. Qed.
  Lemma r_b21 : 0 <= f < 2 ^ 32.
  Proof. pose proof r_f. pose proof r_order. pose proof r_END. pose proof (len_nonneg (ce_second s)). lia. Qed.
  Lemma r_b22 : 0 <= ce_END s < 2 ^ 32.
  Proof. pose proof r_END. pose proof (len_nonneg (ce_second s)). lia. Qed.
  Lemma r_ne : f <> ce_END s + 1.
  Proof. pose proof r_f. pose proof r_order. lia. Qed.
  Lemma r_fix x k : nth_error (ce_locators s f) k = Some x -> k <> 20%nat -> k <> 21%nat -> x <> f -> fix_end f (ce_END s) x = x.
  Proof.
    intros H N1 N2 Nf. unfold fix_end. destruct (Z.eqb_spec x (ce_END s)) as [E|_]; [subst x; exfalso; exact (fd_end _ HD f k HF N2 H)|].
    destruct (Z.eqb_spec x f); [contradiction|reflexivity].
  Qed.
  Lemma r_fix_END : fix_end f (ce_END s) (ce_END s) = ce_END s + 1.
  Proof. unfold fix_end. rewrite Z.eqb_refl. reflexivity. Qed.

  Ltac facts := pose proof r_order; pose proof r_END; pose proof r_f; pose proof (len_nonneg (ce_second s)).
  Ltac find_next := rewrite HJ; cbn [skipn ce_locators]; fold e; repeat rewrite jf_skip by lia; first [apply jf_hit; lia | apply jf_nil].
  Ltac entry_at := rewrite HJ; cbn [nth_error ce_locators Nat.sub]; reflexivity.

  (** a block whose end is the next given locator *)
  Lemma r_plain k i start x b b' : nth_error (d_jxs d) (k - 1) = Some start -> (1 <= k <= 31)%nat -> k <> 11%nat -> k <> 27%nat ->
    jxs_find start (skipn k (d_jxs d)) = Some x -> nth_error (ce_locators s f) i = Some x -> i <> 20%nat -> i <> 21%nat -> x <> f ->
    0 < start < 2 ^ 32 -> 0 < x < 2 ^ 32 -> b = start - 1 -> b' = x - 1 -> ce_block bm d ntype (Z.of_nat k) = Ok (b, b').
  Proof.
    intros N K N11 N27 F E I1 I2 I3 Bs Bx -> ->. pose proof (r_fix _ _ E I1 I2 I3) as Q.
    rewrite (ce_block_plain bm d ntype f (ce_END s) r_len r_n21 r_n22 r_b21 r_b22 k start x N Bs K N11 N27 F ltac:(lia) r_ne ltac:(rewrite Q; lia)). rewrite Q. reflexivity.
  Qed.
  Ltac plain k i := facts; eapply (r_plain k i); [entry_at|lia|lia|lia|find_next|reflexivity|lia|lia|fold e; lia|fold e; lia|fold e; lia|fold e; lia|fold e; lia].

  Lemma b_esz : ce_block bm d ntype 1 = Ok (0, e 1%nat).
  Proof.
    facts. assert (X : exists x i, (i = 1 \/ i = 2)%nat /\ jxs_find 1 (skipn 1 (d_jxs d)) = Some x /\ x = e 1%nat + 1 /\ nth_error (ce_locators s f) i = Some x).
    { pose proof (r_piece 1 _ eq_refl) as P1. cbn in P1. rewrite HJ. cbn [skipn ce_locators nth_error]. fold e. destruct (s_nu s) eqn:Nu; cbn [given words_or] in *.
      - exists (e 1%nat + 1), 1%nat. split; [auto|]. split; [apply jf_hit; lia|]. split; [reflexivity|]. cbn [nth_error ce_locators]. rewrite Nu. reflexivity.
      - change (len (@nil double)) with 0 in P1. exists (e 2%nat + 1), 2%nat. split; [auto|]. split; [rewrite jf_skip by lia; apply jf_hit; lia|]. split; [lia|reflexivity]. }
    destruct X as (x & i & I & X & -> & Y). eapply (r_plain 1%nat i); [entry_at|lia|lia|lia|exact X|exact Y|lia..].
  Qed.
  Lemma b_mtr : ce_block bm d ntype 3 = Ok (e 2%nat, e 3%nat).
  Proof. plain 3%nat 3%nat. Qed.
  Lemma b_lqr : ce_block bm d ntype 4 = Ok (e 3%nat, e 4%nat).
  Proof. plain 4%nat 4%nat. Qed.
  Lemma b_tyr : ce_block bm d ntype 5 = Ok (e 4%nat, e 5%nat).
  Proof. plain 5%nat 5%nat. Qed.
  Lemma b_nu c : s_nu s = Some c -> ce_block bm d ntype 2 = Ok (e 1%nat, e 2%nat).
  Proof. intros G. facts. eapply (r_plain 2%nat 2%nat); [rewrite HJ; cbn [nth_error ce_locators Nat.sub]; rewrite G; cbn [given]; reflexivity|lia|lia|lia|find_next|reflexivity|fold e; lia..]. Qed.

  (** a block of which only the beginning is used *)
  Lemma r_start k start b : nth_error (d_jxs d) (k - 1) = Some start -> (1 <= k <= 31)%nat -> k <> 11%nat -> k <> 27%nat -> 0 < start < 2 ^ 32 -> b = start - 1 ->
    exists x, ce_block bm d ntype (Z.of_nat k) = Ok (b, x).
  Proof. intros N K N1 N2 B ->. exact (ce_block_start bm d ntype f (ce_END s) r_len r_n21 r_n22 k start N B K N1 N2). Qed.
  Ltac starts k := facts; eapply (r_start k); [entry_at|lia|lia|lia|fold e; lia..].
  Lemma b_sig0 : exists x, ce_block bm d ntype 6 = Ok (e 5%nat, x).
  Proof. starts 6%nat. Qed.
  Lemma b_sig : ce_block bm d ntype 7 = Ok (e 5%nat + s_ntr s, e 6%nat).
  Proof. plain 7%nat 7%nat. Qed.
  Lemma b_ang0 : exists x, ce_block bm d ntype 8 = Ok (e 6%nat, x).
  Proof. starts 8%nat. Qed.
  Lemma b_ang : ce_block bm d ntype 9 = Ok (e 6%nat + s_nr s + 1, e 7%nat).
  Proof. plain 9%nat 9%nat. Qed.
  Lemma b_dlw0 : exists x, ce_block bm d ntype 10 = Ok (e 7%nat, x).
  Proof. starts 10%nat. Qed.

  Section Photon.
    Variable g : photonS.
    Hypothesis G : s_photon s = Some g.
    Let n := g_n g.
    Let facts' : 0 < n /\ or0 g_n (s_photon s) = n /\ given (s_photon s) = true.
    Proof. rewrite G. pose proof (fd_photon _ HD _ G). cbn. unfold n. tauto. Qed.
    Ltac entry_at' := rewrite HJ; cbn [nth_error ce_locators Nat.sub]; rewrite G; cbn [given or0]; reflexivity.
    Ltac plain' k i := facts; destruct facts' as (F1 & F2 & F3); rewrite ?F2 in *; eapply (r_plain k i);
      [entry_at'|lia|lia|lia|rewrite HJ; cbn [skipn ce_locators]; rewrite G; cbn [given or0]; fold e; fold n; repeat rewrite jf_skip by lia; apply jf_hit; lia
      |cbn [nth_error ce_locators]; rewrite G; cbn [given or0]; reflexivity|fold e; fold n; lia..].
    Lemma b_gpd : ce_block bm d ntype 12 = Ok (e 12%nat, e 13%nat).
    Proof. plain' 12%nat 12%nat. Qed.
    Lemma b_mtrp : ce_block bm d ntype 13 = Ok (e 13%nat, e 14%nat).
    Proof. plain' 13%nat 13%nat. Qed.
    Ltac starts' k := facts; destruct facts' as (F1 & F2 & F3); rewrite ?F2 in *; eapply (r_start k); [entry_at'|lia|lia|lia|fold e; lia..].
    Lemma b_sigp0 : exists x, ce_block bm d ntype 14 = Ok (e 14%nat, x).
    Proof. starts' 14%nat. Qed.
    Lemma b_sigp : ce_block bm d ntype 15 = Ok (e 14%nat + n, e 15%nat).
    Proof. plain' 15%nat 15%nat. Qed.
    Lemma b_andp0 : exists x, ce_block bm d ntype 16 = Ok (e 15%nat, x).
    Proof. starts' 16%nat. Qed.
    Lemma b_andp : ce_block bm d ntype 17 = Ok (e 15%nat + n, e 16%nat).
    Proof. plain' 17%nat 17%nat. Qed.
    Lemma b_dlwp0 : exists x, ce_block bm d ntype 18 = Ok (e 16%nat, x).
    Proof. starts' 18%nat. Qed.
    Lemma b_dlwp : ce_block bm d ntype 19 = Ok (e 16%nat + n, e 17%nat).
    Proof. plain' 19%nat 19%nat. Qed.
    Lemma b_yp : ce_block bm d ntype 20 = Ok (e 17%nat, ce_END s).
    Proof.
      facts. destruct facts' as (F1 & F2 & F3). rewrite ?F2 in *. pose proof (fd_photon _ HD _ G) as PH. pose proof (r_piece 17 _ eq_refl) as P. cbn in P. rewrite G in P. cbn [words_or] in P. change (e 18%nat) with (ce_END s) in P.
      assert (Y : nth_error (ce_locators s f) 19 = Some (e 17%nat + 1)) by (cbn [nth_error ce_locators]; rewrite G; reflexivity).
      pose proof (ce_block_plain bm d ntype f (ce_END s) r_len r_n21 r_n22 r_b21 r_b22 20%nat (e 17%nat + 1) (ce_END s)) as Q. rewrite r_fix_END in Q.
      change (Z.of_nat 20) with 20 in Q. rewrite Q; [do 2 f_equal; lia|rewrite HJ; exact Y|lia..| |lia|exact r_ne|lia].
      rewrite HJ. cbn [skipn ce_locators]. fold e. repeat rewrite jf_skip by lia. apply jf_hit; lia.
    Qed.
  End Photon.

  (** absent blocks take no words *)
  Lemma r_no_unr : s_unr s = None -> e 9%nat = e 8%nat.
  Proof. intros G. pose proof (r_piece 8 _ eq_refl) as P. cbn in P. rewrite G in P. change (len (words_or _ None)) with 0 in P. lia. Qed.
  Lemma r_no_delayed : s_delayed s = None -> e 10%nat = e 9%nat /\ e 11%nat = e 9%nat /\ e 12%nat = e 9%nat.
  Proof.
    intros G. pose proof (r_piece 9 _ eq_refl) as P. pose proof (r_piece 10 _ eq_refl) as P'. pose proof (r_piece 11 _ eq_refl) as P''. cbn in P, P', P''.
    rewrite G in P, P', P''. change (len (words_or _ None)) with 0 in *. lia.
  Qed.
  Lemma r_no_photon : s_photon s = None -> e 12%nat = ce_END s.
  Proof.
    intros G. pose proof (r_piece 12 _ eq_refl) as P. pose proof (r_piece 13 _ eq_refl) as P1. pose proof (r_piece 14 _ eq_refl) as P2. pose proof (r_piece 15 _ eq_refl) as P3.
    pose proof (r_piece 16 _ eq_refl) as P4. pose proof (r_piece 17 _ eq_refl) as P5. cbn in P, P1, P2, P3, P4, P5.
    rewrite G in P, P1, P2, P3, P4, P5. change (len (words_or _ None)) with 0 in *. change (e 18%nat) with (ce_END s) in P5. lia.
  Qed.
  Lemma r_no_second : s_particles s = [] -> len (d_xss d) = ce_END s.
  Proof. intros G. rewrite HX. unfold ce_words, ce_second. rewrite G, app_nil_r. reflexivity. Qed.
  Lemma r_fix_next : fix_end f (ce_END s) (ce_END s + 1) = ce_END s + 1.
  Proof. unfold fix_end. destruct (Z.eqb_spec (ce_END s + 1) (ce_END s)); [lia|]. destruct (Z.eqb_spec (ce_END s + 1) f); [|reflexivity]. facts. lia. Qed.

  (** the locators after JXS(22) *)
  Lemma find_22 start : e 7%nat < start <= e 8%nat + 1 ->
    match jxs_find start (skipn 22 (d_jxs d)) with
    | Some x => 0 <= x < 2 ^ 32 /\ e 8%nat + 1 <= x /\ (s_unr s = None -> s_delayed s = None -> x = ce_END s + 1) /\ (s_unr s <> None \/ s_delayed s <> None -> x = e 8%nat + 1)
    | None => s_unr s = None /\ s_delayed s = None /\ s_particles s = []
    end.
  Proof.
    intros Hs. facts. rewrite HJ. cbn [skipn ce_locators]. fold e. pose proof r_no_unr as NU. pose proof r_no_delayed as ND.
    destruct (s_unr s); cbn [given].
    - rewrite jf_hit by lia. split; [lia|]. split; [lia|]. split; [discriminate|auto].
    - specialize (NU eq_refl). rewrite jf_skip by lia. destruct (s_delayed s); cbn [given or0].
      + rewrite jf_hit by lia. split; [lia|]. split; [lia|]. split; [discriminate|lia].
      + specialize (ND eq_refl). do 6 rewrite jf_skip by lia. destruct (s_particles s) as [|q ps].
        * do 3 rewrite jf_skip by lia. rewrite jf_nil. auto.
        * rewrite jf_hit by lia. split; [lia|]. split; [lia|]. split; [lia|]. intros [C|C]; contradiction C; reflexivity.
  Qed.
  Lemma b_dlw : ce_block bm d ntype 11 = Ok (e 7%nat + s_nr s, e 8%nat).
  Proof.
    facts. pose proof (find_22 (e 7%nat + s_nr s + 1) ltac:(lia)) as F2.
    pose proof r_no_unr as NU. pose proof r_no_delayed as ND. pose proof r_no_second as NS.
    assert (F1 : match jxs_find (e 7%nat + s_nr s + 1) (skipn 11 (d_jxs d)) with Some x => 0 <= x < 2 ^ 32 /\ fix_end f (ce_END s) x = e 12%nat + 1
       | None => jxs_find (e 7%nat + s_nr s + 1) (skipn 22 (d_jxs d)) = None /\ e 8%nat = ce_END s end).
    { pose proof HJ as HJ'. rewrite HJ in F2 |- *. cbn [skipn ce_locators] in F2 |- *. fold e in F2 |- *. pose proof r_no_photon as NP. destruct (s_photon s) as [g|] eqn:G; cbn [given or0] in *.
      - rewrite jf_hit by lia. split; [lia|]. apply (r_fix _ 11%nat); [cbn [nth_error ce_locators]; rewrite G; reflexivity|lia..].
      - specialize (NP eq_refl). do 10 rewrite jf_skip by lia. destruct (Z.le_gt_cases (e 7%nat + s_nr s + 1) (ce_END s)) as [L|L].
        + rewrite jf_hit by lia. split; [lia|]. rewrite NP. apply r_fix_END.
        + rewrite (jf_skip (ce_END s)) by lia. match type of F2 with match ?r with _ => _ end => destruct r as [x|] end.
          * destruct F2 as (F2 & F3 & F4 & F5). split; [exact F2|]. assert (X : x = ce_END s + 1).
            { destruct (s_unr s); [rewrite F5 by (left; discriminate); lia|]. destruct (s_delayed s); [rewrite F5 by (right; discriminate); lia|]. apply F4; reflexivity. }
            rewrite X, NP. apply r_fix_next.
          * split; [reflexivity|lia]. }
    destruct (jxs_find (e 7%nat + s_nr s + 1) (skipn 11 (d_jxs d))) as [x|] eqn:R1.
    - destruct F1 as (Bx & Ex).
      rewrite (ce_block_11 bm d ntype f (ce_END s) r_len r_n21 r_n22 r_b21 r_b22 (e 7%nat + s_nr s + 1) _ _ (e 8%nat + 1) ltac:(entry_at) ltac:(lia) R1 eq_refl Bx);
      [|destruct (jxs_find _ (skipn 22 _)); [lia|exact I]|exact r_ne|cbv zeta; rewrite Ex].
      + destruct (Z.eqb_spec (e 8%nat + 1) 0); [lia|]. cbn [negb]. do 2 f_equal; lia.
      + destruct (jxs_find (e 7%nat + s_nr s + 1) (skipn 22 (d_jxs d))) as [y|].
        * destruct F2 as (_ & F3 & F4 & F5). destruct (Z.ltb_spec y (e 12%nat + 1)) as [L|L].
          -- destruct (s_unr s); [symmetry; apply F5; left; discriminate|]. destruct (s_delayed s); [symmetry; apply F5; right; discriminate|]. specialize (F4 eq_refl eq_refl). lia.
          -- destruct (s_unr s); [rewrite F5 in L by (left; discriminate); lia|]. destruct (s_delayed s); [rewrite F5 in L by (right; discriminate); lia|].
             specialize (NU eq_refl). specialize (ND eq_refl). lia.
        * destruct F2 as (U & D & _). specialize (NU U). specialize (ND D). lia.
    - destruct F1 as (R2 & E8). rewrite R2 in F2. destruct F2 as (U & D & P). specialize (NS P).
      rewrite (ce_block_11 bm d ntype f (ce_END s) r_len r_n21 r_n22 r_b21 r_b22 (e 7%nat + s_nr s + 1) _ _ 0 ltac:(entry_at) ltac:(lia) R1 R2 I I r_ne eq_refl).
      cbn [Z.eqb negb]. rewrite NS. do 2 f_equal; lia.
  Qed.
  (** the UNR block ends where the delayed neutron data begin, or at the end of the conventional part *)
  Lemma b_unr c : s_unr s = Some c -> s_delayed s <> None /\ ce_block bm d ntype 23 = Ok (e 8%nat, e 9%nat) \/ s_delayed s = None /\ ce_block bm d ntype 23 = Ok (e 8%nat, ce_END s).
  Proof.
    intros G. facts. assert (N : nth_error (d_jxs d) 22 = Some (e 8%nat + 1)) by (rewrite HJ; cbn [nth_error ce_locators]; rewrite G; reflexivity).
    assert (X : s_delayed s <> None /\ jxs_find (e 8%nat + 1) (skipn 23 (d_jxs d)) = Some (e 9%nat + 1) /\ nth_error (ce_locators s f) 23 = Some (e 9%nat + 1)
      \/ s_delayed s = None /\ (jxs_find (e 8%nat + 1) (skipn 23 (d_jxs d)) = Some (ce_END s + 1) \/ jxs_find (e 8%nat + 1) (skipn 23 (d_jxs d)) = None /\ s_particles s = [])).
    { rewrite HJ. cbn [skipn ce_locators nth_error]. fold e. destruct (s_delayed s); cbn [given or0] in *.
      - left. split; [discriminate|]. split; [apply jf_hit; lia|reflexivity].
      - right. split; [reflexivity|]. do 6 rewrite jf_skip by lia. destruct (s_particles s).
        + right. split; [|reflexivity]. do 3 rewrite jf_skip by lia. apply jf_nil.
        + left. apply jf_hit; lia. }
    destruct X as [(DL & X & Y)|[DL [X|[X Y]]]].
    - left. split; [exact DL|]. eapply (r_plain 23%nat 23%nat); [exact N|lia|lia|lia|exact X|exact Y|lia..].
    - right. split; [exact DL|]. pose proof (ce_block_plain bm d ntype f (ce_END s) r_len r_n21 r_n22 r_b21 r_b22 23%nat (e 8%nat + 1) _ N ltac:(lia) ltac:(lia) ltac:(lia) ltac:(lia) X ltac:(lia) r_ne) as Q.
      rewrite r_fix_next in Q. change (Z.of_nat 23) with 23 in Q. rewrite Q by lia. do 2 f_equal; lia.
    - right. split; [exact DL|]. pose proof (ce_block_last bm d ntype r_len 23%nat (e 8%nat + 1) N ltac:(lia) ltac:(lia) ltac:(lia) ltac:(lia) X) as Q.
      change (Z.of_nat 23) with 23 in Q. rewrite Q. rewrite (r_no_second Y). do 2 f_equal; lia.
  Qed.

  Section Delayed.
    Variable b : delayedS.
    Hypothesis G : s_delayed s = Some b.
    Let n := b_n b.
    Let facts' : 0 < n /\ or0 b_n (s_delayed s) = n.
    Proof. rewrite G. pose proof (fd_delayed _ HD _ G). cbn. unfold n. lia. Qed.
    Ltac entry_at' := rewrite HJ; cbn [nth_error ce_locators Nat.sub]; rewrite G; cbn [given or0]; reflexivity.
    Ltac plain' k i := facts; destruct facts' as (F1 & F2); rewrite ?F2 in *; eapply (r_plain k i);
      [entry_at'|lia|lia|lia|rewrite HJ; cbn [skipn ce_locators]; rewrite G; cbn [given or0]; fold e; fold n; repeat rewrite jf_skip by lia; apply jf_hit; lia
      |cbn [nth_error ce_locators]; rewrite G; cbn [given or0]; reflexivity|fold e; fold n; lia..].
    Lemma blk_dnu : ce_block bm d ntype 24 = Ok (e 9%nat, e 10%nat).
    Proof. plain' 24%nat 24%nat. Qed.
    Lemma blk_bdd : ce_block bm d ntype 25 = Ok (e 10%nat, e 11%nat).
    Proof. plain' 25%nat 25%nat. Qed.
    Lemma b_dned0 : exists x, ce_block bm d ntype 26 = Ok (e 11%nat, x).
    Proof. facts; destruct facts' as (F1 & F2); rewrite ?F2 in *; eapply (r_start 26%nat); [entry_at'|lia|lia|lia|fold e; lia..]. Qed.
    Lemma blk_dned : ce_block bm d ntype 27 = Ok (e 11%nat + n, e 12%nat).
    Proof.
      facts. destruct facts' as (F1 & F2). rewrite F2 in *.
      assert (N : nth_error (d_jxs d) 26 = Some (e 11%nat + n + 1)) by (rewrite HJ; cbn [nth_error ce_locators]; rewrite G; reflexivity).
      assert (X : jxs_find (e 11%nat + n + 1) (skipn 27 (d_jxs d)) = Some (ce_END s + 1) \/ jxs_find (e 11%nat + n + 1) (skipn 27 (d_jxs d)) = None).
      { rewrite HJ. cbn [skipn ce_locators]. fold e. do 2 rewrite jf_skip by lia. destruct (s_particles s).
        - right. do 3 rewrite jf_skip by lia. apply jf_nil.
        - left. apply jf_hit; lia. }
      pose proof r_no_photon as NP. assert (N12 : exists j12, nth_error (d_jxs d) 11 = Some j12 /\ (j12 = 0 /\ e 12%nat = ce_END s \/ j12 = e 12%nat + 1)).
      { rewrite HJ. cbn [nth_error ce_locators]. fold e. destruct (s_photon s); cbn [given]; eexists; (split; [reflexivity|]); [right; reflexivity|left; auto]. }
      destruct N12 as (j12 & N12 & J).
      rewrite (ce_block_27 bm d ntype f (ce_END s) r_len r_n21 r_n22 r_b21 r_b22 _ _ j12 (e 12%nat + 1) N ltac:(lia) eq_refl N12 ltac:(lia)).
      - do 2 f_equal; lia.
      - destruct X as [-> | ->]; [lia|exact I].
      - exact r_ne.
      - cbv zeta. destruct X as [-> | ->]; rewrite ?r_fix_next; destruct J as [[-> J]| ->]; cbn [Z.eqb negb].
        all: try (destruct (Z.eqb_spec (e 12%nat + 1) 0); [lia|]; cbn [negb]; destruct (Z.ltb_spec (e 12%nat + 1) (ce_END s + 1))); lia.
      - destruct X as [-> | ->]; [rewrite r_fix_next; lia|exact I].
      - lia.
    Qed.
  End Delayed.
End Read.
