(** ContinuousEnergyTable built from blocks: the arrays (continued). *)
From Coq Require Import ZArith Bool List Lia Ascii.
From Coq Require Import ZifyBool ZifyNat.
From Verif Require Import PropLemmasBasic.
From Verif Require Export ContinuousLayout.
Import ListNotations.
Open Scope Z_scope.

Lemma concat_firstn_le {A} k (l : list (list A)) : len (concat (firstn k l)) <= len (concat l).
Proof. rewrite <- (firstn_skipn k l) at 2. rewrite concat_app, len_app. pose proof (len_nonneg (concat (skipn k l))). lia. Qed.
Lemma firstn_succ_concat {A} k (l : list (list A)) x : nth_error l k = Some x -> len (concat (firstn (S k) l)) = len (concat (firstn k l)) + len x.
Proof.
  revert k; induction l as [|y l IH]; intros [|k] H; try discriminate.
  - injection H as ->. cbn. rewrite app_nil_r. reflexivity.
  - rewrite !firstn_cons, !concat_cons, !len_app. cbn in H. rewrite (IH _ H). lia.
Qed.

(** * The ends: JXS(21) and JXS(22) *)

Lemma ce_ends_ok bm i s j x : ce_input bm i s -> ce_sizes s -> len x = ce_END s -> nth_error j 6 = Some (ce_off s 5 + s_ntr s + 1) ->
  exists f, ce_fission s f /\
  (In 18 (s_mts s) -> ce_ends bm i (j, x) = (j' <- (j1 <- upd 20 f j ;; upd 21 (ce_END s) j1) ;; Ok (j', x)))
  /\ (~ In 18 (s_mts s) -> ce_ends bm i (j, x) = (j' <- (j1 <- upd 21 (ce_END s) j ;; Ok j1) ;; Ok (j', x))).
Proof.
  intros I Z Lx Nj. unfold ce_ends. destruct (in_mtr _ _ _ I) as (Cm & Nm & Lk). destruct (in_sig _ _ _ I) as (Cs & Ns & Ls).
  destruct (in_dec Z.eq_dec 18 (s_mts s)) as [H|H].
  - destruct (proj1 Lk 18 H) as (E & k & K & Ek). pose proof K as [K0 _].
    pose proof (nth_error_len _ _ _ K0) as Bk. fold (s_ntr s) in Bk. pose proof (sz_xs _ Z) as Lxs.
    destruct (nth_error (s_xs s) k) as [c|] eqn:Ec. 2:{ apply nth_error_None in Ec. unfold len in *. lia. }
    destruct (nth_split_len _ _ _ Ec) as (pre & post & Exs & Lp).
    assert (Fk : firstn k (s_xs s) = pre).
    { rewrite Exs. replace k with (length pre) by (unfold len in Lp; lia). rewrite firstn_app, Nat.sub_diag, firstn_all. cbn. apply app_nil_r. }
    exists (ce_off s 5 + s_ntr s + len (concat pre) + 1). split; [|split]; [|intros _|tauto].
    + split; [|tauto]. intros _. exists k. rewrite Fk. auto.
    + rewrite E. cbn [bind]. unfold nth_or_UB. cbn [fst snd]. rewrite Nj. cbn [bind]. rewrite Ek. cbn [bind].
      unfold bl_LLOC. rewrite Ls, Ns. rewrite <- (sz_xs _ Z).
      rewrite (bl_LLOC_has bm (bl_v (ci_sig i)) true (s_xs s) (content_has _ _ Cs) pre c post) by first [exact Exs|unfold len in *; lia]. cbn [bind].
      replace (ce_off s 5 + len (s_xs s) + 1 + (1 + len (concat pre)) - 1) with (ce_off s 5 + len (s_xs s) + len (concat pre) + 1) by lia.
      destruct (upd 20 (ce_off s 5 + len (s_xs s) + len (concat pre) + 1) j) as [j1| |]; try reflexivity. cbn [bind]. unfold mark. cbn [fst snd].
      rewrite Lx. replace (ce_END s + 0) with (ce_END s) by lia. reflexivity.
  - destruct (proj2 Lk 18 H) as (E & _). exists 0. split; [|split]; [|tauto|intros _].
    + split; [tauto|reflexivity].
    + rewrite E. cbn [bind]. unfold mark. cbn [fst snd]. rewrite Lx. replace (ce_END s + 0) with (ce_END s) by lia.
      destruct (upd 21 (ce_END s) j); reflexivity.
Qed.

(** * Secondary particles *)

Lemma pw_words_off p : len (pw_words p) = pw_off p 6 + len (pw_yh p).
Proof. unfold pw_off, pw_words, pw_list. cbn [concat firstn]. rewrite ?len_app, ?len_nil. lia. Qed.

(** bounds of the locators of a particle *)
Definition part_ok (p : partW) : Prop := 0 <= pw_n p /\ pw_n p <= len (pw_sigh p) /\ pw_n p <= len (pw_andh p) /\ pw_n p <= len (pw_dlwh p).

Lemma ce_add_particle_ok size xss ixs p : part_ok p -> 0 <= size -> len xss + size + len (pw_words p) + 1 < 2 ^ 32 ->
  ce_add_particle size (xss, ixs) p = (xss ++ pw_words p, ixs ++ [pw_locs (len xss + size) p]).
Proof.
  intros (O1 & O2 & O3 & O4) Hs B. unfold ce_add_particle. pose proof (len_nonneg xss).
  unfold pw_words, pw_list in *. cbn [concat] in B. repeat rewrite ?len_app, ?len_nil in B.

  unfold pw_locs, pw_off, pw_list. cbn [firstn concat]. repeat rewrite ?len_app, ?len_nil.
  repeat match goal with |- context [len (?f p)] => lazymatch goal with H : 0 <= len (f p) |- _ => fail | _ => pose proof (len_nonneg (f p)) end end.
  apply f_equal2. { cbn [concat]. rewrite <- ?app_assoc, app_nil_r. reflexivity. }
  apply f_equal2; [reflexivity|]. apply cons_eq; [|reflexivity].
  pose proof (len_nonneg (pw_yh p)). repeat (apply cons_eq; [rewrite u32_small by lia; lia|]). reflexivity.
Qed.
Lemma ce_add_particles_ok size : forall ps xss ixs, Forall part_ok ps -> 0 <= size -> len xss + size + len (concat (map pw_words ps)) + 1 < 2 ^ 32 ->
  fold_left (ce_add_particle size) ps (xss, ixs) = (xss ++ concat (map pw_words ps), ixs ++ all_locs (len xss + size) ps).
Proof.
  induction ps as [|p ps IH]; intros xss ixs F Hs B.
  - cbn. rewrite !app_nil_r. reflexivity.
  - inversion F as [|? ? F1 F2]; subst. cbn [map concat] in B. rewrite len_app in B. pose proof (len_nonneg (concat (map pw_words ps))).
    cbn [fold_left]. rewrite ce_add_particle_ok by (try assumption; lia). rewrite IH by (try assumption; rewrite len_app; lia).
    cbn [map concat all_locs]. rewrite <- !app_assoc. cbn [app]. rewrite len_app. f_equal. f_equal. f_equal. f_equal. lia.
Qed.

Lemma pw_locs_valid b p : part_ok p -> 0 <= b -> b + len (pw_words p) + 1 < 2 ^ 31 -> len (pw_locs b p) = 10 /\ mt_valid (pw_locs b p).
Proof.
  intros (O1 & O2 & O3 & O4) Hb B. split; [reflexivity|]. unfold pw_words, pw_list in B. cbn [concat] in B. repeat rewrite ?len_app, ?len_nil in B.
  unfold pw_locs, pw_off, pw_list, mt_valid. cbn [firstn concat]. repeat rewrite ?len_app, ?len_nil. change (len (@nil double)) with 0.
  repeat match goal with |- context [len (?f p)] => lazymatch goal with H : 0 <= len (f p) |- _ => fail | _ => pose proof (len_nonneg (f p)) end end.
  pose proof (len_nonneg (pw_yh p)). repeat (apply Forall_cons; [lia|]). apply Forall_nil.
Qed.
Lemma all_locs_valid : forall ps b, Forall part_ok ps -> 0 <= b -> b + len (concat (map pw_words ps)) + 1 < 2 ^ 31 -> ix_valid (all_locs b ps).
Proof.
  induction ps as [|p ps IH]; intros b F Hb B; [constructor|]. inversion F as [|? ? F1 F2]; subst.
  cbn [map concat] in B. rewrite len_app in B. pose proof (len_nonneg (concat (map pw_words ps))). pose proof (len_nonneg (pw_words p)).
  cbn [all_locs]. constructor; [apply pw_locs_valid; [assumption|lia|lia]|]. apply IH; [assumption|lia|lia].
Qed.
Lemma len_all_locs b ps : len (all_locs b ps) = len ps.
Proof. revert b; induction ps as [|p ps IH]; intros b; cbn [all_locs]; rewrite ?len_cons, ?IH; reflexivity. Qed.

Lemma len_ix b ps : Forall part_ok ps -> 0 <= b -> b + len (concat (map pw_words ps)) + 1 < 2 ^ 31 -> len (ix_generateXSS (all_locs b ps)) = 10 * len ps.
Proof.
  intros F Hb B. unfold ix_generateXSS. rewrite (len_concat 10) by (apply ix_all_len, all_locs_valid; assumption). rewrite len_map, len_all_locs. lia.
Qed.

Lemma all_locs_ten b ps : Forall (fun ls => len ls = 10) (all_locs b ps).
Proof. revert b; induction ps as [|p ps IH]; intros b; cbn [all_locs]; constructor; [reflexivity|apply IH]. Qed.
Lemma ix_len_any b ps : len (ix_generateXSS (all_locs b ps)) = 10 * len (all_locs b ps).
Proof.
  unfold ix_generateXSS. rewrite (len_concat 10).
  - rewrite len_map. lia.
  - unfold all_len. rewrite Forall_map. eapply Forall_impl; [|apply all_locs_ten]. cbn. intros ls H. rewrite len_map. exact H.
Qed.

Lemma parts_ok s : ce_sizes s -> Forall part_ok (parts s).
Proof.
  intros Z. unfold parts. rewrite Forall_map. eapply Forall_impl; [|exact (sz_particles _ Z)]. intros q (H1 & H2 & H3 & H4 & H5).
  unfold part_ok, part_words. cbn [pw_n pw_sigh pw_andh pw_dlwh]. auto.
Qed.

(** the words of all particles, from the objects *)
Lemma ce_particles_ok bm i s th : ce_input bm i s -> s_particles s <> [] ->
  (exists ds ts, ci_dlwh i = Some ds /\ th = Some ts /\
     Forall2 (fun o t => exists fs, dh_frames o = map Some fs /\ content (ty_v t) (ty_generateXSS_frames fs) /\ ty_shows bm t fs (repeat 1 (length fs))) ds ts) ->
  mapM (fun k => ce_particle i th (Z.to_nat k)) (seqZ 0 (length (s_particles s))) = Ok (parts s).
Proof.
  intros I Hne (ds & ts & Ed & -> & Ft). pose proof (in_secondary _ _ _ I) as Sec. unfold secondary_in in Sec.
  assert (exists p h m sg a d y, ci_ptype i = Some p /\ ci_hpd i = Some h /\ ci_mtrh i = Some m /\ ci_sigh i = Some sg /\ ci_andh i = Some a
      /\ ci_dlwh i = Some d /\ ci_yh i = Some y /\ forall k q, nth_error (s_particles s) k = Some q -> exists h' m' sg' a' d' y',
           nth_error h k = Some h' /\ nth_error m k = Some m' /\ nth_error sg k = Some sg' /\ nth_error a k = Some a' /\ nth_error d k = Some d' /\ nth_error y k = Some y'
           /\ particle_in h' m' sg' a' d' y' q) as (p & h & m & sg & a & d & y & E1 & E2 & E3 & E4 & E5 & E6 & E7 & P).
  { destruct (s_particles s) as [|x0 r0]; [congruence|]. destruct Sec as (p & h & m & sg & a & d & y & Sec). exists p, h, m, sg, a, d, y. tauto. }
  assert (d = ds) as -> by congruence. unfold parts.
  assert (G : forall k0 qs, (forall k q, nth_error qs k = Some q -> nth_error (s_particles s) (k0 + k) = Some q) ->
    mapM (fun k => ce_particle i (Some ts) (Z.to_nat k)) (seqZ (Z.of_nat k0) (length qs)) = Ok (map part_words qs)).
  { intros k0 qs. revert k0. induction qs as [|q qs IH]; intros k0 H; [reflexivity|]. cbn [length seqZ mapM map].
    destruct (P k0 q) as (h' & m' & sg' & a' & d' & y' & N1 & N2 & N3 & N4 & N5 & N6 & [Q1 Q2 Q3 Q4 Q5 Q6 Q7 Q8]).
    { specialize (H 0%nat q eq_refl). rewrite Nat.add_0_r in H. exact H. }
    assert (exists t, nth_error ts k0 = Some t /\ content (ty_v t) (ty_generateXSS_frames (q_frames q))) as (t & Nt & Ct).
    { clear - Ft N5 Q7. revert k0 N5. induction Ft as [|o t os ts (fs & F1 & F2 & F3) Ft IH]; intros [|k0] N5; try discriminate.
      - injection N5 as ->. exists t. split; [reflexivity|]. assert (fs = q_frames q) as <-; [|exact F2].
        rewrite F1 in Q7. clear - Q7. revert Q7. generalize (q_frames q). induction fs as [|f r IH]; intros [|g r'] E; try discriminate; [reflexivity|].
        injection E as -> E. rewrite (IH _ E). reflexivity.
      - cbn. apply IH. exact N5. }
    replace (Z.of_nat k0 + 1) with (Z.of_nat (S k0)) by lia. rewrite IH.
    2:{ intros k q' Hk. specialize (H (S k) q' Hk). rewrite <- Nat.add_succ_comm in H. exact H. }
    unfold ce_particle. rewrite Nat2Z.id, E2, E3, E4, E5, E6, E7. cbn [deref_opt bind]. unfold nth_or_UB. rewrite N1, N2, N3, N4, N5, N6, Nt. cbn [bind].
    rewrite (xss_all_content _ _ Q1), (xss_all_content _ _ Q2), (xss_all_content _ _ Ct), (xss_all_content _ _ Q4), (xss_all_content _ _ Q5), (xss_all_content _ _ Q6), (xss_all_content _ _ Q8).
    cbn [bind]. rewrite Q3. reflexivity. }
  apply (G 0%nat). intros k q Hk. exact Hk.
Qed.

Lemma parts_numbers s m : len m = s_ntype s -> (forall k q, nth_error (s_particles s) k = Some q -> exists m', nth_error m k = Some m' /\ mt_NTR m' = q_n q) ->
  map mt_NTR m = map pw_n (parts s).
Proof.
  unfold s_ntype, parts. generalize (s_particles s). intros qs. revert m. induction qs as [|q qs IH]; intros [|o m] L H; try reflexivity.
  - rewrite len_cons in L. pose proof (len_nonneg m). change (len (@nil particleS)) with 0 in L. lia.
  - rewrite len_cons in L. pose proof (len_nonneg qs). change (len (@nil arrayData)) with 0 in L. lia.
  - cbn [map]. destruct (H 0%nat q eq_refl) as (m' & N & E). injection N as ->. rewrite E. f_equal.
    apply IH; [rewrite !len_cons in L; lia|]. intros k q' Hk. apply (H (S k) q' Hk).
Qed.

Lemma ce_second_ok bm i s th j : ce_input bm i s -> ce_sizes s ->
  (s_particles s <> [] -> exists ds ts, ci_dlwh i = Some ds /\ th = Some ts /\
     Forall2 (fun o t => exists fs, dh_frames o = map Some fs /\ content (ty_v t) (ty_generateXSS_frames fs) /\ ty_shows bm t fs (repeat 1 (length fs))) ds ts) ->
  forall f l, l = firstn 20 (ce_locators s f) ++ [f; ce_END s] ++ firstn 7 (skipn 22 (ce_locators s f)) ++ [0; 0; 0] -> j = l ->
  ce_secondary i th (j, concat (ce_pieces s)) = Ok (ce_locators s f, ce_words s).
Proof.
  intros I Z Hth f l El ->. pose proof (in_secondary _ _ _ I) as S. unfold secondary_in in S. pose proof (parts_ok _ Z) as PO.
  pose proof (sz_room _ Z) as R. unfold ce_words, ce_second in R |- *. unfold ce_secondary.
  assert (s_particles s = [] \/ s_particles s <> []) as [E|E] by (destruct (s_particles s); [left; reflexivity|right; discriminate]).
  - rewrite E in S |- *. destruct S as (-> & _). rewrite app_nil_r. f_equal. f_equal. rewrite El. unfold ce_locators. rewrite E. reflexivity.
  - assert (E' : forall A (x y : A), match s_particles s with [] => x | _ => y end = y) by (intros; destruct (s_particles s); [congruence|reflexivity]).
    rewrite E' in S. rewrite E' in R. rewrite E'.
    destruct S as (p & h & m & sg & a & d & y & E1 & E2 & E3 & E4 & E5 & E6 & E7 & Cp & Np & _ & Lm & _ & _ & _ & _ & P).
    rewrite E1, E3. cbn [deref_opt bind].
    assert (Hm : map mt_NTR m = map pw_n (parts s)).
    { apply parts_numbers; [exact Lm|]. intros k q Hk. destruct (P k q Hk) as (h' & m' & sg' & a' & d' & y' & _ & N2 & _ & _ & _ & _ & Q). exists m'. split; [exact N2|exact (qi_n _ _ _ _ _ _ _ Q)]. }
    rewrite Hm, Np.
    assert (Lps : len (parts s) = s_ntype s) by (unfold parts; apply len_map).
    unfold max_words in R. repeat rewrite ?len_app, ?len_map in R.
    pose proof (len_nonneg (concat (ce_pieces s))). pose proof (len_nonneg (fst (s_ptype s))). pose proof (len_nonneg (parts s)). pose proof (len_nonneg (concat (map pw_words (parts s)))).
    pose proof (len_nonneg (ix_generateXSS (all_locs (ce_base s) (parts s)))).
    assert (Li : len (ix_generateXSS (all_locs (ce_base s) (parts s))) = 10 * len (parts s)).
    { rewrite ix_len_any. rewrite len_all_locs. lia. }
    assert (LE : len (concat (ce_pieces s)) = ce_END s) by reflexivity.
    assert (Lb : ce_base s = len (concat (ce_pieces s)) + len (fst (s_ptype s)) + s_ntype s + 10 * s_ntype s) by reflexivity.
    assert (Cn : content (nt_v (nt_of (map pw_n (parts s)))) (map dbl (map pw_n (parts s)))).
    { apply own_content. unfold nt_generateXSS. rewrite !len_map. unfold max_words. lia. }
    unfold mark at 1. cbn [fst snd]. rewrite El. unfold ce_locators at 1 2. cbn [firstn skipn app upd bind].
    unfold append at 1. rewrite (xss_all_content _ _ Cp). cbn [bind fst snd].
    unfold mark at 1. cbn [fst snd upd bind]. unfold append at 1. rewrite (xss_all_content _ _ Cn). cbn [bind fst snd].
    unfold mark at 1. cbn [fst snd upd bind].
    replace (Z.to_nat (s_ntype s)) with (length (s_particles s)) by (unfold s_ntype, len; lia).
    rewrite (ce_particles_ok bm i s th I E (Hth E)). cbn [bind].
    rewrite u32_small by lia.
    rewrite ce_add_particles_ok by (try assumption; try lia; repeat rewrite ?len_app, ?len_map; lia).
    cbn [app].
    replace (len ((concat (ce_pieces s) ++ fst (s_ptype s)) ++ map dbl (map pw_n (parts s))) + s_ntype s * 10) with (ce_base s) by (repeat rewrite ?len_app, ?len_map; lia).
    assert (Ci : content (nt_v (ix_of (all_locs (ce_base s) (parts s)))) (ix_generateXSS (all_locs (ce_base s) (parts s)))).
    { apply own_content. unfold max_words. lia. }
    rewrite (xss_all_content _ _ Ci). cbn [bind].
    f_equal. apply f_equal2.
    + unfold ce_locators. rewrite !E'. cbn [app firstn skipn]. repeat (apply cons_eq; [first [reflexivity|repeat rewrite ?len_app, ?len_map; lia]|]). reflexivity.
    + rewrite firstn_app, Nat.sub_diag, firstn_all, skipn_app, Nat.sub_diag, skipn_all. cbn [firstn skipn app]. rewrite app_nil_r, <- !app_assoc. reflexivity.
Qed.

(** * All arrays *)

Definition ce_nxs (z a st : Z) (s : ceS) : list Z :=
  [len (ce_words s); 1000 * z + a; s_nes s; s_ntr s; s_nr s; or0 g_n (s_photon s); s_ntype s; or0 b_n (s_delayed s); st; z; a] ++ zeros 5.

Lemma particles_forall {A} (P : A -> Prop) (qs : list particleS) (l : list A) : len l = len qs ->
  (forall k q, nth_error qs k = Some q -> exists x, nth_error l k = Some x /\ P x) -> Forall P l.
Proof.
  revert qs; induction l as [|x l IH]; intros [|q qs] L H; [constructor|constructor| |].
  - rewrite len_cons in L. pose proof (len_nonneg l). change (len (@nil particleS)) with 0 in L. lia.
  - constructor.
    + destruct (H 0%nat q eq_refl) as (y & E & Py). injection E as ->. exact Py.
    + apply (IH qs); [rewrite !len_cons in L; lia|]. intros k q' Hk. exact (H (S k) q' Hk).
Qed.

Lemma ce_words_parts s q : In q (s_particles s) -> len (pw_words (part_words q)) <= len (ce_words s).
Proof.
  intros Hq. unfold ce_words, ce_second. destruct (s_particles s) as [|x r] eqn:E; [destruct Hq|]. rewrite <- E in *. repeat rewrite len_app.
  assert (len (pw_words (part_words q)) <= len (concat (map pw_words (parts s)))).
  { unfold parts. revert Hq. generalize (s_particles s). intros l. induction l as [|y l IH]; [intros []|]; intros [->|H]; cbn [map concat]; rewrite len_app;
      pose proof (len_nonneg (concat (map pw_words (map part_words l)))); [lia|]. specialize (IH H). pose proof (len_nonneg (pw_words (part_words y))). lia. }
  pose proof (len_nonneg (concat (ce_pieces s))). pose proof (len_nonneg (fst (s_ptype s))). pose proof (len_nonneg (map dbl (map pw_n (parts s)))).
  pose proof (len_nonneg (ix_generateXSS (all_locs (ce_base s) (parts s)))). lia.
Qed.

Lemma ce_piece_le s k w : nth_error (ce_pieces s) k = Some w -> len w <= len (ce_words s).
Proof.
  intros H. unfold ce_words. rewrite len_app. pose proof (len_nonneg (ce_second s)). pose proof (firstn_succ_concat _ _ _ H) as F.
  pose proof (concat_firstn_le (S k) (ce_pieces s)). pose proof (len_nonneg (concat (firstn k (ce_pieces s)))). lia.
Qed.

Lemma ce_in_objects bm i s : ce_input bm i s -> ce_sizes s -> (forall n, ci_dnu i = Some n -> exists o, nu_prompt n = NuTab o /\ tf_LNU bm o = Ok 2) ->
  ce_objects bm i (s_mts s) /\ ce_consistent i (s_mts s).
Proof.
  intros I Z Hd. pose proof (sz_room _ Z) as R. unfold max_words in R. destruct (sz_tyr _ Z) as [F Lms].
  destruct (in_mtr _ _ _ I) as (Cm & Nm & Lk). destruct (in_dlw _ _ _ I) as (Cd & Nd & Fd & Md).
  assert (Bm : len (s_mts s) < max_words).
  { pose proof (ce_piece_le s 2%nat _ eq_refl) as B. rewrite len_map in B. unfold max_words. lia. }
  pose proof (len_nonneg (s_ms s)).
  assert (Hf : forall ds, ci_dlwh i = Some ds -> Forall has_frames ds).
  { intros ds E. pose proof (in_secondary _ _ _ I) as Sec. unfold secondary_in in Sec. pose proof (sz_particles _ Z) as SP.
    destruct (s_particles s) as [|q0 qs] eqn:Eq. { unfold none in Sec. destruct Sec as (_ & _ & _ & _ & _ & X & _). congruence. }
    rewrite <- Eq in *. destruct Sec as (p & h & m & sg & a & d & y & E1 & E2 & E3 & E4 & E5 & E6 & E7 & Cp & Np & _ & Lm & _ & _ & Ld & _ & P).
    assert (d = ds) as -> by congruence. apply (particles_forall _ (s_particles s)); [exact Ld|]. intros k q Hk.
    destruct (P k q Hk) as (h' & m' & sg' & a' & d' & y' & _ & _ & _ & _ & N5 & _ & Q). exists d'. split; [exact N5|].
    exists (q_frames q). split; [exact (qi_frames _ _ _ _ _ _ _ Q)|].
    pose proof (nth_error_In _ _ Hk) as Hq. rewrite Forall_forall in SP. destruct (SP _ Hq) as (S1 & S2 & S3 & _).
    pose proof (ce_words_parts s q Hq) as B. unfold pw_words, pw_list, part_words in B. cbn [pw_hpd pw_mtrh pw_tyrh pw_sigh pw_andh pw_dlwh pw_yh concat] in B.
    repeat rewrite ?len_app in B. unfold max_words. 
    pose proof (len_nonneg (fst (q_hpd q))). pose proof (len_nonneg (fst (q_mtrh q))). pose proof (len_nonneg (ty_generateXSS_frames (q_frames q))).
    pose proof (len_nonneg (fst (q_andh q))). pose proof (len_nonneg (fst (q_dlwh q))). pose proof (len_nonneg (fst (q_yh q))). pose proof (len_nonneg (@nil double)). lia. }
  split; constructor.
  - split; [exact Nm|]. split; [exact Lk|exact Bm].
  - rewrite Nd, Fd, Md. split; [pose proof (sz_nr _ Z); unfold s_ntr in *; lia|]. split; [|exact F]. rewrite <- Lms, <- Md at 1. unfold len. rewrite firstn_length. lia.
  - intros n E. destruct (Hd n E) as (o & Eo & L). rewrite Eo. exact L.
  - exact Hf.
  - exact (proj2 (in_lqr _ _ _ I)).
  - exact (proj1 (proj2 (in_sig _ _ _ I))).
  - rewrite Nd. exact (sz_nr _ Z).
  - rewrite Nd. exact (proj2 (in_ang _ _ _ I)).
  - intros H18. pose proof (sz_nu _ Z H18) as Y. pose proof (in_nu _ _ _ I) as X. destruct (ci_nu i), (s_nu s); cbn in X; try tauto; discriminate.
  - pose proof (in_photon _ _ _ I) as P. unfold photon_in in P. destruct (s_photon s) as [g|]; [right|left; exact P].
    destruct P as (x & m & sg & a & d & y & E1 & E2 & E3 & E4 & E5 & E6 & _ & _ & _ & _ & _ & _ & Q1 & Q2 & Q3).
    exists x, m, sg, a, d, y. repeat (split; [assumption|]). lia.
  - pose proof (in_delayed _ _ _ I) as P. unfold delayed_in in P. destruct (s_delayed s) as [b|]; [right|left; exact P].
    destruct P as (n & x & d & E1 & E2 & E3 & _ & _ & _ & T & N & Q1 & Q2). exists n, x, d. repeat (split; [assumption|]). lia.
  - pose proof (in_secondary _ _ _ I) as P. unfold secondary_in in P. destruct (s_particles s) as [|q0 qs]; [left; exact P|right].
    destruct P as (p & h & m & sg & a & d & y & E1 & E2 & E3 & E4 & E5 & E6 & E7 & Cp & Np & L1 & L2 & L3 & L4 & L5 & L6 & P).
    exists p, h, m, sg, a, d, y. repeat (split; [assumption|]). lia.
Qed.

Lemma ce_data_ok bm z a st i s : ce_input bm i s -> ce_sizes s -> (forall n, ci_dnu i = Some n -> exists o, nu_prompt n = NuTab o /\ tf_LNU bm o = Ok 2) ->
  0 <= z -> 0 <= a -> 1000 * z + a < 2 ^ 32 ->
  exists f, ce_fission s f
    /\ ce_generateData bm z a st i = Ok (TData (zeros 16) (dzeros 16) (ce_nxs z a st s) (ce_locators s f) (ce_words s)).
Proof.
  intros I Z Hd Hz Ha Hza. destruct (ce_in_objects bm i s I Z Hd) as [O C]. destruct (ce_TYR_ok bm i _ O) as (_ & L & t & T & Ct & S).
  destruct (in_mtr _ _ _ I) as (Cm & Nm & Lk). destruct (in_dlw _ _ _ I) as (Cd & Nd & Fd & Md).
  unfold ce_generateData. rewrite Nm. unfold s_ntr at 1. rewrite T. cbn [bind].
  assert (exists th, ce_generateTYRH bm (ci_dlwh i) = Ok th /\ match ci_dlwh i, th with None, None => True | Some ds, Some ts => len ts = len ds | _, _ => False end
     /\ (s_particles s <> [] -> exists ds ts, ci_dlwh i = Some ds /\ th = Some ts /\
     Forall2 (fun o t => exists fs, dh_frames o = map Some fs /\ content (ty_v t) (ty_generateXSS_frames fs) /\ ty_shows bm t fs (repeat 1 (length fs))) ds ts)) as (th & E & H & Hth).
  { unfold ce_generateTYRH. pose proof (co_dlwh _ _ _ O) as D. destruct (ci_dlwh i) as [ds|] eqn:Ed.
    - destruct (ce_TYRH_ok bm ds (D _ eq_refl)) as (ts & -> & F). cbn [bind]. eexists. split; [reflexivity|]. split; [cbn; pose proof (Forall2_len _ _ _ F); unfold len; lia|]. eauto.
    - exists None. split; [reflexivity|]. split; [exact Logic.I|]. intros Hne. pose proof (in_secondary _ _ _ I) as P. unfold secondary_in in P.
      destruct (s_particles s); [congruence|]. destruct P as (p' & h & m & sg & a' & d & y & _ & _ & _ & _ & _ & X & _). congruence. }
  rewrite E. cbn [bind]. rewrite (proj1 (ce_verify_spec bm i _ t th O ltac:(destruct S as [-> _]; exact L) H) C). cbn [bind].
  assert (Ct' : content (ty_v t) (ty_layout (all_frames s) (all_ms s))).
  { unfold all_frames, all_ms, s_ntr. unfold ce_frames, ce_mults in Ct. rewrite Nd, Fd, Md in Ct. exact Ct. }
  destruct (ce_conventional_ok bm i s t I Ct') as (j & -> & J). cbn [bind].
  destruct (ce_ends_ok bm i s j (concat (ce_pieces s)) I Z eq_refl (proj2 (proj2 (J 0)))) as (f & F & F1 & F2).
  exists f. split; [exact F|].
  assert (exists l, ce_ends bm i (j, concat (ce_pieces s)) = Ok (l, concat (ce_pieces s))
     /\ l = firstn 20 (ce_locators s f) ++ [f; ce_END s] ++ firstn 7 (skipn 22 (ce_locators s f)) ++ [0; 0; 0]) as (l & El & Hl).
  { destruct (J f) as (J1 & J2 & _). destruct (in_dec Z.eq_dec 18 (s_mts s)) as [Hi|Hi].
    - rewrite (F1 Hi), J1. cbn [bind]. eexists. split; reflexivity.
    - rewrite (F2 Hi), J2. cbn [bind]. eexists. split; [reflexivity|]. rewrite (proj2 F Hi). reflexivity. }
  rewrite El. cbn [bind]. rewrite (ce_second_ok bm i s th l I Z Hth f l Hl eq_refl). cbn [bind fst snd].
  destruct (in_esz _ _ _ I) as (_ & en & -> & Len). cbn [bind]. rewrite Len.
  do 2 f_equal. unfold ce_nxs. cbn [app]. rewrite (u32_small (z * 1000)) by lia. rewrite u32_small by lia.
  repeat apply cons_eq; try reflexivity; try lia.
  - exact (proj2 (in_ang _ _ _ I)).
  - pose proof (in_photon _ _ _ I) as P. unfold photon_in, none in P. destruct (s_photon s) as [g|].
    + destruct P as (x & m & sg & a' & d & y & E1 & E2 & _ & _ & _ & _ & _ & _ & _ & _ & _ & _ & Q1 & _). rewrite E2. exact Q1.
    + destruct P as (_ & -> & _). reflexivity.
  - pose proof (in_secondary _ _ _ I) as P. unfold secondary_in, none in P. unfold s_ntype. destruct (s_particles s) as [|q0 qs] eqn:Eq.
    + destruct P as (-> & _). reflexivity.
    + destruct P as (p & h & m & sg & a' & d & y & E1 & _ & _ & _ & _ & _ & _ & _ & Np & _). rewrite E1. cbn [or0]. rewrite Np. unfold s_ntype. rewrite Eq. reflexivity.
  - pose proof (in_delayed _ _ _ I) as P. unfold delayed_in, none in P. destruct (s_delayed s) as [b|].
    + destruct P as (n & x & d & E1 & E2 & _ & _ & _ & _ & _ & _ & Q1 & _). rewrite E2. exact Q1.
    + destruct P as (_ & -> & _). reflexivity.
Qed.
