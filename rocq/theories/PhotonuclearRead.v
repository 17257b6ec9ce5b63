(** PhotonuclearTable built from blocks: the arrays and their reading. *)
From Coq Require Import ZArith Bool List Lia Ascii.
From Coq Require Import ZifyBool ZifyNat.
From Verif Require Import PropLemmasBasic.
From Verif Require Export PhotonuclearTable.
Import ListNotations.
Open Scope Z_scope.

(** * Specification *)

(** The blocks of one secondary particle: its type, its number of reactions, their reference frames, and for each block
    its words and what is to be shown of the block that the table returns *)
Record puQ := PuQ { uq_type : Z; uq_n : Z; uq_frames : list frame; uq_pxs : claim view; uq_phn : claim view; uq_mtrh : claim arrayData;
  uq_sigh : claim (blockWithLocators prefixedTabulated); uq_andh : claim angularBlock; uq_dlwh : claim dlwh }.
(** All blocks.  [us_e]: there is no elastic cross section *)
Record puS := PuS { us_nes : Z; us_e : bool; us_ntr : Z; us_eszu : claim arrayData; us_mtr : claim arrayData; us_lqr : claim arrayData;
  us_sig : claim (blockWithLocators view); us_parts : list puQ }.

Definition uw_of (q : puQ) : puW :=
  PuW (uq_n q) (fst (uq_pxs q)) (fst (uq_phn q)) (fst (uq_mtrh q)) (ty_generateXSS_frames (uq_frames q)) (fst (uq_sigh q)) (fst (uq_andh q)) (fst (uq_dlwh q)).
Definition uw_list (p : puW) : list (list double) := [uw_pxs p; uw_phn p; uw_mtrh p; uw_tyrh p; uw_sigh p; uw_andh p; uw_dlwh p].
Definition uw_words (p : puW) : list double := concat (uw_list p).
Definition uw_off (p : puW) (k : nat) : Z := len (concat (firstn k (uw_list p))).
(** the ten locators of a particle whose blocks come after b words *)
Definition uw_locs (b : Z) (p : puW) : list Z :=
  [b + 1; b + uw_off p 1 + 1; b + uw_off p 2 + 1; b + uw_off p 3 + 1; b + uw_off p 4 + 1; b + uw_off p 4 + uw_n p + 1; b + uw_off p 5 + 1;
   b + uw_off p 5 + uw_n p + 1; b + uw_off p 6 + 1; b + uw_off p 6 + uw_n p + 1].
Fixpoint u_locs (b : Z) (ps : list puW) : list (list Z) :=
  match ps with [] => [] | p :: r => uw_locs b p :: u_locs (b + len (uw_words p)) r end.
(** the twelve words of IXS for each particle *)
Fixpoint u_rows (b : Z) (qs : list puQ) : list (list Z) :=
  match qs with [] => [] | q :: r => (uq_type q :: uq_n q :: uw_locs b (uw_of q)) :: u_rows (b + len (uw_words (uw_of q))) r end.
(** The type and the number of reactions of each following particle are smaller than the locator of the energy distributions
    of the particle *)
Fixpoint u_apart (b : Z) (qs : list puQ) : Prop :=
  match qs with
  | q :: (q' :: _) as r => let p := b + uw_off (uw_of q) 6 + uq_n q + 1 in uq_type q' < p /\ uq_n q' < p /\ u_apart (b + len (uw_words (uw_of q))) r
  | _ => True
  end.

Definition us_ntype (s : puS) : Z := len (us_parts s).
Definition us_front (s : puS) : list double := fst (us_eszu s) ++ fst (us_mtr s) ++ fst (us_lqr s) ++ fst (us_sig s).
Definition us_base (s : puS) : Z := len (us_front s) + 12 * us_ntype s.
Definition us_blocks (s : puS) : list double := concat (map (fun q => uw_words (uw_of q)) (us_parts s)).
(** The XSS, JXS and NXS arrays *)
Definition us_words (s : puS) : list double := us_front s ++ iu_words (u_rows (us_base s) (us_parts s)) ++ us_blocks s.
Definition us_jxs (s : puS) : list Z :=
  let nes := us_nes s in let w1 := len (fst (us_eszu s)) in let w2 := w1 + len (fst (us_mtr s)) in let w3 := w2 + len (fst (us_lqr s)) in
  let se x := match us_parts s with [] => 0 | _ => x end in
  [1; nes + 1; (if us_e s then nes + 1 else 0); (if us_e s then 0 else 2 * nes + 1); (if us_e s then 2 * nes + 1 else 3 * nes + 1);
   w1 + 1; w2 + 1; w3 + 1; w3 + us_ntr s + 1; se (len (us_front s) + 1); se (us_base s + 1)] ++ zeros 21.
Definition us_nxs (z a st : Z) (s : puS) : list Z :=
  [len (us_words s); 1000 * z + a; us_nes s; us_ntr s; us_ntype s; 2; 12; 0; st; z; a; 0; 0; 0; 0; 1].

(** The objects of one particle *)
Record puO := PuO { uo_pxs : view; uo_phn : view; uo_mtrh : arrayData; uo_sigh : blockWithLocators prefixedTabulated; uo_andh : angularBlock; uo_dlwh : dlwh }.
Record part_in (o : puO) (q : puQ) : Prop := {
  ti_pxs : content (uo_pxs o) (fst (uq_pxs q)); ti_phn : content (uo_phn o) (fst (uq_phn q));
  ti_mtrh : content (ad_v (uo_mtrh o)) (fst (uq_mtrh q)); ti_n : mt_NTR (uo_mtrh o) = uq_n q;
  ti_sigh : content (bl_v (uo_sigh o)) (fst (uq_sigh q)); ti_andh : content (ab_v (uo_andh o)) (fst (uq_andh q));
  ti_dlwh : content (bl_v (dh_block (uo_dlwh o))) (fst (uq_dlwh q)); ti_frames : dh_frames (uo_dlwh o) = map Some (uq_frames q) }.
Definition pu_second_in (i : puIn) (s : puS) : Prop :=
  match us_parts s with
  | [] => none (ui_ptype i) /\ none (ui_pxs i) /\ none (ui_phn i) /\ none (ui_mtrh i) /\ none (ui_sigh i) /\ none (ui_andh i) /\ none (ui_dlwh i)
  | qs => exists os, Forall2 part_in os qs /\ ui_ptype i = Some (map uq_type qs) /\ ui_pxs i = Some (map uo_pxs os) /\ ui_phn i = Some (map uo_phn os)
      /\ ui_mtrh i = Some (map uo_mtrh os) /\ ui_sigh i = Some (map uo_sigh os) /\ ui_andh i = Some (map uo_andh os) /\ ui_dlwh i = Some (map uo_dlwh os)
  end.
Record pu_input bm (i : puIn) (s : puS) : Prop := {
  pi_eszu : content (ad_v (ui_eszu i)) (fst (us_eszu s)) /\ eu_NES (ui_eszu i) = us_nes s /\ exists el, eu_elastic bm (ui_eszu i) = Ok el /\ (len el =? 0) = us_e s;
  pi_mtr : content (ad_v (ui_mtr i)) (fst (us_mtr s)) /\ mt_NTR (ui_mtr i) = us_ntr s;
  pi_lqr : content (ad_v (ui_lqr i)) (fst (us_lqr s)) /\ mt_NTR (ui_lqr i) = us_ntr s;
  pi_sig : content (bl_v (ui_sig i)) (fst (us_sig s)) /\ bl_n (ui_sig i) = us_ntr s;
  pi_second : pu_second_in i s }.
(** The numbers fit together and the words fit in a table *)
Definition uq_fits (q : puQ) : Prop :=
  0 <= uq_type q < 2 ^ 31 /\ 0 <= uq_n q /\ len (uq_frames q) = uq_n q /\ uq_n q <= len (fst (uq_sigh q)) /\ uq_n q <= len (fst (uq_andh q)) /\ uq_n q <= len (fst (uq_dlwh q)).
Record pu_sizes (s : puS) : Prop := {
  uz_room : len (us_words s) + 1 < max_words; uz_nes : 0 <= us_nes s /\ 3 * us_nes s <= len (fst (us_eszu s));
  uz_ntr : 0 <= us_ntr s <= len (fst (us_sig s)); uz_parts : Forall uq_fits (us_parts s) }.
Definition uq_reads bm (q : puQ) : Prop :=
  readable (xs_make bm) (fst (uq_pxs q)) (snd (uq_pxs q)) /\ readable (xs_make bm) (fst (uq_phn q)) (snd (uq_phn q))
  /\ readable (fun v => mt_make v (uq_n q)) (fst (uq_mtrh q)) (snd (uq_mtrh q))
  /\ readable (fun v => bl_make bm (sigh_generateData bm) v (vbeg v + uq_n q) (uq_n q) true) (fst (uq_sigh q)) (snd (uq_sigh q))
  /\ readable (fun v => ab_make bm v (vbeg v + uq_n q) (uq_n q) false) (fst (uq_andh q)) (snd (uq_andh q))
  /\ (forall t, ty_shows bm t (uq_frames q) (repeat 1 (length (uq_frames q))) ->
        readable (fun v => dh_make bm v (vbeg v + uq_n q) (uq_n q) (Some t)) (fst (uq_dlwh q)) (snd (uq_dlwh q))).
Record pu_reads bm (s : puS) : Prop := {
  ur_eszu : readable (fun v => eu_make v (us_nes s) (if us_e s then 3 else 4)) (fst (us_eszu s)) (snd (us_eszu s));
  ur_mtr : readable (fun v => mt_make v (us_ntr s)) (fst (us_mtr s)) (snd (us_mtr s));
  ur_lqr : readable (fun v => lq_make v (us_ntr s)) (fst (us_lqr s)) (snd (us_lqr s));
  ur_sig : readable (fun v => bl_make bm (sig_generateData bm) v (vbeg v + us_ntr s) (us_ntr s) true) (fst (us_sig s)) (snd (us_sig s));
  ur_parts : Forall (uq_reads bm) (us_parts s) }.
(** What the table returns *)
Record part_shows bm (p : puPart) (q : puQ) : Prop := {
  th_pxs : snd (uq_pxs q) (up_pxs p); th_phn : snd (uq_phn q) (up_phn p); th_mtrh : snd (uq_mtrh q) (up_mtrh p);
  th_tyrh : ty_shows bm (up_tyrh p) (uq_frames q) (repeat 1 (length (uq_frames q)));
  th_sigh : snd (uq_sigh q) (up_sigh p); th_andh : snd (uq_andh q) (up_andh p); th_dlwh : snd (uq_dlwh q) (up_dlwh p) }.
Record pu_shows bm (s : puS) (t : puTable) : Prop := {
  sw_eszu : snd (us_eszu s) (ut_eszu t); sw_mtr : snd (us_mtr s) (ut_mtr t); sw_lqr : snd (us_lqr s) (ut_lqr t); sw_sig : snd (us_sig s) (ut_sig t);
  sw_ixs : match us_parts s with
           | [] => ut_ixs t = None
           | _ => exists o, ut_ixs t = Some o /\ iu_shows bm o (u_rows (us_base s) (us_parts s))
           end;
  sw_parts : Forall2 (part_shows bm) (ut_particles t) (us_parts s) }.

(** * The arrays *)

Lemma uw_off_at p k w : nth_error (uw_list p) k = Some w -> uw_off p (S k) = uw_off p k + len w.
Proof. exact (firstn_succ_concat k (uw_list p) w). Qed.

Definition w_ok (p : puW) : Prop := 0 <= uw_n p /\ uw_n p <= len (uw_sigh p) /\ uw_n p <= len (uw_andh p) /\ uw_n p <= len (uw_dlwh p).
Lemma pu_add_particle_ok size xss ixs p : w_ok p -> 0 <= size -> len xss + size + len (uw_words p) + 1 < 2 ^ 32 ->
  pu_add_particle size (xss, ixs) p = (xss ++ uw_words p, ixs ++ [uw_locs (len xss + size) p]).
Proof.
  intros (O1 & O2 & O3 & O4) Hs B. unfold pu_add_particle. pose proof (len_nonneg xss).
  unfold uw_words, uw_list in *. cbn [concat] in B. repeat rewrite ?len_app, ?len_nil in B.
  unfold uw_locs, uw_off, uw_list. cbn [firstn concat]. repeat rewrite ?len_app, ?len_nil.
  repeat match goal with |- context [len (?f p)] => lazymatch goal with H : 0 <= len (f p) |- _ => fail | _ => pose proof (len_nonneg (f p)) end end.
  apply f_equal2. { cbn [concat]. rewrite <- ?app_assoc, app_nil_r. reflexivity. }
  apply f_equal2; [reflexivity|]. apply cons_eq; [|reflexivity].
  pose proof (len_nonneg (uw_dlwh p)). repeat (apply cons_eq; [rewrite u32_small by lia; lia|]). reflexivity.
Qed.
Lemma pu_add_particles_ok size : forall ps xss ixs, Forall w_ok ps -> 0 <= size -> len xss + size + len (concat (map uw_words ps)) + 1 < 2 ^ 32 ->
  fold_left (pu_add_particle size) ps (xss, ixs) = (xss ++ concat (map uw_words ps), ixs ++ u_locs (len xss + size) ps).
Proof.
  induction ps as [|p ps IH]; intros xss ixs F Hs B.
  - cbn. rewrite !app_nil_r. reflexivity.
  - inversion F as [|? ? F1 F2]; subst. cbn [map concat] in B. rewrite len_app in B. pose proof (len_nonneg (concat (map uw_words ps))).
    cbn [fold_left]. rewrite pu_add_particle_ok by (try assumption; lia). rewrite IH by (try assumption; rewrite len_app; lia).
    cbn [map concat u_locs]. rewrite <- !app_assoc. cbn [app]. rewrite len_app. f_equal. f_equal. f_equal. f_equal. lia.
Qed.

Lemma u_rows_zip : forall qs b, iu_zip (map uq_type qs) (map uq_n qs) (u_locs b (map uw_of qs)) = u_rows b qs.
Proof. induction qs as [|q qs IH]; intros b; [reflexivity|]. cbn [map u_locs iu_zip u_rows]. rewrite IH. reflexivity. Qed.
Lemma len_u_locs : forall ps b, len (u_locs b ps) = len ps.
Proof. induction ps as [|p ps IH]; intros b; [reflexivity|]. cbn [u_locs]. rewrite !len_cons, IH. reflexivity. Qed.
Lemma len_u_rows : forall qs b, len (u_rows b qs) = len qs.
Proof. induction qs as [|q qs IH]; intros b; [reflexivity|]. cbn [u_rows]. rewrite !len_cons, IH. reflexivity. Qed.
Lemma u_rows_12 : forall qs b, Forall (fun r => len r = 12) (u_rows b qs).
Proof. induction qs as [|q qs IH]; intros b; constructor; [reflexivity|apply IH]. Qed.
Lemma len_iu_words qs b : len (iu_words (u_rows b qs)) = 12 * len qs.
Proof.
  unfold iu_words. rewrite (len_concat 12); [rewrite len_map, len_u_rows; lia|]. unfold all_len. rewrite Forall_map. eapply Forall_impl; [|apply u_rows_12].
  cbv beta. intros r L. rewrite len_map. exact L.
Qed.
Lemma uq_w_ok q : uq_fits q -> w_ok (uw_of q).
Proof. intros (T & N & F & A & B & C). unfold w_ok, uw_of. cbn [uw_n uw_sigh uw_andh uw_dlwh]. auto. Qed.
Lemma uw_locs_valid b p : w_ok p -> 0 <= b -> b + len (uw_words p) + 1 < 2 ^ 31 -> mt_valid (uw_locs b p).
Proof.
  intros (O1 & O2 & O3 & O4) Hb B. unfold uw_words, uw_list in B. cbn [concat] in B. repeat rewrite ?len_app, ?len_nil in B.
  unfold uw_locs, uw_off, uw_list, mt_valid. cbn [firstn concat]. repeat rewrite ?len_app, ?len_nil. change (len (@nil double)) with 0.
  repeat match goal with |- context [len (?f p)] => lazymatch goal with H : 0 <= len (f p) |- _ => fail | _ => pose proof (len_nonneg (f p)) end end.
  repeat (apply Forall_cons; [lia|]). apply Forall_nil.
Qed.
Lemma uq_n_words q : uq_fits q -> uq_n q <= len (uw_words (uw_of q)).
Proof.
  intros (T & N & F & A & B & C). unfold uw_words, uw_list, uw_of. cbn [concat uw_pxs uw_phn uw_mtrh uw_tyrh uw_sigh uw_andh uw_dlwh]. repeat rewrite len_app. nonneg. lia.
Qed.
Lemma u_rows_valid : forall qs b, Forall uq_fits qs -> 0 <= b -> b + len (concat (map (fun q => uw_words (uw_of q)) qs)) + 1 < 2 ^ 31 -> iu_rows_valid (u_rows b qs).
Proof.
  induction qs as [|q qs IH]; intros b F Hb B; [constructor|]. apply Forall_cons_iff in F as [F1 F2]. cbn [map concat] in B. rewrite len_app in B.
  pose proof (len_nonneg (concat (map (fun q => uw_words (uw_of q)) qs))). pose proof (len_nonneg (uw_words (uw_of q))). cbn [u_rows]. constructor.
  - split; [reflexivity|]. pose proof (uq_n_words q F1). constructor; [apply F1|]. constructor; [destruct F1 as (_ & N & _); lia|].
    apply uw_locs_valid; [apply uq_w_ok; exact F1|lia|lia].
  - apply IH; [exact F2|lia|lia].
Qed.

Lemma pu_particles_ok bm i th s os : Forall2 part_in os (us_parts s) -> ui_pxs i = Some (map uo_pxs os) -> ui_phn i = Some (map uo_phn os)
  -> ui_mtrh i = Some (map uo_mtrh os) -> ui_sigh i = Some (map uo_sigh os) -> ui_andh i = Some (map uo_andh os) -> ui_dlwh i = Some (map uo_dlwh os) ->
  (exists ts, th = Some ts /\ Forall2 (fun o t => exists fs, dh_frames o = map Some fs /\ content (ty_v t) (ty_generateXSS_frames fs) /\ ty_shows bm t fs (repeat 1 (length fs))) (map uo_dlwh os) ts) ->
  mapM (fun k => pu_particle i th (Z.to_nat k)) (seqZ 0 (length (us_parts s))) = Ok (map uw_of (us_parts s)).
Proof.
  intros F E1 E2 E3 E4 E5 E6 (ts & -> & Ft).
  destruct (mapM_Forall2 (fun k => pu_particle i (Some ts) (Z.to_nat k)) (fun w q => w = uw_of q) (seqZ 0 (length (us_parts s))) (us_parts s)) as (ws & -> & W).
  - apply length_seqZ.
  - intros k x q Hk Hq. apply nth_seqZ in Hk. subst x. cbn [Z.add]. rewrite Nat2Z.id.
    assert (exists o, nth_error os k = Some o /\ part_in o q) as (o & Ho & [Q1 Q2 Q3 Q4 Q5 Q6 Q7 Q8]).
    { clear - F Hq. revert k Hq. induction F as [|o q' os qs P F IH]; intros [|k] Hq; try discriminate; [injection Hq as ->; exists o; auto|]. exact (IH k Hq). }
    assert (exists t, nth_error ts k = Some t /\ content (ty_v t) (ty_generateXSS_frames (uq_frames q))) as (t & Ht & Ct).
    { clear - Ft Ho Q8. revert ts Ft k Ho. induction os as [|o' os IH]; intros ts Ft [|k] Ho; try discriminate; inversion Ft as [|? t ? ts' (fs & F1 & F2 & F3) Ft']; subst.
      - injection Ho as ->. exists t. split; [reflexivity|]. assert (fs = uq_frames q) as <-; [|exact F2]. rewrite F1 in Q8. clear - Q8. revert Q8. generalize (uq_frames q).
        induction fs as [|f r IH]; intros [|g r'] E; try discriminate; [reflexivity|]. injection E as -> E. rewrite (IH _ E). reflexivity.
      - exact (IH _ Ft' k Ho). }
    eexists. split; [|reflexivity]. unfold pu_particle. rewrite E1, E2, E3, E4, E5, E6. cbn [opt_value bind]. unfold nth_or_UB. rewrite !nth_error_map, Ho, Ht. cbn [option_map bind].
    rewrite (xss_all_content _ _ Q1), (xss_all_content _ _ Q2), (xss_all_content _ _ Q3), (xss_all_content _ _ Ct), (xss_all_content _ _ Q5), (xss_all_content _ _ Q6), (xss_all_content _ _ Q7).
    cbn [bind]. rewrite Q4. reflexivity.
  - f_equal. clear - W. induction W as [|w q ws qs -> W IH]; [reflexivity|]. cbn [map]. rewrite IH. reflexivity.
Qed.

Lemma us_blocks_map s : us_blocks s = concat (map uw_words (map uw_of (us_parts s))).
Proof. unfold us_blocks. rewrite map_map. reflexivity. Qed.
Lemma us_words_len s : len (us_words s) = len (us_front s) + 12 * us_ntype s + len (us_blocks s).
Proof. unfold us_words. rewrite !len_app, len_iu_words. unfold us_ntype. lia. Qed.

Lemma pu_TYRH bm i s : pu_input bm i s -> pu_sizes s -> exists th, ce_generateTYRH bm (ui_dlwh i) = Ok th /\ (us_parts s <> [] -> forall os, ui_dlwh i = Some (map uo_dlwh os) ->
   exists ts, th = Some ts /\ Forall2 (fun o t => exists fs, dh_frames o = map Some fs /\ content (ty_v t) (ty_generateXSS_frames fs) /\ ty_shows bm t fs (repeat 1 (length fs))) (map uo_dlwh os) ts).
Proof.
  intros I Z. pose proof (pi_second _ _ _ I) as P. unfold pu_second_in in P. destruct (us_parts s) as [|q0 qs] eqn:Eq.
  - destruct P as (_ & _ & _ & _ & _ & _ & D). unfold none in D. rewrite D. exists None. split; [reflexivity|congruence].
  - rewrite <- Eq in *. destruct P as (os & F & _ & _ & _ & _ & _ & _ & ->). unfold ce_generateTYRH.
    destruct (ce_TYRH_ok bm (map uo_dlwh os)) as (ts & -> & Ft).
    + pose proof (uz_parts _ Z) as U. pose proof (uz_room _ Z) as R. rewrite us_words_len in R. unfold us_blocks in R.
      assert (B : Forall (fun q => len (uw_words (uw_of q)) < max_words) (us_parts s)).
      { pose proof (len_nonneg (us_front s)). pose proof (len_nonneg (us_parts s)). fold (us_ntype s) in *. assert (R' : len (concat (map (fun q => uw_words (uw_of q)) (us_parts s))) < max_words) by lia. clear - R'.
        induction (us_parts s) as [|q l IH]; constructor; cbn [map concat] in R'; rewrite len_app in R'; nonneg; [lia|apply IH; lia]. }
      clear - F U B. induction F as [|o q os qs P F IH]; [constructor|]. apply Forall_cons_iff in U as [U1 U2]. apply Forall_cons_iff in B as [B1 B2]. cbn [map]. constructor; [|exact (IH U2 B2)].
      exists (uq_frames q). split; [exact (ti_frames _ _ P)|]. pose proof (uq_n_words q U1). destruct U1 as (_ & N & L & A & _). lia.
    + cbn [bind]. exists (Some ts). split; [reflexivity|]. intros _ os' E. injection E as E. exists ts. split; [reflexivity|]. rewrite <- E. exact Ft.
Qed.

Ltac mk := match goal with |- context [mark ?k ?n ?st] => unfold mark at 1; cbn [upd bind fst snd] end.
Lemma pu_data_ok bm z a st i s : pu_input bm i s -> pu_sizes s -> 0 <= z -> 0 <= a -> 1000 * z + a < 2 ^ 32 ->
  pu_generateData bm z a st i = Ok (TData (zeros 16) (dzeros 16) (us_nxs z a st s) (us_jxs s) (us_words s)).
Proof.
  intros I Z Hz Ha Hza. destruct (pu_TYRH bm i s I Z) as (th & Eth & Hth). pose proof (uz_room _ Z) as R. unfold max_words in R. rewrite us_words_len in R.
  destruct (pi_eszu _ _ _ I) as (C1 & N1 & el & E1 & L1). destruct (pi_mtr _ _ _ I) as (C2 & N2). destruct (pi_lqr _ _ _ I) as (C3 & N3). destruct (pi_sig _ _ _ I) as (C4 & N4).
  unfold pu_generateData. rewrite Eth. cbn [bind]. rewrite N1, N2, N3, N4, Z.eqb_refl. cbn [negb orb throw_if bind]. rewrite E1. cbn [bind]. rewrite L1.
  set (j := firstn 9 (us_jxs s) ++ zeros 23).
  assert (EC : pu_conventional i (us_nes s) (us_ntr s) (us_e s) = Ok (j, us_front s)).
  { unfold pu_conventional, zeros. cbn [repeat app Z.to_nat Pos.to_nat Pos.iter_op Nat.add upd bind]. rewrite (append_eq _ _ _ C1). cbn [bind fst snd app].
    repeat mk. rewrite (append_eq _ _ _ C2). cbn [bind fst snd]. repeat mk. rewrite (append_eq _ _ _ C3). cbn [bind fst snd]. repeat mk. rewrite (append_eq _ _ _ C4). cbn [bind fst snd].
    f_equal. apply f_equal2; [|unfold us_front; rewrite <- !app_assoc; reflexivity]. unfold j, us_jxs, zeros. cbn [firstn app repeat].
    repeat (apply cons_eq; [first [reflexivity|rewrite !len_app; lia|rewrite len_app; lia]|]). reflexivity. }
  rewrite EC. cbn [bind].
  pose proof (len_nonneg (us_front s)) as G1. pose proof (len_nonneg (us_blocks s)) as G2. assert (G3 : 0 <= us_ntype s) by apply len_nonneg.
  assert (ES : pu_secondary i th (j, us_front s) = Ok (us_jxs s, us_words s) /\ (match ui_ptype i with Some l => u32 (len l) | None => 0 end) = us_ntype s).
  { pose proof (pi_second _ _ _ I) as P. unfold pu_second_in in P. unfold pu_secondary. destruct (us_parts s) as [|q0 qs] eqn:Eq.
    - destruct P as (D & _). unfold none in D. rewrite D. unfold us_ntype. rewrite Eq. split; [|reflexivity]. f_equal. apply f_equal2.
      + unfold j, us_jxs. rewrite Eq. reflexivity.
      + unfold us_words, us_blocks. rewrite Eq. cbn. rewrite app_nil_r. reflexivity.
    - assert (EQ : forall (A : Type) (x y : A), match us_parts s with [] => x | _ :: _ => y end = y) by (rewrite Eq; reflexivity).
      assert (HN : us_parts s <> []) by (rewrite Eq; discriminate). rewrite <- Eq in *. clear Eq.
      destruct P as (os & F & D1 & D2 & D3 & D4 & D5 & D6 & D7). rewrite D1. rewrite len_map. fold (us_ntype s). cbv zeta. rewrite !(u32_small (us_ntype s)) by lia. split; [|reflexivity].
      rewrite D4. cbn [opt_value bind]. rewrite (u32_small (us_ntype s * 12)) by lia.
      unfold j. unfold us_jxs at 1. unfold zeros. cbn [firstn app repeat]. unfold mark at 1. cbn [upd bind fst snd]. unfold mark at 1. cbn [upd bind fst snd].
      replace (Z.to_nat (us_ntype s)) with (length (us_parts s)) by (unfold us_ntype, len; lia).
      rewrite (pu_particles_ok bm i th s os F D2 D3 D4 D5 D6 D7 (Hth HN os D7)). cbn [bind].
      assert (W : Forall w_ok (map uw_of (us_parts s))). { rewrite Forall_map. eapply Forall_impl; [|exact (uz_parts _ Z)]. exact uq_w_ok. }
      rewrite us_blocks_map in R, G2.
      rewrite pu_add_particles_ok by (try assumption; lia). cbn [app].
      replace (map mt_NTR (map uo_mtrh os)) with (map uq_n (us_parts s)).
      2:{ clear - F. induction F as [|o q os qs P F IH]; [reflexivity|]. cbn [map]. rewrite IH, (ti_n _ _ P). reflexivity. }
      destruct (iu_of_ok bm (map uq_type (us_parts s)) (map uq_n (us_parts s)) (u_locs (len (us_front s) + us_ntype s * 12) (map uw_of (us_parts s)))) as (o & -> & Co & _).
      + rewrite len_u_locs, !len_map. reflexivity.
      + rewrite len_u_locs, !len_map. reflexivity.
      + rewrite u_rows_zip. apply u_rows_valid; [exact (uz_parts _ Z)|lia|]. rewrite <- us_blocks_map in R. unfold us_blocks in R. lia.
      + rewrite len_u_locs, len_map. fold (us_ntype s). unfold max_words. lia.
      + cbn [bind]. rewrite (xss_all_content _ _ Co). cbn [bind]. f_equal. apply f_equal2.
        * unfold us_jxs. rewrite !EQ. unfold zeros. cbn [app repeat]. repeat (apply cons_eq; [first [reflexivity|unfold us_base; lia]|]). reflexivity.
        * rewrite u_rows_zip. replace (len (us_front s) + us_ntype s * 12) with (us_base s) by (unfold us_base; lia).
          rewrite firstn_app, Nat.sub_diag, firstn_all, skipn_app, Nat.sub_diag, skipn_all. cbn [firstn skipn app]. rewrite app_nil_r. unfold us_words. rewrite us_blocks_map. reflexivity. }
  destruct ES as [-> ->]. cbn [bind fst snd]. do 2 f_equal. unfold us_nxs. rewrite (u32_small (z * 1000)) by lia. rewrite u32_small by lia. repeat (apply cons_eq; [first [reflexivity|lia]|]). reflexivity.
Qed.

(** * Reading *)

Lemma pu_pblock_find bm d o pre start post p i : content (nt_v o) (map dbl (pre ++ start :: post)) -> 0 < start < 2 ^ 31 ->
  (p - 1) * 12 + i = len pre + 1 ->
  pu_pblock bm d o p i = (e <- (match find (fun x => SFleb (dbl start) x) (map dbl post) with Some x => trunc_to_size x | None => Ok 0 end) ;;
                          Ok (start - 1, if negb (e =? 0) then e - 1 else len (d_xss d))).
Proof.
  intros [Hv Ev] Bs E. rewrite map_app in Hv, Ev. cbn [map] in Hv, Ev. unfold pu_pblock, iu_LLOC.
  rewrite (ixss_size_at bm (nt_v o) _ _ _ _ Hv) by (rewrite ?len_map; lia). cbn [bind].
  destruct Hv as (a & b & Eb & Ea & Bv). assert (R : read_range (buf (nt_v o)) (vbeg (nt_v o) + (p - 1) * 12 + i) (vend (nt_v o)) = Ok (map dbl post)).
  { rewrite Eb. replace (a ++ (map dbl pre ++ dbl start :: map dbl post) ++ b) with ((a ++ map dbl pre ++ [dbl start]) ++ (map dbl post) ++ b)
      by (rewrite <- !app_assoc; reflexivity).
    apply read_range_app; rewrite ?len_app, ?len_cons, ?len_map in *; change (len (@nil double)) with 0; lia. }
  rewrite R. reflexivity.
Qed.

Lemma find_dbl_hit start x : 0 <= start < 2 ^ 31 -> 0 <= x < 2 ^ 31 -> forall l post, Forall (fun y => 0 <= y < start) l -> start <= x ->
  find (fun x => SFleb (dbl start) x) (map dbl (l ++ x :: post)) = Some (dbl x).
Proof.
  intros Bs Bx l post F L. induction F as [|y l B F IH]; cbn [app map find].
  - rewrite dbl_leb by lia. replace (start <=? x) with true by lia. reflexivity.
  - rewrite dbl_leb by lia. replace (start <=? y) with false by lia. exact IH.
Qed.

Lemma pu_pblock_at bm d o pre start l x post p i : content (nt_v o) (map dbl (pre ++ start :: l ++ x :: post)) -> 0 < start < 2 ^ 31 -> start <= x < 2 ^ 31 ->
  Forall (fun y => 0 <= y < start) l -> (p - 1) * 12 + i = len pre + 1 -> pu_pblock bm d o p i = Ok (start - 1, x - 1).
Proof.
  intros C Bs Bx F E. rewrite (pu_pblock_find bm d o _ _ _ _ _ C Bs E). rewrite find_dbl_hit by (assumption || lia). rewrite trunc_to_size_dbl by lia. cbn [bind].
  replace (x =? 0) with false by lia. reflexivity.
Qed.
Lemma pu_pblock_last bm d o pre start p i : content (nt_v o) (map dbl (pre ++ [start])) -> 0 < start < 2 ^ 31 -> (p - 1) * 12 + i = len pre + 1 ->
  pu_pblock bm d o p i = Ok (start - 1, len (d_xss d)).
Proof. intros C Bs E. rewrite (pu_pblock_find bm d o _ _ _ _ _ C Bs E). reflexivity. Qed.

Definition u_start (b : Z) (qs : list puQ) (k : nat) : Z := b + len (concat (map (fun q => uw_words (uw_of q)) (firstn k qs))).
Lemma u_rows_at : forall qs b k q, nth_error qs k = Some q -> u_apart b qs ->
  let s := u_start b qs k in
  exists pre post, u_rows b qs = pre ++ (uq_type q :: uq_n q :: uw_locs s (uw_of q)) :: post /\ length pre = k
    /\ match post with
       | [] => True
       | r :: _ => exists q', In q' qs /\ r = uq_type q' :: uq_n q' :: uw_locs (s + len (uw_words (uw_of q))) (uw_of q')
                     /\ uq_type q' < s + uw_off (uw_of q) 6 + uq_n q + 1 /\ uq_n q' < s + uw_off (uw_of q) 6 + uq_n q + 1
       end
    /\ exists w w', concat (map (fun q => uw_words (uw_of q)) qs) = w ++ uw_words (uw_of q) ++ w' /\ s = b + len w /\ (post = [] -> w' = []).
Proof.
  induction qs as [|q0 qs IH]; intros b [|k] q H A s; try discriminate.
  - injection H as ->. exists [], (u_rows (b + len (uw_words (uw_of q))) qs). unfold s, u_start. cbn [firstn map concat u_rows app length]. change (len (@nil double)) with 0.
    rewrite !Z.add_0_r. split; [reflexivity|]. split; [reflexivity|]. split.
    + destruct qs as [|q' qs]; cbn [u_rows]; [exact I|]. cbn [u_apart] in A. destruct A as (A1 & A2 & _). exists q'. split; [right; left; reflexivity|]. split; [reflexivity|]. split; assumption.
    + exists [], (concat (map (fun q => uw_words (uw_of q)) qs)). cbn [app]. split; [reflexivity|]. split; [change (len (@nil double)) with 0; lia|]. destruct qs; [reflexivity|discriminate].
  - cbn [nth_error] in H. assert (A' : u_apart (b + len (uw_words (uw_of q0))) qs) by (cbn [u_apart] in A; destruct qs as [|q' qs]; [exact I|tauto]).
    destruct (IH (b + len (uw_words (uw_of q0))) k q H A') as (pre & post & E & L & P & w & w' & W & Lw & N). cbv zeta in *.
    assert (X : u_start (b + len (uw_words (uw_of q0))) qs k = s).
    { unfold s, u_start. rewrite firstn_cons. cbn [map concat]. rewrite len_app. lia. }
    rewrite X in *. exists ((uq_type q0 :: uq_n q0 :: uw_locs b (uw_of q0)) :: pre), post. cbn [u_rows]. rewrite E. split; [reflexivity|]. split; [cbn [length]; lia|]. split.
    + destruct post as [|r post]; [exact I|]. destruct P as (q' & P1 & P2). exists q'. split; [right; exact P1|exact P2].
    + exists (uw_words (uw_of q0) ++ w), w'. cbn [map concat]. rewrite W, <- app_assoc. split; [reflexivity|]. split; [rewrite len_app; lia|exact N].
Qed.

Section Particle.
  Variables (bm : build) (s : puS) (d : tdata) (k : nat) (q : puQ) (ixs : ntro).
  Hypothesis HX : d_xss d = us_words s.
  Hypothesis HZ : pu_sizes s.
  Hypothesis HA : u_apart (us_base s) (us_parts s).
  Hypothesis HQ : nth_error (us_parts s) k = Some q.
  Hypothesis HI : content (nt_v ixs) (iu_words (u_rows (us_base s) (us_parts s))).
  Let p := uw_of q.
  Let b := u_start (us_base s) (us_parts s) k.
  Let room : len (d_xss d) + 1 < 2 ^ 31.
  Proof. rewrite HX. exact (uz_room _ HZ). Qed.
  Let fits : uq_fits q.
  Proof. pose proof (uz_parts _ HZ) as U. rewrite Forall_forall in U. apply U. eapply nth_error_In. exact HQ. Qed.

  Lemma u_views : 0 <= b /\ b + len (uw_words p) <= len (d_xss d)
    /\ (forall j w, nth_error (uw_list p) j = Some w -> content (tview d (b + uw_off p j) (b + uw_off p (S j))) w)
    /\ exists pre post, concat (u_rows (us_base s) (us_parts s)) = pre ++ (uq_type q :: uq_n q :: uw_locs b p) ++ post /\ len pre = 12 * Z.of_nat k
         /\ (post = [] /\ b + len (uw_words p) = len (d_xss d) \/ exists t n post', post = t :: n :: (b + len (uw_words p) + 1) :: post'
               /\ 0 <= t < b + uw_off p 6 + uq_n q + 1 /\ 0 <= n < b + uw_off p 6 + uq_n q + 1).
  Proof.
    destruct (u_rows_at (us_parts s) (us_base s) k q HQ HA) as (pre & post & E & Lk & P & w & w' & W & Lw & Nw). fold b in E, P, Lw. fold p in E, P, W.
    pose proof room as R. pose proof (us_words_len s) as LX. rewrite <- HX in LX. unfold us_blocks in LX. pose proof W as LW. apply (f_equal len) in LW. rewrite !len_app in LW.
    pose proof (len_nonneg w). pose proof (len_nonneg w'). pose proof (len_nonneg (us_front s)). assert (0 <= us_ntype s) by apply len_nonneg. pose proof (len_nonneg (uw_words p)).
    unfold us_base in Lw at 1. rewrite LW in LX.
    split; [lia|]. split; [lia|]. split.
    - intros j x Hj. unfold uw_off. rewrite (firstn_succ_concat _ _ _ Hj). destruct (nth_split_len _ _ _ Hj) as (l1 & l2 & El & Ll).
      apply (piece d (us_front s ++ iu_words (u_rows (us_base s) (us_parts s)) ++ w ++ concat l1) x (concat l2 ++ w')).
      + rewrite HX. unfold us_words, us_blocks. rewrite W. unfold uw_words. rewrite El, concat_app. cbn [concat]. rewrite <- !app_assoc. reflexivity.
      + unfold max_words. lia.
      + rewrite El, <- Ll, firstn_app, firstn_all, Nat.sub_diag. cbn [firstn]. rewrite app_nil_r. rewrite !len_app, len_iu_words. fold (us_ntype s). lia.
      + rewrite El, <- Ll, firstn_app, firstn_all, Nat.sub_diag. cbn [firstn]. rewrite app_nil_r. rewrite !len_app, len_iu_words. fold (us_ntype s). lia.
    - pose proof (u_rows_12 (us_parts s) (us_base s)) as T. rewrite E in T. apply Forall_app in T. destruct T as [T _].
      exists (concat pre), (concat post). rewrite E, concat_app. cbn [concat]. split; [reflexivity|]. split.
      + rewrite <- Lk. clear - T. induction T as [|r l L T IH]; [reflexivity|]. cbn [concat length]. rewrite len_app, L, IH. lia.
      + destruct post as [|r post].
        * left. split; [reflexivity|]. rewrite (Nw eq_refl) in LX. change (len (@nil double)) with 0 in LX. lia.
        * right. destruct P as (q' & Hq' & -> & P1 & P2). exists (uq_type q'), (uq_n q'). unfold uw_locs. cbn [concat app]. eexists. split; [reflexivity|].
          pose proof (uz_parts _ HZ) as U. rewrite Forall_forall in U. destruct (U q' Hq') as (U1 & U2 & _). lia.
  Qed.

  Lemma u_pblocks : let e := fun j => b + uw_off p j in let K := Z.of_nat k + 1 in let n := uq_n q in
    pu_pblock bm d ixs K 3 = Ok (e 0%nat, e 1%nat) /\ pu_pblock bm d ixs K 4 = Ok (e 1%nat, e 2%nat) /\ pu_pblock bm d ixs K 5 = Ok (e 2%nat, e 3%nat)
    /\ pu_pblock bm d ixs K 6 = Ok (e 3%nat, e 4%nat)
    /\ pu_pblock bm d ixs K 7 = Ok (e 4%nat, e 4%nat + n) /\ pu_pblock bm d ixs K 8 = Ok (e 4%nat + n, e 5%nat)
    /\ pu_pblock bm d ixs K 9 = Ok (e 5%nat, e 5%nat + n) /\ pu_pblock bm d ixs K 10 = Ok (e 5%nat + n, e 6%nat)
    /\ pu_pblock bm d ixs K 11 = Ok (e 6%nat, e 6%nat + n) /\ pu_pblock bm d ixs K 12 = Ok (e 6%nat + n, e 7%nat).
  Proof.
    cbv zeta. destruct u_views as (B1 & B2 & _ & pre & post & E & Lp & Post). pose proof room as R. destruct fits as (F1 & F2 & F3 & F4 & F5 & F6).
    assert (O0 : uw_off p 0 = 0) by reflexivity. pose proof (uw_off_at p 0 _ eq_refl) as O1. pose proof (uw_off_at p 1 _ eq_refl) as O2. pose proof (uw_off_at p 2 _ eq_refl) as O3.
    pose proof (uw_off_at p 3 _ eq_refl) as O4. pose proof (uw_off_at p 4 _ eq_refl) as O5. pose proof (uw_off_at p 5 _ eq_refl) as O6. pose proof (uw_off_at p 6 _ eq_refl) as O7.
    assert (OW : uw_off p 7 = len (uw_words p)) by reflexivity.
    change (uw_sigh p) with (fst (uq_sigh q)) in O5. change (uw_andh p) with (fst (uq_andh q)) in O6. change (uw_dlwh p) with (fst (uq_dlwh q)) in O7.
    pose proof (len_nonneg (uw_pxs p)). pose proof (len_nonneg (uw_phn p)). pose proof (len_nonneg (uw_mtrh p)). pose proof (len_nonneg (uw_tyrh p)).
    assert (HI' : content (nt_v ixs) (map dbl (pre ++ (uq_type q :: uq_n q :: uw_locs b p) ++ post))). { rewrite <- E, concat_map. exact HI. }
    assert (STEP : forall l1 a x r i, (uq_type q :: uq_n q :: uw_locs b p) ++ post = l1 ++ a :: x :: r -> i = len l1 + 1 -> 0 < a <= x -> x < 2 ^ 31 ->
       pu_pblock bm d ixs (Z.of_nat k + 1) i = Ok (a - 1, x - 1)).
    { intros l1 a x r i El Ei Ba Bx. rewrite El, app_assoc in HI'. apply (pu_pblock_at bm d ixs (pre ++ l1) a [] x r _ _ HI'); [lia|lia|constructor|rewrite len_app; lia]. }
    unfold uw_locs in STEP. cbn [app] in STEP. change (uw_n p) with (uq_n q) in STEP.
    split. { rewrite (STEP [_; _] _ _ _ 3 eq_refl eq_refl) by lia. do 2 f_equal; lia. }
    split. { rewrite (STEP [_; _; _] _ _ _ 4 eq_refl eq_refl) by lia. do 2 f_equal; lia. }
    split. { rewrite (STEP [_; _; _; _] _ _ _ 5 eq_refl eq_refl) by lia. do 2 f_equal; lia. }
    split. { rewrite (STEP [_; _; _; _; _] _ _ _ 6 eq_refl eq_refl) by lia. do 2 f_equal; lia. }
    split. { rewrite (STEP [_; _; _; _; _; _] _ _ _ 7 eq_refl eq_refl) by lia. do 2 f_equal; lia. }
    split. { rewrite (STEP [_; _; _; _; _; _; _] _ _ _ 8 eq_refl eq_refl) by lia. do 2 f_equal; lia. }
    split. { rewrite (STEP [_; _; _; _; _; _; _; _] _ _ _ 9 eq_refl eq_refl) by lia. do 2 f_equal; lia. }
    split. { rewrite (STEP [_; _; _; _; _; _; _; _; _] _ _ _ 10 eq_refl eq_refl) by lia. do 2 f_equal; lia. }
    split. { rewrite (STEP [_; _; _; _; _; _; _; _; _; _] _ _ _ 11 eq_refl eq_refl) by lia. do 2 f_equal; lia. }
    assert (X : uq_type q :: uq_n q :: uw_locs b p = (uq_type q :: uq_n q :: firstn 9 (uw_locs b p)) ++ [b + uw_off p 6 + uq_n q + 1]) by reflexivity.
    rewrite X, <- app_assoc, app_assoc in HI'. cbn [app] in HI'.
    destruct Post as [[-> Last]|(t & n & post' & -> & T1 & T2)].
    - rewrite (pu_pblock_last bm d ixs _ _ (Z.of_nat k + 1) 12 HI') by (rewrite ?len_app; change (len (uq_type q :: uq_n q :: firstn 9 (uw_locs b p))) with 11; lia). do 2 f_equal; lia.
    - change (t :: n :: (b + len (uw_words p) + 1) :: post') with ([t; n] ++ (b + len (uw_words p) + 1) :: post') in HI'.
      rewrite (pu_pblock_at bm d ixs _ _ _ _ _ (Z.of_nat k + 1) 12 HI');
        [do 2 f_equal; lia|lia|lia|repeat constructor; lia|rewrite ?len_app; change (len (uq_type q :: uq_n q :: firstn 9 (uw_locs b p))) with 11; lia].
  Qed.

  Lemma u_part_ok : uq_reads bm q -> iu_shows bm ixs (u_rows (us_base s) (us_parts s)) -> exists x, pu_particle_blocks bm d ixs (Z.of_nat k + 1) = Ok x /\ part_shows bm x q.
  Proof.
    intros (R1 & R2 & R3 & R4 & R5 & R6) (_ & _ & _ & NP & _). destruct u_views as (_ & _ & V & _). destruct u_pblocks as (P3 & P4 & P5 & P6 & P7 & P8 & P9 & P10 & P11 & P12). cbv zeta in *.
    destruct (u_rows_at (us_parts s) (us_base s) k q HQ HA) as (pre & post & E & Lk & _). destruct fits as (F1 & F2 & F3 & F4 & F5 & F6).
    assert (N : iu_NP bm ixs (Z.of_nat k + 1) = Ok (uq_n q)).
    { eapply NP; [rewrite E, nth_error_app2 by lia; rewrite Lk, Nat.sub_diag; reflexivity|reflexivity]. }
    unfold pu_particle_blocks. rewrite P3. cbn [bind fst snd]. destruct (R1 _ (V 0%nat _ eq_refl)) as (o1 & -> & S1). cbn [bind].
    rewrite P4. cbn [bind fst snd]. destruct (R2 _ (V 1%nat _ eq_refl)) as (o2 & -> & S2). cbn [bind]. rewrite N. cbn [bind].
    rewrite P5. cbn [bind fst snd]. destruct (R3 _ (V 2%nat _ eq_refl)) as (o3 & -> & S3). cbn [bind].
    rewrite P6. cbn [bind fst snd]. destruct (ty_make_frames bm _ (uq_frames q) (content_has _ _ (V 3%nat _ eq_refl))) as (o4 & M4 & S4). rewrite F3 in M4. rewrite M4. cbn [bind].
    rewrite P7. cbn [bind fst snd]. rewrite P8. cbn [bind fst snd]. destruct (R4 _ (V 4%nat _ eq_refl)) as (o5 & M5 & S5). cbn [tview vbeg] in M5. rewrite M5. cbn [bind].
    rewrite P9. cbn [bind fst snd]. rewrite P10. cbn [bind fst snd]. destruct (R5 _ (V 5%nat _ eq_refl)) as (o6 & M6 & S6). cbn [tview vbeg] in M6. rewrite M6. cbn [bind].
    rewrite P11. cbn [bind fst snd]. rewrite P12. cbn [bind fst snd]. destruct (R6 o4 S4 _ (V 6%nat _ eq_refl)) as (o7 & M7 & S7). cbn [tview vbeg] in M7. rewrite M7. cbn [bind].
    eexists. split; [reflexivity|]. constructor; assumption.
  Qed.
End Particle.

Lemma pu_blocks_ok bm zaid z a st s : pu_sizes s -> u_apart (us_base s) (us_parts s) -> pu_reads bm s ->
  let d := TData (zeros 16) (dzeros 16) (us_nxs z a st s) (us_jxs s) (us_words s) in
  exists t, pu_generateBlocks bm zaid d = Ok t /\ ut_zaid t = zaid /\ ut_data t = d /\ pu_shows bm s t.
Proof.
  intros HZ HA HR d. pose proof (uz_room _ HZ) as R. unfold max_words in R. pose proof (us_words_len s) as LX. destruct (uz_nes _ HZ) as (Z1 & Z2). destruct (uz_ntr _ HZ) as (Z3 & Z4).
  assert (Lf : len (us_front s) = len (fst (us_eszu s)) + len (fst (us_mtr s)) + len (fst (us_lqr s)) + len (fst (us_sig s))) by (unfold us_front; rewrite !len_app; lia).
  pose proof (len_nonneg (us_blocks s)). assert (0 <= us_ntype s) by apply len_nonneg. pose proof (len_nonneg (fst (us_eszu s))). pose proof (len_nonneg (fst (us_mtr s))).
  pose proof (len_nonneg (fst (us_lqr s))). pose proof (len_nonneg (fst (us_sig s))).
  assert (N_at : forall k n, nth_error (us_nxs z a st s) k = Some n -> 0 <= n < 2 ^ 32 -> pu_N bm d (Z.of_nat k + 1) = Ok n).
  { intros k n H' B. unfold pu_N. assert (Q : d_NXS bm d (Z.of_nat k + 1) = Ok n) by (apply fetch_in; [exact H'|reflexivity]). rewrite Q. cbn [bind]. rewrite u32_small by lia. reflexivity. }
  assert (L32 : len (d_jxs d) = 32) by reflexivity. assert (HX : d_xss d = us_words s) by reflexivity.
  assert (BX : len (d_xss d) < max_words) by (rewrite HX; unfold max_words; lia).
  assert (W : forall pre w post, us_front s = pre ++ w ++ post -> content (tview d (len pre) (len pre + len w)) w).
  { intros pre w post E. apply (piece d pre w (post ++ iu_words (u_rows (us_base s) (us_parts s)) ++ us_blocks s)); [rewrite HX; unfold us_words; rewrite E, <- !app_assoc; reflexivity|exact BX|reflexivity|reflexivity]. }
  set (w1 := len (fst (us_eszu s))) in *. set (w2 := w1 + len (fst (us_mtr s))). set (w3 := w2 + len (fst (us_lqr s))).
  assert (B1 : pa_block bm d 1 = Ok (0, us_nes s)).
  { change 1 with (Z.of_nat 0 + 1). rewrite (pa_block_next bm d 0 1 (us_nes s + 1)); [do 2 f_equal; lia|reflexivity|reflexivity|exact L32|lia|lia]. }
  assert (B6 : pa_block bm d 6 = Ok (w1, w2)).
  { change 6 with (Z.of_nat 5 + 1). rewrite (pa_block_next bm d 5 (w1 + 1) (w2 + 1)); [do 2 f_equal; lia|reflexivity|reflexivity|exact L32|lia|lia]. }
  assert (B7 : pa_block bm d 7 = Ok (w2, w3)).
  { change 7 with (Z.of_nat 6 + 1). rewrite (pa_block_next bm d 6 (w2 + 1) (w3 + 1)); [do 2 f_equal; lia|reflexivity|reflexivity|exact L32|lia|lia]. }
  assert (B8 : pa_block bm d 8 = Ok (w3, w3 + us_ntr s)).
  { change 8 with (Z.of_nat 7 + 1). rewrite (pa_block_next bm d 7 (w3 + 1) (w3 + us_ntr s + 1)); [do 2 f_equal; lia|reflexivity|reflexivity|exact L32|lia|lia]. }
  assert (B9 : pa_block bm d 9 = Ok (w3 + us_ntr s, w3 + len (fst (us_sig s)))).
  { change 9 with (Z.of_nat 8 + 1). destruct (us_parts s) as [|q0 qs] eqn:Eq.
    - rewrite (pa_block_last bm d 8 (w3 + us_ntr s + 1)); [|reflexivity|exact L32| |lia].
      + do 2 f_equal; [lia|]. rewrite HX, LX. unfold us_ntype, us_blocks. rewrite Eq. cbn [map concat]. change (len (@nil puQ)) with 0. change (len (@nil double)) with 0. lia.
      + unfold d, us_jxs. cbn [d_jxs]. rewrite Eq. cbn [skipn app]. apply jxs_tail; [repeat constructor|lia].
    - rewrite (pa_block_next bm d 8 (w3 + us_ntr s + 1) (len (us_front s) + 1)); [do 2 f_equal; lia|reflexivity| |exact L32|lia|lia].
      unfold d, us_jxs. cbn [d_jxs app nth_error]. rewrite Eq. reflexivity. }
  unfold pu_generateBlocks.
  assert (J4 : d_JXS bm d 4 = Ok (if us_e s then 0 else 2 * us_nes s + 1)) by (apply (fetch_in bm (us_jxs s) 3); [reflexivity|reflexivity]).
  rewrite J4. cbn [bind]. rewrite B1. cbn [bind]. rewrite B6. cbn [bind fst snd]. unfold pu_NES. rewrite (N_at 2%nat (us_nes s) eq_refl ltac:(lia) : pu_N bm d 3 = _). cbn [bind].
  destruct (ur_eszu _ _ HR (tview d 0 w1)) as (o1 & E1 & S1). { apply (W [] (fst (us_eszu s)) (fst (us_mtr s) ++ fst (us_lqr s) ++ fst (us_sig s))). reflexivity. }
  replace (if negb ((if us_e s then 0 else 2 * us_nes s + 1) =? 0) then 4 else 3) with (if us_e s then 3 else 4).
  2:{ destruct (us_e s); [reflexivity|]. replace (2 * us_nes s + 1 =? 0) with false by lia. reflexivity. }
  rewrite E1. cbn [bind]. unfold pu_NTR. rewrite (N_at 3%nat (us_ntr s) eq_refl ltac:(lia) : pu_N bm d 4 = _). cbn [bind fst snd].
  destruct (ur_mtr _ _ HR (tview d w1 w2)) as (o2 & E2 & S2). { apply (W (fst (us_eszu s)) (fst (us_mtr s)) (fst (us_lqr s) ++ fst (us_sig s))). reflexivity. }
  rewrite E2. cbn [bind]. rewrite B7. cbn [bind fst snd].
  destruct (ur_lqr _ _ HR (tview d w2 w3)) as (o3 & E3 & S3).
  { pose proof (W (fst (us_eszu s) ++ fst (us_mtr s)) (fst (us_lqr s)) (fst (us_sig s)) ltac:(unfold us_front; rewrite <- !app_assoc; reflexivity)) as C. rewrite len_app in C. exact C. }
  rewrite E3. cbn [bind]. rewrite B8. cbn [bind]. rewrite B9. cbn [bind fst snd].
  destruct (ur_sig _ _ HR (tview d w3 (w3 + len (fst (us_sig s))))) as (o4 & E4 & S4).
  { pose proof (W (fst (us_eszu s) ++ fst (us_mtr s) ++ fst (us_lqr s)) (fst (us_sig s)) [] ltac:(unfold us_front; rewrite app_nil_r, <- !app_assoc; reflexivity)) as C.
    rewrite !len_app, Z.add_assoc in C. exact C. }
  cbn [tview vbeg] in E4. rewrite E4. cbn [bind]. unfold pu_NTYPE. rewrite (N_at 4%nat (us_ntype s) eq_refl ltac:(lia) : pu_N bm d 5 = _). cbn [bind].
  assert (us_parts s = [] \/ us_parts s <> []) as [E|HN] by (destruct (us_parts s); [left; reflexivity|right; discriminate]).
  - assert (N0 : us_ntype s = 0) by (unfold us_ntype; rewrite E; reflexivity). rewrite N0. cbn [Z.ltb Z.compare].
    eexists. split; [reflexivity|]. split; [reflexivity|]. split; [reflexivity|]. constructor; cbn [ut_eszu ut_mtr ut_lqr ut_sig ut_ixs ut_particles]; try assumption; rewrite E; [reflexivity|constructor].
  - assert (EQ : forall (A : Type) (x y : A), match us_parts s with [] => x | _ :: _ => y end = y) by (intros; destruct (us_parts s); [congruence|reflexivity]).
    assert (N0 : 0 < us_ntype s) by (unfold us_ntype; destruct (us_parts s); [congruence|rewrite len_cons; nonneg; lia]).
    destruct (Z.ltb_spec 0 (us_ntype s)); [|lia].
    assert (B10 : pa_block bm d 10 = Ok (len (us_front s), us_base s)).
    { change 10 with (Z.of_nat 9 + 1). rewrite (pa_block_next bm d 9 (len (us_front s) + 1) (us_base s + 1)); [do 2 f_equal; lia| | |exact L32|unfold us_base; lia|unfold us_base; lia];
        unfold d, us_jxs; cbn [d_jxs app nth_error]; rewrite EQ; reflexivity. }
    rewrite B10. cbn [bind fst snd].
    assert (C10 : content (tview d (len (us_front s)) (us_base s)) (iu_words (u_rows (us_base s) (us_parts s)))).
    { apply (piece d (us_front s) _ (us_blocks s)); [reflexivity|exact BX|reflexivity|rewrite len_iu_words; reflexivity]. }
    assert (RV : iu_rows_valid (u_rows (us_base s) (us_parts s))).
    { apply u_rows_valid; [exact (uz_parts _ HZ)|unfold us_base; lia|]. unfold us_base, us_blocks in *. lia. }
    destruct (iu_has bm _ _ RV (content_has _ _ C10)) as (o5 & E5 & V5 & S5). rewrite len_u_rows in E5. fold (us_ntype s) in E5. rewrite E5. cbn [bind].
    destruct (mapM_Forall2 (pu_particle_blocks bm d o5) (part_shows bm) (seqZ 1 (Z.to_nat (us_ntype s))) (us_parts s)) as (ps & -> & SP).
    { unfold us_ntype, len. rewrite Nat2Z.id. apply length_seqZ. }
    { intros k x q Hk Hq. apply nth_seqZ in Hk. subst x. rewrite Z.add_comm. rewrite <- V5 in C10.
      apply (u_part_ok bm s d k q o5 HX HZ HA Hq C10); [|exact S5]. pose proof (ur_parts _ _ HR) as RP. rewrite Forall_forall in RP. apply RP. eapply nth_error_In. exact Hq. }
    cbn [bind]. eexists. split; [reflexivity|]. split; [reflexivity|]. split; [reflexivity|].
    constructor; cbn [ut_eszu ut_mtr ut_lqr ut_sig ut_ixs ut_particles]; try assumption. rewrite EQ. exists o5. split; [reflexivity|exact S5].
Qed.
