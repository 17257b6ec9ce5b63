(** Photonuclear tables from values: the user's data, the blocks, the table. *)
From Coq Require Import ZArith Bool List Lia Ascii.
From Coq Require Import ZifyBool ZifyNat.
From Verif Require Import PropLemmasBasic.
From Verif Require Export PhotonuclearRead.
Import ListNotations.
Open Scope Z_scope.

(** * Specification: the data of a table *)

(** The data of one kind of secondary particle: its type, the total production cross section and the heating numbers
    (each an energy index and values), the reaction numbers, the production data of the reactions and their words
    ([sigh_generateXSS]), the angular and energy distributions, the reference frames and the number of words of the
    energy distributions ([en_sizes]) *)
Record upartV := UpartV { uv_type : Z; uv_pxs : sig_entry; uv_phn : sig_entry; uv_mts : list Z; uv_sigh : list sigh_entry; uv_sigw : list (list double);
  uv_ang : list (adist (list (angular (list double)))); uv_en : list en_in; uv_frames : list frame; uv_n : Z }.
Record puV := PuV { u_en : list double; u_tot : list double; u_el : option (list double); u_heat : list double;
  u_mts : list Z; u_qs : list double; u_sig : list sig_entry; u_parts : list upartV }.

Definition sig_index_ok (e : sig_entry) : Prop := 0 <= sig_index e < 2 ^ 31.
Record upart_valid srt (p : upartV) : Prop := {
  uv_type_ok : 0 <= uv_type p < 2 ^ 31; uv_pxs_ok : sig_index_ok (uv_pxs p); uv_phn_ok : sig_index_ok (uv_phn p); uv_mts_ok : mt_valid (uv_mts p);
  uv_sigh_ok : Forall sigh_fits (uv_sigh p) /\ mapM sigh_generateXSS (uv_sigh p) = Ok (uv_sigw p) /\ len (uv_sigh p) = len (uv_mts p);
  uv_ang_ok : Forall ab_ok (uv_ang p) /\ len (uv_ang p) = len (uv_mts p);
  uv_en_ok : Forall (en_valid srt) (uv_en p) /\ en_sizes srt (uv_en p) (uv_n p) /\ len (uv_en p) = len (uv_mts p) /\ len (uv_frames p) = len (uv_mts p) }.

(** numbers of words: the two cross section blocks and the blocks before the energy distributions, all blocks of a particle,
    the blocks before the secondary particles, the table *)
Definition xs_size (e : sig_entry) : Z := 2 + len (sig_values e).
Definition upart_before (p : upartV) : Z :=
  xs_size (uv_pxs p) + xs_size (uv_phn p) + len (uv_mts p) + len (uv_frames p) + len (bl_layout true (uv_sigw p)) + (len (uv_ang p) + ab_total (uv_ang p)).
Definition upart_size (p : upartV) : Z := upart_before p + (len (uv_en p) + uv_n p).
Definition pu_front (v : puV) : Z :=
  len (concat (eu_arrays (u_en v) (u_tot v) (u_el v) (u_heat v))) + len (u_mts v) + len (u_qs v) + len (bl_layout true (map sig_words (u_sig v))).
Definition pu_start (v : puV) : Z := pu_front v + 12 * len (u_parts v).
Definition pu_size (v : puV) : Z := pu_start v + sumZ (map upart_size (u_parts v)).

Record pu_valid srt (v : puV) : Prop := {
  u_esz_ok : all_len (len (u_en v)) (eu_arrays (u_en v) (u_tot v) (u_el v) (u_heat v));
  u_mts_ok : mt_valid (u_mts v); u_qs_ok : len (u_qs v) = len (u_mts v);
  u_sig_ok : Forall sig_index_ok (u_sig v) /\ len (u_sig v) = len (u_mts v);
  u_parts_ok : Forall (upart_valid srt) (u_parts v) }.
(** The place in the table (counted from 1) of the first energy distribution of the particle after [ps] *)
Definition pu_place (v : puV) (ps : list upartV) (p : upartV) : Z := pu_start v + sumZ (map upart_size ps) + upart_before p + len (uv_mts p) + 1.
(** Every secondary particle but the first has a type and a number of reactions smaller than the place of the energy
    distributions of the particle before it.  A type is at most 37, so that this holds for every table with a real energy grid. *)
Definition pu_apart (v : puV) : Prop :=
  forall ps p p' r, u_parts v = ps ++ p :: p' :: r -> uv_type p' < pu_place v ps p /\ len (uv_mts p') < pu_place v ps p.

(** * The blocks, built by their constructors *)

(** continuous::CrossSectionData, src/ACEtk/continuous/CrossSectionData/src/ctor.hpp:15-16 *)
Definition xs_of (e : sig_entry) : outcome view := Ok (own (sig_words e)).
Definition pu_build bm asrt esrt (v : puV) : outcome puIn :=
  eszu <- eu_of (u_en v) (u_tot v) (u_el v) (u_heat v) ;;
  mtr <- mt_of (u_mts v) ;;
  lqr <- lq_of (u_qs v) ;;
  sig <- bl_of bm (sig_generateData bm) true (map sig_words (u_sig v)) ;;
  pxs <- list_built (fun p => xs_of (uv_pxs p)) (u_parts v) ;;
  phn <- list_built (fun p => xs_of (uv_phn p)) (u_parts v) ;;
  mtrh <- list_built (fun p => mt_of (uv_mts p)) (u_parts v) ;;
  sigh <- list_built (fun p => bl_of bm (sigh_generateData bm) true (uv_sigw p)) (u_parts v) ;;
  andh <- list_built (fun p => ab_of_data bm asrt (uv_ang p)) (u_parts v) ;;
  dlwh <- list_built (fun p => dh_built bm esrt (uv_en p) (Some (uv_frames p))) (u_parts v) ;;
  Ok (PuIn eszu mtr lqr sig (match u_parts v with [] => None | ps => Some (map uv_type ps) end) pxs phn mtrh sigh andh dlwh).

(** * Specification: what the table shows *)

Definition xs_claim bm (e : sig_entry) (o : view) : Prop := xs_shows bm o (sig_index e) (sig_values e).
Record upart_returns bm (p : puPart) (q : upartV) : Prop := {
  un_pxs : xs_claim bm (uv_pxs q) (up_pxs p); un_phn : xs_claim bm (uv_phn q) (up_phn p); un_mtrh : mt_claim bm (uv_mts q) (up_mtrh p);
  un_tyrh : ty_shows bm (up_tyrh p) (uv_frames q) (repeat 1 (length (uv_frames q))); un_sigh : sigh_claim bm (uv_sigh q) (up_sigh p);
  un_andh : ab_claim bm 1 (len (uv_ang q)) (uv_ang q) (up_andh p); un_dlwh : dh_shows bm (up_dlwh p) (uv_en q) (map Some (uv_frames q)) }.
(** the twelve numbers of IXS for a particle whose blocks come after b words: type, number of reactions and the locators of
    PXS, PHN, MTRH, TYRH, LSIGH, SIGH, LANDH, ANDH, LDLWH, DLWH *)
Definition upart_row (b : Z) (p : upartV) : list Z :=
  let n := len (uv_mts p) in
  let l1 := b + 1 in let l2 := l1 + xs_size (uv_pxs p) in let l3 := l2 + xs_size (uv_phn p) in let l4 := l3 + n in let l5 := l4 + n in
  let l6 := l5 + len (bl_layout true (uv_sigw p)) in let l7 := l6 + len (uv_ang p) + ab_total (uv_ang p) in
  [uv_type p; n; l1; l2; l3; l4; l5; l5 + n; l6; l6 + n; l7; l7 + n].
Fixpoint upart_rows (b : Z) (ps : list upartV) : list (list Z) := match ps with [] => [] | p :: r => upart_row b p :: upart_rows (b + upart_size p) r end.
Record pu_returns bm (v : puV) (t : puTable) : Prop := {
  ut_eszu_ok : eu_shows bm (ut_eszu t) (u_en v) (u_tot v) (u_el v) (u_heat v); ut_mtr_ok : mt_claim bm (u_mts v) (ut_mtr t);
  ut_lqr_ok : lq_shows bm (ut_lqr t) (u_qs v); ut_sig_ok : sig_claim bm (u_sig v) (ut_sig t);
  ut_ixs_ok : match u_parts v, ut_ixs t with [], None => True | _ :: _, Some o => iu_shows bm o (upart_rows (pu_start v) (u_parts v)) | _, _ => False end;
  ut_parts_ok : Forall2 (upart_returns bm) (ut_particles t) (u_parts v) }.

(** The numbers of the table (NXS) and its locators (JXS): energies, total, nonelastic, elastic, heating, MTR, LQR, LSIG, SIG,
    IXS, the first word of the secondary particles; 0 for what is missing.  Without elastic cross section the nonelastic
    one is the total. *)
Definition pu_nxs (z a st : Z) (v : puV) : list Z := [pu_size v; 1000 * z + a; len (u_en v); len (u_mts v); len (u_parts v); 2; 12; 0; st; z; a; 0; 0; 0; 0; 1].
Definition eu_none (el : option (list double)) : bool := match el with Some (_ :: _) => false | _ => true end.
Definition pu_jxs (v : puV) : list Z :=
  let nes := len (u_en v) in let ntr := len (u_mts v) in let esz := len (concat (eu_arrays (u_en v) (u_tot v) (u_el v) (u_heat v))) in
  let se x := match u_parts v with [] => 0 | _ => x end in
  1 :: nes + 1 :: (if eu_none (u_el v) then [nes + 1; 0; 2 * nes + 1] else [0; 2 * nes + 1; 3 * nes + 1])
  ++ [esz + 1; esz + ntr + 1; esz + 2 * ntr + 1; esz + 3 * ntr + 1; se (pu_front v + 1); se (pu_start v + 1)] ++ zeros 21.

(** * Lemmas *)

Lemma xs_supplies bm e : sig_index_ok e -> xs_size e < max_words -> supplies (xs_of e) (fun v => v) (xs_make bm) (sig_words e) (xs_claim bm e).
Proof.
  intros V B. destruct e as [i vs]. unfold sig_index_ok, xs_size, xs_claim, xs_of in *. cbn [sig_index sig_values sig_words] in *.
  assert (L : len (xs_generateXSS i vs) < max_words) by (unfold xs_generateXSS; rewrite !len_cons; lia).
  assert (R : forall v, content v (xs_generateXSS i vs) -> xs_make bm v = Ok v /\ xs_shows bm v i vs) by (intros v C; exact (xs_has bm v i vs V (content_has _ _ C))).
  split.
  - exists (own (xs_generateXSS i vs)). pose proof (own_content _ L) as C. destruct (R _ C) as [R1 R2]. split; [reflexivity|]. split; [exact C|exact R2].
  - intros v C. destruct (R _ C) as [R1 R2]. eauto.
Qed.
Lemma len_sig_words e : len (sig_words e) = xs_size e.
Proof. destruct e as [i vs]. unfold xs_size. cbn [sig_words sig_values]. unfold xs_generateXSS. rewrite !len_cons. lia. Qed.

(** the elastic array is empty also when there is one and the energy grid is empty: the table then shows none *)
Lemma eu_reads_none bm en tot el heat : all_len (len en) (eu_arrays en tot el heat) -> len (concat (eu_arrays en tot el heat)) < max_words ->
  (exists o, eu_of en tot el heat = Ok o /\ content (ad_v o) (concat (eu_arrays en tot el heat)) /\ eu_shows bm o en tot el heat
     /\ exists x, eu_elastic bm o = Ok x /\ (len x =? 0) = eu_none el)
  /\ readable (fun v => eu_make v (len en) (if eu_none el then 3 else 4)) (concat (eu_arrays en tot el heat)) (fun o => eu_shows bm o en tot el heat).
Proof.
  intros AL B. destruct (eu_block bm en tot el heat AL) as [A R]. split.
  - destruct (A B) as (o & O & C & S). exists o. split; [exact O|]. split; [exact C|]. split; [exact S|].
    eexists. split; [exact (proj1 (proj2 (proj2 (proj2 S))))|]. destruct el as [[|x l]|]; reflexivity.
  - intros v C. destruct el as [[|x l]|].
    + cbn [eu_none eu_arrays] in *. assert (E0 : len en = 0). { inversion AL as [|? ? _ A1]; subst. inversion A1 as [|? ? _ A2]; subst. inversion A2 as [|? ? A3 _]; subst. rewrite <- A3. reflexivity. }
      destruct en as [|? en]; [|exfalso; rewrite len_cons in E0; pose proof (len_nonneg en); lia].
      assert (AL' : all_len (len (@nil double)) (eu_arrays [] tot None heat)). { cbn [eu_arrays]. inversion AL as [|? ? A0 A1]; subst. inversion A1 as [|? ? A1' A2]; subst. inversion A2 as [|? ? A2' A3]; subst. constructor; [exact A0|]. constructor; [exact A1'|exact A3]. }
      destruct (eu_block bm [] tot None heat AL') as [_ R']. cbn [eu_arrays concat app] in *. destruct (R' v (content_has _ _ C)) as (o & M & _ & S). exists o. split; [exact M|]. exact S.
    + destruct (R v (content_has _ _ C)) as (o & M & _ & S). exists o. split; [exact M|exact S].
    + destruct (R v (content_has _ _ C)) as (o & M & _ & S). exists o. split; [exact M|exact S].
Qed.

Definition upart_spec bm (p : upartV) (wa wd : list double) : puQ :=
  PuQ (uv_type p) (len (uv_mts p)) (uv_frames p) (sig_words (uv_pxs p), xs_claim bm (uv_pxs p)) (sig_words (uv_phn p), xs_claim bm (uv_phn p))
    (map dbl (uv_mts p), mt_claim bm (uv_mts p)) (bl_layout true (uv_sigw p), sigh_claim bm (uv_sigh p)) (wa, ab_claim bm 1 (len (uv_ang p)) (uv_ang p))
    (wd, fun o => dh_shows bm o (uv_en p) (map Some (uv_frames p))).
Definition upart_is bm (p : upartV) (q : puQ) : Prop :=
  exists wa wd, q = upart_spec bm p wa wd /\ len wa = len (uv_ang p) + ab_total (uv_ang p) /\ len wd = len (uv_en p) + uv_n p.

Lemma upart_facts srt p : upart_valid srt p -> 0 <= xs_size (uv_pxs p) /\ 0 <= xs_size (uv_phn p) /\ 0 <= len (uv_mts p) /\ 0 <= len (uv_frames p)
  /\ len (uv_mts p) <= len (bl_layout true (uv_sigw p)) /\ 0 <= ab_total (uv_ang p) /\ 0 <= uv_n p /\ 0 <= len (uv_ang p) /\ 0 <= len (uv_en p) /\ 4 <= upart_before p <= upart_size p.
Proof.
  intros [V0 V1 V1' V2 (V3 & V3' & L3) (V4 & L4) (V5 & V5' & L5 & L5')].
  pose proof (en_sizes_bounds _ _ _ V5') as [N5 _]. pose proof (ab_total_nonneg (uv_ang p)) as N4.
  assert (Lb : len (bl_layout true (uv_sigw p)) = len (uv_mts p) + len (concat (uv_sigw p))) by (rewrite len_bl_layout, (mapM_len _ _ _ V3'); lia).
  unfold upart_size, upart_before, xs_size. pose proof (len_nonneg (concat (uv_sigw p))). lens. lia.
Qed.

Lemma upart_one bm asrt esrt p : sort_contract asrt -> eqb_sort_contract esrt -> upart_valid esrt p -> upart_size p < max_words ->
  exists wa wd o, let q := upart_spec bm p wa wd in
    xs_of (uv_pxs p) = Ok (uo_pxs o) /\ xs_of (uv_phn p) = Ok (uo_phn o) /\ mt_of (uv_mts p) = Ok (uo_mtrh o)
    /\ bl_of bm (sigh_generateData bm) true (uv_sigw p) = Ok (uo_sigh o) /\ ab_of_data bm asrt (uv_ang p) = Ok (uo_andh o)
    /\ dh_built bm esrt (uv_en p) (Some (uv_frames p)) = Ok (uo_dlwh o)
    /\ part_in o q /\ uq_fits q /\ uq_reads bm q /\ upart_is bm p q.
Proof.
  intros Hs He HV B. pose proof (upart_facts _ _ HV) as F. destruct HV as [V0 V1 V1' V2 (V3 & V3' & L3) (V4 & L4) (V5 & V5' & L5 & L5')].
  unfold upart_size, upart_before in *.
  destruct (xs_supplies bm (uv_pxs p) V1 ltac:(lia)) as [(x & X1 & X2 & _) RX].
  destruct (xs_supplies bm (uv_phn p) V1' ltac:(lia)) as [(h & H1 & H2 & _) RH].
  destruct (mt_supplies bm (uv_mts p) V2 ltac:(lia)) as [(m & M1 & M2 & (M3 & _) & _) RM].
  destruct (sigh_supplies bm (uv_sigh p) (uv_sigw p) V3 V3' ltac:(lia)) as [(s & S1 & S2 & S3) RS].
  destruct (ab_supplies bm asrt (uv_ang p) Hs V4 ltac:(lia)) as (wa & La & [(a & A1 & A2 & A3 & _) RA] & _).
  destruct (dh_supplies_frames bm esrt (uv_en p) (uv_n p) (uv_frames p) He V5 V5' ltac:(lia) ltac:(lia)) as (wd & Ld & (d & D1 & D2 & D3 & D4 & _) & RD).
  exists wa, wd, (PuO x h m s a d). cbv zeta. cbn [uo_pxs uo_phn uo_mtrh uo_sigh uo_andh uo_dlwh].
  rewrite L3 in RS. rewrite L4 in RA. rewrite L5 in RD.
  split; [exact X1|]. split; [exact H1|]. split; [exact M1|]. split; [exact S1|]. split; [exact A1|]. split; [exact D1|].
  split. { constructor; cbn [upart_spec uq_n uq_frames uq_pxs uq_phn uq_mtrh uq_sigh uq_andh uq_dlwh uo_pxs uo_phn uo_mtrh uo_sigh uo_andh uo_dlwh fst snd]; assumption. }
  split. { unfold uq_fits, upart_spec. cbn [uq_type uq_n uq_frames uq_pxs uq_phn uq_mtrh uq_sigh uq_andh uq_dlwh fst snd]. lia. }
  split; [|exists wa, wd; auto].
  unfold uq_reads, upart_spec. cbn [uq_type uq_n uq_frames uq_pxs uq_phn uq_mtrh uq_sigh uq_andh uq_dlwh fst snd]. rewrite L4.
  split; [exact RX|]. split; [exact RH|]. split; [exact RM|]. split; [exact RS|]. split; [exact RA|].
  intros t Ht. exact (RD t (proj1 (proj2 Ht))).
Qed.

Lemma upart_sizes_nonneg srt ps : Forall (upart_valid srt) ps -> 0 <= sumZ (map upart_size ps).
Proof. intros F. induction F as [|p ps V _ IH]; [cbn; lia|]. cbn [map sumZ fold_right]. fold (sumZ (map upart_size ps)). pose proof (upart_facts _ _ V). lia. Qed.

Lemma uparts_all bm asrt esrt ps : sort_contract asrt -> eqb_sort_contract esrt -> Forall (upart_valid esrt) ps -> sumZ (map upart_size ps) < max_words ->
  exists qs os, Forall2 part_in os qs /\ Forall2 (upart_is bm) ps qs /\ Forall uq_fits qs /\ Forall (uq_reads bm) qs
    /\ mapM (fun p => xs_of (uv_pxs p)) ps = Ok (map uo_pxs os) /\ mapM (fun p => xs_of (uv_phn p)) ps = Ok (map uo_phn os)
    /\ mapM (fun p => mt_of (uv_mts p)) ps = Ok (map uo_mtrh os) /\ mapM (fun p => bl_of bm (sigh_generateData bm) true (uv_sigw p)) ps = Ok (map uo_sigh os)
    /\ mapM (fun p => ab_of_data bm asrt (uv_ang p)) ps = Ok (map uo_andh os)
    /\ mapM (fun p => dh_built bm esrt (uv_en p) (Some (uv_frames p))) ps = Ok (map uo_dlwh os).
Proof.
  intros Hs He F. induction F as [|p ps V F IH]; intros B.
  - exists [], []. do 4 (split; [constructor|]). do 5 (split; [reflexivity|]). reflexivity.
  - cbn [map sumZ fold_right] in B. fold (sumZ (map upart_size ps)) in B. pose proof (upart_sizes_nonneg _ _ F) as N. pose proof (upart_facts _ _ V) as Np.
    destruct IH as (qs & os & E1 & E2 & E3 & E4 & E5 & E6 & E7 & E8 & E9 & E10); [lia|].
    destruct (upart_one bm asrt esrt p Hs He V ltac:(lia)) as (wa & wd & o & O1 & O2 & O3 & O4 & O5 & O6 & O7 & O8 & O9 & O10).
    exists (upart_spec bm p wa wd :: qs), (o :: os). do 4 (split; [constructor; assumption|]).
    cbn [mapM map]. rewrite O1, O2, O3, O4, O5, O6. cbn [bind]. rewrite E5, E6, E7, E8, E9, E10. cbn [bind]. do 5 (split; [reflexivity|]). reflexivity.
Qed.

Lemma upart_words_len bm p q : len (uv_frames p) = len (uv_mts p) -> upart_is bm p q -> len (uw_words (uw_of q)) = upart_size p /\ uw_off (uw_of q) 6 = upart_before p.
Proof.
  intros Lf (wa & wd & -> & La & Ld). unfold uw_words, uw_off, uw_list, uw_of, upart_spec.
  cbn [uq_n uq_frames uq_pxs uq_phn uq_mtrh uq_sigh uq_andh uq_dlwh fst snd uw_n uw_pxs uw_phn uw_mtrh uw_tyrh uw_sigh uw_andh uw_dlwh concat firstn].
  rewrite !len_app, !len_sig_words, len_map, len_ty_frames, len_nil. unfold upart_size, upart_before. lia.
Qed.
Lemma upart_rows_ok bm : forall ps qs, Forall (fun p => len (uv_frames p) = len (uv_mts p)) ps -> Forall2 (upart_is bm) ps qs -> forall b, u_rows b qs = upart_rows b ps.
Proof.
  intros ps qs F Q. induction Q as [|p q ps qs Hp Q IH]; intros b; [reflexivity|]. inversion F as [|? ? F1 F2]; subst.
  cbn [u_rows upart_rows]. rewrite (proj1 (upart_words_len _ _ _ F1 Hp)), (IH F2). apply cons_eq; [|reflexivity].
  destruct Hp as (wa & wd & -> & La & Ld). unfold uw_locs, uw_off, uw_list, uw_of, upart_spec, upart_row.
  cbn [uq_type uq_n uq_frames uq_pxs uq_phn uq_mtrh uq_sigh uq_andh uq_dlwh fst snd uw_n uw_pxs uw_phn uw_mtrh uw_tyrh uw_sigh uw_andh uw_dlwh concat firstn].
  rewrite !len_app, !len_sig_words, len_map, len_ty_frames, len_nil. repeat (apply cons_eq; [lia|]). reflexivity.
Qed.
Lemma u_blocks_len bm : forall ps qs, Forall (fun p => len (uv_frames p) = len (uv_mts p)) ps -> Forall2 (upart_is bm) ps qs ->
  len (concat (map (fun q => uw_words (uw_of q)) qs)) = sumZ (map upart_size ps).
Proof.
  intros ps qs F Q. induction Q as [|p q ps qs Hp Q IH]; [reflexivity|]. inversion F as [|? ? F1 F2]; subst. cbn [map concat sumZ fold_right].
  rewrite len_app, (proj1 (upart_words_len _ _ _ F1 Hp)), (IH F2). reflexivity.
Qed.
Lemma u_apart_ok bm : forall ps qs, Forall (fun p => len (uv_frames p) = len (uv_mts p)) ps -> Forall2 (upart_is bm) ps qs -> forall b,
  (forall l p p' r, ps = l ++ p :: p' :: r -> uv_type p' < b + sumZ (map upart_size l) + upart_before p + len (uv_mts p) + 1
     /\ len (uv_mts p') < b + sumZ (map upart_size l) + upart_before p + len (uv_mts p) + 1) -> u_apart b qs.
Proof.
  intros ps qs F Q. induction Q as [|p q ps qs Hp Q IH]; intros b H; [exact I|]. inversion F as [|? ? F1 F2]; subst. cbn [u_apart].
  destruct Q as [|p' q' ps qs Hp' Q]; [exact I|]. destruct (upart_words_len _ _ _ F1 Hp) as [E1 E2]. rewrite E1, E2.
  destruct (H [] p p' ps eq_refl) as [H1 H2]. cbn [map sumZ fold_right] in H1, H2.
  assert (T : uq_n q = len (uv_mts p)) by (destruct Hp as (? & ? & -> & _); reflexivity). assert (T1 : uq_n q' = len (uv_mts p')) by (destruct Hp' as (? & ? & -> & _); reflexivity).
  assert (T2 : uq_type q' = uv_type p') by (destruct Hp' as (? & ? & -> & _); reflexivity). rewrite T, T1, T2.
  split; [lia|]. split; [lia|]. apply IH; [exact F2|]. intros l x x' r E. specialize (H (p :: l) x x' r). cbn [app map sumZ fold_right] in H. fold (sumZ (map upart_size l)) in H.
  rewrite E in H. specialize (H eq_refl). lia.
Qed.

(** Table built from values *)
Lemma pu_from_values_full bm asrt esrt z a st (zaid : list ascii) v : sort_contract asrt -> eqb_sort_contract esrt -> pu_valid esrt v -> pu_apart v -> pu_size v + 1 < max_words ->
  0 <= z -> 0 <= a -> 1000 * z + a < 2 ^ 32 ->
  exists i s, pu_build bm asrt esrt v = Ok i /\ pu_generateData bm z a st i = Ok (TData (zeros 16) (dzeros 16) (us_nxs z a st s) (us_jxs s) (us_words s))
    /\ (exists t, pu_generateBlocks bm zaid (TData (zeros 16) (dzeros 16) (us_nxs z a st s) (us_jxs s) (us_words s)) = Ok t
          /\ ut_zaid t = zaid /\ ut_data t = TData (zeros 16) (dzeros 16) (us_nxs z a st s) (us_jxs s) (us_words s) /\ pu_returns bm v t)
    /\ us_nxs z a st s = pu_nxs z a st v /\ us_jxs s = pu_jxs v /\ len (us_words s) = pu_size v
    /\ pu_sizes s /\ u_apart (us_base s) (us_parts s) /\ pu_reads bm s /\ us_e s = eu_none (u_el v) /\ us_nes s = len (u_en v) /\ map uq_type (us_parts s) = map uv_type (u_parts v).
Proof.
  intros Hs He [V1 V2 V3 (V4 & L4) V5] HA B Hz Ha Hza.
  pose proof (upart_sizes_nonneg _ _ V5) as Np. pose proof (len_nonneg (u_parts v)) as Nt.
  assert (Ls : len (bl_layout true (map sig_words (u_sig v))) = len (u_mts v) + len (concat (map sig_words (u_sig v)))) by (rewrite len_bl_layout, len_map; lia).
  pose proof (len_nonneg (concat (map sig_words (u_sig v)))) as Nc. pose proof (len_nonneg (u_mts v)) as Nm. pose proof (len_nonneg (u_en v)) as Ne.
  pose proof (len_nonneg (concat (eu_arrays (u_en v) (u_tot v) (u_el v) (u_heat v)))) as Nu.
  unfold pu_size, pu_start, pu_front in B.
  destruct (eu_reads_none bm _ _ _ _ V1 ltac:(lia)) as [(eo & E1 & E2 & E3 & E4) RE].
  destruct (mt_supplies bm (u_mts v) V2 ltac:(lia)) as [(m & M1 & M2 & M3) RM].
  destruct (lq_supplies bm (u_qs v) ltac:(lia)) as [(q & Q1 & Q2 & Q3) RQ].
  destruct (sig_supplies bm (u_sig v) V4 ltac:(lia)) as [(g & G1 & G2 & G3) RG].
  destruct (uparts_all bm asrt esrt (u_parts v) Hs He V5 ltac:(lia)) as (qs & os & P1 & P2 & P3 & P4 & P5 & P6 & P7 & P8 & P9 & P10).
  assert (Lf : Forall (fun p => len (uv_frames p) = len (uv_mts p)) (u_parts v)).
  { eapply Forall_impl; [|exact V5]. intros p [_ _ _ _ _ _ (_ & _ & _ & X)]. exact X. }
  pose proof (Forall2_len _ _ _ P2) as Lq. assert (Lq' : len qs = len (u_parts v)) by (unfold len; lia).
  pose (ol := fun (A : Type) (x : A) => match u_parts v with [] => None | _ => Some x end).
  pose (i := PuIn eo m q g (ol _ (map uv_type (u_parts v))) (ol _ (map uo_pxs os)) (ol _ (map uo_phn os)) (ol _ (map uo_mtrh os)) (ol _ (map uo_sigh os)) (ol _ (map uo_andh os)) (ol _ (map uo_dlwh os))).
  pose (s := PuS (len (u_en v)) (eu_none (u_el v)) (len (u_mts v)) (concat (eu_arrays (u_en v) (u_tot v) (u_el v) (u_heat v)), fun o => eu_shows bm o (u_en v) (u_tot v) (u_el v) (u_heat v))
    (map dbl (u_mts v), mt_claim bm (u_mts v)) (u_qs v, fun o => lq_shows bm o (u_qs v)) (bl_layout true (map sig_words (u_sig v)), sig_claim bm (u_sig v)) qs).
  exists i, s.
  assert (Fr : len (us_front s) = pu_front v). { unfold us_front, s. cbn [us_eszu us_mtr us_lqr us_sig fst]. rewrite !len_app, len_map. unfold pu_front. lia. }
  assert (Ba : us_base s = pu_start v). { unfold us_base. rewrite Fr. unfold us_ntype, s. cbn [us_parts]. unfold pu_start. lia. }
  assert (Wl : len (us_words s) = pu_size v).
  { unfold us_words. rewrite !len_app, Fr. unfold us_blocks. change (us_parts s) with qs. rewrite (u_blocks_len bm _ _ Lf P2), len_iu_words. rewrite Lq'. unfold pu_size, pu_start. lia. }
  assert (I : pu_input bm i s).
  { constructor.
    - split; [exact E2|]. split; [exact (proj1 E3)|exact E4].
    - split; [exact M2|exact (proj1 (proj1 M3))].
    - split; [exact Q2|]. cbn [us_ntr s ui_lqr i]. rewrite <- V3. exact (proj1 Q3).
    - split; [exact G2|]. cbn [us_ntr s ui_sig i]. rewrite <- L4. exact (proj1 G3).
    - unfold pu_second_in. change (us_parts s) with qs. unfold i, ol. cbn [ui_ptype ui_pxs ui_phn ui_mtrh ui_sigh ui_andh ui_dlwh].
      assert (T : map uv_type (u_parts v) = map uq_type qs). { clear - P2. induction P2 as [|p q' ps qs (wa & wd & -> & _) _ IH]; [reflexivity|]. cbn [map]. rewrite IH. reflexivity. }
      rewrite T. clear - P1 Lq. destruct qs as [|q' qs]; destruct (u_parts v) as [|p ps]; try discriminate Lq; [repeat split|]. exists os. split; [exact P1|]. repeat split. }
  assert (SZ : pu_sizes s).
  { constructor.
    - rewrite Wl. unfold pu_size, pu_start, pu_front. exact B.
    - unfold s. cbn [us_nes us_eszu fst]. split; [exact Ne|]. rewrite (len_concat _ _ V1). assert (3 <= len (eu_arrays (u_en v) (u_tot v) (u_el v) (u_heat v))) by (destruct (u_el v); cbn; lia). nia.
    - unfold s. cbn [us_ntr us_sig fst]. lia.
    - exact P3. }
  assert (RD : pu_reads bm s).
  { constructor; unfold s; cbn [us_nes us_e us_ntr us_eszu us_mtr us_lqr us_sig us_parts fst snd].
    - exact RE.
    - exact RM.
    - rewrite <- V3. exact RQ.
    - rewrite <- L4. exact RG.
    - exact P4. }
  assert (AP : u_apart (us_base s) (us_parts s)).
  { rewrite Ba. change (us_parts s) with qs. apply (u_apart_ok bm (u_parts v) qs Lf P2). intros l p p' r E. exact (HA l p p' r E). }
  split.
  { unfold pu_build. rewrite E1. cbn [bind]. rewrite M1. cbn [bind]. rewrite Q1. cbn [bind]. rewrite G1. cbn [bind]. unfold list_built, i, ol. clear - P5 P6 P7 P8 P9 P10.
    destruct (u_parts v); [reflexivity|]. rewrite P5. cbn [bind]. rewrite P6. cbn [bind]. rewrite P7. cbn [bind]. rewrite P8. cbn [bind]. rewrite P9. cbn [bind]. rewrite P10. reflexivity. }
  split; [exact (pu_data_ok bm z a st i s I SZ Hz Ha Hza)|].
  split.
  - destruct (pu_blocks_ok bm zaid z a st s SZ AP RD) as (t & T1 & T2 & T3 & [S1 S2 S3 S4 S5 S6]). exists t. split; [exact T1|]. split; [exact T2|]. split; [exact T3|].
    constructor; try assumption.
    + rewrite Ba in S5. change (us_parts s) with qs in S5. rewrite (upart_rows_ok bm _ _ Lf P2) in S5. clear - S5 Lq. destruct qs as [|q' qs]; destruct (u_parts v) as [|p ps]; try discriminate Lq.
      * rewrite S5. exact I.
      * destruct S5 as (o & -> & S5). exact S5.
    + change (us_parts s) with qs in S6. clear - S6 P2. revert S6. generalize (ut_particles t). induction P2 as [|p q ps qs (wa & wd & -> & _) _ IH]; intros l S6; inversion S6; subst; constructor; [|apply IH; assumption].
      match goal with X : part_shows _ _ _ |- _ => destruct X end. constructor; assumption.
  - split; [unfold us_nxs; rewrite Wl; unfold us_ntype; change (us_parts s) with qs; rewrite Lq'; reflexivity|]. split; [|split; [exact Wl|]; refine (conj SZ (conj AP (conj RD (conj eq_refl (conj eq_refl _))))); clear - P2; change (us_parts s) with qs;
      induction P2 as [|p q' ps qs (wa & wd & -> & _) _ IH]; [reflexivity|]; cbn [map]; rewrite IH; reflexivity].
    unfold us_jxs, pu_jxs. rewrite Fr, Ba. change (us_parts s) with qs. unfold s. cbn [us_nes us_e us_ntr us_eszu us_mtr us_lqr fst]. rewrite len_map, V3.
    assert (X : forall x, match qs with [] => 0 | _ :: _ => x end = match u_parts v with [] => 0 | _ :: _ => x end).
    { intros x. clear - Lq. destruct qs, (u_parts v); try discriminate Lq; reflexivity. }
    rewrite !X. destruct (eu_none (u_el v)); cbn [app]; repeat (apply cons_eq; [lia|]); reflexivity.
Qed.

Lemma pu_from_values bm asrt esrt z a st (zaid : list ascii) v : sort_contract asrt -> eqb_sort_contract esrt -> pu_valid esrt v -> pu_apart v -> pu_size v + 1 < max_words ->
  0 <= z -> 0 <= a -> 1000 * z + a < 2 ^ 32 ->
  exists i s, pu_build bm asrt esrt v = Ok i /\ pu_generateData bm z a st i = Ok (TData (zeros 16) (dzeros 16) (us_nxs z a st s) (us_jxs s) (us_words s))
    /\ (exists t, pu_generateBlocks bm zaid (TData (zeros 16) (dzeros 16) (us_nxs z a st s) (us_jxs s) (us_words s)) = Ok t
          /\ ut_zaid t = zaid /\ ut_data t = TData (zeros 16) (dzeros 16) (us_nxs z a st s) (us_jxs s) (us_words s) /\ pu_returns bm v t)
    /\ us_nxs z a st s = pu_nxs z a st v /\ us_jxs s = pu_jxs v /\ len (us_words s) = pu_size v.
Proof.
  intros Hs He V HA B Hz Ha Hza. destruct (pu_from_values_full bm asrt esrt z a st zaid v Hs He V HA B Hz Ha Hza) as (i & s & H1 & H2 & H3 & H4 & H5 & H6 & _). exists i, s. exact (conj H1 (conj H2 (conj H3 (conj H4 (conj H5 H6))))) .
Qed.

(** The usual case: types of particles, no more reactions of a particle than reactions, at least three energies. *)
Lemma pu_apart_usual srt v : pu_valid srt v -> Forall (fun p => uv_type p <= 37 /\ len (uv_mts p) <= len (u_mts v)) (u_parts v) -> 3 <= len (u_en v) -> pu_apart v.
Proof.
  intros [V1 V2 V3 (V4 & L4) V5] F N ps p p' r E. rewrite E in V5, F. apply Forall_app in V5. destruct V5 as [V5 V6]. apply Forall_app in F. destruct F as [_ F].
  inversion V6 as [|? ? V7 V8]; subst. inversion F as [|? ? _ F1]; subst. inversion F1 as [|? ? [F2 F3] _]; subst.
  pose proof (upart_sizes_nonneg _ _ V5) as N1. pose proof (upart_facts _ _ V7) as N2.
  assert (2 <= len (u_parts v)). { rewrite E, len_app, !len_cons. pose proof (len_nonneg ps). pose proof (len_nonneg r). lia. }
  assert (9 <= len (concat (eu_arrays (u_en v) (u_tot v) (u_el v) (u_heat v)))).
  { rewrite (len_concat _ _ V1). assert (3 <= len (eu_arrays (u_en v) (u_tot v) (u_el v) (u_heat v))) by (destruct (u_el v); cbn; lia). nia. }
  unfold pu_place, pu_start, pu_front. pose proof (len_nonneg (u_mts v)). pose proof (len_nonneg (u_qs v)). pose proof (len_nonneg (bl_layout true (map sig_words (u_sig v)))). lia.
Qed.
