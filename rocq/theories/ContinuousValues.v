(** Continuous-energy tables from values: what a user supplies, the blocks built from it by the
    block constructors, and what the table built from these blocks shows. *)
From Coq Require Import ZArith Bool List Lia Ascii.
From Coq Require Import ZifyBool ZifyNat.
From Verif Require Export PropsEnergy PropsDist PropsTables PropsSZA ContinuousRead.
Import ListNotations.
Open Scope Z_scope.

(** * Blocks built from values *)

(** The constructor call [built] gives an object whose words are [w] and that shows [S], and every
    view with these words is read as an object that shows [S]. *)
Definition supplies {A} (built : outcome A) (vw : A -> view) (make : view -> outcome A) (w : list double) (S : A -> Prop) : Prop :=
  (exists o, built = Ok o /\ content (vw o) w /\ S o) /\ readable make w S.

Lemma esz_supplies bm en tot dis el heat : all_len (len en) [en; tot; dis; el; heat] -> len (concat [en; tot; dis; el; heat]) < max_words ->
  supplies (esz_of en tot dis el heat) ad_v (fun v => esz_make v (len en)) (concat [en; tot; dis; el; heat]) (fun o => esz_shows bm o en tot dis el heat).
Proof. intros H B. destruct (C35_principal_cross_sections bm en tot dis el heat H) as [R C]. split; [exact (C B)|]. intros v Hv. exact (R v (content_has _ _ Hv)). Qed.

Lemma lq_supplies bm qs : len qs < max_words -> supplies (lq_of qs) ad_v (fun v => lq_make v (len qs)) qs (fun o => lq_shows bm o qs).
Proof. intros B. destruct (C35_q_values bm qs) as [R C]. split; [exact (C B)|]. intros v Hv. exact (R v (content_has _ _ Hv)). Qed.

Definition mt_claim bm mts (o : arrayData) : Prop := mt_shows bm o mts /\ mt_lookup o mts.
Lemma mt_supplies bm mts : mt_valid mts -> len mts < max_words -> supplies (mt_of mts) ad_v (fun v => mt_make v (len mts)) (map dbl mts) (mt_claim bm mts).
Proof. intros H B. destruct (C17_reaction_numbers bm mts H) as [R C]. split; [exact (C B)|exact R]. Qed.

Definition yp_claim bm mts (o : view) : Prop := yp_shows bm o mts /\ yp_lookup o mts.
Lemma yp_supplies bm mts : mt_valid mts -> len mts + 1 < max_words -> supplies (Ok (yp_of mts)) (fun v => v) (yp_make bm) (yp_generateXSS mts) (yp_claim bm mts).
Proof.
  intros H B. destruct (C17_multiplicity_reaction_numbers bm mts H) as [R C]. split.
  - exists (yp_of mts). split; [reflexivity|]. split; [|exact (C B)]. apply own_content. unfold yp_generateXSS. rewrite len_cons, len_map. lia.
  - intros v Hv. destruct (R v Hv) as [R1 R2]. eauto.
Qed.

(** NU, DNU: prompt or total alone, or prompt and total *)
Definition nu_claim bm (p : nu_in) (t : option nu_in) (o : nu) : Prop :=
  nu_shows bm (nu_prompt o) p
  /\ match t with None => nu_both o = false /\ nu_total o = None | Some t => nu_both o = true /\ exists d, nu_total o = Some d /\ nu_shows bm d t end.
Definition nu_w (p : nu_in) (t : option nu_in) : list double := nu_generateXSS (nu_layout p) (option_map nu_layout t).
Definition nu_args_valid (p : nu_in) (t : option nu_in) : Prop := nu_valid p /\ match t with Some t => nu_valid t | None => True end.
Definition nu_built bm (p : nu_in) (t : option nu_in) : outcome nu :=
  lp <- nu_in_words p ;;
  match t with None => nu_of bm lp None | Some t => lt <- nu_in_words t ;; nu_of bm lp (Some lt) end.
Lemma nu_valid_words p : nu_valid p -> nu_in_words p = Ok (nu_layout p).
Proof.
  destruct p as [cs|nbt int x y]; [reflexivity|]. cbn [nu_valid nu_in_words nu_layout]. intros [H1 H2].
  unfold tf_generateXSS, pt_generateXSS. rewrite td_generateXSS_ok by assumption. reflexivity.
Qed.
Lemma nu_supplies bm p t : nu_args_valid p t -> len (nu_w p t) < max_words -> supplies (nu_built bm p t) nu_v (nu_make bm) (nu_w p t) (nu_claim bm p t).
Proof.
  intros [Vp Vt] B. pose proof (nu_valid_words p Vp) as Ep. unfold nu_built, nu_w in *. rewrite Ep. cbn [bind]. destruct t as [t|]; cbn [option_map] in *.
  - pose proof (nu_valid_words t Vt) as Et. rewrite Et. cbn [bind]. destruct (C18_two_multiplicities bm p t _ _ Ep Et) as [R C]. split.
    + destruct C as (o & d & M & C1 & C2 & C3 & C4 & C5). { cbn [nu_generateXSS] in B. rewrite len_cons, len_app in B. lia. }
      exists o. split; [exact M|]. split; [exact C1|]. split; [exact C3|]. split; [exact C2|]. eauto.
    + intros v Hv. destruct (R v (content_has _ _ Hv)) as (o & d & M & C2 & C3 & C4 & C5). exists o. split; [exact M|]. split; [exact C3|]. split; [exact C2|]. eauto.
  - destruct (C18_one_multiplicity bm p _ Ep) as [R C]. split.
    + destruct (C B) as (o & M & C1 & C2 & C3 & C4). exists o. split; [exact M|]. split; [exact C1|]. split; [exact C4|]. auto.
    + intros v Hv. destruct (R v (content_has _ _ Hv)) as (o & M & C2 & C3 & C4). exists o. split; [exact M|]. split; [exact C4|]. auto.
Qed.

(** SIG, SIGP, SIGH *)
Lemma bl_make_locator {D} bm (gd : Z -> view -> outcome D) v x n b o : bl_make bm gd v x n b = Ok o -> bl_locator o = b.
Proof. unfold bl_make. destruct (throw_if _ _); try discriminate. cbn [bind]. destruct (bl_generateBlocks _ _ _ _ _ _); try discriminate. cbn [bind]. intros H. apply Ok_inj in H. subst o. reflexivity. Qed.
Definition bl_claim {D} n (P : blockWithLocators D -> Prop) (o : blockWithLocators D) : Prop := bl_n o = n /\ bl_locator o = true /\ P o.
Lemma bl_supplies {D} bm (gd : Z -> view -> outcome D) cs n P : len cs = n -> len (bl_layout true cs) < max_words ->
  (forall v, has v (bl_layout true cs) -> exists o, bl_make bm gd v (vbeg v + n) n true = Ok o /\ bl_v o = v /\ bl_n o = n /\ P o) ->
  supplies (bl_of bm gd true cs) bl_v (fun v => bl_make bm gd v (vbeg v + n) n true) (bl_layout true cs) (bl_claim n P).
Proof.
  intros E B H. subst n. split.
  - rewrite (C09_locator_block_built _ bm gd true cs (bl_layout true cs)) by (try exact B; apply bl_generateXSS_ok).
    destruct (H (own (bl_layout true cs)) (content_has _ _ (own_content _ B))) as (o & M & V & N & Po). exists o. split; [exact M|].
    split; [rewrite V; exact (own_content _ B)|]. split; [exact N|]. split; [exact (bl_make_locator _ _ _ _ _ _ _ M)|exact Po].
  - intros v Hv. destruct (H v (content_has _ _ Hv)) as (o & M & V & N & Po). exists o. split; [exact M|]. split; [exact N|]. split; [exact (bl_make_locator _ _ _ _ _ _ _ M)|exact Po].
Qed.
Lemma mapM_len {A B} (f : A -> outcome B) l r : mapM f l = Ok r -> len r = len l.
Proof.
  revert r. induction l as [|a l IH]; intros r H; cbn [mapM] in H; [apply Ok_inj in H; subst; reflexivity|].
  destruct (f a); try discriminate. cbn [bind] in H. destruct (mapM f l); try discriminate. cbn [bind] in H. apply Ok_inj in H. subst r.
  rewrite !len_cons. rewrite (IH _ eq_refl). reflexivity.
Qed.

Definition sig_claim bm es : blockWithLocators view -> Prop := bl_claim (len es) (fun o => forall k e, nth_error es k = Some e ->
  exists d, bl_datum bm o (Z.of_nat k + 1) = Ok d /\ xs_shows bm d (sig_index e) (sig_values e)).
Lemma sig_supplies bm es : Forall (fun e => 0 <= sig_index e < 2 ^ 31) es -> len (bl_layout true (map sig_words es)) < max_words ->
  supplies (bl_of bm (sig_generateData bm) true (map sig_words es)) bl_v (fun v => bl_make bm (sig_generateData bm) v (vbeg v + len es) (len es) true)
    (bl_layout true (map sig_words es)) (sig_claim bm es).
Proof. intros F B. apply bl_supplies; [apply len_map|exact B|]. intros v Hv. exact (sig_round_trip bm v es _ F (bl_generateXSS_ok _ _) Hv). Qed.

Definition sigp_claim bm es : blockWithLocators photonProduction -> Prop := bl_claim (len es) (fun o => forall k e, nth_error es k = Some e ->
  exists d, bl_datum bm o (Z.of_nat k + 1) = Ok d /\ sigp_shows bm e d).
Lemma sigp_supplies bm es cs : Forall sigp_fits es -> Forall (fun e => ~ sigp_mf13 e) es -> mapM sigp_generateXSS es = Ok cs -> len (bl_layout true cs) < max_words ->
  supplies (bl_of bm (sigp_generateData bm) true cs) bl_v (fun v => bl_make bm (sigp_generateData bm) v (vbeg v + len es) (len es) true)
    (bl_layout true cs) (sigp_claim bm es).
Proof. intros F1 F2 M B. apply bl_supplies; [exact (mapM_len _ _ _ M)|exact B|]. intros v Hv. exact (sigp_round_trip bm v es cs _ F1 F2 M (bl_generateXSS_ok _ _) Hv). Qed.

Definition sigh_claim bm es : blockWithLocators prefixedTabulated -> Prop := bl_claim (len es) (fun o => forall k e, nth_error es k = Some e ->
  exists d, bl_datum bm o (Z.of_nat k + 1) = Ok d /\ sigh_shows bm e d).
Lemma sigh_supplies bm es cs : Forall sigh_fits es -> mapM sigh_generateXSS es = Ok cs -> len (bl_layout true cs) < max_words ->
  supplies (bl_of bm (sigh_generateData bm) true cs) bl_v (fun v => bl_make bm (sigh_generateData bm) v (vbeg v + len es) (len es) true)
    (bl_layout true cs) (sigh_claim bm es).
Proof. intros F1 M B. apply bl_supplies; [exact (mapM_len _ _ _ M)|exact B|]. intros v Hv. exact (sigh_round_trip bm v es cs _ F1 M (bl_generateXSS_ok _ _) Hv). Qed.

(** AND, ANDP, ANDH *)
Definition ab_claim bm (base nr : Z) es (o : angularBlock) : Prop := ab_nr o = nr
  /\ forall k e, nth_error es k = Some e ->
       (exists d, ab_datum bm o (base + Z.of_nat k) = Ok d /\ ab_shows bm e d)
       /\ ab_isGiven bm o (base + Z.of_nat k) = Ok (match e with DElse => false | _ => true end)
       /\ ab_isFullyIsotropic bm o (base + Z.of_nat k) = Ok (match e with DIso => true | _ => false end).
Lemma ab_supplies bm srt es : sort_contract srt -> Forall ab_ok es -> len es + ab_total es < max_words ->
  exists w, len w = len es + ab_total es
    /\ supplies (ab_of_data bm srt es) ab_v (fun v => ab_make bm v (vbeg v + len es) (len es) false) w (ab_claim bm 1 (len es) es)
    /\ forall elastic rest, es = elastic :: rest ->
         supplies (ab_of_elastic bm srt elastic rest) ab_v (fun v => ab_make bm v (vbeg v + len rest + 1) (len rest) true) w (ab_claim bm 0 (len rest) es).
Proof.
  intros Hs F B. destruct (C12_angular_block_round_trip bm srt es Hs F B) as (l & G & L & R). destruct (C12_angular_block_built bm srt es l Hs F B G) as [B1 B2].
  assert (C : content (own l) l) by (apply own_content; lia).
  exists l. split; [exact L|]. split.
  - assert (R' : forall v, has v l -> exists o, ab_make bm v (vbeg v + len es) (len es) false = Ok o /\ ab_v o = v /\ ab_claim bm 1 (len es) es o).
    { intros v Hv. destruct (R false v Hv ltac:(discriminate)) as (o & M & V & N & D). rewrite Z.sub_0_r in M, N. exists o. split; [exact M|]. split; [exact V|]. split; [exact N|exact D]. }
    split.
    + rewrite B1. destruct (R' _ (content_has _ _ C)) as (o & M & V & S). exists o. split; [exact M|]. split; [rewrite V; exact C|exact S].
    + intros v Hv. destruct (R' _ (content_has _ _ Hv)) as (o & M & V & S). eauto.
  - intros e r ->. assert (R' : forall v, has v l -> exists o, ab_make bm v (vbeg v + len r + 1) (len r) true = Ok o /\ ab_v o = v /\ ab_claim bm 0 (len r) (e :: r) o).
    { intros v Hv. destruct (R true v Hv ltac:(discriminate)) as (o & M & V & N & D). rewrite len_cons in M, N. replace (1 + len r - 1) with (len r) in M, N by lia.
      replace (vbeg v + (1 + len r)) with (vbeg v + len r + 1) in M by lia. exists o. split; [exact M|]. split; [exact V|]. split; [exact N|exact D]. }
    split.
    + rewrite (B2 e r eq_refl). destruct (R' _ (content_has _ _ C)) as (o & M & V & S). exists o. split; [exact M|]. split; [rewrite V; exact C|exact S].
    + intros v Hv. destruct (R' _ (content_has _ _ Hv)) as (o & M & V & S). eauto.
Qed.

(** DLWP, DNED and DLWH *)
Definition en_sizes srt es n : Prop := exists ns, Forall2 (en_size srt) es ns /\ n = sumZ ns.
Definition dh_built bm srt es fs : outcome dlwh := ds <- mapM (en_of bm srt) es ;; dh_of bm ds fs.
Lemma dh_supplies bm srt es n : eqb_sort_contract srt -> Forall (en_valid srt) es -> en_sizes srt es n -> len es + n < max_words ->
  exists w, len w = len es + n
    /\ supplies (dh_built bm srt es None) (fun o => bl_v (dh_block o)) (fun v => dh_make bm v (vbeg v + len es) (len es) None) w
         (fun o => dh_shows bm o es (repeat None (length es))).
Proof.
  intros Hs HV (ns & HN & ->) B. destruct (C15_secondary_particle_round_trip_partial srt es ns bm None Hs HV HN B I) as (ds & o & l & M & O & C & L & S & R).
  exists l. split; [exact L|]. split.
  - exists o. unfold dh_built. rewrite M. cbn [bind]. split; [exact O|]. split; [exact C|exact S].
  - intros v Hv. destruct (R bm v None (content_has _ _ Hv) I) as (o' & M' & _ & S'). eauto.
Qed.
Lemma en_size_nonneg srt e n : en_size srt e n -> 0 <= n /\ (en_valid srt e -> 6 <= n).
Proof.
  destruct e as [i|xs locb]; cbn [en_size en_valid].
  - intros (bm & l & _ & ->). pose proof (len_nonneg l). split; lia.
  - intros (lls & F & ->). assert (H : 3 * len xs <= sumZ (map (fun ls => 3 + len (fst ls) + len (snd ls)) lls)).
    { induction F as [|x ls xs lls _ _ IH]; [cbn; lia|]. cbn [map sumZ fold_right] in *. rewrite len_cons. unfold sumZ in IH. nonneg. lia. }
    pose proof (len_nonneg xs). split; [lia|]. intros (H2 & _). lia.
Qed.
Lemma en_sizes_bounds srt es n : en_sizes srt es n -> 0 <= n /\ (Forall (en_valid srt) es -> 6 * len es <= n).
Proof.
  intros (ns & HN & ->). induction HN as [|e m es ns H _ IH]; [cbn; split; [|intros]; lia|]. cbn [sumZ fold_right]. rewrite len_cons. unfold sumZ in IH.
  destruct (en_size_nonneg srt e m H) as [H1 H2]. split; [lia|]. intros F. inversion F; subst. destruct IH as [_ IH]. specialize (IH ltac:(assumption)). specialize (H2 ltac:(assumption)). lia.
Qed.
Lemma dh_supplies_frames bm srt es n fs : eqb_sort_contract srt -> Forall (en_valid srt) es -> en_sizes srt es n -> len es + n < max_words -> len fs = len es ->
  exists w, len w = len es + n
    /\ (exists o, dh_built bm srt es (Some fs) = Ok o /\ content (bl_v (dh_block o)) w /\ dh_shows bm o es (map Some fs))
    /\ forall t, ty_frames t = fs ->
         readable (fun v => dh_make bm v (vbeg v + len es) (len es) (Some t)) w (fun o => dh_shows bm o es (map Some fs)).
Proof.
  intros Hs HV HN B Lf. pose proof (proj1 (en_sizes_bounds _ _ _ HN)) as N0. destruct HN as (ns & HN & ->).
  assert (length es <= length fs)%nat by (unfold len in *; lia).
  assert (Ef : firstn (length es) fs = fs) by (apply firstn_all2; unfold len in *; lia).
  destruct (C15_secondary_particle_round_trip_partial srt es ns bm (Some fs) Hs HV HN B) as (ds & o & l & M & O & C & L & S & R).
  { split; [assumption|]. unfold max_words in B. lia. }
  cbn [opt_frames] in S, R. rewrite Ef in *.
  exists l. split; [exact L|]. split.
  - exists o. unfold dh_built. rewrite M. cbn [bind]. split; [exact O|]. split; [exact C|exact S].
  - intros t Ht v Hv. destruct (R bm v (Some t) (content_has _ _ Hv) Ht) as (o' & M' & _ & S'). eauto.
Qed.

(** DLW with the TYR block of the table, which may have more entries *)
Definition ent_sizes srt is n : Prop := exists ns, Forall2 (ent_size srt) is ns /\ n = sumZ ns.
Definition dl_built bm srt (is : list (mult_in * en_in)) fs : outcome dlw :=
  ds <- mapM (en_of bm srt) (map snd is) ;; ms <- mapM (mult_of bm) (map fst is) ;; dl_of bm ds ms fs.
Lemma ent_sizes_bounds srt is n : ent_sizes srt is n -> 0 <= n /\ (Forall (fun i => mult_valid (fst i) /\ en_valid srt (snd i)) is -> 6 * len is <= n).
Proof.
  intros (ns & HN & ->). induction HN as [|[m e] x is ns (k & H & ->) _ IH]; [cbn; split; [|intros]; lia|]. cbn [sumZ fold_right fst snd] in *. rewrite len_cons. unfold sumZ in IH.
  destruct (en_size_nonneg srt e k H) as [H1 H2]. assert (0 <= mult_size m) by (destruct m; cbn [mult_size]; nonneg; lia). split; [lia|].
  intros F. inversion F as [|? ? [F1 F2] F3]; subst. cbn [snd] in F2. destruct IH as [_ IH]. specialize (IH F3). specialize (H2 F2). lia.
Qed.
Lemma dl_supplies bm srt is n fs : eqb_sort_contract srt -> Forall (fun i => mult_valid (fst i) /\ en_valid srt (snd i)) is -> ent_sizes srt is n ->
  len is + n < max_words -> 101 + n < max_words -> Forall2 (fun f m => f = CentreOfMass -> m <> MNum 0) fs (map fst is) ->
  exists w ms, len w = len is + n /\ Forall2 ty_ok fs ms /\ len ms = len is
    /\ (exists o, dl_built bm srt is fs = Ok o /\ content (dl_v o) w /\ dl_NR o = len is /\ dl_frames o = fs /\ ty_mults (dl_tyr o) = ms)
    /\ forall t frames zeros, ty_shows bm t (fs ++ frames) (ms ++ zeros) ->
         readable (fun v => dl_make bm v (vbeg v + len is) t (len is)) w (fun o => dl_shows bm o (map snd is) (map fst is) fs).
Proof.
  unfold max_words. intros Hs HV (ns & HN & ->) B1 B2 Hfs. destruct (ent_kinds srt is Hs HV) as (es & HK & HZ).
  pose proof (dl_words_size srt is es ns 1 HZ HN) as E. pose proof (len_nonneg (dl_words 1 es)) as Nw. pose proof (len_nonneg es) as Ne.
  pose proof (Forall2_len _ _ _ HK) as Le. pose proof (Forall2_len _ _ _ Hfs) as Lf. rewrite map_length in Lf.
  assert (Eis : len is = len es) by (unfold len; lia).
  destruct (ent_kinds_of bm srt is es HK) as (ds & ms & M1 & M2 & L1 & L2 & F); [unfold max_words; lia|].
  pose proof (dl_tyrs_ok srt is es fs 1 HK Hfs ltac:(lia) ltac:(lia)) as Ht.
  exists (dl_layout es), (dl_tyrs 1 es). split; [rewrite len_dl_layout; lia|]. split; [exact Ht|]. split; [unfold len; rewrite length_dl_tyrs; lia|].
  assert (G : ty_generateXSS fs (dl_tyrs 1 es) = Ok (ty_signs fs (dl_tyrs 1 es))).
  { unfold ty_generateXSS. replace (len fs =? len (dl_tyrs 1 es)) with true; [reflexivity|]. symmetry. unfold len. rewrite length_dl_tyrs. lia. }
  assert (Lt : len (ty_signs fs (dl_tyrs 1 es)) = len is).
  { rewrite (ty_signs_ok _ _ Ht), len_map. unfold len. rewrite combine_length, length_dl_tyrs. lia. }
  assert (Efs : len fs = len is) by (unfold len; lia).
  assert (Ct0 : content (own (ty_signs fs (dl_tyrs 1 es))) (ty_signs fs (dl_tyrs 1 es))) by (apply own_content; unfold max_words; lia).
  destruct (ty_round_trip bm _ fs _ _ Ht G (content_has _ _ Ct0)) as [_ Hof].
  destruct Hof as (t & Ot & Ct & St); [unfold max_words; lia|].
  assert (C : content (own (dl_layout es)) (dl_layout es)) by (apply own_content; rewrite len_dl_layout; unfold max_words; lia).
  destruct (dl_blocks bm srt _ is es t fs [] HK (content_has _ _ C)) as (o & Go & Vo & To & So); [lia|rewrite app_nil_r; exact St|lia|].
  split.
  - exists o. split.
    { unfold dl_built. rewrite M1. cbn [bind]. rewrite M2. cbn [bind]. unfold dl_of. rewrite (dl_generate_ok bm es ds ms L1 L2 F) by lia. cbn [bind fst snd]. rewrite Ot. cbn [bind].
      replace (len ds) with (len es) by (unfold len; lia). rewrite u32_small by lia. exact Go. }
    split; [rewrite Vo; exact C|]. rewrite To. destruct St as (_ & Sf & Sm & _). split; [|split; [|exact Sm]].
    + destruct So as (So & _). rewrite So, len_map. lia.
    + revert Go. unfold dl_generateBlocks. destruct (mapM (dl_one bm (own (dl_layout es)) (len es) t) _) as [rs| |]; try discriminate. cbn [bind]. destruct (len (ty_frames t) <? len es); [discriminate|]. intros Go. apply Ok_inj in Go. subst o. cbn [dl_frames].
      rewrite Sf. apply firstn_all2. unfold len in *. lia.
  - intros t' frames zeros St' v Hv.
    destruct (dl_blocks bm srt v is es t' (fs ++ frames) zeros HK (content_has _ _ Hv)) as (o' & Go' & Vo' & To' & So'); [lia|exact St'|rewrite app_length; lia|].
    exists o'. split.
    + unfold dl_make. rewrite Eis. rewrite s64_small by lia. destruct (Z.ltb_spec (vbeg v + len es - vbeg v) (len es)); [lia|]. cbn [throw_if bind]. exact Go'.
    + rewrite firstn_app in So'. replace (length es - length fs)%nat with 0%nat in So' by lia. cbn [firstn] in So'. rewrite app_nil_r, firstn_all2 in So' by lia. exact So'.
Qed.

(** UNR: reading goes by the words from the start of the view *)
Record unrV := UnrV { uv_bins : Z; uv_int : Z; uv_ilf : Z; uv_ioa : Z; uv_iff : Z; uv_tables : list tb_in }.
Definition unr_valid (u : unrV) : Prop := uv_tables u <> [] /\ Forall (ti_valid (uv_bins u)) (uv_tables u)
  /\ 0 <= uv_int u < 2 ^ 31 /\ - 2 ^ 31 <= uv_ilf u < 2 ^ 31 /\ - 2 ^ 31 <= uv_ioa u < 2 ^ 31 /\ 0 <= uv_iff u < 2 ^ 31.
Definition unr_size (u : unrV) : Z := 6 + len (uv_tables u) + len (uv_tables u) * (6 * uv_bins u).
Definition unr_built bm (u : unrV) : outcome unr := ts <- mapM tb_of_in (uv_tables u) ;; un_of bm (uv_int u) (uv_ilf u) (uv_ioa u) (uv_iff u) ts.
Definition unr_claim bm (u : unrV) (o : unr) : Prop := un_shows bm o (uv_int u) (uv_ilf u) (uv_ioa u) (uv_iff u) (uv_tables u).
Lemma unr_supplies bm u : unr_valid u -> unr_size u < max_words ->
  exists w, len w = unr_size u /\ (exists o, unr_built bm u = Ok o /\ content (un_v o) w /\ unr_claim bm u o)
    /\ forall v, has v w -> exists o, un_make bm v = Ok o /\ unr_claim bm u o.
Proof.
  intros (Hne & HF & B1 & B2 & B3 & B4) B. unfold unr_size in *. destruct u as [m int ilf ioa iff is]. cbn [uv_bins uv_int uv_ilf uv_ioa uv_iff uv_tables] in *.
  assert (Hm : 0 <= m). { destruct is as [|i r]; [congruence|]. inversion HF as [|? ? Hi _]. destruct (ti_len _ _ Hi) as [_ <-]. apply len_nonneg. }
  assert (Lis : 1 <= len is). { destruct is; [congruence|]. rewrite len_cons. pose proof (len_nonneg is). lia. }
  assert (exists ts, mapM tb_of_in is = Ok ts) as (ts & E).
  { assert (Bm : 6 * m < max_words) by nia. clear - HF Bm bm. induction HF as [|i is Hi _ (ts & IH)]; [exists []; reflexivity|].
    destruct (ti_len _ _ Hi) as [L _]. destruct (tb_of_ok bm m i Hi ltac:(lia)) as (o & E & _). exists (o :: ts). cbn [mapM]. rewrite E. cbn [bind]. rewrite IH. reflexivity. }
  destruct (C19_probability_tables bm m int ilf ioa iff is ts Hne HF E B1 B2 B3 B4 B) as (l & G & Bu & R).
  exists l. split; [|split].
  - assert (HT : Forall2 (fun t i => content (ad_v (tb_a t)) (ti_layout i) /\ tb_incidentEnergy t = ti_e i /\ tb_numberBins t = m) ts is).
    { assert (Bm : 6 * m < max_words) by nia. clear - bm HF E Bm. revert ts E. induction HF as [|i is Hi _ IH]; intros ts Hts.
      - apply Ok_inj in Hts. subst. constructor.
      - cbn [mapM] in Hts. destruct (ti_len _ _ Hi) as [L _]. destruct (tb_of_ok bm m i Hi ltac:(lia)) as (o & E & C & S & N & _). rewrite E in Hts. cbn [bind] in Hts.
        destruct (mapM tb_of_in is) as [ts'| |] eqn:E'; try discriminate. cbn [bind] in Hts. apply Ok_inj in Hts. subst ts.
        constructor; [|apply IH; reflexivity]. split; [exact C|]. split; [exact (proj1 S)|exact N]. }
    rewrite (un_generateXSS_ok m int ilf ioa iff is ts Hne HT) in G. apply Ok_inj in G. subst l.
    unfold un_layout. rewrite !len_app, len_map, (len_concat_ti m is HF), !len_cons. change (len (@nil double)) with 0. lia.
  - destruct Bu as (o & M & C & S). exists o. unfold unr_built. cbn [uv_bins uv_int uv_ilf uv_ioa uv_iff uv_tables]. rewrite E. cbn [bind]. split; [exact M|]. split; [exact C|exact S].
  - exact R.
Qed.

(** BDD *)
Definition bd_built bm is : outcome bdd := ls <- mapM bi_words is ;; bd_of bm ls.
Definition bd_w (is : list bd_in) : list double := bd_generateXSS (map bi_layout is).
Lemma bd_supplies bm is : Forall bi_valid is -> len (bd_w is) < max_words -> supplies (bd_built bm is) bd_v (fun v => bd_make bm v (len is)) (bd_w is) (fun o => bd_shows bm o is).
Proof.
  intros F B. assert (M : mapM bi_words is = Ok (map bi_layout is)).
  { clear B. induction F as [|i is [H1 H2] _ IH]; [reflexivity|]. cbn [mapM map].
    unfold bi_words at 1, dp_generateXSS, pt_generateXSS. rewrite td_generateXSS_ok by assumption. cbn [bind]. rewrite IH. reflexivity. }
  destruct (C20_precursors bm is _ M) as [R C]. split.
  - unfold bd_built. rewrite M. cbn [bind]. destruct (C B) as (o & O & C1 & C2). eauto.
  - intros v Hv. exact (R v (content_has _ _ Hv)).
Qed.

(** HPD *)
Definition hpd_w (index : Z) (p h : list double) : list double := dbl index :: dbl (len p) :: p ++ h.
Lemma hpd_supplies bm index p h : 0 <= index < 2 ^ 53 -> len h = len p -> len (hpd_w index p h) < max_words ->
  supplies (hpd_of index p h) (fun v => v) (hpd_make bm) (hpd_w index p h) (fun v => hpd_shows bm v index p h).
Proof.
  intros Hi E B. assert (G : hpd_generateXSS index p h = Ok (hpd_w index p h)).
  { unfold hpd_generateXSS. replace (len h =? len p) with true by lia. reflexivity. }
  destruct (C35_secondary_particle_production bm index p h _ Hi G) as [R C]. split; [exact (C B)|].
  intros v Hv. destruct (R v (content_has _ _ Hv)) as [R1 R2]. eauto.
Qed.

(** * The last conventional word *)

Definition ce_last_ok (s : ceS) : Prop :=
  match s_photon s, s_delayed s, s_unr s with
  | Some g, _, _ => 2 <= len (fst (g_yp g))
  | None, Some b, _ => b_n b + 2 <= len (fst (b_dned b))
  | None, None, Some u => 2 <= len (fst u)
  | None, None, None => s_nr s + 2 <= len (fst (s_dlw s)) \/ (s_nr s = 0 /\ fst (s_dlw s) = [] /\ 3 <= len (fst (s_ang s)))
  end.
Ltac last_case HE :=
  match type of HE with
  | context [given ?o] => destruct (given o); injection HE as HE; lia
  | context [match ?l with [] => _ | _ :: _ => _ end] => destruct l; injection HE as HE; lia
  | _ => injection HE as HE; lia
  end.
Ltac last_cases k HE Hk := do 32 (destruct k as [|k]; [cbn [nth_error] in HE; first [congruence|clear Hk; last_case HE]|]); destruct k; discriminate.
Lemma ce_last s : ce_sizes s -> Forall (fun c => 0 < len c) (s_xs s) -> 0 <= s_nr s -> s_nr s + 1 <= len (fst (s_ang s)) -> s_nr s <= len (fst (s_dlw s)) ->
  (forall b, s_delayed s = Some b -> 0 < b_n b <= len (fst (b_dned b))) ->
  (forall g, s_photon s = Some g -> 0 < g_n g /\ g_n g <= len (fst (g_sigp g)) /\ g_n g <= len (fst (g_andp g)) /\ g_n g <= len (fst (g_dlwp g))) ->
  ce_last_ok s -> forall f k, ce_fission s f -> k <> 21%nat -> nth_error (ce_locators s f) k <> Some (ce_END s).
Proof.
  intros HZ Hxs Hnr Hang Hdlw Hdel Hph HL f k HF Hk.
  assert (Hsig : len (bl_layout true (s_xs s)) = s_ntr s + len (concat (s_xs s))). { rewrite len_bl_layout, (sz_xs _ HZ). reflexivity. }
  assert (Hf : f = 0 \/ f <= ce_off s 6).
  { destruct (in_dec Z.eq_dec 18 (s_mts s)) as [Hi|Hi]; [right|left; exact (proj2 HF Hi)]. destruct (proj1 HF Hi) as (j & J & ->).
    pose proof (firstn_succ_concat 5 (ce_pieces s) _ eq_refl) as E. fold (ce_off s 5) in E. fold (ce_off s 6) in E. rewrite E, Hsig.
    assert (Lj : (j < length (s_xs s))%nat).
    { destruct J as [J _]. apply nth_error_len in J. pose proof (sz_xs _ HZ). unfold s_ntr, len in *. lia. }
    destruct (nth_error (s_xs s) j) as [c|] eqn:Ec; [|apply nth_error_None in Ec; lia].
    pose proof (firstn_succ_concat j (s_xs s) _ Ec) as E2. pose proof (concat_firstn_le (S j) (s_xs s)).
    rewrite Forall_forall in Hxs. pose proof (Hxs c (nth_error_In _ _ Ec)). lia. }
  pose proof (len_nonneg (s_mts s)) as Nt. pose proof (len_nonneg (concat (s_xs s))) as Nx.
  assert (LX : forall k w, nth_error (ce_pieces s) k = Some w -> ce_off s (S k) = ce_off s k + len w) by (intros k0 w H; exact (firstn_succ_concat k0 _ _ H)).
  pose proof (LX 0%nat _ eq_refl) as L0. pose proof (LX 1%nat _ eq_refl) as L1. pose proof (LX 2%nat _ eq_refl) as L2. pose proof (LX 3%nat _ eq_refl) as L3. pose proof (LX 4%nat _ eq_refl) as L4.
  pose proof (LX 5%nat _ eq_refl) as L5. pose proof (LX 6%nat _ eq_refl) as L6. pose proof (LX 7%nat _ eq_refl) as L7. pose proof (LX 8%nat _ eq_refl) as L8. pose proof (LX 9%nat _ eq_refl) as L9.
  pose proof (LX 10%nat _ eq_refl) as L10. pose proof (LX 11%nat _ eq_refl) as L11. pose proof (LX 12%nat _ eq_refl) as L12. pose proof (LX 13%nat _ eq_refl) as L13. pose proof (LX 14%nat _ eq_refl) as L14.
  pose proof (LX 15%nat _ eq_refl) as L15. pose proof (LX 16%nat _ eq_refl) as L16. pose proof (LX 17%nat _ eq_refl) as L17. clear LX.
  assert (E0 : ce_off s 0 = 0) by reflexivity.
  unfold ce_last_ok in HL. unfold ce_locators, ce_END.
  pose proof (len_nonneg (fst (s_esz s))). pose proof (len_nonneg (fst (s_lqr s))).
  pose proof (len_nonneg (ty_layout (all_frames s) (all_ms s))). pose proof (len_nonneg (map dbl (s_mts s))).
  remember (ce_off s 0) as e0. remember (ce_off s 1) as e1. remember (ce_off s 2) as e2. remember (ce_off s 3) as e3. remember (ce_off s 4) as e4. remember (ce_off s 5) as e5. remember (ce_off s 6) as e6.
  remember (ce_off s 7) as e7. remember (ce_off s 8) as e8. remember (ce_off s 9) as e9. remember (ce_off s 10) as e10. remember (ce_off s 11) as e11. remember (ce_off s 12) as e12.
  remember (ce_off s 13) as e13. remember (ce_off s 14) as e14. remember (ce_off s 15) as e15. remember (ce_off s 16) as e16. remember (ce_off s 17) as e17. remember (ce_off s 18) as e18.
  rewrite len_map in *. fold (s_ntr s) in *.
  assert (Nu : 0 <= len (words_or (fun c : claim nu => c) (s_nu s))) by apply len_nonneg.
  assert (Un : 0 <= len (words_or (fun c : claim unr => c) (s_unr s))) by apply len_nonneg.
  intros HE.
  pose proof (len_nonneg (fst (s_ptype s))) as Np. pose proof (len_nonneg (s_particles s)) as Nq. fold (s_ntype s) in Nq.
  assert (NN : forall (w : list double), 0 <= len w) by (intros; apply len_nonneg).
  repeat match goal with H : _ = _ + len ?x |- _ => lazymatch goal with _ : 0 <= len x |- _ => fail | _ => pose proof (NN x) end end.
  clear NN HZ HF Hxs.
  assert (Hf' : f <= e6) by lia. clear Hf.
  assert (N1 : 0 <= e1 <= e2 /\ e2 <= e3 <= e4 /\ e4 <= e5 /\ e6 = e5 + s_ntr s + len (concat (s_xs s)) /\ e7 = e6 + len (fst (s_ang s)) /\ e8 = e7 + len (fst (s_dlw s)) /\ e8 <= e9 <= e10 /\ e10 <= e11 <= e12
    /\ e12 <= e13 <= e14 /\ e14 <= e15 <= e16 /\ e16 <= e17 <= e18) by (clear - E0 L0 L1 L2 L3 L4 L5 L6 L7 L8 L9 L10 L11 L12 L13 L14 L15 L16 L17 Hsig Nu Un H H0 H1 H2 H3 H4 H5 H6 H7 H8 H9 H10 H11 Nt; fold (s_ntr s) in *; lia).
  fold (s_ntr s) in Nt. clear E0 L0 L1 L2 L3 L4 L5 L6 L7 Nu Hsig H H0 H1 H2 Heqe0 Heqe1 Heqe2 Heqe3 Heqe4 Heqe5 Heqe6 Heqe7 Heqe8 Heqe9 Heqe10 Heqe11 Heqe12 Heqe13 Heqe14 Heqe15 Heqe16 Heqe17 Heqe18.
  assert (B1 : or0 b_n (s_delayed s) <= len (words_or b_dned (s_delayed s))).
  { destruct (s_delayed s) as [b|]; cbn; [specialize (Hdel b eq_refl); lia|lia]. }
  destruct (s_photon s) as [g|]; [|destruct (s_delayed s) as [b|]; [|destruct (s_unr s) as [u|]]]; cbn [given words_or or0] in *.
  - specialize (Hph g eq_refl). clear Hdel L8 L9 L10 Un. last_cases k HE Hk.
  - specialize (Hdel b eq_refl). clear Hph L8 L9 L10 Un. change (len (@nil double)) with 0 in *. last_cases k HE Hk.
  - clear Hdel Hph. change (len (@nil double)) with 0 in *. last_cases k HE Hk.
  - clear Hdel Hph. change (len (@nil double)) with 0 in *.
    assert (DL : s_nr s + 2 <= e8 - e7 \/ (s_nr s = 0 /\ e8 = e7 /\ 3 <= len (fst (s_ang s)))).
    { destruct HL as [HL|(HL1 & HL2 & HL3)]; [left; lia|right]. rewrite HL2 in *. change (len (@nil double)) with 0 in *. lia. }
    clear HL. last_cases k HE Hk.
Qed.
