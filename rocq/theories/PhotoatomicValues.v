(** PhotoatomicTable: from values to a table and back. *)
From Coq Require Import ZArith Bool List Lia Ascii.
From Coq Require Import ZifyBool ZifyNat.
From Verif Require Import PropLemmasBasic.
From Verif Require Export PhotoatomicData.
Import ListNotations.
Open Scope Z_scope.

(** * Values *)

(** EPS and SWD *)
Record shellV := ShellV { sv_electrons : list Z; sv_energies : list double; sv_probabilities : list double;
  sv_profiles : list (Z * list double * list double * list double) (* interpolation, momentum, pdf, cdf *) }.
(** The electron blocks *)
Record electronV := ElectronV {
  xv_ids : list Z; xv_population : list double; xv_binding : list double; xv_vacancy : list double; xv_transitions : list Z; (* SUBSH *)
  xv_sphel : list (list double); (* SPHEL: one cross section for each subshell *)
  xv_xprob : list (list tr_in); (* XPROB *)
  xv_energies : list double; xv_elastic : list double; xv_brems : list double; xv_excitation : list double; xv_ion0 : list double; xv_ions : list (list double); (* ESZE *)
  xv_excit : list double * list double; (* EXCIT *)
  xv_elas : list eb_in; (* ELAS *)
  xv_eion : list (list eb_in); (* EION: one block for each subshell *)
  xv_breme : list eb_in; (* BREME *)
  xv_breml : list double * list double; (* BREML *)
  xv_selas : option (list double * list double) (* SELAS *) }.
Record photoV := PhotoV { vp_z : Z; vp_za : list Z; vp_awr : list double;
  vp_energies : list double; vp_incoherent : list double; vp_coherent : list double; vp_photoelectric : list double; vp_pair : list double; (* ESZG *)
  vp_jinc : option (list double) * list double; (* momentum (or the standard values), values *)
  vp_jcoh : option (list double) * list double * list double;
  vp_jflo : option (list double * list double * list double * list double);
  vp_lhnm : list double; vp_shells : option shellV; vp_electrons : option electronV }.

(** * Construction *)
Definition ji_built (j : option (list double) * list double) : outcome jinc := match fst j with Some m => ji_of m (snd j) | None => ji_of_values (snd j) end.
Definition jc_built (j : option (list double) * list double * list double) : outcome jinc :=
  match fst (fst j) with Some m => jc_of m (snd (fst j)) (snd j) | None => jc_of2 (snd (fst j)) (snd j) end.
Definition profile_words (p : Z * list double * list double * list double) : list double := let '(i, x, pdf, cdf) := p in tp_layout i x pdf cdf [].
(** the profiles are built first: TabulatedProbabilityDistribution's generateXSS *)
Definition swd_built bm (ps : list (Z * list double * list double * list double)) : outcome (blockWithLocators view) :=
  cs <- mapM (fun p => let '(i, x, pdf, cdf) := p in tp_generateXSS i x pdf cdf []) ps ;; bl_of bm (swd_gd bm) true cs.
Definition xprob_built bm (tss : list (list tr_in)) : outcome (blockWithLocators arrayData) :=
  ds <- mapM (fun ts => tr_of (map ti_primary ts) (map ti_secondary ts) (map ti_energy ts) (map ti_probability ts)) tss ;;
  cs <- mapM (fun d => xss_all (ad_v d)) ds ;; bl_of bm xp_gd false cs.
Definition eb_built bm (is : list eb_in) : outcome electronBlock := ds <- mapM (fun i => ed_of (ei_e i) (ei_x i) (ei_c i)) is ;; eb_of bm ds.

Definition pa_build bm (zaid : list ascii) (v : photoV) : outcome paTable :=
  eszg <- eg_of (vp_energies v) (vp_incoherent v) (vp_coherent v) (vp_photoelectric v) (vp_pair v) ;;
  jinc <- ji_built (vp_jinc v) ;;
  jcoh <- jc_built (vp_jcoh v) ;;
  lhnm <- lq_of (vp_lhnm v) ;;
  jflo <- optM (fun j => let '(e, phi, y, f) := j in jf_of e phi y f) (vp_jflo v) ;;
  eps <- optM (fun s => ep_of (sv_electrons s) (sv_energies s) (sv_probabilities s)) (vp_shells v) ;;
  swd <- optM (fun s => swd_built bm (sv_profiles s)) (vp_shells v) ;;
  subsh <- optM (fun x => ss_of (xv_ids x) (xv_population x) (xv_binding x) (xv_vacancy x) (xv_transitions x)) (vp_electrons v) ;;
  sphel <- optM (fun x => sp_of (xv_sphel x)) (vp_electrons v) ;;
  xprob <- optM (fun x => xprob_built bm (xv_xprob x)) (vp_electrons v) ;;
  esze <- optM (fun x => ez_of (xv_energies x) (xv_elastic x) (xv_brems x) (xv_excitation x) (xv_ion0 x :: xv_ions x)) (vp_electrons v) ;;
  excit <- optM (fun x => two_of (fst (xv_excit x)) (snd (xv_excit x))) (vp_electrons v) ;;
  elas <- optM (fun x => eb_built bm (xv_elas x)) (vp_electrons v) ;;
  eion <- mapM (eb_built bm) (match vp_electrons v with Some x => xv_eion x | None => [] end) ;;
  breme <- optM (fun x => eb_built bm (xv_breme x)) (vp_electrons v) ;;
  breml <- optM (fun x => two_of (fst (xv_breml x)) (snd (xv_breml x))) (vp_electrons v) ;;
  selas <- optM (fun s => two_of (fst s) (snd s)) (match vp_electrons v with Some x => xv_selas x | None => None end) ;;
  pa_of bm zaid (PaIn (vp_z v) (vp_za v) (vp_awr v) eszg jinc jcoh lhnm jflo eps swd subsh sphel xprob esze excit elas eion breme breml selas).

(** * Validity: sizes that belong together agree *)
Definition profile_valid (p : Z * list double * list double * list double) : Prop := let '(i, x, pdf, cdf) := p in - 2 ^ 31 <= i < 2 ^ 31 /\ len pdf = len x /\ len cdf = len x.
Definition shell_valid (s : shellV) : Prop :=
  mt_valid (sv_electrons s) /\ sv_electrons s <> [] /\ len (sv_energies s) = len (sv_electrons s) /\ len (sv_probabilities s) = len (sv_electrons s)
  /\ len (sv_profiles s) = len (sv_electrons s) /\ Forall profile_valid (sv_profiles s).
Record electron_valid (nes : Z) (x : electronV) : Prop := {
  e_subsh : mt_valid (xv_ids x) /\ mt_valid (xv_transitions x) /\ len (xv_population x) = len (xv_ids x) /\ len (xv_binding x) = len (xv_ids x)
            /\ len (xv_vacancy x) = len (xv_ids x) /\ len (xv_transitions x) = len (xv_ids x);
  e_sphel : len (xv_sphel x) = len (xv_ids x) /\ Forall (fun c => len c = nes) (xv_sphel x);
  e_xprob : len (xv_xprob x) = len (xv_ids x) /\ Forall (Forall tr_valid) (xv_xprob x);
  e_esze : 1 + len (xv_ions x) = len (xv_ids x) /\ Forall (fun c => len c = len (xv_energies x)) (xv_elastic x :: xv_brems x :: xv_excitation x :: xv_ion0 x :: xv_ions x);
  e_excit : len (snd (xv_excit x)) = len (fst (xv_excit x));
  e_elas : Forall ei_valid (xv_elas x);
  e_eion : len (xv_eion x) = len (xv_ids x) /\ Forall (Forall ei_valid) (xv_eion x);
  e_breme : Forall ei_valid (xv_breme x);
  e_breml : len (snd (xv_breml x)) = len (fst (xv_breml x));
  e_selas : match xv_selas x with Some s => len (fst s) = len (xv_energies x) /\ len (snd s) = len (xv_energies x) | None => True end }.

(** * The words *)
Definition esze_words (x : electronV) : list double :=
  match ez_generateArrays (xv_energies x) (xv_elastic x) (xv_brems x) (xv_excitation x) (xv_ion0 x :: xv_ions x) with Ok a => concat a | _ => [] end.
Definition el_words (x : electronV) : pew := Pew
  (concat (ss_arrays (xv_ids x) (xv_population x) (xv_binding x) (xv_vacancy x) (xv_transitions x))) (concat (xv_sphel x)) (bl_layout false (map tr_words (xv_xprob x)))
  (esze_words x) (concat [fst (xv_excit x); snd (xv_excit x)]) (eb_layout (xv_elas x)) (map (fun is => (len is, eb_layout is)) (xv_eion x)) (eb_layout (xv_breme x))
  (concat [fst (xv_breml x); snd (xv_breml x)]) (option_map (fun s => concat [fst s; snd s]) (xv_selas x)).
Definition el_shape (nes : Z) (x : electronV) : pe_shape := PeShape (match xv_selas x with Some _ => 3 | None => 1 end) nes (len (xv_ids x)) (len (xv_energies x))
  (len (fst (xv_excit x))) (len (xv_elas x)) (len (xv_breme x)) (len (fst (xv_breml x))).
Definition pv_words (v : photoV) : paW := PaW (len (vp_energies v)) (concat [vp_energies v; vp_incoherent v; vp_coherent v; vp_photoelectric v; vp_pair v])
  (or_nil (fst (vp_jinc v)) ++ snd (vp_jinc v)) (or_nil (fst (fst (vp_jcoh v))) ++ snd (fst (vp_jcoh v)) ++ snd (vp_jcoh v))
  (option_map (fun j => let '(e, phi, y, f) := j in (len e, concat [e; phi; y; f])) (vp_jflo v)) (vp_lhnm v)
  (option_map (fun s => (len (sv_electrons s), concat [map dbl (sv_electrons s); sv_energies s; sv_probabilities s], bl_layout true (map profile_words (sv_profiles s)))) (vp_shells v))
  (option_map (fun x => (el_words x, el_shape (len (vp_energies v)) x)) (vp_electrons v)).

Record pa_valid (v : photoV) : Prop := {
  v_z : 0 <= vp_z v < 2 ^ 31;
  v_za : len (vp_awr v) = len (vp_za v) /\ len (vp_za v) <= 16;
  v_eszg : Forall (fun c => len c = len (vp_energies v)) [vp_incoherent v; vp_coherent v; vp_photoelectric v; vp_pair v];
  v_jinc : len (snd (vp_jinc v)) = match fst (vp_jinc v) with Some m => len m | None => 21 end;
  v_jcoh : let n := match fst (fst (vp_jcoh v)) with Some m => len m | None => 55 end in len (snd (fst (vp_jcoh v))) = n /\ len (snd (vp_jcoh v)) = n;
  v_jflo : match vp_jflo v with Some (e, phi, y, f) => 0 < len e /\ len phi = len e /\ len y = len e /\ len f = len e | None => True end;
  v_lhnm : len (vp_lhnm v) = len (vp_energies v);
  v_shells : match vp_shells v with Some s => shell_valid s | None => True end;
  v_electrons : match vp_electrons v with Some x => electron_valid (len (vp_energies v)) x | None => True end;
  v_size : len (wa_xss (pv_words v)) < max_words }.

(** * What the table shows *)
Definition transitions_claim bm (tss : list (list tr_in)) (o : blockWithLocators arrayData) : Prop :=
  bl_n o = len tss /\ forall k ts, nth_error tss k = Some ts -> exists d, bl_datum bm o (Z.of_nat k + 1) = Ok d /\ tr_shows bm d ts.
Definition profiles_claim bm (ps : list (Z * list double * list double * list double)) (o : blockWithLocators view) : Prop :=
  bl_n o = len ps /\ forall k i x pdf cdf, nth_error ps k = Some (i, x, pdf, cdf) -> exists d, bl_datum bm o (Z.of_nat k + 1) = Ok d /\ tp_shows bm d i x pdf cdf [].
Definition esze_claim bm (x : electronV) (o : arrayData) : Prop :=
  exists total ionisation, ez_sums total (xv_elastic x) (xv_brems x) (xv_excitation x) ionisation (xv_ion0 x :: xv_ions x)
    /\ ez_shows bm o (xv_energies x) total (xv_elastic x) (xv_brems x) (xv_excitation x) ionisation (xv_ion0 x :: xv_ions x).
Definition shows_opt {A B} (S : A -> B -> Prop) (x : option A) (o : option B) : Prop :=
  match x, o with Some x, Some o => S x o | None, None => True | _, _ => False end.
Definition jinc_momentum (m : option (list double)) : list double := match m with Some m => m | None => ji_standard end.
Definition jcoh_momentum (m : option (list double)) : list double := match m with Some m => m | None => jc_standard end.

Record pa_returns bm (zaid : list ascii) (v : photoV) (t : paTable) : Prop := {
  p_zaid : pt_zaid t = zaid;
  p_iz : d_iz (pt_data t) = iza (vp_za v) /\ d_aw (pt_data t) = awra (vp_awr v);
  p_nxs : d_nxs (pt_data t) = wa_nxs (pv_words v) (vp_z v) (len (snd (vp_jinc v))) (len (snd (vp_jcoh v)));
  p_jxs : d_jxs (pt_data t) = wa_jxs (pv_words v);
  p_xss : d_xss (pt_data t) = wa_xss (pv_words v);
  p_eszg : eg_shows bm (pt_eszg t) (vp_energies v) (vp_incoherent v) (vp_coherent v) (vp_photoelectric v) (vp_pair v);
  p_jinc : ji_shows bm (pt_jinc t) (jinc_momentum (fst (vp_jinc v))) (snd (vp_jinc v));
  p_jcoh : jc_shows bm (pt_jcoh t) (jcoh_momentum (fst (fst (vp_jcoh v)))) (snd (fst (vp_jcoh v))) (snd (vp_jcoh v));
  p_jflo : shows_opt (fun j o => let '(e, phi, y, f) := j in jf_shows bm o e phi y f) (vp_jflo v) (pt_jflo t);
  p_lhnm : lq_shows bm (pt_lhnm t) (vp_lhnm v);
  p_eps : shows_opt (fun s o => ep_shows bm o (sv_electrons s) (sv_energies s) (sv_probabilities s)) (vp_shells v) (pt_eps t);
  p_swd : shows_opt (fun s o => profiles_claim bm (sv_profiles s) o) (vp_shells v) (pt_swd t);
  p_subsh : shows_opt (fun x o => ss_shows bm o (xv_ids x) (xv_population x) (xv_binding x) (xv_vacancy x) (xv_transitions x)) (vp_electrons v) (pt_subsh t);
  p_sphel : shows_opt (fun x o => sp_shows bm o (len (vp_energies v)) (xv_sphel x)) (vp_electrons v) (pt_sphel t);
  p_xprob : shows_opt (fun x o => transitions_claim bm (xv_xprob x) o) (vp_electrons v) (pt_xprob t);
  p_esze : shows_opt (esze_claim bm) (vp_electrons v) (pt_esze t);
  p_excit : shows_opt (fun x o => two_shows bm o (fst (xv_excit x)) (snd (xv_excit x))) (vp_electrons v) (pt_excit t);
  p_elas : shows_opt (fun x o => eb_shows bm o (xv_elas x)) (vp_electrons v) (pt_elas t);
  p_eion : forall x k is, vp_electrons v = Some x -> nth_error (xv_eion x) k = Some is -> exists o, pa_EION bm t (Z.of_nat k + 1) = Ok o /\ eb_shows bm o is;
  p_breme : shows_opt (fun x o => eb_shows bm o (xv_breme x)) (vp_electrons v) (pt_breme t);
  p_breml : shows_opt (fun x o => two_shows bm o (fst (xv_breml x)) (snd (xv_breml x))) (vp_electrons v) (pt_breml t);
  p_selas : shows_opt (fun s o => two_shows bm o (fst s) (snd s)) (match vp_electrons v with Some x => xv_selas x | None => None end) (pt_selas t) }.

(** * Each block *)
Lemma eg_supplies bm en inc coh pe pp : all_len (len en) [en; inc; coh; pe; pp] -> len (concat [en; inc; coh; pe; pp]) < max_words ->
  supplies (eg_of en inc coh pe pp) ad_v (fun v => eg_make v (len en)) (concat [en; inc; coh; pe; pp]) (fun o => eg_shows bm o en inc coh pe pp).
Proof. intros A B. destruct (eg_block bm en inc coh pe pp A) as [P Q]. split; [exact (P B)|]. intros v Hv. destruct (Q v (content_has _ _ Hv)) as (o & E & _ & S). eauto. Qed.
Lemma jf_supplies bm e phi y f : all_len (len e) [e; phi; y; f] -> len (concat [e; phi; y; f]) < max_words ->
  supplies (jf_of e phi y f) ad_v (fun v => jf_make v (len e)) (concat [e; phi; y; f]) (fun o => jf_shows bm o e phi y f).
Proof. intros A B. destruct (jf_block bm e phi y f A) as [P Q]. split; [exact (P B)|]. intros v Hv. destruct (Q v (content_has _ _ Hv)) as (o & E & _ & S). eauto. Qed.
Lemma ep_supplies bm el en pr : mt_valid el -> all_len (len el) [map dbl el; en; pr] -> len (concat [map dbl el; en; pr]) < max_words ->
  supplies (ep_of el en pr) ad_v (fun v => ep_make v (len el)) (concat [map dbl el; en; pr]) (fun o => ep_shows bm o el en pr).
Proof. intros V A B. destruct (ep_block bm el en pr V A) as [P Q]. split; [exact (P B)|]. intros v Hv. destruct (Q v (content_has _ _ Hv)) as (o & E & _ & S). eauto. Qed.
Lemma ss_supplies bm ids pop be cv nt : mt_valid ids -> mt_valid nt -> all_len (len ids) (ss_arrays ids pop be cv nt) -> len (concat (ss_arrays ids pop be cv nt)) < max_words ->
  supplies (ss_of ids pop be cv nt) ad_v (fun v => ss_make v (len ids)) (concat (ss_arrays ids pop be cv nt)) (fun o => ss_shows bm o ids pop be cv nt).
Proof. intros V1 V2 A B. destruct (ss_block bm ids pop be cv nt V1 V2 A) as [P Q]. split; [exact (P B)|]. intros v Hv. destruct (Q v (content_has _ _ Hv)) as (o & E & _ & S). eauto. Qed.
Lemma sp_supplies bm nes xs : all_len nes xs -> xs <> [] -> len xs < 2 ^ 31 -> len (concat xs) < max_words ->
  supplies (sp_of xs) ad_v (fun v => sp_make v (len xs) nes) (concat xs) (fun o => sp_shows bm o nes xs).
Proof. intros A N L B. destruct (sp_block bm nes xs A N L) as [P Q]. split; [exact (P B)|]. intros v Hv. destruct (Q v (content_has _ _ Hv)) as (o & E & _ & S). eauto. Qed.
Lemma two_supplies bm a b : len b = len a -> len (concat [a; b]) < max_words ->
  supplies (two_of a b) ad_v (fun v => two_make v (len a)) (concat [a; b]) (fun o => two_shows bm o a b).
Proof. intros A B. destruct (two_block bm a b) as [P Q]; [repeat constructor; exact A|]. split; [exact (P B)|]. intros v Hv. destruct (Q v (content_has _ _ Hv)) as (o & E & _ & S). eauto. Qed.
Lemma ji_supplies bm j : len (snd j) = match fst j with Some m => len m | None => 21 end -> len (or_nil (fst j) ++ snd j) < max_words ->
  supplies (ji_built j) (fun o => ad_v (ji_a o)) ji_make (or_nil (fst j) ++ snd j) (fun o => ji_shows bm o (jinc_momentum (fst j)) (snd j)).
Proof.
  destruct j as [[m|] x]; cbn [fst snd or_nil jinc_momentum app]; intros L B; unfold ji_built; cbn [fst snd].
  - destruct (ji_block bm m x L) as [P Q]. rewrite len_app in B. split; [apply P; lia|]. intros v Hv. destruct (Q v Hv) as (o & E & _ & S). eauto.
  - destruct (ji_values_block bm x L) as [P Q]. split; [exact P|]. intros v Hv. destruct (Q v Hv) as (o & E & _ & S). eauto.
Qed.
Lemma jc_supplies bm j : let n := match fst (fst j) with Some m => len m | None => 55 end in len (snd (fst j)) = n -> len (snd j) = n -> len (or_nil (fst (fst j)) ++ snd (fst j) ++ snd j) < max_words ->
  supplies (jc_built j) (fun o => ad_v (ji_a o)) jc_make (or_nil (fst (fst j)) ++ snd (fst j) ++ snd j) (fun o => jc_shows bm o (jcoh_momentum (fst (fst j))) (snd (fst j)) (snd j)).
Proof.
  destruct j as [[[m|] x] y]; cbn [fst snd or_nil jcoh_momentum app]; intros L1 L2 B; unfold jc_built; cbn [fst snd].
  - destruct (jc_block bm m x y L1 L2) as [P Q]. repeat rewrite len_app in B. split; [apply P; lia|]. intros v Hv. destruct (Q v Hv) as (o & E & _ & S). eauto.
  - destruct (jc_block2 bm x y L1 L2) as [P Q]. split; [exact P|]. intros v Hv. destruct (Q v Hv) as (o & E & _ & S). eauto.
Qed.
Lemma mapM_map {A B} (f : A -> outcome B) g l : (forall x, In x l -> f x = Ok (g x)) -> mapM f l = Ok (map g l).
Proof. induction l as [|x l IH]; intros H; [reflexivity|]. cbn [mapM map]. rewrite (H x (or_introl eq_refl)). cbn [bind]. rewrite IH by (intros y Hy; apply H; right; exact Hy). reflexivity. Qed.
Lemma swd_supplies bm ps : Forall profile_valid ps -> len (bl_layout true (map profile_words ps)) < max_words ->
  supplies (swd_built bm ps) bl_v (fun v => bl_make bm (swd_gd bm) v (vbeg v + len ps) (len ps) true) (bl_layout true (map profile_words ps)) (profiles_claim bm ps).
Proof.
  intros F B. rewrite Forall_forall in F.
  assert (M : mapM (fun p => let '(i, x, pdf, cdf) := p in tp_generateXSS i x pdf cdf []) ps = Ok (map profile_words ps)).
  { apply mapM_map. intros [[[i x] pdf] cdf] Hp. destruct (F _ Hp) as (_ & L1 & L2). unfold tp_generateXSS, profile_words, tp_layout.
    rewrite cd_generateXSS_ok by (repeat constructor; assumption). reflexivity. }
  assert (R : Forall (fun p : Z * list double * list double * list double => let '(i, _, _, _) := p in - 2 ^ 31 <= i < 2 ^ 31) ps).
  { apply Forall_forall. intros [[[i x] pdf] cdf] Hp. exact (proj1 (F _ Hp)). }
  unfold swd_built. rewrite M. cbn [bind].
  pose proof (fun v => C36_compton_profiles bm v ps _ _ R M (bl_generateXSS_ok true (map profile_words ps))) as H.
  split.
  - rewrite (C09_locator_block_built _ bm (swd_gd bm) true _ _ (bl_generateXSS_ok true _) B). rewrite len_map.
    destruct (H _ (content_has _ _ (own_content _ B))) as (o & E & V & N & D). exists o. split; [exact E|]. split; [rewrite V; exact (own_content _ B)|]. exact (conj N D).
  - intros v Hv. destruct (H v (content_has _ _ Hv)) as (o & E & V & N & D). exists o. exact (conj E (conj N D)).
Qed.
Lemma xprob_supplies bm tss : Forall (Forall tr_valid) tss -> len (bl_layout false (map tr_words tss)) < max_words ->
  supplies (xprob_built bm tss) bl_v (fun v => bl_make bm xp_gd v (vbeg v + len tss) (len tss) false) (bl_layout false (map tr_words tss)) (transitions_claim bm tss).
Proof.
  intros F B. pose proof (fun v => C38_transition_block bm v tss _ F (bl_generateXSS_ok false (map tr_words tss))) as H.
  assert (M : (ds <- mapM (fun ts => tr_of (map ti_primary ts) (map ti_secondary ts) (map ti_energy ts) (map ti_probability ts)) tss ;; mapM (fun d => xss_all (ad_v d)) ds) = Ok (map tr_words tss)).
  { assert (B' : len (concat (map tr_words tss)) < max_words) by (rewrite len_bl_layout in B; pose proof (len_nonneg (map tr_words tss)); lia). clear B H.
    induction tss as [|ts tss IH]; [reflexivity|]. apply Forall_cons_iff in F as [F1 F2]. cbn [map concat] in B'. rewrite len_app in B'.
    pose proof (len_nonneg (tr_words ts)). pose proof (len_nonneg (concat (map tr_words tss))). specialize (IH F2 ltac:(lia)).
    destruct (proj1 (C38_transition_data Debug ts F1)) as (o & E & C & _).
    { assert (Lt : len (tr_words ts) = 4 * len ts) by (unfold tr_words; rewrite (len_concat 4 _ (tr_all_len ts)), len_map; lia). lia. }
    cbn [mapM map]. rewrite E. cbn [bind]. destruct (mapM _ tss) as [ds| |]; try discriminate. cbn [bind mapM] in *. rewrite (xss_all_content _ _ C). cbn [bind]. rewrite IH. reflexivity. }
  assert (Ex : xprob_built bm tss = bl_of bm xp_gd false (map tr_words tss)).
  { unfold xprob_built. revert M. destruct (mapM _ tss) as [ds| |]; cbn [bind]; intros M; try discriminate. rewrite M. reflexivity. }
  rewrite Ex. split.
  - rewrite (C09_locator_block_built _ bm xp_gd false _ _ (bl_generateXSS_ok false _) B). rewrite len_map.
    destruct (H _ (own_content _ B)) as (o & E & V & N & D). exists o. split; [exact E|]. split; [rewrite V; exact (own_content _ B)|]. exact (conj N D).
  - intros v Hv. destruct (H v Hv) as (o & E & V & N & D). exists o. exact (conj E (conj N D)).
Qed.
Lemma eb_supplies bm is : Forall ei_valid is -> len (eb_layout is) < max_words ->
  supplies (eb_built bm is) eb_v (fun v => eb_make bm v (len is)) (eb_layout is) (fun o => eb_shows bm o is).
Proof.
  intros F B. split.
  - assert (M : exists ds, mapM (fun i => ed_of (ei_e i) (ei_x i) (ei_c i)) is = Ok ds /\ Forall2 ei_holds ds is).
    { assert (B' : len (concat (map ei_words is)) < max_words) by (rewrite len_eb_layout in B; pose proof (len_nonneg is); lia). clear B.
      induction is as [|i is IH]; [exists []; split; [reflexivity|constructor]|]. apply Forall_cons_iff in F as [F1 F2]. cbn [map concat] in B'. rewrite len_app in B'.
      pose proof (len_nonneg (ei_words i)). pose proof (len_nonneg (concat (map ei_words is))). destruct (IH F2 ltac:(lia)) as (ds & E & Hds).
      destruct (ed_of_ok Debug i F1) as (o & Eo & Ho & _).
      { assert (Lw : len (ei_words i) = len (ei_x i) + len (ei_c i)) by (unfold ei_words; apply len_app). unfold ei_valid in F1. lia. }
      exists (o :: ds). cbn [mapM]. rewrite Eo. cbn [bind]. rewrite E. cbn [bind]. split; [reflexivity|constructor; assumption]. }
    destruct M as (ds & E & H). unfold eb_built. rewrite E. cbn [bind]. exact (eb_of_ok bm ds is H F B).
  - intros v Hv. destruct (eb_has bm v is F (content_has _ _ Hv)) as (o & E & _ & S). eauto.
Qed.
Lemma ez_supplies bm x : Forall (fun c => len c = len (xv_energies x)) (xv_elastic x :: xv_brems x :: xv_excitation x :: xv_ion0 x :: xv_ions x) -> 7 + len (xv_ions x) < 2 ^ 31 -> len (esze_words x) < max_words ->
  supplies (ez_of (xv_energies x) (xv_elastic x) (xv_brems x) (xv_excitation x) (xv_ion0 x :: xv_ions x)) ad_v
    (fun v => ez_make v (1 + len (xv_ions x)) (len (xv_energies x))) (esze_words x) (esze_claim bm x).
Proof.
  intros F L B. destruct (ez_generateArrays_ok _ _ _ _ _ _ F) as (total & totion & G & AL & S). unfold esze_words in *. rewrite G in *.
  assert (Len : len (concat (ez_arrays (xv_energies x) total (xv_elastic x) (xv_brems x) (xv_excitation x) totion (xv_ion0 x :: xv_ions x))) = (6 + len (xv_ion0 x :: xv_ions x)) * len (xv_energies x)).
  { rewrite (len_concat _ _ AL). unfold ez_arrays. rewrite !len_cons. lia. }
  split.
  - destruct (ez_of_ok bm _ _ _ _ _ _ F) as (o & total' & totion' & E & C & S' & Sh); [rewrite <- Len; exact B|rewrite len_cons; lia|].
    exists o. split; [exact E|]. split; [|exists total', totion'; auto].
    unfold ez_of in E. rewrite G in E. cbn [bind] in E. destruct (ad_reads_of bm (len (xv_energies x)) _ AL) as (o' & E' & C' & _).
    { discriminate. } { unfold ez_arrays. rewrite !len_cons. lia. } { exact B. }
    rewrite E in E'. apply Ok_inj in E'. subst o'. exact C'.
  - intros v Hv. destruct (ez_make_has bm v (xv_energies x) total (xv_elastic x) (xv_brems x) (xv_excitation x) totion (xv_ion0 x :: xv_ions x) AL) as (o & E & _ & Sh).
    { rewrite len_cons; lia. } { exact (content_has _ _ Hv). }
    rewrite len_cons in E. exists o. split; [exact E|]. exists total, totion. auto.
Qed.

(** * The electron blocks together *)
Definition el_reads bm (nes : Z) (x : electronV) : pe_reads := PeReads
  (fun o => ss_shows bm o (xv_ids x) (xv_population x) (xv_binding x) (xv_vacancy x) (xv_transitions x)) (fun o => sp_shows bm o nes (xv_sphel x)) (transitions_claim bm (xv_xprob x))
  (esze_claim bm x) (fun o => two_shows bm o (fst (xv_excit x)) (snd (xv_excit x))) (fun o => eb_shows bm o (xv_elas x))
  (fun k o => exists is, nth_error (xv_eion x) k = Some is /\ eb_shows bm o is) (fun o => eb_shows bm o (xv_breme x)) (fun o => two_shows bm o (fst (xv_breml x)) (snd (xv_breml x)))
  (fun o => match xv_selas x with Some s => two_shows bm o (fst s) (snd s) | None => True end).

Record el_built bm nes (x : electronV) (o1 : arrayData) (o2 : arrayData) (o3 : blockWithLocators arrayData) (o4 : arrayData) (o5 : arrayData) (o6 : electronBlock) (o7 : list electronBlock)
    (o8 : electronBlock) (o9 : arrayData) (o10 : option arrayData) : Prop := {
  b1 : ss_of (xv_ids x) (xv_population x) (xv_binding x) (xv_vacancy x) (xv_transitions x) = Ok o1 /\ content (ad_v o1) (w_subsh (el_words x)) /\ r_subsh (el_reads bm nes x) o1;
  b2 : sp_of (xv_sphel x) = Ok o2 /\ content (ad_v o2) (w_sphel (el_words x)) /\ r_sphel (el_reads bm nes x) o2;
  b3 : xprob_built bm (xv_xprob x) = Ok o3 /\ content (bl_v o3) (w_xprob (el_words x)) /\ r_xprob (el_reads bm nes x) o3;
  b4 : ez_of (xv_energies x) (xv_elastic x) (xv_brems x) (xv_excitation x) (xv_ion0 x :: xv_ions x) = Ok o4 /\ content (ad_v o4) (w_esze (el_words x)) /\ r_esze (el_reads bm nes x) o4;
  b5 : two_of (fst (xv_excit x)) (snd (xv_excit x)) = Ok o5 /\ content (ad_v o5) (w_excit (el_words x)) /\ r_excit (el_reads bm nes x) o5;
  b6 : eb_built bm (xv_elas x) = Ok o6 /\ content (eb_v o6) (w_elas (el_words x)) /\ r_elas (el_reads bm nes x) o6;
  b7 : mapM (eb_built bm) (xv_eion x) = Ok o7 /\ Forall2 ei_given o7 (w_eion (el_words x)) /\ Forall (fun i => fst i < 2 ^ 30) (w_eion (el_words x));
  b8 : eb_built bm (xv_breme x) = Ok o8 /\ content (eb_v o8) (w_breme (el_words x)) /\ r_breme (el_reads bm nes x) o8;
  b9 : two_of (fst (xv_breml x)) (snd (xv_breml x)) = Ok o9 /\ content (ad_v o9) (w_breml (el_words x)) /\ r_breml (el_reads bm nes x) o9;
  b10 : optM (fun s => two_of (fst s) (snd s)) (xv_selas x) = Ok o10 /\ match o10, w_selas (el_words x) with Some o, Some y => content (ad_v o) y /\ two_N o = len (xv_energies x) | None, None => True | _, _ => False end }.

Lemma len_ss ids pop be cv nt : all_len (len ids) (ss_arrays ids pop be cv nt) -> len (concat (ss_arrays ids pop be cv nt)) = 5 * len ids.
Proof. intros A. rewrite (len_concat _ _ A). unfold ss_arrays. rewrite !len_cons, len_nil. lia. Qed.

Lemma electrons_ok bm nes x pre : electron_valid nes x -> 0 <= pre -> pre + len (pew_all pre (el_words x)) < max_words ->
  (exists o1 o2 o3 o4 o5 o6 o7 o8 o9 o10, el_built bm nes x o1 o2 o3 o4 o5 o6 o7 o8 o9 o10)
  /\ pe_readable bm (el_words x) (el_shape nes x) (el_reads bm nes x)
  /\ Forall (fun n => 0 <= n < 2 ^ 32) [h_nepr (el_shape nes x); h_nssh (el_shape nes x); h_ne (el_shape nes x); h_nxl (el_shape nes x); h_na (el_shape nes x); h_nb (el_shape nes x); h_nbl (el_shape nes x)]
  /\ (let w := el_words x in let h := el_shape nes x in h_nssh h = len (w_eion w) /\ h_nssh h <= len (w_xprob w) /\ 5 * h_nssh h <= len (w_subsh w)
      /\ 0 <= h_na h /\ 3 * h_na h <= len (w_elas w) /\ 0 <= h_nb h /\ 3 * h_nb h <= len (w_breme w)).
Proof.
  intros V Hpre B. destruct V as [(V1 & V1' & L1 & L2 & L3 & L4) (L5 & F5) (L6 & F6) (L7 & F7) L8 F9 (L10 & F10) F11 L12 V13].
  assert (A1 : all_len (len (xv_ids x)) (ss_arrays (xv_ids x) (xv_population x) (xv_binding x) (xv_vacancy x) (xv_transitions x))) by (unfold ss_arrays; repeat constructor; rewrite ?len_map; auto).
  pose proof (len_ss _ _ _ _ _ A1) as Ls.
  unfold pew_all, ei_all, pew_1, pew_2 in B. repeat rewrite len_app in B. rewrite len_ei_header in B. cbn [el_words w_subsh w_sphel w_xprob w_esze w_excit w_elas w_eion w_breme w_breml w_selas] in B.
  repeat rewrite len_app in B. rewrite map_map in B. rewrite len_map in B. cbn [snd] in B.
  set (m1 := concat (ss_arrays (xv_ids x) (xv_population x) (xv_binding x) (xv_vacancy x) (xv_transitions x))) in *. set (m2 := concat (xv_sphel x)) in *. set (m3 := bl_layout false (map tr_words (xv_xprob x))) in *.
  set (m4 := esze_words x) in *. set (m5 := concat [fst (xv_excit x); snd (xv_excit x)]) in *. set (m6 := eb_layout (xv_elas x)) in *. set (m7 := concat (map eb_layout (xv_eion x))) in *.
  set (m8 := eb_layout (xv_breme x)) in *. set (m9 := concat [fst (xv_breml x); snd (xv_breml x)]) in *. set (m10 := or_nil (option_map (fun s => concat [fst s; snd s]) (xv_selas x))) in *.
  pose proof (len_nonneg m1). pose proof (len_nonneg m2). pose proof (len_nonneg m3). pose proof (len_nonneg m4). pose proof (len_nonneg m5). pose proof (len_nonneg m6). pose proof (len_nonneg m7).
  pose proof (len_nonneg m8). pose proof (len_nonneg m9). pose proof (len_nonneg m10). pose proof (len_nonneg (xv_eion x)). pose proof (len_nonneg (xv_ids x)). pose proof (len_nonneg (xv_ions x)).
  assert (M : max_words = 2 ^ 31) by reflexivity.
  assert (Q1 := ss_supplies bm _ _ _ _ _ V1 V1' A1 ltac:(fold m1; lia)).
  assert (Q2 : supplies (sp_of (xv_sphel x)) ad_v (fun v => sp_make v (len (xv_sphel x)) nes) m2 (fun o => sp_shows bm o nes (xv_sphel x))).
  { apply sp_supplies; [exact F5| |lia|fold m2; lia]. intros E. rewrite E in L5. rewrite len_nil in L5. lia. }
  assert (Q3 := xprob_supplies bm _ F6 ltac:(fold m3; lia)).
  assert (Q4 := ez_supplies bm x F7 ltac:(lia) ltac:(fold m4; lia)).
  assert (Q5 := two_supplies bm _ _ L8 ltac:(fold m5; lia)).
  assert (Q6 := eb_supplies bm _ F9 ltac:(fold m6; lia)).
  assert (Q8 := eb_supplies bm _ F11 ltac:(fold m8; lia)).
  assert (Q9 := two_supplies bm _ _ L12 ltac:(fold m9; lia)).
  assert (Ht : forall is, In is (xv_eion x) -> Forall ei_valid is /\ len (eb_layout is) <= len m7).
  { intros is Hi. rewrite Forall_forall in F10. split; [exact (F10 _ Hi)|]. unfold m7. clear -Hi. induction (xv_eion x) as [|a l IH]; [contradiction|]. cbn [map concat]. rewrite len_app.
    destruct Hi as [->|Hi]; [pose proof (len_nonneg (concat (map eb_layout l)))|specialize (IH Hi); pose proof (len_nonneg (eb_layout a))]; lia. }
  assert (Q7 : forall is, In is (xv_eion x) -> 0 <= len is < 2 ^ 30 /\ supplies (eb_built bm is) eb_v (fun v => eb_make bm v (len is)) (eb_layout is) (fun o => eb_shows bm o is)).
  { intros is Hi. destruct (Ht is Hi) as [V Lt]. split; [rewrite len_eb_layout in Lt; pose proof (len_nonneg is); pose proof (len_nonneg (concat (map ei_words is))); lia|]. apply eb_supplies; [exact V|lia]. }
  assert (LE6 := len_eb_layout (xv_elas x)). assert (LE8 := len_eb_layout (xv_breme x)). fold m6 in LE6. fold m8 in LE8. assert (LX := len_bl_layout false (map tr_words (xv_xprob x))). fold m3 in LX. rewrite len_map in LX.
  assert (Lm5 : len m5 = len (fst (xv_excit x)) + len (snd (xv_excit x))) by (unfold m5; cbn [concat]; repeat rewrite len_app; change (len (@nil double)) with 0; lia).
  assert (Lm9 : len m9 = len (fst (xv_breml x)) + len (snd (xv_breml x))) by (unfold m9; cbn [concat]; repeat rewrite len_app; change (len (@nil double)) with 0; lia).
  assert (Lm4 : len (xv_energies x) <= len m4).
  { unfold m4, esze_words. destruct (ez_generateArrays_ok _ _ _ _ _ _ F7) as (total & totion & G & AL & _). rewrite G, (len_concat _ _ AL). unfold ez_arrays. rewrite !len_cons. pose proof (len_nonneg (xv_energies x)). nia. }
  pose proof (len_nonneg (concat (map ei_words (xv_elas x)))). pose proof (len_nonneg (concat (map ei_words (xv_breme x)))). pose proof (len_nonneg (concat (map tr_words (xv_xprob x)))).
  pose proof (len_nonneg (xv_elas x)). pose proof (len_nonneg (xv_breme x)). pose proof (len_nonneg (fst (xv_excit x))). pose proof (len_nonneg (fst (xv_breml x))). pose proof (len_nonneg (snd (xv_excit x))). pose proof (len_nonneg (snd (xv_breml x))).
  pose proof (len_nonneg (xv_energies x)).
  assert (Q10 : match xv_selas x with Some s => supplies (two_of (fst s) (snd s)) ad_v (fun v => two_make v (len (fst s))) (concat [fst s; snd s]) (fun o => two_shows bm o (fst s) (snd s)) | None => True end).
  { destruct (xv_selas x) as [s|]; [|exact I]. apply two_supplies; [lia|]. cbn [option_map or_nil] in m10. fold m10. lia. }
  split; [|split; [|split]].
  - destruct Q1 as [(o1 & Q1) _]. destruct Q2 as [(o2 & Q2) _]. destruct Q3 as [(o3 & Q3) _]. destruct Q4 as [(o4 & Q4) _]. destruct Q5 as [(o5 & Q5) _]. destruct Q6 as [(o6 & Q6) _].
    destruct Q8 as [(o8 & Q8) _]. destruct Q9 as [(o9 & Q9) _].
    assert (E7 : exists o7, mapM (eb_built bm) (xv_eion x) = Ok o7 /\ Forall2 ei_given o7 (w_eion (el_words x)) /\ Forall (fun i => fst i < 2 ^ 30) (w_eion (el_words x))).
    { cbn [el_words w_eion]. clear -Q7. induction (xv_eion x) as [|is l IH]; [exists []; split; [reflexivity|split; constructor]|].
      destruct IH as (o7 & E & F & Fb); [intros i Hi; apply Q7; right; exact Hi|]. destruct (Q7 is (or_introl eq_refl)) as [Hb [(o & Eo & Co & So) _]].
      exists (o :: o7). cbn [mapM]. rewrite Eo. cbn [bind]. rewrite E. cbn [bind map]. split; [reflexivity|]. split; constructor; try assumption; cbn [fst snd]; [|lia].
      destruct So as (N & _). split; [exact Co|]. split; [exact N|apply len_nonneg]. }
    destruct E7 as (o7 & Q7').
    assert (E10 : exists o10, optM (fun s => two_of (fst s) (snd s)) (xv_selas x) = Ok o10 /\ match o10, w_selas (el_words x) with Some o, Some y => content (ad_v o) y /\ two_N o = len (xv_energies x) | None, None => True | _, _ => False end).
    { cbn [el_words w_selas]. destruct (xv_selas x) as [s|]; cbn [optM option_map]; [|exists None; auto]. destruct Q10 as [(o & Eo & Co & (N & _)) _]. rewrite Eo. cbn [bind]. exists (Some o). split; [reflexivity|]. split; [exact Co|]. rewrite N. exact (proj1 V13). }
    destruct E10 as (o10 & Q10'). exists o1, o2, o3, o4, o5, o6, o7, o8, o9, o10. constructor; assumption.
  - constructor; cbn [el_words w_subsh w_sphel w_xprob w_esze w_excit w_elas w_eion w_breme w_breml w_selas el_shape h_nssh h_nes h_ne h_nxl h_na h_nb h_nbl el_reads r_subsh r_sphel r_xprob r_esze r_excit r_elas r_eion r_breme r_breml r_selas].
    + exact (proj2 Q1).
    + rewrite <- L5. exact (proj2 Q2).
    + rewrite <- L6. exact (proj2 Q3).
    + rewrite <- L7. exact (proj2 Q4).
    + exact (proj2 Q5).
    + exact (proj2 Q6).
    + intros k i Hk. rewrite nth_error_map in Hk. destruct (nth_error (xv_eion x) k) as [is|] eqn:Ek; [|discriminate]. cbn [option_map] in Hk. injection Hk as <-. cbn [fst snd].
      destruct (Q7 is (nth_error_In _ _ Ek)) as [Hb [_ R]]. split; [exact Hb|]. intros v Hv. destruct (R v Hv) as (o & E & S). exists o. split; [exact E|]. exists is. auto.
    + exact (proj2 Q8).
    + exact (proj2 Q9).
    + intros y Hy. destruct (xv_selas x) as [s|]; [|discriminate]. cbn [option_map] in Hy. injection Hy as <-. rewrite <- (proj1 V13). exact (proj2 Q10).
  - cbn [el_shape h_nepr h_nssh h_ne h_nxl h_na h_nb h_nbl]. repeat constructor; try lia; destruct (xv_selas x); lia.
  - cbn [el_words w_subsh w_sphel w_xprob w_esze w_excit w_elas w_eion w_breme w_breml w_selas el_shape h_nssh h_nes h_ne h_nxl h_na h_nb h_nbl]. rewrite len_map. fold m1 m3 m6 m8. lia.
Qed.

(** * The table *)
Definition pv_reads bm (v : photoV) : pa_reads := PaReads
  (fun o => eg_shows bm o (vp_energies v) (vp_incoherent v) (vp_coherent v) (vp_photoelectric v) (vp_pair v))
  (fun o => ji_shows bm o (jinc_momentum (fst (vp_jinc v))) (snd (vp_jinc v)))
  (fun o => jc_shows bm o (jcoh_momentum (fst (fst (vp_jcoh v)))) (snd (fst (vp_jcoh v))) (snd (vp_jcoh v)))
  (fun o => match vp_jflo v with Some (e, phi, y, f) => jf_shows bm o e phi y f | None => True end)
  (fun o => lq_shows bm o (vp_lhnm v))
  (fun o => match vp_shells v with Some s => ep_shows bm o (sv_electrons s) (sv_energies s) (sv_probabilities s) | None => True end)
  (fun o => match vp_shells v with Some s => profiles_claim bm (sv_profiles s) o | None => True end)
  (match vp_electrons v with Some x => el_reads bm (len (vp_energies v)) x
   | None => PeReads (fun _ => True) (fun _ => True) (fun _ => True) (fun _ => True) (fun _ => True) (fun _ => True) (fun _ _ => True) (fun _ => True) (fun _ => True) (fun _ => True) end).

Lemma some_inj {A} (x y : A) : Some x = Some y -> x = y.
Proof. congruence. Qed.
Lemma len_zeros n : len (zeros n) = Z.of_nat n.
Proof. unfold zeros, len. rewrite repeat_length. reflexivity. Qed.

Lemma pa_from_values_full bm zaid v : verifyType ["p"%char] zaid = Ok tt -> pa_valid v -> exists i t, pa_build bm zaid v = Ok t /\ pa_returns bm zaid v t
  /\ pa_given i (pv_words v) /\ pa_readable bm (pv_words v) (pv_reads bm v) /\ pa_za i = vp_za v /\ pa_awr i = vp_awr v 
  /\ pa_make bm zaid (TData (iza (vp_za v)) (awra (vp_awr v)) (wa_nxs (pv_words v) (vp_z v) (len (snd (vp_jinc v))) (len (snd (vp_jcoh v)))) (wa_jxs (pv_words v)) (wa_xss (pv_words v))) = Ok t
  /\ Forall (fun x => 0 <= x < 2 ^ 32) (wa_nxs (pv_words v) (vp_z v) (len (snd (vp_jinc v))) (len (snd (vp_jcoh v)))).
Proof.
  intros VT V. pose proof (v_size _ V) as B. unfold wa_xss in B. rewrite len_app in B.
  assert (M : max_words = 2 ^ 31) by reflexivity.
  assert (Lp : len (wa_pre (pv_words v)) = len (wa_eszg (pv_words v)) + len (wa_jinc (pv_words v)) + len (wa_jcoh (pv_words v)) + len (or_nil (option_map snd (wa_jflo (pv_words v)))) + len (wa_lhnm (pv_words v)) + len (wa_shell_words (pv_words v)))
    by (unfold wa_pre; repeat rewrite len_app; lia).
  match type of B with _ + len ?x < _ => pose proof (len_nonneg x) as G0 end.
  pose proof (len_nonneg (wa_eszg (pv_words v))) as G1. pose proof (len_nonneg (wa_jinc (pv_words v))) as G2. pose proof (len_nonneg (wa_jcoh (pv_words v))) as G3.
  pose proof (len_nonneg (or_nil (option_map snd (wa_jflo (pv_words v))))) as G4. pose proof (len_nonneg (wa_lhnm (pv_words v))) as G5. pose proof (len_nonneg (wa_shell_words (pv_words v))) as G6.
  pose proof (len_nonneg (wa_pre (pv_words v))) as G7. pose proof (len_nonneg (vp_energies v)) as G8.
  assert (A1 : all_len (len (vp_energies v)) [vp_energies v; vp_incoherent v; vp_coherent v; vp_photoelectric v; vp_pair v]) by (constructor; [reflexivity|exact (v_eszg _ V)]).
  assert (Lg : len (wa_eszg (pv_words v)) = 5 * len (vp_energies v)) by (cbn [pv_words wa_eszg]; rewrite (len_concat _ _ A1), !len_cons, len_nil; lia).
  assert (Q1 := eg_supplies bm _ _ _ _ _ A1). cbn [pv_words wa_eszg] in Lg. specialize (Q1 ltac:(cbn [pv_words wa_eszg] in *; lia)).
  assert (Q2 := ji_supplies bm (vp_jinc v) (v_jinc _ V) ltac:(cbn [pv_words wa_jinc] in *; lia)).
  destruct (v_jcoh _ V) as [Vj1 Vj2]. assert (Q3 := jc_supplies bm (vp_jcoh v) Vj1 Vj2 ltac:(cbn [pv_words wa_jcoh] in *; lia)).
  assert (Q5 := lq_supplies bm (vp_lhnm v) ltac:(cbn [pv_words wa_lhnm] in *; lia)). rewrite (v_lhnm _ V) in Q5.
  assert (Bj : len (snd (vp_jinc v)) < 2 ^ 32 /\ len (snd (vp_jcoh v)) < 2 ^ 32).
  { cbn [pv_words wa_jinc wa_jcoh] in *. repeat rewrite len_app in *. pose proof (len_nonneg (or_nil (fst (vp_jinc v)))). pose proof (len_nonneg (or_nil (fst (fst (vp_jcoh v))))). pose proof (len_nonneg (snd (fst (vp_jcoh v)))).
    pose proof (len_nonneg (snd (vp_jinc v))). pose proof (len_nonneg (snd (vp_jcoh v))). lia. }
  assert (Q4 : match vp_jflo v with Some (e, phi, y, f) => 0 < len e < 2 ^ 31 /\ supplies (jf_of e phi y f) ad_v (fun v => jf_make v (len e)) (concat [e; phi; y; f]) (fun o => jf_shows bm o e phi y f) | None => True end).
  { pose proof (v_jflo _ V) as Vf. cbn [pv_words wa_jflo] in *. destruct (vp_jflo v) as [[[[e phi] y] f]|]; [|exact I]. cbn [option_map snd or_nil] in *. destruct Vf as (P & L1 & L2 & L3).
    assert (Lc : len (concat [e; phi; y; f]) = 4 * len e) by (cbn [concat]; repeat rewrite len_app; change (len (@nil double)) with 0; lia).
    split; [lia|]. apply jf_supplies; [repeat constructor; assumption|lia]. }
  assert (Q6 : match vp_shells v with Some s => 0 < len (sv_electrons s) < 2 ^ 31 /\ len (bl_layout true (map profile_words (sv_profiles s))) >= len (sv_electrons s) /\ len (concat [map dbl (sv_electrons s); sv_energies s; sv_probabilities s]) = 3 * len (sv_electrons s)
     /\ supplies (ep_of (sv_electrons s) (sv_energies s) (sv_probabilities s)) ad_v (fun v => ep_make v (len (sv_electrons s))) (concat [map dbl (sv_electrons s); sv_energies s; sv_probabilities s]) (fun o => ep_shows bm o (sv_electrons s) (sv_energies s) (sv_probabilities s))
     /\ supplies (swd_built bm (sv_profiles s)) bl_v (fun v => bl_make bm (swd_gd bm) v (vbeg v + len (sv_electrons s)) (len (sv_electrons s)) true) (bl_layout true (map profile_words (sv_profiles s))) (profiles_claim bm (sv_profiles s)) | None => True end).
  { pose proof (v_shells _ V) as Vs. unfold wa_shell_words in *. cbn [pv_words wa_shells] in *. destruct (vp_shells v) as [s|]; [|exact I]. cbn [option_map] in *. destruct Vs as (Vm & Vn & L1 & L2 & L3 & Fp). rewrite len_app in *.
    assert (Lc : len (concat [map dbl (sv_electrons s); sv_energies s; sv_probabilities s]) = 3 * len (sv_electrons s)) by (cbn [concat]; repeat rewrite len_app; rewrite len_map; change (len (@nil double)) with 0; lia).
    assert (Lb := len_bl_layout true (map profile_words (sv_profiles s))). rewrite len_map in Lb. pose proof (len_nonneg (concat (map profile_words (sv_profiles s)))).
    assert (0 < len (sv_electrons s)) by (destruct (sv_electrons s); [contradiction|rewrite len_cons; pose proof (len_nonneg l); lia]).
    split; [lia|]. split; [lia|]. split; [exact Lc|]. split; [apply ep_supplies; [exact Vm|repeat constructor; rewrite ?len_map; auto|lia]|]. rewrite <- L3. apply swd_supplies; [exact Fp|lia]. }
  assert (QE : match vp_electrons v with Some x => (exists o1 o2 o3 o4 o5 o6 o7 o8 o9 o10, el_built bm (len (vp_energies v)) x o1 o2 o3 o4 o5 o6 o7 o8 o9 o10)
      /\ pe_readable bm (el_words x) (el_shape (len (vp_energies v)) x) (el_reads bm (len (vp_energies v)) x)
      /\ Forall (fun n => 0 <= n < 2 ^ 32) [h_nepr (el_shape (len (vp_energies v)) x); h_nssh (el_shape (len (vp_energies v)) x); h_ne (el_shape (len (vp_energies v)) x); h_nxl (el_shape (len (vp_energies v)) x); h_na (el_shape (len (vp_energies v)) x); h_nb (el_shape (len (vp_energies v)) x); h_nbl (el_shape (len (vp_energies v)) x)]
      /\ (let w := el_words x in let h := el_shape (len (vp_energies v)) x in h_nssh h = len (w_eion w) /\ h_nssh h <= len (w_xprob w) /\ 5 * h_nssh h <= len (w_subsh w)
      /\ 0 <= h_na h /\ 3 * h_na h <= len (w_elas w) /\ 0 <= h_nb h /\ 3 * h_nb h <= len (w_breme w)) | None => True end).
  { pose proof (v_electrons _ V) as Ve. cbn [pv_words wa_el] in B. destruct (vp_electrons v) as [x|]; [|exact I]. cbn [option_map] in B. apply (electrons_ok bm _ x (len (wa_pre (pv_words v))) Ve G7 B). }
  assert (Bn : len (vp_energies v) < 2 ^ 31) by (cbn [pv_words wa_eszg] in *; lia).
  set (w := pv_words v) in *. clear Lp.
  (* the arguments *)
  destruct Q1 as [(o1 & E1 & C1 & S1) R1]. destruct Q2 as [(o2 & E2 & C2 & S2) R2]. destruct Q3 as [(o3 & E3 & C3 & S3) R3]. destruct Q5 as [(o5 & E5 & C5 & S5) R5].
  unfold pa_build. rewrite E1. cbn [bind]. rewrite E2. cbn [bind]. rewrite E3. cbn [bind]. rewrite E5. cbn [bind].
  assert (X4 : exists o4, optM (fun j => let '(e, phi, y, f) := j in jf_of e phi y f) (vp_jflo v) = Ok o4 /\ match o4, wa_jflo w with Some o, Some (n, x) => content (ad_v o) x /\ jf_NFLO o = n | None, None => True | _, _ => False end).
  { cbn [w pv_words wa_jflo]. destruct (vp_jflo v) as [[[[e phi] y] f]|]; cbn [optM option_map]; [|exists None; auto]. destruct Q4 as (_ & (o & Eo & Co & (N & _)) & _). rewrite Eo. exists (Some o). auto. }
  destruct X4 as (o4 & E4 & C4). rewrite E4. cbn [bind].
  assert (X6 : exists e s, optM (fun s => ep_of (sv_electrons s) (sv_energies s) (sv_probabilities s)) (vp_shells v) = Ok e /\ optM (fun s => swd_built bm (sv_profiles s)) (vp_shells v) = Ok s
    /\ match e, s, wa_shells w with Some e, Some s, Some (n, x, y) => content (ad_v e) x /\ content (bl_v s) y /\ bl_n s = n /\ 0 < n /\ 3 * n <= len x /\ n <= len y | None, None, None => True | _, _, _ => False end).
  { pose proof (v_shells _ V) as Vs. cbn [w pv_words wa_shells]. destruct (vp_shells v) as [s|]; cbn [optM option_map]; [|exists None, None; auto]. destruct Q6 as (P1 & P2 & P3 & [(oe & Ee & Ce & _) _] & [(os & Es & Cs & (Ns & _)) _]).
    rewrite Ee, Es. cbn [bind]. exists (Some oe), (Some os). split; [reflexivity|]. split; [reflexivity|]. split; [exact Ce|]. split; [exact Cs|]. destruct Vs as (_ & _ & _ & _ & L3 & _). split; [lia|]. lia. }
  destruct X6 as (oe & os & Ee & Es & C6). rewrite Ee. cbn [bind]. rewrite Es. cbn [bind].
  set (mk := fun subsh sphel xprob esze excit elas eion breme breml selas => PaIn (vp_z v) (vp_za v) (vp_awr v) o1 o2 o3 o5 o4 oe os subsh sphel xprob esze excit elas eion breme breml selas).
  assert (XE : exists i, pa_given i w /\ pa_z i = vp_z v /\ pa_za i = vp_za v /\ pa_awr i = vp_awr v /\ pa_jinc i = o2 /\ pa_jcoh i = o3 /\
    (subsh <- optM (fun x => ss_of (xv_ids x) (xv_population x) (xv_binding x) (xv_vacancy x) (xv_transitions x)) (vp_electrons v) ;;
     sphel <- optM (fun x => sp_of (xv_sphel x)) (vp_electrons v) ;;
     xprob <- optM (fun x => xprob_built bm (xv_xprob x)) (vp_electrons v) ;;
     esze <- optM (fun x => ez_of (xv_energies x) (xv_elastic x) (xv_brems x) (xv_excitation x) (xv_ion0 x :: xv_ions x)) (vp_electrons v) ;;
     excit <- optM (fun x => two_of (fst (xv_excit x)) (snd (xv_excit x))) (vp_electrons v) ;;
     elas <- optM (fun x => eb_built bm (xv_elas x)) (vp_electrons v) ;;
     eion <- mapM (eb_built bm) (match vp_electrons v with Some x => xv_eion x | None => [] end) ;;
     breme <- optM (fun x => eb_built bm (xv_breme x)) (vp_electrons v) ;;
     breml <- optM (fun x => two_of (fst (xv_breml x)) (snd (xv_breml x))) (vp_electrons v) ;;
     selas <- optM (fun s => two_of (fst s) (snd s)) (match vp_electrons v with Some x => xv_selas x | None => None end) ;;
     pa_of bm zaid (mk subsh sphel xprob esze excit elas eion breme breml selas)) = pa_of bm zaid i).
  { destruct (v_za _ V) as [Z1 Z2]. destruct S1 as (N1 & _). destruct S5 as (N5 & _). pose proof (v_lhnm _ V) as Vl. pose proof (v_electrons _ V) as Ve.
    destruct (vp_electrons v) as [x|] eqn:Ex.
    - destruct QE as ((p1 & p2 & p3 & p4 & p5 & p6 & p7 & p8 & p9 & p10 & [(F1 & D1 & T1) (F2 & D2 & T2) (F3 & D3 & T3) (F4 & D4 & T4) (F5 & D5 & T5) (F6 & D6 & T6) (F7 & D7 & T7) (F8 & D8 & T8) (F9 & D9 & T9) (F10 & D10)]) & _ & _ & (H1 & H2 & H3 & H4 & H5 & H6 & H7)).
      exists (mk (Some p1) (Some p2) (Some p3) (Some p4) (Some p5) (Some p6) p7 (Some p8) (Some p9) p10). split; [|cbn [mk pa_z pa_za pa_awr pa_jinc pa_jcoh]; repeat (split; [reflexivity|])].
      + constructor; cbn [mk pa_za pa_awr pa_eszg pa_jinc pa_jcoh pa_jflo pa_lhnm pa_eps pa_swd]; try assumption; try lia.
        * split; [exact C1|exact N1].
        * split; [exact C5|exact (eq_trans N5 Vl)].
        * cbn [w pv_words wa_el]. rewrite Ex. cbn [option_map]. split; [|reflexivity]. constructor; cbn [mk pa_subsh pa_sphel pa_xprob pa_esze pa_excit pa_elas pa_eion pa_breme pa_breml pa_selas]; try assumption.
          { exists p1. split; [reflexivity|]. split; [exact D1|exact (proj1 T1)]. }
          { exists p2. split; [reflexivity|]. split; [exact D2|exact (proj1 T2)]. }
          { exists p3. split; [reflexivity|]. split; [exact D3|]. cbn [el_shape h_nssh]. rewrite (proj1 T3). exact (proj1 (e_xprob _ _ Ve)). }
          { exists p4. split; [reflexivity|]. split; [exact D4|]. destruct T4 as (? & ? & _ & (Q1 & Q2 & _)). split; [|exact Q1]. cbn [el_shape h_nssh]. rewrite Q2, len_cons. exact (proj1 (e_esze _ _ Ve)). }
          { exists p5. split; [reflexivity|]. split; [exact D5|exact (proj1 T5)]. }
          { exists p6. split; [reflexivity|]. split; [exact D6|exact (proj1 T6)]. }
          { exact (conj D7 T7). }
          { exists p8. split; [reflexivity|]. split; [exact D8|exact (proj1 T8)]. }
          { exists p9. split; [reflexivity|]. split; [exact D9|exact (proj1 T9)]. }
          { cbn [el_shape h_nepr el_words w_selas]. destruct (xv_selas x); reflexivity. }
      + cbn [optM]. rewrite F1. cbn [bind]. rewrite F2. cbn [bind]. rewrite F3. cbn [bind]. rewrite F4. cbn [bind]. rewrite F5. cbn [bind]. rewrite F6. cbn [bind]. rewrite F7. cbn [bind]. rewrite F8. cbn [bind]. rewrite F9. cbn [bind]. rewrite F10. cbn [bind]. reflexivity.
    - exists (mk None None None None None None [] None None None). split; [|repeat (split; [reflexivity|]); reflexivity].
      constructor; cbn [mk pa_za pa_awr pa_eszg pa_jinc pa_jcoh pa_jflo pa_lhnm pa_eps pa_swd]; try assumption; try lia.
      * split; [exact C1|exact N1].
      * split; [exact C5|exact (eq_trans N5 Vl)].
      * cbn [w pv_words wa_el]. rewrite Ex. cbn [option_map]. split; reflexivity. }
  destruct XE as (i & Gi & I1 & I2 & I3 & I4 & I5 & ->).
  assert (Bw : len (wa_xss w) < max_words) by exact (v_size _ V). unfold pa_of. rewrite (pa_generateData_ok i w Gi Bw). cbn [bind]. rewrite I1, I2, I3, I4, I5.
  destruct S2 as (N2 & S2). destruct S3 as (N3 & S3). rewrite N2, N3.
  assert (Fn : Forall (fun x => 0 <= x < 2 ^ 32) (wa_nxs w (vp_z v) (len (snd (vp_jinc v))) (len (snd (vp_jcoh v))))).
  { pose proof (len_nonneg (wa_xss w)). pose proof (v_z _ V). pose proof (len_nonneg (snd (vp_jinc v))). pose proof (len_nonneg (snd (vp_jcoh v))). unfold wa_nxs. apply Forall_app. split.
    - cbn [w pv_words wa_nes wa_jflo wa_shells]. fold w. constructor; [lia|]. constructor; [lia|]. constructor; [lia|]. constructor; [|constructor; [|constructor]].
      + destruct (vp_jflo v) as [[[[e phi] y] f]|]; cbn [option_map]; lia.
      + destruct (vp_shells v) as [s|]; cbn [option_map]; lia.
    - apply Forall_app. split; [|repeat constructor; lia]. cbn [w pv_words wa_el]. destruct (vp_electrons v) as [x|]; cbn [option_map].
      + destruct QE as (_ & _ & F & _). apply Forall_app. split; [exact F|]. destruct (h_nepr _ =? 3); repeat constructor; lia.
      + repeat constructor; lia. }
  assert (RQ : pa_readable bm w (pv_reads bm v)).
  { constructor; cbn [pv_reads s_eszg s_jinc s_jcoh s_jflo s_lhnm s_eps s_swd s_el]; try assumption.
    - intros n x Hj. cbn [w pv_words wa_jflo] in Hj. destruct (vp_jflo v) as [[[[e phi] y] f]|]; [|discriminate]. cbn [option_map] in Hj. apply some_inj in Hj. apply pair_equal_spec in Hj as [<- <-]. destruct Q4 as (P & _ & Rq). split; [lia|exact Rq].
    - intros n x y Hj. cbn [w pv_words wa_shells] in Hj. destruct (vp_shells v) as [s|]; [|discriminate]. cbn [option_map] in Hj. apply some_inj in Hj. apply pair_equal_spec in Hj as [Hj <-]. apply pair_equal_spec in Hj as [<- <-]. destruct Q6 as (P1 & P2 & P3 & [_ R6] & [_ R9]).
      split; [lia|]. split; [lia|]. split; [lia|]. exact (conj R6 R9).
    - intros e h He. cbn [w pv_words wa_el] in He. destruct (vp_electrons v) as [x|]; [|discriminate]. cbn [option_map] in He. apply some_inj in He. apply pair_equal_spec in He as [<- <-]. destruct QE as (_ & Re & _ & H1 & H2 & H3 & H4 & H5 & H6 & H7).
      split; [exact Re|]. split; [reflexivity|]. split; [cbn [el_shape h_nepr el_words w_selas]; destruct (xv_selas x); reflexivity|]. repeat (split; [assumption|]). assumption. }
  destruct (pa_make_ok bm zaid (iza (vp_za v)) (awra (vp_awr v)) w (vp_z v) (len (snd (vp_jinc v))) (len (snd (vp_jcoh v))) (pv_reads bm v) VT Bw Fn RQ) as (t & Et & Ez & Ed & R).
  exists i, t. split; [exact Et|]. split; [|exact (conj Gi (conj RQ (conj I2 (conj I3 (conj Et Fn)))))]. destruct R as [Ra Rb Rc Rd Re Rf Rg Rh]. cbn [pv_reads s_eszg s_jinc s_jcoh s_jflo s_lhnm s_eps s_swd s_el] in *.
  constructor; rewrite ?Ed; cbn [d_iz d_aw d_nxs d_jxs d_xss]; try reflexivity; try assumption; try (split; reflexivity).
  all: cbn [w pv_words wa_jflo wa_shells wa_el] in Re, Rf, Rg, Rh.
  - unfold shows_opt. destruct (vp_jflo v) as [[[[e phi] y] f]|], (pt_jflo t); exact Re.
  - unfold shows_opt. destruct (vp_shells v) as [s|], (pt_eps t); exact Rf.
  - unfold shows_opt. destruct (vp_shells v) as [s|], (pt_swd t); exact Rg.
  - destruct (vp_electrons v) as [x|]; cbn [option_map] in Rh; [|destruct Rh as (-> & _); exact I]. destruct Rh as (o & Ro & -> & _). exact (o_subsh _ _ _ Ro).
  - destruct (vp_electrons v) as [x|]; cbn [option_map] in Rh; [|destruct Rh as (_ & -> & _); exact I]. destruct Rh as (o & Ro & _ & -> & _). exact (o_sphel _ _ _ Ro).
  - destruct (vp_electrons v) as [x|]; cbn [option_map] in Rh; [|destruct Rh as (_ & _ & -> & _); exact I]. destruct Rh as (o & Ro & _ & _ & -> & _). exact (o_xprob _ _ _ Ro).
  - destruct (vp_electrons v) as [x|]; cbn [option_map] in Rh; [|destruct Rh as (_ & _ & _ & -> & _); exact I]. destruct Rh as (o & Ro & _ & _ & _ & -> & _). exact (o_esze _ _ _ Ro).
  - destruct (vp_electrons v) as [x|]; cbn [option_map] in Rh; [|destruct Rh as (_ & _ & _ & _ & -> & _); exact I]. destruct Rh as (o & Ro & _ & _ & _ & _ & -> & _). exact (o_excit _ _ _ Ro).
  - destruct (vp_electrons v) as [x|]; cbn [option_map] in Rh; [|destruct Rh as (_ & _ & _ & _ & _ & -> & _); exact I]. destruct Rh as (o & Ro & _ & _ & _ & _ & _ & -> & _). exact (o_elas _ _ _ Ro).
  - intros x k is Hx Hk. rewrite Hx in Rh, QE. cbn [option_map] in Rh. destruct Rh as (o & Ro & _ & _ & _ & _ & _ & _ & Re7 & _). destruct (o_eion _ _ _ Ro) as [L7 S7]. cbn [el_words w_eion] in L7. rewrite map_length in L7.
    pose proof (nth_error_len _ _ _ Hk) as Lk. destruct QE as (_ & _ & Fq & H1 & _). cbn [el_words w_eion] in H1. rewrite len_map in H1. rewrite Forall_forall in Fq.
    assert (Hb : 0 <= h_nssh (el_shape (len (vp_energies v)) x) < 2 ^ 32) by (apply Fq; right; left; reflexivity).
    destruct (nth_error (pt_eion t) k) as [b|] eqn:Eb; [|apply nth_error_None in Eb; rewrite Re7 in Eb; unfold len in Lk; lia].
    exists b. split.
    + unfold pa_EION. rewrite Ed. assert (Nn : pa_NSSH bm (TData (iza (vp_za v)) (awra (vp_awr v)) (wa_nxs w (vp_z v) (len (snd (vp_jinc v))) (len (snd (vp_jcoh v)))) (wa_jxs w) (wa_xss w)) = Ok (len (xv_eion x))).
      { apply (pa_N_nth bm _ 6); cbn [d_nxs]; [| lia | lia |].
        - unfold wa_nxs. cbn [w pv_words wa_el]. rewrite Hx. cbn [option_map app nth_error]. f_equal. exact H1.
        - unfold wa_nxs. cbn [w pv_words wa_el]. rewrite Hx. cbn [option_map]. repeat rewrite len_app. destruct (h_nepr _ =? 3); reflexivity. }
      unfold check. rewrite Nn. cbn [bind]. fold (check bm (verifyIndex (u64 (Z.of_nat k + 1)) 1 (len (xv_eion x)))). rewrite (u64_small (Z.of_nat k + 1)) by lia. rewrite check_verifyIndex by lia. cbn [bind].
      apply (at_has _ k); [exact Eb|reflexivity|]. rewrite Re7. unfold len in *. lia.
    + rewrite Re7 in Eb. destruct (S7 k b Eb) as (is' & Hk' & Sb). cbn [el_reads] in Sb. congruence.
  - destruct (vp_electrons v) as [x|]; cbn [option_map] in Rh; [|destruct Rh as (_ & _ & _ & _ & _ & _ & _ & -> & _); exact I]. destruct Rh as (o & Ro & _ & _ & _ & _ & _ & _ & _ & -> & _). exact (o_breme _ _ _ Ro).
  - destruct (vp_electrons v) as [x|]; cbn [option_map] in Rh; [|destruct Rh as (_ & _ & _ & _ & _ & _ & _ & _ & -> & _); exact I]. destruct Rh as (o & Ro & _ & _ & _ & _ & _ & _ & _ & _ & -> & _). exact (o_breml _ _ _ Ro).
  - destruct (vp_electrons v) as [x|]; cbn [option_map] in Rh; [|destruct Rh as (_ & _ & _ & _ & _ & _ & _ & _ & _ & ->); exact I]. destruct Rh as (o & Ro & _ & _ & _ & _ & _ & _ & _ & _ & _ & ->). pose proof (o_selas _ _ _ Ro) as Sl.
    cbn [el_words w_selas el_reads r_selas] in Sl. unfold shows_opt. destruct (xv_selas x) as [s|], (pe_selas o); exact Sl.
Qed.
Lemma pa_from_values bm zaid v : verifyType ["p"%char] zaid = Ok tt -> pa_valid v -> exists t, pa_build bm zaid v = Ok t /\ pa_returns bm zaid v t.
Proof. intros VT V. destruct (pa_from_values_full bm zaid v VT V) as (i & t & E & R & _). exists t. auto. Qed.
