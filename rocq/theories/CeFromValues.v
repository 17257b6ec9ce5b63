(** Continuous-energy tables from values: the user's data, the blocks, the table. *)
From Coq Require Import ZArith Bool List Lia Ascii.
From Coq Require Import ZifyBool ZifyNat.
From Verif Require Export ContinuousValues.
Import ListNotations.
Open Scope Z_scope.

(** * Specification: the data of a table *)

(** Photon production data, delayed neutron data and data of one kind of secondary particle.
    [gv_n], [dv_n], [pv_n]: number of words of the energy distributions ([en_sizes]);
    [gv_sigw], [pv_sigw]: the words of the production data ([sigp_generateXSS], [sigh_generateXSS]). *)
Record photonV := PhotonV { gv_gpd : list double; gv_mts : list Z; gv_sigp : list sigp_entry; gv_sigw : list (list double);
  gv_ang : list (adist (list (angular (list double)))); gv_en : list en_in; gv_n : Z; gv_yp : list Z }.
Record delayedV := DelayedV { dv_nbt : list Z; dv_int : list Z; dv_x : list double; dv_y : list double; dv_groups : list bd_in; dv_en : list en_in; dv_n : Z }.
Record particleV := ParticleV { pv_type : Z; pv_index : Z; pv_prod : list double; pv_heat : list double; pv_mts : list Z; pv_sigh : list sigh_entry;
  pv_sigw : list (list double); pv_ang : list (adist (list (angular (list double)))); pv_en : list en_in; pv_frames : list frame; pv_n : Z; pv_yh : list Z }.
(** [v_n]: number of words of the multiplicities and energy distributions ([ent_sizes]) *)
Record ceV := CeV { v_en : list double; v_tot : list double; v_dis : list double; v_el : list double; v_heat : list double;
  v_nu : option (nu_in * option nu_in); v_mts : list Z; v_qs : list double; v_sig : list sig_entry;
  v_elastic : adist (list (angular (list double))); v_ang : list (adist (list (angular (list double))));
  v_dlw : list (mult_in * en_in); v_frames : list frame; v_n : Z;
  v_unr : option unrV; v_delayed : option delayedV; v_photon : option photonV; v_particles : list particleV }.

Record photon_valid srt (nes : Z) (g : photonV) : Prop := {
  gv_gpd_ok : len (gv_gpd g) = nes; gv_mts_ok : mt_valid (gv_mts g) /\ gv_mts g <> [];
  gv_sigp_ok : Forall sigp_fits (gv_sigp g) /\ Forall (fun e => ~ sigp_mf13 e) (gv_sigp g) /\ mapM sigp_generateXSS (gv_sigp g) = Ok (gv_sigw g) /\ len (gv_sigp g) = len (gv_mts g);
  gv_ang_ok : Forall ab_ok (gv_ang g) /\ len (gv_ang g) = len (gv_mts g);
  gv_en_ok : Forall (en_valid srt) (gv_en g) /\ en_sizes srt (gv_en g) (gv_n g) /\ len (gv_en g) = len (gv_mts g);
  gv_yp_ok : mt_valid (gv_yp g) /\ gv_yp g <> [] }.
Record delayed_valid srt (d : delayedV) : Prop := {
  dv_nu_ok : nu_valid (ITab (dv_nbt d) (dv_int d) (dv_x d) (dv_y d)); dv_groups_ok : Forall bi_valid (dv_groups d) /\ dv_groups d <> [];
  dv_en_ok : Forall (en_valid srt) (dv_en d) /\ en_sizes srt (dv_en d) (dv_n d) /\ len (dv_en d) = len (dv_groups d) }.
Record particle_valid srt (nes : Z) (p : particleV) : Prop := {
  pv_hpd_ok : 0 <= pv_index p <= nes /\ len (pv_heat p) = len (pv_prod p); pv_mts_ok : mt_valid (pv_mts p);
  pv_sigh_ok : Forall sigh_fits (pv_sigh p) /\ mapM sigh_generateXSS (pv_sigh p) = Ok (pv_sigw p) /\ len (pv_sigh p) = len (pv_mts p);
  pv_ang_ok : Forall ab_ok (pv_ang p) /\ len (pv_ang p) = len (pv_mts p);
  pv_en_ok : Forall (en_valid srt) (pv_en p) /\ en_sizes srt (pv_en p) (pv_n p) /\ len (pv_en p) = len (pv_mts p) /\ len (pv_frames p) = len (pv_mts p);
  pv_yh_ok : mt_valid (pv_yh p) }.
Record ce_valid srt (v : ceV) : Prop := {
  v_esz_ok : all_len (len (v_en v)) [v_en v; v_tot v; v_dis v; v_el v; v_heat v];
  v_nu_ok : match v_nu v with Some (p, t) => nu_args_valid p t | None => ~ In 18 (v_mts v) end;
  v_mts_ok : mt_valid (v_mts v);
  v_qs_ok : len (v_qs v) = len (v_mts v);
  v_sig_ok : Forall (fun e => 0 <= sig_index e < 2 ^ 31) (v_sig v) /\ len (v_sig v) = len (v_mts v);
  v_ang_ok : Forall ab_ok (v_elastic v :: v_ang v) /\ len (v_ang v) = len (v_dlw v);
  v_dlw_ok : Forall (fun i => mult_valid (fst i) /\ en_valid srt (snd i)) (v_dlw v) /\ ent_sizes srt (v_dlw v) (v_n v)
    /\ Forall2 (fun f m => f = CentreOfMass -> m <> MNum 0) (v_frames v) (map fst (v_dlw v)) /\ len (v_dlw v) <= len (v_mts v);
  v_unr_ok : forall u, v_unr v = Some u -> unr_valid u;
  v_delayed_ok : forall d, v_delayed v = Some d -> delayed_valid srt d;
  v_photon_ok : forall g, v_photon v = Some g -> photon_valid srt (len (v_en v)) g;
  v_particles_ok : mt_valid (map pv_type (v_particles v)) /\ Forall (particle_valid srt (len (v_en v))) (v_particles v);
  (** the table does not end with one word that is not data *)
  v_last_ok : v_photon v = None -> v_delayed v = None -> v_unr v = None -> v_dlw v = [] -> 2 <= ab_size (v_elastic v) }.

(** number of words *)
Definition photon_size (g : photonV) : Z :=
  len (gv_gpd g) + len (gv_mts g) + len (bl_layout true (gv_sigw g)) + (len (gv_ang g) + ab_total (gv_ang g)) + (len (gv_en g) + gv_n g) + (1 + len (gv_yp g)).
Definition delayed_size (d : delayedV) : Z :=
  len (nu_w (ITab (dv_nbt d) (dv_int d) (dv_x d) (dv_y d)) None) + len (bd_w (dv_groups d)) + (len (dv_en d) + dv_n d).
Definition particle_size (p : particleV) : Z :=
  (2 + len (pv_prod p) + len (pv_heat p)) + len (pv_mts p) + len (pv_frames p) + len (bl_layout true (pv_sigw p)) + (len (pv_ang p) + ab_total (pv_ang p))
  + (len (pv_en p) + pv_n p) + (1 + len (pv_yh p)).
Definition ce_size (v : ceV) : Z :=
  5 * len (v_en v) + or0 (fun n => len (nu_w (fst n) (snd n))) (v_nu v) + 3 * len (v_mts v) + len (bl_layout true (map sig_words (v_sig v)))
  + (1 + len (v_ang v) + ab_total (v_elastic v :: v_ang v)) + (len (v_dlw v) + v_n v) + or0 unr_size (v_unr v) + or0 delayed_size (v_delayed v) + or0 photon_size (v_photon v)
  + 12 * len (v_particles v) + sumZ (map particle_size (v_particles v)).

(** * The blocks, built by their constructors *)

Definition opt_built {A B} (f : A -> outcome B) (o : option A) : outcome (option B) := match o with Some x => y <- f x ;; Ok (Some y) | None => Ok None end.
Definition list_built {A B} (f : A -> outcome B) (l : list A) : outcome (option (list B)) := match l with [] => Ok None | _ => y <- mapM f l ;; Ok (Some y) end.
Definition ce_build bm asrt esrt (v : ceV) : outcome ceIn :=
  esz <- esz_of (v_en v) (v_tot v) (v_dis v) (v_el v) (v_heat v) ;;
  nu <- opt_built (fun n => nu_built bm (fst n) (snd n)) (v_nu v) ;;
  mtr <- mt_of (v_mts v) ;;
  lqr <- lq_of (v_qs v) ;;
  sig <- bl_of bm (sig_generateData bm) true (map sig_words (v_sig v)) ;;
  ang <- ab_of_elastic bm asrt (v_elastic v) (v_ang v) ;;
  dlw <- dl_built bm esrt (v_dlw v) (v_frames v) ;;
  gpd <- opt_built (fun g => lq_of (gv_gpd g)) (v_photon v) ;;
  mtrp <- opt_built (fun g => mt_of (gv_mts g)) (v_photon v) ;;
  sigp <- opt_built (fun g => bl_of bm (sigp_generateData bm) true (gv_sigw g)) (v_photon v) ;;
  andp <- opt_built (fun g => ab_of_data bm asrt (gv_ang g)) (v_photon v) ;;
  dlwp <- opt_built (fun g => dh_built bm esrt (gv_en g) None) (v_photon v) ;;
  yp <- opt_built (fun g => Ok (yp_of (gv_yp g))) (v_photon v) ;;
  unr <- opt_built (unr_built bm) (v_unr v) ;;
  dnu <- opt_built (fun d => nu_built bm (ITab (dv_nbt d) (dv_int d) (dv_x d) (dv_y d)) None) (v_delayed v) ;;
  bdd <- opt_built (fun d => bd_built bm (dv_groups d)) (v_delayed v) ;;
  dned <- opt_built (fun d => dh_built bm esrt (dv_en d) None) (v_delayed v) ;;
  ptype <- (match v_particles v with [] => Ok None | ps => o <- mt_of (map pv_type ps) ;; Ok (Some o) end) ;;
  hpd <- list_built (fun p => hpd_of (pv_index p) (pv_prod p) (pv_heat p)) (v_particles v) ;;
  mtrh <- list_built (fun p => mt_of (pv_mts p)) (v_particles v) ;;
  sigh <- list_built (fun p => bl_of bm (sigh_generateData bm) true (pv_sigw p)) (v_particles v) ;;
  andh <- list_built (fun p => ab_of_data bm asrt (pv_ang p)) (v_particles v) ;;
  dlwh <- list_built (fun p => dh_built bm esrt (pv_en p) (Some (pv_frames p))) (v_particles v) ;;
  yh <- list_built (fun p => Ok (yp_of (pv_yh p))) (v_particles v) ;;
  Ok (CeIn esz nu mtr lqr sig ang dlw gpd mtrp sigp andp dlwp yp unr dnu bdd dned ptype hpd mtrh sigh andh dlwh yh).

(** * Specification: what the table shows *)

Definition opt_returns {A B} (o : option A) (r : option B) (S : A -> B -> Prop) : Prop :=
  match o, r with None, None => True | Some x, Some y => S x y | _, _ => False end.
Record particle_returns bm (p : particle) (q : particleV) : Prop := {
  pr_hpd : hpd_shows bm (p_hpd p) (pv_index q) (pv_prod q) (pv_heat q); pr_mtrh : mt_claim bm (pv_mts q) (p_mtrh p);
  pr_tyrh : ty_shows bm (p_tyrh p) (pv_frames q) (repeat 1 (length (pv_frames q))); pr_sigh : sigh_claim bm (pv_sigh q) (p_sigh p);
  pr_andh : ab_claim bm 1 (len (pv_ang q)) (pv_ang q) (p_andh p); pr_dlwh : dh_shows bm (p_dlwh p) (pv_en q) (map Some (pv_frames q)); pr_yh : yp_claim bm (pv_yh q) (p_yh p) }.
Record ce_returns bm (v : ceV) (t : ceTable) : Prop := {
  rt_esz : esz_shows bm (ct_esz t) (v_en v) (v_tot v) (v_dis v) (v_el v) (v_heat v);
  rt_nu : opt_returns (v_nu v) (ct_nu t) (fun n => nu_claim bm (fst n) (snd n));
  rt_mtr : mt_claim bm (v_mts v) (ct_mtr t);
  rt_lqr : lq_shows bm (ct_lqr t) (v_qs v);
  rt_tyr : ty_NTR (ct_tyr t) = len (v_mts v) /\ forall k f, nth_error (v_frames v) k = Some f -> ty_frame bm (ct_tyr t) (Z.of_nat k + 1) = Ok f;
  rt_sig : sig_claim bm (v_sig v) (ct_sig t);
  rt_ang : ab_claim bm 0 (len (v_ang v)) (v_elastic v :: v_ang v) (ct_ang t);
  rt_dlw : dl_shows bm (ct_dlw t) (map snd (v_dlw v)) (map fst (v_dlw v)) (v_frames v);
  rt_gpd : opt_returns (v_photon v) (ct_gpd t) (fun g o => lq_shows bm o (gv_gpd g));
  rt_mtrp : opt_returns (v_photon v) (ct_mtrp t) (fun g => mt_claim bm (gv_mts g));
  rt_sigp : opt_returns (v_photon v) (ct_sigp t) (fun g => sigp_claim bm (gv_sigp g));
  rt_andp : opt_returns (v_photon v) (ct_andp t) (fun g => ab_claim bm 1 (len (gv_ang g)) (gv_ang g));
  rt_dlwp : opt_returns (v_photon v) (ct_dlwp t) (fun g o => dh_shows bm o (gv_en g) (repeat None (length (gv_en g))));
  rt_yp : opt_returns (v_photon v) (ct_yp t) (fun g => yp_claim bm (gv_yp g));
  rt_unr : opt_returns (v_unr v) (ct_unr t) (unr_claim bm);
  rt_dnu : opt_returns (v_delayed v) (ct_dnu t) (fun d => nu_claim bm (ITab (dv_nbt d) (dv_int d) (dv_x d) (dv_y d)) None);
  rt_bdd : opt_returns (v_delayed v) (ct_bdd t) (fun d o => bd_shows bm o (dv_groups d));
  rt_dned : opt_returns (v_delayed v) (ct_dned t) (fun d o => dh_shows bm o (dv_en d) (repeat None (length (dv_en d))));
  rt_ptype : match v_particles v, ct_ptype t with [], None => True | _ :: _, Some o => mt_claim bm (map pv_type (v_particles v)) o | _, _ => False end;
  rt_ntro : match v_particles v, ct_ntro t with [], None => True | _ :: _, Some o => nt_shows bm o (map (fun p => len (pv_mts p)) (v_particles v)) | _, _ => False end;
  rt_particles : Forall2 (particle_returns bm) (ct_particles t) (v_particles v) }.

(** * Lemmas *)

Definition photon_spec bm (g : photonV) (wa wd : list double) : photonS :=
  PhotonS (len (gv_mts g)) (gv_gpd g, fun o => lq_shows bm o (gv_gpd g)) (map dbl (gv_mts g), mt_claim bm (gv_mts g)) (bl_layout true (gv_sigw g), sigp_claim bm (gv_sigp g))
    (wa, ab_claim bm 1 (len (gv_ang g)) (gv_ang g)) (wd, fun o => dh_shows bm o (gv_en g) (repeat None (length (gv_en g)))) (yp_generateXSS (gv_yp g), yp_claim bm (gv_yp g)).
Definition delayed_spec bm (d : delayedV) (wd : list double) : delayedS :=
  DelayedS (len (dv_groups d)) (nu_w (ITab (dv_nbt d) (dv_int d) (dv_x d) (dv_y d)) None, nu_claim bm (ITab (dv_nbt d) (dv_int d) (dv_x d) (dv_y d)) None)
    (bd_w (dv_groups d), fun o => bd_shows bm o (dv_groups d)) (wd, fun o => dh_shows bm o (dv_en d) (repeat None (length (dv_en d)))).
Definition particle_spec bm (p : particleV) (wa wd : list double) : particleS :=
  ParticleS (len (pv_mts p)) (pv_frames p) (hpd_w (pv_index p) (pv_prod p) (pv_heat p), fun v => hpd_shows bm v (pv_index p) (pv_prod p) (pv_heat p))
    (map dbl (pv_mts p), mt_claim bm (pv_mts p)) (bl_layout true (pv_sigw p), sigh_claim bm (pv_sigh p)) (wa, ab_claim bm 1 (len (pv_ang p)) (pv_ang p))
    (wd, fun o => dh_shows bm o (pv_en p) (map Some (pv_frames p))) (yp_generateXSS (pv_yh p), yp_claim bm (pv_yh p)).

Lemma len_yp mts : len (yp_generateXSS mts) = 1 + len mts.
Proof. unfold yp_generateXSS. rewrite len_cons, len_map. reflexivity. Qed.
Lemma len_pos {A} (l : list A) : l <> [] -> 1 <= len l.
Proof. destruct l; [congruence|]. intros _. rewrite len_cons. pose proof (len_nonneg l). lia. Qed.
Ltac lens := repeat match goal with |- context [len ?l] => lazymatch goal with _ : 0 <= len l |- _ => fail | _ => pose proof (len_nonneg l) end
                               | _ : context [len ?l] |- _ => lazymatch goal with _ : 0 <= len l |- _ => fail | _ => pose proof (len_nonneg l) end end.

Definition photon_facts bm nes (q : photonS) : Prop :=
  (0 < g_n q /\ g_n q <= len (fst (g_sigp q)) /\ g_n q <= len (fst (g_andp q)) /\ g_n q <= len (fst (g_dlwp q)) /\ 2 <= len (fst (g_yp q)))
  /\ readable (fun v => lq_make v nes) (fst (g_gpd q)) (snd (g_gpd q)) /\ readable (fun v => mt_make v (g_n q)) (fst (g_mtrp q)) (snd (g_mtrp q))
  /\ readable (fun v => bl_make bm (sigp_generateData bm) v (vbeg v + g_n q) (g_n q) true) (fst (g_sigp q)) (snd (g_sigp q))
  /\ readable (fun v => ab_make bm v (vbeg v + g_n q) (g_n q) false) (fst (g_andp q)) (snd (g_andp q))
  /\ readable (fun v => dh_make bm v (vbeg v + g_n q) (g_n q) None) (fst (g_dlwp q)) (snd (g_dlwp q))
  /\ readable (yp_make bm) (fst (g_yp q)) (snd (g_yp q)).
Definition photon_words (q : photonS) : Z :=
  len (fst (g_gpd q)) + len (fst (g_mtrp q)) + len (fst (g_sigp q)) + len (fst (g_andp q)) + len (fst (g_dlwp q)) + len (fst (g_yp q)).

Lemma photon_one bm asrt esrt nes g : sort_contract asrt -> eqb_sort_contract esrt -> photon_valid esrt nes g -> photon_size g < max_words ->
  exists wa wd x m s a d, let q := photon_spec bm g wa wd in
    lq_of (gv_gpd g) = Ok x /\ mt_of (gv_mts g) = Ok m /\ bl_of bm (sigp_generateData bm) true (gv_sigw g) = Ok s /\ ab_of_data bm asrt (gv_ang g) = Ok a
    /\ dh_built bm esrt (gv_en g) None = Ok d
    /\ (content (ad_v x) (fst (g_gpd q)) /\ content (ad_v m) (fst (g_mtrp q)) /\ content (bl_v s) (fst (g_sigp q)) /\ content (ab_v a) (fst (g_andp q))
        /\ content (bl_v (dh_block d)) (fst (g_dlwp q)) /\ content (yp_of (gv_yp g)) (fst (g_yp q)) /\ mt_NTR m = g_n q /\ ab_nr a = g_n q /\ dh_NR d = g_n q)
    /\ photon_facts bm nes q /\ photon_words q = photon_size g /\ len wa = len (gv_ang g) + ab_total (gv_ang g) /\ len wd = len (gv_en g) + gv_n g.
Proof.
  intros Hs He [V1 (V2 & V2') (V3 & V3' & V3'' & L3) (V4 & L4) (V5 & V5' & L5) (V6 & V6')] B.
  pose proof (en_sizes_bounds _ _ _ V5') as [N5 _]. pose proof (ab_total_nonneg (gv_ang g)) as N4. pose proof (len_pos _ V2') as P2. pose proof (len_pos _ V6') as P6.
  assert (Lb : len (bl_layout true (gv_sigw g)) = len (gv_mts g) + len (concat (gv_sigw g))) by (rewrite len_bl_layout, (mapM_len _ _ _ V3''); lia).
  unfold photon_size in B. assert (Np : 0 <= len (concat (gv_sigw g))) by apply len_nonneg. lens.
  destruct (lq_supplies bm (gv_gpd g) ltac:(lia)) as [(x & X1 & X2 & _) RX].
  destruct (mt_supplies bm (gv_mts g) V2 ltac:(lia)) as [(m & M1 & M2 & (M3 & _) & _) RM].
  destruct (sigp_supplies bm (gv_sigp g) (gv_sigw g) V3 V3' V3'' ltac:(lia)) as [(s & S1 & S2 & S3) RS].
  destruct (ab_supplies bm asrt (gv_ang g) Hs V4 ltac:(lia)) as (wa & La & [(a & A1 & A2 & A3 & _) RA] & _).
  destruct (dh_supplies bm esrt (gv_en g) (gv_n g) He V5 V5' ltac:(lia)) as (wd & Ld & [(d & D1 & D2 & D3 & _) RD]).
  destruct (yp_supplies bm (gv_yp g) V6 ltac:(lia)) as [(y & Y1 & Y2 & _) RY]. apply Ok_inj in Y1. subst y.
  exists wa, wd, x, m, s, a, d. cbv zeta. unfold photon_facts, photon_words, photon_spec. cbn [g_n g_gpd g_mtrp g_sigp g_andp g_dlwp g_yp fst snd].
  rewrite V1 in RX. rewrite L3 in RS. rewrite L4 in RA. rewrite L5 in RD. 
  split; [exact X1|]. split; [exact M1|]. split; [exact S1|]. split; [exact A1|]. split; [exact D1|].
  split. { split; [exact X2|]. split; [exact M2|]. split; [exact S2|]. split; [exact A2|]. split; [exact D2|]. split; [exact Y2|]. rewrite M3, A3, D3. lia. }
  split. 2:{ rewrite len_yp, len_map. unfold photon_size. split; [lia|]. split; lia. }
  split. { rewrite len_yp. lia. }
  rewrite L4. exact (conj RX (conj RM (conj RS (conj RA (conj RD RY))))).
Qed.

Definition delayed_facts bm (q : delayedS) : Prop :=
  (0 < b_n q /\ b_n q + 2 <= len (fst (b_dned q)))
  /\ readable (nu_make bm) (fst (b_dnu q)) (snd (b_dnu q)) /\ readable (fun v => bd_make bm v (b_n q)) (fst (b_bdd q)) (snd (b_bdd q))
  /\ readable (fun v => dh_make bm v (vbeg v + b_n q) (b_n q) None) (fst (b_dned q)) (snd (b_dned q)).
Definition delayed_words (q : delayedS) : Z := len (fst (b_dnu q)) + len (fst (b_bdd q)) + len (fst (b_dned q)).

Lemma delayed_one bm esrt d : eqb_sort_contract esrt -> delayed_valid esrt d -> delayed_size d < max_words ->
  exists wd n x e, let q := delayed_spec bm d wd in
    nu_built bm (ITab (dv_nbt d) (dv_int d) (dv_x d) (dv_y d)) None = Ok n /\ bd_built bm (dv_groups d) = Ok x /\ dh_built bm esrt (dv_en d) None = Ok e
    /\ (content (nu_v n) (fst (b_dnu q)) /\ content (bd_v x) (fst (b_bdd q)) /\ content (bl_v (dh_block e)) (fst (b_dned q))
        /\ (exists o, nu_prompt n = NuTab o) /\ nu_total n = None /\ bd_NPCR x = b_n q /\ dh_NR e = b_n q)
    /\ (exists o, nu_prompt n = NuTab o /\ tf_LNU bm o = Ok 2)
    /\ delayed_facts bm q /\ delayed_words q = delayed_size d /\ len wd = len (dv_en d) + dv_n d.
Proof.
  intros He [V1 (V2 & V2') (V3 & V3' & L3)] B.
  pose proof (en_sizes_bounds _ _ _ V3') as [N3 N3']. specialize (N3' V3). pose proof (len_pos _ V2') as P2. unfold delayed_size in B. lens.
  destruct (nu_supplies bm (ITab (dv_nbt d) (dv_int d) (dv_x d) (dv_y d)) None (conj V1 I) ltac:(lia)) as [(n & A1 & A2 & A3 & A4 & A5) RN].
  destruct (bd_supplies bm (dv_groups d) V2 ltac:(lia)) as [(x & X1 & X2 & X3 & _) RX].
  destruct (dh_supplies bm esrt (dv_en d) (dv_n d) He V3 V3' ltac:(lia)) as (wd & Ld & [(e & D1 & D2 & D3 & _) RD]).
  exists wd, n, x, e. cbv zeta. unfold delayed_facts, delayed_words, delayed_spec. cbn [b_n b_dnu b_bdd b_dned fst snd].
  rewrite L3 in RD. assert (exists o, nu_prompt n = NuTab o /\ tf_LNU bm o = Ok 2) as Hn.
  { destruct (nu_prompt n) as [?|o]; [contradiction|]. exists o. split; [reflexivity|]. exact (proj1 A3). }
  split; [exact A1|]. split; [exact X1|]. split; [exact D1|]. split.
  { split; [exact A2|]. split; [exact X2|]. split; [exact D2|]. split; [destruct Hn as (o & Hn & _); eauto|]. split; [exact A5|]. lia. }
  split; [exact Hn|]. split. 2:{ unfold delayed_size. lia. }
  split; [lia|]. exact (conj RN (conj RX RD)).
Qed.

Definition particle_facts bm (q : particleS) : Prop :=
  (0 <= q_n q /\ len (q_frames q) = q_n q /\ q_n q <= len (fst (q_sigh q)) /\ q_n q <= len (fst (q_andh q)) /\ q_n q <= len (fst (q_dlwh q)))
  /\ 0 < len (fst (q_yh q))
  /\ readable (hpd_make bm) (fst (q_hpd q)) (snd (q_hpd q)) /\ readable (fun v => mt_make v (q_n q)) (fst (q_mtrh q)) (snd (q_mtrh q))
  /\ readable (fun v => bl_make bm (sigh_generateData bm) v (vbeg v + q_n q) (q_n q) true) (fst (q_sigh q)) (snd (q_sigh q))
  /\ readable (fun v => ab_make bm v (vbeg v + q_n q) (q_n q) false) (fst (q_andh q)) (snd (q_andh q))
  /\ (forall t, ty_shows bm t (q_frames q) (repeat 1 (length (q_frames q))) ->
        readable (fun v => dh_make bm v (vbeg v + q_n q) (q_n q) (Some t)) (fst (q_dlwh q)) (snd (q_dlwh q)))
  /\ readable (yp_make bm) (fst (q_yh q)) (snd (q_yh q)).

Lemma len_ty_frames fs : len (ty_generateXSS_frames fs) = len fs.
Proof. unfold ty_generateXSS_frames. apply len_map. Qed.

Lemma particle_one bm asrt esrt nes p : sort_contract asrt -> eqb_sort_contract esrt -> nes < 2 ^ 53 -> particle_valid esrt nes p -> particle_size p < max_words ->
  exists wa wd h m s a d, let q := particle_spec bm p wa wd in
    hpd_of (pv_index p) (pv_prod p) (pv_heat p) = Ok h /\ mt_of (pv_mts p) = Ok m /\ bl_of bm (sigh_generateData bm) true (pv_sigw p) = Ok s
    /\ ab_of_data bm asrt (pv_ang p) = Ok a /\ dh_built bm esrt (pv_en p) (Some (pv_frames p)) = Ok d
    /\ particle_in h m s a d (yp_of (pv_yh p)) q /\ particle_facts bm q /\ len (pw_words (part_words q)) = particle_size p.
Proof.
  intros Hs He Hn [(V1 & L1) V2 (V3 & V3' & L3) (V4 & L4) (V5 & V5' & L5 & L5') V6] B.
  pose proof (en_sizes_bounds _ _ _ V5') as [N5 _]. pose proof (ab_total_nonneg (pv_ang p)) as N4.
  assert (Lb : len (bl_layout true (pv_sigw p)) = len (pv_mts p) + len (concat (pv_sigw p))) by (rewrite len_bl_layout, (mapM_len _ _ _ V3'); lia).
  assert (Lh : len (hpd_w (pv_index p) (pv_prod p) (pv_heat p)) = 2 + len (pv_prod p) + len (pv_heat p)) by (unfold hpd_w; rewrite !len_cons, len_app; lia).
  unfold particle_size in B. assert (Np : 0 <= len (concat (pv_sigw p))) by apply len_nonneg. lens.
  destruct (hpd_supplies bm (pv_index p) (pv_prod p) (pv_heat p) ltac:(lia) L1 ltac:(lia)) as [(h & X1 & X2 & _) RX].
  destruct (mt_supplies bm (pv_mts p) V2 ltac:(lia)) as [(m & M1 & M2 & (M3 & _) & _) RM].
  destruct (sigh_supplies bm (pv_sigh p) (pv_sigw p) V3 V3' ltac:(lia)) as [(s & S1 & S2 & S3) RS].
  destruct (ab_supplies bm asrt (pv_ang p) Hs V4 ltac:(lia)) as (wa & La & [(a & A1 & A2 & A3 & _) RA] & _).
  destruct (dh_supplies_frames bm esrt (pv_en p) (pv_n p) (pv_frames p) He V5 V5' ltac:(lia) ltac:(lia)) as (wd & Ld & (d & D1 & D2 & D3 & D4 & _) & RD).
  destruct (yp_supplies bm (pv_yh p) V6 ltac:(lia)) as [(y & Y1 & Y2 & _) RY]. apply Ok_inj in Y1. subst y.
  exists wa, wd, h, m, s, a, d. cbv zeta.
  rewrite L3 in RS. rewrite L4 in RA. rewrite L5 in RD.
  split; [exact X1|]. split; [exact M1|]. split; [exact S1|]. split; [exact A1|]. split; [exact D1|].
  split. { constructor; cbn [particle_spec q_n q_frames q_hpd q_mtrh q_sigh q_andh q_dlwh q_yh fst snd]; assumption. }
  split.
  - unfold particle_facts, particle_spec. cbn [q_n q_frames q_hpd q_mtrh q_sigh q_andh q_dlwh q_yh fst snd]. rewrite L4.
    split; [lia|]. split; [rewrite len_yp; lia|]. split; [exact RX|]. split; [exact RM|]. split; [exact RS|]. split; [exact RA|]. split; [|exact RY].
    intros t Ht. exact (RD t (proj1 (proj2 Ht))).
  - unfold pw_words, pw_list, part_words, particle_spec. cbn [q_n q_frames q_hpd q_mtrh q_sigh q_andh q_dlwh q_yh fst snd pw_n pw_hpd pw_mtrh pw_tyrh pw_sigh pw_andh pw_dlwh pw_yh concat].
    rewrite !len_app, len_yp, len_map, len_ty_frames, Lh. change (len (@nil double)) with 0. unfold particle_size. lia.
Qed.

(** all particles *)
Definition is_spec bm (p : particleV) (q : particleS) : Prop := exists wa wd, q = particle_spec bm p wa wd.
Lemma particle_size_nonneg p : particle_size p < max_words -> forall srt nes, particle_valid srt nes p -> 0 <= particle_size p.
Proof.
  intros _ srt nes [_ _ _ _ (_ & V & _) _]. pose proof (en_sizes_bounds _ _ _ V) as [N _]. pose proof (ab_total_nonneg (pv_ang p)). unfold particle_size. lens. lia.
Qed.
Lemma particle_sizes_nonneg srt nes ps : Forall (particle_valid srt nes) ps -> 0 <= sumZ (map particle_size ps).
Proof.
  intros F. induction F as [|p ps V _ IH]; [cbn; lia|]. cbn [map sumZ fold_right]. fold (sumZ (map particle_size ps)).
  destruct V as [_ _ _ _ (_ & V & _) _]. pose proof (en_sizes_bounds _ _ _ V) as [N _]. pose proof (ab_total_nonneg (pv_ang p)). unfold particle_size at 1. lens. lia.
Qed.
Lemma particles_all bm asrt esrt nes ps : sort_contract asrt -> eqb_sort_contract esrt -> nes < 2 ^ 53 -> Forall (particle_valid esrt nes) ps -> sumZ (map particle_size ps) < max_words ->
  exists qs h m s a d,
    Forall2 (is_spec bm) ps qs
    /\ mapM (fun p => hpd_of (pv_index p) (pv_prod p) (pv_heat p)) ps = Ok h /\ mapM (fun p => mt_of (pv_mts p)) ps = Ok m
    /\ mapM (fun p => bl_of bm (sigh_generateData bm) true (pv_sigw p)) ps = Ok s /\ mapM (fun p => ab_of_data bm asrt (pv_ang p)) ps = Ok a
    /\ mapM (fun p => dh_built bm esrt (pv_en p) (Some (pv_frames p))) ps = Ok d /\ mapM (fun p => Ok (yp_of (pv_yh p))) ps = Ok (map (fun p => yp_of (pv_yh p)) ps)
    /\ (forall k q, nth_error qs k = Some q -> exists h' m' sg' a' d' y',
           nth_error h k = Some h' /\ nth_error m k = Some m' /\ nth_error s k = Some sg' /\ nth_error a k = Some a' /\ nth_error d k = Some d'
           /\ nth_error (map (fun p => yp_of (pv_yh p)) ps) k = Some y' /\ particle_in h' m' sg' a' d' y' q)
    /\ Forall (particle_facts bm) qs /\ len (concat (map pw_words (map part_words qs))) = sumZ (map particle_size ps).
Proof.
  intros Hs He Hn F. induction F as [|p ps V F IH]; intros B.
  - exists [], [], [], [], [], []. split; [constructor|]. do 6 (split; [reflexivity|]). split; [|split; [constructor|reflexivity]]. intros [|k] q H; discriminate.
  - cbn [map sumZ fold_right] in B. fold (sumZ (map particle_size ps)) in B. pose proof (particle_sizes_nonneg _ _ _ F) as N.
    assert (0 <= particle_size p) as Np. { destruct V as [_ _ _ _ (_ & V & _) _]. pose proof (en_sizes_bounds _ _ _ V) as [M _]. pose proof (ab_total_nonneg (pv_ang p)). unfold particle_size. lens. lia. }
    destruct IH as (qs & h & m & s & a & d & E0 & E1 & E2 & E3 & E4 & E5 & E6 & E7 & E8 & E9); [lia|].
    destruct (particle_one bm asrt esrt nes p Hs He Hn V ltac:(lia)) as (wa & wd & h' & m' & s' & a' & d' & O1 & O2 & O3 & O4 & O5 & O6 & O7 & O8).
    exists (particle_spec bm p wa wd :: qs), (h' :: h), (m' :: m), (s' :: s), (a' :: a), (d' :: d).
    split; [constructor; [exists wa, wd; reflexivity|exact E0]|].
    cbn [mapM map]. rewrite O1, O2, O3, O4, O5. cbn [bind]. rewrite E1, E2, E3, E4, E5, E6. cbn [bind]. do 6 (split; [reflexivity|]).
    split; [|split; [constructor; assumption|]].
    + intros [|k] q H; cbn [nth_error] in *; [injection H as <-; exists h', m', s', a', d', (yp_of (pv_yh p)); repeat (split; [reflexivity|]); exact O6|exact (E7 k q H)].
    + cbn [map concat sumZ fold_right]. rewrite len_app, O8, E9. reflexivity.
Qed.

(** optional groups *)
Lemma photon_opt bm asrt esrt nes o : sort_contract asrt -> eqb_sort_contract esrt -> (forall g, o = Some g -> photon_valid esrt nes g) -> or0 photon_size o < max_words ->
  exists q x m s a d y,
    opt_built (fun g => lq_of (gv_gpd g)) o = Ok x /\ opt_built (fun g => mt_of (gv_mts g)) o = Ok m
    /\ opt_built (fun g => bl_of bm (sigp_generateData bm) true (gv_sigw g)) o = Ok s /\ opt_built (fun g => ab_of_data bm asrt (gv_ang g)) o = Ok a
    /\ opt_built (fun g => dh_built bm esrt (gv_en g) None) o = Ok d /\ opt_built (fun g => Ok (yp_of (gv_yp g))) o = Ok y
    /\ (forall i, ci_gpd i = x -> ci_mtrp i = m -> ci_sigp i = s -> ci_andp i = a -> ci_dlwp i = d -> ci_yp i = y -> photon_in i q)
    /\ match o, q with None, None => True | Some g, Some q => (exists wa wd, q = photon_spec bm g wa wd /\ len wa = len (gv_ang g) + ab_total (gv_ang g) /\ len wd = len (gv_en g) + gv_n g) /\ photon_facts bm nes q /\ photon_words q = photon_size g | _, _ => False end.
Proof.
  intros Hs He V B. destruct o as [g|].
  - destruct (photon_one bm asrt esrt nes g Hs He (V g eq_refl) B) as (wa & wd & x & m & s & a & d & O1 & O2 & O3 & O4 & O5 & O6 & O7 & O8 & O9 & O10).
    exists (Some (photon_spec bm g wa wd)), (Some x), (Some m), (Some s), (Some a), (Some d), (Some (yp_of (gv_yp g))).
    cbn [opt_built]. rewrite O1, O2, O3, O4, O5. cbn [bind]. do 6 (split; [reflexivity|]). split; [|split; [exists wa, wd; auto|split; [exact O7|exact O8]]].
    intros i E1 E2 E3 E4 E5 E6. exists x, m, s, a, d, (yp_of (gv_yp g)). rewrite E1, E2, E3, E4, E5, E6. do 6 (split; [reflexivity|]). exact O6.
  - exists None, None, None, None, None, None, None. do 6 (split; [reflexivity|]). split; [|exact I]. intros i E1 E2 E3 E4 E5 E6. repeat split; assumption.
Qed.
Lemma delayed_opt bm esrt o : eqb_sort_contract esrt -> (forall d, o = Some d -> delayed_valid esrt d) -> or0 delayed_size o < max_words ->
  exists q n x e,
    opt_built (fun d => nu_built bm (ITab (dv_nbt d) (dv_int d) (dv_x d) (dv_y d)) None) o = Ok n /\ opt_built (fun d => bd_built bm (dv_groups d)) o = Ok x
    /\ opt_built (fun d => dh_built bm esrt (dv_en d) None) o = Ok e
    /\ (forall i, ci_dnu i = n -> ci_bdd i = x -> ci_dned i = e -> delayed_in i q /\ forall n, ci_dnu i = Some n -> exists o, nu_prompt n = NuTab o /\ tf_LNU bm o = Ok 2)
    /\ match o, q with None, None => True | Some d, Some q => (exists wd, q = delayed_spec bm d wd /\ len wd = len (dv_en d) + dv_n d) /\ delayed_facts bm q /\ delayed_words q = delayed_size d | _, _ => False end.
Proof.
  intros He V B. destruct o as [d|].
  - destruct (delayed_one bm esrt d He (V d eq_refl) B) as (wd & n & x & e & O1 & O2 & O3 & O4 & O5 & O6 & O7 & O8).
    exists (Some (delayed_spec bm d wd)), (Some n), (Some x), (Some e). cbn [opt_built]. rewrite O1, O2, O3. cbn [bind]. do 3 (split; [reflexivity|]). split; [|split; [exists wd; auto|split; [exact O6|exact O7]]].
    intros i E1 E2 E3. split; [|intros n'; rewrite E1; intros H; injection H as <-; exact O5]. exists n, x, e. rewrite E1, E2, E3. do 3 (split; [reflexivity|]). exact O4.
  - exists None, None, None, None. do 3 (split; [reflexivity|]). split; [|exact I]. intros i E1 E2 E3. split; [repeat split; assumption|]. rewrite E1. discriminate.
Qed.
Lemma unr_size_pos u : unr_valid u -> 6 <= unr_size u.
Proof.
  intros (Hne & HF & _). unfold unr_size. destruct (uv_tables u) as [|i r] eqn:E; [congruence|]. assert (0 <= uv_bins u). { inversion HF as [|? ? Hi _]. destruct (ti_len _ _ Hi) as [_ <-]. apply len_nonneg. }
  pose proof (len_nonneg (i :: r)). nia.
Qed.
Lemma unr_opt bm o : (forall u, o = Some u -> unr_valid u) -> or0 unr_size o < max_words ->
  exists (c : option (claim unr)) x, opt_built (unr_built bm) o = Ok x /\ opt_in x un_v c
    /\ match o, c with None, None => True | Some u, Some c => snd c = unr_claim bm u /\ len (fst c) = unr_size u /\ (forall v, has v (fst c) -> exists o, un_make bm v = Ok o /\ snd c o) | _, _ => False end.
Proof.
  intros V B. destruct o as [u|]; [|exists None, None; repeat split]. destruct (unr_supplies bm u (V u eq_refl) B) as (w & L & (x & X1 & X2 & X3) & R).
  exists (Some (w, unr_claim bm u)), (Some x). cbn [opt_built]. rewrite X1. cbn [bind]. split; [reflexivity|]. split; [exact X2|]. split; [reflexivity|]. split; [exact L|exact R].
Qed.
Definition nu_spec bm (o : option (nu_in * option nu_in)) : option (claim nu) := option_map (fun n => (nu_w (fst n) (snd n), nu_claim bm (fst n) (snd n))) o.
Lemma nu_opt bm o : (forall n, o = Some n -> nu_args_valid (fst n) (snd n)) -> or0 (fun n => len (nu_w (fst n) (snd n))) o < max_words ->
  exists x, opt_built (fun n => nu_built bm (fst n) (snd n)) o = Ok x /\ opt_in x nu_v (nu_spec bm o)
    /\ forall c, nu_spec bm o = Some c -> readable (nu_make bm) (fst c) (snd c).
Proof.
  intros V B. destruct o as [n|]; [|exists None; repeat split; discriminate]. cbn [or0] in B. destruct (nu_supplies bm (fst n) (snd n) (V n eq_refl) B) as [(x & X1 & X2 & X3) R].
  exists (Some x). cbn [opt_built]. rewrite X1. cbn [bind]. split; [reflexivity|]. split; [exact X2|]. intros c H. injection H as <-. exact R.
Qed.
Lemma or0_nonneg {A} (f : A -> Z) o : (forall x, o = Some x -> 0 <= f x) -> 0 <= or0 f o.
Proof. destruct o as [x|]; cbn; [intros H; exact (H x eq_refl)|lia]. Qed.
Lemma photon_size_nonneg srt nes g : photon_valid srt nes g -> 0 <= photon_size g.
Proof. intros [_ _ _ _ (_ & V & _) _]. pose proof (en_sizes_bounds _ _ _ V) as [N _]. pose proof (ab_total_nonneg (gv_ang g)). unfold photon_size. lens. lia. Qed.
Lemma delayed_size_nonneg srt g : delayed_valid srt g -> 0 <= delayed_size g.
Proof. intros [_ _ (_ & V & _)]. pose proof (en_sizes_bounds _ _ _ V) as [N _]. unfold delayed_size. lens. lia. Qed.

Lemma ce_size_parts srt v : ce_valid srt v ->
  0 <= v_n v /\ 0 <= ab_total (v_elastic v :: v_ang v) /\ 0 <= or0 (fun n => len (nu_w (fst n) (snd n))) (v_nu v) /\ 0 <= or0 unr_size (v_unr v) /\ 0 <= or0 delayed_size (v_delayed v)
  /\ 0 <= or0 photon_size (v_photon v) /\ 0 <= sumZ (map particle_size (v_particles v)).
Proof.
  intros V. destruct V as [V1 V2 V3 V4 V5 V6 (V7 & V7' & V7'') V8 V9 V10 (V11 & V11') V12].
  split; [exact (proj1 (ent_sizes_bounds _ _ _ V7'))|]. split; [apply ab_total_nonneg|]. split; [apply or0_nonneg; intros; apply len_nonneg|].
  split; [apply or0_nonneg; intros u Hu; pose proof (unr_size_pos u (V8 u Hu)); lia|]. split; [apply or0_nonneg; intros u Hu; exact (delayed_size_nonneg _ _ (V9 u Hu))|].
  split; [apply or0_nonneg; intros u Hu; exact (photon_size_nonneg _ _ _ (V10 u Hu))|]. exact (particle_sizes_nonneg _ _ _ V11').
Qed.

Lemma all_len_concat n (ls : list (list double)) : all_len n ls -> len (concat ls) = n * len ls.
Proof. intros H. induction H as [|l ls H _ IH]; [cbn; lia|]. cbn [concat]. rewrite len_app, len_cons, IH, H. lia. Qed.
Lemma len_ty_layout fs ms : length fs = length ms -> len (ty_layout fs ms) = len fs.
Proof. intros E. unfold ty_layout. rewrite len_map. unfold len. rewrite combine_length. lia. Qed.

Lemma nil_or {A} (l : list A) : l = [] \/ l <> [].
Proof. destruct l; [left; reflexivity|right; discriminate]. Qed.
Lemma match_ne {A B} (l : list A) (x y : B) : l <> [] -> match l with [] => x | _ => y end = y.
Proof. destruct l; [congruence|reflexivity]. Qed.
Lemma len_zero_nil {A} (l : list A) : len l = 0 -> l = [].
Proof. destruct l; [reflexivity|]. rewrite len_cons. pose proof (len_nonneg l). lia. Qed.
Lemma nth_app_l {A} (l r : list A) k x : nth_error l k = Some x -> nth_error (l ++ r) k = Some x.
Proof. intros H. rewrite nth_error_app1; [exact H|]. apply nth_error_Some. congruence. Qed.

(** Numbers of words of the blocks of the first part of the table, in their order:
    ESZ, NU, MTR, LQR, TYR, SIG, AND, DLW, UNR, DNU, BDD, DNED, GPD, MTRP, SIGP, ANDP, DLWP, YP *)
Definition ce_piece_sizes (v : ceV) : list Z :=
  [5 * len (v_en v); or0 (fun n => len (nu_w (fst n) (snd n))) (v_nu v); len (v_mts v); len (v_mts v); len (v_mts v); len (bl_layout true (map sig_words (v_sig v)));
   1 + len (v_ang v) + ab_total (v_elastic v :: v_ang v); len (v_dlw v) + v_n v; or0 unr_size (v_unr v);
   or0 (fun d => len (nu_w (ITab (dv_nbt d) (dv_int d) (dv_x d) (dv_y d)) None)) (v_delayed v); or0 (fun d => len (bd_w (dv_groups d))) (v_delayed v);
   or0 (fun d => len (dv_en d) + dv_n d) (v_delayed v);
   or0 (fun g => len (gv_gpd g)) (v_photon v); or0 (fun g => len (gv_mts g)) (v_photon v); or0 (fun g => len (bl_layout true (gv_sigw g))) (v_photon v);
   or0 (fun g => len (gv_ang g) + ab_total (gv_ang g)) (v_photon v); or0 (fun g => len (gv_en g) + gv_n g) (v_photon v); or0 (fun g => 1 + len (gv_yp g)) (v_photon v)].
Record ce_counts (v : ceV) (s : ceS) : Prop := {
  cc_nes : s_nes s = len (v_en v); cc_nr : s_nr s = len (v_dlw v); cc_xs : s_xs s = map sig_words (v_sig v); cc_ntype : s_ntype s = len (v_particles v);
  cc_ptype : fst (s_ptype s) = map dbl (map pv_type (v_particles v));
  cc_photon : option_map g_n (s_photon s) = option_map (fun g => len (gv_mts g)) (v_photon v);
  cc_delayed : option_map b_n (s_delayed s) = option_map (fun d => len (dv_groups d)) (v_delayed v);
  cc_nu : given (s_nu s) = given (v_nu v); cc_unr : given (s_unr s) = given (v_unr v);
  cc_sizes : map len (ce_pieces s) = ce_piece_sizes v }.

(** The numbers of a table (NXS) and its locators (JXS) in terms of the data.  A block that is not given has locator 0; [f] is JXS(21):
    the position of the cross section of MT 18, 0 without fission. *)
Definition ce_numbers (z a st : Z) (v : ceV) : list Z :=
  [ce_size v; 1000 * z + a; len (v_en v); len (v_mts v); len (v_dlw v); or0 (fun g => len (gv_mts g)) (v_photon v); len (v_particles v);
   or0 (fun d => len (dv_groups d)) (v_delayed v); st; z; a] ++ zeros 5.
Definition before (v : ceV) (k : nat) : Z := sumZ (firstn k (ce_piece_sizes v)).
Definition ce_places (v : ceV) (f : Z) : list Z :=
  let at_ (k : nat) := before v k + 1 in
  let ntr := len (v_mts v) in let nr := len (v_dlw v) in
  let ph x := if given (v_photon v) then x else 0 in let ntrp := or0 (fun g => len (gv_mts g)) (v_photon v) in
  let de x := if given (v_delayed v) then x else 0 in let npcr := or0 (fun d => len (dv_groups d)) (v_delayed v) in
  let se x := match v_particles v with [] => 0 | _ => x end in let ntype := len (v_particles v) in
  [at_ 0%nat (* ESZ *); (if given (v_nu v) then at_ 1%nat else 0) (* NU *); at_ 2%nat (* MTR *); at_ 3%nat (* LQR *); at_ 4%nat (* TYR *);
   at_ 5%nat (* LSIG *); at_ 5%nat + ntr (* SIG *); at_ 6%nat (* LAND *); at_ 6%nat + (nr + 1) (* AND *); at_ 7%nat (* LDLW *); at_ 7%nat + nr (* DLW *);
   ph (at_ 12%nat) (* GPD *); ph (at_ 13%nat) (* MTRP *); ph (at_ 14%nat) (* LSIGP *); ph (at_ 14%nat + ntrp) (* SIGP *);
   ph (at_ 15%nat) (* LANDP *); ph (at_ 15%nat + ntrp) (* ANDP *); ph (at_ 16%nat) (* LDLWP *); ph (at_ 16%nat + ntrp) (* DLWP *); ph (at_ 17%nat) (* YP *);
   f (* FIS *); before v 18 (* END *); (if given (v_unr v) then at_ 8%nat else 0) (* LUNR *);
   de (at_ 9%nat) (* DNU *); de (at_ 10%nat) (* BDD *); de (at_ 11%nat) (* DNEDL *); de (at_ 11%nat + npcr) (* DNED *); 0; 0;
   se (at_ 18%nat) (* PTYPE *); se (at_ 18%nat + ntype) (* NTRO *); se (at_ 18%nat + 2 * ntype) (* IXS *)].
Definition ce_fission_place (v : ceV) (f : Z) : Prop :=
  (In 18 (v_mts v) -> exists k, first_at 18 (v_mts v) k /\ f = before v 5 + len (v_mts v) + sumZ (map (fun e => len (sig_words e)) (firstn k (v_sig v))) + 1)
  /\ (~ In 18 (v_mts v) -> f = 0).

Lemma len_concat_sum {A} (l : list (list A)) : len (concat l) = sumZ (map len l).
Proof. induction l as [|x l IH]; [reflexivity|]. cbn [concat map sumZ fold_right]. rewrite len_app, IH. reflexivity. Qed.
Lemma ce_off_before v s k : map len (ce_pieces s) = ce_piece_sizes v -> ce_off s k = before v k.
Proof. intros E. unfold ce_off, before. rewrite len_concat_sum, <- firstn_map, E. reflexivity. Qed.

Lemma ce_from_values bm asrt esrt v : sort_contract asrt -> eqb_sort_contract esrt -> ce_valid esrt v -> ce_size v < max_words -> 101 + v_n v < max_words ->
  exists i s, ce_build bm asrt esrt v = Ok i /\ ce_input bm i s /\ ce_sizes s /\ ce_found s /\ ce_reads bm s
    /\ (forall n, ci_dnu i = Some n -> exists o, nu_prompt n = NuTab o /\ tf_LNU bm o = Ok 2)
    /\ (forall t, ce_shows bm s t -> ce_returns bm v t) /\ len (ce_words s) = ce_size v /\ s_mts s = v_mts v
    /\ ce_counts v s.
Proof.
  intros Hs He V B B'. pose proof (ce_size_parts _ _ V) as (N1 & N2 & N3 & N4 & N5 & N6 & N7).
  destruct V as [V1 V2 V3 V4 (V5 & L5) (V6 & L6) (V7 & V7' & V7'' & L7) V8 V9 V10 (V11 & V11') V12].
  assert (Ls : len (bl_layout true (map sig_words (v_sig v))) = len (v_mts v) + len (concat (map sig_words (v_sig v)))) by (rewrite len_bl_layout, len_map; lia).
  assert (Le : len (concat [v_en v; v_tot v; v_dis v; v_el v; v_heat v]) = 5 * len (v_en v)) by (rewrite (all_len_concat _ _ V1); change (len [v_en v; v_tot v; v_dis v; v_el v; v_heat v]) with 5; lia).
  pose proof (len_nonneg (concat (map sig_words (v_sig v)))) as Nc. pose proof (len_nonneg (v_en v)) as Ne. pose proof (len_nonneg (v_mts v)) as Nm. pose proof (len_nonneg (v_ang v)) as Na. pose proof (len_nonneg (v_dlw v)) as Nd.
  pose proof (len_nonneg (v_particles v)) as Np. unfold ce_size in B.
  destruct (esz_supplies bm _ _ _ _ _ V1 ltac:(lia)) as [(esz & Z1 & Z2 & Z3) RZ].
  assert (Vn : forall n, v_nu v = Some n -> nu_args_valid (fst n) (snd n)) by (intros [p t] E; rewrite E in V2; exact V2).
  destruct (nu_opt bm (v_nu v) Vn ltac:(lia)) as (nuo & Y1 & Y2 & RY).
  destruct (mt_supplies bm (v_mts v) V3 ltac:(lia)) as [(mtr & M1 & M2 & M3) RM].
  destruct (lq_supplies bm (v_qs v) ltac:(lia)) as [(lqr & Q1 & Q2 & Q3) RQ].
  destruct (sig_supplies bm (v_sig v) V5 ltac:(lia)) as [(sig & G1 & G2 & G3) RG].
  destruct (ab_supplies bm asrt (v_elastic v :: v_ang v) Hs V6) as (wa & La & _ & RA). { rewrite len_cons. lia. }
  destruct (RA _ _ eq_refl) as [(ang & A1 & A2 & A3) RA']. clear RA. rename RA' into RA.
  destruct (dl_supplies bm esrt (v_dlw v) (v_n v) (v_frames v) He V7 V7' ltac:(lia) B' V7'') as (wd & ms & Ld & Hty & Lms & (dlwo & D1 & D2 & D3 & D4 & D5) & RD).
  destruct (photon_opt bm asrt esrt (len (v_en v)) (v_photon v) Hs He V10 ltac:(lia)) as (gS & gpd & mtrp & sigp & andp & dlwp & yp & P1 & P2 & P3 & P4 & P5 & P6 & PI & PS).
  destruct (unr_opt bm (v_unr v) V8 ltac:(lia)) as (uS & unro & U1 & U2 & US).
  destruct (delayed_opt bm esrt (v_delayed v) He V9 ltac:(lia)) as (bS & dnu & bddo & dned & B1 & B2 & B3 & BI & BS).
  destruct (mt_supplies bm (map pv_type (v_particles v)) V11) as [(pty & T1 & T2 & T3) RT]. { rewrite len_map. lia. }
  destruct (particles_all bm asrt esrt (len (v_en v)) (v_particles v) Hs He ltac:(unfold max_words in B; lia) V11' ltac:(lia)) as (qs & h & m & sg & a & d & Q & H1 & H2 & H3 & H4 & H5 & H6 & H7 & H8 & H9).
  pose proof (Forall2_len _ _ _ Q) as Lq. assert (Lq' : len qs = len (v_particles v)) by (unfold len; lia).
  pose (ol := fun (A : Type) (x : A) => match v_particles v with [] => None | _ => Some x end).
  exists (CeIn esz nuo mtr lqr sig ang dlwo gpd mtrp sigp andp dlwp yp unro dnu bddo dned (ol _ pty) (ol _ h) (ol _ m) (ol _ sg) (ol _ a) (ol _ d) (ol _ (map (fun p => yp_of (pv_yh p)) (v_particles v)))).
  pose (s := CeS (len (v_en v)) (len (v_dlw v)) (v_mts v) (map sig_words (v_sig v)) (v_frames v) ms
    (concat [v_en v; v_tot v; v_dis v; v_el v; v_heat v], fun o => esz_shows bm o (v_en v) (v_tot v) (v_dis v) (v_el v) (v_heat v)) (nu_spec bm (v_nu v)) (mt_claim bm (v_mts v))
    (v_qs v, fun o => lq_shows bm o (v_qs v)) (sig_claim bm (v_sig v)) (wa, ab_claim bm 0 (len (v_ang v)) (v_elastic v :: v_ang v)) (wd, fun o => dl_shows bm o (map snd (v_dlw v)) (map fst (v_dlw v)) (v_frames v))
    uS bS gS (map dbl (map pv_type (v_particles v)), mt_claim bm (map pv_type (v_particles v))) qs).
  exists s.
  pose proof (Forall2_len _ _ _ Hty) as Lf.
  assert (Lt : len (ty_layout (all_frames s) (all_ms s)) = len (v_mts v)).
  { rewrite len_ty_layout.
    - unfold all_frames, s_ntr, s. cbn [s_frames s_mts s_nr]. unfold len in *. rewrite app_length, repeat_length. lia.
    - unfold all_frames, all_ms. rewrite !app_length, !repeat_length. unfold s. cbn [s_frames s_ms]. lia. }
  assert (Lg : forall A B (f : A -> claim B) (o : option A), len (words_or f o) = or0 (fun x => len (fst (f x))) o) by (intros A B0 f [x|]; reflexivity).
  assert (Sz : len (ce_words s) = ce_size v).
  { unfold ce_words. rewrite len_app. assert (Lsec : len (ce_second s) = 12 * len (v_particles v) + sumZ (map particle_size (v_particles v))).
    { unfold ce_second. change (s_particles s) with qs. destruct (nil_or qs) as [Eq|Eq].
      - rewrite Eq in *. destruct (v_particles v); [reflexivity|discriminate Lq].
      - rewrite (match_ne qs _ _ Eq). rewrite !len_app, ix_len_any, !len_map, len_all_locs. unfold parts. change (s_particles s) with qs. rewrite H9. rewrite !len_map. unfold s. cbn [s_ptype fst]. rewrite !len_map. lia. }
    rewrite Lsec. unfold ce_pieces. cbn [concat]. rewrite !len_app, Lt, !Lg. change (len (@nil double)) with 0.
    unfold s. cbn [s_esz s_nu s_mts s_lqr s_xs s_ang s_dlw s_unr s_delayed s_photon fst snd]. rewrite Le, len_map, Ls, La, Ld, !len_cons.
    unfold ce_size. rewrite Ls.
    assert (or0 (fun c : claim nu => len (fst c)) (nu_spec bm (v_nu v)) = or0 (fun n => len (nu_w (fst n) (snd n))) (v_nu v)) as -> by (destruct (v_nu v); reflexivity).
    assert (or0 (fun c : claim unr => len (fst c)) uS = or0 unr_size (v_unr v)) as -> by (destruct (v_unr v), uS; try contradiction; [exact (proj1 (proj2 US))|reflexivity]).
    assert (or0 (fun x => len (fst (b_dnu x))) bS + or0 (fun x => len (fst (b_bdd x))) bS + or0 (fun x => len (fst (b_dned x))) bS = or0 delayed_size (v_delayed v)) as <-.
    { destruct (v_delayed v), bS; try contradiction; [|reflexivity]. cbn [or0]. destruct BS as (_ & _ & <-). reflexivity. }
    assert (or0 (fun x => len (fst (g_gpd x))) gS + or0 (fun x => len (fst (g_mtrp x))) gS + or0 (fun x => len (fst (g_sigp x))) gS + or0 (fun x => len (fst (g_andp x))) gS
      + or0 (fun x => len (fst (g_dlwp x))) gS + or0 (fun x => len (fst (g_yp x))) gS = or0 photon_size (v_photon v)) as <-.
    { destruct (v_photon v), gS; try contradiction; [|reflexivity]. cbn [or0]. destruct PS as (_ & _ & <-). reflexivity. }
    lia. }
  split.
  { unfold ce_build. rewrite Z1. cbn [bind]. rewrite Y1. cbn [bind]. rewrite M1. cbn [bind]. rewrite Q1. cbn [bind]. rewrite G1. cbn [bind]. rewrite A1. cbn [bind]. rewrite D1. cbn [bind].
    rewrite P1. cbn [bind]. rewrite P2. cbn [bind]. rewrite P3. cbn [bind]. rewrite P4. cbn [bind]. rewrite P5. cbn [bind]. rewrite P6. cbn [bind]. rewrite U1. cbn [bind].
    rewrite B1. cbn [bind]. rewrite B2. cbn [bind]. rewrite B3. cbn [bind]. unfold list_built, ol. clear - H1 H2 H3 H4 H5 H6 T1. destruct (v_particles v); [reflexivity|].
    rewrite T1. cbn [bind]. rewrite H1. cbn [bind]. rewrite H2. cbn [bind]. rewrite H3. cbn [bind]. rewrite H4. cbn [bind]. rewrite H5. cbn [bind]. rewrite H6. reflexivity. }
  assert (SZ : ce_sizes s).
  { constructor.
    - rewrite Sz. exact B.
    - unfold s, s_ntr. cbn [s_xs s_mts]. rewrite len_map. exact L5.
    - split; [exact Hty|exact Lms].
    - exact L7.
    - intros Hi. unfold s in Hi |- *. cbn [s_mts s_nu] in *. destruct (v_nu v); [discriminate|contradiction].
    - intros b Eb. change (s_delayed s) with bS in Eb. rewrite Eb in BS. destruct (v_delayed v); [|contradiction]. destruct BS as (_ & ((X & _) & _) & _). lia.
    - intros g Eg. change (s_photon s) with gS in Eg. rewrite Eg in PS. destruct (v_photon v); [|contradiction]. destruct PS as (_ & ((X & _) & _) & _). lia.
    - change (s_particles s) with qs. eapply Forall_impl; [|exact H8]. intros q Hq. exact (proj1 Hq). }
  assert (Xs : Forall (fun c => 0 < len c) (s_xs s)).
  { unfold s. cbn [s_xs]. clear. induction (v_sig v) as [|e es IH]; constructor; [|exact IH]. destruct e as [i0 vs]. cbn [sig_words]. unfold xs_generateXSS. rewrite !len_cons. nonneg. lia. }
  assert (Xa : s_nr s + 1 <= len (fst (s_ang s))). { unfold s. cbn [s_nr s_ang fst]. rewrite La, len_cons. lia. }
  assert (Xd : s_nr s <= len (fst (s_dlw s))). { unfold s. cbn [s_nr s_dlw fst]. rewrite Ld. lia. }
  assert (Xb : forall b, s_delayed s = Some b -> 0 < b_n b /\ b_n b + 2 <= len (fst (b_dned b))).
  { intros b Eb. change (s_delayed s) with bS in Eb. rewrite Eb in BS. destruct (v_delayed v); [|contradiction]. destruct BS as (_ & (X & _) & _). exact X. }
  assert (Xg : forall g, s_photon s = Some g -> 0 < g_n g /\ g_n g <= len (fst (g_sigp g)) /\ g_n g <= len (fst (g_andp g)) /\ g_n g <= len (fst (g_dlwp g)) /\ 2 <= len (fst (g_yp g))).
  { intros g Eg. change (s_photon s) with gS in Eg. rewrite Eg in PS. destruct (v_photon v); [|contradiction]. destruct PS as (_ & (X & _) & _). exact X. }
  assert (END : 5 * len (v_en v) <= ce_END s).
  { pose proof (firstn_succ_concat 0 (ce_pieces s) _ eq_refl) as E. unfold ce_END, ce_off. pose proof (concat_firstn_le 1 (firstn 18 (ce_pieces s))) as E'.
    rewrite firstn_firstn in E'. change (Nat.min 1 18) with 1%nat in E'. rewrite E in E'. change (len (concat (firstn 0 (ce_pieces s)))) with 0 in E'.
    unfold s at 1 in E'. cbn [s_esz fst] in E'. rewrite Le in E'. lia. }
  assert (LO : ce_last_ok s).
  { unfold ce_last_ok. change (s_photon s) with gS. change (s_delayed s) with bS. change (s_unr s) with uS.
    destruct gS as [g|]. { apply (Xg g eq_refl). }
    destruct bS as [b|]. { apply (Xb b eq_refl). }
    destruct (v_photon v); [contradiction|]. destruct (v_delayed v); [contradiction|].
    destruct uS as [u|]. { destruct (v_unr v) as [u'|]; [|contradiction]. destruct US as (_ & Lu & _). rewrite Lu. pose proof (unr_size_pos u' (V8 u' eq_refl)). lia. }
    destruct (v_unr v); [contradiction|]. unfold s. cbn [s_nr s_dlw s_ang fst].
    destruct (v_dlw v) as [|x r] eqn:Ex.
    - right. split; [reflexivity|]. destruct V7' as (ns & F & En). inversion F; subst ns. cbn in En. split; [|].
      + rewrite En in Ld. change (len (@nil (mult_in * en_in))) with 0 in Ld. apply len_zero_nil. lia.
      + specialize (V12 eq_refl eq_refl eq_refl eq_refl). rewrite La, len_cons. cbn [ab_total fold_right]. fold (ab_total (v_ang v)). pose proof (ab_total_nonneg (v_ang v)). lia.
    - left. rewrite <- Ex in *. rewrite Ld. destruct (ent_sizes_bounds _ _ _ V7') as [_ X]. specialize (X V7). assert (1 <= len (v_dlw v)) by (rewrite Ex, len_cons; pose proof (len_nonneg r); lia). lia. }
  split.
  { constructor.
    - split; [exact Z2|]. exists (v_en v). split; [exact (proj1 (proj2 Z3))|reflexivity].
    - exact Y2.
    - split; [exact M2|]. split; [exact (proj1 (proj1 M3))|exact (proj2 M3)].
    - split; [exact Q2|]. unfold s, s_ntr. cbn [s_mts ci_lqr]. rewrite <- V4. exact (proj1 Q3).
    - split; [exact G2|]. destruct G3 as (X1 & X2 & _). split; [|exact X2]. unfold s, s_ntr. cbn [s_mts ci_sig]. lia.
    - split; [exact A2|]. cbn [ci_ang]. rewrite (proj1 A3). exact L6.
    - split; [exact D2|]. split; [exact D3|]. split; [exact D4|]. cbn [ci_dlw]. rewrite D5. apply firstn_all2. unfold s, len in *. cbn [s_nr s_ms]. lia.
    - exact U2.
    - apply BI; reflexivity.
    - apply PI; reflexivity.
    - unfold secondary_in. change (s_particles s) with qs. unfold ol. cbn [ci_ptype ci_hpd ci_mtrh ci_sigh ci_andh ci_dlwh ci_yh]. destruct (nil_or qs) as [Eq|Eq].
      + rewrite Eq in *. destruct (v_particles v); [repeat split|discriminate Lq].
      + rewrite (match_ne qs _ _ Eq). assert (Ep : v_particles v <> []) by (intros E; rewrite E in Lq; destruct qs; [congruence|discriminate]).
        pose proof (mapM_len _ _ _ H1) as K1. pose proof (mapM_len _ _ _ H2) as K2. pose proof (mapM_len _ _ _ H3) as K3. pose proof (mapM_len _ _ _ H4) as K4. pose proof (mapM_len _ _ _ H5) as K5.
        exists pty, h, m, sg, a, d, (map (fun p => yp_of (pv_yh p)) (v_particles v)).
        do 7 (split; [destruct (v_particles v); [congruence|reflexivity]|]).
        split; [exact T2|]. unfold s_ntype. change (s_particles s) with qs. rewrite Lq'. split; [rewrite (proj1 (proj1 T3)), len_map; reflexivity|].
        split; [exact K1|]. split; [exact K2|]. split; [exact K3|]. split; [exact K4|]. split; [exact K5|]. split; [apply len_map|]. exact H7. }
  split; [exact SZ|]. split.
  { constructor.
    - exact Xs.
    - exact Nd.
    - split; [exact Ne|]. unfold s. cbn [s_nes]. unfold max_words in B. lia.
    - exact Xa.
    - exact Xd.
    - intros b Eb. pose proof (Xb b Eb). lia.
    - intros g Eg. pose proof (Xg g Eg). lia.
    - apply ce_last; try assumption; [intros b Eb; pose proof (Xb b Eb); lia|intros g Eg; pose proof (Xg g Eg); lia].
    - change (s_particles s) with qs. eapply Forall_impl; [|exact H8]. intros q Hq. exact (proj1 (proj2 Hq)).
    - change (s_particles s) with qs. intros q r Eq. clear H1 H2 H3 H4 H5 H6 H7. rewrite Eq in Q. inversion Q as [|p q' ps r' Hp _]; subst. destruct Hp as (wa' & wd' & ->).
      exists (pv_index p), (dbl (len (pv_prod p)) :: pv_prod p ++ pv_heat p). split; [reflexivity|].
      assert (X : In p (v_particles v)) by (match goal with E : p :: _ = v_particles v |- _ => rewrite <- E | E : v_particles v = p :: _ |- _ => rewrite E | _ => idtac end; left; reflexivity).
      rewrite Forall_forall in V11'. destruct (V11' p X) as [(Y & _) _ _ _ _ _]. lia. }
  split.
  { constructor.
    - exact RZ.
    - exact RY.
    - exact RM.
    - unfold s, s_ntr. cbn [s_mts s_lqr fst snd]. rewrite <- V4. exact RQ.
    - unfold s, s_ntr. cbn [s_mts s_sig s_xs]. rewrite <- L5. exact RG.
    - unfold s. cbn [s_nr s_ang fst snd]. rewrite <- L6. exact RA.
    - intros t Ht. exact (RD t _ _ Ht).
    - intros c Ec. change (s_unr s) with uS in Ec. rewrite Ec in US. destruct (v_unr v); [|contradiction]. exact (proj2 (proj2 US)).
    - intros b Eb. change (s_delayed s) with bS in Eb. rewrite Eb in BS. destruct (v_delayed v); [|contradiction]. destruct BS as (_ & (_ & X) & _). exact X.
    - intros g Eg. change (s_photon s) with gS in Eg. rewrite Eg in PS. destruct (v_photon v); [|contradiction]. destruct PS as (_ & (_ & X) & _). exact X.
    - unfold s, s_ntype. cbn [s_particles s_ptype fst snd]. rewrite Lq'. rewrite len_map in RT. exact RT.
    - change (s_particles s) with qs. eapply Forall_impl; [|exact H8]. intros q Hq. exact (proj2 (proj2 Hq)). }
  split; [apply BI; reflexivity|]. split; [|split; [exact Sz|split; [reflexivity|]]].
  2:{ constructor; try reflexivity.
    - exact Lq'.
    - change (s_photon s) with gS. destruct (v_photon v), gS; try contradiction; [|reflexivity]. destruct PS as ((w1 & w2 & -> & _) & _). reflexivity.
    - change (s_delayed s) with bS. destruct (v_delayed v), bS; try contradiction; [|reflexivity]. destruct BS as ((w1 & -> & _) & _). reflexivity.
    - unfold s. cbn [s_nu]. destruct (v_nu v); reflexivity.
    - change (s_unr s) with uS. destruct (v_unr v), uS; try contradiction; reflexivity.
    - unfold ce_pieces, ce_piece_sizes. cbn [map]. rewrite Lt, !Lg. unfold s. cbn [s_esz s_nu s_mts s_lqr s_xs s_ang s_dlw s_unr s_delayed s_photon fst snd].
      rewrite Le, La, Ld, len_cons, len_map, V4.
      repeat (apply cons_eq; [first [reflexivity | lia | destruct (v_nu v); reflexivity
        | destruct (v_unr v), uS; try contradiction; [exact (proj1 (proj2 US))|reflexivity]
        | destruct (v_delayed v), bS; try contradiction; [|reflexivity]; destruct BS as ((w1 & -> & E1) & _); first [reflexivity|exact E1]
        | destruct (v_photon v), gS; try contradiction; [|reflexivity]; destruct PS as ((w1 & w2 & -> & E1 & E2) & _); first [reflexivity|exact E1|exact E2|apply len_map|apply len_yp]]|]).
      reflexivity. }
  intros t [S1 S2 S3 S4 S5 S6 S7 S8 S9 S10 S11 S12 S13 S14 S15 S16 S17 S18 S19 S20 S21 S22].
  constructor; try assumption.
  - unfold s in S2. cbn [s_nu] in S2. destruct (v_nu v), (ct_nu t); exact S2.
  - destruct S5 as (X1 & _ & _ & X2 & _). split.
    + rewrite X1. unfold all_frames, s_ntr, s. cbn [s_frames s_mts s_nr]. unfold len in *. rewrite app_length, repeat_length. lia.
    + intros k f Hk. apply X2. unfold all_frames. apply nth_app_l. exact Hk.
  - change (s_photon s) with gS in S9. destruct (v_photon v), gS, (ct_gpd t); try contradiction; [|exact I]. destruct PS as ((w1 & w2 & -> & _) & _). exact S9.
  - change (s_photon s) with gS in S10. destruct (v_photon v), gS, (ct_mtrp t); try contradiction; [|exact I]. destruct PS as ((w1 & w2 & -> & _) & _). exact S10.
  - change (s_photon s) with gS in S11. destruct (v_photon v), gS, (ct_sigp t); try contradiction; [|exact I]. destruct PS as ((w1 & w2 & -> & _) & _). exact S11.
  - change (s_photon s) with gS in S12. destruct (v_photon v), gS, (ct_andp t); try contradiction; [|exact I]. destruct PS as ((w1 & w2 & -> & _) & _). exact S12.
  - change (s_photon s) with gS in S13. destruct (v_photon v), gS, (ct_dlwp t); try contradiction; [|exact I]. destruct PS as ((w1 & w2 & -> & _) & _). exact S13.
  - change (s_photon s) with gS in S14. destruct (v_photon v), gS, (ct_yp t); try contradiction; [|exact I]. destruct PS as ((w1 & w2 & -> & _) & _). exact S14.
  - change (s_unr s) with uS in S15. destruct (v_unr v), uS as [c|], (ct_unr t); try contradiction; [|exact I]. destruct US as (E & _). cbn [opt_says opt_returns] in *. rewrite E in S15. exact S15.
  - change (s_delayed s) with bS in S16. destruct (v_delayed v), bS, (ct_dnu t); try contradiction; [|exact I]. destruct BS as ((w1 & -> & _) & _). exact S16.
  - change (s_delayed s) with bS in S17. destruct (v_delayed v), bS, (ct_bdd t); try contradiction; [|exact I]. destruct BS as ((w1 & -> & _) & _). exact S17.
  - change (s_delayed s) with bS in S18. destruct (v_delayed v), bS, (ct_dned t); try contradiction; [|exact I]. destruct BS as ((w1 & -> & _) & _). exact S18.
  - change (s_particles s) with qs in S19. unfold s in S19. cbn [s_ptype snd] in S19. clear - S19 Lq. destruct (v_particles v), qs; try discriminate Lq; exact S19.
  - change (s_particles s) with qs in S20. assert (map q_n qs = map (fun p => len (pv_mts p)) (v_particles v)) as <-; [|clear - S20 Lq; destruct (v_particles v), qs; try discriminate Lq; exact S20].
    clear - Q. induction Q as [|p q ps qs (w1 & w2 & ->) _ IH]; [reflexivity|]. cbn [map]. rewrite IH. reflexivity.
  - change (s_particles s) with qs in S22. clear - S22 Q. revert S22. generalize (ct_particles t). induction Q as [|p q ps qs (w1 & w2 & ->) _ IH]; intros l S22; inversion S22; subst; constructor; [|apply IH; assumption].
    match goal with X : particle_shows _ _ _ |- _ => destruct X end. constructor; assumption.
Qed.

(** The header arrays follow *)
Lemma ce_headers v s z a st f : ce_counts v s -> len (ce_words s) = ce_size v -> s_mts s = v_mts v ->
  ce_nxs z a st s = ce_numbers z a st v /\ ce_locators s f = ce_places v f /\ (ce_fission s f -> ce_fission_place v f).
Proof.
  intros [C1 C2 C3 C4 C5 C6 C7 C8 C9 C10] L M.
  assert (G1 : or0 g_n (s_photon s) = or0 (fun g => len (gv_mts g)) (v_photon v)) by (destruct (s_photon s), (v_photon v); try discriminate C6; [injection C6 as C6; exact C6|reflexivity]).
  assert (G2 : or0 b_n (s_delayed s) = or0 (fun d => len (dv_groups d)) (v_delayed v)) by (destruct (s_delayed s), (v_delayed v); try discriminate C7; [injection C7 as C7; exact C7|reflexivity]).
  assert (G3 : given (s_photon s) = given (v_photon v)) by (destruct (s_photon s), (v_photon v); try discriminate C6; reflexivity).
  assert (G4 : given (s_delayed s) = given (v_delayed v)) by (destruct (s_delayed s), (v_delayed v); try discriminate C7; reflexivity).
  assert (Off : forall k, ce_off s k = before v k) by (intros k; apply ce_off_before; exact C10).
  split; [|split].
  - unfold ce_nxs, ce_numbers. unfold s_ntr. rewrite L, M, C1, C2, C4, G1, G2. reflexivity.
  - unfold ce_locators, ce_places, ce_END, s_ntr. rewrite !Off, M, C2, C4, C5, G1, G2, G3, G4, C8, C9, !len_map.
    assert (SE : forall x, match s_particles s with [] => 0 | _ => x end = match v_particles v with [] => 0 | _ => x end).
    { intros x. unfold s_ntype in C4. destruct (s_particles s), (v_particles v); try reflexivity; rewrite len_cons in C4; change (len (@nil particleV)) with 0 in C4; change (len (@nil particleS)) with 0 in C4;
        match type of C4 with context [len ?l] => pose proof (len_nonneg l) end; lia. }
    rewrite !SE. clear SE.
    repeat (apply cons_eq; [first [reflexivity | lia | destruct (given (v_photon v)); [lia|reflexivity] | destruct (given (v_delayed v)); [lia|reflexivity] | destruct (v_particles v); [reflexivity|lia]]|]). reflexivity.
  - intros [F1 F2]. rewrite M in F1, F2. split; [|exact F2]. intros I. destruct (F1 I) as (k & K1 & K2). exists k. split; [exact K1|].
    rewrite K2, Off. unfold s_ntr. rewrite M, C3, len_concat_sum, firstn_map, map_map. reflexivity.
Qed.
