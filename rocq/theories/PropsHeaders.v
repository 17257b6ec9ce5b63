(** Property theorems C41: the numbers and locators of a table built from values describe its data. *)
From Coq Require Import ZArith Bool List Lia Ascii.
From Coq Require Import ZifyBool ZifyNat.
From Verif Require Import PropsContinuous PropsThermal PropsPhotoatomic PropsPhotonuclear PropsTables.
Import ListNotations.
Open Scope Z_scope.

(** The value of an NXS accessor: the int64_t converted to unsigned int, the same for all tables. *)
Lemma number_at bm (d : tdata) k x : len (d_nxs d) = 16 -> nth_error (d_nxs d) k = Some x -> 0 <= x < 2 ^ 32 -> (n <- d_NXS bm d (Z.of_nat k + 1) ;; Ok (u32 n)) = Ok x.
Proof. intros L H B. unfold d_NXS. rewrite (fetch_in bm _ _ _ H) by (rewrite L; reflexivity). cbn [bind]. rewrite u32_small by lia. reflexivity. Qed.

(** Continuous energy tables: length(), ZA(), NES(), NTR(), NR(), NTRP(), NTYPE(), NPCR(), S(), Z(), A(); the
    arrays NXS and JXS; no (ZA, AWR) pairs. *)
Theorem C41_continuous_numbers : forall bm asrt esrt z a st zaid c v,
  sort_contract asrt -> eqb_sort_contract esrt -> In c ["c"; "h"; "o"; "r"; "s"; "a"]%char ->
  ce_valid esrt v -> ce_size v < max_words -> 101 + v_n v < max_words ->
  0 <= z < 2 ^ 31 -> 0 <= a < 2 ^ 31 -> 0 <= st < 2 ^ 31 -> 1000 * z + a < 2 ^ 32 -> ~ (st = 0 /\ z = 0 /\ a = 0) ->
  exists i t, ce_build bm asrt esrt v = Ok i /\ ce_of bm z a st (zaid ++ [c]) i = Ok t
    /\ d_nxs (ct_data t) = ce_numbers z a st v
    /\ (exists f, ce_fission_place v f /\ d_jxs (ct_data t) = ce_places v f)
    /\ d_iz (ct_data t) = repeat 0 16 /\ d_aw (ct_data t) = repeat (dbl 0) 16 /\ len (d_xss (ct_data t)) = ce_size v
    /\ ce_N bm (ct_data t) 1 = Ok (ce_size v) /\ ce_N bm (ct_data t) 2 = Ok (1000 * z + a)
    /\ ce_N bm (ct_data t) 3 = Ok (len (v_en v)) /\ ce_N bm (ct_data t) 4 = Ok (len (v_mts v)) /\ ce_N bm (ct_data t) 5 = Ok (len (v_dlw v))
    /\ ce_N bm (ct_data t) 6 = Ok (match v_photon v with Some g => len (gv_mts g) | None => 0 end) /\ ce_N bm (ct_data t) 7 = Ok (len (v_particles v))
    /\ ce_N bm (ct_data t) 8 = Ok (match v_delayed v with Some d => len (dv_groups d) | None => 0 end)
    /\ ce_N bm (ct_data t) 9 = Ok st /\ ce_N bm (ct_data t) 10 = Ok z /\ ce_N bm (ct_data t) 11 = Ok a.
Proof.
  intros bm asrt esrt z a st zaid c v Hs He Hc V B B' Hz Ha Hst Hza N.
  destruct (ce_from_values bm asrt esrt v Hs He V B B') as (i & s & E & I & SZ & FD & RD & DN & RT & L & M & CC).
  destruct (C21_continuous_energy_round_trip bm z a st zaid c i s Hc I SZ FD RD DN ltac:(lia) ltac:(lia) Hza N) as (f & t & F & T & T1 & T2 & T3).
  destruct (ce_headers v s z a st f CC L M) as (H1 & H2 & H3).
  exists i, t. split; [exact E|]. split; [exact T|]. rewrite T2. cbn [d_nxs d_jxs d_iz d_aw d_xss]. rewrite H1, H2.
  split; [reflexivity|]. split; [exists f; split; [exact (H3 F)|reflexivity]|]. split; [reflexivity|]. split; [reflexivity|]. split; [exact L|].
  pose proof (ce_size_parts _ _ V) as (N1 & N2 & N3 & N4 & N5 & N6 & N7).
  assert (S0 : 5 * len (v_en v) + 3 * len (v_mts v) + 1 + len (v_ang v) + len (v_dlw v) + 12 * len (v_particles v) + or0 photon_size (v_photon v) + or0 delayed_size (v_delayed v) <= ce_size v).
  { unfold ce_size. pose proof (len_nonneg (bl_layout true (map sig_words (v_sig v)))). pose proof (len_nonneg (v_dlw v)). lia. }
  assert (P1 : match v_photon v with Some g => len (gv_mts g) | None => 0 end <= or0 photon_size (v_photon v)).
  { pose proof (v_photon_ok _ _ V) as X. destruct (v_photon v) as [g|]; [|reflexivity]. cbn [or0]. specialize (X g eq_refl). unfold photon_size.
    pose proof (proj1 (en_sizes_bounds _ _ _ (proj1 (proj2 (gv_en_ok _ _ _ X))))). pose proof (ab_total_nonneg (gv_ang g)). pose proof (len_nonneg (gv_gpd g)). pose proof (len_nonneg (gv_mts g)).
    pose proof (len_nonneg (bl_layout true (gv_sigw g))). pose proof (len_nonneg (gv_ang g)). pose proof (len_nonneg (gv_en g)). pose proof (len_nonneg (gv_yp g)). lia. }
  assert (P2 : match v_delayed v with Some d => len (dv_groups d) | None => 0 end <= or0 delayed_size (v_delayed v)).
  { pose proof (v_delayed_ok _ _ V) as X. destruct (v_delayed v) as [d|]; [|reflexivity]. cbn [or0]. specialize (X d eq_refl). unfold delayed_size.
    destruct (dv_en_ok _ _ X) as (_ & Y & Z). pose proof (proj1 (en_sizes_bounds _ _ _ Y)). nonneg. lia. }
  assert (P3 : 0 <= match v_photon v with Some g => len (gv_mts g) | None => 0 end) by (destruct (v_photon v); [apply len_nonneg|reflexivity]).
  assert (P4 : 0 <= match v_delayed v with Some d => len (dv_groups d) | None => 0 end) by (destruct (v_delayed v); [apply len_nonneg|reflexivity]).
  pose proof (len_nonneg (v_en v)). pose proof (len_nonneg (v_mts v)). pose proof (len_nonneg (v_dlw v)). pose proof (len_nonneg (v_particles v)). pose proof (len_nonneg (v_ang v)).
  unfold max_words in B. set (d := TData _ _ _ _ _).
  assert (X : forall k x, nth_error (ce_numbers z a st v) k = Some x -> 0 <= x < 2 ^ 32 -> ce_N bm d (Z.of_nat k + 1) = Ok x) by (intros k x Hk Hx; exact (number_at bm d k x eq_refl Hk Hx)).
  split; [apply (X 0%nat); [reflexivity|lia]|]. split; [apply (X 1%nat); [reflexivity|lia]|]. split; [apply (X 2%nat); [reflexivity|lia]|]. split; [apply (X 3%nat); [reflexivity|lia]|].
  split; [apply (X 4%nat); [reflexivity|lia]|]. split; [apply (X 5%nat); [reflexivity|lia]|]. split; [apply (X 6%nat); [reflexivity|lia]|]. split; [apply (X 7%nat); [reflexivity|lia]|].
  split; [apply (X 8%nat); [reflexivity|lia]|]. split; [apply (X 9%nat); [reflexivity|lia]|]. apply (X 10%nat); [reflexivity|lia].
Qed.
Print Assumptions C41_continuous_numbers.
(** a table with all optional parts, and a concrete reading of its arrays *)
Example C41_continuous_example : ce_numbers 92 235 0 PropsContinuous.ex_ce = [443; 92235; 2; 3; 2; 2; 2; 2; 0; 92; 235; 0; 0; 0; 0; 0]
  /\ exists i t, ce_build Debug an_isort eqb_isort PropsContinuous.ex_ce = Ok i /\ ce_of Debug 92 235 0 ["9"; "2"; "c"]%char i = Ok t
    /\ d_nxs (ct_data t) = ce_numbers 92 235 0 PropsContinuous.ex_ce /\ (exists f, ce_fission_place PropsContinuous.ex_ce f /\ d_jxs (ct_data t) = ce_places PropsContinuous.ex_ce f).
Proof.
  split; [vm_compute; reflexivity|]. destruct C21_valid as (V & B & B').
  destruct (C41_continuous_numbers Debug an_isort eqb_isort 92 235 0 ["9"; "2"]%char "c"%char PropsContinuous.ex_ce an_isort_contract eqb_isort_contract ltac:(left; reflexivity) V B B' ltac:(lia) ltac:(lia) ltac:(lia) ltac:(lia) ltac:(lia)) as (i & t & E & T & N & J & _).
  exists i, t. repeat split; assumption.
Qed.

(** Photoatomic tables: length(), Z(), NES(), NFLO(), NSH(), NEPR(), NSSH(), NE(), NXL(), NA(), NB(), NBL(), NINC(),
    NCOH(); 0 for what is not there.  NINC and NCOH count the form factors only with the complete electron data. *)
Definition pa_number (o : option electronV) (f : electronV -> Z) : Z := match o with Some x => f x | None => 0 end.
Definition pa_complete (o : option electronV) (n : Z) : Z := match o with Some x => match xv_selas x with Some _ => n | None => 0 end | None => 0 end.
Lemma pa_number_bounds v : pa_valid v ->
  let B x := 0 <= x < 2 ^ 32 in
  B (len (wa_xss (pv_words v))) /\ B (len (vp_energies v)) /\ B (match vp_jflo v with Some (e, _, _, _) => len e | None => 0 end)
  /\ B (match vp_shells v with Some s => len (sv_electrons s) | None => 0 end) /\ B (len (snd (vp_jinc v))) /\ B (len (snd (vp_jcoh v)))
  /\ forall x, vp_electrons v = Some x -> B (len (xv_ids x)) /\ B (len (xv_energies x)) /\ B (len (fst (xv_excit x))) /\ B (len (xv_elas x)) /\ B (len (xv_breme x)) /\ B (len (fst (xv_breml x))).
Proof.
  intros V B. pose proof (v_size _ V) as S. unfold max_words in S.
  set (w := pv_words v) in *. assert (P : len (wa_pre w) <= len (wa_xss w)).
  { unfold wa_xss. rewrite len_app. match goal with |- _ <= _ + len ?l => pose proof (len_nonneg l) end. lia. }
  assert (P' : len (wa_eszg w) + len (wa_jinc w) + len (wa_jcoh w) + len (or_nil (option_map snd (wa_jflo w))) + len (wa_shell_words w) <= len (wa_pre w)).
  { unfold wa_pre. repeat rewrite len_app. pose proof (len_nonneg (wa_lhnm w)). lia. }
  pose proof (len_nonneg (wa_eszg w)). pose proof (len_nonneg (wa_jinc w)). pose proof (len_nonneg (wa_jcoh w)). pose proof (len_nonneg (or_nil (option_map snd (wa_jflo w)))). pose proof (len_nonneg (wa_shell_words w)).
  assert (Q1 : len (vp_energies v) <= len (wa_eszg w)). { unfold w, pv_words. cbn [wa_eszg concat]. rewrite len_app. match goal with |- _ <= _ + len ?l => pose proof (len_nonneg l) end. lia. }
  assert (Q2 : match vp_jflo v with Some (e, _, _, _) => len e | None => 0 end <= len (or_nil (option_map snd (wa_jflo w)))).
  { unfold w, pv_words. cbn [wa_jflo]. destruct (vp_jflo v) as [[[[e phi] y] f]|]; cbn [option_map or_nil snd concat]; [|reflexivity]. rewrite len_app. match goal with |- _ <= _ + len ?l => pose proof (len_nonneg l) end. lia. }
  assert (Q3 : match vp_shells v with Some s => len (sv_electrons s) | None => 0 end <= len (wa_shell_words w)).
  { unfold wa_shell_words, w, pv_words. cbn [wa_shells]. destruct (vp_shells v) as [s|]; cbn [option_map concat]; [|reflexivity]. rewrite !len_app, len_map. repeat match goal with |- context [len ?l] => lazymatch goal with X : 0 <= len l |- _ => fail | _ => pose proof (len_nonneg l) end end. lia. }
  assert (Q4 : len (snd (vp_jinc v)) <= len (wa_jinc w)). { unfold w, pv_words. cbn [wa_jinc]. rewrite len_app. match goal with |- _ <= len ?l + _ => pose proof (len_nonneg l) end. lia. }
  assert (Q5 : len (snd (vp_jcoh v)) <= len (wa_jcoh w)). { unfold w, pv_words. cbn [wa_jcoh]. rewrite !len_app. match goal with |- _ <= len ?l + (len ?m + _) => pose proof (len_nonneg l); pose proof (len_nonneg m) end. lia. }
  pose proof (len_nonneg (vp_energies v)). pose proof (len_nonneg (snd (vp_jinc v))). pose proof (len_nonneg (snd (vp_jcoh v))). pose proof (len_nonneg (wa_xss w)).
  unfold B. split; [lia|]. split; [lia|]. split. { split; [destruct (vp_jflo v) as [[[[? ?] ?] ?]|]; [apply len_nonneg|reflexivity]|lia]. }
  split. { split; [destruct (vp_shells v); [apply len_nonneg|reflexivity]|lia]. }
  split; [lia|]. split; [lia|]. intros x Ex. pose proof (v_electrons _ V) as VE. rewrite Ex in VE.
  assert (W : len (pew_1 (el_words x)) + len (pew_2 (el_words x)) <= len (wa_xss w)).
  { unfold wa_xss, w, pv_words. cbn [wa_el]. rewrite Ex. cbn [option_map]. unfold pew_all. rewrite !len_app. fold (pv_words v).
    match goal with |- _ <= len ?l + (_ + (len ?m + _)) => pose proof (len_nonneg l); pose proof (len_nonneg m) end. lia. }
  unfold pew_1, pew_2 in W. rewrite !len_app in W. unfold el_words in W. cbn [w_subsh w_sphel w_xprob w_esze w_excit w_elas w_breme w_breml w_selas] in W.
  assert (Ze : len (esze_words x) >= len (xv_energies x)).
  { destruct (ez_generateArrays_ok _ _ _ _ _ _ (proj2 (e_esze _ _ VE))) as (total & totion & G & AL & _). unfold esze_words. rewrite G. unfold ez_arrays. cbn [app concat]. rewrite len_app.
    match goal with |- _ + len ?l >= _ => pose proof (len_nonneg l) end. lia. }
  assert (Zi : len (concat (ss_arrays (xv_ids x) (xv_population x) (xv_binding x) (xv_vacancy x) (xv_transitions x))) >= len (xv_ids x)).
  { unfold ss_arrays. cbn [concat]. rewrite len_app, len_map. match goal with |- _ + len ?l >= _ => pose proof (len_nonneg l) end. lia. }
  cbn [concat] in W. rewrite !len_app, !len_eb_layout in W. change (len (@nil double)) with 0 in W.
  pose proof (len_nonneg (concat (map ei_words (xv_elas x)))). pose proof (len_nonneg (concat (map ei_words (xv_breme x)))). pose proof (len_nonneg (xv_elas x)). pose proof (len_nonneg (xv_breme x)).
  pose proof (len_nonneg (fst (xv_excit x))). pose proof (len_nonneg (snd (xv_excit x))). pose proof (len_nonneg (fst (xv_breml x))). pose proof (len_nonneg (snd (xv_breml x))).
  pose proof (len_nonneg (xv_energies x)). pose proof (len_nonneg (xv_ids x)). pose proof (len_nonneg (concat (xv_sphel x))).
  repeat match type of W with context [len ?l] => lazymatch goal with X : 0 <= len l |- _ => fail | _ => pose proof (len_nonneg l) end end.
  repeat split; lia.
Qed.
Theorem C41_photoatomic_numbers : forall bm s v, pa_valid v ->
  exists t, pa_build bm (s ++ ["p"%char]) v = Ok t
    /\ pa_length bm (pt_data t) = Ok (len (d_xss (pt_data t))) /\ pa_Z bm (pt_data t) = Ok (vp_z v) /\ pa_NES bm (pt_data t) = Ok (len (vp_energies v))
    /\ pa_NFLO bm (pt_data t) = Ok (match vp_jflo v with Some (e, _, _, _) => len e | None => 0 end)
    /\ pa_NSH bm (pt_data t) = Ok (match vp_shells v with Some s => len (sv_electrons s) | None => 0 end)
    /\ pa_NEPR bm (pt_data t) = Ok (pa_number (vp_electrons v) (fun x => match xv_selas x with Some _ => 3 | None => 1 end))
    /\ pa_NSSH bm (pt_data t) = Ok (pa_number (vp_electrons v) (fun x => len (xv_ids x))) /\ pa_NE bm (pt_data t) = Ok (pa_number (vp_electrons v) (fun x => len (xv_energies x)))
    /\ pa_NXL bm (pt_data t) = Ok (pa_number (vp_electrons v) (fun x => len (fst (xv_excit x)))) /\ pa_NA bm (pt_data t) = Ok (pa_number (vp_electrons v) (fun x => len (xv_elas x)))
    /\ pa_NB bm (pt_data t) = Ok (pa_number (vp_electrons v) (fun x => len (xv_breme x))) /\ pa_NBL bm (pt_data t) = Ok (pa_number (vp_electrons v) (fun x => len (fst (xv_breml x))))
    /\ pa_NINC bm (pt_data t) = Ok (pa_complete (vp_electrons v) (len (snd (vp_jinc v)))) /\ pa_NCOH bm (pt_data t) = Ok (pa_complete (vp_electrons v) (len (snd (vp_jcoh v))))
    /\ (forall k z, nth_error (vp_za v) k = Some z -> 0 <= z < 2 ^ 31 -> d_IZ bm (pt_data t) (Z.of_nat k + 1) = Ok z)
    /\ (forall k w, nth_error (vp_awr v) k = Some w -> d_AW bm (pt_data t) (Z.of_nat k + 1) = Ok w).
Proof.
  intros bm s v V. destruct (C25_photoatomic_table bm s v V) as (t & T & R). exists t. split; [exact T|].
  destruct (pa_number_bounds v V) as (B1 & B2 & B3 & B4 & B5 & B6 & B7). pose proof (v_z _ V) as Bz.
  rewrite (p_xss _ _ _ _ R). pose proof (p_nxs _ _ _ _ R) as N. set (d := pt_data t) in *.
  set (l := [len (wa_xss (pv_words v)); vp_z v; len (vp_energies v); match vp_jflo v with Some (e, _, _, _) => len e | None => 0 end; match vp_shells v with Some s => len (sv_electrons s) | None => 0 end;
     pa_number (vp_electrons v) (fun x => match xv_selas x with Some _ => 3 | None => 1 end); pa_number (vp_electrons v) (fun x => len (xv_ids x)); pa_number (vp_electrons v) (fun x => len (xv_energies x));
     pa_number (vp_electrons v) (fun x => len (fst (xv_excit x))); pa_number (vp_electrons v) (fun x => len (xv_elas x)); pa_number (vp_electrons v) (fun x => len (xv_breme x)); pa_number (vp_electrons v) (fun x => len (fst (xv_breml x)));
     pa_complete (vp_electrons v) (len (snd (vp_jinc v))); pa_complete (vp_electrons v) (len (snd (vp_jcoh v))); 0; 0]).
  assert (E : d_nxs d = l).
  { rewrite N. unfold wa_nxs, l. cbn [app]. apply cons_eq; [reflexivity|]. apply cons_eq; [reflexivity|]. apply cons_eq; [reflexivity|].
    apply cons_eq. { unfold pv_words. cbn [wa_jflo]. destruct (vp_jflo v) as [[[[? ?] ?] ?]|]; reflexivity. }
    apply cons_eq. { unfold pv_words. cbn [wa_shells]. destruct (vp_shells v); reflexivity. }
    unfold pv_words. cbn [wa_el]. destruct (vp_electrons v) as [x|]; cbn [option_map pa_number pa_complete]; [|reflexivity]. unfold el_shape. cbn [h_nepr h_nssh h_ne h_nxl h_na h_nb h_nbl].
    destruct (xv_selas x); reflexivity. }
  assert (X : forall k x, nth_error l k = Some x -> 0 <= x < 2 ^ 32 -> pa_N bm d (Z.of_nat k + 1) = Ok x) by (intros k x Hk Hx; rewrite <- E in Hk; apply (number_at bm d k x); [rewrite E; reflexivity|exact Hk|exact Hx]).
  assert (C : forall n, 0 <= n < 2 ^ 32 -> 0 <= pa_complete (vp_electrons v) n < 2 ^ 32) by (intros n Hn; unfold pa_complete; destruct (vp_electrons v) as [x|]; [destruct (xv_selas x)|]; lia).
  assert (D : forall f, (forall x, vp_electrons v = Some x -> 0 <= f x < 2 ^ 32) -> 0 <= pa_number (vp_electrons v) f < 2 ^ 32) by (intros f Hf; unfold pa_number; destruct (vp_electrons v) as [x|]; [apply Hf; reflexivity|lia]).
  split; [apply (X 0%nat); [reflexivity|exact B1]|]. split; [apply (X 1%nat); [reflexivity|lia]|]. split; [apply (X 2%nat); [reflexivity|exact B2]|].
  split; [apply (X 3%nat); [reflexivity|exact B3]|]. split; [apply (X 4%nat); [reflexivity|exact B4]|].
  split; [apply (X 5%nat); [reflexivity|apply D; intros x _; destruct (xv_selas x); lia]|].
  split; [apply (X 6%nat); [reflexivity|apply D; intros x Hx; apply (B7 x Hx)]|]. split; [apply (X 7%nat); [reflexivity|apply D; intros x Hx; apply (B7 x Hx)]|].
  split; [apply (X 8%nat); [reflexivity|apply D; intros x Hx; apply (B7 x Hx)]|]. split; [apply (X 9%nat); [reflexivity|apply D; intros x Hx; apply (B7 x Hx)]|].
  split; [apply (X 10%nat); [reflexivity|apply D; intros x Hx; apply (B7 x Hx)]|]. split; [apply (X 11%nat); [reflexivity|apply D; intros x Hx; apply (B7 x Hx)]|].
  split; [apply (X 12%nat); [reflexivity|apply C; exact B5]|]. split; [apply (X 13%nat); [reflexivity|apply C; exact B6]|].
  destruct (p_iz _ _ _ _ R) as [I1 I2]. destruct (v_za _ V) as [A1 A2]. fold d in I1, I2. unfold d_IZ, d_AW. rewrite I1, I2. split.
  - intros k z Hk Hz. apply fetch_in.
    + unfold iza. rewrite nth_error_app1 by (rewrite map_length; apply nth_error_Some; congruence). rewrite nth_error_map, Hk. cbn [option_map]. f_equal. apply s32_small. lia.
    + unfold iza, len. rewrite app_length, map_length, repeat_length. unfold len in A2. lia.
  - intros k w Hk. apply fetch_in.
    + unfold awra. rewrite nth_error_app1 by (apply nth_error_Some; congruence). exact Hk.
    + unfold awra, len. rewrite app_length, repeat_length. unfold len in A1, A2. lia.
Qed.
Print Assumptions C41_photoatomic_numbers.
Example C41_photoatomic_example : exists t, pa_build Debug ["1"; "p"]%char ex_photo = Ok t /\ pa_NSSH Debug (pt_data t) = Ok 2 /\ pa_NES Debug (pt_data t) = Ok 2.
Proof. destruct (C41_photoatomic_numbers Debug ["1"]%char ex_photo ex_photo_valid) as (t & T & _ & _ & N & _ & _ & _ & S & _). exists t. split; [exact T|]. split; [exact S|exact N]. Qed.

(** Photonuclear tables: length(), ZA(), NES(), NTR(), NTYPE(), S(), Z(), A() *)
Theorem C41_photonuclear_numbers : forall bm asrt esrt z a st zaid v,
  sort_contract asrt -> eqb_sort_contract esrt -> pu_valid esrt v -> pu_apart v -> pu_size v + 1 < max_words ->
  0 <= z < 2 ^ 31 -> 0 <= a < 2 ^ 31 -> 0 <= st < 2 ^ 31 -> 1000 * z + a < 2 ^ 32 -> ~ (st = 0 /\ z = 0 /\ a = 0) ->
  exists i t, pu_build bm asrt esrt v = Ok i /\ pu_of bm z a st (zaid ++ ["u"%char]) i = Ok t
    /\ len (d_xss (ut_data t)) = pu_size v
    /\ pu_length bm (ut_data t) = Ok (pu_size v) /\ pu_ZA bm (ut_data t) = Ok (1000 * z + a) /\ pu_NES bm (ut_data t) = Ok (len (u_en v)) /\ pu_NTR bm (ut_data t) = Ok (len (u_mts v))
    /\ pu_NTYPE bm (ut_data t) = Ok (len (u_parts v)) /\ pu_S bm (ut_data t) = Ok st /\ pu_Z bm (ut_data t) = Ok z /\ pu_A bm (ut_data t) = Ok a.
Proof.
  intros bm asrt esrt z a st zaid v Hs He V HA B Hz Ha Hst Hza N.
  destruct (C25_photonuclear_table bm asrt esrt z a st zaid v Hs He V HA B ltac:(lia) ltac:(lia) Hza N) as (i & t & E & T & _ & T1 & _ & T3 & _).
  exists i, t. split; [exact E|]. split; [exact T|]. split; [exact T3|]. set (d := ut_data t) in *. unfold max_words in B.
  assert (X : forall k x, nth_error (pu_nxs z a st v) k = Some x -> 0 <= x < 2 ^ 32 -> pu_N bm d (Z.of_nat k + 1) = Ok x) by (intros k x Hk Hx; apply (number_at bm d k x); [rewrite T1; reflexivity|rewrite T1; exact Hk|exact Hx]).
  pose proof (upart_sizes_nonneg _ _ (u_parts_ok _ _ V)) as N1. pose proof (len_nonneg (u_en v)). pose proof (len_nonneg (u_mts v)). pose proof (len_nonneg (u_qs v)). pose proof (len_nonneg (u_parts v)).
  pose proof (len_nonneg (bl_layout true (map sig_words (u_sig v)))).
  assert (N2 : len (u_en v) <= len (concat (eu_arrays (u_en v) (u_tot v) (u_el v) (u_heat v)))).
  { destruct (u_el v); cbn [eu_arrays concat]; rewrite len_app; match goal with |- _ <= _ + len ?l => pose proof (len_nonneg l) end; lia. }
  assert (S0 : len (u_en v) + len (u_mts v) + 12 * len (u_parts v) <= pu_size v) by (unfold pu_size, pu_start, pu_front; lia).
  split; [apply (X 0%nat); [reflexivity|lia]|]. split; [apply (X 1%nat); [reflexivity|lia]|]. split; [apply (X 2%nat); [reflexivity|lia]|]. split; [apply (X 3%nat); [reflexivity|lia]|].
  split; [apply (X 4%nat); [reflexivity|lia]|]. split; [apply (X 8%nat); [reflexivity|lia]|]. split; [apply (X 9%nat); [reflexivity|lia]|]. apply (X 10%nat); [reflexivity|lia].
Qed.
Print Assumptions C41_photonuclear_numbers.
Example C41_photonuclear_example : exists i t, pu_build Debug an_isort eqb_isort ex_pu = Ok i /\ pu_of Debug 92 235 0 ["9"; "2"; "u"]%char i = Ok t
  /\ pu_NES Debug (ut_data t) = Ok 3 /\ pu_NTR Debug (ut_data t) = Ok 2 /\ pu_ZA Debug (ut_data t) = Ok 92235.
Proof.
  destruct C25_photonuclear_valid as (V & _ & _ & A & B).
  destruct (C41_photonuclear_numbers Debug an_isort eqb_isort 92 235 0 ["9"; "2"]%char ex_pu an_isort_contract eqb_isort_contract V A B ltac:(lia) ltac:(lia) ltac:(lia) ltac:(lia) ltac:(lia)) as (i & t & E & T & _ & _ & Z & N & R & _).
  exists i, t. split; [exact E|]. split; [exact T|]. split; [exact N|]. split; [exact R|exact Z].
Qed.

(** Thermal scattering tables: length(), IDPNI(), NIL(), NIEB(), IDPNC(), NCL(), IFENG(), NCLI() *)
Theorem C41_thermal_numbers : forall bm s v, th_valid v ->
  exists t, th_build bm (s ++ ["t"%char]) v = Ok t
    /\ th_length bm (tt_data t) = Ok (len (d_xss (tt_data t))) /\ th_IDPNI bm (tt_data t) = Ok 3
    /\ th_NIL bm (tt_data t) = Ok (if tv_ifeng v <? 2 then u32 (tv_nc v - 1) else tv_nc v + 1)
    /\ th_NIEB bm (tt_data t) = Ok (if tv_ifeng v <? 2 then match tv_cs v with c :: _ => len c | [] => 0 end else 0)
    /\ th_IFENG bm (tt_data t) = Ok (tv_ifeng v)
    /\ th_IDPNC bm (tt_data t) = Ok (match tv_ce v, tv_cei v with Some _, Some _ => 5 | Some _, None => 4 | None, Some _ => 3 | None, None => 0 end)
    /\ th_NCL bm (tt_data t) = Ok (match tv_ce v, tv_cei v with Some _, _ => ncl_of (tv_ca v) | None, Some _ => ncl_of (tv_cai v) | None, None => 0 end)
    /\ th_NCLI bm (tt_data t) = Ok (match tv_ce v, tv_cei v with Some _, Some _ => ncl_of (tv_cai v) | _, _ => 0 end).
Proof.
  intros bm s v V. destruct (C24_thermal_table bm s v V) as (t & T & R & _). exists t. split; [exact T|]. rewrite (tr_xss _ _ _ _ R).
  split; [exact (tr_length _ _ _ _ R)|]. split; [exact (tr_idpni _ _ _ _ R)|]. split; [exact (tr_nil _ _ _ _ R)|]. split.
  { rewrite (tr_nieb _ _ _ _ R). unfold first_count. destruct (tv_ifeng v <? 2); [|reflexivity]. destruct (tv_cs v); reflexivity. }
  split; [exact (tr_ifeng _ _ _ _ R)|]. split; [exact (tr_idpnc _ _ _ _ R)|]. split; [exact (tr_ncl _ _ _ _ R)|exact (tr_ncli _ _ _ _ R)].
Qed.
Print Assumptions C41_thermal_numbers.
Example C41_thermal_example : exists t, th_build Debug ["1"; "t"]%char (ex_th 2 1 ex_cs2 (Some PropsThermal.ex_ce) (Some ex_ca) (Some ex_cei) (Some ex_cai)) = Ok t /\ th_IDPNC Debug (tt_data t) = Ok 5.
Proof. destruct (C41_thermal_numbers Debug ["1"]%char _ (ex_th_valid (Some ex_ca) ltac:(right; reflexivity))) as (t & T & _ & _ & _ & _ & _ & P & _). exists t. split; [exact T|exact P]. Qed.

(** Dosimetry tables: whatever blocks the constructor accepts, the arrays are these.  JXS: LONE (1), MTR (3), LSIG (6), SIGD (7), END (22). *)
Theorem C41_dosimetry_arrays : forall bm z a zaid mtr sigd t wm ws, content (ad_v mtr) wm -> content (bl_v sigd) ws -> dt_of bm z a zaid mtr sigd = Ok t ->
  0 <= z < 2 ^ 31 -> 0 <= a < 2 ^ 31 -> 1000 * z + a < 2 ^ 32 ->
  let n := len wm + len ws in
  dt_data t = TData (repeat 0 16) (repeat (dbl 0) 16)
    [n; 1000 * z + a; 0; mt_NTR mtr; 0; 0; 0; 0; 0; 0; 0; 0; 0; 0; 0; 0]
    [1; 0; 1; 0; 0; len wm + 1; len wm + mt_NTR mtr + 1; 0; 0; 0; 0; 0; 0; 0; 0; 0; 0; 0; 0; 0; 0; n; 0; 0; 0; 0; 0; 0; 0; 0; 0; 0] (wm ++ ws)
  /\ dt_zaid t = zaid.
Proof.
  intros bm z a zaid mtr sigd t wm ws Cm Cs E Hz Ha Hza n. unfold dt_of in E. rewrite (xss_all_content _ _ Cm), (xss_all_content _ _ Cs) in E. cbn [bind] in E.
  unfold dos_generateData in E. destruct (mt_NTR mtr =? bl_n sigd); [|discriminate E]. cbn [negb throw_if bind zeros repeat upd] in E.
  rewrite (u32_small (z * 1000)) in E by lia. rewrite (u32_small (z * 1000 + a)) in E by lia. rewrite len_app in E. unfold dt_make in E.
  set (d := TData _ _ _ _ _) in *.
  destruct (verifyType ["y"%char] zaid); [|discriminate E|discriminate E]. cbn [bind] in E. destruct (d_JXS bm d 3); [|discriminate E|discriminate E]. cbn [bind] in E.
  destruct (d_JXS bm d 6); [|discriminate E|discriminate E]. cbn [bind] in E. destruct (d_JXS bm d 7); [|discriminate E|discriminate E]. cbn [bind] in E.
  destruct (dt_NTR bm d); [|discriminate E|discriminate E]. cbn [bind] in E. destruct (mt_make _ _); [|discriminate E|discriminate E]. cbn [bind] in E.
  destruct (bl_make _ _ _ _ _ _); [|discriminate E|discriminate E]. cbn [bind] in E. apply Ok_inj in E. subst t. cbn [dt_data dt_zaid]. split; [|reflexivity].
  unfold d, n. replace (1000 * z + a) with (z * 1000 + a) by lia. reflexivity.
Qed.
Print Assumptions C41_dosimetry_arrays.
Example C41_dosimetry_example : exists cs m s t,
  mapM (fun t => let '(nbt, int, x, y) := t in td_generateXSS nbt int x y) [([], [], [dbl 1; dbl 2], [dbl 3; dbl 4]); ([2], [5], [dbl 6; dbl 7], [dbl 8; dbl 9])] = Ok cs
  /\ mt_of [16; 102] = Ok m /\ bl_of Debug (sigd_gd Debug) true cs = Ok s /\ dt_of Debug 92 235 ["1"; "y"]%char m s = Ok t
  /\ d_jxs (dt_data t) = [1; 0; 1; 0; 0; 3; 5; 0; 0; 0; 0; 0; 0; 0; 0; 0; 0; 0; 0; 0; 0; 18; 0; 0; 0; 0; 0; 0; 0; 0; 0; 0].
Proof. do 4 eexists. conc. Qed.
