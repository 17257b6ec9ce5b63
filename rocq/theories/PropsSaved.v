(** C44 from values: thermal scattering, photoatomic, photonuclear and dosimetry tables built from valid values are
    written to a text from which the same table is made. *)
From Coq Require Import String.
From Coq Require Import ZArith Bool List Lia Ascii.
From Verif Require Import Base SZA ColumnData BlockWithLocators ThermalBlocks ThermalTable PhotoatomicRead PhotoatomicData PhotoatomicValues PropsTables PhotonuclearRead PhotonuclearValues PropsThermal PropsPhotoatomic PropsPhotonuclear.
From Verif Require Import TableData TableText TableTextSpec TableTextProofs PropsText DecimalExact PropsLossless.
Import ListNotations.
Open Scope Z_scope.

(** * Common part *)
Lemma short_number n : -1 <= n < 10 ^ 9 -> (length (show_Z n) <= 9)%nat.
Proof.
  intros H. destruct (Z.eq_dec n (-1)) as [->|N]; [vm_compute; lia|]. apply length_show_Z; [change (Z.of_nat 9) with 9; lia|lia].
Qed.
Lemma short_numbers l : Forall (fun n => -1 <= n < 10 ^ 9) l -> Forall (fun n => (length (show_Z n) <= 9)%nat) l.
Proof. intros H. eapply Forall_impl; [|exact H]. intros n Hn. apply short_number. exact Hn. Qed.
Definition header_fits (h : header) : Prop := match h with Legacy h => header_ok h | Modern g => header201_ok g end.
(** an atomic weight ratio of the (ZA, AW) pairs: 7 decimals and at most 11 columns *)
Definition awr_fits (x : double) : Prop := fixed_exact 7 x /\ printable x /\ (length (show_fixed 7 x) <= 11)%nat.
Lemma awr_fits_zero : awr_fits (dbl 0).
Proof. split; [apply fixed_exact_zero|]. split; [apply printable_compute; vm_compute; reflexivity|vm_compute; lia]. Qed.
Lemma fits h d : header_fits h -> exact_header h -> data_wf d ->
  Forall (fun n => 0 <= n < 10 ^ 7) (d_iz d) -> Forall awr_fits (d_aw d) ->
  nth_error (d_nxs d) 0 = Some (len (d_xss d)) -> Forall (fun n => -1 <= n < 10 ^ 9) (d_nxs d) -> Forall (fun n => -1 <= n < 10 ^ 9) (d_jxs d) ->
  Forall (sci_exact 12) (d_xss d) -> table_ok (h, d) /\ exact_table (h, d).
Proof.
  intros HF HE W HI HA HN HN' HJ HX. split.
  - split; [exact HF|]. cbn [snd]. split; [exact W|]. split; [|split; [|split; [|split; [|split]]]].
    + eapply Forall_impl; [|exact HI]. intros n Hn. cbv beta in Hn. apply length_show_Z; [exact Hn|lia].
    + eapply Forall_impl; [|exact HA]. intros x [_ Hx]. exact Hx.
    + apply short_numbers. destruct (d_nxs d); [constructor|]. inversion HN'; assumption.
    + apply short_numbers. exact HJ.
    + destruct (d_nxs d) as [|n l]; [discriminate HN|]. apply (f_equal (fun x => match x with Some a => a | None => 0 end)) in HN. cbn [nth_error] in HN. subst n. inversion HN'; lia.
    + eapply Forall_impl; [|exact HX]. intros x Hx. exact (exact_printable 12 x ltac:(lia) Hx).
  - split; [exact HE|]. cbn [snd]. split; [|split; assumption]. eapply Forall_impl; [|exact HA]. intros x [Hx _]. exact Hx.
Qed.
Lemma Forall_zeros (P : Z -> Prop) n : P 0 -> Forall P (zeros n).
Proof. intros H. apply Forall_forall. intros x Hx. apply repeat_spec in Hx. subst x. exact H. Qed.
Lemma awr_dzeros n : Forall awr_fits (dzeros n).
Proof. apply Forall_forall. intros x Hx. apply repeat_spec in Hx. subst x. exact awr_fits_zero. Qed.

(** * Thermal scattering *)
Lemma upd_Forall {A} (P : A -> Prop) x : P x -> forall l k l', Forall P l -> upd k x l = Ok l' -> Forall P l'.
Proof.
  intros Hx l k l' G. revert k l'. induction G as [|y l Hy G IH]; intros k l' E; destruct k; cbn [upd] in E; try discriminate E.
  - apply Ok_inj in E. subst l'. constructor; assumption.
  - apply bind_ok in E as (m & E & E'). apply Ok_inj in E'. subst l'. constructor; [exact Hy|]. eapply IH. exact E.
Qed.
Lemma set_iz_bounded B : forall za k iz iz', Forall (fun z => 0 <= z < B) za -> B <= 2 ^ 31 -> Forall (fun z => 0 <= z < B) iz -> set_iz k za iz = Ok iz' -> Forall (fun z => 0 <= z < B) iz'.
Proof.
  induction za as [|z za IH]; intros k iz iz' F HB G H; cbn [set_iz] in H.
  - apply Ok_inj in H. subst iz'. exact G.
  - apply bind_ok in H as (iz1 & E & H). inversion F as [|? ? F1 F2]; subst. rewrite s32_small in E by lia.
    exact (IH (S k) iz1 iz' F2 HB (upd_Forall _ z F1 _ _ _ G E) H).
Qed.
Lemma first_count_le {A} (cs : list (list A)) : 0 <= first_count cs <= len (concat cs).
Proof. destruct cs as [|c cs]; cbn [first_count concat]; [unfold len; cbn [length]; lia|]. rewrite len_app. pose proof (len_nonneg (concat cs)). pose proof (len_nonneg c). lia. Qed.
Lemma th_numbers v : th_valid v -> len (tv_words v) < 300000000 ->
  Forall (fun n => -1 <= n < 10 ^ 9) (th_nxs v) /\ Forall (fun n => -1 <= n < 10 ^ 9) (th_jxs v).
Proof.
  intros V B. pose proof (vv_size _ V) as Hs. pose proof (vv_it _ V) as Vit. pose proof (it_sizes _ _ _ Vit) as (Hnc & Hf & Hne & Hcc & _).
  assert (Hl : 1 <= tv_locb v) by (unfold tv_locb; pose proof (len_nonneg (tv_e v)); lia).
  pose proof (len_nonneg (tv_words v)) as Hw. pose proof (len_nonneg (concat (concat (cs_words (tv_cs v))))) as Hc0.
  pose proof (it_layout_len _ _ (tv_locb v) _ Vit Hl ltac:(lia)) as L2.
  assert (Wl : len (tv_words v) = len (tc_layout (tv_e v) (tv_xs v)) + len (it_layout (tv_ifeng v) (tv_locb v) (tv_cs v)) + len (opt_words xs_words (tv_ce v))
    + len (opt_words (@concat double) (tv_ca v)) + len (opt_words xs_words (tv_cei v)) + len (opt_words (@concat double) (tv_cai v))) by (unfold tv_words; rewrite !len_app; lia).
  assert (L1 : len (tc_layout (tv_e v) (tv_xs v)) = 1 + 2 * len (tv_e v)) by (unfold tc_layout; rewrite len_cons, len_app, (vv_xs _ V); lia).
  assert (Hx : forall o : option (list double * list double), 0 <= match o with Some c => len (fst c) | None => 0 end <= len (opt_words xs_words o)).
  { intros [c|]; cbn [opt_words]; [|unfold len; cbn [length]; lia]. unfold xs_words, tc_layout. rewrite len_cons, len_app. pose proof (len_nonneg (fst c)). pose proof (len_nonneg (snd c)). lia. }
  assert (Hn : forall o, -1 <= ncl_of o <= len (opt_words (@concat double) o)).
  { intros [a|]; cbn [ncl_of opt_words]; [|unfold len; cbn [length]; lia]. unfold ca_nc. pose proof (first_count_le a). lia. }
  pose proof (len_nonneg (tv_e v)). pose proof (len_nonneg (opt_words (@concat double) (tv_ca v))). pose proof (len_nonneg (opt_words (@concat double) (tv_cai v))).
  pose proof (len_nonneg (opt_words xs_words (tv_ce v))). pose proof (len_nonneg (opt_words xs_words (tv_cei v))).
  pose proof (Hx (tv_ce v)). pose proof (Hx (tv_cei v)). pose proof (Hn (tv_ca v)). pose proof (Hn (tv_cai v)).
  pose proof (vv_ne _ V) as He.
  assert (Hcnc : tv_nc v + 1 <= len (concat (concat (cs_words (tv_cs v)))) /\ first_count (tv_cs v) <= len (concat (concat (cs_words (tv_cs v))))).
  { destruct Vit as (_ & F & (d0 & c0 & r0 & Ecs) & _). rewrite Ecs in F, Hcc |- *. inversion F as [|? ? F1 _]; subst. inversion F1 as [|? ? [_ Ln] _]; subst. split.
    - rewrite <- Ln. unfold cs_words. cbn [map concat]. rewrite concat_app. cbn [concat]. repeat rewrite len_app.
      assert (len (cn_mu d0) + 1 <= len (cn_words d0)) by (destruct d0; cbn [cn_mu cn_words]; rewrite ?len_cons, ?len_app; nonneg; lia).
      pose proof (len_nonneg (concat (map cn_words c0))). pose proof (len_nonneg (concat (concat (map (map cn_words) r0)))). lia.
    - cbn [first_count]. inversion Hcc; subst. assumption. }
  destruct Hcnc as [C1 C2].
  assert (Hi : 0 <= tv_ifeng v <= 2) by apply Vit.
  assert (L2' : len (concat (concat (cs_words (tv_cs v)))) <= len (it_layout (tv_ifeng v) (tv_locb v) (tv_cs v))) by (destruct (tv_ifeng v <? 2); lia).
  clear L2 Hcc V Vit Hs Hx Hn.
  assert (T : 10 ^ 9 = 1000000000) by reflexivity. rewrite T in *. clear T. unfold tv_locb in *.
  split.
  - unfold th_nxs, idpnc. repeat (constructor; [destruct (tv_ifeng v <? 2), (tv_ce v), (tv_cei v); lia|]). constructor.
  - unfold th_jxs, tv_locb. destruct (tv_ce v), (tv_cei v), (tv_ca v); repeat (constructor; [lia|]); constructor.
Qed.

(** A thermal scattering table built from valid values, with a header that fits, ZA numbers of at most 7 digits and
    values of at most 13 digits, is written to a text; what is read from it has the same header and data and makes the
    same table, which returns the values. *)
Theorem C44_thermal_from_values : forall rd bm h zaid v,
  reads_correctly rd -> header_fits h -> exact_header h -> zaid_of h = zaid ++ ["t"%char] ->
  th_valid v -> Forall (fun z => z < 10 ^ 7) (tv_za v) -> len (tv_words v) < 300000000 -> Forall (sci_exact 12) (tv_words v) ->
  exists t, th_build bm (zaid_of h) v = Ok t /\ th_returns bm (zaid_of h) v t /\ saved (th_make bm) rd bm h (tt_data t) t.
Proof.
  intros rd bm h zaid v R HF HE Ez V HZ B HX.
  destruct (th_from_values bm (zaid_of h) v) as (t & E & RT & J & O & iz & Iz & D); [rewrite Ez, verifyType_spec; reflexivity|exact V|].
  exists t. split; [exact E|]. split; [exact RT|].
  destruct (th_numbers v V B) as [N1 N2].
  destruct (fits h (tt_data t)) as [T1 T2]; try assumption.
  - exact (tr_wf _ _ _ _ RT).
  - rewrite D. cbn [d_iz]. destruct (vv_za _ V) as [_ Z]. eapply set_iz_bounded; [| | |exact Iz].
    + apply Forall_forall. intros z Hz. rewrite Forall_forall in HZ, Z. specialize (HZ z Hz). specialize (Z z Hz). lia.
    + vm_compute. discriminate.
    + apply Forall_zeros. vm_compute. split; [discriminate|reflexivity].
  - rewrite D. apply awr_dzeros.
  - rewrite D. reflexivity.
  - rewrite D. exact N1.
  - rewrite D. cbn [d_jxs]. apply Forall_app. split; [exact N2|]. apply Forall_zeros. vm_compute. split; [discriminate|reflexivity].
  - rewrite D. exact HX.
  - exact (C44_thermal rd bm h (th_own (tv_za v) t) t R O T1 T2).
Qed.
Print Assumptions C44_thermal_from_values.

(** * Photonuclear *)
Lemma pu_numbers srt v z a st : pu_valid srt v -> pu_size v < 300000000 -> 0 <= z -> 0 <= a -> 1000 * z + a < 10 ^ 9 -> 0 <= st < 10 ^ 9 ->
  Forall (fun n => -1 <= n < 10 ^ 9) (pu_nxs z a st v) /\ Forall (fun n => -1 <= n < 10 ^ 9) (pu_jxs v).
Proof.
  intros [V1 V2 V3 (V4 & L4) V5] B Hz Ha Hza Hst. pose proof (upart_sizes_nonneg _ _ V5) as Np.
  assert (Ls : len (bl_layout true (map sig_words (u_sig v))) = len (u_mts v) + len (concat (map sig_words (u_sig v)))) by (rewrite len_bl_layout, len_map; lia).
  assert (Le : 3 * len (u_en v) <= len (concat (eu_arrays (u_en v) (u_tot v) (u_el v) (u_heat v)))
     /\ (eu_none (u_el v) = false -> 4 * len (u_en v) <= len (concat (eu_arrays (u_en v) (u_tot v) (u_el v) (u_heat v))))).
  { rewrite (len_concat _ _ V1). pose proof (len_nonneg (u_en v)). destruct (u_el v) as [[|x l]|]; cbn [eu_arrays eu_none]; rewrite ?len_cons, ?len_nil; split; try discriminate; intros; unfold len in *; cbn [length] in *; lia. }
  destruct Le as [Le Le'].
  pose proof (len_nonneg (concat (map sig_words (u_sig v)))). pose proof (len_nonneg (u_mts v)). pose proof (len_nonneg (u_en v)). pose proof (len_nonneg (u_parts v)).
  unfold pu_size in B. assert (T : 10 ^ 9 = 1000000000) by reflexivity. rewrite T in *. clear T.
  assert (S : pu_start v = len (concat (eu_arrays (u_en v) (u_tot v) (u_el v) (u_heat v))) + 3 * len (u_mts v) + len (concat (map sig_words (u_sig v))) + 12 * len (u_parts v)
    /\ pu_front v = len (concat (eu_arrays (u_en v) (u_tot v) (u_el v) (u_heat v))) + 3 * len (u_mts v) + len (concat (map sig_words (u_sig v)))).
  { unfold pu_start, pu_front. rewrite V3, Ls. lia. }
  destruct S as [S1 S2]. split.
  - unfold pu_nxs, pu_size. repeat (constructor; [lia|]). constructor.
  - unfold pu_jxs. cbn [zeros repeat]. rewrite S1, S2. destruct (eu_none (u_el v)); [|specialize (Le' eq_refl)]; cbn [app]; destruct (u_parts v); repeat (constructor; [lia|]); constructor.
Qed.
Theorem C44_photonuclear_from_values : forall rd bm asrt esrt z a st h zaid v,
  reads_correctly rd -> sort_contract asrt -> eqb_sort_contract esrt -> header_fits h -> exact_header h -> zaid_of h = zaid ++ ["u"%char] ->
  pu_valid esrt v -> pu_apart v -> pu_size v < 300000000 ->
  0 <= z -> 0 <= a -> 0 <= st < 10 ^ 9 -> 1000 * z + a < 10 ^ 9 -> ~ (st = 0 /\ z = 0 /\ a = 0) ->
  exists i t, pu_build bm asrt esrt v = Ok i /\ pu_of bm z a st (zaid_of h) i = Ok t /\ pu_returns bm v t
    /\ (Forall (sci_exact 12) (d_xss (ut_data t)) -> saved (pu_make bm) rd bm h (ut_data t) t).
Proof.
  intros rd bm asrt esrt z a st h zaid v R Hs He HF HE Ez V HA B Hz Ha Hst Hza N.
  destruct (C25_photonuclear_table bm asrt esrt z a st zaid v Hs He V HA ltac:(unfold max_words; lia) Hz Ha ltac:(lia) N) as (i & t & E & T & T1 & Dn & Dj & Dx & RT).
  exists i, t. rewrite Ez. split; [exact E|]. split; [exact T|]. split; [exact RT|]. intros HX.
  destruct (pu_numbers _ v z a st V B Hz Ha Hza Hst) as [N1 N2].
  assert (D : d_iz (ut_data t) = zeros 16 /\ d_aw (ut_data t) = dzeros 16).
  { destruct (pu_from_values_full bm asrt esrt z a st (zaid ++ ["u"%char]) v Hs He V HA ltac:(unfold max_words; lia) Hz Ha ltac:(lia)) as (i' & s & E' & D' & (t' & T' & _ & T2 & _) & E1 & E2 & _).
    rewrite E in E'. apply Ok_inj in E'. subst i'. unfold pu_of in T. rewrite D' in T. cbn [bind] in T. unfold pu_make in T. apply bind_ok in T as (u & _ & T).
    rewrite (setSZA_kept bm _ _ st z a) in T; [cbn [bind] in T; rewrite T' in T; apply Ok_inj in T; subst t'; rewrite T2; split; reflexivity| | | | |exact N].
    - split; [reflexivity|]. split; [reflexivity|]. split; [reflexivity|]. rewrite E2. unfold pu_jxs. destruct (eu_none (u_el v)); reflexivity.
    - destruct bm; reflexivity.
    - destruct bm; reflexivity.
    - destruct bm; reflexivity. }
  destruct D as [D1 D2]. rewrite <- Ez in T.
  destruct (fits h (ut_data t)) as [X1 X2]; try assumption.
  - split; [rewrite D1; reflexivity|]. split; [rewrite D2; reflexivity|]. split; [rewrite Dn; reflexivity|]. rewrite Dj. unfold pu_jxs. destruct (eu_none (u_el v)); reflexivity.
  - rewrite D1. apply Forall_zeros. vm_compute. split; [discriminate|reflexivity].
  - rewrite D2. apply awr_dzeros.
  - rewrite Dn, Dx. reflexivity.
  - rewrite Dn. exact N1.
  - rewrite Dj. exact N2.
  - exact (C44_photonuclear rd bm z a st h i t R T X1 X2).
Qed.
Print Assumptions C44_photonuclear_from_values.

(** * Dosimetry *)
Lemma dt_data_of bm z a zaid mtr sigd wm ws t : content (ad_v mtr) wm -> content (bl_v sigd) ws -> mt_NTR mtr = bl_n sigd -> dt_of bm z a zaid mtr sigd = Ok t ->
  dt_data t = TData (zeros 16) (dzeros 16) [len (wm ++ ws); u32 (u32 (z * 1000) + a); 0; mt_NTR mtr; 0; 0; 0; 0; 0; 0; 0; 0; 0; 0; 0; 0]
    [1; 0; 1; 0; 0; len wm + 1; len wm + mt_NTR mtr + 1; 0; 0; 0; 0; 0; 0; 0; 0; 0; 0; 0; 0; 0; 0; len (wm ++ ws); 0; 0; 0; 0; 0; 0; 0; 0; 0; 0] (wm ++ ws).
Proof.
  intros Cm Cs Nm H. unfold dt_of in H. rewrite (xss_all_content _ _ Cm), (xss_all_content _ _ Cs) in H. cbn [bind] in H.
  unfold dos_generateData in H. rewrite <- Nm, Z.eqb_refl in H. cbn [negb throw_if bind zeros repeat upd] in H.
  unfold dt_make in H. repeat (apply bind_ok in H as (? & _ & H)). apply Ok_inj in H. subst t. reflexivity.
Qed.
Theorem C44_dosimetry_from_values : forall rd bm z a h zaid mtr sigd mts ts cs ws,
  reads_correctly rd -> header_fits h -> exact_header h -> zaid_of h = zaid ++ ["y"%char] ->
  mapM (fun t => let '(nbt, int, x, y) := t in td_generateXSS nbt int x y) ts = Ok cs -> bl_generateXSS true cs = Ok ws ->
  content (ad_v mtr) (map dbl mts) -> mt_NTR mtr = len mts -> content (bl_v sigd) ws -> bl_n sigd = len ts -> len mts = len ts -> mt_valid mts ->
  len mts + len ws < 300000000 -> 0 <= z -> 0 <= a -> 1000 * z + a < 10 ^ 9 -> Forall (sci_exact 12) (map dbl mts ++ ws) ->
  exists t, dt_of bm z a (zaid_of h) mtr sigd = Ok t /\ dt_ZA bm (dt_data t) = Ok (1000 * z + a) /\ mt_shows bm (dt_mtr t) mts
    /\ (forall k nbt int x y, nth_error ts k = Some (nbt, int, x, y) -> exists d, bl_datum bm (dt_sig t) (Z.of_nat k + 1) = Ok d /\ td_shows bm d nbt int x y)
    /\ saved (dt_make bm) rd bm h (dt_data t) t.
Proof.
  intros rd bm z a h zaid mtr sigd mts ts cs ws R HF HE Ez G Gl Cm Nm Cs Ns L V B Hz Ha Hza HX.
  destruct (C25_dosimetry_round_trip bm z a zaid mtr sigd mts ts cs ws G Gl Cm Nm Cs Ns L V ltac:(unfold max_words; lia) Hz Ha ltac:(lia))
    as (t & T & _ & _ & _ & TZ & _ & _ & TM & _ & _ & _ & TS).
  exists t. rewrite Ez. split; [exact T|]. split; [exact TZ|]. split; [exact TM|]. split; [exact TS|].
  pose proof (dt_data_of bm z a _ mtr sigd _ _ t Cm Cs ltac:(lia) T) as D. rewrite <- Ez in T.
  pose proof (len_nonneg mts). pose proof (len_nonneg ws).
  assert (T9 : 10 ^ 9 = 1000000000) by reflexivity. rewrite T9 in Hza.
  rewrite (u32_small (z * 1000)) in D by lia. rewrite (u32_small (z * 1000 + a)) in D by lia. rewrite Nm in D.
  destruct (fits h (dt_data t)) as [X1 X2]; try assumption; try rewrite D; cbn [d_iz d_aw d_nxs d_jxs d_xss].
  - repeat split.
  - apply Forall_zeros. vm_compute. split; [discriminate|reflexivity].
  - apply awr_dzeros.
  - reflexivity.
  - rewrite T9, len_app, len_map. repeat (constructor; [lia|]). constructor.
  - rewrite T9, len_app, len_map. repeat (constructor; [lia|]). constructor.
  - exact HX.
  - rewrite <- D. exact (C44_dosimetry rd bm z a h mtr sigd t R T X1 X2).
Qed.
Print Assumptions C44_dosimetry_from_values.

(** * Photoatomic *)
Lemma el_numbers nes x pre : electron_valid nes x -> 0 <= pre -> pre + len (pew_all pre (el_words x)) < 300000000 ->
  let h := el_shape nes x in
  Forall (fun n => -1 <= n < 300000001) [h_nepr h; h_nssh h; h_ne h; h_nxl h; h_na h; h_nb h; h_nbl h]
  /\ Forall (fun n => -1 <= n < 300000002) (pe_jxs pre (el_words x) h).
Proof.
  intros V Hp B h.
  destruct (electrons_ok Debug nes x pre V Hp ltac:(unfold max_words; lia)) as (_ & _ & F & I1 & I2 & I3 & I4 & I5 & I6 & I7).
  assert (E1 : len (xv_energies x) <= len (w_esze (el_words x))).
  { destruct (ez_generateArrays_ok _ _ _ _ _ _ (proj2 (e_esze _ _ V))) as (total & totion & G & AL & _). cbn [el_words w_esze]. unfold esze_words. rewrite G.
    rewrite (len_concat _ _ AL). unfold ez_arrays. rewrite !len_cons. pose proof (len_nonneg (xv_ions x)). pose proof (len_nonneg (xv_energies x)). nia. }
  assert (E2 : len (fst (xv_excit x)) <= len (w_excit (el_words x)) /\ len (fst (xv_breml x)) <= len (w_breml (el_words x))).
  { cbn [el_words w_excit w_breml concat]. rewrite !len_app. pose proof (len_nonneg (snd (xv_excit x))). pose proof (len_nonneg (snd (xv_breml x))). pose proof (len_nonneg (@nil double)). lia. }
  destruct E2 as [E2 E3].
  assert (H0 : 0 <= h_nssh h) by (unfold h; cbn [el_shape h_nssh]; apply len_nonneg).
  pose proof (len_nonneg (xv_energies x)). pose proof (len_nonneg (fst (xv_excit x))). pose proof (len_nonneg (fst (xv_breml x))).
  assert (Hh : h_ne h = len (xv_energies x) /\ h_nxl h = len (fst (xv_excit x)) /\ h_nbl h = len (fst (xv_breml x)) /\ 1 <= h_nepr h <= 3).
  { unfold h. cbn [el_shape h_ne h_nxl h_nbl h_nepr]. destruct (xv_selas x); repeat split; lia. }
  destruct Hh as (Hh1 & Hh2 & Hh3 & Hh4).
  cbv zeta in I1, I2, I3, I4, I5, I6, I7. fold h in I1, I2, I3, I4, I5, I6, I7, F. clearbody h. generalize dependent (el_words x). intros w B I1 I2 I3 I5 I7 E1 E2 E3.
  unfold pew_all, ei_all, pew_1, pew_2 in B. repeat rewrite len_app in B. rewrite len_ei_header in B.
  pose proof (len_nonneg (w_subsh w)). pose proof (len_nonneg (w_sphel w)). pose proof (len_nonneg (w_xprob w)). pose proof (len_nonneg (w_esze w)). pose proof (len_nonneg (w_excit w)).
  pose proof (len_nonneg (w_elas w)). pose proof (len_nonneg (w_breme w)). pose proof (len_nonneg (w_breml w)). pose proof (len_nonneg (or_nil (w_selas w))). pose proof (len_nonneg (concat (map snd (w_eion w)))).
  split.
  - rewrite Hh1, Hh2, Hh3. repeat (constructor; [lia|]). constructor.
  - unfold pe_jxs. repeat (constructor; [try destruct (w_selas w); lia|]). constructor.
Qed.
Lemma pa_numbers v : pa_valid v -> vp_z v < 10 ^ 9 -> len (wa_xss (pv_words v)) < 300000000 ->
  Forall (fun n => -1 <= n < 10 ^ 9) (wa_nxs (pv_words v) (vp_z v) (len (snd (vp_jinc v))) (len (snd (vp_jcoh v)))) /\ Forall (fun n => -1 <= n < 10 ^ 9) (wa_jxs (pv_words v)).
Proof.
  intros V Hz B. pose proof (v_z _ V) as Hz'. pose proof (len_nonneg (wa_xss (pv_words v))) as P0. pose proof B as B'. unfold wa_xss in B'. rewrite len_app in B'.
  assert (Lp : len (wa_pre (pv_words v)) = len (wa_eszg (pv_words v)) + len (wa_jinc (pv_words v)) + len (wa_jcoh (pv_words v)) + len (or_nil (option_map snd (wa_jflo (pv_words v)))) + len (wa_lhnm (pv_words v)) + len (wa_shell_words (pv_words v)))
    by (unfold wa_pre; repeat rewrite len_app; lia).
  assert (EL : match vp_electrons v with
    | Some x => Forall (fun n => -1 <= n < 300000001) [h_nepr (el_shape (len (vp_energies v)) x); h_nssh (el_shape (len (vp_energies v)) x); h_ne (el_shape (len (vp_energies v)) x);
         h_nxl (el_shape (len (vp_energies v)) x); h_na (el_shape (len (vp_energies v)) x); h_nb (el_shape (len (vp_energies v)) x); h_nbl (el_shape (len (vp_energies v)) x)]
       /\ Forall (fun n => -1 <= n < 300000002) (pe_jxs (len (wa_pre (pv_words v))) (el_words x) (el_shape (len (vp_energies v)) x))
    | None => True end).
  { pose proof (v_electrons _ V) as X. destruct (vp_electrons v) as [x|] eqn:Ex; [|exact I]. cbv zeta. apply el_numbers; [exact X|apply len_nonneg|]. unfold pv_words in B' at 2. rewrite Ex in B'. cbn [wa_el option_map] in B'. exact B'. }
  match type of B' with _ + len ?x < _ => pose proof (len_nonneg x) as P1; set (rest := x) in * end.
  assert (A1 : len (vp_energies v) <= len (wa_eszg (pv_words v))).
  { cbn [pv_words wa_eszg concat]. rewrite len_app. match goal with |- _ <= _ + len ?y => pose proof (len_nonneg y) end. lia. }
  assert (A2 : len (snd (vp_jinc v)) <= len (wa_jinc (pv_words v))) by (cbn [pv_words wa_jinc]; rewrite len_app; pose proof (len_nonneg (or_nil (fst (vp_jinc v)))); lia).
  assert (A3 : len (snd (vp_jcoh v)) <= len (wa_jcoh (pv_words v))).
  { cbn [pv_words wa_jcoh]. rewrite !len_app. pose proof (len_nonneg (or_nil (fst (fst (vp_jcoh v))))). pose proof (len_nonneg (snd (fst (vp_jcoh v)))). lia. }
  assert (A4 : 0 <= match wa_jflo (pv_words v) with Some (n, _) => n | None => 0 end <= len (or_nil (option_map snd (wa_jflo (pv_words v))))).
  { cbn [pv_words wa_jflo]. destruct (vp_jflo v) as [[[[e phi] y] f]|]; cbn [option_map or_nil snd]; [|unfold len; cbn [length]; lia]. cbn [concat]. rewrite len_app. pose proof (len_nonneg e). match goal with |- _ <= _ <= _ + len ?z => pose proof (len_nonneg z) end. lia. }
  assert (A5 : match wa_shells (pv_words v) with Some (n, a, b) => 0 <= n /\ 3 * n <= len a /\ n <= len b /\ len (wa_shell_words (pv_words v)) = len a + len b | None => len (wa_shell_words (pv_words v)) = 0 end).
  { unfold wa_shell_words. cbn [pv_words wa_shells]. pose proof (v_shells _ V) as X. destruct (vp_shells v) as [s|]; cbn [option_map]; [|reflexivity].
    destruct X as (_ & _ & S1 & S2 & S3 & _). split; [apply len_nonneg|]. split; [|split; [|apply len_app]].
    - cbn [concat]. rewrite !len_app, len_map, S1, S2. unfold len. cbn [length]. lia.
    - rewrite len_bl_layout, len_map. pose proof (len_nonneg (concat (map profile_words (sv_profiles s)))). lia. }
  pose proof (len_nonneg (vp_energies v)). pose proof (len_nonneg (snd (vp_jinc v))). pose proof (len_nonneg (snd (vp_jcoh v))).
  pose proof (len_nonneg (wa_eszg (pv_words v))). pose proof (len_nonneg (wa_jinc (pv_words v))). pose proof (len_nonneg (wa_jcoh (pv_words v))).
  pose proof (len_nonneg (or_nil (option_map snd (wa_jflo (pv_words v))))). pose proof (len_nonneg (wa_lhnm (pv_words v))). pose proof (len_nonneg (wa_shell_words (pv_words v))).
  assert (W : forall l, Forall (fun n => -1 <= n < 300000002) l -> Forall (fun n => -1 <= n < 10 ^ 9) l).
  { intros l F. eapply Forall_impl; [|exact F]. intros n Hn. cbv beta in Hn. change (10 ^ 9) with 1000000000. lia. }
  change (10 ^ 9) with 1000000000 in *.
  split.
  - unfold wa_nxs. apply Forall_app. split.
    + change (wa_nes (pv_words v)) with (len (vp_energies v)). constructor; [lia|]. constructor; [lia|]. constructor; [lia|]. constructor; [lia|]. constructor; [|constructor]. destruct (wa_shells (pv_words v)) as [[[n a] b]|]; lia.
    + change (wa_el (pv_words v)) with (option_map (fun x => (el_words x, el_shape (len (vp_energies v)) x)) (vp_electrons v)).
      destruct (vp_electrons v) as [x|]; cbn [option_map].
      * apply Forall_app. split; [|repeat (constructor; [lia|]); constructor]. apply Forall_app. split.
        -- apply W. eapply Forall_impl; [|exact (proj1 EL)]. intros n Hn. cbv beta in Hn. lia.
        -- destruct (_ =? 3); repeat (constructor; [lia|]); constructor.
      * cbn [zeros repeat app]. repeat (constructor; [lia|]). constructor.
  - unfold wa_jxs. cbv zeta. apply Forall_app. split; [repeat (constructor; [lia|]); constructor|]. apply Forall_app. split.
    + destruct (wa_shells (pv_words v)) as [[[n a] b]|]; repeat (constructor; [lia|]); constructor.
    + apply Forall_app. split; [|apply Forall_zeros; lia].
      change (wa_el (pv_words v)) with (option_map (fun x => (el_words x, el_shape (len (vp_energies v)) x)) (vp_electrons v)).
      destruct (vp_electrons v) as [x|]; cbn [option_map]; [apply W; exact (proj2 EL)|apply Forall_zeros; lia].
Qed.
Theorem C44_photoatomic_from_values : forall rd bm h zaid v,
  reads_correctly rd -> header_fits h -> exact_header h -> zaid_of h = zaid ++ ["p"%char] ->
  pa_valid v -> vp_z v < 10 ^ 9 -> Forall (fun z => 0 <= z < 10 ^ 7) (vp_za v) -> Forall awr_fits (vp_awr v) ->
  len (wa_xss (pv_words v)) < 300000000 -> Forall (sci_exact 12) (wa_xss (pv_words v)) ->
  exists t, pa_build bm (zaid_of h) v = Ok t /\ pa_returns bm (zaid_of h) v t /\ saved (pa_make bm) rd bm h (pt_data t) t.
Proof.
  intros rd bm h zaid v R HF HE Ez V Hz HZ HA B HX.
  destruct (pa_from_values_full bm (zaid_of h) v) as (i & t & E & RT & G & Q & Iz & Ia & M & F); [rewrite Ez, verifyType_spec; reflexivity|exact V|].
  exists t. split; [exact E|]. split; [exact RT|]. destruct (pa_numbers v V Hz B) as [N1 N2].
  match type of M with pa_make _ _ ?d = _ => assert (D : pt_data t = d) end.
  { unfold pa_make in M. apply bind_ok in M as (u & _ & M). apply bind_ok in M as ([[[[? ?] ?] ?] ?] & _ & M). repeat (apply bind_ok in M as (? & _ & M)). apply Ok_inj in M. subst t. reflexivity. }
  destruct (v_za _ V) as [L1 L2]. unfold len in L1, L2.
  destruct (fits h (pt_data t)) as [T1 T2]; try assumption; try rewrite D; cbn [d_iz d_aw d_nxs d_jxs d_xss]; try assumption.
  - split; [|split; [|split]]; cbn [d_iz d_aw d_nxs d_jxs].
    + unfold iza, len. rewrite app_length, map_length, repeat_length. lia.
    + unfold awra, len. rewrite app_length, repeat_length. lia.
    + unfold wa_nxs. destruct (wa_el (pv_words v)) as [[e s]|]; [destruct (h_nepr s =? 3)|]; reflexivity.
    + unfold wa_jxs. cbv zeta. destruct (wa_shells (pv_words v)) as [[[n a] b]|], (wa_el (pv_words v)) as [[e s]|]; reflexivity.
  - unfold iza. apply Forall_app. split; [|apply Forall_forall; intros x Hx; apply repeat_spec in Hx; subst x; vm_compute; split; [discriminate|reflexivity]].
    apply Forall_forall. intros x Hx. apply in_map_iff in Hx as (z & <- & Hi). rewrite Forall_forall in HZ. specialize (HZ z Hi). assert (T7 : 10 ^ 7 < 2 ^ 31) by reflexivity. rewrite s32_small by lia. exact HZ.
  - unfold awra. apply Forall_app. split; [exact HA|]. apply Forall_forall. intros x Hx. apply repeat_spec in Hx. subst x. exact awr_fits_zero.
  - reflexivity.
  - rewrite <- D. apply saved_intro; try assumption. rewrite D. exact M.
Qed.
Print Assumptions C44_photoatomic_from_values.

(** * Examples: the tables of C24 and C25 with headers of their own type *)
Definition sample_of (zaid : text) : header := Legacy (Header1 zaid (num "0.999167") (num "2.5301e-8") (txt "01/02/2020") (txt "H1 ENDF/B-VIII.0") (txt "mat 125")).
Lemma sample_fits s : column_ok 10 s -> ~ version_word (first_word s) -> header_fits (sample_of s) /\ exact_header (sample_of s).
Proof.
  intros C N. pose proof C27_example as [H _]. cbn [fst] in H. unfold header_ok in H |- *. split; [|exact (proj1 C44_header_exact)].
  unfold header_fits, sample_of, header_ok. cbn [h_zaid h_awr h_temp h_date h_title h_material]. destruct H as (_ & _ & H). split; [exact C|]. split; [exact N|]. exact H.
Qed.
Lemma all_whole l : forallb whole l = true -> Forall (sci_exact 12) l.
Proof. intros F. rewrite forallb_forall in F. apply Forall_forall. intros x Hx. apply whole_exact, F, Hx. Qed.
Ltac sample_header_tac := apply sample_fits; [column|intros [E|E]; vm_compute in E; discriminate E].

Example C44_thermal_example : exists t, th_build Debug (txt "lwtr.10t") (ex_th 2 1 ex_cs2 (Some PropsThermal.ex_ce) (Some ex_ca) (Some ex_cei) (Some ex_cai)) = Ok t
  /\ saved (th_make Debug) read_double Debug (sample_of (txt "lwtr.10t")) (tt_data t) t.
Proof.
  assert (H : header_fits (sample_of (txt "lwtr.10t")) /\ exact_header (sample_of (txt "lwtr.10t"))) by sample_header_tac. destruct H as [H1 H2].
  destruct (C44_thermal_from_values read_double Debug (sample_of (txt "lwtr.10t")) (txt "lwtr.10") _ (fun t x H => H) H1 H2 eq_refl (ex_th_valid _ (or_intror eq_refl))) as (t & E & _ & S).
  - repeat (constructor; [vm_compute; reflexivity|]). constructor.
  - vm_compute. reflexivity.
  - apply all_whole. vm_compute. reflexivity.
  - exists t. split; [exact E|exact S].
Qed.
Example C44_photoatomic_example : exists t, pa_build Debug (txt "1000.84p") ex_photo = Ok t
  /\ saved (pa_make Debug) read_double Debug (sample_of (txt "1000.84p")) (pt_data t) t.
Proof.
  assert (H : header_fits (sample_of (txt "1000.84p")) /\ exact_header (sample_of (txt "1000.84p"))) by sample_header_tac. destruct H as [H1 H2].
  destruct (C44_photoatomic_from_values read_double Debug (sample_of (txt "1000.84p")) (txt "1000.84") _ (fun t x H => H) H1 H2 eq_refl ex_photo_valid) as (t & E & _ & S).
  - vm_compute. reflexivity.
  - repeat (constructor; [vm_compute; split; [discriminate|reflexivity]|]). constructor.
  - constructor; [split; [apply (fixed_exact_compute 7 false 10000000); vm_compute; reflexivity|split; [apply printable_compute; vm_compute; reflexivity|vm_compute; lia]]|].
    constructor; [split; [apply (fixed_exact_compute 7 false 20000000); vm_compute; reflexivity|split; [apply printable_compute; vm_compute; reflexivity|vm_compute; lia]]|]. constructor.
  - vm_compute. reflexivity.
  - apply all_whole. vm_compute. reflexivity.
  - exists t. split; [exact E|exact S].
Qed.
Example C44_photonuclear_example : exists i t, pu_build Debug an_isort eqb_isort ex_pu = Ok i /\ pu_of Debug 92 235 0 (txt "92235.70u") i = Ok t
  /\ saved (pu_make Debug) read_double Debug (sample_of (txt "92235.70u")) (ut_data t) t.
Proof.
  assert (H : header_fits (sample_of (txt "92235.70u")) /\ exact_header (sample_of (txt "92235.70u"))) by sample_header_tac. destruct H as [H1 H2].
  destruct C25_photonuclear_valid as (V & _ & _ & HA & _).
  destruct (C44_photonuclear_from_values read_double Debug an_isort eqb_isort 92 235 0 (sample_of (txt "92235.70u")) (txt "92235.70") ex_pu (fun t x H => H) an_isort_contract eqb_isort_contract H1 H2 eq_refl V HA
    ltac:(vm_compute; reflexivity) ltac:(lia) ltac:(lia) ltac:(vm_compute; split; [discriminate|reflexivity]) ltac:(vm_compute; reflexivity) ltac:(lia)) as (i & t & E & T & _ & S).
  exists i, t. split; [exact E|]. split; [exact T|]. apply S. apply all_whole.
  assert (F : match pu_build Debug an_isort eqb_isort ex_pu with Ok i => match pu_of Debug 92 235 0 (txt "92235.70u") i with Ok t => forallb whole (d_xss (ut_data t)) | _ => false end | _ => false end = true) by (vm_compute; reflexivity).
  rewrite E in F. change (zaid_of (sample_of (txt "92235.70u"))) with (txt "92235.70u") in T. rewrite T in F. exact F.
Qed.
Definition ex_ts : list (list Z * list Z * list double * list double) := [([], [], [dbl 1; dbl 2], [dbl 3; dbl 4]); ([2], [5], [dbl 6; dbl 7], [dbl 8; dbl 9])].
Definition ex_tw := Eval vm_compute in match mapM (fun t => let '(nbt, int, x, y) := t in td_generateXSS nbt int x y) ex_ts with Ok cs => cs | _ => [] end.
Definition ex_bw := Eval vm_compute in match bl_generateXSS true ex_tw with Ok l => l | _ => [] end.
Example C44_dosimetry_example : exists m s t, mt_of [16; 102] = Ok m /\ bl_of Debug (sigd_gd Debug) true ex_tw = Ok s /\ dt_of Debug 92 235 (txt "92235.10y") m s = Ok t
  /\ saved (dt_make Debug) read_double Debug (sample_of (txt "92235.10y")) (dt_data t) t.
Proof.
  assert (H : header_fits (sample_of (txt "92235.10y")) /\ exact_header (sample_of (txt "92235.10y"))) by sample_header_tac. destruct H as [H1 H2].
  assert (VM : mt_valid [16; 102]) by (repeat (apply Forall_cons; [lia|]); apply Forall_nil).
  destruct (mt_supplies Debug [16; 102] VM ltac:(vm_compute; reflexivity)) as [(m & M1 & M2 & M3) _].
  destruct (bl_of Debug (sigd_gd Debug) true ex_tw) as [s| |] eqn:S; [|exfalso; vm_compute in S; discriminate S..].
  assert (S1 : content (bl_v s) ex_bw /\ bl_n s = 2).
  { unfold bl_of in S. change (bl_generateXSS true ex_tw) with (Ok ex_bw) in S. cbn [bind] in S. apply bind_ok in S as (ds & _ & S). apply Ok_inj in S. subst s. split; [apply own_content; vm_compute; reflexivity|reflexivity]. }
  destruct S1 as [S1 S2].
  destruct (C44_dosimetry_from_values read_double Debug 92 235 (sample_of (txt "92235.10y")) (txt "92235.10") m s [16; 102] ex_ts ex_tw ex_bw (fun t x H => H) H1 H2 eq_refl) as (t & T & _ & _ & _ & X); try assumption; try reflexivity; try lia.
  - exact (proj1 (proj1 M3)).
  - apply all_whole. vm_compute. reflexivity.
  - exists m, s, t. auto.
Qed.
