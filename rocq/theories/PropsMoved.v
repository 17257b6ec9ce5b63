(** C47: a block reads the same wherever it stands in a vector of words. *)
From Coq Require Import ZArith Bool List Lia.
From Verif Require Import Float Base ColumnData TabulatedData BlockWithLocators Angular AngularBlock DistributionData EnergyLaws EnergyAngle SimpleLaws EnergyDist MultiDist FrameBlock EnergyBlocks DlwBlock ReactionNumbers NuBlock ElectronBlocks AtomicBlocks ThermalBlocks Moved.
Import ListNotations.
Open Scope Z_scope.

(** * Specification *)

(** [w] is the range [v] with its words, in a vector with the words [pre] in front of those of [v]'s vector
    and the words [post] behind them *)
Definition moved (pre post : list double) (v w : view) : Prop :=
  buf w = pre ++ buf v ++ post /\ vbeg w = vbeg v + len pre /\ vend w = vend v + len pre.

(** An accessor that returns or throws does the same on the other object *)
Definition agree {A} (m m' : outcome A) : Prop := m <> UB -> m' = m.

(** A constructor, or an accessor that returns an object: if the first returns, the second returns an object that
    is [R]elated to it, and if the first throws the second throws the same *)
Definition alike {A} (R : A -> A -> Prop) (m m' : outcome A) : Prop :=
  match m with
  | Ok a => exists b, m' = Ok b /\ R a b
  | Throw e => m' = Throw e
  | UB => True
  end.

Lemma moved_mv pre post v w : moved pre post v w -> w = mv pre post v.
Proof. intros (E1 & E2 & E3). destruct w as [b x y]. cbn in *. subst. reflexivity. Qed.
Lemma rle_agree {A} (m m' : outcome A) : rle (fun x => x) m m' -> agree m m'.
Proof. destruct m; cbn; intros H N; [exact H|exact H|congruence]. Qed.
Lemma rle_alike {A} (f : A -> A) (R : A -> A -> Prop) (m m' : outcome A) : rle f m m' -> (forall a, R a (f a)) -> alike R m m'.
Proof. destruct m; cbn; intros H N; eauto. Qed.
Lemma Forall2_mv {A} (R : A -> A -> Prop) (f : A -> A) (H : forall a, R a (f a)) l : Forall2 R l (map f l).
Proof. induction l; cbn; constructor; auto. Qed.

(** * Objects that answer alike: every accessor of the class *)

(** TabulatedData *)
Definition td_same bm (o o' : tabulatedData) : Prop :=
  (agree (td_NB bm o) (td_NB bm o'))
  /\ (agree (td_NBT bm o) (td_NBT bm o'))
  /\ (agree (td_INT bm o) (td_INT bm o'))
  /\ (agree (td_N bm o) (td_N bm o'))
  /\ (agree (td_x bm o) (td_x bm o'))
  /\ (agree (td_y bm o) (td_y bm o')).
Lemma td_same_mv pre post bm (o : tabulatedData) : td_same bm o (mv_td pre post o).
Proof.
  unfold td_same.
  split; [intros; apply rle_agree, (fr_td_NB pre post); reflexivity|].
  split; [intros; apply rle_agree, (fr_td_NBT pre post); reflexivity|].
  split; [intros; apply rle_agree, (fr_td_INT pre post); reflexivity|].
  split; [intros; apply rle_agree, (fr_td_N pre post); reflexivity|].
  split; [intros; apply rle_agree, (fr_td_x pre post); reflexivity|].
  intros; apply rle_agree, (fr_td_y pre post); reflexivity.
Qed.

(** SimpleMaxwellianFissionSpectrum, EvaporationSpectrum *)
Definition ev_same bm (o o' : evaporation) : Prop :=
  td_same bm (ev_tab o) (ev_tab o')
  /\ (agree (ev_U o) (ev_U o'))
  /\ (agree (ev_emin bm o) (ev_emin bm o'))
  /\ (agree (ev_emax bm o) (ev_emax bm o')).
Lemma ev_same_mv pre post bm (o : evaporation) : ev_same bm o (mv_ev pre post o).
Proof.
  unfold ev_same.
  split; [apply td_same_mv|].
  split; [intros; apply rle_agree, (fr_ev_U pre post); reflexivity|].
  split; [intros; apply rle_agree, (fr_ev_emin pre post); reflexivity|].
  intros; apply rle_agree, (fr_ev_emax pre post); reflexivity.
Qed.

(** GeneralEvaporationSpectrum *)
Definition ge_same bm (o o' : generalEvaporation) : Prop :=
  td_same bm (ge_tab o) (ge_tab o')
  /\ (agree (ge_NET bm o) (ge_NET bm o'))
  /\ (agree (ge_numberBins bm o) (ge_numberBins bm o'))
  /\ (agree (ge_bins bm o) (ge_bins bm o'))
  /\ (agree (ge_emin bm o) (ge_emin bm o'))
  /\ (agree (ge_emax bm o) (ge_emax bm o')).
Lemma ge_same_mv pre post bm (o : generalEvaporation) : ge_same bm o (mv_ge pre post o).
Proof.
  unfold ge_same.
  split; [apply td_same_mv|].
  split; [intros; apply rle_agree, (fr_ge_NET pre post); reflexivity|].
  split; [intros; apply rle_agree, (fr_ge_numberBins pre post); reflexivity|].
  split; [intros; apply rle_agree, (fr_ge_bins pre post); reflexivity|].
  split; [intros; apply rle_agree, (fr_ge_emin pre post); reflexivity|].
  intros; apply rle_agree, (fr_ge_emax pre post); reflexivity.
Qed.

(** EnergyDependentWattSpectrum *)
Definition wa_same bm (o o' : watt) : Prop :=
  td_same bm (wa_a o) (wa_a o')
  /\ td_same bm (wa_b o) (wa_b o')
  /\ (agree (wa_U o) (wa_U o'))
  /\ (agree (wa_emin bm o) (wa_emin bm o'))
  /\ (agree (wa_emax bm o) (wa_emax bm o')).
Lemma wa_same_mv pre post bm (o : watt) : wa_same bm o (mv_wa pre post o).
Proof.
  unfold wa_same.
  split; [apply td_same_mv|].
  split; [apply td_same_mv|].
  split; [intros; apply rle_agree, (fr_wa_U pre post); reflexivity|].
  split; [intros; apply rle_agree, (fr_wa_emin pre post); reflexivity|].
  intros; apply rle_agree, (fr_wa_emax pre post); reflexivity.
Qed.

(** TabulatedFissionMultiplicity *)
Definition tf_same bm (o o' : prefixedTabulated) : Prop :=
  td_same bm (pt_tab o) (pt_tab o')
  /\ (agree (tf_LNU bm o) (tf_LNU bm o')).
Lemma tf_same_mv pre post bm (o : prefixedTabulated) : tf_same bm o (mv_pt pre post o).
Proof.
  unfold tf_same.
  split; [apply td_same_mv|].
  intros; apply rle_agree, (fr_tf_LNU pre post); reflexivity.
Qed.

(** TabulatedSecondaryParticleMultiplicity *)
Definition ts_same bm (o o' : prefixedTabulated) : Prop :=
  td_same bm (pt_tab o) (pt_tab o')
  /\ (agree (ts_MFTYPE bm o) (ts_MFTYPE bm o'))
  /\ (agree (ts_MT bm o) (ts_MT bm o')).
Lemma ts_same_mv pre post bm (o : prefixedTabulated) : ts_same bm o (mv_pt pre post o).
Proof.
  unfold ts_same.
  split; [apply td_same_mv|].
  split; [intros; apply rle_agree, (fr_ts_MFTYPE pre post); reflexivity|].
  intros; apply rle_agree, (fr_ts_MT pre post); reflexivity.
Qed.

(** DelayedNeutronPrecursorData *)
Definition dp_same bm (o o' : precursorData) : Prop :=
  dp_number o' = dp_number o
  /\ td_same bm (pt_tab (dp_tab o)) (pt_tab (dp_tab o'))
  /\ (agree (dp_DEC bm o) (dp_DEC bm o')).
Lemma dp_same_mv pre post bm (o : precursorData) : dp_same bm o (mv_dp pre post o).
Proof.
  unfold dp_same.
  split; [reflexivity|].
  split; [apply td_same_mv|].
  intros; apply rle_agree, (fr_dp_DEC pre post); reflexivity.
Qed.

(** CrossSectionData *)
Definition xs_same bm (o o' : view) : Prop :=
  (agree (xs_energyIndex bm o) (xs_energyIndex bm o'))
  /\ (agree (xs_numberValues bm o) (xs_numberValues bm o'))
  /\ (agree (xs_crossSections bm o) (xs_crossSections bm o')).
Lemma xs_same_mv pre post bm (o : view) : xs_same bm o (mv pre post o).
Proof.
  unfold xs_same.
  split; [intros; apply rle_agree, (fr_xs_energyIndex pre post); reflexivity|].
  split; [intros; apply rle_agree, (fr_xs_numberValues pre post); reflexivity|].
  intros; apply rle_agree, (fr_xs_crossSections pre post); reflexivity.
Qed.

(** PhotonProductionCrossSectionData *)
Definition px_same bm (o o' : view) : Prop :=
  (agree (px_MFTYPE bm o) (px_MFTYPE bm o'))
  /\ (agree (px_energyIndex bm o) (px_energyIndex bm o'))
  /\ (agree (px_numberValues bm o) (px_numberValues bm o'))
  /\ (agree (px_crossSections bm o) (px_crossSections bm o')).
Lemma px_same_mv pre post bm (o : view) : px_same bm o (mv pre post o).
Proof.
  unfold px_same.
  split; [intros; apply rle_agree, (fr_px_MFTYPE pre post); reflexivity|].
  split; [intros; apply rle_agree, (fr_px_energyIndex pre post); reflexivity|].
  split; [intros; apply rle_agree, (fr_px_numberValues pre post); reflexivity|].
  intros; apply rle_agree, (fr_px_crossSections pre post); reflexivity.
Qed.

(** TabulatedProbabilityDistribution *)
Definition tp_same bm (o o' : view) : Prop :=
  (agree (tp_interpolation bm o) (tp_interpolation bm o'))
  /\ (agree (tp_numberValues bm o) (tp_numberValues bm o'))
  /\ (agree (tp_values bm o) (tp_values bm o'))
  /\ (agree (tp_pdf bm o) (tp_pdf bm o'))
  /\ (agree (tp_cdf bm o) (tp_cdf bm o'))
  /\ (forall i, agree (tp_column bm o i) (tp_column bm o' i)).
Lemma tp_same_mv pre post bm (o : view) : tp_same bm o (mv pre post o).
Proof.
  unfold tp_same.
  split; [intros; apply rle_agree, (fr_tp_interpolation pre post); reflexivity|].
  split; [intros; apply rle_agree, (fr_tp_numberValues pre post); reflexivity|].
  split; [intros; apply rle_agree, (fr_tp_values pre post); reflexivity|].
  split; [intros; apply rle_agree, (fr_tp_pdf pre post); reflexivity|].
  split; [intros; apply rle_agree, (fr_tp_cdf pre post); reflexivity|].
  intros; apply rle_agree, (fr_tp_column pre post); reflexivity.
Qed.

(** SecondaryParticleProductionBlock (HPD) *)
Definition hpd_same bm (o o' : view) : Prop :=
  (agree (hpd_energyIndex bm o) (hpd_energyIndex bm o'))
  /\ (agree (hpd_numberValues bm o) (hpd_numberValues bm o'))
  /\ (agree (hpd_totalProduction bm o) (hpd_totalProduction bm o'))
  /\ (agree (hpd_heating bm o) (hpd_heating bm o')).
Lemma hpd_same_mv pre post bm (o : view) : hpd_same bm o (mv pre post o).
Proof.
  unfold hpd_same.
  split; [intros; apply rle_agree, (fr_hpd_energyIndex pre post); reflexivity|].
  split; [intros; apply rle_agree, (fr_hpd_numberValues pre post); reflexivity|].
  split; [intros; apply rle_agree, (fr_hpd_totalProduction pre post); reflexivity|].
  intros; apply rle_agree, (fr_hpd_heating pre post); reflexivity.
Qed.

(** PhotonProduction/SecondaryParticle multiplicity reaction numbers (YP) *)
Definition yp_same bm (o o' : view) : Prop :=
  (agree (yp_NYP bm o) (yp_NYP bm o'))
  /\ (agree (yp_MTs bm o) (yp_MTs bm o'))
  /\ (forall i, agree (yp_MT bm o i) (yp_MT bm o' i))
  /\ (forall i, agree (yp_hasMT o i) (yp_hasMT o' i))
  /\ (forall i, agree (yp_index o i) (yp_index o' i)).
Lemma yp_same_mv pre post bm (o : view) : yp_same bm o (mv pre post o).
Proof.
  unfold yp_same.
  split; [intros; apply rle_agree, (fr_yp_NYP pre post); reflexivity|].
  split; [intros; apply rle_agree, (fr_yp_MTs pre post); reflexivity|].
  split; [intros; apply rle_agree, (fr_yp_MT pre post); reflexivity|].
  split; [intros; apply rle_agree, (fr_yp_hasMT pre post); reflexivity|].
  intros; apply rle_agree, (fr_yp_index pre post); reflexivity.
Qed.

(** PolynomialFissionMultiplicity *)
Definition pf_same bm (o o' : view) : Prop :=
  (agree (pf_LNU bm o) (pf_LNU bm o'))
  /\ (agree (pf_NC bm o) (pf_NC bm o'))
  /\ (agree (pf_C bm o) (pf_C bm o')).
Lemma pf_same_mv pre post bm (o : view) : pf_same bm o (mv pre post o).
Proof.
  unfold pf_same.
  split; [intros; apply rle_agree, (fr_pf_LNU pre post); reflexivity|].
  split; [intros; apply rle_agree, (fr_pf_NC pre post); reflexivity|].
  intros; apply rle_agree, (fr_pf_C pre post); reflexivity.
Qed.

(** PhotonProductionData: a cross section or a multiplicity *)
Definition pp_same bm (o o' : photonProduction) : Prop :=
  match o, o' with
  | PPCrossSection v, PPCrossSection v' => px_same bm v v'
  | PPMultiplicity t, PPMultiplicity t' => ts_same bm t t'
  | _, _ => False
  end.
Lemma pp_same_mv pre post bm o : pp_same bm o (mv_pp pre post o).
Proof. destruct o; [apply px_same_mv|apply ts_same_mv]. Qed.

(** The blocks with locators (SIG, SIGP, SIGH, XPROB, SWD, SIGD): the number of data, the locators and the data,
    related by [R] *)
Definition bl_same {D} (R : D -> D -> Prop) bm (o o' : blockWithLocators D) : Prop :=
  bl_n o' = bl_n o
  /\ (forall i, agree (bl_LLOC bm o i) (bl_LLOC bm o' i))
  /\ (forall i, alike R (bl_datum bm o i) (bl_datum bm o' i)).
Lemma bl_same_mv {D} pre post (R : D -> D -> Prop) f (H : forall d, R d (f d)) bm o : bl_same R bm o (mv_bl pre post f o).
Proof.
  split; [reflexivity|]. split; intros i.
  - apply rle_agree, (fr_bl_LLOC pre post). reflexivity.
  - eapply rle_alike; [apply (fr_bl_datum pre post); reflexivity|exact H].
Qed.

(** An angular distribution: isotropic, equiprobable bins or tabulated *)
Definition ang_same bm (o o' : angular view) : Prop :=
  match o, o' with
  | AIso e, AIso e' => e' = e
  | AEqui e v, AEqui e' v' => e' = e /\ agree (eq_cosines bm v) (eq_cosines bm v')
  | ATab e v, ATab e' v' => e' = e /\ tp_same bm v v'
  | _, _ => False
  end.
Lemma ang_same_mv pre post bm o : ang_same bm o (mv_ang pre post o).
Proof.
  destruct o; cbn [ang_same mv_ang].
  - reflexivity.
  - split; [reflexivity|]. apply rle_agree, (fr_eq_cosines pre post). reflexivity.
  - split; [reflexivity|]. apply tp_same_mv.
Qed.

(** AngularDistributionData *)
Definition an_same bm (o o' : angularData) : Prop :=
  (agree (an_NE bm o) (an_NE bm o'))
  /\ (agree (an_incidentEnergies bm o) (an_incidentEnergies bm o'))
  /\ (forall i, alike (ang_same bm) (an_datum bm o i) (an_datum bm o' i)).
Lemma an_same_mv pre post bm (o : angularData) : an_same bm o (mv_an pre post o).
Proof.
  unfold an_same.
  split; [intros; apply rle_agree, (fr_an_NE pre post); reflexivity|].
  split; [intros; apply rle_agree, (fr_an_incidentEnergies pre post); reflexivity|].
  intros; eapply rle_alike; [apply (fr_an_datum pre post); reflexivity|intros; apply ang_same_mv].
Qed.

(** What an angular distribution block has for a reaction *)
Definition adist_same bm (o o' : adist angularData) : Prop :=
  match o, o' with DIso, DIso | DElse, DElse => True | DData d, DData d' => an_same bm d d' | _, _ => False end.
Lemma adist_same_mv pre post bm o : adist_same bm o (mv_adist (mv_an pre post) o).
Proof. destruct o; cbn; try exact Logic.I. apply an_same_mv. Qed.

(** AngularDistributionBlock, SecondaryParticleAngularDistributionBlock *)
Definition ab_same bm (o o' : angularBlock) : Prop :=
  ab_nr o' = ab_nr o
  /\ (forall i, agree (ab_LAND bm o i) (ab_LAND bm o' i))
  /\ (forall i, agree (ab_isFullyIsotropic bm o i) (ab_isFullyIsotropic bm o' i))
  /\ (forall i, agree (ab_isGiven bm o i) (ab_isGiven bm o' i))
  /\ (forall i, alike (adist_same bm) (ab_datum bm o i) (ab_datum bm o' i)).
Lemma ab_same_mv pre post bm (o : angularBlock) : ab_same bm o (mv_ab pre post o).
Proof.
  unfold ab_same.
  split; [reflexivity|].
  split; [intros; apply rle_agree, (fr_ab_LAND pre post); reflexivity|].
  split; [intros; apply rle_agree, (fr_ab_isFullyIsotropic pre post); reflexivity|].
  split; [intros; apply rle_agree, (fr_ab_isGiven pre post); reflexivity|].
  intros; eapply rle_alike; [apply (fr_ab_datum pre post); reflexivity|intros; apply adist_same_mv].
Qed.

(** Distributions with interpolation regions, and with one interpolation type *)
Definition dd_same {D} (R : D -> D -> Prop) bm (o o' : distributionData D) : Prop :=
  agree (dd_NB bm o) (dd_NB bm o') /\ agree (dd_NBT bm o) (dd_NBT bm o') /\ agree (dd_INT bm o) (dd_INT bm o')
  /\ agree (dd_N bm o) (dd_N bm o') /\ agree (dd_energies bm o) (dd_energies bm o')
  /\ (forall i, agree (dd_energy bm o i) (dd_energy bm o' i)) /\ (forall i, agree (dd_locator bm o i) (dd_locator bm o' i))
  /\ (forall i, agree (dd_rel bm o i) (dd_rel bm o' i)) /\ (forall i, alike R (dd_datum bm o i) (dd_datum bm o' i))
  /\ agree (dd_emin bm o) (dd_emin bm o') /\ agree (dd_emax bm o) (dd_emax bm o').
Lemma dd_same_mv {D} pre post (R : D -> D -> Prop) f (H : forall d, R d (f d)) bm o : dd_same R bm o (mv_dd pre post f o).
Proof.
  unfold dd_same. repeat (split; [|]);
    [apply rle_agree, (fr_dd_NB pre post)|apply rle_agree, (fr_dd_NBT pre post)|apply rle_agree, (fr_dd_INT pre post)|apply rle_agree, (fr_dd_N pre post)|apply rle_agree, (fr_dd_energies pre post)
    |intros; apply rle_agree, (fr_dd_energy pre post); reflexivity|intros; apply rle_agree, (fr_dd_locator pre post); reflexivity|intros; apply rle_agree, (fr_dd_rel pre post); reflexivity
    |intros; eapply rle_alike; [apply (fr_dd_datum pre post); reflexivity|exact H]
    |apply rle_agree, (fr_dd_emin pre post)|apply rle_agree, (fr_dd_emax pre post)].
Qed.
Definition di_same {D} (R : D -> D -> Prop) bm (o o' : distributionDataI D) : Prop :=
  agree (di_interpolation bm o) (di_interpolation bm o') /\ agree (di_N bm o) (di_N bm o')
  /\ (forall c, agree (di_column bm o c) (di_column bm o' c)) /\ (forall c i, agree (di_value bm o c i) (di_value bm o' c i))
  /\ (forall i, agree (di_rel bm o i) (di_rel bm o' i)) /\ (forall i, alike R (di_datum bm o i) (di_datum bm o' i)).
Lemma di_same_mv {D} pre post (R : D -> D -> Prop) f (H : forall d, R d (f d)) bm o : di_same R bm o (mv_di pre post f o).
Proof.
  unfold di_same. repeat (split; [|]);
    [apply rle_agree, (fr_di_interpolation pre post)|apply rle_agree, (fr_di_N pre post)|intros; apply rle_agree, (fr_di_column pre post); reflexivity
    |intros; apply rle_agree, (fr_di_value pre post); reflexivity|intros; apply rle_agree, (fr_di_rel pre post); reflexivity
    |intros; eapply rle_alike; [apply (fr_di_datum pre post); reflexivity|exact H]].
Qed.

(** The tabulated distributions of the laws 4, 44, 61 and 67: the value they are for, and their numbers *)
Definition tq_same bm (o o' : tq_obj) : Prop :=
  fst o' = fst o /\ tp_same bm (snd o) (snd o')
  /\ agree (tq_interpolation bm o) (tq_interpolation bm o') /\ agree (tq_numberDiscrete bm o) (tq_numberDiscrete bm o').
Lemma tq_same_mv pre post bm o : tq_same bm o (mv_tq pre post o).
Proof. split; [reflexivity|]. split; [apply tp_same_mv|]. split; [apply rle_agree, (fr_tq_interpolation pre post)|apply rle_agree, (fr_tq_numberDiscrete pre post)]. Qed.
Definition ae_same bm (o o' : ae_obj) : Prop := fst o' = fst o /\ di_same (tq_same bm) bm (snd o) (snd o').
Lemma ae_same_mv pre post bm o : ae_same bm o (mv_ae pre post o).
Proof. split; [reflexivity|]. apply (di_same_mv pre post), tq_same_mv. Qed.
Definition tw_same bm (o o' : tw_obj) : Prop :=
  two_energy o' = two_energy o /\ two_prob o' = two_prob o /\ two_cumul o' = two_cumul o /\ tp_same bm (two_v o) (two_v o').
Lemma tw_same_mv pre post bm o : tw_same bm o (mv_tw pre post o).
Proof. do 3 (split; [reflexivity|]). apply tp_same_mv. Qed.
Definition ea_same bm (o o' : ea_obj) : Prop := fst o' = fst o /\ di_same (tw_same bm) bm (snd o) (snd o').
Lemma ea_same_mv pre post bm o : ea_same bm o (mv_ea pre post o).
Proof. split; [reflexivity|]. apply (di_same_mv pre post), tw_same_mv. Qed.

(** The laws 2, 3, 33 and 66: limits and numbers *)
Definition two_same bm (o o' : SimpleLaws.two) : Prop :=
  two_emin o' = two_emin o
  /\ two_emax o' = two_emax o
  /\ (agree (two_C1 bm o) (two_C1 bm o'))
  /\ (agree (two_C2 bm o) (two_C2 bm o'))
  /\ (agree (dp_LP bm o) (dp_LP bm o'))
  /\ (agree (nb_NPSX bm o) (nb_NPSX bm o'))
  /\ (agree (nb_AP bm o) (nb_AP bm o'))
  /\ (agree (nb_interpolation bm o) (nb_interpolation bm o'))
  /\ (agree (nb_numberValues bm o) (nb_numberValues bm o'))
  /\ (agree (nb_values bm o) (nb_values bm o'))
  /\ (agree (nb_pdf bm o) (nb_pdf bm o'))
  /\ (agree (nb_cdf bm o) (nb_cdf bm o')).
Lemma two_same_mv pre post bm (o : SimpleLaws.two) : two_same bm o (mv_two pre post o).
Proof.
  unfold two_same.
  split; [reflexivity|].
  split; [reflexivity|].
  split; [intros; apply rle_agree, (fr_two_C1 pre post); reflexivity|].
  split; [intros; apply rle_agree, (fr_two_C2 pre post); reflexivity|].
  split; [intros; apply rle_agree, (fr_dp_LP pre post); reflexivity|].
  split; [intros; apply rle_agree, (fr_nb_NPSX pre post); reflexivity|].
  split; [intros; apply rle_agree, (fr_nb_AP pre post); reflexivity|].
  split; [intros; apply rle_agree, (fr_nb_interpolation pre post); reflexivity|].
  split; [intros; apply rle_agree, (fr_nb_numberValues pre post); reflexivity|].
  split; [intros; apply rle_agree, (fr_nb_values pre post); reflexivity|].
  split; [intros; apply rle_agree, (fr_nb_pdf pre post); reflexivity|].
  intros; apply rle_agree, (fr_nb_cdf pre post); reflexivity.
Qed.

Definition eqb_same bm (o o' : double * view) : Prop :=
  fst o' = fst o /\ eqb_numberBins o' = eqb_numberBins o /\ agree (eqb_energies bm o) (eqb_energies bm o').
Lemma eqb_same_mv pre post bm o : eqb_same bm o (mv_tq pre post o).
Proof. split; [reflexivity|]. split; [apply eqb_numberBins_mv|]. apply rle_agree, (fr_eqb_energies pre post). Qed.

(** EquiprobableOutgoingEnergyBinData *)
Definition eq_same bm (o o' : equi) : Prop :=
  (agree (eq_NB bm o) (eq_NB bm o'))
  /\ (agree (eq_NBT bm o) (eq_NBT bm o'))
  /\ (agree (eq_INT bm o) (eq_INT bm o'))
  /\ (agree (eq_NE bm o) (eq_NE bm o'))
  /\ (agree (eq_incidentEnergies bm o) (eq_incidentEnergies bm o'))
  /\ (forall i, agree (eq_incidentEnergy bm o i) (eq_incidentEnergy bm o' i))
  /\ (agree (eq_NET bm o) (eq_NET bm o'))
  /\ (forall i, alike (eqb_same bm) (eq_distribution bm o i) (eq_distribution bm o' i))
  /\ (agree (eq_emin bm o) (eq_emin bm o'))
  /\ (agree (eq_emax bm o) (eq_emax bm o')).
Lemma eq_same_mv pre post bm (o : equi) : eq_same bm o (mv_eq pre post o).
Proof.
  unfold eq_same.
  split; [intros; apply rle_agree, (fr_eq_NB pre post); reflexivity|].
  split; [intros; apply rle_agree, (fr_eq_NBT pre post); reflexivity|].
  split; [intros; apply rle_agree, (fr_eq_INT pre post); reflexivity|].
  split; [intros; apply rle_agree, (fr_eq_NE pre post); reflexivity|].
  split; [intros; apply rle_agree, (fr_eq_incidentEnergies pre post); reflexivity|].
  split; [intros; apply rle_agree, (fr_eq_incidentEnergy pre post); reflexivity|].
  split; [intros; apply rle_agree, (fr_eq_NET pre post); reflexivity|].
  split; [intros; eapply rle_alike; [apply (fr_eq_distribution pre post); reflexivity|intros; apply eqb_same_mv]|].
  split; [intros; apply rle_agree, (fr_eq_emin pre post); reflexivity|].
  intros; apply rle_agree, (fr_eq_emax pre post); reflexivity.
Qed.

(** The energy distributions: the same kind with the same answers *)
Definition ed_same bm (o o' : ed_obj) : Prop :=
  agree (ed_emin bm o) (ed_emin bm o') /\ agree (ed_emax bm o) (ed_emax bm o') /\
  match o, o' with
  | OEqui o, OEqui o' => eq_same bm o o'
  | ODiscrete o, ODiscrete o' | OLevel o, OLevel o' | OTwoBody o, OTwoBody o' | ONBody o, ONBody o' => two_same bm o o'
  | OOutgoing o, OOutgoing o' | OKalbach o, OKalbach o' => dd_same (tq_same bm) bm o o'
  | OEnergyAngle o, OEnergyAngle o' => dd_same (ea_same bm) bm o o'
  | OAngleEnergy o, OAngleEnergy o' => dd_same (ae_same bm) bm o o'
  | OGeneralEvap o, OGeneralEvap o' => ge_same bm o o'
  | OMaxwell o, OMaxwell o' | OEvaporation o, OEvaporation o' => ev_same bm o o'
  | OWatt o, OWatt o' => wa_same bm o o'
  | _, _ => False
  end.
Lemma ed_same_mv pre post bm o : ed_same bm o (mv_ed pre post o).
Proof.
  split; [apply rle_agree, (fr_ed_emin pre post)|]. split; [apply rle_agree, (fr_ed_emax pre post)|].
  destruct o; cbn [mv_ed];
    first [apply eq_same_mv|apply two_same_mv|apply (dd_same_mv pre post), tq_same_mv|apply (dd_same_mv pre post), ea_same_mv|apply (dd_same_mv pre post), ae_same_mv
          |apply ge_same_mv|apply ev_same_mv|apply wa_same_mv].
Qed.

(** MultiDistributionData *)
Definition mu_same bm (o o' : multi) : Prop :=
  mu_numberDistributions o' = mu_numberDistributions o
  /\ (forall i, alike (td_same bm) (mu_probability bm o i) (mu_probability bm o' i))
  /\ (forall i, alike (ed_same bm) (mu_distribution bm o i) (mu_distribution bm o' i)).
Lemma mu_same_mv pre post bm o : mu_same bm o (mv_mu pre post o).
Proof.
  split; [apply mu_number_mv|]. split; intros.
  - eapply rle_alike; [apply (fr_mu_probability pre post); reflexivity|intros; apply td_same_mv].
  - eapply rle_alike; [apply (fr_mu_distribution pre post); reflexivity|intros; apply ed_same_mv].
Qed.
Definition en_same bm (o o' : en_obj) : Prop :=
  match o, o' with Single d, Single d' => ed_same bm d d' | Multi m, Multi m' => mu_same bm m m' | Undefined, Undefined => True | _, _ => False end.
Lemma en_same_mv pre post bm o : en_same bm o (mv_en pre post o).
Proof. destruct o; cbn [mv_en en_same]; [apply ed_same_mv|apply mu_same_mv|exact Logic.I]. Qed.

(** FrameAndMultiplicityBlock (TYR, TYRH) *)
Definition ty_same bm (o o' : tyr) : Prop :=
  ty_NTR o' = ty_NTR o
  /\ ty_frames o' = ty_frames o
  /\ ty_mults o' = ty_mults o
  /\ (forall i, agree (ty_frame bm o i) (ty_frame bm o' i))
  /\ (forall i, agree (ty_mult bm o i) (ty_mult bm o' i)).
Lemma ty_same_mv pre post bm (o : tyr) : ty_same bm o (mv_ty pre post o).
Proof.
  unfold ty_same.
  split; [reflexivity|].
  split; [reflexivity|].
  split; [reflexivity|].
  split; [intros; apply rle_agree, (fr_ty_frame pre post); reflexivity|].
  intros; apply rle_agree, (fr_ty_mult pre post); reflexivity.
Qed.

(** SecondaryParticleEnergyDistributionBlock (DLWH) *)
Definition dh_same bm (o o' : dlwh) : Prop :=
  dh_NR o' = dh_NR o
  /\ dh_frames o' = dh_frames o
  /\ (forall i, agree (dh_LDLW bm o i) (dh_LDLW bm o' i))
  /\ (forall i, alike (en_same bm) (dh_distribution bm o i) (dh_distribution bm o' i))
  /\ (forall i, agree (dh_frame bm o i) (dh_frame bm o' i)).
Lemma dh_same_mv pre post bm (o : dlwh) : dh_same bm o (mv_dh pre post o).
Proof.
  unfold dh_same.
  split; [reflexivity|].
  split; [reflexivity|].
  split; [intros; apply rle_agree, (fr_dh_LDLW pre post); reflexivity|].
  split; [intros; eapply rle_alike; [apply (fr_dh_distribution pre post); reflexivity|intros; apply en_same_mv]|].
  intros; apply rle_agree, (fr_dh_frame pre post); reflexivity.
Qed.

Definition mo_same bm (o o' : mult_obj) : Prop :=
  match o, o' with MuNum n, MuNum n' => n' = n | MuTab t, MuTab t' => td_same bm t t' | _, _ => False end.
Lemma mo_same_mv pre post bm o : mo_same bm o (mv_mo pre post o).
Proof. destruct o; cbn [mv_mo mo_same]; [reflexivity|apply td_same_mv]. Qed.
(** EnergyDistributionBlock (DLW) *)
Definition dl_same bm (o o' : dlw) : Prop :=
  dl_NR o' = dl_NR o
  /\ (forall i, agree (dl_LDLW bm o i) (dl_LDLW bm o' i)) /\ (forall i, agree (dl_frame bm o i) (dl_frame bm o' i))
  /\ (forall i, alike (en_same bm) (dl_distribution bm o i) (dl_distribution bm o' i))
  /\ (forall i, alike (mo_same bm) (dl_multiplicity bm o i) (dl_multiplicity bm o' i)).
Lemma dl_same_mv pre post bm t o : dl_same bm o (mv_dlt pre post t o).
Proof.
  split; [reflexivity|]. split; [intros; apply rle_agree, (fr_dl_LDLW pre post)|]. split; [intros; apply rle_agree, (fr_dl_frame pre post)|]. split; intros.
  - eapply rle_alike; [apply (fr_dl_distribution pre post)|intros; apply en_same_mv].
  - eapply rle_alike; [apply (fr_dl_multiplicity pre post)|intros; apply mo_same_mv].
Qed.

(** ReactionNumberBlock (MTR, MTRP, MTRH), SecondaryParticleTypeBlock (PTYPE) *)
Definition mt_same bm (o o' : arrayData) : Prop :=
  mt_NTR o' = mt_NTR o
  /\ (agree (mt_MTs bm o) (mt_MTs bm o'))
  /\ (forall i, agree (mt_MT bm o i) (mt_MT bm o' i))
  /\ (forall i, agree (mt_hasMT o i) (mt_hasMT o' i))
  /\ (forall i, agree (mt_index o i) (mt_index o' i)).
Lemma mt_same_mv pre post bm (o : arrayData) : mt_same bm o (mv_ad pre post o).
Proof.
  unfold mt_same.
  split; [reflexivity|].
  split; [intros; apply rle_agree, (fr_mt_MTs pre post); reflexivity|].
  split; [intros; apply rle_agree, (fr_mt_MT pre post); reflexivity|].
  split; [intros; apply rle_agree, (fr_mt_hasMT pre post); reflexivity|].
  intros; apply rle_agree, (fr_mt_index pre post); reflexivity.
Qed.

(** ReactionQValueBlock (LQR) *)
Definition lq_same bm (o o' : arrayData) : Prop :=
  (agree (lq_QValues bm o) (lq_QValues bm o'))
  /\ (forall i, agree (lq_QValue bm o i) (lq_QValue bm o' i)).
Lemma lq_same_mv pre post bm (o : arrayData) : lq_same bm o (mv_ad pre post o).
Proof.
  unfold lq_same.
  split; [intros; apply rle_agree, (fr_lq_QValues pre post); reflexivity|].
  intros; apply rle_agree, (fr_lq_QValue pre post); reflexivity.
Qed.

(** PrincipalCrossSectionBlock (ESZ) *)
Definition esz_same bm (o o' : arrayData) : Prop :=
  esz_NES o' = esz_NES o
  /\ (agree (esz_energies bm o) (esz_energies bm o'))
  /\ (agree (esz_total bm o) (esz_total bm o'))
  /\ (agree (esz_disappearance bm o) (esz_disappearance bm o'))
  /\ (agree (esz_elastic bm o) (esz_elastic bm o'))
  /\ (agree (esz_heating bm o) (esz_heating bm o')).
Lemma esz_same_mv pre post bm (o : arrayData) : esz_same bm o (mv_ad pre post o).
Proof.
  unfold esz_same.
  split; [reflexivity|].
  split; [intros; apply rle_agree, (fr_esz_energies pre post); reflexivity|].
  split; [intros; apply rle_agree, (fr_esz_total pre post); reflexivity|].
  split; [intros; apply rle_agree, (fr_esz_disappearance pre post); reflexivity|].
  split; [intros; apply rle_agree, (fr_esz_elastic pre post); reflexivity|].
  intros; apply rle_agree, (fr_esz_heating pre post); reflexivity.
Qed.

(** SecondaryParticleInformation NTRO *)
Definition nt_same bm (o o' : ntro) : Prop :=
  nt_NTYPE o' = nt_NTYPE o
  /\ (agree (nt_NPs bm o) (nt_NPs bm o'))
  /\ (forall i, agree (nt_NP bm o i) (nt_NP bm o' i)).
Lemma nt_same_mv pre post bm (o : ntro) : nt_same bm o (mv_nt pre post o).
Proof.
  unfold nt_same.
  split; [reflexivity|].
  split; [intros; apply rle_agree, (fr_nt_NPs pre post); reflexivity|].
  intros; apply rle_agree, (fr_nt_NP pre post); reflexivity.
Qed.

(** SecondaryParticleLocatorBlock (IXS) *)
Definition ix_same bm (o o' : ntro) : Prop :=
  nt_NTYPE o' = nt_NTYPE o
  /\ (forall i j, agree (ix_LLOC bm o i j) (ix_LLOC bm o' i j)).
Lemma ix_same_mv pre post bm (o : ntro) : ix_same bm o (mv_nt pre post o).
Proof.
  unfold ix_same.
  split; [reflexivity|].
  intros; apply rle_agree, (fr_ix_LLOC pre post); reflexivity.
Qed.

(** The data of a fission multiplicity block *)
Definition nud_same bm (o o' : nu_data) : Prop :=
  match o, o' with NuPoly v, NuPoly v' => pf_same bm v v' | NuTab t, NuTab t' => tf_same bm t t' | _, _ => False end.
Lemma nud_same_mv pre post bm o : nud_same bm o (mv_nud pre post o).
Proof.
  destruct o as [v|t]; cbn [mv_nud nud_same]; [|apply tf_same_mv]. destruct (buf v); [|apply pf_same_mv]. unfold pf_same, agree. auto.
Qed.
(** FissionMultiplicityBlock (NU, DNU) *)
Definition nu_same bm (o o' : nu) : Prop :=
  nu_both o' = nu_both o /\ nud_same bm (nu_prompt o) (nu_prompt o')
  /\ match nu_total o, nu_total o' with None, None => True | Some d, Some d' => nud_same bm d d' | _, _ => False end.
Lemma nu_same_mv pre post bm o : nu_same bm o (mv_nu pre post o).
Proof.
  unfold nu_same, nu_both. cbn [mv_nu nu_prompt nu_total]. split; [destruct (nu_total o); reflexivity|]. split; [apply nud_same_mv|].
  destruct (nu_total o); cbn [option_map]; [apply nud_same_mv|exact Logic.I].
Qed.

(** ProbabilityTable *)
Definition tb_same bm (o o' : ptable) : Prop :=
  tb_incidentEnergy o' = tb_incidentEnergy o
  /\ tb_numberBins o' = tb_numberBins o
  /\ (agree (tb_cumulativeProbabilities bm o) (tb_cumulativeProbabilities bm o'))
  /\ (agree (tb_total bm o) (tb_total bm o'))
  /\ (agree (tb_elastic bm o) (tb_elastic bm o'))
  /\ (agree (tb_fission bm o) (tb_fission bm o'))
  /\ (agree (tb_capture bm o) (tb_capture bm o'))
  /\ (agree (tb_heating bm o) (tb_heating bm o')).
Lemma tb_same_mv pre post bm (o : ptable) : tb_same bm o (mv_tb pre post o).
Proof.
  unfold tb_same.
  split; [reflexivity|].
  split; [reflexivity|].
  split; [intros; apply rle_agree, (fr_tb_cumulativeProbabilities pre post); reflexivity|].
  split; [intros; apply rle_agree, (fr_tb_total pre post); reflexivity|].
  split; [intros; apply rle_agree, (fr_tb_elastic pre post); reflexivity|].
  split; [intros; apply rle_agree, (fr_tb_fission pre post); reflexivity|].
  split; [intros; apply rle_agree, (fr_tb_capture pre post); reflexivity|].
  intros; apply rle_agree, (fr_tb_heating pre post); reflexivity.
Qed.

(** ProbabilityTableBlock (UNR) *)
Definition un_same bm (o o' : unr) : Prop :=
  agree (un_N bm (un_v o)) (un_N bm (un_v o')) /\ agree (un_M bm (un_v o)) (un_M bm (un_v o')) /\ agree (un_INT bm (un_v o)) (un_INT bm (un_v o'))
  /\ agree (un_ILF bm (un_v o)) (un_ILF bm (un_v o')) /\ agree (un_IOA bm (un_v o)) (un_IOA bm (un_v o')) /\ agree (un_IFF bm (un_v o)) (un_IFF bm (un_v o'))
  /\ agree (un_energies bm (un_v o)) (un_energies bm (un_v o'))
  /\ (forall i, alike (tb_same bm) (un_probabilityTable bm o i) (un_probabilityTable bm o' i)).
Lemma un_same_mv pre post bm o : un_same bm o (mv_un pre post o).
Proof.
  unfold un_same. repeat (split; [|]); [apply rle_agree, (fr_un_N pre post); reflexivity|apply rle_agree, (fr_un_M pre post); reflexivity|apply rle_agree, (fr_un_INT pre post); reflexivity
    |apply rle_agree, (fr_un_ILF pre post); reflexivity|apply rle_agree, (fr_un_IOA pre post); reflexivity|apply rle_agree, (fr_un_IFF pre post); reflexivity
    |apply rle_agree, (fr_un_energies pre post); reflexivity|].
  intros. eapply rle_alike; [apply (fr_un_probabilityTable pre post); reflexivity|intros; apply tb_same_mv].
Qed.

(** DelayedNeutronPrecursorBlock (BDD) *)
Definition bd_same bm (o o' : bdd) : Prop :=
  bd_NPCR o' = bd_NPCR o
  /\ (forall i, alike (dp_same bm) (bd_precursorGroupData bm o i) (bd_precursorGroupData bm o' i)).
Lemma bd_same_mv pre post bm (o : bdd) : bd_same bm o (mv_bd pre post o).
Proof.
  unfold bd_same.
  split; [reflexivity|].
  intros; eapply rle_alike; [apply (fr_bd_precursorGroupData pre post); reflexivity|intros; apply dp_same_mv].
Qed.

(** the distribution of an electron block *)
Definition el_same bm (o o' : electronDatum) : Prop :=
  ed_energy o' = ed_energy o
  /\ ed_L o' = ed_L o
  /\ (agree (ed_x bm o) (ed_x bm o'))
  /\ (agree (ed_cdf bm o) (ed_cdf bm o')).
Lemma el_same_mv pre post bm (o : electronDatum) : el_same bm o (mv_el pre post o).
Proof.
  unfold el_same.
  split; [reflexivity|].
  split; [reflexivity|].
  split; [intros; apply rle_agree, (fr_ed_x pre post); reflexivity|].
  intros; apply rle_agree, (fr_ed_cdf pre post); reflexivity.
Qed.

(** ElasticAngularDistributionBlock, BremsstrahlungBlock, EnergyDistributionBlock (ELAS, BREME, EION) *)
Definition eb_same bm (o o' : electronBlock) : Prop :=
  eb_N o' = eb_N o
  /\ (forall i, agree (eb_LLOC bm o i) (eb_LLOC bm o' i))
  /\ (agree (eb_energies bm o) (eb_energies bm o'))
  /\ (agree (eb_lengths bm o) (eb_lengths bm o'))
  /\ (forall i, agree (eb_energy bm o i) (eb_energy bm o' i))
  /\ (forall i, agree (eb_length bm o i) (eb_length bm o' i))
  /\ (forall i, alike (el_same bm) (eb_datum bm o i) (eb_datum bm o' i)).
Lemma eb_same_mv pre post bm (o : electronBlock) : eb_same bm o (mv_eb pre post o).
Proof.
  unfold eb_same.
  split; [reflexivity|].
  split; [intros; apply rle_agree, (fr_eb_LLOC pre post); reflexivity|].
  split; [intros; apply rle_agree, (fr_eb_energies pre post); reflexivity|].
  split; [intros; apply rle_agree, (fr_eb_lengths pre post); reflexivity|].
  split; [intros; apply rle_agree, (fr_eb_energy pre post); reflexivity|].
  split; [intros; apply rle_agree, (fr_eb_length pre post); reflexivity|].
  intros; eapply rle_alike; [apply (fr_eb_datum pre post); reflexivity|intros; apply el_same_mv].
Qed.

(** ExcitationBlock, ElasticCrossSectionBlock, BremsstrahlungBlock, HeatingNumbersBlock (two columns) *)
Definition two2_same bm (o o' : arrayData) : Prop :=
  two_N o' = two_N o
  /\ (agree (two_first bm o) (two_first bm o'))
  /\ (agree (two_second bm o) (two_second bm o')).
Lemma two2_same_mv pre post bm (o : arrayData) : two2_same bm o (mv_ad pre post o).
Proof.
  unfold two2_same.
  split; [reflexivity|].
  split; [intros; apply rle_agree, (fr_two_first pre post); reflexivity|].
  intros; apply rle_agree, (fr_two_second pre post); reflexivity.
Qed.

(** ElectronShellBlock (EPS) *)
Definition ep_same bm (o o' : arrayData) : Prop :=
  ep_NSH o' = ep_NSH o
  /\ (agree (ep_LNEPS bm o) (ep_LNEPS bm o'))
  /\ (agree (ep_LBEPS bm o) (ep_LBEPS bm o'))
  /\ (agree (ep_LPIPS bm o) (ep_LPIPS bm o'))
  /\ (forall i, agree (ep_numberElectronsPerShell bm o i) (ep_numberElectronsPerShell bm o' i))
  /\ (forall i, agree (ep_bindingEnergy bm o i) (ep_bindingEnergy bm o' i))
  /\ (forall i, agree (ep_interactionProbability bm o i) (ep_interactionProbability bm o' i)).
Lemma ep_same_mv pre post bm (o : arrayData) : ep_same bm o (mv_ad pre post o).
Proof.
  unfold ep_same.
  split; [reflexivity|].
  split; [intros; apply rle_agree, (fr_ep_LNEPS pre post); reflexivity|].
  split; [intros; apply rle_agree, (fr_ep_LBEPS pre post); reflexivity|].
  split; [intros; apply rle_agree, (fr_ep_LPIPS pre post); reflexivity|].
  split; [intros; apply rle_agree, (fr_ep_numberElectronsPerShell pre post); reflexivity|].
  split; [intros; apply rle_agree, (fr_ep_bindingEnergy pre post); reflexivity|].
  intros; apply rle_agree, (fr_ep_interactionProbability pre post); reflexivity.
Qed.

(** ElectronSubshellBlock (SUBSH) *)
Definition ss_same bm (o o' : arrayData) : Prop :=
  ss_NSSH o' = ss_NSSH o
  /\ (agree (ss_ID bm o) (ss_ID bm o'))
  /\ (agree (ss_EP bm o) (ss_EP bm o'))
  /\ (agree (ss_BE bm o) (ss_BE bm o'))
  /\ (agree (ss_CV bm o) (ss_CV bm o'))
  /\ (agree (ss_NT bm o) (ss_NT bm o'))
  /\ (forall i, agree (ss_designator bm o i) (ss_designator bm o' i))
  /\ (forall i, agree (ss_population bm o i) (ss_population bm o' i))
  /\ (forall i, agree (ss_bindingEnergy bm o i) (ss_bindingEnergy bm o' i))
  /\ (forall i, agree (ss_vacancyProbability bm o i) (ss_vacancyProbability bm o' i))
  /\ (forall i, agree (ss_numberTransitions bm o i) (ss_numberTransitions bm o' i)).
Lemma ss_same_mv pre post bm (o : arrayData) : ss_same bm o (mv_ad pre post o).
Proof.
  unfold ss_same.
  split; [reflexivity|].
  split; [intros; apply rle_agree, (fr_ss_ID pre post); reflexivity|].
  split; [intros; apply rle_agree, (fr_ss_EP pre post); reflexivity|].
  split; [intros; apply rle_agree, (fr_ss_BE pre post); reflexivity|].
  split; [intros; apply rle_agree, (fr_ss_CV pre post); reflexivity|].
  split; [intros; apply rle_agree, (fr_ss_NT pre post); reflexivity|].
  split; [intros; apply rle_agree, (fr_ss_designator pre post); reflexivity|].
  split; [intros; apply rle_agree, (fr_ss_population pre post); reflexivity|].
  split; [intros; apply rle_agree, (fr_ss_bindingEnergy pre post); reflexivity|].
  split; [intros; apply rle_agree, (fr_ss_vacancyProbability pre post); reflexivity|].
  intros; apply rle_agree, (fr_ss_numberTransitions pre post); reflexivity.
Qed.

(** electron PrincipalCrossSectionBlock (ESZE) *)
Definition ez_same bm (o o' : arrayData) : Prop :=
  ez_NE o' = ez_NE o
  /\ ez_NSSH o' = ez_NSSH o
  /\ (agree (ez_energies bm o) (ez_energies bm o'))
  /\ (agree (ez_total bm o) (ez_total bm o'))
  /\ (agree (ez_elastic bm o) (ez_elastic bm o'))
  /\ (agree (ez_bremsstrahlung bm o) (ez_bremsstrahlung bm o'))
  /\ (agree (ez_excitation bm o) (ez_excitation bm o'))
  /\ (agree (ez_totalElectroionisation bm o) (ez_totalElectroionisation bm o'))
  /\ (forall i, agree (ez_electroionisation bm o i) (ez_electroionisation bm o' i)).
Lemma ez_same_mv pre post bm (o : arrayData) : ez_same bm o (mv_ad pre post o).
Proof.
  unfold ez_same.
  split; [reflexivity|].
  split; [reflexivity|].
  split; [intros; apply rle_agree, (fr_ez_energies pre post); reflexivity|].
  split; [intros; apply rle_agree, (fr_ez_total pre post); reflexivity|].
  split; [intros; apply rle_agree, (fr_ez_elastic pre post); reflexivity|].
  split; [intros; apply rle_agree, (fr_ez_bremsstrahlung pre post); reflexivity|].
  split; [intros; apply rle_agree, (fr_ez_excitation pre post); reflexivity|].
  split; [intros; apply rle_agree, (fr_ez_totalElectroionisation pre post); reflexivity|].
  intros; apply rle_agree, (fr_ez_electroionisation pre post); reflexivity.
Qed.

(** TransitionData *)
Definition tr_same bm (o o' : arrayData) : Prop :=
  tr_NT o' = tr_NT o
  /\ (forall i, agree (tr_transition bm o i) (tr_transition bm o' i))
  /\ (forall i, agree (tr_primaryDesignator bm o i) (tr_primaryDesignator bm o' i))
  /\ (forall i, agree (tr_secondaryDesignator bm o i) (tr_secondaryDesignator bm o' i))
  /\ (forall i, agree (tr_energy bm o i) (tr_energy bm o' i))
  /\ (forall i, agree (tr_probability bm o i) (tr_probability bm o' i))
  /\ (forall i, agree (tr_isRadiative bm o i) (tr_isRadiative bm o' i)).
Lemma tr_same_mv pre post bm (o : arrayData) : tr_same bm o (mv_ad pre post o).
Proof.
  unfold tr_same.
  split; [reflexivity|].
  split; [intros; apply rle_agree, (fr_tr_transition pre post); reflexivity|].
  split; [intros; apply rle_agree, (fr_tr_primaryDesignator pre post); reflexivity|].
  split; [intros; apply rle_agree, (fr_tr_secondaryDesignator pre post); reflexivity|].
  split; [intros; apply rle_agree, (fr_tr_energy pre post); reflexivity|].
  split; [intros; apply rle_agree, (fr_tr_probability pre post); reflexivity|].
  intros; apply rle_agree, (fr_tr_isRadiative pre post); reflexivity.
Qed.

(** photoatomic PrincipalCrossSectionBlock (ESZG) *)
Definition eg_same bm (o o' : arrayData) : Prop :=
  eg_NES o' = eg_NES o
  /\ (agree (eg_energies bm o) (eg_energies bm o'))
  /\ (agree (eg_incoherent bm o) (eg_incoherent bm o'))
  /\ (agree (eg_coherent bm o) (eg_coherent bm o'))
  /\ (agree (eg_photoelectric bm o) (eg_photoelectric bm o'))
  /\ (agree (eg_pairproduction bm o) (eg_pairproduction bm o')).
Lemma eg_same_mv pre post bm (o : arrayData) : eg_same bm o (mv_ad pre post o).
Proof.
  unfold eg_same.
  split; [reflexivity|].
  split; [intros; apply rle_agree, (fr_eg_energies pre post); reflexivity|].
  split; [intros; apply rle_agree, (fr_eg_incoherent pre post); reflexivity|].
  split; [intros; apply rle_agree, (fr_eg_coherent pre post); reflexivity|].
  split; [intros; apply rle_agree, (fr_eg_photoelectric pre post); reflexivity|].
  intros; apply rle_agree, (fr_eg_pairproduction pre post); reflexivity.
Qed.

(** FluorescenceDataBlock (JFLO) *)
Definition jf_same bm (o o' : arrayData) : Prop :=
  jf_NFLO o' = jf_NFLO o
  /\ (agree (jf_E bm o) (jf_E bm o'))
  /\ (agree (jf_PHI bm o) (jf_PHI bm o'))
  /\ (agree (jf_Y bm o) (jf_Y bm o'))
  /\ (agree (jf_F bm o) (jf_F bm o')).
Lemma jf_same_mv pre post bm (o : arrayData) : jf_same bm o (mv_ad pre post o).
Proof.
  unfold jf_same.
  split; [reflexivity|].
  split; [intros; apply rle_agree, (fr_jf_E pre post); reflexivity|].
  split; [intros; apply rle_agree, (fr_jf_PHI pre post); reflexivity|].
  split; [intros; apply rle_agree, (fr_jf_Y pre post); reflexivity|].
  intros; apply rle_agree, (fr_jf_F pre post); reflexivity.
Qed.

(** PhotoelectricCrossSectionBlock (SPHEL) *)
Definition sp_same bm (o o' : arrayData) : Prop :=
  sp_NES o' = sp_NES o
  /\ sp_NSSH o' = sp_NSSH o
  /\ (forall i, agree (sp_photoelectric bm o i) (sp_photoelectric bm o' i)).
Lemma sp_same_mv pre post bm (o : arrayData) : sp_same bm o (mv_ad pre post o).
Proof.
  unfold sp_same.
  split; [reflexivity|].
  split; [reflexivity|].
  intros; apply rle_agree, (fr_sp_photoelectric pre post); reflexivity.
Qed.

(** IncoherentFormFactorBlock (JINC) *)
Definition ji_same bm (o o' : jinc) : Prop :=
  ji_NM o' = ji_NM o
  /\ (agree (ji_momentum bm o) (ji_momentum bm o'))
  /\ (agree (ji_values bm o) (ji_values bm o')).
Lemma ji_same_mv pre post bm (o : jinc) : ji_same bm o (mv_ji pre post o).
Proof.
  unfold ji_same.
  split; [reflexivity|].
  split; [intros; apply rle_agree, (fr_ji_momentum pre post); reflexivity|].
  intros; apply rle_agree, (fr_ji_values pre post); reflexivity.
Qed.

(** CoherentFormFactorBlock (JCOH) *)
Definition jc_same bm (o o' : jinc) : Prop :=
  ji_NM o' = ji_NM o
  /\ (agree (ji_momentum bm o) (ji_momentum bm o'))
  /\ (agree (jc_integrated bm o) (jc_integrated bm o'))
  /\ (agree (jc_factors bm o) (jc_factors bm o')).
Lemma jc_same_mv pre post bm (o : jinc) : jc_same bm o (mv_ji pre post o).
Proof.
  unfold jc_same.
  split; [reflexivity|].
  split; [intros; apply rle_agree, (fr_ji_momentum pre post); reflexivity|].
  split; [intros; apply rle_agree, (fr_jc_integrated pre post); reflexivity|].
  intros; apply rle_agree, (fr_jc_factors pre post); reflexivity.
Qed.

(** photonuclear PrincipalCrossSectionBlock (ESZU) *)
Definition eu_same bm (o o' : arrayData) : Prop :=
  eu_NES o' = eu_NES o
  /\ (agree (eu_energies bm o) (eu_energies bm o'))
  /\ (agree (eu_total bm o) (eu_total bm o'))
  /\ (agree (eu_elastic bm o) (eu_elastic bm o'))
  /\ (agree (eu_heating bm o) (eu_heating bm o')).
Lemma eu_same_mv pre post bm (o : arrayData) : eu_same bm o (mv_ad pre post o).
Proof.
  unfold eu_same.
  split; [reflexivity|].
  split; [intros; apply rle_agree, (fr_eu_energies pre post); reflexivity|].
  split; [intros; apply rle_agree, (fr_eu_total pre post); reflexivity|].
  split; [intros; apply rle_agree, (fr_eu_elastic pre post); reflexivity|].
  intros; apply rle_agree, (fr_eu_heating pre post); reflexivity.
Qed.

(** photonuclear SecondaryParticleLocatorBlock (IXSU) *)
Definition iu_same bm (o o' : ntro) : Prop :=
  iu_NTYPE o' = iu_NTYPE o
  /\ (forall i j, agree (iu_LLOC bm o i j) (iu_LLOC bm o' i j))
  /\ (forall i, agree (iu_IP bm o i) (iu_IP bm o' i))
  /\ (forall i, agree (iu_NP bm o i) (iu_NP bm o' i))
  /\ (forall i, agree (iu_hasIP bm o i) (iu_hasIP bm o' i))
  /\ (forall i, agree (iu_index bm o i) (iu_index bm o' i)).
Lemma iu_same_mv pre post bm (o : ntro) : iu_same bm o (mv_nt pre post o).
Proof.
  unfold iu_same.
  split; [reflexivity|].
  split; [intros; apply rle_agree, (fr_iu_LLOC pre post); reflexivity|].
  split; [intros; apply rle_agree, (fr_iu_IP pre post); reflexivity|].
  split; [intros; apply rle_agree, (fr_iu_NP pre post); reflexivity|].
  split; [intros; apply rle_agree, (fr_iu_hasIP pre post); reflexivity|].
  intros; apply rle_agree, (fr_iu_index pre post); reflexivity.
Qed.

(** thermal CrossSectionBlock (ITIE, ITCE) *)
Definition tc_same bm (o o' : columnData) : Prop :=
  (agree (tc_NE bm o) (tc_NE bm o'))
  /\ (agree (tc_energies bm o) (tc_energies bm o'))
  /\ (agree (tc_crossSections bm o) (tc_crossSections bm o')).
Lemma tc_same_mv pre post bm (o : columnData) : tc_same bm o (mv_cd pre post o).
Proof.
  unfold tc_same.
  split; [intros; apply rle_agree, (fr_tc_NE pre post); reflexivity|].
  split; [intros; apply rle_agree, (fr_tc_energies pre post); reflexivity|].
  intros; apply rle_agree, (fr_tc_crossSections pre post); reflexivity.
Qed.

(** ElasticAngularDistributionBlock (ITCA) *)
Definition te_same bm (o o' : arrayData) : Prop :=
  te_NE o' = te_NE o
  /\ te_NC o' = te_NC o
  /\ te_NCL o' = te_NCL o
  /\ (forall i, agree (te_cosines bm o i) (te_cosines bm o' i)).
Lemma te_same_mv pre post bm (o : arrayData) : te_same bm o (mv_ad pre post o).
Proof.
  unfold te_same.
  split; [reflexivity|].
  split; [reflexivity|].
  split; [reflexivity|].
  intros; apply rle_agree, (fr_te_cosines pre post); reflexivity.
Qed.

(** DiscreteCosines, DiscreteCosinesWithProbability *)
Definition cos_same bm (o o' : cosData) : Prop :=
  cos_NC o' = cos_NC o /\ agree (cos_energy bm o) (cos_energy bm o') /\ agree (cos_cosines bm o) (cos_cosines bm o')
  /\ match o, o' with
     | CDisc _ _, CDisc _ _ => True
     | CProb _ v, CProb _ v' => agree (cos_pdf bm v) (cos_pdf bm v') /\ agree (cos_cdf bm v) (cos_cdf bm v')
     | _, _ => False
     end.
Lemma cos_same_mv pre post bm o : cos_same bm o (mv_cos pre post o).
Proof.
  split; [destruct o; reflexivity|]. split; [apply rle_agree, (fr_cos_energy pre post)|]. split; [apply rle_agree, (fr_cos_cosines pre post)|].
  destruct o; cbn [mv_cos]; [exact Logic.I|]. split; [apply rle_agree, (fr_cos_pdf pre post); reflexivity|apply rle_agree, (fr_cos_cdf pre post); reflexivity].
Qed.

(** InelasticAngularDistributionBlock (ITXE) *)
Definition it_same bm (o o' : itxe) : Prop :=
  it_NIL o' = it_NIL o
  /\ (forall i, agree (it_LOCC bm o i) (it_LOCC bm o' i))
  /\ (forall i, agree (it_relative bm o i) (it_relative bm o' i))
  /\ (forall i, agree (it_NIEB bm o i) (it_NIEB bm o' i))
  /\ (forall i j, alike (cos_same bm) (it_cosineData bm o i j) (it_cosineData bm o' i j)).
Lemma it_same_mv pre post bm (o : itxe) : it_same bm o (mv_it pre post o).
Proof.
  unfold it_same.
  split; [reflexivity|].
  split; [intros; apply rle_agree, (fr_it_LOCC pre post); reflexivity|].
  split; [intros; apply rle_agree, (fr_it_relative pre post); reflexivity|].
  split; [intros; apply rle_agree, (fr_it_NIEB pre post); reflexivity|].
  intros; eapply rle_alike; [apply (fr_it_cosineData pre post); reflexivity|intros; apply cos_same_mv].
Qed.

(** * The theorems: the constructors of every class, on a range and on the same range elsewhere *)

(** Tabulated data *)
Theorem C47_tabulated bm pre post v w n : moved pre post v w ->
  (alike (td_same bm) (td_make bm v ) (td_make bm w )) /\
  (alike (ev_same bm) (ev_make bm v ) (ev_make bm w )) /\
  (alike (ge_same bm) (ge_make bm v ) (ge_make bm w )) /\
  (alike (wa_same bm) (wa_make bm v ) (wa_make bm w )) /\
  (alike (tf_same bm) (tf_make bm v ) (tf_make bm w )) /\
  (alike (ts_same bm) (ts_make bm v ) (ts_make bm w )) /\
  (alike (dp_same bm) (dp_make bm v n) (dp_make bm w n)).
Proof.
  intros Hm. apply moved_mv in Hm. subst w. repeat (split; [|]);
   [eapply rle_alike; [apply (fr_td_make pre post); auto|intros; apply td_same_mv]
   |eapply rle_alike; [apply (fr_ev_make pre post); auto|intros; apply ev_same_mv]
   |eapply rle_alike; [apply (fr_ge_make pre post); auto|intros; apply ge_same_mv]
   |eapply rle_alike; [apply (fr_wa_make pre post); auto|intros; apply wa_same_mv]
   |eapply rle_alike; [apply (fr_tf_make pre post); auto|intros; apply tf_same_mv]
   |eapply rle_alike; [apply (fr_ts_make pre post); auto|intros; apply ts_same_mv]
   |eapply rle_alike; [apply (fr_dp_make pre post); auto|intros; apply dp_same_mv]].
Qed.
Print Assumptions C47_tabulated.

(** Cross sections, tabulated distributions, heating, reaction numbers with yields, polynomials *)
Theorem C47_values bm pre post v w : moved pre post v w ->
  (alike (xs_same bm) (xs_make bm v ) (xs_make bm w )) /\
  (alike (px_same bm) (px_make bm v ) (px_make bm w )) /\
  (alike (tp_same bm) (tp_make bm v ) (tp_make bm w )) /\
  (alike (hpd_same bm) (hpd_make bm v ) (hpd_make bm w )) /\
  (alike (yp_same bm) (yp_make bm v ) (yp_make bm w )) /\
  (alike (pf_same bm) (pf_make bm v ) (pf_make bm w )).
Proof.
  intros Hm. apply moved_mv in Hm. subst w. repeat (split; [|]);
   [eapply rle_alike; [apply (fr_xs_make pre post); auto|intros; apply xs_same_mv]
   |eapply rle_alike; [apply (fr_px_make pre post); auto|intros; apply px_same_mv]
   |eapply rle_alike; [apply (fr_tp_make pre post); auto|intros; apply tp_same_mv]
   |eapply rle_alike; [apply (fr_hpd_make pre post); auto|intros; apply hpd_same_mv]
   |eapply rle_alike; [apply (fr_yp_make pre post); auto|intros; apply yp_same_mv]
   |eapply rle_alike; [apply (fr_pf_make pre post); auto|intros; apply pf_same_mv]].
Qed.
Print Assumptions C47_values.

(** Blocks with locators, [data] being the position where the data begin *)
Theorem C47_locators bm pre post v w data n loc : moved pre post v w ->
  (alike (bl_same (xs_same bm) bm) (bl_make bm (sig_generateData bm) v data n loc) (bl_make bm (sig_generateData bm) w (data + len pre) n loc)) /\
  (alike (bl_same (pp_same bm) bm) (bl_make bm (sigp_generateData bm) v data n loc) (bl_make bm (sigp_generateData bm) w (data + len pre) n loc)) /\
  (alike (bl_same (ts_same bm) bm) (bl_make bm (sigh_generateData bm) v data n loc) (bl_make bm (sigh_generateData bm) w (data + len pre) n loc)) /\
  (alike (bl_same (tr_same bm) bm) (bl_make bm xp_gd v data n loc) (bl_make bm xp_gd w (data + len pre) n loc)) /\
  (alike (bl_same (tp_same bm) bm) (bl_make bm (swd_gd bm) v data n loc) (bl_make bm (swd_gd bm) w (data + len pre) n loc)) /\
  (alike (bl_same (td_same bm) bm) (bl_make bm (sigd_gd bm) v data n loc) (bl_make bm (sigd_gd bm) w (data + len pre) n loc)).
Proof.
  intros Hm. apply moved_mv in Hm. subst w. repeat (split; [|]);
   [eapply rle_alike; [apply (fr_bl_make pre post (mv pre post)); [intros z z' u u' Hu Hz; apply fr_sig_generateData; auto|reflexivity|reflexivity|reflexivity]|intros; apply bl_same_mv; apply xs_same_mv]
   |eapply rle_alike; [apply (fr_bl_make pre post (mv_pp pre post)); [intros z z' u u' Hu Hz; apply fr_sigp_generateData; auto|reflexivity|reflexivity|reflexivity]|intros; apply bl_same_mv; apply pp_same_mv]
   |eapply rle_alike; [apply (fr_bl_make pre post (mv_pt pre post)); [intros z z' u u' Hu Hz; apply fr_sigh_generateData; auto|reflexivity|reflexivity|reflexivity]|intros; apply bl_same_mv; apply ts_same_mv]
   |eapply rle_alike; [apply (fr_bl_make pre post (mv_ad pre post)); [intros z z' u u' Hu Hz; apply fr_xp_gd; auto|reflexivity|reflexivity|reflexivity]|intros; apply bl_same_mv; apply tr_same_mv]
   |eapply rle_alike; [apply (fr_bl_make pre post (mv pre post)); [intros z z' u u' Hu Hz; apply fr_swd_gd; auto|reflexivity|reflexivity|reflexivity]|intros; apply bl_same_mv; apply tp_same_mv]
   |eapply rle_alike; [apply (fr_bl_make pre post (mv_td pre post)); [intros z z' u u' Hu Hz; apply fr_sigd_gd; auto|reflexivity|reflexivity|reflexivity]|intros; apply bl_same_mv; apply td_same_mv]].
Qed.
Print Assumptions C47_locators.

(** Angular distributions *)
Theorem C47_angular bm pre post v w e locb data n zero : moved pre post v w ->
  (alike (ang_same bm) (ta_make bm e v) (ta_make bm e w)) /\
  (alike (ang_same bm) (Angular.eq_make e v) (Angular.eq_make e w)) /\
  (alike (an_same bm) (an_make bm locb v ) (an_make bm locb w )) /\
  (alike (ab_same bm) (ab_make bm v data n zero) (ab_make bm w (data + len pre) n zero)).
Proof.
  intros Hm. apply moved_mv in Hm. subst w. repeat (split; [|]);
   [eapply rle_alike; [apply (fr_ta_make pre post); auto|intros; apply ang_same_mv]
   |eapply rle_alike; [apply (fr_eq_make_a pre post); auto|intros; apply ang_same_mv]
   |eapply rle_alike; [apply (fr_an_make pre post); auto|intros; apply an_same_mv]
   |eapply rle_alike; [apply (fr_ab_make pre post); auto|intros; apply ab_same_mv]].
Qed.
Print Assumptions C47_angular.

(** Energy distributions *)
Theorem C47_energy_laws bm pre post v w locb law lo hi : moved pre post v w ->
  (alike (dd_same (tq_same bm) bm) (og_make bm locb v) (og_make bm locb w)) /\
  (alike (dd_same (ae_same bm) bm) (aed_make bm locb v) (aed_make bm locb w)) /\
  (alike (dd_same (ea_same bm) bm) (ead_make bm locb v) (ead_make bm locb w)) /\
  (alike (two_same bm) (SimpleLaws.two_make v lo hi) (SimpleLaws.two_make w lo hi)) /\
  (alike (two_same bm) (nb_make v lo hi) (nb_make w lo hi)) /\
  (alike (eq_same bm) (SimpleLaws.eq_make bm v) (SimpleLaws.eq_make bm w)) /\
  (alike (ed_same bm) (ed_read bm law locb lo hi v) (ed_read bm law locb lo hi w)) /\
  (alike (mu_same bm) (mu_make bm locb v ) (mu_make bm locb w )) /\
  (alike (en_same bm) (en_read bm locb v ) (en_read bm locb w )).
Proof.
  intros Hm. apply moved_mv in Hm. subst w. repeat (split; [|]);
   [eapply rle_alike; [apply (fr_og_make pre post); auto|intros; apply (dd_same_mv pre post), tq_same_mv]
   |eapply rle_alike; [apply (fr_aed_make pre post); auto|intros; apply (dd_same_mv pre post), ae_same_mv]
   |eapply rle_alike; [apply (fr_ead_make pre post); auto|intros; apply (dd_same_mv pre post), ea_same_mv]
   |eapply rle_alike; [apply (fr_two_make pre post); auto|intros; apply two_same_mv]
   |eapply rle_alike; [apply (fr_nb_make pre post); auto|intros; apply two_same_mv]
   |eapply rle_alike; [apply (fr_eq_make pre post); auto|intros; apply eq_same_mv]
   |eapply rle_alike; [apply (fr_ed_read pre post); auto|intros; apply ed_same_mv]
   |eapply rle_alike; [apply (fr_mu_make pre post); auto|intros; apply mu_same_mv]
   |eapply rle_alike; [apply (fr_en_read pre post); auto|intros; apply en_same_mv]].
Qed.
Print Assumptions C47_energy_laws.

(** TYR, DLWH *)
Theorem C47_reaction_blocks bm pre post v w data n t : moved pre post v w ->
  (alike (ty_same bm) (ty_make bm v n) (ty_make bm w n)) /\
  (alike (dh_same bm) (dh_make bm v data n t) (dh_make bm w (data + len pre) n t)).
Proof.
  intros Hm. apply moved_mv in Hm. subst w. repeat (split; [|]);
   [eapply rle_alike; [apply (fr_ty_make pre post); auto|intros; apply ty_same_mv]
   |eapply rle_alike; [apply (fr_dh_make pre post); auto|intros; apply dh_same_mv]].
Qed.
Print Assumptions C47_reaction_blocks.

(** DLW, with the TYR block anywhere: it is enough that the two TYR blocks show the same *)
Theorem C47_dlw bm pre post v w data n t t' : moved pre post v w -> ty_same bm t t' ->
  alike (dl_same bm) (dl_make bm v data t n) (dl_make bm w (data + len pre) t' n).
Proof.
  intros Hm (E1 & E2 & E3 & _). apply moved_mv in Hm. subst w.
  eapply rle_alike; [apply (fr_dl_make pre post); [reflexivity|reflexivity| |reflexivity]|intros; apply dl_same_mv]. repeat split; [exact E1|exact E2|exact E3].
Qed.
Print Assumptions C47_dlw.

(** MTR, LQR, ESZ, NTRO, IXS *)
Theorem C47_arrays bm pre post v w n : moved pre post v w ->
  (alike (mt_same bm) (mt_make v n) (mt_make w n)) /\
  (alike (lq_same bm) (lq_make v n) (lq_make w n)) /\
  (alike (esz_same bm) (esz_make v n) (esz_make w n)) /\
  (alike (nt_same bm) (nt_make v n) (nt_make w n)) /\
  (alike (ix_same bm) (ix_make v n) (ix_make w n)).
Proof.
  intros Hm. apply moved_mv in Hm. subst w. repeat (split; [|]);
   [eapply rle_alike; [apply (fr_mt_make pre post); auto|intros; apply mt_same_mv]
   |eapply rle_alike; [apply (fr_lq_make pre post); auto|intros; apply lq_same_mv]
   |eapply rle_alike; [apply (fr_esz_make pre post); auto|intros; apply esz_same_mv]
   |eapply rle_alike; [apply (fr_nt_make pre post); auto|intros; apply nt_same_mv]
   |eapply rle_alike; [apply (fr_ix_make pre post); auto|intros; apply ix_same_mv]].
Qed.
Print Assumptions C47_arrays.

(** NU, probability tables, UNR, BDD *)
Theorem C47_multiplicities bm pre post v w e n : moved pre post v w ->
  (alike (nu_same bm) (nu_make bm v ) (nu_make bm w )) /\
  (alike (tb_same bm) (tb_make v e n) (tb_make w e n)) /\
  (alike (un_same bm) (un_make bm v ) (un_make bm w )) /\
  (alike (bd_same bm) (bd_make bm v n) (bd_make bm w n)).
Proof.
  intros Hm. apply moved_mv in Hm. subst w. repeat (split; [|]);
   [eapply rle_alike; [apply (fr_nu_make pre post); auto|intros; apply nu_same_mv]
   |eapply rle_alike; [apply (fr_tb_make pre post); auto|intros; apply tb_same_mv]
   |eapply rle_alike; [apply (fr_un_make pre post); auto|intros; apply un_same_mv]
   |eapply rle_alike; [apply (fr_bd_make pre post); auto|intros; apply bd_same_mv]].
Qed.
Print Assumptions C47_multiplicities.

(** Electron, photoatomic and photonuclear blocks *)
Theorem C47_atomic bm pre post v w e n m : moved pre post v w ->
  (alike (el_same bm) (ElectronBlocks.ed_make e v n) (ElectronBlocks.ed_make e w n)) /\
  (alike (eb_same bm) (eb_make bm v n) (eb_make bm w n)) /\
  (alike (two2_same bm) (AtomicBlocks.two_make v n) (AtomicBlocks.two_make w n)) /\
  (alike (ep_same bm) (ep_make v n) (ep_make w n)) /\
  (alike (ss_same bm) (ss_make v n) (ss_make w n)) /\
  (alike (ez_same bm) (ez_make v n m) (ez_make w n m)) /\
  (alike (tr_same bm) (tr_make v ) (tr_make w )) /\
  (alike (eg_same bm) (eg_make v n) (eg_make w n)) /\
  (alike (jf_same bm) (jf_make v n) (jf_make w n)) /\
  (alike (sp_same bm) (sp_make v n m) (sp_make w n m)) /\
  (alike (ji_same bm) (ji_make v ) (ji_make w )) /\
  (alike (jc_same bm) (jc_make v ) (jc_make w )) /\
  (alike (eu_same bm) (eu_make v n m) (eu_make w n m)) /\
  (alike (iu_same bm) (iu_make v n) (iu_make w n)).
Proof.
  intros Hm. apply moved_mv in Hm. subst w. repeat (split; [|]);
   [eapply rle_alike; [apply (fr_ed_make_e pre post); auto|intros; apply el_same_mv]
   |eapply rle_alike; [apply (fr_eb_make pre post); auto|intros; apply eb_same_mv]
   |eapply rle_alike; [apply (fr_two_make_a pre post); auto|intros; apply two2_same_mv]
   |eapply rle_alike; [apply (fr_ep_make pre post); auto|intros; apply ep_same_mv]
   |eapply rle_alike; [apply (fr_ss_make pre post); auto|intros; apply ss_same_mv]
   |eapply rle_alike; [apply (fr_ez_make pre post); auto|intros; apply ez_same_mv]
   |eapply rle_alike; [apply (fr_tr_make pre post); auto|intros; apply tr_same_mv]
   |eapply rle_alike; [apply (fr_eg_make pre post); auto|intros; apply eg_same_mv]
   |eapply rle_alike; [apply (fr_jf_make pre post); auto|intros; apply jf_same_mv]
   |eapply rle_alike; [apply (fr_sp_make pre post); auto|intros; apply sp_same_mv]
   |eapply rle_alike; [apply (fr_ji_make pre post); auto|intros; apply ji_same_mv]
   |eapply rle_alike; [apply (fr_jc_make pre post); auto|intros; apply jc_same_mv]
   |eapply rle_alike; [apply (fr_eu_make pre post); auto|intros; apply eu_same_mv]
   |eapply rle_alike; [apply (fr_iu_make pre post); auto|intros; apply iu_same_mv]].
Qed.
Print Assumptions C47_atomic.

(** Thermal blocks *)
Theorem C47_thermal bm pre post v w n m ifeng nieb locb : moved pre post v w ->
  (alike (tc_same bm) (tc_make v ) (tc_make w )) /\
  (alike (te_same bm) (te_make v n m) (te_make w n m)) /\
  (alike (cos_same bm) (dc_make m v) (dc_make m w)) /\
  (alike (cos_same bm) (dq_make m v) (dq_make m w)) /\
  (alike (it_same bm) (it_make bm ifeng nieb n m locb v) (it_make bm ifeng nieb n m locb w)).
Proof.
  intros Hm. apply moved_mv in Hm. subst w. repeat (split; [|]);
   [eapply rle_alike; [apply (fr_tc_make pre post); auto|intros; apply tc_same_mv]
   |eapply rle_alike; [apply (fr_te_make pre post); auto|intros; apply te_same_mv]
   |eapply rle_alike; [apply (fr_dc_make pre post); auto|intros; apply cos_same_mv]
   |eapply rle_alike; [apply (fr_dq_make pre post); auto|intros; apply cos_same_mv]
   |eapply rle_alike; [apply (fr_it_make pre post); auto|intros; apply it_same_mv]].
Qed.
Print Assumptions C47_thermal.

(** * Examples *)

(** A copy of a block on its own stands anywhere its words do *)
Example C47_standing pre post l : moved pre post (own l) (View (pre ++ l ++ post) (len pre) (len pre + len l)).
Proof. unfold moved, own. cbn [buf vbeg vend]. split; [reflexivity|]. split; lia. Qed.

(** A table of two points with one interpolation region, alone and between other words: both are made and show the same points *)
Definition C47_words : list double := map dbl [1; 2; 5; 2; 10; 20; 3; 4].
Example C47_tabulated_example :
  let w := View (map dbl [7; 8; 9] ++ C47_words ++ map dbl [6]) 3 11 in
  moved (map dbl [7; 8; 9]) (map dbl [6]) (own C47_words) w
  /\ exists o o', td_make Debug (own C47_words) = Ok o /\ td_make Debug w = Ok o'
       /\ td_x Debug o = Ok (map dbl [10; 20]) /\ td_x Debug o' = Ok (map dbl [10; 20])
       /\ td_y Debug o' = Ok (map dbl [3; 4]).
Proof.
  cbn zeta. split; [repeat split|]. eexists. eexists. split; [vm_compute; reflexivity|]. split; [vm_compute; reflexivity|].
  split; [vm_compute; reflexivity|]. split; vm_compute; reflexivity.
Qed.

(** Two reaction numbers, alone and elsewhere, looked up *)
Example C47_arrays_example :
  let w := View (map dbl [1] ++ map dbl [16; 102] ++ map dbl [18]) 1 3 in
  moved (map dbl [1]) (map dbl [18]) (own (map dbl [16; 102])) w
  /\ exists o o', mt_make (own (map dbl [16; 102])) 2 = Ok o /\ mt_make w 2 = Ok o'
       /\ mt_index o 102 = Ok 2 /\ mt_index o' 102 = Ok 2
       /\ mt_index o 18 = Throw StdException /\ mt_index o' 18 = Throw StdException.
Proof.
  cbn zeta. split; [repeat split|]. eexists. eexists. split; [vm_compute; reflexivity|]. split; [vm_compute; reflexivity|].
  repeat (split; [vm_compute; reflexivity|]). vm_compute; reflexivity.
Qed.

(** What is undefined on its own can be something elsewhere: without index checks (Release) the third of two reaction
    numbers is the word that follows the block *)
Theorem C47_neighbours_refuted : ~ (forall pre post v w o o' i, moved pre post v w -> mt_make v 2 = Ok o -> mt_make w 2 = Ok o' -> mt_MT Release o' i = mt_MT Release o i).
Proof.
  intros H.
  specialize (H (map dbl [1]) (map dbl [18]) (own (map dbl [16; 102])) (View (map dbl [1] ++ map dbl [16; 102] ++ map dbl [18]) 1 3)
    (ArrayData (own (map dbl [16; 102])) 2 1) (ArrayData (View (map dbl [1] ++ map dbl [16; 102] ++ map dbl [18]) 1 3) 2 1) 3).
  assert (X : mt_MT Release (ArrayData (View (map dbl [1] ++ map dbl [16; 102] ++ map dbl [18]) 1 3) 2 1) 3 = Ok 18) by (vm_compute; reflexivity).
  assert (Y : mt_MT Release (ArrayData (own (map dbl [16; 102])) 2 1) 3 = UB) by (vm_compute; reflexivity).
  rewrite X, Y in H. assert (Z1 : Ok 18 = UB); [|discriminate Z1]. apply H; [repeat split|vm_compute; reflexivity|vm_compute; reflexivity].
Qed.
Print Assumptions C47_neighbours_refuted.
