(** Property theorems C43: an operation that succeeds in Debug gives the same result in Release. *)
From Coq Require Import ZArith Bool List Ascii.
From Verif Require Import Modes PropsBasic.
From Verif Require Import Float Base ColumnData TabulatedData BlockWithLocators Angular AngularBlock DistributionData EnergyLaws EnergyAngle SimpleLaws EnergyDist MultiDist FrameBlock EnergyBlocks DlwBlock Truncated ReactionNumbers NuBlock ElectronBlocks AtomicBlocks TableData DosimetryTable SZA ContinuousTable ThermalBlocks ThermalTable PhotoatomicTable PhotonuclearTable TableText Remake.
Import ListNotations.
Open Scope Z_scope.

(** What the operation [f] gives in Debug, if it gives anything, it gives in Release: the checks that Debug adds only throw. *)
Definition only_checks {A} (f : build -> outcome A) : Prop := forall x, f Debug = Ok x -> f Release = Ok x.

Ltac change_le := match goal with |- forall x, ?a = Ok x -> ?b = Ok x => change (le a b) end.

(** the words of a block, columns and arrays *)
Theorem C43_words :
  (forall v index, only_checks (fun bm => Base.iter bm v index))
  /\ (forall v index, only_checks (fun bm => Base.xss bm v index))
  /\ (forall v index, only_checks (fun bm => Base.ixss bm v index))
  /\ (forall v index, only_checks (fun bm => Base.ixss_size bm v index))
  /\ (forall v index length, only_checks (fun bm => Base.xssr bm v index length))
  /\ (forall v index length, only_checks (fun bm => Base.ixssr bm v index length))
  /\ (forall c, only_checks (fun bm => ColumnData.cd_N bm c))
  /\ (forall c column index, only_checks (fun bm => ColumnData.cd_value bm c column index))
  /\ (forall a array index, only_checks (fun bm => ColumnData.ad_dvalue bm a array index))
  /\ (forall a array index, only_checks (fun bm => ColumnData.ad_ivalue bm a array index))
  /\ (forall a index, only_checks (fun bm => ColumnData.ad_darray bm a index))
  /\ (forall a index, only_checks (fun bm => ColumnData.ad_iarray bm a index))
  /\ (forall c, only_checks (fun bm => ColumnData.id_NBT bm c))
  /\ (forall c, only_checks (fun bm => ColumnData.id_INT bm c)).
Proof. repeat match goal with |- _ /\ _ => split end; intros; unfold only_checks; change_le; auto with mono. Qed.
Print Assumptions C43_words.

(** tables, evaporation spectra, Watt spectra, precursor data, level scattering, N-body phase space, equiprobable bins *)
Theorem C43_tabulated :
  (forall nbt int x y, only_checks (fun bm => TabulatedData.td_of bm nbt int x y))
  /\ (forall v, only_checks (fun bm => TabulatedData.td_make bm v))
  /\ (forall o, only_checks (fun bm => TabulatedData.td_NB bm o))
  /\ (forall o, only_checks (fun bm => TabulatedData.td_NBT bm o))
  /\ (forall o, only_checks (fun bm => TabulatedData.td_INT bm o))
  /\ (forall o, only_checks (fun bm => TabulatedData.td_N bm o))
  /\ (forall o, only_checks (fun bm => TabulatedData.td_x bm o))
  /\ (forall o, only_checks (fun bm => TabulatedData.td_y bm o))
  /\ (forall nbt int e t u, only_checks (fun bm => TabulatedData.ev_of bm nbt int e t u))
  /\ (forall v, only_checks (fun bm => TabulatedData.ev_make bm v))
  /\ (forall o, only_checks (fun bm => TabulatedData.ev_emin bm o))
  /\ (forall o, only_checks (fun bm => TabulatedData.ev_emax bm o))
  /\ (forall nbt int e t bins, only_checks (fun bm => TabulatedData.ge_of bm nbt int e t bins))
  /\ (forall v, only_checks (fun bm => TabulatedData.ge_make bm v))
  /\ (forall o, only_checks (fun bm => TabulatedData.ge_NET bm o))
  /\ (forall o, only_checks (fun bm => TabulatedData.ge_numberBins bm o))
  /\ (forall o, only_checks (fun bm => TabulatedData.ge_bins bm o))
  /\ (forall o, only_checks (fun bm => TabulatedData.ge_emin bm o))
  /\ (forall o, only_checks (fun bm => TabulatedData.ge_emax bm o))
  /\ (forall a b u, only_checks (fun bm => TabulatedData.wa_of bm a b u))
  /\ (forall v, only_checks (fun bm => TabulatedData.wa_make bm v))
  /\ (forall o, only_checks (fun bm => TabulatedData.wa_emin bm o))
  /\ (forall o, only_checks (fun bm => TabulatedData.wa_emax bm o))
  /\ (forall v number, only_checks (fun bm => TabulatedData.dp_make bm v number))
  /\ (forall number lambda nbt int x y, only_checks (fun bm => TabulatedData.dp_of bm number lambda nbt int x y))
  /\ (forall o, only_checks (fun bm => TabulatedData.dp_DEC bm o))
  /\ (forall v, only_checks (fun bm => TabulatedData.tf_make bm v))
  /\ (forall nbt int x y, only_checks (fun bm => TabulatedData.tf_of bm nbt int x y))
  /\ (forall o, only_checks (fun bm => TabulatedData.tf_LNU bm o))
  /\ (forall v, only_checks (fun bm => TabulatedData.ts_make bm v))
  /\ (forall mftype mt nbt int x y, only_checks (fun bm => TabulatedData.ts_of bm mftype mt nbt int x y))
  /\ (forall o, only_checks (fun bm => TabulatedData.ts_MFTYPE bm o))
  /\ (forall o, only_checks (fun bm => TabulatedData.ts_MT bm o))
  /\ (forall o, only_checks (fun bm => SimpleLaws.two_C1 bm o))
  /\ (forall o, only_checks (fun bm => SimpleLaws.two_C2 bm o))
  /\ (forall o, only_checks (fun bm => SimpleLaws.dp_LP bm o))
  /\ (forall o, only_checks (fun bm => SimpleLaws.nb_NPSX bm o))
  /\ (forall o, only_checks (fun bm => SimpleLaws.nb_AP bm o))
  /\ (forall o, only_checks (fun bm => SimpleLaws.nb_interpolation bm o))
  /\ (forall o, only_checks (fun bm => SimpleLaws.nb_numberValues bm o))
  /\ (forall o, only_checks (fun bm => SimpleLaws.nb_values bm o))
  /\ (forall o, only_checks (fun bm => SimpleLaws.nb_pdf bm o))
  /\ (forall o, only_checks (fun bm => SimpleLaws.nb_cdf bm o))
  /\ (forall o, only_checks (fun bm => SimpleLaws.eqb_energies bm o))
  /\ (forall srt nbt int ds, only_checks (fun bm => SimpleLaws.eq_of bm srt nbt int ds))
  /\ (forall v, only_checks (fun bm => SimpleLaws.eq_make bm v))
  /\ (forall o, only_checks (fun bm => SimpleLaws.eq_NB bm o))
  /\ (forall o, only_checks (fun bm => SimpleLaws.eq_NBT bm o))
  /\ (forall o, only_checks (fun bm => SimpleLaws.eq_INT bm o))
  /\ (forall o, only_checks (fun bm => SimpleLaws.eq_NE bm o))
  /\ (forall o, only_checks (fun bm => SimpleLaws.eq_incidentEnergies bm o))
  /\ (forall o i, only_checks (fun bm => SimpleLaws.eq_incidentEnergy bm o i))
  /\ (forall o, only_checks (fun bm => SimpleLaws.eq_NET bm o))
  /\ (forall o index, only_checks (fun bm => SimpleLaws.eq_distribution bm o index))
  /\ (forall o, only_checks (fun bm => SimpleLaws.eq_emin bm o))
  /\ (forall o, only_checks (fun bm => SimpleLaws.eq_emax bm o)).
Proof. repeat match goal with |- _ /\ _ => split end; intros; unfold only_checks; change_le; auto with mono. Qed.
Print Assumptions C43_tabulated.

(** cross sections and production data with their blocks; reaction numbers, Q values, ESZ, HPD, YP, secondary particle information *)
Theorem C43_cross_sections :
  (forall (D : Type) o index, only_checks (fun bm => BlockWithLocators.bl_LLOC (D:=D) bm o index))
  /\ (forall (D : Type) o index, only_checks (fun bm => BlockWithLocators.bl_datum (D:=D) bm o index))
  /\ (forall v, only_checks (fun bm => BlockWithLocators.xs_energyIndex bm v))
  /\ (forall v, only_checks (fun bm => BlockWithLocators.xs_numberValues bm v))
  /\ (forall v, only_checks (fun bm => BlockWithLocators.xs_crossSections bm v))
  /\ (forall v, only_checks (fun bm => BlockWithLocators.xs_make bm v))
  /\ (forall v, only_checks (fun bm => BlockWithLocators.px_MFTYPE bm v))
  /\ (forall v, only_checks (fun bm => BlockWithLocators.px_energyIndex bm v))
  /\ (forall v, only_checks (fun bm => BlockWithLocators.px_numberValues bm v))
  /\ (forall v, only_checks (fun bm => BlockWithLocators.px_crossSections bm v))
  /\ (forall v, only_checks (fun bm => BlockWithLocators.px_make bm v))
  /\ (forall o index, only_checks (fun bm => ReactionNumbers.mt_MT bm o index))
  /\ (forall o, only_checks (fun bm => ReactionNumbers.mt_MTs bm o))
  /\ (forall v, only_checks (fun bm => ReactionNumbers.yp_NYP bm v))
  /\ (forall v, only_checks (fun bm => ReactionNumbers.yp_make bm v))
  /\ (forall v index, only_checks (fun bm => ReactionNumbers.yp_MT bm v index))
  /\ (forall v, only_checks (fun bm => ReactionNumbers.yp_MTs bm v))
  /\ (forall o index, only_checks (fun bm => ReactionNumbers.lq_QValue bm o index))
  /\ (forall o, only_checks (fun bm => ReactionNumbers.lq_QValues bm o))
  /\ (forall o, only_checks (fun bm => ReactionNumbers.esz_energies bm o))
  /\ (forall o, only_checks (fun bm => ReactionNumbers.esz_total bm o))
  /\ (forall o, only_checks (fun bm => ReactionNumbers.esz_disappearance bm o))
  /\ (forall o, only_checks (fun bm => ReactionNumbers.esz_elastic bm o))
  /\ (forall o, only_checks (fun bm => ReactionNumbers.esz_heating bm o))
  /\ (forall v, only_checks (fun bm => ReactionNumbers.hpd_energyIndex bm v))
  /\ (forall v, only_checks (fun bm => ReactionNumbers.hpd_numberValues bm v))
  /\ (forall v, only_checks (fun bm => ReactionNumbers.hpd_totalProduction bm v))
  /\ (forall v, only_checks (fun bm => ReactionNumbers.hpd_heating bm v))
  /\ (forall v, only_checks (fun bm => ReactionNumbers.hpd_make bm v))
  /\ (forall o index, only_checks (fun bm => ReactionNumbers.nt_NP bm o index))
  /\ (forall o, only_checks (fun bm => ReactionNumbers.nt_NPs bm o))
  /\ (forall o particle index, only_checks (fun bm => ReactionNumbers.ix_LLOC bm o particle index))
  /\ (forall v data n locator, only_checks (fun bm => bl_make bm (sig_generateData bm) v data n locator))
  /\ (forall v data n locator, only_checks (fun bm => bl_make bm (sigp_generateData bm) v data n locator))
  /\ (forall v data n locator, only_checks (fun bm => bl_make bm (sigh_generateData bm) v data n locator))
  /\ (forall v data n locator, only_checks (fun bm => bl_make bm (swd_gd bm) v data n locator))
  /\ (forall v data n locator, only_checks (fun bm => bl_make bm (sigd_gd bm) v data n locator))
  /\ (forall v data n locator, only_checks (fun bm => bl_make bm (dh_generateData bm) v data n locator))
  /\ (forall locator blocks, only_checks (fun bm => bl_of bm (sig_generateData bm) locator blocks))
  /\ (forall locator blocks, only_checks (fun bm => bl_of bm (sigp_generateData bm) locator blocks))
  /\ (forall locator blocks, only_checks (fun bm => bl_of bm (sigh_generateData bm) locator blocks))
  /\ (forall locator blocks, only_checks (fun bm => bl_of bm (swd_gd bm) locator blocks))
  /\ (forall locator blocks, only_checks (fun bm => bl_of bm (sigd_gd bm) locator blocks))
  /\ (forall locator blocks, only_checks (fun bm => bl_of bm (dh_generateData bm) locator blocks)).
Proof. repeat match goal with |- _ /\ _ => split end; intros; unfold only_checks; change_le; auto with mono. Qed.
Print Assumptions C43_cross_sections.

(** angular distributions and their blocks *)
Theorem C43_angular :
  (forall v, only_checks (fun bm => Angular.tp_interpolation bm v))
  /\ (forall v, only_checks (fun bm => Angular.tp_numberValues bm v))
  /\ (forall v, only_checks (fun bm => Angular.tp_values bm v))
  /\ (forall v, only_checks (fun bm => Angular.tp_pdf bm v))
  /\ (forall v, only_checks (fun bm => Angular.tp_cdf bm v))
  /\ (forall v, only_checks (fun bm => Angular.tp_make bm v))
  /\ (forall v, only_checks (fun bm => Angular.eq_cosines bm v))
  /\ (forall e v, only_checks (fun bm => Angular.ta_make bm e v))
  /\ (forall values index, only_checks (fun bm => Angular.an_incidentEnergy bm values index))
  /\ (forall values index, only_checks (fun bm => Angular.an_LOCC bm values index))
  /\ (forall srt ds locb, only_checks (fun bm => Angular.an_of bm srt ds locb))
  /\ (forall locb v, only_checks (fun bm => Angular.an_make bm locb v))
  /\ (forall o, only_checks (fun bm => Angular.an_NE bm o))
  /\ (forall o, only_checks (fun bm => Angular.an_incidentEnergies bm o))
  /\ (forall o index, only_checks (fun bm => Angular.an_datum bm o index))
  /\ (forall v index, only_checks (fun bm => Angular.tp_column bm v index))
  /\ (forall o index, only_checks (fun bm => AngularBlock.ab_LAND bm o index))
  /\ (forall o index, only_checks (fun bm => AngularBlock.ab_isFullyIsotropic bm o index))
  /\ (forall o index, only_checks (fun bm => AngularBlock.ab_isGiven bm o index))
  /\ (forall srt zero ds nr, only_checks (fun bm => AngularBlock.ab_of bm srt zero ds nr))
  /\ (forall srt ds, only_checks (fun bm => AngularBlock.ab_of_data bm srt ds))
  /\ (forall srt d0 ds, only_checks (fun bm => AngularBlock.ab_of_elastic bm srt d0 ds))
  /\ (forall v data nr zero, only_checks (fun bm => AngularBlock.ab_make bm v data nr zero))
  /\ (forall o index, only_checks (fun bm => AngularBlock.ab_datum bm o index)).
Proof. repeat match goal with |- _ /\ _ => split end; intros; unfold only_checks; change_le; auto with mono. Qed.
Print Assumptions C43_angular.

(** laws 4, 44, 61, 67, any energy distribution, several distributions *)
Theorem C43_energy_laws :
  (forall (D : Type) o, only_checks (fun bm => DistributionData.dd_NB (D:=D) bm o))
  /\ (forall (D : Type) o, only_checks (fun bm => DistributionData.dd_NBT (D:=D) bm o))
  /\ (forall (D : Type) o, only_checks (fun bm => DistributionData.dd_INT (D:=D) bm o))
  /\ (forall (D : Type) o, only_checks (fun bm => DistributionData.dd_N (D:=D) bm o))
  /\ (forall (D : Type) o, only_checks (fun bm => DistributionData.dd_energies (D:=D) bm o))
  /\ (forall (D : Type) o index, only_checks (fun bm => DistributionData.dd_energy (D:=D) bm o index))
  /\ (forall (D : Type) o index, only_checks (fun bm => DistributionData.dd_locator (D:=D) bm o index))
  /\ (forall (D : Type) o index, only_checks (fun bm => DistributionData.dd_datum (D:=D) bm o index))
  /\ (forall (D : Type) o, only_checks (fun bm => DistributionData.dd_emin (D:=D) bm o))
  /\ (forall (D : Type) o, only_checks (fun bm => DistributionData.dd_emax (D:=D) bm o))
  /\ (forall (D : Type) o, only_checks (fun bm => DistributionData.di_interpolation (D:=D) bm o))
  /\ (forall (D : Type) o, only_checks (fun bm => DistributionData.di_N (D:=D) bm o))
  /\ (forall (D : Type) o c index, only_checks (fun bm => DistributionData.di_value (D:=D) bm o c index))
  /\ (forall (D : Type) o index, only_checks (fun bm => DistributionData.di_datum (D:=D) bm o index))
  /\ (forall value locb v, only_checks (fun bm => EnergyLaws.tq_make bm value locb v))
  /\ (forall o, only_checks (fun bm => EnergyLaws.tq_interpolation bm o))
  /\ (forall o, only_checks (fun bm => EnergyLaws.tq_numberDiscrete bm o))
  /\ (forall nbt int ds locb, only_checks (fun bm => EnergyLaws.og_of bm nbt int ds locb))
  /\ (forall locb v, only_checks (fun bm => EnergyLaws.og_make bm locb v))
  /\ (forall d locb, only_checks (fun bm => EnergyLaws.ae_of bm d locb))
  /\ (forall value locb v, only_checks (fun bm => EnergyLaws.ae_make bm value locb v))
  /\ (forall nbt int ds locb, only_checks (fun bm => EnergyLaws.aed_of bm nbt int ds locb))
  /\ (forall locb v, only_checks (fun bm => EnergyLaws.aed_make bm locb v))
  /\ (forall e p c v, only_checks (fun bm => EnergyAngle.tw_make bm e p c v))
  /\ (forall d locb, only_checks (fun bm => EnergyAngle.ea_of bm d locb))
  /\ (forall value locb v, only_checks (fun bm => EnergyAngle.ea_make bm value locb v))
  /\ (forall nbt int ds locb, only_checks (fun bm => EnergyAngle.ead_of bm nbt int ds locb))
  /\ (forall locb v, only_checks (fun bm => EnergyAngle.ead_make bm locb v))
  /\ (forall o b, only_checks (fun bm => Remake.og_remake bm o b))
  /\ (forall o b, only_checks (fun bm => Remake.aed_remake bm o b))
  /\ (forall o b, only_checks (fun bm => Remake.ead_remake bm o b))
  /\ (forall srt i, only_checks (fun bm => EnergyDist.ed_of bm srt i))
  /\ (forall o, only_checks (fun bm => EnergyDist.ed_emin bm o))
  /\ (forall o, only_checks (fun bm => EnergyDist.ed_emax bm o))
  /\ (forall locb v, only_checks (fun bm => MultiDist.mu_make bm locb v))
  /\ (forall ps ds locb, only_checks (fun bm => MultiDist.mu_of bm ps ds locb))
  /\ (forall m index, only_checks (fun bm => MultiDist.mu_probability bm m index))
  /\ (forall m index, only_checks (fun bm => MultiDist.mu_distribution bm m index)).
Proof. repeat match goal with |- _ /\ _ => split end; intros; unfold only_checks; change_le; auto with mono. Qed.
Print Assumptions C43_energy_laws.

(** TYR, DLW, DLWP, DLWH, DNED *)
Theorem C43_energy_blocks :
  (forall frames ms, only_checks (fun bm => FrameBlock.ty_of bm frames ms))
  /\ (forall frames, only_checks (fun bm => FrameBlock.ty_of_frames bm frames))
  /\ (forall v ntr, only_checks (fun bm => FrameBlock.ty_make bm v ntr))
  /\ (forall o index, only_checks (fun bm => FrameBlock.ty_frame bm o index))
  /\ (forall o index, only_checks (fun bm => FrameBlock.ty_mult bm o index))
  /\ (forall ds frames, only_checks (fun bm => EnergyBlocks.dh_of bm ds frames))
  /\ (forall v data n t, only_checks (fun bm => EnergyBlocks.dh_make bm v data n t))
  /\ (forall o index, only_checks (fun bm => EnergyBlocks.dh_LDLW bm o index))
  /\ (forall o index, only_checks (fun bm => EnergyBlocks.dh_distribution bm o index))
  /\ (forall o index, only_checks (fun bm => EnergyBlocks.dh_frame bm o index))
  /\ (forall ds ms frames, only_checks (fun bm => DlwBlock.dl_of bm ds ms frames))
  /\ (forall v data t nr, only_checks (fun bm => DlwBlock.dl_make bm v data t nr))
  /\ (forall o index, only_checks (fun bm => DlwBlock.dl_LDLW bm o index))
  /\ (forall o index, only_checks (fun bm => DlwBlock.dl_distribution bm o index))
  /\ (forall o index, only_checks (fun bm => DlwBlock.dl_multiplicity bm o index))
  /\ (forall o index, only_checks (fun bm => DlwBlock.dl_frame bm o index)).
Proof. repeat match goal with |- _ /\ _ => split end; intros; unfold only_checks; change_le; auto with mono. Qed.
Print Assumptions C43_energy_blocks.

(** NU, UNR, BDD *)
Theorem C43_fission_and_unresolved :
  (forall v, only_checks (fun bm => NuBlock.pf_LNU bm v))
  /\ (forall v, only_checks (fun bm => NuBlock.pf_NC bm v))
  /\ (forall v, only_checks (fun bm => NuBlock.pf_C bm v))
  /\ (forall v, only_checks (fun bm => NuBlock.pf_make bm v))
  /\ (forall prompt total, only_checks (fun bm => NuBlock.nu_of bm prompt total))
  /\ (forall v, only_checks (fun bm => NuBlock.nu_make bm v))
  /\ (forall o, only_checks (fun bm => NuBlock.tb_cumulativeProbabilities bm o))
  /\ (forall o, only_checks (fun bm => NuBlock.tb_total bm o))
  /\ (forall o, only_checks (fun bm => NuBlock.tb_elastic bm o))
  /\ (forall o, only_checks (fun bm => NuBlock.tb_fission bm o))
  /\ (forall o, only_checks (fun bm => NuBlock.tb_capture bm o))
  /\ (forall o, only_checks (fun bm => NuBlock.tb_heating bm o))
  /\ (forall v, only_checks (fun bm => NuBlock.un_N bm v))
  /\ (forall v, only_checks (fun bm => NuBlock.un_M bm v))
  /\ (forall v, only_checks (fun bm => NuBlock.un_INT bm v))
  /\ (forall v, only_checks (fun bm => NuBlock.un_ILF bm v))
  /\ (forall v, only_checks (fun bm => NuBlock.un_IOA bm v))
  /\ (forall v, only_checks (fun bm => NuBlock.un_IFF bm v))
  /\ (forall v, only_checks (fun bm => NuBlock.un_energies bm v))
  /\ (forall interpolation inelastic absorption type tables, only_checks (fun bm => NuBlock.un_of bm interpolation inelastic absorption type tables))
  /\ (forall v, only_checks (fun bm => NuBlock.un_make bm v))
  /\ (forall o index, only_checks (fun bm => NuBlock.un_probabilityTable bm o index))
  /\ (forall groups, only_checks (fun bm => NuBlock.bd_of bm groups))
  /\ (forall v npcr, only_checks (fun bm => NuBlock.bd_make bm v npcr))
  /\ (forall o index, only_checks (fun bm => NuBlock.bd_precursorGroupData bm o index)).
Proof. repeat match goal with |- _ /\ _ => split end; intros; unfold only_checks; change_le; auto with mono. Qed.
Print Assumptions C43_fission_and_unresolved.

(** electron, photoatomic and photonuclear blocks *)
Theorem C43_atomic :
  (forall o, only_checks (fun bm => ElectronBlocks.ed_x bm o))
  /\ (forall o, only_checks (fun bm => ElectronBlocks.ed_cdf bm o))
  /\ (forall blocks, only_checks (fun bm => ElectronBlocks.eb_of bm blocks))
  /\ (forall v n, only_checks (fun bm => ElectronBlocks.eb_make bm v n))
  /\ (forall o index, only_checks (fun bm => ElectronBlocks.eb_LLOC bm o index))
  /\ (forall o, only_checks (fun bm => ElectronBlocks.eb_energies bm o))
  /\ (forall o, only_checks (fun bm => ElectronBlocks.eb_lengths bm o))
  /\ (forall o index, only_checks (fun bm => ElectronBlocks.eb_energy bm o index))
  /\ (forall o index, only_checks (fun bm => ElectronBlocks.eb_length bm o index))
  /\ (forall o index, only_checks (fun bm => ElectronBlocks.eb_datum bm o index))
  /\ (forall o, only_checks (fun bm => AtomicBlocks.two_first bm o))
  /\ (forall o, only_checks (fun bm => AtomicBlocks.two_second bm o))
  /\ (forall o, only_checks (fun bm => AtomicBlocks.ep_LNEPS bm o))
  /\ (forall o, only_checks (fun bm => AtomicBlocks.ep_LBEPS bm o))
  /\ (forall o, only_checks (fun bm => AtomicBlocks.ep_LPIPS bm o))
  /\ (forall o index, only_checks (fun bm => AtomicBlocks.ep_numberElectronsPerShell bm o index))
  /\ (forall o index, only_checks (fun bm => AtomicBlocks.ep_bindingEnergy bm o index))
  /\ (forall o index, only_checks (fun bm => AtomicBlocks.ep_interactionProbability bm o index))
  /\ (forall o, only_checks (fun bm => AtomicBlocks.ss_ID bm o))
  /\ (forall o, only_checks (fun bm => AtomicBlocks.ss_EP bm o))
  /\ (forall o, only_checks (fun bm => AtomicBlocks.ss_BE bm o))
  /\ (forall o, only_checks (fun bm => AtomicBlocks.ss_CV bm o))
  /\ (forall o, only_checks (fun bm => AtomicBlocks.ss_NT bm o))
  /\ (forall o index, only_checks (fun bm => AtomicBlocks.ss_designator bm o index))
  /\ (forall o index, only_checks (fun bm => AtomicBlocks.ss_population bm o index))
  /\ (forall o index, only_checks (fun bm => AtomicBlocks.ss_bindingEnergy bm o index))
  /\ (forall o index, only_checks (fun bm => AtomicBlocks.ss_vacancyProbability bm o index))
  /\ (forall o index, only_checks (fun bm => AtomicBlocks.ss_numberTransitions bm o index))
  /\ (forall o, only_checks (fun bm => AtomicBlocks.ez_energies bm o))
  /\ (forall o, only_checks (fun bm => AtomicBlocks.ez_total bm o))
  /\ (forall o, only_checks (fun bm => AtomicBlocks.ez_elastic bm o))
  /\ (forall o, only_checks (fun bm => AtomicBlocks.ez_bremsstrahlung bm o))
  /\ (forall o, only_checks (fun bm => AtomicBlocks.ez_excitation bm o))
  /\ (forall o, only_checks (fun bm => AtomicBlocks.ez_totalElectroionisation bm o))
  /\ (forall o index, only_checks (fun bm => AtomicBlocks.ez_electroionisation bm o index))
  /\ (forall o index, only_checks (fun bm => AtomicBlocks.tr_transition bm o index))
  /\ (forall o index, only_checks (fun bm => AtomicBlocks.tr_primaryDesignator bm o index))
  /\ (forall o index, only_checks (fun bm => AtomicBlocks.tr_secondaryDesignator bm o index))
  /\ (forall o index, only_checks (fun bm => AtomicBlocks.tr_energy bm o index))
  /\ (forall o index, only_checks (fun bm => AtomicBlocks.tr_probability bm o index))
  /\ (forall o index, only_checks (fun bm => AtomicBlocks.tr_isRadiative bm o index))
  /\ (forall o, only_checks (fun bm => AtomicBlocks.eg_energies bm o))
  /\ (forall o, only_checks (fun bm => AtomicBlocks.eg_incoherent bm o))
  /\ (forall o, only_checks (fun bm => AtomicBlocks.eg_coherent bm o))
  /\ (forall o, only_checks (fun bm => AtomicBlocks.eg_photoelectric bm o))
  /\ (forall o, only_checks (fun bm => AtomicBlocks.eg_pairproduction bm o))
  /\ (forall o, only_checks (fun bm => AtomicBlocks.jf_E bm o))
  /\ (forall o, only_checks (fun bm => AtomicBlocks.jf_PHI bm o))
  /\ (forall o, only_checks (fun bm => AtomicBlocks.jf_Y bm o))
  /\ (forall o, only_checks (fun bm => AtomicBlocks.jf_F bm o))
  /\ (forall o index, only_checks (fun bm => AtomicBlocks.sp_photoelectric bm o index))
  /\ (forall o, only_checks (fun bm => AtomicBlocks.ji_momentum bm o))
  /\ (forall o, only_checks (fun bm => AtomicBlocks.ji_values bm o))
  /\ (forall o, only_checks (fun bm => AtomicBlocks.jc_integrated bm o))
  /\ (forall o, only_checks (fun bm => AtomicBlocks.jc_factors bm o))
  /\ (forall o, only_checks (fun bm => AtomicBlocks.eu_energies bm o))
  /\ (forall o, only_checks (fun bm => AtomicBlocks.eu_total bm o))
  /\ (forall o, only_checks (fun bm => AtomicBlocks.eu_elastic bm o))
  /\ (forall o, only_checks (fun bm => AtomicBlocks.eu_heating bm o))
  /\ (forall o particle index, only_checks (fun bm => AtomicBlocks.iu_LLOC bm o particle index))
  /\ (forall o index, only_checks (fun bm => AtomicBlocks.iu_IP bm o index))
  /\ (forall o index, only_checks (fun bm => AtomicBlocks.iu_NP bm o index))
  /\ (forall o type, only_checks (fun bm => AtomicBlocks.iu_hasIP bm o type))
  /\ (forall o type, only_checks (fun bm => AtomicBlocks.iu_index bm o type)).
Proof. repeat match goal with |- _ /\ _ => split end; intros; unfold only_checks; change_le; auto with mono. Qed.
Print Assumptions C43_atomic.

(** thermal scattering blocks *)
Theorem C43_thermal :
  (forall c, only_checks (fun bm => ThermalBlocks.tc_energies bm c))
  /\ (forall c, only_checks (fun bm => ThermalBlocks.tc_crossSections bm c))
  /\ (forall a index, only_checks (fun bm => ThermalBlocks.te_cosines bm a index))
  /\ (forall d, only_checks (fun bm => ThermalBlocks.cos_energy bm d))
  /\ (forall v, only_checks (fun bm => ThermalBlocks.cos_pdf bm v))
  /\ (forall v, only_checks (fun bm => ThermalBlocks.cos_cdf bm v))
  /\ (forall d, only_checks (fun bm => ThermalBlocks.cos_cosines bm d))
  /\ (forall o index, only_checks (fun bm => ThermalBlocks.it_LOCC bm o index))
  /\ (forall o index, only_checks (fun bm => ThermalBlocks.it_NIEB bm o index))
  /\ (forall o incident outgoing, only_checks (fun bm => ThermalBlocks.it_cosineData bm o incident outgoing))
  /\ (forall ifeng nieb nc ne locb v, only_checks (fun bm => ThermalBlocks.it_make bm ifeng nieb nc ne locb v))
  /\ (forall cosines skewed locb, only_checks (fun bm => ThermalBlocks.it_of01 bm cosines skewed locb))
  /\ (forall cosines locb, only_checks (fun bm => ThermalBlocks.it_of2 bm cosines locb)).
Proof. repeat match goal with |- _ /\ _ => split end; intros; unfold only_checks; change_le; auto with mono. Qed.
Print Assumptions C43_thermal.

(** NXS, JXS, IZ, AW, XSS; the tables, from the data of a file and from blocks; printing *)
Theorem C43_tables :
  (forall d index, only_checks (fun bm => TableData.d_IZ bm d index))
  /\ (forall d index, only_checks (fun bm => TableData.d_AW bm d index))
  /\ (forall d index, only_checks (fun bm => TableData.d_NXS bm d index))
  /\ (forall d index, only_checks (fun bm => TableData.d_JXS bm d index))
  /\ (forall d index, only_checks (fun bm => TableData.d_XSS bm d index))
  /\ (forall d index, only_checks (fun bm => TableData.d_IXSS bm d index))
  /\ (forall d index length, only_checks (fun bm => TableData.d_XSSr bm d index length))
  /\ (forall d, only_checks (fun bm => DosimetryTable.dt_length bm d))
  /\ (forall d, only_checks (fun bm => DosimetryTable.dt_ZA bm d))
  /\ (forall d, only_checks (fun bm => DosimetryTable.dt_NTR bm d))
  /\ (forall zaid d, only_checks (fun bm => DosimetryTable.dt_make bm zaid d))
  /\ (forall z a zaid mtr sigd, only_checks (fun bm => DosimetryTable.dt_of bm z a zaid mtr sigd))
  /\ (forall zaid d, only_checks (fun bm => ContinuousTable.ce_make bm zaid d))
  /\ (forall z a s zaid i, only_checks (fun bm => ContinuousTable.ce_of bm z a s zaid i))
  /\ (forall d, only_checks (fun bm => ThermalTable.th_length bm d))
  /\ (forall d, only_checks (fun bm => ThermalTable.th_IDPNI bm d))
  /\ (forall d, only_checks (fun bm => ThermalTable.th_NIL bm d))
  /\ (forall d, only_checks (fun bm => ThermalTable.th_NIEB bm d))
  /\ (forall d, only_checks (fun bm => ThermalTable.th_IDPNC bm d))
  /\ (forall d, only_checks (fun bm => ThermalTable.th_NCL bm d))
  /\ (forall d, only_checks (fun bm => ThermalTable.th_IFENG bm d))
  /\ (forall d, only_checks (fun bm => ThermalTable.th_NCLI bm d))
  /\ (forall zaid d, only_checks (fun bm => ThermalTable.th_make bm zaid d))
  /\ (forall zaid i, only_checks (fun bm => ThermalTable.th_of bm zaid i))
  /\ (forall d, only_checks (fun bm => PhotoatomicTable.pa_length bm d))
  /\ (forall d, only_checks (fun bm => PhotoatomicTable.pa_Z bm d))
  /\ (forall d, only_checks (fun bm => PhotoatomicTable.pa_NES bm d))
  /\ (forall d, only_checks (fun bm => PhotoatomicTable.pa_NFLO bm d))
  /\ (forall d, only_checks (fun bm => PhotoatomicTable.pa_NSH bm d))
  /\ (forall d, only_checks (fun bm => PhotoatomicTable.pa_NEPR bm d))
  /\ (forall d, only_checks (fun bm => PhotoatomicTable.pa_NSSH bm d))
  /\ (forall d, only_checks (fun bm => PhotoatomicTable.pa_NE bm d))
  /\ (forall d, only_checks (fun bm => PhotoatomicTable.pa_NXL bm d))
  /\ (forall d, only_checks (fun bm => PhotoatomicTable.pa_NA bm d))
  /\ (forall d, only_checks (fun bm => PhotoatomicTable.pa_NB bm d))
  /\ (forall d, only_checks (fun bm => PhotoatomicTable.pa_NBL bm d))
  /\ (forall d, only_checks (fun bm => PhotoatomicTable.pa_NINC bm d))
  /\ (forall d, only_checks (fun bm => PhotoatomicTable.pa_NCOH bm d))
  /\ (forall zaid d, only_checks (fun bm => PhotoatomicTable.pa_make bm zaid d))
  /\ (forall zaid i, only_checks (fun bm => PhotoatomicTable.pa_of bm zaid i))
  /\ (forall t index, only_checks (fun bm => PhotoatomicTable.pa_EION bm t index))
  /\ (forall d, only_checks (fun bm => PhotonuclearTable.pu_length bm d))
  /\ (forall d, only_checks (fun bm => PhotonuclearTable.pu_ZA bm d))
  /\ (forall d, only_checks (fun bm => PhotonuclearTable.pu_NES bm d))
  /\ (forall d, only_checks (fun bm => PhotonuclearTable.pu_NTR bm d))
  /\ (forall d, only_checks (fun bm => PhotonuclearTable.pu_NTYPE bm d))
  /\ (forall d, only_checks (fun bm => PhotonuclearTable.pu_S bm d))
  /\ (forall d, only_checks (fun bm => PhotonuclearTable.pu_Z bm d))
  /\ (forall d, only_checks (fun bm => PhotonuclearTable.pu_A bm d))
  /\ (forall zaid d, only_checks (fun bm => PhotonuclearTable.pu_make bm zaid d))
  /\ (forall z a s zaid i, only_checks (fun bm => PhotonuclearTable.pu_of bm z a s zaid i))
  /\ (forall d, only_checks (fun bm => TableText.print_data bm d))
  /\ (forall t, only_checks (fun bm => TableText.print_table bm t)).
Proof. repeat match goal with |- _ /\ _ => split end; intros; unfold only_checks; change_le; auto with mono. Qed.
Print Assumptions C43_tables.

(** The hypothesis is met (a table, a block with two entries), and the checks matter: words that Debug refuses, Release accepts, and an
    index that Debug refuses reads another value in Release. *)
Example C43_example :
  (exists o, td_make Debug (own (map dbl [0; 2; 1; 2; 3; 4])) = Ok o /\ td_make Release (own (map dbl [0; 2; 1; 2; 3; 4])) = Ok o /\ td_y Debug o = Ok [dbl 3; dbl 4])
  /\ (exists o, bl_make Debug (sig_generateData Debug) (own (map dbl [1; 5; 1; 2; 5; 6; 2; 1; 7])) 2 2 true = Ok o).
Proof. split; eexists; conc. Qed.
Example C43_more_in_release :
  (exists o, let v := View (map dbl [2; 1; 6; 7]) 0 3 in sig_generateData Debug 1 v = Ok o /\ xss Debug o 4 = Throw OutOfRange /\ xss Release o 4 = Ok (dbl 7)).
Proof. eexists. conc. Qed.
