(** C45: what a constructor accepts can be read.  The words are arbitrary: nothing is assumed about how they were made.
    [bm]: with and without the index checks.  The hypotheses say that the iterators given point into a vector
    ([framed]; [inside]: in the right order); the conclusions ([..._readable]) that the counts are returned and that, if the size
    they ask for fits an unsigned int, each accessor returns as many values as the counts say: no exception, nothing undefined. *)
From Coq Require Import ZArith Bool List Lia.
From Verif Require Import PropLemmasBasic Truncated NuBlock AtomicBlocks ElectronBlocks ThermalBlocks Accepted.
Import ListNotations.
Open Scope Z_scope.

(** * Blocks of one kind of values *)

Theorem C45_cross_sections bm v o : framed v -> xs_make bm v = Ok o ->
  shown (xs_numberValues bm o) (fun n => 2 + n < 2 ^ 32 -> returns (xs_crossSections bm o) n).
Proof.
  intros F M. pose proof M as M'. unfold xs_make in M'. step M' k K. skip_ M' V. apply Ok_inj in M'. subst o. apply shown_of; [eauto|].
  intros n Cn B. exact (xs_accepts bm v v n (framed_nearby v F) M Cn B).
Qed.
Print Assumptions C45_cross_sections.
Theorem C45_photon_cross_sections bm v o : framed v -> px_make bm v = Ok o ->
  shown (px_numberValues bm o) (fun n => 3 + n < 2 ^ 32 -> returns (px_crossSections bm o) n).
Proof.
  intros F M. pose proof M as M'. unfold px_make in M'. step M' k K. skip_ M' V. apply Ok_inj in M'. subst o. apply shown_of; [eauto|].
  intros n Cn B. exact (px_accepts bm v v n (framed_nearby v F) M Cn B).
Qed.
Print Assumptions C45_photon_cross_sections.
Theorem C45_heating bm v o : framed v -> hpd_make bm v = Ok o ->
  shown (hpd_numberValues bm o) (fun n => 2 + 2 * n < 2 ^ 32 -> returns (hpd_totalProduction bm o) n /\ returns (hpd_heating bm o) n).
Proof.
  intros F M. pose proof M as M'. unfold hpd_make in M'. step M' k K. skip_ M' V. apply Ok_inj in M'. subst o. apply shown_of; [eauto|].
  intros n Cn B. exact (hpd_accepts bm v v n F M Cn B).
Qed.
Print Assumptions C45_heating.
Theorem C45_tabulated_distribution bm v o : framed v -> tp_make bm v = Ok o ->
  shown (tp_numberValues bm o) (fun n => 2 + 3 * n < 2 ^ 32 -> returns (tp_values bm o) n /\ returns (tp_pdf bm o) n /\ returns (tp_cdf bm o) n).
Proof. intros F M. exact (tp_make_readable bm v o (framed_nearby v F) M). Qed.
Print Assumptions C45_tabulated_distribution.
Theorem C45_photon_yields bm v o : inside v -> vbeg v < vend v -> yp_make bm v = Ok o ->
  forall n, yp_NYP bm o = Ok n -> 1 + n < 2 ^ 32 -> returns (yp_MTs bm o) n.
Proof. intros I P M n Cn B. exact (yp_accepts bm v o n I P M Cn B). Qed.
Print Assumptions C45_photon_yields.

(** the sizes are arguments of the constructor *)
Theorem C45_array_data bm v n m o : framed v -> 0 <= n -> 0 <= m -> n * m < 2 ^ 32 -> m < 2 ^ 32 -> ad_make v n m = Ok o ->
  (forall i, 1 <= i <= m -> returns (ad_darray bm o i) n)
  /\ (forall i j, 1 <= i <= m -> 1 <= j <= n -> exists x, ad_dvalue bm o i j = Ok x).
Proof. intros F Hn Hm B1 B2 M. exact (proj2 (ad_accepts bm v n m o F Hn Hm B1 B2 M)). Qed.
Print Assumptions C45_array_data.
Theorem C45_reaction_types bm v n o : framed v -> 0 <= n -> nt_make v n = Ok o -> nt_NTYPE o = n /\ returns (nt_NPs bm o) n.
Proof. exact (nt_accepts bm v n o). Qed.
Print Assumptions C45_reaction_types.
Theorem C45_particle_locators bm v n o : framed v -> 0 <= n -> 10 * n < 2 ^ 32 -> ix_make v n = Ok o ->
  nt_NTYPE o = n /\ forall p i, 1 <= p <= n -> 1 <= i <= 10 -> exists x, xss bm (nt_v o) ((p - 1) * 10 + i) = Ok x.
Proof. exact (ix_accepts bm v n o). Qed.
Print Assumptions C45_particle_locators.
Theorem C45_photonuclear_locators bm v n o : framed v -> 0 <= n -> 12 * n < 2 ^ 32 -> iu_make v n = Ok o ->
  iu_NTYPE o = n /\ forall p i, 1 <= p <= n -> 1 <= i <= 12 -> exists x, xss bm (nt_v o) ((p - 1) * 12 + i) = Ok x.
Proof. exact (iu_accepts bm v n o). Qed.
Print Assumptions C45_photonuclear_locators.
Theorem C45_discrete_cosines bm nc v o : inside v -> 0 <= nc < 2 ^ 32 -> dc_make nc v = Ok o ->
  (exists e, cos_energy bm o = Ok e) /\ returns (cos_cosines bm o) nc.
Proof. exact (dc_accepts bm nc v o). Qed.
Print Assumptions C45_discrete_cosines.
Theorem C45_discrete_cosines_with_probability bm nc v o : inside v -> 0 <= nc < 2 ^ 32 -> dq_make nc v = Ok o ->
  (exists e, cos_energy bm o = Ok e) /\ (exists p, cos_pdf bm (cos_v o) = Ok p) /\ (exists c, cos_cdf bm (cos_v o) = Ok c) /\ returns (cos_cosines bm o) nc.
Proof. exact (dq_accepts bm nc v o). Qed.
Print Assumptions C45_discrete_cosines_with_probability.

(** the sizes follow from the number of words *)
Theorem C45_transitions bm v o : inside v -> tr_make v = Ok o ->
  4 * tr_NT o = vend v - vbeg v /\ forall i, 1 <= i <= tr_NT o ->
    returns (tr_transition bm o i) 4 /\ (exists e, tr_energy bm o i = Ok e) /\ (exists p, tr_probability bm o i = Ok p).
Proof. exact (tr_accepts bm v o). Qed.
Print Assumptions C45_transitions.
Theorem C45_incoherent_scattering bm v o : inside v -> ji_make v = Ok o ->
  returns (ji_momentum bm o) (ji_NM o) /\ returns (ji_values bm o) (ji_NM o).
Proof. exact (ji_accepts bm v o). Qed.
Print Assumptions C45_incoherent_scattering.
Theorem C45_coherent_scattering bm v o : inside v -> jc_make v = Ok o ->
  returns (ji_momentum bm o) (ji_NM o) /\ returns (jc_integrated bm o) (ji_NM o) /\ returns (jc_factors bm o) (ji_NM o).
Proof. exact (jc_accepts bm v o). Qed.
Print Assumptions C45_coherent_scattering.

(** columns behind a count; no words at all are no rows *)
Theorem C45_columns bm v nc o n : inside v -> 0 <= nc -> vbeg v < vend v -> cd_make v nc = Ok o -> cd_N bm o = Ok n ->
  (exists x, deref (buf v) (vbeg v) = Ok x /\ trunc_to_size x = Ok n) -> 1 + n * nc < 2 ^ 64 ->
  forall i, 1 <= i <= nc -> returns (cd_column bm o i) n.
Proof. intros I Hn P M Cn T B. exact (cd_accepts bm v nc o n I Hn M Cn (fun _ => T) P B). Qed.
Print Assumptions C45_columns.
Theorem C45_no_columns bm v nc : vbeg v = vend v -> 0 <= nc -> exists o, cd_make v nc = Ok o /\ cd_N bm o = Ok 0.
Proof.
  intros E Hn. unfold cd_make, cd_verifySize, vempty. rewrite (proj2 (Z.eqb_eq _ _) E). cbn [bind]. exists (ColumnData v nc). split.
  - unfold throw_if, vlen. rewrite E, Z.sub_diag. cbn. reflexivity.
  - unfold cd_N, vempty. cbn [cd_v]. rewrite (proj2 (Z.eqb_eq _ _) E). reflexivity.
Qed.
Print Assumptions C45_no_columns.

(** * Tables and spectra *)

(** NB, NBT, INT, N and the two columns *)
Theorem C45_tables bm v o : framed v -> td_make bm v = Ok o ->
  shown (td_NB bm o) (fun nb => shown (td_N bm o) (fun n => 2 + 2 * nb + 2 * n < 2 ^ 32 ->
    returns (td_NBT bm o) nb /\ returns (td_INT bm o) nb /\ returns (td_x bm o) n /\ returns (td_y bm o) n)).
Proof.
  intros F M. destruct (td_table bm v o (framed_nearby v F) M) as (nb & NB & n & Cn & H). exists nb. split; [exact NB|]. exists n. split; [exact Cn|].
  intros B. destruct (H B) as (_ & H1 & H2 & _ & H3 & H4). auto.
Qed.
Print Assumptions C45_tables.
(** a table behind k words: fluxes, yields, tabulated multiplicities *)
Theorem C45_tables_behind_words bm k v o : 0 <= k -> framed v -> pt_generateBlocks bm k v = Ok o -> table_readable bm (pt_tab o).
Proof. intros _ F M. exact (pt_table bm k v o (framed_nearby v F) M). Qed.
Print Assumptions C45_tables_behind_words.
Theorem C45_evaporation_spectra bm v o : framed v -> ev_make bm v = Ok o -> ev_readable bm o.
Proof. exact (ev_shown bm v o). Qed.
Print Assumptions C45_evaporation_spectra.
Theorem C45_general_evaporation_spectra bm v o : framed v -> ge_make bm v = Ok o -> ge_readable bm o.
Proof. exact (ge_shown bm v o). Qed.
Print Assumptions C45_general_evaporation_spectra.
Theorem C45_watt_spectra bm v o : framed v -> wa_make bm v = Ok o -> wa_readable bm o.
Proof. exact (wa_shown bm v o). Qed.
Print Assumptions C45_watt_spectra.
Theorem C45_fission_multiplicity bm v o : framed v -> vbeg v <> vend v -> nu_make bm v = Ok o ->
  nu_readable bm (nu_prompt o) /\ match nu_total o with Some t => nu_readable bm t | None => True end.
Proof. exact (nu_accepts bm v o). Qed.
Print Assumptions C45_fission_multiplicity.

(** * Distributions *)

(** NB, NBT, INT, N, the energies and each distribution with its values *)
Theorem C45_outgoing_energies bm locb v o : framed v -> og_make bm locb v = Ok o ->
  dists_readable bm (fun t => tp_readable bm (snd t)) o.
Proof. intros F. exact (og_accepts bm locb v o (framed_nearby v F)). Qed.
Print Assumptions C45_outgoing_energies.
Theorem C45_angle_energy_distributions bm locb v o : framed v -> aed_make bm locb v = Ok o ->
  dists_readable bm (fun t => idists_readable bm (fun u => tp_readable bm (snd u)) (snd t)) o.
Proof. intros F. exact (aed_accepts bm locb v o (framed_nearby v F)). Qed.
Print Assumptions C45_angle_energy_distributions.
Theorem C45_equiprobable_energy_bins bm v o : framed v -> SimpleLaws.eq_make bm v = Ok o -> equi_law_readable bm o.
Proof. exact (eq_shown bm v o). Qed.
Print Assumptions C45_equiprobable_energy_bins.
(** with the index checks *)
Theorem C45_angular_distributions locb v o : framed v -> an_make Debug locb v = Ok o -> angular_readable Debug o.
Proof. intros F. exact (an_shown locb v o (framed_nearby v F)). Qed.
Print Assumptions C45_angular_distributions.

(** * Blocks with locators: each entry is there and can be read *)

Theorem C45_block_SIG bm v data n o : inside v -> 0 <= n < 2 ^ 32 -> bl_make bm (sig_generateData bm) v data n true = Ok o ->
  bl_n o = n /\ forall i, 1 <= i <= n -> exists d, bl_datum bm o i = Ok d /\ xs_readable bm d.
Proof. exact (sig_accepts bm v data n o). Qed.
Print Assumptions C45_block_SIG.
Theorem C45_block_SIGP bm v data n o : inside v -> 0 <= n < 2 ^ 32 -> bl_make bm (sigp_generateData bm) v data n true = Ok o ->
  bl_n o = n /\ forall i, 1 <= i <= n -> exists d, bl_datum bm o i = Ok d /\ pp_readable bm d.
Proof. exact (sigp_accepts bm v data n o). Qed.
Print Assumptions C45_block_SIGP.
Theorem C45_block_SIGH bm v data n o : inside v -> 0 <= n < 2 ^ 32 -> bl_make bm (sigh_generateData bm) v data n true = Ok o ->
  bl_n o = n /\ forall i, 1 <= i <= n -> exists d, bl_datum bm o i = Ok d /\ table_readable bm (pt_tab d).
Proof. exact (sigh_accepts bm v data n o). Qed.
Print Assumptions C45_block_SIGH.
Theorem C45_block_SIGD bm v data n o : inside v -> 0 <= n < 2 ^ 32 -> bl_make bm (sigd_gd bm) v data n true = Ok o ->
  bl_n o = n /\ forall i, 1 <= i <= n -> exists d, bl_datum bm o i = Ok d /\ table_readable bm d.
Proof. exact (sigd_accepts bm v data n o). Qed.
Print Assumptions C45_block_SIGD.
Theorem C45_block_SWD bm v data n o : inside v -> 0 <= n < 2 ^ 32 -> bl_make bm (swd_gd bm) v data n true = Ok o ->
  bl_n o = n /\ forall i, 1 <= i <= n -> exists d, bl_datum bm o i = Ok d /\ tp_readable bm d.
Proof. exact (swd_accepts bm v data n o). Qed.
Print Assumptions C45_block_SWD.
(** with the index checks *)
Theorem C45_block_AND v data nr (zero : bool) o : inside v -> 0 <= nr < 2 ^ 32 -> ab_make Debug v data nr zero = Ok o ->
  ab_nr o = nr /\ forall i, (if zero then 0 else 1) <= i <= nr -> exists d, ab_datum Debug o i = Ok d /\ ab_readable Debug d.
Proof. exact (ab_accepts v data nr zero o). Qed.
Print Assumptions C45_block_AND.
(** an energy distribution behind its header (laws 1, 4, 5, 7, 9, 11, 44, 67), and the blocks of them *)
Theorem C45_energy_distribution bm loc v o : framed v -> en_read bm loc v = Ok o -> en_readable bm o.
Proof. exact (en_accepts bm loc v o). Qed.
Print Assumptions C45_energy_distribution.
Theorem C45_block_DLWH bm v data n t o : inside v -> vbeg v <= data <= vend v -> 0 <= n < 2 ^ 32 -> dh_make bm v data n t = Ok o ->
  dh_NR o = n /\ forall i, 1 <= i <= n -> exists d, dh_distribution bm o i = Ok d /\ en_readable bm d.
Proof. exact (dh_accepts bm v data n t o). Qed.
Print Assumptions C45_block_DLWH.
Theorem C45_block_DLW bm v data t nr o : inside v -> 0 <= nr < 2 ^ 32 -> dl_make bm v data t nr = Ok o ->
  dl_NR o = nr /\ forall i, 1 <= i <= nr -> (exists d, dl_distribution bm o i = Ok d /\ en_readable bm d)
    /\ (exists m, dl_multiplicity bm o i = Ok m /\ mult_readable bm m) /\ (exists f, dl_frame bm o i = Ok f).
Proof. exact (dl_accepts bm v data t nr o). Qed.
Print Assumptions C45_block_DLW.

Theorem C45_two_numbers bm v e1 e2 o : framed v -> SimpleLaws.two_make v e1 e2 = Ok o -> (exists x, two_C1 bm o = Ok x) /\ (exists x, two_C2 bm o = Ok x).
Proof. exact (two_accepts bm v e1 e2 o). Qed.
Print Assumptions C45_two_numbers.

(** * Outside these hypotheses *)

Definition words (l : list Z) : view := own (map dbl l).
Lemma words_inside l : len (map dbl l) < max_words -> inside (words l).
Proof. apply own_inside. Qed.

(** A negative count is accepted (the size wraps around); reading the values is undefined in both builds. *)
Theorem C45_negative_count_refuted : exists v, inside v /\ forall bm, xs_make bm v = Ok v /\ xs_crossSections bm v = UB.
Proof. exists (words [1; -1]). split; [apply words_inside; reflexivity|]. intros bm. destruct bm; split; vm_compute; reflexivity. Qed.
Print Assumptions C45_negative_count_refuted.
(** A count whose size does not fit an unsigned int is accepted: 3 n + 2 = 2^32 + 1. *)
Theorem C45_wrapped_size_refuted : exists v, inside v /\ vend v - vbeg v = 2 /\ forall bm, tp_make bm v = Ok v /\ tp_numberValues bm v = Ok 1431655765
  /\ forall l, tp_values bm v <> Ok l.
Proof.
  exists (words [1; 1431655765]). split; [apply words_inside; reflexivity|]. split; [reflexivity|].
  intros bm. destruct bm; (split; [vm_compute; reflexivity|]; split; [vm_compute; reflexivity|]).
  - assert (E : tp_values Debug (words [1; 1431655765]) = Throw OutOfRange) by (vm_compute; reflexivity). intros l. rewrite E. discriminate.
  - assert (E : tp_values Release (words [1; 1431655765]) = UB) by (vm_compute; reflexivity). intros l. rewrite E. discriminate.
Qed.
Print Assumptions C45_wrapped_size_refuted.
(** ColumnData verifies the truncated count and shows the rounded one: 2.5 is two rows or three. *)
Definition two_and_a_half : double := SFdiv 53 1024 (dbl 5) (dbl 2).
Theorem C45_fractional_count_refuted : exists v, inside v /\ exists o, cd_make v 2 = Ok o
  /\ forall bm, cd_N bm o = Ok 3 /\ forall l, cd_column bm o 2 <> Ok l.
Proof.
  set (v := own (two_and_a_half :: map dbl [1; 2; 3; 4])). exists v. split; [apply own_inside; reflexivity|]. exists (ColumnData v 2).
  split; [vm_compute; reflexivity|]. intros bm. destruct bm; (split; [vm_compute; reflexivity|]).
  - assert (E : cd_column Debug (ColumnData v 2) 2 = Throw OutOfRange) by (vm_compute; reflexivity). intros l. rewrite E. discriminate.
  - assert (E : cd_column Release (ColumnData v 2) 2 = UB) by (vm_compute; reflexivity). intros l. rewrite E. discriminate.
Qed.
Print Assumptions C45_fractional_count_refuted.

(** Level scattering (law 3) whose IDAT (1, with locator 4) points before the words of the table: accepted, and C1 is read there. *)
Theorem C45_data_before_the_block_refuted : exists v, inside v /\ forall bm, exists d, en_read bm 4 v = Ok (Single (OLevel d)) /\ two_C1 bm d = UB.
Proof.
  exists (words [0; 3; 1; 0; 2; 1; 20; 1; 1; 5; 6]). split; [apply words_inside; reflexivity|].
  intros bm. exists (Two (sub (words [0; 3; 1; 0; 2; 1; 20; 1; 1; 5; 6]) (-3) 11) (dbl 1) (dbl 20)). destruct bm; split; vm_compute; reflexivity.
Qed.
Print Assumptions C45_data_before_the_block_refuted.
(** Without the index checks an angular distribution of equiprobable bins whose locator points behind the block is accepted
    (its distance to the end wraps around to a large number of words), and its cosines are read there. *)
Theorem C45_unchecked_bins_refuted : exists v o d, inside v /\ an_make Release 1 v = Ok o /\ an_datum Release o 1 = Ok (AEqui (dbl 5) d) /\ eq_cosines Release d = UB
  /\ an_make Debug 1 v = Throw OutOfRange.
Proof.
  exists (words [1; 5; 100]). eexists (AngularData 1 (words [1; 5; 100]) (ColumnData (words [1; 5; 100]) 2) [AEqui (dbl 5) (sub (words [1; 5; 100]) 99 3)]).
  exists (sub (words [1; 5; 100]) 99 3). split; [apply words_inside; reflexivity|]. repeat split; vm_compute; reflexivity.
Qed.
Print Assumptions C45_unchecked_bins_refuted.

(** * Concrete cases *)

(** two cross sections, a table with one region and three points, and a distribution of two values: accepted, and read *)
Example C45_example_xs bm : exists o, framed (words [4; 2; 10; 20]) /\ xs_make bm (words [4; 2; 10; 20]) = Ok o /\ xs_numberValues bm o = Ok 2 /\ 2 + 2 < 2 ^ 32
  /\ xs_crossSections bm o = Ok [dbl 10; dbl 20].
Proof. exists (words [4; 2; 10; 20]). split; [apply (words_inside [4; 2; 10; 20]); reflexivity|]. destruct bm; repeat split; vm_compute; reflexivity. Qed.
Example C45_example_table bm : exists o, framed (words [1; 3; 2; 3; 1; 2; 3; 7; 8; 9; 99]) /\ td_make bm (words [1; 3; 2; 3; 1; 2; 3; 7; 8; 9; 99]) = Ok o
  /\ td_NB bm o = Ok 1 /\ td_N bm o = Ok 3 /\ td_y bm o = Ok [dbl 7; dbl 8; dbl 9].
Proof.
  eexists. split; [apply (words_inside [1; 3; 2; 3; 1; 2; 3; 7; 8; 9; 99]); reflexivity|]. split; [destruct bm; vm_compute; reflexivity|].
  destruct bm; repeat split; vm_compute; reflexivity.
Qed.
(** an angular distribution: one isotropic, one tabulated, one of 32 bins *)
Definition angular_words : list Z := [3; 1; 2; 3; 0; -8; 16] ++ [2; 2; -1; 1; 1; 1; 0; 1] ++ repeat 7 33.
Example C45_example_angular : exists o, an_make Debug 1 (words angular_words) = Ok o /\ an_NE Debug o = Ok 3
  /\ an_datum Debug o 1 = Ok (AIso (dbl 1))
  /\ an_datum Debug o 2 = Ok (ATab (dbl 2) (sub (words angular_words) 7 15))
  /\ an_datum Debug o 3 = Ok (AEqui (dbl 3) (sub (words angular_words) 15 48)).
Proof.
  exists (AngularData 1 (words angular_words) (ColumnData (sub (words angular_words) 0 7) 2)
    [AIso (dbl 1); ATab (dbl 2) (sub (words angular_words) 7 15); AEqui (dbl 3) (sub (words angular_words) 15 48)]).
  repeat split; vm_compute; reflexivity.
Qed.
(** an evaporation spectrum behind its header *)
Definition evaporation_words : list Z := [0; 9; 10; 0; 2; 1; 20; 1; 1] ++ [0; 2; 1; 20; 3; 4; 5].
Example C45_example_energy bm : exists t, en_read bm 1 (words evaporation_words) = Ok (Single (OEvaporation t)) /\ td_N bm (ev_tab t) = Ok 2 /\ ev_U t = Ok (dbl 5).
Proof.
  assert (E : exists t, en_read bm 1 (words evaporation_words) = Ok (Single (OEvaporation t))
    /\ t = Evaporation (sub (words evaporation_words) 9 16) (TabulatedData (sub (words evaporation_words) 9 15) (ColumnData (sub (words evaporation_words) 9 10) 2) (ColumnData (sub (words evaporation_words) 10 15) 2)))
    by (eexists; split; [destruct bm; vm_compute; reflexivity|vm_compute; reflexivity]).
  destruct E as (t & E1 & E2). exists t. split; [exact E1|]. rewrite E2. destruct bm; split; vm_compute; reflexivity.
Qed.
