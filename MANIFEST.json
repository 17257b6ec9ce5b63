{
 "claims": [
  {
   "property": "C01",
   "status": "proved",
   "theorems": [
    "C01_integers_survive_storage",
    "C01_cast_exact"
   ],
   "note": ""
  },
  {
   "property": "C02",
   "status": "proved",
   "theorems": [
    "C02_one_based_access",
    "C02_out_of_range_throws_in_debug",
    "C02_release_agrees_with_debug"
   ],
   "note": ""
  },
  {
   "property": "C03",
   "status": "partial",
   "theorems": [
    "C03_subrange",
    "C03_rejects_partial",
    "C03_every_request",
    "C03_rejects_refuted",
    "C03_owned_past_end_is_ub_refuted"
   ],
   "note": "Every in-range request is proved; the claim that Debug rejects every request leaving the block is false (C03_rejects_refuted: XSS(1,n+1)). What holds of every possible request, exactly, is C03_every_request."
  },
  {
   "property": "C04",
   "status": "proved",
   "theorems": [
    "C04_one_based_access",
    "C04_out_of_range",
    "C04_release_unchecked",
    "C04_write",
    "C04_write_out_of_range",
    "C04_range",
    "C04_range_out_of_range"
   ],
   "note": ""
  },
  {
   "property": "C05",
   "status": "proved",
   "theorems": [
    "C05_array_data_round_trip",
    "C05_array_data_built",
    "C05_array_data_rejects_ragged",
    "C05_short_view_rejected",
    "C05_out_of_range_throws_in_debug"
   ],
   "note": ""
  },
  {
   "property": "C06",
   "status": "proved",
   "theorems": [
    "C06_column_data_round_trip",
    "C06_column_data_rejects_ragged",
    "C06_truncated_rejected",
    "C06_empty_view"
   ],
   "note": ""
  },
  {
   "property": "C07",
   "status": "proved",
   "theorems": [
    "C07_interpolation_data_round_trip",
    "C07_interpolation_data_sizes"
   ],
   "note": ""
  },
  {
   "property": "C08",
   "status": "proved",
   "theorems": [
    "C08_tabulated_data_round_trip",
    "C08_tabulated_data_built",
    "C08_tabulated_data_sizes",
    "C08_truncated_rejected",
    "C08_evaporation_round_trip",
    "C08_general_evaporation_round_trip",
    "C08_watt_round_trip",
    "C08_precursor_data_round_trip",
    "C08_fission_multiplicity_round_trip",
    "C08_secondary_multiplicity_round_trip"
   ],
   "note": ""
  },
  {
   "property": "C09",
   "status": "partial",
   "theorems": [
    "C09_locator_block_round_trip",
    "C09_locator_block_exact",
    "C09_locator_block_built",
    "C09_out_of_range_throws_in_debug",
    "C09_SIG_round_trip",
    "C09_SIG_entry_truncated_rejected",
    "C09_short_locators_rejected",
    "C09_SIGP_round_trip",
    "C09_SIGP_mftype_13_refuted",
    "C09_SIGH_round_trip"
   ],
   "note": "Proved for all locator blocks; SIGP multiplicities with MFTYPE 13 are refuted (the constructor accepts them, the reader takes them for cross sections)."
  },
  {
   "property": "C10",
   "status": "proved",
   "theorems": [
    "C10_electron_block_built",
    "C10_electron_block_read",
    "C10_table_sizes",
    "C10_lengths_refuted"
   ],
   "note": "C10_lengths_refuted documents the protected, not re-exported lengths() accessor of the base."
  },
  {
   "property": "C11",
   "status": "proved",
   "theorems": [
    "C11_angular_data_round_trip",
    "C11_tabulated_truncated_rejected",
    "C11_equiprobable_cosines"
   ],
   "note": ""
  },
  {
   "property": "C12",
   "status": "proved",
   "theorems": [
    "C12_angular_block_round_trip",
    "C12_angular_block_built",
    "C12_out_of_range_throws_in_debug"
   ],
   "note": ""
  },
  {
   "property": "C13",
   "status": "proved",
   "theorems": [
    "C13_outgoing_energy_round_trip",
    "C13_angle_energy_round_trip",
    "C13_energy_angle_round_trip",
    "C13_rejects_ragged_interpolation"
   ],
   "note": ""
  },
  {
   "property": "C14",
   "status": "partial",
   "theorems": [
    "C14_law_number_partial",
    "C14_law_number_refuted",
    "C14_same_kind"
   ],
   "note": "True for all kinds but law 67: AngleEnergyDistributionData reports 61 (C14_law_number_refuted)."
  },
  {
   "property": "C15",
   "status": "partial",
   "theorems": [
    "C15_secondary_particle_round_trip_partial",
    "C15_energy_block_round_trip_partial",
    "C15_round_trip_refuted",
    "C15_sizes_rejected"
   ],
   "note": "DLW with TYR, DLWH, DLWP for all sequences of valid distributions, including multi-law ones; the cases where the claim is false of the code are listed in C15_round_trip_refuted."
  },
  {
   "property": "C16",
   "status": "partial",
   "theorems": [
    "C16_frame_and_multiplicity_partial",
    "C16_sizes",
    "C16_frames_only",
    "C16_frame_lost_refuted",
    "C16_every_multiplicity"
   ],
   "note": "False for multiplicity 0 in the centre of mass frame (C16_frame_lost_refuted), proved for everything else; C16_every_multiplicity says exactly what is read for every frame and every unsigned int."
  },
  {
   "property": "C17",
   "status": "proved",
   "theorems": [
    "C17_reaction_numbers",
    "C17_index_then_MT",
    "C17_multiplicity_reaction_numbers",
    "C17_longer_view_refuted"
   ],
   "note": "Proved for all lists. C17_longer_view_refuted shows that with a view longer than the list (which the constructors accept) absent numbers are found."
  },
  {
   "property": "C18",
   "status": "proved",
   "theorems": [
    "C18_one_multiplicity",
    "C18_two_multiplicities",
    "C18_unknown_type_rejected"
   ],
   "note": "All combinations of polynomial and tabulated multiplicities, in any view starting with the words."
  },
  {
   "property": "C19",
   "status": "proved",
   "theorems": [
    "C19_probability_tables",
    "C19_different_bins_refuted",
    "C19_table_without_fission_refuted",
    "C19_ragged_table_rejected",
    "C19_empty_block",
    "C19_no_tables_refuted"
   ],
   "note": "Proved for tables with equal bin counts. Defects stated as theorems: different bin counts are accepted and corrupt the block (C19_different_bins_refuted), the constructor without fission swaps probabilities and total (C19_table_without_fission_refuted), no tables is undefined behaviour (C19_no_tables_refuted)."
  },
  {
   "property": "C20",
   "status": "proved",
   "theorems": [
    "C20_precursors",
    "C20_group_number_refuted"
   ],
   "note": "Group numbers supplied by the user are lost (C20_group_number_refuted)."
  },
  {
   "property": "C21",
   "status": "proved",
   "theorems": [
    "C21_continuous_energy_round_trip",
    "C21_continuous_energy_from_values",
    "C21_table_refuted",
    "C21_type_rejected"
   ],
   "note": "C21_continuous_energy_from_values: from the user's values through all block constructors and the table constructor back to the values; C21_continuous_energy_round_trip: the same for arbitrary block objects given by their words, with the exact NXS, JXS, XSS. C21_table_refuted shows the defects outside the domain."
  },
  {
   "property": "C22",
   "status": "proved",
   "theorems": [
    "C22_inconsistent_rejected",
    "C22_consistent_accepted",
    "C22_unchecked_sizes_refuted",
    "C22_photoatomic_rejected",
    "C22_photonuclear_rejected",
    "C22_ragged_cosines_rejected",
    "C22_thermal_energies_rejected"
   ],
   "note": "C22_inconsistent_rejected quantifies over all block objects; C22_consistent_accepted over all valid values. C22_unchecked_sizes_refuted documents sizes that are not checked by the code."
  },
  {
   "property": "C23",
   "status": "proved",
   "theorems": [
    "C23_estimate_exact",
    "C23_terminates",
    "C23_loop_ends",
    "C23_inverts_encoding",
    "C23_am242",
    "C23_state_in_millions",
    "C23_kept",
    "C23_set",
    "C23_no_number"
   ],
   "note": "The floating point estimate is proved exact for every Z up to 998; decoding is total for every 32-bit number; C23_outside shows the encoding is not inverted outside the stated mass range."
  },
  {
   "property": "C24",
   "status": "proved",
   "theorems": [
    "C24_discrete_cosines",
    "C24_inelastic_block",
    "C24_cosine_index_checked",
    "C24_cross_section_block",
    "C24_elastic_block",
    "C24_thermal_table",
    "C24_type_rejected",
    "C24_default_position_refuted",
    "C24_ragged_cosine_numbers_refuted",
    "C24_elastic_energies_refuted"
   ],
   "note": "Proved on the stated domain for every combination of optional blocks. Outside it: C24_default_position_refuted (tabulated ITXE built with the default locator base reads wrong data), C24_ragged_cosine_numbers_refuted, C24_elastic_energies_refuted."
  },
  {
   "property": "C25",
   "status": "proved",
   "theorems": [
    "C25_photoatomic_table",
    "C25_photoatomic_type_rejected",
    "C25_photoatomic_undefined_refuted",
    "C25_photonuclear_table",
    "C25_photonuclear_usual",
    "C25_photonuclear_type_rejected",
    "C25_photonuclear_apart_refuted",
    "C25_dosimetry_round_trip",
    "C25_dosimetry_count_rejected",
    "C25_dosimetry_type_rejected"
   ],
   "note": "Photoatomic, photonuclear and dosimetry tables, from the user's values through all block constructors to the table and back, with NXS, JXS and sizes. C25_*_refuted document what happens outside the stated domains."
  },
  {
   "property": "C26",
   "status": "proved",
   "theorems": [
    "C26_value_semantics",
    "C26_value_semantics_any_class",
    "C26_no_sharing_no_leaks",
    "C26_transfer_keeps_the_value",
    "C26_views_follow_the_owner",
    "C26_laws_of_the_constructors",
    "C26_blocks_of_the_constructors",
    "C26_tables_of_the_constructors",
    "C26_moved_from_refuted",
    "C26_dangling_view_refuted",
    "C26_assign_own_view_refuted"
   ],
   "note": "Proved for all programs over the class `ace` (every block class with sub-blocks, TYR inside DLW/DLWH, and the continuous-energy, thermal, photoatomic, photonuclear and dosimetry tables; C26_laws_/blocks_/tables_of_the_constructors: what it makes of a range of words is the object of the constructor of the class) and for any class that follows the same scheme. Use of moved-from objects, reading a view after its source is gone and assigning to an object a view on itself are shown to be undefined by the _refuted theorems, and are excluded by the statement."
  },
  {
   "property": "C27",
   "status": "proved",
   "theorems": [
    "C27_printed_tables_are_read_back",
    "C27_nxs1_is_the_number_of_values",
    "C27_correct_rounding_reads_numbers",
    "C27_blank_in_the_date_refuted",
    "C27_long_comments_refuted",
    "C27_identifier_like_a_version_refuted"
   ],
   "note": "For any conversion of numeric fields meeting reads_numbers (the disco library is external; the correctly rounded conversion is proved to meet it). Defects outside the domain: blank in a 2.0.1 date, comments over 80 characters, identifier 2.0.1 (the _refuted theorems)."
  },
  {
   "property": "C28",
   "status": "proved",
   "theorems": [
    "C28_printing_is_stable"
   ],
   "note": "Same domain and assumption on the number reader as C27."
  },
  {
   "property": "C29",
   "status": "proved",
   "theorems": [
    "C29_concatenated_tables_are_split",
    "C29_a_file_with_one_table"
   ],
   "note": "Same domain and assumption on the number reader as C27; file access itself is not modelled, the content of the file is."
  },
  {
   "property": "C30",
   "status": "proved",
   "theorems": [
    "C30_left_and_right_have_the_length",
    "C30_fitting_strings_are_only_padded",
    "C30_stripping_undoes_padding",
    "C30_strip_removes_only_outer_white_space",
    "C30_strip_removes_all_white_space",
    "C30_left_cuts_long_strings",
    "C30_long_strings_on_the_right_refuted",
    "C30_printing_a_long_identifier_refuted"
   ],
   "note": "C30_long_strings_on_the_right_refuted: right(s,n) is undefined behaviour for longer strings, and headers accept them."
  },
  {
   "property": "C31",
   "status": "proved",
   "theorems": [
    "C31_printed_entries_are_read_back",
    "C31_printing_is_stable",
    "C31_entries_without_newline_are_refused",
    "C31_records_without_temperature_refuted",
    "C31_thirteen_columns_refuted",
    "C31_zeros_are_lost_refuted",
    "C31_large_record_lengths_refuted"
   ],
   "note": "Defects outside the domain are theorems: record lengths without temperature cannot be read back, 13 column temperatures run into the preceding number, zeros are lost, record lengths of more than 32 bits are replaced and the rest of their line is ignored."
  },
  {
   "property": "C32",
   "status": "proved",
   "theorems": [
    "C32_printing_ends_and_keeps_the_words",
    "C32_short_entries_are_not_split",
    "C32_long_file_names_never_end_refuted",
    "C32_lines_of_more_than_100_characters_refuted"
   ],
   "note": "C32_long_file_names_never_end_refuted: for every file name of 96 or more characters print never returns; C32_lines_of_more_than_100_characters_refuted: the mark is not counted."
  },
  {
   "property": "C33",
   "status": "proved",
   "theorems": [
    "C33_entry_is_the_last_one_listed",
    "C33_entry_throws_iff_absent",
    "C33_entry_is_never_undefined",
    "C33_atomic_weight_ratio_is_the_last_given",
    "C33_lines_of_ratios_are_added_in_order"
   ],
   "note": "The loop index of indices() is 32 bits: lists of fewer than 2^32 entries."
  },
  {
   "property": "C34",
   "status": "proved",
   "theorems": [
    "C34_printed_directories_are_read_back",
    "C34_printing_is_stable",
    "C34_lookup_is_preserved",
    "C34_no_entries_refuted",
    "C34_last_entry_without_newline_refuted"
   ],
   "note": "C34_no_entries_refuted and C34_last_entry_without_newline_refuted document the defects outside the domain."
  },
  {
   "property": "C35",
   "status": "proved",
   "theorems": [
    "C35_q_values",
    "C35_principal_cross_sections",
    "C35_secondary_particle_production",
    "C35_secondary_particle_information",
    "C35_secondary_particle_locators"
   ],
   "note": ""
  },
  {
   "property": "C36",
   "status": "proved",
   "theorems": [
    "C36_principal_cross_sections",
    "C36_fluorescence",
    "C36_heating",
    "C36_incoherent_scattering_function",
    "C36_coherent_form_factor",
    "C36_form_factor_sizes",
    "C36_electron_shells",
    "C36_compton_profiles",
    "C36_subshell_cross_sections"
   ],
   "note": ""
  },
  {
   "property": "C37",
   "status": "proved",
   "theorems": [
    "C37_two_column_blocks",
    "C37_subshells",
    "C37_electron_cross_sections",
    "C37_electron_cross_sections_read",
    "C37_electron_cross_sections_sizes"
   ],
   "note": ""
  },
  {
   "property": "C38",
   "status": "proved",
   "theorems": [
    "C38_transition_data",
    "C38_transition_sizes",
    "C38_transition_block"
   ],
   "note": ""
  },
  {
   "property": "C39",
   "status": "proved",
   "theorems": [
    "C39_photonuclear_cross_sections",
    "C39_secondary_particle_locators",
    "C39_secondary_particle_sizes",
    "C39_dosimetry_cross_sections"
   ],
   "note": ""
  },
  {
   "property": "C40",
   "status": "proved",
   "theorems": [
    "C40_tables_and_spectra",
    "C40_interpolation_data",
    "C40_cross_sections_and_numbers",
    "C40_prefixed_tables",
    "C40_fission_multiplicity",
    "C40_one_distribution",
    "C40_angular_distributions",
    "C40_angular_words",
    "C40_outgoing_energy_distributions",
    "C40_equiprobable_energy_bins",
    "C40_block_with_locators",
    "C40_SIG",
    "C40_dosimetry_SIG",
    "C40_SWD",
    "C40_arrays",
    "C40_lists",
    "C40_probability_tables_refuted",
    "C40_precursors_refuted",
    "C40_electron_blocks_refuted",
    "C40_phase_space_refuted",
    "C40_Kalbach_Mann_refuted",
    "C40_fixed_words_refuted",
    "C40_no_words"
   ],
   "note": "The _refuted theorems document classes that accept cut words (UNR, BDD, electron blocks, law 66, law 44, tables behind fixed words with fewer words than these)."
  },
  {
   "property": "C41",
   "status": "proved",
   "theorems": [
    "C41_continuous_numbers",
    "C41_photoatomic_numbers",
    "C41_photonuclear_numbers",
    "C41_thermal_numbers",
    "C41_dosimetry_arrays"
   ],
   "note": ""
  },
  {
   "property": "C42",
   "status": "proved",
   "theorems": [
    "C42_thermal_cosines",
    "C42_blocks_with_locators",
    "C42_angular_distribution",
    "C42_angular_block",
    "C42_incident_energies",
    "C42_cosines",
    "C42_outgoing_energies",
    "C42_equiprobable_bins",
    "C42_multiple_distributions",
    "C42_frames",
    "C42_energy_distributions",
    "C42_secondary_energy_distributions",
    "C42_precursor_groups",
    "C42_probability_tables",
    "C42_electron_blocks",
    "C42_subshell_arrays",
    "C42_electroionisation_blocks",
    "C42_probability_refuted",
    "C42_secondary_particles_refuted"
   ],
   "note": "For objects read from any words. The two exclusions in the statement are defects of the code, stated as C42_probability_refuted and C42_secondary_particles_refuted."
  },
  {
   "property": "C43",
   "status": "proved",
   "theorems": [
    "C43_words",
    "C43_tabulated",
    "C43_cross_sections",
    "C43_angular",
    "C43_energy_laws",
    "C43_energy_blocks",
    "C43_fission_and_unresolved",
    "C43_atomic",
    "C43_thermal",
    "C43_tables"
   ],
   "note": "Over every modelled function that takes the build mode. Nothing is claimed about what Debug rejects."
  },
  {
   "property": "C44",
   "status": "proved",
   "theorems": [
    "C44_exact_tables_are_preserved",
    "C44_exact_files_are_preserved",
    "C44_tables_are_settled_after_one_reading",
    "C44_whole_numbers_are_exact",
    "C44_continuous_energy",
    "C44_thermal",
    "C44_photoatomic",
    "C44_photonuclear",
    "C44_dosimetry",
    "C44_continuous_energy_from_values",
    "C44_thermal_from_values",
    "C44_photonuclear_from_values",
    "C44_dosimetry_from_values",
    "C44_photoatomic_from_values"
   ],
   "note": ""
  },
  {
   "property": "C45",
   "status": "proved",
   "theorems": [
    "C45_cross_sections",
    "C45_photon_cross_sections",
    "C45_heating",
    "C45_tabulated_distribution",
    "C45_photon_yields",
    "C45_array_data",
    "C45_reaction_types",
    "C45_particle_locators",
    "C45_photonuclear_locators",
    "C45_discrete_cosines",
    "C45_discrete_cosines_with_probability",
    "C45_transitions",
    "C45_incoherent_scattering",
    "C45_coherent_scattering",
    "C45_columns",
    "C45_no_columns",
    "C45_tables",
    "C45_tables_behind_words",
    "C45_evaporation_spectra",
    "C45_general_evaporation_spectra",
    "C45_watt_spectra",
    "C45_fission_multiplicity",
    "C45_outgoing_energies",
    "C45_angle_energy_distributions",
    "C45_equiprobable_energy_bins",
    "C45_angular_distributions",
    "C45_block_SIG",
    "C45_block_SIGP",
    "C45_block_SIGH",
    "C45_block_SIGD",
    "C45_block_SWD",
    "C45_block_AND",
    "C45_energy_distribution",
    "C45_block_DLWH",
    "C45_block_DLW",
    "C45_two_numbers",
    "C45_negative_count_refuted",
    "C45_wrapped_size_refuted",
    "C45_fractional_count_refuted",
    "C45_data_before_the_block_refuted",
    "C45_unchecked_bins_refuted"
   ],
   "note": "Classes whose constructor verifies less than the accessors read (UNR, BDD, ELAS/EION, laws 61 and 66, Kalbach-Mann columns) are refuted in C40; the _refuted theorems here are the cases the statement excludes."
  },
  {
   "property": "C46",
   "status": "proved",
   "theorems": [
    "C46_continuous_energy_reassembled",
    "C46_continuous_energy_refuted",
    "C46_thermal_reassembled",
    "C46_dosimetry_reassembled",
    "C46_photoatomic_reassembled",
    "C46_photonuclear_reassembled"
   ],
   "note": "C46_continuous_energy_refuted is the excluded case."
  },
  {
   "property": "C47",
   "status": "proved",
   "theorems": [
    "C47_tabulated",
    "C47_values",
    "C47_locators",
    "C47_angular",
    "C47_energy_laws",
    "C47_reaction_blocks",
    "C47_dlw",
    "C47_arrays",
    "C47_multiplicities",
    "C47_atomic",
    "C47_thermal",
    "C47_neighbours_refuted"
   ],
   "note": "C47_neighbours_refuted shows why undefined accesses are excluded."
  },
  {
   "property": "C48",
   "status": "proved",
   "theorems": [
    "C48_words",
    "C48_arrays",
    "C48_accepted_arrays",
    "C48_reactions",
    "C48_particle_types",
    "C48_photon_yields",
    "C48_transitions",
    "C48_columns",
    "C48_outgoing_energies",
    "C48_angle_energy",
    "C48_cosines",
    "C48_energy_angle",
    "C48_outgoing_energy_angle",
    "C48_equiprobable_bins",
    "C48_angular",
    "C48_electron_blocks",
    "C48_probability_tables",
    "C48_energy_limits",
    "C48_accepted_outgoing_energies",
    "C48_accepted_angle_energy",
    "C48_accepted_equiprobable_bins",
    "C48_accepted_angular"
   ],
   "note": "C48_refused_index shows why in Debug one index can be refused although the array shows the value (a consequence of C03_rejects_refuted and of a fractional count)."
  },
  {
   "property": "C49",
   "status": "proved",
   "theorems": [
    "C49_energy_distributions",
    "C49_energy_distribution_words",
    "C49_agreeing_arguments_are_valid",
    "C49_interpolation",
    "C49_tabulated_functions",
    "C49_tabulated_distribution",
    "C49_principal_cross_sections",
    "C49_secondary_heating",
    "C49_probability_table",
    "C49_electron_distribution",
    "C49_atomic_blocks",
    "C49_form_factors",
    "C49_electron_cross_sections",
    "C49_transitions",
    "C49_photonuclear_blocks",
    "C49_thermal_blocks",
    "C49_frames_and_multiplicities",
    "C49_numbers_of_distributions",
    "C49_multi_law",
    "C49_unchecked_lengths_refuted"
   ],
   "note": "C49_unchecked_lengths_refuted shows the lengths that the code does not compare (frames of DLWH: read beyond the end; bins of probability tables and of law 1: accepted and returned changed)."
  },
  {
   "property": "C50",
   "status": "proved",
   "theorems": [
    "C50_cross_sections",
    "C50_photon_cross_sections",
    "C50_heating",
    "C50_tabulated_distribution",
    "C50_polynomial_multiplicity",
    "C50_photon_yields",
    "C50_columns",
    "C50_array_data",
    "C50_given_sizes",
    "C50_sizes_from_words",
    "C50_tables",
    "C50_tables_behind_words",
    "C50_evaporation_spectra",
    "C50_general_evaporation_spectra",
    "C50_watt_spectra",
    "C50_equiprobable_bins",
    "C50_block_SIG",
    "C50_block_SIGD",
    "C50_block_SWD",
    "C50_outgoing_energies",
    "C50_missing_words_refuted",
    "C50_decreasing_locators_refuted",
    "C50_photoatomic_table",
    "C50_block_AND",
    "C50_block_SIGH",
    "C50_block_SIGP",
    "C50_empty_entry_refuted",
    "C50_block_TYR",
    "C50_continuous_table",
    "C50_end_of_data_refuted",
    "C50_energy_laws",
    "C50_energy_distribution",
    "C50_block_DLWH",
    "C50_block_DLW",
    "C50_energy_distribution_header_refuted",
    "C50_N_body_words_refuted",
    "C50_block_TYR_frames",
    "C50_angular_distributions",
    "C50_Kalbach_Mann_columns_refuted",
    "C50_angle_energy_distributions",
    "C50_fission_multiplicity",
    "C50_energy_angle_locators_refuted",
    "C50_both_fission_multiplicities",
    "C50_prompt_words_refuted",
    "C50_photonuclear_table",
    "C50_block_BDD",
    "C50_precursor_words_refuted",
    "C50_array_words",
    "C50_block_UNR",
    "C50_probability_words_refuted",
    "C50_inelastic_cosines",
    "C50_inelastic_overflow_refuted",
    "C50_tabulated_inelastic_cosines",
    "C50_tabulated_cosines_refuted",
    "C50_dosimetry_table",
    "C50_table_locators_refuted",
    "C50_thermal_table",
    "C50_thermal_table_tabulated",
    "C50_column_words",
    "C50_table_words",
    "C50_component_words"
   ],
   "note": "C50_missing_words_refuted, C50_empty_entry_refuted, C50_table_locators_refuted, C50_decreasing_locators_refuted and C50_energy_angle_locators_refuted: the cases in which the code reads without a check even in Debug; C50_Kalbach_Mann_columns_refuted: law 44 asks for the words of law 4 only. C50_inelastic_overflow_refuted and C50_tabulated_cosines_refuted: inelastic cosines that are accepted although words are missing (arithmetic of the size, a negative length). C50_prompt_words_refuted: the length of the prompt multiplicity is not checked. C50_energy_distribution_header_refuted and C50_N_body_words_refuted: words of an energy distribution that are not checked. C50_end_of_data_refuted: the end of the data stated in the JXS array is not checked."
  }
 ]
}