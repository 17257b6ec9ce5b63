{
 "C03": {
  "status": "partial",
  "note": "Every in-range request is proved; the claim that Debug rejects every request leaving the block is false (C03_rejects_refuted: XSS(1,n+1)). What holds of every possible request, exactly, is C03_every_request."
 },
 "C09": {
  "status": "partial",
  "note": "Proved for all locator blocks; SIGP multiplicities with MFTYPE 13 are refuted (the constructor accepts them, the reader takes them for cross sections)."
 },
 "C14": {
  "status": "partial",
  "note": "True for all kinds but law 67: AngleEnergyDistributionData reports 61 (C14_law_number_refuted)."
 },
 "C15": {
  "status": "partial",
  "note": "DLW with TYR, DLWH, DLWP for all sequences of valid distributions, including multi-law ones; the cases where the claim is false of the code are listed in C15_round_trip_refuted."
 },
 "C16": {
  "status": "partial",
  "note": "False for multiplicity 0 in the centre of mass frame (C16_frame_lost_refuted), proved for everything else; C16_every_multiplicity says exactly what is read for every frame and every unsigned int."
 },
 "C17": {
  "status": "proved",
  "note": "Proved for all lists. C17_longer_view_refuted shows that with a view longer than the list (which the constructors accept) absent numbers are found."
 },
 "C18": {
  "note": "All combinations of polynomial and tabulated multiplicities, in any view starting with the words."
 },
 "C19": {
  "status": "proved",
  "note": "Proved for tables with equal bin counts. Defects stated as theorems: different bin counts are accepted and corrupt the block (C19_different_bins_refuted), the constructor without fission swaps probabilities and total (C19_table_without_fission_refuted), no tables is undefined behaviour (C19_no_tables_refuted)."
 },
 "C20": {
  "status": "proved",
  "note": "Group numbers supplied by the user are lost (C20_group_number_refuted)."
 },
 "C10": {
  "status": "proved",
  "note": "C10_lengths_refuted documents the protected, not re-exported lengths() accessor of the base."
 },
 "C25": {
  "status": "proved",
  "note": "Photoatomic, photonuclear and dosimetry tables, from the user's values through all block constructors to the table and back, with NXS, JXS and sizes. C25_*_refuted document what happens outside the stated domains."
 },
 "C23": {
  "status": "proved",
  "note": "The floating point estimate is proved exact for every Z up to 998; decoding is total for every 32-bit number; C23_outside shows the encoding is not inverted outside the stated mass range."
 },
 "C21": {
  "status": "proved",
  "note": "C21_continuous_energy_from_values: from the user's values through all block constructors and the table constructor back to the values; C21_continuous_energy_round_trip: the same for arbitrary block objects given by their words, with the exact NXS, JXS, XSS. C21_table_refuted shows the defects outside the domain."
 },
 "C22": {
  "status": "proved",
  "note": "C22_inconsistent_rejected quantifies over all block objects; C22_consistent_accepted over all valid values. C22_unchecked_sizes_refuted documents sizes that are not checked by the code."
 },
 "C24": {
  "status": "proved",
  "note": "Proved on the stated domain for every combination of optional blocks. Outside it: C24_default_position_refuted (tabulated ITXE built with the default locator base reads wrong data), C24_ragged_cosine_numbers_refuted, C24_elastic_energies_refuted."
 },
 "C27": {
  "status": "proved",
  "note": "For any conversion of numeric fields meeting reads_numbers (the disco library is external; the correctly rounded conversion is proved to meet it). Defects outside the domain: blank in a 2.0.1 date, comments over 80 characters, identifier 2.0.1 (the _refuted theorems)."
 },
 "C28": {
  "status": "proved",
  "note": "Same domain and assumption on the number reader as C27."
 },
 "C29": {
  "status": "proved",
  "note": "Same domain and assumption on the number reader as C27; file access itself is not modelled, the content of the file is."
 },
 "C30": {
  "status": "proved",
  "note": "C30_long_strings_on_the_right_refuted: right(s,n) is undefined behaviour for longer strings, and headers accept them."
 },
 "C31": {
  "status": "proved",
  "note": "Defects outside the domain are theorems: record lengths without temperature cannot be read back, 13 column temperatures run into the preceding number, zeros are lost, record lengths of more than 32 bits are replaced and the rest of their line is ignored."
 },
 "C32": {
  "status": "proved",
  "note": "C32_long_file_names_never_end_refuted: for every file name of 96 or more characters print never returns; C32_lines_of_more_than_100_characters_refuted: the mark is not counted."
 },
 "C33": {
  "status": "proved",
  "note": "The loop index of indices() is 32 bits: lists of fewer than 2^32 entries."
 },
 "C34": {
  "status": "proved",
  "note": "C34_no_entries_refuted and C34_last_entry_without_newline_refuted document the defects outside the domain."
 },
 "C26": {
  "status": "proved",
  "note": "Proved for all programs over the class `ace` (every block class with sub-blocks, TYR inside DLW/DLWH, and the continuous-energy, thermal, photoatomic, photonuclear and dosimetry tables; C26_laws_/blocks_/tables_of_the_constructors: what it makes of a range of words is the object of the constructor of the class) and for any class that follows the same scheme. Use of moved-from objects, reading a view after its source is gone and assigning to an object a view on itself are shown to be undefined by the _refuted theorems, and are excluded by the statement."
 },
 "C40": {
  "status": "proved",
  "note": "The _refuted theorems document classes that accept cut words (UNR, BDD, electron blocks, law 66, law 44, tables behind fixed words with fewer words than these)."
 },
 "C42": {
  "status": "proved",
  "note": "For objects read from any words. The two exclusions in the statement are defects of the code, stated as C42_probability_refuted and C42_secondary_particles_refuted."
 },
 "C43": {
  "status": "proved",
  "note": "Over every modelled function that takes the build mode. Nothing is claimed about what Debug rejects."
 },
 "C45": {
  "status": "proved",
  "note": "Classes whose constructor verifies less than the accessors read (UNR, BDD, ELAS/EION, laws 61 and 66, Kalbach-Mann columns) are refuted in C40; the _refuted theorems here are the cases the statement excludes."
 },
 "C46": {
  "status": "proved",
  "note": "C46_continuous_energy_refuted is the excluded case."
 },
 "C47": {
  "status": "proved",
  "note": "C47_neighbours_refuted shows why undefined accesses are excluded."
 },
 "C48": {
  "status": "proved",
  "note": "C48_refused_index shows why in Debug one index can be refused although the array shows the value (a consequence of C03_rejects_refuted and of a fractional count)."
 },
 "C49": {
  "status": "proved",
  "note": "C49_unchecked_lengths_refuted shows the lengths that the code does not compare (frames of DLWH: read beyond the end; bins of probability tables and of law 1: accepted and returned changed)."
 },
 "C50": {
  "status": "proved",
  "note": "C50_missing_words_refuted, C50_empty_entry_refuted, C50_table_locators_refuted, C50_decreasing_locators_refuted and C50_energy_angle_locators_refuted: the cases in which the code reads without a check even in Debug; C50_Kalbach_Mann_columns_refuted: law 44 asks for the words of law 4 only. C50_inelastic_overflow_refuted and C50_tabulated_cosines_refuted: inelastic cosines that are accepted although words are missing (arithmetic of the size, a negative length). C50_prompt_words_refuted: the length of the prompt multiplicity is not checked. C50_energy_distribution_header_refuted and C50_N_body_words_refuted: words of an energy distribution that are not checked. C50_end_of_data_refuted: the end of the data stated in the JXS array is not checked."
 }
}