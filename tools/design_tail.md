
## 6. Findings: where the code does not do what its interface suggests

Each is a theorem (`_refuted`, or named in brackets) about the model, i.e. a claim about the code as read.

* `Base::XSS(i, n)` in Debug accepts a range that ends one word after the block (C03).
* SIGP accepts multiplicities of MFTYPE 13 and reads them back as cross sections (C09).
* `AngleEnergyDistributionData::LAW()` is 61 instead of 67 (C14); `MultiDistributionData` lacks a `break` for law 67.
* Energy distribution blocks lose or change data for the inputs of C15_round_trip_refuted; centre-of-mass frame
  with multiplicity 0 is read back as laboratory frame (C16: the sign of 0).
* Views longer than their list of reaction numbers find numbers beyond it (C17_longer_view_refuted).
* ProbabilityTable's constructor without fission swaps arguments; different numbers of bins are accepted; no tables is undefined (C19).
* Group numbers of delayed neutron precursors are lost (C20).
* ContinuousEnergyTable: photon production data without reactions are dropped, BDD/DNED without groups are dropped, UNR without DNU runs into
  the photon data, a last block of one word is added to the block before it (C21_table_refuted); unchecked sizes (C22_unchecked_sizes_refuted);
  DLWH without reference frames ends in bad_optional_access.
* ThermalScatteringTable: default locator base of a tabulated ITXE, ragged cosines, elastic energies (C24).
* PhotoatomicTable: more ZA than atomic weight ratios are read beyond the end before the comparison; SUBSH alone dereferences an
  empty optional (C25_photoatomic_undefined_refuted).
* PhotonuclearTable: the end of the DLWH block of a particle is looked for in the IXS words that follow, so also in the type
  and the number of reactions of the next particle (C25_photonuclear_apart_refuted); vectors of secondary particle blocks that are missing or too
  short end in bad_optional_access or undefined behaviour; its assignment operators do not call setSZA.
* Header strings longer than their column are undefined behaviour on the right (C30); blanks in a 2.0.1 date, long comments and an
  identifier "2.0.1" are not read back (C27).
* Xsdir: file names of 96 characters or more never finish printing (C32); record length without temperature, 13 column temperatures,
  zeros (C31); no entries, last entry without newline (C34). Further, by reading: a comment at the end of a file without newline loops
  forever in XsdirEntry; the first line of ratios is not lower-cased, and "atomic weight ratios" only when there is a datapath line.
* UNR, BDD, the electron blocks, law 66 and law 44 accept words whose end is missing, and read past them later (C40, `_refuted`).
* HPD( index ), MTRH( index ), ... of a continuous energy or photonuclear table are documented to throw std::out_of_range in Debug but do
  not check the index (C42_secondary_particles_refuted); the probability of a law 67 distribution among several is read outside the
  vector although the index is accepted (C42_probability_refuted).
* Size checks (C45): a count of -1 or -2, a size that wraps modulo 2^32, a count such as 2.5 (verified truncated, shown rounded) and, without
  index checks, bins whose locator lies behind the block are accepted and then read outside the vector; so are the two numbers of laws 2, 3, 33 when
  IDAT points before the table.
* A continuous-energy table with UNR and photon production data but without delayed data, rebuilt from its own blocks, stores the photon production
  data twice: 320 words instead of 234 (C46_continuous_energy_refuted).
* Ownership: a moved-from block keeps an engaged optional with an empty vector and iterators into the target's buffer
  (C26_moved_from_refuted); FissionMultiplicityBlock's move constructor copies its base (src/ctor.hpp:13-14).

## 7. Tests of the theorems

`seeded/LOG.jsonl`: edits of the model of the kind a bug would make, with the theorems that then no longer prove. Each was
made in a scratch copy which was rebuilt. Where a theorem survived an edit that makes its claim false it was tightened.
