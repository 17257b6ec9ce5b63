# A Rocq model of njoy/ACEtk

Source: /repo (C++17, header only). The model is in `rocq/theories`, logical name `Verif`.
It is executable Gallina; every theorem named in MANIFEST.json is followed by `Print Assumptions` in its file.

## 1. What a theorem here means

The model is written by reading the C++ text; nothing was compiled or run. Every definition
cites the file and lines it models. The tie between model and code is that reading.

* **Doubles** are IEEE binary64 values in the standard library's `SpecFloat.spec_float`
  (53 bits, emax 1024). `static_cast<double>(n)` is the library's `binary_normalize`
  (round to nearest even). `std::round` and the cast to `int` are written out; a cast whose
  value does not fit `int` is undefined behaviour in C++ and gives outcome `UB`.
* **Outcomes.** Every C++ function that may fail returns `outcome A`:
  `Ok a`, `Throw e` (a C++ exception) or `UB` (undefined behaviour: read outside the vector,
  `back()` of an empty string, cast out of range, dereferenced empty optional, ...). A theorem
  with conclusion `... = Ok x` therefore also says that nothing undefined happens.
* **Build modes.** ACEtk compiles index checks only when `NDEBUG` is not defined. Functions take
  `bm : build` (`Debug` / `Release`), theorems quantify over it unless they are about the check.
* **Memory.** A block is a view `[beg,end)` on a buffer (the vector the iterators point into);
  a block that owns its data views its own buffer. Iterators are offsets. Reads are checked
  against the *buffer* (outside: `UB`), and in `Debug` also against the *view* as the code does.
  Size_t arithmetic is done in Z and reduced modulo 2^64 where a value is used as an index;
  `unsigned int` arithmetic in the size checks is reduced modulo 2^32. Buffers have fewer than
  2^31 words (`max_words`): locators are stored as `int` casts of doubles.
  Sharing and lifetimes are not visible in this part of the model: `Ownership.v` has a
  separate heap model for copies, moves, assignments and destruction.

## 2. Shape of the theorems

For a block class with data constructor `K(args)`, `generateXSS(args)` and accessors `acc`:

    forall bm v args, valid args -> generateXSS args = Ok xss -> has v xss ->
      make v = Ok obj /\ acc bm obj = Ok (the args)

`has v xss`: the view v, wherever it lies in whatever buffer, starts with the words xss (`content`: is exactly xss).
This covers at once the owning object and the object read from a table. The condition on the arguments and the
predicate that says what the object shows (`..._shows`, `..._claim`, `..._returns`) are small separate definitions over the
user's values; they do not mention the writer.

For tables the same is stated in three layers: for arbitrary block objects given by their words; for
blocks built by their constructors from the user's values; and rejection of blocks that do not fit together.
The specification records hold plain lists of numbers (e.g. `ceV` in CeFromValues.v, `photoV` in PhotoatomicValues.v, `puV`
in PhotonuclearValues.v).

Names: `_refuted` states that the English claim fails for given inputs (a defect of the code, proved on the model);
`_partial` is a theorem on a smaller domain than the English claim. Where a claim is false for a *reason of its
domain* (e.g. numbers that do not fit an `int`), the English statement was made precise instead.

## 3. Trusted base

* Coq 8.16.1's kernel (and `coqchk`, which re-checks every compiled file), including its `vm_compute` for the concrete examples.
* `Print Assumptions` of every theorem named in MANIFEST.json: **Closed under the global context** (no axioms).
* The library files loaded through `ZifyBool`/`ZifyNat` contain the seven opaque module fields `Coq.ssr.ssrunder.Under_rel.*`
  (`Under_rel`, `Under_rel_from_rel`, `Under_relE`, `Over_rel`, `over_rel`, `over_rel_done`, `under_rel_done`),
  which coqchk lists as library axioms. They are part of the standard library; no theorem here uses them.
* No axioms, section-less variables, functors, module types, admitted goals or disabled checks in `rocq/theories`.
* The reading of the C++ text into Gallina (sections 1 and 4), and the semantics given to the C++ standard library
  and to the external library `disco`:
  - `std::sort` is a function parameter with the contract "permutation, sorted by the comparison" (`sort_contract`,
    `eqb_sort_contract`; insertion sort is shown to meet it). It is used for inputs without NaN.
  - `disco` (fixed-width text fields, not in the repository): fields are read as columns; the conversion of a numeric field
    is a parameter `rd` with the contract `reads_numbers` (nearest double of the decimal, exact integers), met by `read_double`
    (theorem C27_correct_rounding_reads_numbers); C44 asks for correct rounding of what can be read (`reads_correctly`). Output is the concrete `printf`/`ostream` semantics (Decimal.v).
  - `std::istream` extraction, `std::getline`, `std::stoi`/`stod`, `std::string` functions: modelled concretely as text functions (Text.v, Xsdir.v).
  - `std::vector`: allocation always succeeds below 2^31 words; growth never fails. Exceptions of `new` are not modelled.

## 4. What is modelled and what is not

Modelled function by function: every class in `src/ACEtk/{base,continuous,photoatomic,electron,photonuclear,dosimetry,thermal}`, the
five table classes, `Table` with `Data`, `Header`, `Header201`, reading and printing, `fromFile`/`fromConcatenatedFile` (from the content of
the file), `Xsdir`, `XsdirEntry`. For each class: value constructors, iterator constructors, `generateXSS`, `generateBlocks`, size
verification, accessors with their Debug checks; copy, move and assignment in the ownership model.

Not modelled: file system access (`std::ifstream` in fromFile, Xsdir file constructors), the text of log messages
(`Log::info` etc.; only that the exception is thrown), the Python bindings in /repo/python, CMake, `src/legacy`, performance, threads (the
library has none), floating point *arithmetic* other than casts, comparisons, `std::round`, the estimate in setSZA and sums in ESZE.
The compile-time checks of C++ (templates, constness, access) are not part of the model.

| files | code |
|-------|------|
| Float, FloatOrder, Base | double, int casts, views, `base::Base` |
| ColumnData, TabulatedData | `base::ColumnData`, `ArrayData`, `InterpolationData`, `TabulatedData` and direct uses (laws 5, 7, 9, 11, multiplicities, precursors) |
| BlockWithLocators | `base::BlockWithLocators`, SIG, SIGP, SIGH |
| Angular, AngularBlock | angular distributions, AND/ANDP/ANDH |
| DistributionData, EnergyLaws, EnergyAngle, SimpleLaws, Remake, EnergyDist, MultiDist | distributions of all ACE laws (1, 2, 3, 4, 5, 7, 9, 11, 33, 44, 61, 66, 67, several laws) |
| FrameBlock, EnergyBlocks, DlwBlock | TYR/TYRH, DLW/DLWP/DLWH/DNED |
| ReactionNumbers, NuBlock | MTR, MTRP, MTRH, PTYPE, YP, YH, LQR, GPD, ESZ, HPD, NTRO, IXS; NU/DNU, UNR, BDD |
| ElectronBlocks, AtomicBlocks | photoatomic, electron, photonuclear, dosimetry blocks |
| TableData, SZA | `Table::Data`, `setSZA` |
| Continuous{Table,Layout,Data,Blocks,Read,Check,Values}, CeFromValues | ContinuousEnergyTable |
| ThermalBlocks, ThermalTable | ThermalScatteringTable |
| Photoatomic{Table,Read,Data,Values} | PhotoatomicTable |
| Photonuclear{Table,Read,Values} | PhotonuclearTable |
| DosimetryTable | DosimetryTable |
| Decimal{,Facts,Round,Stable,Exact}, Text{,Facts}, TableText{,Spec,Facts,Proofs} | text of tables |
| Words, Xsdir{,Spec,Facts,Proofs,DirProofs} | XsdirEntry, Xsdir |
| Ownership{,Spec,Proofs,Ace} | copies, moves, assignment, destruction |
| Truncated, CutOff{,Dist,Angular,Blocks} | truncated data are rejected |
| Indexed, Modes | counts and index checks; Debug against Release |
| Props*.v, PropLemmasBasic.v | the property theorems, examples, Print Assumptions |

## 5. Properties

How each is proved; the theorem names are in MANIFEST.json, the full English statements in properties.jsonl.

| id | status | title | how |
|----|--------|-------|-----|
| C01 | proved | Integers survive storage as XSS doubles | exactness of binary_normalize below 2^53, arithmetic |
| C02 | proved | One-based access to a block | case analysis on the index |
| C03 | partial | Subrange access to a block | list slices; refutation by example. Every in-range request is proved; the claim that Debug rejects every request leaving the block is false (C03_rejects_refuted: XSS(1,n+1)). What holds of every possible request, exactly, is C03_every_request. |
| C04 | proved | One-based access to IZ, AW, NXS, JXS and XSS of a table | case analysis; store/fetch laws |
| C05 | proved | Array data round-trips and rejects ragged input | slices of concatenations |
| C06 | proved | Column data round-trips and rejects ragged input | slices of concatenations, columns by induction |
| C07 | proved | Interpolation data round-trips | slices of concatenations |
| C08 | proved | Tabulated data round-trips wherever it is stored | slices; offsets of the parts from NR and NE |
| C09 | partial | Locator blocks return each data block unchanged | induction over the data blocks with prefix sums as locators. Proved for all locator blocks; SIGP multiplicities with MFTYPE 13 are refuted (the constructor accepts them, the reader takes them for cross sections). |
| C10 | proved | Electron locator blocks round-trip | induction over the tables with prefix sums and lengths |
| C11 | proved | Angular distribution data round-trips | case analysis on the kind; slices |
| C12 | proved | Angular distribution blocks round-trip | induction with locators, zero and -1 locators |
| C13 | proved | Energy-dependent distribution data round-trips for every locator base | induction with nested locators for any base |
| C14 | partial | The law number identifies the distribution kind | case analysis on the law. True for all kinds but law 67: AngleEnergyDistributionData reports 61 (C14_law_number_refuted). |
| C15 | partial | Energy distribution blocks round-trip | induction over the reactions with nested locator bases and rebuilt distributions. DLW with TYR, DLWH, DLWP for all sequences of valid distributions, including multi-law ones; the cases where the claim is false of the code are listed in C15_round_trip_refuted. |
| C16 | partial | Reference frame and multiplicity are recoverable | case analysis on sign and value. False for multiplicity 0 in the centre of mass frame (C16_frame_lost_refuted), proved for everything else; C16_every_multiplicity says exactly what is read for every frame and every unsigned int. |
| C17 | proved | Reaction number lookups are consistent | first-occurrence search by induction |
| C18 | proved | Fission multiplicity block round-trips | case analysis on the stored types |
| C19 | proved | Probability tables round-trip | slices of concatenations |
| C20 | proved | Precursor data round-trips | induction over the groups |
| C21 | proved | A continuous-energy table built from blocks returns those blocks | layout lemma: blocks in sequence, the search in JXS returns the start of the next block; particles by induction |
| C22 | proved | Inconsistent component blocks are rejected | case analysis on each check of generateData |
| C23 | proved | S, Z, A decoding from the ZAID | exact real arithmetic of the estimate, invariant of the correction loop |
| C24 | proved | Thermal scattering tables built from blocks return those blocks | layout lemma for all optional blocks |
| C25 | proved | Photoatomic, photonuclear and dosimetry tables built from blocks return those blocks | layout lemmas |
| C26 | proved | Copies, moves and assignments preserve the value and do not share storage | simulation between a heap program and a value program, invariant over all programs; the classes of the model make the objects of the modelled constructors |
| C27 | proved | A table written to text is read back | fields and records as columns; rounding of decimals |
| C28 | proved | Printing is stable | print-read-print is a fixed point of rounding |
| C29 | proved | Concatenated files are split into their tables | induction over the tables of the file |
| C30 | proved | Header strings: stripping and padding | list lemmas |
| C31 | proved | xsdir entries round-trip | stream extraction of the printed words |
| C32 | proved | Long xsdir entries are split in lines of bounded width without losing text | invariant of the splitting loop |
| C33 | proved | xsdir lookup by ZAID and by ZA | last-occurrence in the map built by the loop |
| C34 | proved | xsdir files round-trip | induction over entries and ratio lines |
| C35 | proved | One-piece blocks of continuous-energy tables round-trip | slices |
| C36 | proved | Photoatomic blocks round-trip | slices and locators |
| C37 | proved | Electron blocks round-trip and totals are sums | slices; sums |
| C38 | proved | Relaxation transition data round-trip | induction over subshells |
| C39 | proved | Photonuclear and dosimetry blocks round-trip | slices; rows of twelve |
| C40 | proved | Cut-off data are rejected in Debug | case split on the first word that is missing; induction over entries |
| C41 | proved | The numbers and locators of a table describe its data | prefix sums of block sizes |
| C42 | proved | Blocks have as many entries as they report and every index is checked | length of what the reading loops build; case analysis on the index |
| C43 | proved | Debug only adds checks | one monotonicity lemma per function that depends on the build mode (Modes.v), by congruence; relational version for elements written with a locator |
| C44 | proved | Tables with no more digits than the file format keeps are read back exactly | a number of p+1 digits with p <= 14 is the unique decimal of that length near the double nearest to it, so printing recovers its digits (DecimalExact.v); then congruence through the text round trip of C27; typed tables: the constructors keep the data (setSZA is idempotent) |
| C45 | proved | What a constructor accepts can be read | inversion of the constructor: each word it read and each size it verified, then bounds of the ranges the accessors read; for entries, the left end of an entry was read when it was made and the right end is the left end of another (Accepted.v) |
| C46 | proved | A table's own blocks make the same table again | the round trip theorems of the tables (C21, C24, C25) for stronger claims: each returned block also has exactly the words that were written; with these the returned blocks meet the hypotheses on the constructor's arguments, with the same words and counts, so the same arrays are generated (Reassemble*.v) |
| C47 | proved | A block reads the same wherever it stands | a function that moves a range, and every object made of ranges, into a larger vector; one lemma per constructor and accessor says that its outcome on the moved object is the moved outcome unless undefined (Moved.v, by the structure of the definitions and induction on the loops; the loop of MultiDistributionData needs that more fuel changes nothing); the theorems list the accessors of every class |
| C48 | proved | The accessors of an object agree with each other | both accessors come down to the same position of the vector (modular arithmetic on the indices, for every count a word can hold); the entries of the loops by induction; combined with C45 where the constructor has verified the size |
| C49 | proved | Arrays of different lengths are rejected | agreement and size of the arguments as independent predicates on the constructor arguments (Lengths.v), by cases on the law; lists of components by induction: either all are accepted or the first bad one throws |
| C50 | proved | A constructor accepts exactly the ranges that are long enough | the words that hold counts are described by a predicate on the range alone (states); then the constructor is evaluated: either each read and each size check succeeds, or the first one that needs a missing word throws (Decide.v, DecideMore.v, DecideBlocks.v, DecideThermal.v, DecideEnergy.v); entries of blocks by induction on the loops; tables by composing the decisions of their blocks (PropsDecideTables.v, PropsDecideThermal.v, PropsDecideAtomic.v, PropsDecideContinuous.v, PropsDecidePhotonuclear.v); probability tables and precursor groups by induction on the loops over them (PropsDecideProbability.v, PropsDecidePrecursors.v); the frames of TYR from the sign of a word (PropsDecideFrames.v); the words that columns and tables show from the range they read (PropsDecideWords.v) |

## 6. Findings: where the code does not do what its interface suggests

Each is a theorem (`_refuted`, or named in brackets) about the model, i.e. a claim about the code as read.

* `Base::XSS(i, n)` in Debug accepts a range that ends one word after the block (C03).
* SIGP accepts multiplicities of MFTYPE 13 and reads them back as cross sections (C09).
* `AngleEnergyDistributionData::LAW()` is 61 instead of 67 (C14); `MultiDistributionData` lacks a `break` for law 67.
* Energy distribution blocks lose or change data for the inputs of C15_round_trip_refuted; centre-of-mass frame
  with multiplicity 0 is read back as laboratory frame (C16: the sign of 0).
* Views longer than their list of reaction numbers find numbers beyond it (C17_longer_view_refuted).
* ProbabilityTable's constructor without fission swaps arguments; different numbers of bins are accepted; no tables is undefined (C19).
* Group numbers of delayed neutron precursors are lost (C20).
* ContinuousEnergyTable: photon production data without reactions are dropped, BDD/DNED without groups are dropped, UNR without DNU runs into
  the photon data, a last block of one word is added to the block before it (C21_table_refuted); unchecked sizes (C22_unchecked_sizes_refuted);
  DLWH without reference frames ends in bad_optional_access.
* ThermalScatteringTable: default locator base of a tabulated ITXE, ragged cosines, elastic energies (C24).
* PhotoatomicTable: more ZA than atomic weight ratios are read beyond the end before the comparison; SUBSH alone dereferences an
  empty optional (C25_photoatomic_undefined_refuted).
* PhotonuclearTable: the end of the DLWH block of a particle is looked for in the IXS words that follow, so also in the type
  and the number of reactions of the next particle (C25_photonuclear_apart_refuted); vectors of secondary particle blocks that are missing or too
  short end in bad_optional_access or undefined behaviour; its assignment operators do not call setSZA.
* Header strings longer than their column are undefined behaviour on the right (C30); blanks in a 2.0.1 date, long comments and an
  identifier "2.0.1" are not read back (C27).
* Xsdir: file names of 96 characters or more never finish printing (C32); record length without temperature, 13 column temperatures,
  zeros (C31); no entries, last entry without newline (C34). Further, by reading: a comment at the end of a file without newline loops
  forever in XsdirEntry; the first line of ratios is not lower-cased, and "atomic weight ratios" only when there is a datapath line.
* UNR, BDD, the electron blocks, law 66 and law 44 accept words whose end is missing, and read past them later (C40, `_refuted`).
* HPD( index ), MTRH( index ), ... of a continuous energy or photonuclear table are documented to throw std::out_of_range in Debug but do
  not check the index (C42_secondary_particles_refuted); the probability of a law 67 distribution among several is read outside the
  vector although the index is accepted (C42_probability_refuted).
* Size checks (C45): a count of -1 or -2, a size that wraps modulo 2^32, a count such as 2.5 (verified truncated, shown rounded) and, without
  index checks, bins whose locator lies behind the block are accepted and then read outside the vector; so are the two numbers of laws 2, 3, 33 when
  IDAT points before the table.
* A continuous-energy table with UNR and photon production data but without delayed data, rebuilt from its own blocks, stores the photon production
  data twice: 320 words instead of 234 (C46_continuous_energy_refuted).
* Ownership: a moved-from block keeps an engaged optional with an empty vector and iterators into the target's buffer
  (C26_moved_from_refuted); FissionMultiplicityBlock's move constructor copies its base (src/ctor.hpp:13-14).

## 7. Tests of the theorems

`seeded/LOG.jsonl`: edits of the model of the kind a bug would make, with the theorems that then no longer prove. Each was
made in a scratch copy which was rebuilt. Where a theorem survived an edit that makes its claim false it was tightened.
