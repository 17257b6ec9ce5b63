# A Rocq model of njoy/ACEtk

Source: /repo (C++17, header only). The model is in `rocq/theories`, logical name `Verif`.
It is executable Gallina; every theorem named in MANIFEST.json is followed by `Print Assumptions` in its file.

## 1. What a theorem here means

The model is written by reading the C++ text; nothing was compiled or run. Every definition
cites the file and lines it models. The tie between model and code is that reading.

* **Doubles** are IEEE binary64 values in the standard library's `SpecFloat.spec_float`
  (53 bits, emax 1024). `static_cast<double>(n)` is the library's `binary_normalize`
  (round to nearest even). `std::round` and the cast to `int` are written out; a cast whose
  value does not fit `int` is undefined behaviour in C++ and gives outcome `UB`.
* **Outcomes.** Every C++ function that may fail returns `outcome A`:
  `Ok a`, `Throw e` (a C++ exception) or `UB` (undefined behaviour: read outside the vector,
  `back()` of an empty string, cast out of range, dereferenced empty optional, ...). A theorem
  with conclusion `... = Ok x` therefore also says that nothing undefined happens.
* **Build modes.** ACEtk compiles index checks only when `NDEBUG` is not defined. Functions take
  `bm : build` (`Debug` / `Release`), theorems quantify over it unless they are about the check.
* **Memory.** A block is a view `[beg,end)` on a buffer (the vector the iterators point into);
  a block that owns its data views its own buffer. Iterators are offsets. Reads are checked
  against the *buffer* (outside: `UB`), and in `Debug` also against the *view* as the code does.
  Size_t arithmetic is done in Z and reduced modulo 2^64 where a value is used as an index;
  `unsigned int` arithmetic in the size checks is reduced modulo 2^32. Buffers have fewer than
  2^31 words (`max_words`): locators are stored as `int` casts of doubles.
  Sharing and lifetimes are not visible in this part of the model: `Ownership.v` has a
  separate heap model for copies, moves, assignments and destruction.

## 2. Shape of the theorems

For a block class with data constructor `K(args)`, `generateXSS(args)` and accessors `acc`:

    forall bm v args, valid args -> generateXSS args = Ok xss -> has v xss ->
      make v = Ok obj /\ acc bm obj = Ok (the args)

`has v xss`: the view v, wherever it lies in whatever buffer, starts with the words xss (`content`: is exactly xss).
This covers at once the owning object and the object read from a table. The condition on the arguments and the
predicate that says what the object shows (`..._shows`, `..._claim`, `..._returns`) are small separate definitions over the
user's values; they do not mention the writer.

For tables the same is stated in three layers: for arbitrary block objects given by their words; for
blocks built by their constructors from the user's values; and rejection of blocks that do not fit together.
The specification records hold plain lists of numbers (e.g. `ceV` in CeFromValues.v, `photoV` in PhotoatomicValues.v, `puV`
in PhotonuclearValues.v).

Names: `_refuted` states that the English claim fails for given inputs (a defect of the code, proved on the model);
`_partial` is a theorem on a smaller domain than the English claim. Where a claim is false for a *reason of its
domain* (e.g. numbers that do not fit an `int`), the English statement was made precise instead.

## 3. Trusted base

* Coq 8.16.1's kernel (and `coqchk`, which re-checks every compiled file), including its `vm_compute` for the concrete examples.
* `Print Assumptions` of every theorem named in MANIFEST.json: **Closed under the global context** (no axioms).
* The library files loaded through `ZifyBool`/`ZifyNat` contain the seven opaque module fields `Coq.ssr.ssrunder.Under_rel.*`
  (`Under_rel`, `Under_rel_from_rel`, `Under_relE`, `Over_rel`, `over_rel`, `over_rel_done`, `under_rel_done`),
  which coqchk lists as library axioms. They are part of the standard library; no theorem here uses them.
* No axioms, section-less variables, functors, module types, admitted goals or disabled checks in `rocq/theories`.
* The reading of the C++ text into Gallina (sections 1 and 4), and the semantics given to the C++ standard library
  and to the external library `disco`:
  - `std::sort` is a function parameter with the contract "permutation, sorted by the comparison" (`sort_contract`,
    `eqb_sort_contract`; insertion sort is shown to meet it). It is used for inputs without NaN.
  - `disco` (fixed-width text fields, not in the repository): fields are read as columns; the conversion of a numeric field
    is a parameter `rd` with the contract `reads_numbers` (nearest double of the decimal, exact integers), met by `read_double`
    (theorem C27_correct_rounding_reads_numbers); C44 asks for correct rounding of what can be read (`reads_correctly`). Output is the concrete `printf`/`ostream` semantics (Decimal.v).
  - `std::istream` extraction, `std::getline`, `std::stoi`/`stod`, `std::string` functions: modelled concretely as text functions (Text.v, Xsdir.v).
  - `std::vector`: allocation always succeeds below 2^31 words; growth never fails. Exceptions of `new` are not modelled.

## 4. What is modelled and what is not

Modelled function by function: every class in `src/ACEtk/{base,continuous,photoatomic,electron,photonuclear,dosimetry,thermal}`, the
five table classes, `Table` with `Data`, `Header`, `Header201`, reading and printing, `fromFile`/`fromConcatenatedFile` (from the content of
the file), `Xsdir`, `XsdirEntry`. For each class: value constructors, iterator constructors, `generateXSS`, `generateBlocks`, size
verification, accessors with their Debug checks; copy, move and assignment in the ownership model.

Not modelled: file system access (`std::ifstream` in fromFile, Xsdir file constructors), the text of log messages
(`Log::info` etc.; only that the exception is thrown), the Python bindings in /repo/python, CMake, `src/legacy`, performance, threads (the
library has none), floating point *arithmetic* other than casts, comparisons, `std::round`, the estimate in setSZA and sums in ESZE.
The compile-time checks of C++ (templates, constness, access) are not part of the model.

| files | code |
|-------|------|
| Float, FloatOrder, Base | double, int casts, views, `base::Base` |
| ColumnData, TabulatedData | `base::ColumnData`, `ArrayData`, `InterpolationData`, `TabulatedData` and direct uses (laws 5, 7, 9, 11, multiplicities, precursors) |
| BlockWithLocators | `base::BlockWithLocators`, SIG, SIGP, SIGH |
| Angular, AngularBlock | angular distributions, AND/ANDP/ANDH |
| DistributionData, EnergyLaws, EnergyAngle, SimpleLaws, Remake, EnergyDist, MultiDist | distributions of all ACE laws (1, 2, 3, 4, 5, 7, 9, 11, 33, 44, 61, 66, 67, several laws) |
| FrameBlock, EnergyBlocks, DlwBlock | TYR/TYRH, DLW/DLWP/DLWH/DNED |
| ReactionNumbers, NuBlock | MTR, MTRP, MTRH, PTYPE, YP, YH, LQR, GPD, ESZ, HPD, NTRO, IXS; NU/DNU, UNR, BDD |
| ElectronBlocks, AtomicBlocks | photoatomic, electron, photonuclear, dosimetry blocks |
| TableData, SZA | `Table::Data`, `setSZA` |
| Continuous{Table,Layout,Data,Blocks,Read,Check,Values}, CeFromValues | ContinuousEnergyTable |
| ThermalBlocks, ThermalTable | ThermalScatteringTable |
| Photoatomic{Table,Read,Data,Values} | PhotoatomicTable |
| Photonuclear{Table,Read,Values} | PhotonuclearTable |
| DosimetryTable | DosimetryTable |
| Decimal{,Facts,Round,Stable,Exact}, Text{,Facts}, TableText{,Spec,Facts,Proofs} | text of tables |
| Words, Xsdir{,Spec,Facts,Proofs,DirProofs} | XsdirEntry, Xsdir |
| Ownership{,Spec,Proofs,Ace} | copies, moves, assignment, destruction |
| Truncated, CutOff{,Dist,Angular,Blocks} | truncated data are rejected |
| Indexed, Modes | counts and index checks; Debug against Release |
| Props*.v, PropLemmasBasic.v | the property theorems, examples, Print Assumptions |

## 5. Properties

How each is proved; the theorem names are in MANIFEST.json, the full English statements in properties.jsonl.

| id | status | title | how |
|----|--------|-------|-----|
