{"id": "C01", "title": "Integers survive storage as XSS doubles", "statement": "Every integer n with |n| < 2^31 that is stored in an XSS array as a double (counts, locators, MT numbers, interpolation codes) is read back by IXSS(i) as exactly n.", "quantifier": "all integers in the int range", "why_tests_cant": "the property ranges over 2^32 values and over round-to-nearest behaviour of the conversion", "anchors": ["src/ACEtk/base/Base.hpp:IXSS", "src/ACEtk/Table/Data.hpp:IXSS"]}
{"id": "C02", "title": "One-based access to a block", "statement": "For a block holding n values, XSS(i) returns the i-th value for every 1<=i<=n; in a Debug build every other i throws out_of_range and nothing outside the block is read; whenever the Debug build returns a value the Release build returns the same one.", "quantifier": "all block contents, all positions of the block in the XSS array, all size_t indices, both build modes", "why_tests_cant": "indices range over 2^64 values and the contents and placement are arbitrary", "anchors": ["src/ACEtk/base/Base.hpp:XSS", "src/ACEtk/base/Base/src/verifyIndex.hpp:verifyIndex"]}
{"id": "C03", "title": "Subrange access to a block", "statement": "XSS(i,n) yields exactly the n values starting at position i whenever 1<=i and i+n-1 <= length; a Debug build should reject every request that leaves the block.", "quantifier": "all block contents, indices and lengths, both build modes", "why_tests_cant": "off-by-one requests at the end of a block only show up for particular sizes", "anchors": ["src/ACEtk/base/Base.hpp:XSS(index,length)", "src/ACEtk/base/Base.hpp:iterator"]}
{"id": "C04", "title": "One-based access to IZ, AW, NXS, JXS and XSS of a table", "statement": "Data::IZ/AW/NXS/JXS/XSS(i) return the i-th element exactly when 1<=i<=size; in Debug every other index throws out_of_range; writing through the returned reference changes that element and no other.", "quantifier": "all arrays, all size_t indices, all written values", "why_tests_cant": "indices and array contents are unbounded", "anchors": ["src/ACEtk/Table/Data.hpp", "src/ACEtk/Table/Data/src/fetch.hpp:fetch", "src/ACEtk/Table/Data/src/XSS.hpp"]}
{"id": "C05", "title": "Array data round-trips and rejects ragged input", "statement": "ArrayData built from m arrays of n values returns the same m, n, arrays and individual values; arrays of different sizes are always rejected with an exception.", "quantifier": "all numbers of arrays, all lengths, all values", "why_tests_cant": "sizes and contents are unbounded", "anchors": ["src/ACEtk/base/ArrayData.hpp", "src/ACEtk/base/ArrayData/src/generateXSS.hpp:generateXSS"]}
{"id": "C06", "title": "Column data round-trips and rejects ragged input", "statement": "ColumnData built from nc columns of ne values returns ne and the same columns and values; columns of different lengths are always rejected.", "quantifier": "all numbers of columns, all lengths, all values", "why_tests_cant": "sizes and contents are unbounded", "anchors": ["src/ACEtk/base/ColumnData.hpp", "src/ACEtk/base/ColumnData/src/generateXSS.hpp:generateXSS"]}
{"id": "C07", "title": "Interpolation data round-trips", "statement": "InterpolationData built from boundaries and interpolants of equal size returns the same NB, NBT and INT; different sizes are rejected.", "quantifier": "all lists of boundaries and interpolants in the int range", "why_tests_cant": "lists are unbounded", "anchors": ["src/ACEtk/continuous/InterpolationData.hpp", "src/ACEtk/continuous/InterpolationData/src/generateXSS.hpp"]}
{"id": "C08", "title": "Tabulated data round-trips wherever it is stored", "statement": "Tabulated functions (TabulatedData, tabulated multiplicities, evaporation/Maxwellian spectra, precursor data) built from boundaries, interpolants, x and y return exactly those, whether the object owns its data or views a larger XSS array.", "quantifier": "all sizes and values, all surrounding XSS data, both build modes", "why_tests_cant": "depends on arbitrary sizes and on what follows the block in the XSS array", "anchors": ["src/ACEtk/base/TabulatedData.hpp", "src/ACEtk/base/TabulatedData/src/generateBlocks.hpp", "src/ACEtk/base/EvaporationSpectrum.hpp"]}
{"id": "C09", "title": "Locator blocks return each data block unchanged", "statement": "A block with locators (SIG, SIGP, SIGH, ...) built from n data blocks returns n and, for each index, a data block with exactly the k-th supplied XSS content; the locators are relative to the end of the locator list; the data survive relocation into any XSS array.", "quantifier": "all numbers of data blocks, all lengths and contents, both locator conventions", "why_tests_cant": "off-by-one locator errors depend on the sequence of lengths", "anchors": ["src/ACEtk/base/BlockWithLocators.hpp", "src/ACEtk/base/BlockWithLocators/src/generateXSS.hpp", "src/ACEtk/base/BlockWithLocators/src/generateBlocks.hpp"]}
{"id": "C10", "title": "Electron locator blocks round-trip", "statement": "An electron block with locators (elastic angular ELAS, energy distribution BREME/EION) built from n tables, or read from words that start with its layout, returns N, the list of incident energies and, for each index, the same energy, length, locator and data; in Debug every index outside 1..n throws; tables with arrays of different length are rejected. (The protected base accessor lengths(), which the public classes do not re-export, is excluded: it returns the energies.)", "quantifier": "all numbers of tables, all lengths, all values", "why_tests_cant": "unbounded sizes", "anchors": ["src/ACEtk/base/ElectronBlockWithLocators.hpp"]}
{"id": "C11", "title": "Angular distribution data round-trips", "statement": "AngularDistributionData built from any mixture of isotropic, equiprobable and tabulated distributions returns, in order of incident energy, distributions of the same kind, energy and data.", "quantifier": "all lists of distributions and all locator bases", "why_tests_cant": "kind is encoded in the sign of a locator that depends on all preceding lengths", "anchors": ["src/ACEtk/continuous/AngularDistributionData.hpp", "src/ACEtk/continuous/AngularDistributionData/src/generateXSS.hpp", "src/ACEtk/continuous/AngularDistributionData/src/generateBlocks.hpp"]}
{"id": "C12", "title": "Angular distribution blocks round-trip", "statement": "AND/ANDP/ANDH blocks built from any sequence of fully isotropic, given-elsewhere and explicit distributions return for each reaction index the same alternative with the same data, with index 0 for elastic in AND.", "quantifier": "all sequences of alternatives and contents", "why_tests_cant": "the end of each distribution is found by searching the following locators", "anchors": ["src/ACEtk/base/AngularDistributionBlock.hpp", "src/ACEtk/base/AngularDistributionBlock/src/generateXSS.hpp", "src/ACEtk/base/AngularDistributionBlock/src/generateBlocks.hpp"]}
{"id": "C13", "title": "Energy-dependent distribution data round-trips for every locator base", "statement": "Distribution data indexed by incident energy (outgoing energy, Kalbach-Mann, energy-angle, angle-energy, ...) built from n distributions with locator base locb returns the same values and distributions, and relativeDistributionLocator(i) points to the i-th distribution.", "quantifier": "all numbers and lengths of distributions, all locb", "why_tests_cant": "nested relative locators depend on all sizes", "anchors": ["src/ACEtk/base/DistributionData.hpp", "src/ACEtk/base/DistributionData/src/generateXSS.hpp", "src/ACEtk/base/DistributionData/src/generateBlocks.hpp", "src/ACEtk/base/DistributionDataWithInterpolationType.hpp"]}
{"id": "C14", "title": "The law number identifies the distribution kind", "statement": "For every energy distribution class the LAW reported by the object is the ACE law the class represents, so that an energy distribution block written with it is read back as the same kind.", "quantifier": "all energy distribution kinds and contents", "why_tests_cant": "a wrong law number is only visible after re-reading a written block", "anchors": ["src/ACEtk/EnergyDistributionType.hpp", "src/ACEtk/continuous/AngleEnergyDistributionData.hpp:LAW", "src/ACEtk/continuous/EnergyDistributionBlock/src/generateXSS.hpp"]}
{"id": "C15", "title": "Energy distribution blocks round-trip", "statement": "DLW/DLWP/DNED blocks built from any sequence of energy distributions return, for each reaction, the same distribution (kind, energies, data) when read back.", "quantifier": "all sequences of distributions", "why_tests_cant": "locators nest three levels deep", "anchors": ["src/ACEtk/continuous/EnergyDistributionBlock.hpp", "src/ACEtk/continuous/EnergyDistributionBlock/src/generateXSS.hpp", "src/ACEtk/continuous/EnergyDistributionBlock/src/generateBlocks.hpp"]}
{"id": "C16", "title": "Reference frame and multiplicity are recoverable", "statement": "TYR built from reference frames and multiplicities returns for every reaction the same frame and multiplicity.", "quantifier": "all frames and multiplicities", "why_tests_cant": "encoded in sign and magnitude of one value with special cases", "anchors": ["src/ACEtk/continuous/FrameAndMultiplicityBlock.hpp", "src/ACEtk/continuous/FrameAndMultiplicityBlock/src/generateXSS.hpp"]}
{"id": "C17", "title": "Reaction number lookups are consistent", "statement": "MTR/MTRP/MTRH/PTYPE and YP/YH: a block built from a list of numbers, or read from words that are exactly that list, reports the list; hasReactionNumber(mt) is true exactly if mt occurs, index(mt) is the first position where it occurs and MT(index(mt)) = mt; index of an absent number throws.", "quantifier": "all lists of reaction numbers, all requested numbers", "why_tests_cant": "unbounded lists", "anchors": ["src/ACEtk/continuous/ReactionNumberBlock.hpp"]}
{"id": "C18", "title": "Fission multiplicity block round-trips", "statement": "NU built from one or two multiplicities (polynomial or tabulated) returns the same multiplicities in the prompt/total roles and reports correctly whether two are present.", "quantifier": "all polynomial and tabulated multiplicities", "why_tests_cant": "the layout depends on the sign of a length word", "anchors": ["src/ACEtk/continuous/FissionMultiplicityBlock.hpp", "src/ACEtk/continuous/FissionMultiplicityBlock/src/generateXSS.hpp", "src/ACEtk/continuous/FissionMultiplicityBlock/src/generateBlocks.hpp"]}
{"id": "C19", "title": "Probability tables round-trip", "statement": "UNR built from one or more probability tables with the same number of bins, and read back from its words, returns the same flags, incident energies and tables; arrays of different length within a table are rejected.", "quantifier": "all numbers of energies and bins", "why_tests_cant": "unbounded sizes", "anchors": ["src/ACEtk/continuous/ProbabilityTableBlock.hpp", "src/ACEtk/continuous/ProbabilityTable.hpp"]}
{"id": "C20", "title": "Precursor data round-trips", "statement": "BDD built from precursor groups, and read back from its words, returns for each group the same decay constant and tabulated probabilities; groups are numbered by position.", "quantifier": "all numbers of groups and sizes", "why_tests_cant": "group boundaries are recomputed from counts stored in preceding data", "anchors": ["src/ACEtk/continuous/DelayedNeutronPrecursorBlock.hpp", "src/ACEtk/continuous/DelayedNeutronPrecursorData.hpp"]}
{"id": "C21", "title": "A continuous-energy table built from blocks returns those blocks", "statement": "A ContinuousEnergyTable constructed from component blocks exposes, for each block supplied, a block that returns the data it was built from, and no block that was not supplied; NXS, JXS and XSS describe the layout. This holds for every combination of optional blocks in which photon production data have at least one reaction and yield reaction number, delayed neutron data at least one precursor group, and the last conventional block is not a single word. (Outside this domain blocks are lost or get words of the next block: theorem C21_table_refuted.)", "quantifier": "all combinations of optional blocks, all sizes and contents", "why_tests_cant": "block boundaries are inferred by searching JXS, which depends on which optional blocks exist", "anchors": ["src/ACEtk/ContinuousEnergyTable/src/generateData.hpp", "src/ACEtk/ContinuousEnergyTable/src/generateBlocks.hpp:block"]}
{"id": "C22", "title": "Inconsistent component blocks are rejected", "statement": "ContinuousEnergyTable construction throws whenever the number of reactions differ between MTR/LQR/SIG or AND/DLW, when DLW has more reactions than MTR, when fission is present without NU, when only part of the photon production, delayed neutron or secondary particle blocks are given, when MTRP/ANDP/DLWP or BDD/DNED have different numbers of reactions or groups, when DNU is not a single tabulated multiplicity, or when the numbers of per-particle blocks differ; and blocks whose data are valid and consistent are accepted. PhotonuclearTable construction throws when the numbers of reactions in MTR, LQR and SIG differ. (The sizes of SIGP, GPD and of the blocks of one secondary particle are not checked: theorem C22_unchecked_sizes_refuted.)", "quantifier": "all combinations of blocks and counts", "why_tests_cant": "combinatorial number of optional-block subsets and sizes", "anchors": ["src/ACEtk/ContinuousEnergyTable/src/generateData.hpp"]}
{"id": "C23", "title": "S, Z, A decoding from the ZAID", "statement": "When NXS(9..11) are all zero the table sets them to S, Z, A decoded from the number in front of the ZAID, and changes nothing else; if any of them is non-zero all three are left untouched. The decoding terminates for every unsigned number, and inverts the MCNP ZAID encoding (1000 Z + A for ground states, 1000 Z + A + 300 + 100 m for metastable states m) for every Z up to 998 and every A above the stable-mass estimate - 60 (metastable) and up to the estimate + 40 (which contains the known nuclides), with the Am-242 exception.", "quantifier": "all ZAID numbers, all table data", "why_tests_cant": "a loop over an estimate with floating point, millions of ZAIDs", "anchors": ["src/ACEtk/ContinuousEnergyTable/src/setSZA.hpp"]}
{"id": "C24", "title": "Thermal scattering tables built from blocks return those blocks", "statement": "ThermalScatteringTable constructed from an inelastic cross section block and an inelastic energy/angle block over the same incident energies, and any combination of elastic blocks (a first elastic block with or without a non-empty angular block, a second elastic block with its angular block), exposes the same values through its accessors with matching NXS, JXS and XSS, provided that a tabulated (IFENG 2) inelastic block was built with its position 2*NE+2 as locator base, every incident energy has the same number of cosines, angular blocks have as many energies as their elastic block, and there are at most 16 ZA values. The built data can be read again into the same values. Inconsistent energy numbers and wrong table types are rejected.", "quantifier": "all combinations of optional blocks, all numbers of energies, outgoing energies and cosines, all values", "why_tests_cant": "layout depends on optional blocks", "anchors": ["src/ACEtk/ThermalScatteringTable/src/generateData.hpp", "src/ACEtk/ThermalScatteringTable/src/generateBlocks.hpp"]}
{"id": "C25", "title": "Photoatomic, photonuclear and dosimetry tables built from blocks return those blocks", "statement": "PhotoatomicTable, PhotonuclearTable and DosimetryTable constructed from component blocks of valid, mutually consistent data expose the same data in every block, with NXS and JXS that describe them; the library type in the ZAID is checked. For a photonuclear table with several secondary particles the type and number of reactions of each particle have to be smaller than the place of the energy distributions of the particle before it, which holds for particle types up to 37, at most NTR reactions per particle and at least three energies.", "quantifier": "all combinations of optional blocks and contents", "why_tests_cant": "layout depends on optional blocks", "anchors": ["src/ACEtk/PhotoatomicTable/src/generateData.hpp", "src/ACEtk/PhotonuclearTable/src/generateData.hpp", "src/ACEtk/DosimetryTable/src/generateData.hpp"]}
{"id": "C26", "title": "Copies, moves and assignments preserve the value and do not share storage", "statement": "For every sequence of constructions, copies, moves, assignments (including self-assignment) and destructions of blocks and tables in which no object is used before it is created or after it is destroyed or moved from: nothing undefined happens, every object that owns its data shows exactly the value that copying values would give it whatever is done to the object it came from, no storage is shared between objects or leaked, and a block built on iterators into another object shows the same data as long as that object is neither destroyed nor assigned to nor moved from.", "quantifier": "all finite programs of construction, copy, move, assignment and destruction over all objects of all block and table classes with sub-blocks, in debug and release builds", "why_tests_cant": "use-after-free depends on the order of operations", "anchors": ["src/ACEtk/base/Base/src/ctor.hpp: Base, operator=", "src/ACEtk/base/Base/src/generateData.hpp", "src/ACEtk/base/BlockWithLocators/src/ctor.hpp", "src/ACEtk/continuous/EnergyDistributionBlock/src/ctor.hpp", "src/ACEtk/ContinuousEnergyTable/src/ctor.hpp"]}
{"id": "C27", "title": "A table written to text is read back", "statement": "Printing a table whose strings, integers and numbers fit their columns succeeds, and reading the text (followed by anything) yields a table with the same header strings, the same IZ and JXS, the same NXS except that NXS(1) is the number of XSS values, and AW, XSS, atomic weight ratio and temperature values that agree with the originals to the printed decimals (same sign, same printed text, bounded error); exactly the printed text is consumed, for the original and the 2.0.0/2.0.1 header.", "quantifier": "all tables whose fields fit the fixed-width columns (strings without outer white space or newline, numbers zero or between 1e-307 and 1e308), any number of values and comments, any text that follows", "why_tests_cant": "unbounded number of values, partial last line for every size modulo 4", "anchors": ["src/ACEtk/Table/src/print.hpp", "src/ACEtk/Table/src/parse.hpp", "src/ACEtk/Table/Data/src/print.hpp", "src/ACEtk/Table/Data/Parse/src/XSS.hpp"]}
{"id": "C28", "title": "Printing is stable", "statement": "Printing a table that was read from the printed text of a table that fits its columns reproduces that text exactly.", "quantifier": "all tables whose fields fit the fixed-width columns", "why_tests_cant": "unbounded inputs", "anchors": ["src/ACEtk/Table/src/print.hpp", "src/ACEtk/Table/Data/src/print.hpp"]}
{"id": "C29", "title": "Concatenated files are split into their tables", "statement": "fromConcatenatedFile on the concatenation of n printed tables returns n tables, in order, each equal to the original up to the printed decimals (as in C27).", "quantifier": "all n and all tables whose fields fit the columns, mixing both header formats", "why_tests_cant": "each parse must consume exactly its own text", "anchors": ["src/ACEtk/fromFile.hpp:fromConcatenatedFile"]}
{"id": "C30", "title": "Header strings: stripping and padding", "statement": "left(s,n) is s padded or cut to exactly n characters; right(s,n) is s padded on the left to exactly n characters for every s that fits in n; stripping either result gives the stripped original; stripping removes exactly the outer white space and is idempotent.", "quantifier": "all strings and widths (right: strings that fit; a longer string is undefined behaviour, which is a finding)", "why_tests_cant": "all lengths, including longer than the field", "anchors": ["src/ACEtk/Table/Header/src/strip.hpp"]}
{"id": "C31", "title": "xsdir entries round-trip", "statement": "An xsdir entry printed to a stream and read back yields the same entry: the same names, numbers and flags, an atomic weight ratio and a temperature that are equal up to the printed decimals; the characters after the entry are left in the stream, and printing the entry that was read gives the same text. A text without a newline is refused.", "quantifier": "all entries whose names are words (identifier up to 80, file and route up to 95 characters), whose ratio and temperature take at most 12 columns, whose optional numbers are not 0 and whose record length comes with the entries per record and with a temperature or probability tables; all continuations of the stream", "why_tests_cant": "line splitting depends on the position of blanks in arbitrarily long lines", "anchors": ["src/ACEtk/XsdirEntry/src/print.hpp", "src/ACEtk/XsdirEntry/src/parse.hpp"]}
{"id": "C32", "title": "Long xsdir entries are split in lines of bounded width without losing text", "statement": "Printing an xsdir entry terminates; every printed line has at most 102 characters (100 and the continuation mark), the last one at most 99, an entry of at most 99 characters is not split, and without the continuation marks the words are those of the entry, in order.", "quantifier": "all entries as in C31; a file name of 96 characters or more makes print loop for ever (refuted outside the domain)", "why_tests_cant": "loop with reverse iterators over arbitrary text", "anchors": ["src/ACEtk/XsdirEntry/src/print.hpp"]}
{"id": "C33", "title": "xsdir lookup by ZAID and by ZA", "statement": "entry(zaid) returns an entry whose ZAID is the requested one (the last one listed) exactly if one is present, else throws; atomicWeightRatio(za) returns the last value given for za.", "quantifier": "all lists of entries", "why_tests_cant": "unbounded lists with duplicates", "anchors": ["src/ACEtk/Xsdir/src/indices.hpp", "src/ACEtk/Xsdir.hpp:entry"]}
{"id": "C34", "title": "xsdir files round-trip", "statement": "An xsdir printed to a stream and read back gives the same data path, the same atomic weight ratios and entries up to the printed decimals, is printed identically, and looking up a ZAID finds the same entry.", "quantifier": "all xsdir contents with at least one entry: any number of entries as in C31, any map of ratios with ZA below 10^7 and ratios of at most 12 columns, any one-line data path without trailing white space or none", "why_tests_cant": "unbounded maps and lists; layout with column wrapping", "anchors": ["src/ACEtk/Xsdir/src/print.hpp", "src/ACEtk/Xsdir/src/parse.hpp"]}
{"id": "C35", "title": "One-piece blocks of continuous-energy tables round-trip", "statement": "ESZ, LQR, HPD, NTRO and IXS blocks built from values, or read from any view that starts with their words, return exactly the supplied values, element by element and as arrays.", "quantifier": "all values and sizes; all views starting with the words; Debug and Release", "why_tests_cant": "arbitrary sizes and positions in a larger XSS array", "anchors": ["src/ACEtk/continuous/PrincipalCrossSectionBlock.hpp", "src/ACEtk/continuous/ReactionQValueBlock.hpp", "src/ACEtk/continuous/SecondaryParticleProductionBlock.hpp", "src/ACEtk/continuous/SecondaryParticleInformationBlock.hpp", "src/ACEtk/continuous/SecondaryParticleLocatorBlock.hpp"]}
{"id": "C36", "title": "Photoatomic blocks round-trip", "statement": "ESZG, JINC, JCOH, JFLO, LHNM, EPS, SWD and SPHEL built from values return them when read back; JINC and JCOH use the standard momentum grid exactly when only 21 (55) values are given; inconsistent sizes are rejected.", "quantifier": "all values and sizes", "why_tests_cant": "arbitrary sizes, and every size must be classified correctly from the number of words alone", "anchors": ["src/ACEtk/photoatomic"]}
{"id": "C37", "title": "Electron blocks round-trip and totals are sums", "statement": "BREML, SELAS, EXCIT, SUBSH, ESZE built from values return them; in ESZE the total and the total electro-ionisation cross sections are, at every energy, the double precision sums of the parts; inconsistent sizes are rejected.", "quantifier": "all values and sizes, any number of subshells", "why_tests_cant": "the sums range over arbitrary numbers of subshells and energies", "anchors": ["src/ACEtk/electron"]}
{"id": "C38", "title": "Relaxation transition data round-trip", "statement": "Transition data built from designators, energies and probabilities return each transition, and the block XPROB returns those of each subshell, including subshells without transitions; isRadiative is true exactly if the secondary designator is zero.", "quantifier": "all lists of transitions, all lists of subshells", "why_tests_cant": "the number of transitions is only recoverable from locators", "anchors": ["src/ACEtk/electron/TransitionData.hpp", "src/ACEtk/electron/SubshellTransitionDataBlock.hpp"]}
{"id": "C39", "title": "Photonuclear and dosimetry blocks round-trip", "statement": "ESZU (with and without elastic), IXSU and SIGD built from values return them; lookup of a secondary particle type in IXSU gives the first position of that type exactly if it occurs.", "quantifier": "all values and sizes", "why_tests_cant": "arbitrary numbers of particles and reactions", "anchors": ["src/ACEtk/photonuclear", "src/ACEtk/dosimetry"]}
{"id": "C40", "title": "Cut-off data are rejected in Debug", "statement": "A constructor that views words throws an exception in Debug if it is given any proper prefix of the words of a complete object: tables, evaporation, general evaporation and Watt spectra, cross sections, heating, polynomial and tabulated multiplicities (with their fixed words), one-energy and multi-energy angular distributions, outgoing energy distributions (law 4), equiprobable bins, the locator blocks SIG, SWD and dosimetry SIG, and every block whose size the caller gives. Interpolation data, YP and NU are rejected for every non-empty proper prefix (no words at all are an empty block). The classes whose constructor does not check the last words (probability tables, delayed neutron precursors, electron blocks, N-body phase space, Kalbach-Mann) are outside the claim and shown not to satisfy it.", "quantifier": "all values and sizes, every cut position", "why_tests_cant": "the words can be cut anywhere, including inside any count, locator or entry", "anchors": ["src/ACEtk/base/TabulatedData/src/verifySize.hpp", "src/ACEtk/base/BlockWithLocators/src/generateBlocks.hpp", "src/ACEtk/base/DistributionData/src/generateBlocks.hpp", "src/ACEtk/continuous/AngularDistributionData/src/generateBlocks.hpp", "src/ACEtk/continuous/ProbabilityTableBlock/src/generateBlocks.hpp", "src/ACEtk/continuous/DelayedNeutronPrecursorBlock/src/generateBlocks.hpp"]}
{"id": "C41", "title": "The numbers and locators of a table describe its data", "statement": "A table built from values reports through its header numbers what it contains: length() is the number of words of XSS; Z(), A(), S(), ZA() are those given; the counts (energies, reactions, secondary neutron reactions, photon production reactions, secondary particle types, precursor groups; fluorescence edges, shells, subshells, energies; thermal numbers IDPNI, NIL, NIEB, IDPNC, NCL, IFENG, NCLI) are the sizes of the values given, and 0 for data that are not there. In a continuous energy table every entry of JXS is 1 + the number of words before the block it points to (0 for a block that is not there), the fission locator points at the first MT18 entry of SIG, and END is the number of words before the secondary particle data. In a dosimetry table all entries of NXS and JXS are determined by the two blocks given.", "quantifier": "all valid values for the continuous energy, photoatomic, photonuclear, thermal scattering and dosimetry tables; both build modes", "why_tests_cant": "each number depends on the sizes of all blocks before it, with every combination of optional blocks", "anchors": ["src/ACEtk/ContinuousEnergyTable/src/generateData.hpp", "src/ACEtk/PhotoatomicTable/src/generateData.hpp", "src/ACEtk/PhotonuclearTable/src/generateData.hpp", "src/ACEtk/ThermalScatteringTable/src/generateData.hpp", "src/ACEtk/DosimetryTable/src/generateData.hpp", "src/ACEtk/ContinuousEnergyTable.hpp"]}
{"id": "C42", "title": "Blocks have as many entries as they report and every index is checked", "statement": "An object read from any words has as many entries as it reports: every index from 1 (0 for AND, whose elastic distribution has index 0) to the reported number gives an entry in both build modes, and in Debug every other std::size_t throws std::out_of_range, for: SIG, SIGP, SIGH, SWD, XPROB and the dosimetry SIG block (data and locators), angular distribution data and blocks, the incident energies of laws 1, 4, 44, 61, 67 and the energies or cosines inside laws 61 and 67, multiple distributions, TYR/TYRH frames and multiplicities, DLW, DLWP, DLWH and DNED, BDD, UNR, the electron blocks, ITXE, and EION( index ) of a photoatomic table with NEPR > 0; index checks of ESZE and SPHEL. Outside the claim, and shown not to satisfy it: the probability of a law 67 distribution among several, and the accessors of a continuous energy or photonuclear table by secondary particle, which do not check the index.", "quantifier": "all words the constructor accepts, all indices of type std::size_t, both build modes", "why_tests_cant": "the words come from a file and can contain any counts and locators; the index is arbitrary", "anchors": ["src/ACEtk/base/BlockWithLocators.hpp", "src/ACEtk/base/DistributionData.hpp", "src/ACEtk/continuous/AngularDistributionBlock.hpp", "src/ACEtk/continuous/MultiDistributionData.hpp", "src/ACEtk/continuous/EnergyDistributionBlock.hpp", "src/ACEtk/continuous/ProbabilityTableBlock.hpp", "src/ACEtk/electron/EnergyDistributionBlock.hpp", "src/ACEtk/thermal/InelasticAngularDistributionBlock.hpp", "src/ACEtk/PhotoatomicTable.hpp"]}
{"id": "C43", "title": "Debug only adds checks", "statement": "Whatever an operation gives in Debug it gives in Release: if a constructor (from words or from values), an accessor, a table constructor (from the data of a file or from blocks) or printing succeeds with NDEBUG undefined, then with NDEBUG defined it succeeds with the same result, so that data that pass the checks once can be read without them.", "quantifier": "all words, values, objects, indices and tables; some 340 operations of all modelled classes", "why_tests_cant": "the tests are run in one build mode, with a few inputs; the claim relates two builds on all inputs", "anchors": ["src/ACEtk/base/ColumnData.hpp", "src/ACEtk/base/BlockWithLocators.hpp", "src/ACEtk/base/DistributionData.hpp", "src/ACEtk/base/Base.hpp", "src/ACEtk/ContinuousEnergyTable.hpp", "src/ACEtk/ThermalScatteringTable.hpp", "src/ACEtk/PhotoatomicTable.hpp", "src/ACEtk/PhotonuclearTable.hpp", "src/ACEtk/DosimetryTable.hpp", "src/ACEtk/Table.hpp"]}
{"id": "C44", "title": "Tables with no more digits than the file format keeps are read back exactly", "statement": "When the numbers of a table have no more digits than the format writes (atomic weight ratio: 6 decimals, temperature: 5 significant digits, (ZA, AW) pairs: 7 decimals, XSS: 13 significant digits; whole numbers of up to 13 digits are among them) and NXS(1) is the length of XSS, writing and reading gives back exactly the same header, arrays and doubles, bit for bit, for one table and for files with several; a continuous-energy, thermal, photoatomic, photonuclear or dosimetry table object is read back as the same object, so a table built from such values returns these values after being saved and loaded. Any table is exactly preserved from its first reading on.", "quantifier": "all tables of any size that fit the columns of the format, with original and 2.0.1 headers, all typed tables, both builds", "why_tests_cant": "decimal-binary-decimal-binary exactness holds or fails number by number over the whole range of doubles; tests try a few numbers", "anchors": ["src/ACEtk/Table.hpp", "src/ACEtk/Table/src/print.hpp", "src/ACEtk/Table/src/parse.hpp", "src/ACEtk/Table/Data/src/print.hpp", "src/ACEtk/Table/Data/src/ctor.hpp", "src/ACEtk/Table/Header/src/print.hpp", "src/ACEtk/Table/Header201/src/print.hpp", "src/ACEtk/fromFile.hpp"]}
{"id": "C45", "title": "What a constructor accepts can be read", "statement": "When a block object is constructed from iterators into a vector, whatever words are there, and the constructor does not throw, then its counts are returned and, provided the size these counts ask for fits an unsigned int, every accessor returns as many values as the counts say: no exception and no read outside the vector. For blocks with locators and for distributions this holds for each entry 1..N and for the values inside it. Holds for cross section, heating, yield, reaction type, table, spectrum, nubar, tabulated and equiprobable distributions, laws 1, 4, 5, 7, 9, 11, 44 (energies, pdf and cdf, not the Kalbach-Mann columns) and 67 (also behind a header, in DLWH and in DLW with its multiplicities), SIG, SIGP, SIGH, SIGD, SWD, thermal cosines, transitions and form factors in both builds, and for angular distributions and the AND block with the index checks. Negative counts, sizes that wrap around, fractional counts and IDAT before the block are outside: accepted, then undefined.", "quantifier": "all vectors of words, all iterators into them, both builds (angular data: Debug)", "why_tests_cant": "the input is an arbitrary sequence of doubles; the size checks must cover every combination of counts and locators", "anchors": ["src/ACEtk/base/TabulatedData/src/verifySize.hpp", "src/ACEtk/base/DistributionData/src/generateBlocks.hpp", "src/ACEtk/base/BlockWithLocators/src/generateBlocks.hpp", "src/ACEtk/base/EvaporationSpectrum/src/verifySize.hpp", "src/ACEtk/continuous/EnergyDistributionBlock/src/generateBlocks.hpp", "src/ACEtk/continuous/AngularDistributionData/src/generateBlocks.hpp", "src/ACEtk/continuous/EquiprobableOutgoingEnergyBinData/src/verifySize.hpp"]}
{"id": "C46", "title": "A table's own blocks make the same table again", "statement": "When a continuous-energy, thermal scattering, photoatomic, photonuclear or dosimetry table has been made from blocks built of valid values, the blocks its accessors return (with the same charge, mass, state, identifier, (ZA, AWR) pairs and particle types), handed to the constructor again, are accepted and give the very same table: the same NXS, JXS and XSS and the same blocks. The one exclusion is a continuous-energy table with unresolved resonance and photon production data but no delayed neutron data, whose UNR block contains the photon production data: these are then stored twice.", "quantifier": "all values of all blocks, any number of reactions, energies, distributions and secondary particles, both builds", "why_tests_cant": "each block of a table is a view that ends where the next one begins; that the ends found by the constructor are exactly right for every combination of optional blocks cannot be settled by some tables", "anchors": ["src/ACEtk/ContinuousEnergyTable/src/ctor.hpp", "src/ACEtk/ContinuousEnergyTable/src/generateBlocks.hpp", "src/ACEtk/ContinuousEnergyTable/src/generateData.hpp", "src/ACEtk/ThermalScatteringTable/src/ctor.hpp", "src/ACEtk/PhotoatomicTable/src/ctor.hpp", "src/ACEtk/PhotonuclearTable/src/ctor.hpp", "src/ACEtk/DosimetryTable/src/ctor.hpp"]}
{"id": "C47", "title": "A block reads the same wherever it stands", "statement": "Every block and every piece of data of ACEtk can be made from a range [begin, end) of words. If the vector of words is extended in front and behind, so that the same range stands at another place between other words, every constructor does the same: it throws the same exception or makes an object, and all accessors of the two objects (counts, locators, values, nested data, looked-up reactions, for every index) return the same or throw the same. Locators and indices are therefore relative to the block and never to its place, and neighbouring words never show. This is so in both builds whenever the first outcome is defined; an access outside the first vector (made by a build without index checks, and where the code itself does not check) is undefined and can show neighbouring words in the second.", "quantifier": "all words of the block and around it, any number of words before and after, all arguments and indices, both builds, all block and data classes", "why_tests_cant": "a test reads a block at one or two places; independence of the place must hold for every vector around it and every content of the block", "anchors": ["src/ACEtk/base/Base.hpp", "src/ACEtk/base/ColumnData.hpp", "src/ACEtk/base/ArrayData.hpp", "src/ACEtk/base/BlockWithLocators.hpp", "src/ACEtk/base/AngularDistributionBlock.hpp", "src/ACEtk/base/DistributionData.hpp", "src/ACEtk/continuous/MultiDistributionData.hpp", "src/ACEtk/continuous/EnergyDistributionBlock.hpp", "src/ACEtk/thermal/InelasticAngularDistributionBlock.hpp"]}
{"id": "C48", "title": "The accessors of an object agree with each other", "statement": "Where ACEtk offers both all values and one value by its index, they are the same values: whenever the accessor for all values returns, the accessor with index i returns the i-th of them (in Debug its index check may throw std::out_of_range instead; it never returns another value). This holds for XSS/IXSS of a range and of one word, the arrays (ESZ, MTR, LQR and every other array block) and columns, NTRO, the photon yield reactions, relaxation transitions, the incident energies of laws 1, 4, 44, 61 and 67 and of angular distributions, the cosines, outgoing energies and probabilities inside laws 67 and 61, and the electron blocks. The entry for an incident energy reports the same energy (and length) as the block: laws 1, 4, 44, 61, 67, angular distributions, electron blocks and probability tables. The minimum and maximum incident energy are the first and last of the energies. For arrays, laws 1, 4, 44 and 67 and (in Debug) angular distributions that a constructor accepted, the accessors in question all return.", "quantifier": "all words an object is made from, all indices, both builds", "why_tests_cant": "tests compare both accessors on one or two objects and a few indices; they must agree for every content and index", "anchors": ["src/ACEtk/base/Base.hpp", "src/ACEtk/base/ArrayData.hpp", "src/ACEtk/base/ColumnData.hpp", "src/ACEtk/base/DistributionData.hpp", "src/ACEtk/base/ElectronBlockWithLocators.hpp", "src/ACEtk/continuous/AngularDistributionData.hpp", "src/ACEtk/continuous/EquiprobableOutgoingEnergyBinData.hpp", "src/ACEtk/continuous/ProbabilityTableBlock.hpp", "src/ACEtk/continuous/OutgoingEnergyDistributionData.hpp"]}
{"id": "C49", "title": "Arrays of different lengths are rejected", "statement": "A constructor that takes arrays which must have the same length (or a fixed one) succeeds when they do and the argument ranges are met, and throws std::exception otherwise, without reading beyond any of them. This holds for interpolation data, tabulated functions (alone, as precursor groups, fission yields and photon production), tabulated distributions, all energy distribution laws (1, 2, 3, 4, 5, 7, 9, 11, 33, 44, 61, 66, 67), at any depth: one distribution of one incident energy with an array too short is enough; multi-law distributions; ESZ, heating numbers, probability tables, the photoatomic, electron, photonuclear and thermal array blocks, form factors (21 and 55 values on the standard grid), relaxation transitions, frames and multiplicities, and the numbers of distributions, multiplicities and frames of an energy distribution block. The number of words an energy distribution takes is that of the ACE format. Not compared by the code, and excluded: bins of equiprobable energies (law 1), bins of the tables of an unresolved resonance block, the frames of a secondary particle's energy distribution block, cosines of thermal data (C24).", "quantifier": "all arrays of all lengths, all nested distributions, both builds", "why_tests_cant": "tests pass one ragged argument per class; a check that is missing, or made in the wrong order, shows only for the right position in a nested argument", "anchors": ["src/ACEtk/base/ColumnData/src/generateXSS.hpp", "src/ACEtk/base/ArrayData/src/generateXSS.hpp", "src/ACEtk/base/DistributionData/src/generateXSS.hpp", "src/ACEtk/continuous/MultiDistributionData/src/generateXSS.hpp", "src/ACEtk/continuous/FrameAndMultiplicityBlock/src/generateXSS.hpp", "src/ACEtk/continuous/EnergyDistributionBlock/src/generateXSS.hpp", "src/ACEtk/electron/PrincipalCrossSectionBlock/src/generateArrays.hpp", "src/ACEtk/electron/SubshellTransitionData/src/generateArrays.hpp", "src/ACEtk/photoatomic/CoherentFormFactorBlock/src/generateArrays.hpp", "src/ACEtk/continuous/SecondaryParticleProductionBlock/src/generateXSS.hpp"]}
{"id": "C50", "title": "A constructor accepts exactly the ranges that are long enough", "statement": "Made from a range of words, a component of ACEtk is accepted when the range has at least the number of words that its own counts ask for, and then its counts and arrays have the sizes those counts state (and columns, arrays and tables show the words that stand in their place); in Debug a shorter range is rejected with std::exception, and nothing outside the vector is read. The range need not have been written by ACEtk: only the words that stand where a count or a locator is expected must be whole numbers that fit. This holds for cross sections, photon cross sections, heating, tabulated distributions and functions, polynomial multiplicities and fission multiplicities (one, or prompt and total; another kind is also rejected), photon yields, interpolation data, column and array blocks whose size is given or read from their words, tables behind other words, energy laws 1, 4, 5, 7, 9, 11 and 67 (at both levels), energy distributions of one law given by number (2, 3, 33 and 66 need two words; an unknown law is rejected) behind words about its validity, angular distributions (isotropic, 33 cosines or a table for each energy), inelastic thermal scattering (IFENG 0, 1 and 2), blocks with locators (SIG, SIGD, SWD, SIGP, SIGH) blocks of angular distributions (AND) and blocks of energy distributions (DLWH and DLWP; DLW with its multiplicities, where a locator 0 is rejected): a block with locators is accepted exactly when every entry starts inside it and has room up to the next one (law 4 and AND: the next larger locator, in any order). Probability tables (UNR) are accepted exactly when the block has the words of its counts and incident energies, and then the block has the stated number of tables with the stated number of bins, each at its own incident energy and with the values of its own words. A block of frames and multiplicities (TYR) with a word for each reaction is accepted, and shows the number without its sign as the multiplicity and its sign as the frame. Delayed neutron precursors (BDD) are accepted exactly when the block has the words up to the number of energies of its last group, and then every group shows its decay constant, and its table if the words of the table are there. A dosimetry table is accepted exactly when its ZAID ends in y and its MTR and SIGD blocks are. A thermal scattering table whose locators point into its data is accepted exactly when its ZAID ends in t and its inelastic and elastic blocks (as IDPNC, NCL and NCLI ask for) have the words for their energies and cosines, and then it shows those blocks and no others. A photoatomic table without electron data whose locators point into its data is accepted exactly when its ZAID ends in p and ESZG, JINC, JCOH, LHNM, and JFLO, EPS and SWD if NFLO and NSH ask for them, are. A continuous-energy table whose locators point into its data is accepted exactly when its ZAID ends in c, h, o, r, s or a and its ESZ, MTR, LQR, TYR, SIG, AND and DLW blocks are, and NU, the photon production blocks, the probability tables, the delayed neutron blocks and the blocks of each of its secondary particles if it has them, each on the words between its own position and the next one. A photonuclear table whose locators point into its data is accepted exactly when its ZAID ends in u and ESZU (of four columns if JXS(4) is not 0), MTR, LQR and SIG and the blocks of each of its secondary particles are. Excluded: law 61, whose inner locators are not checked; energy distributions of several laws and the words about law, data and validity at the start of an energy distribution, read without a check; locators that decrease inside a block of cross sections and a range with fewer words than stand before its counts (so also an entry of SIGP or SIGH of less than two words); positions in the JXS array outside the data and a number of words of the prompt multiplicity that leaves none for the total; these are read unchecked; a number of words of inelastic cosines that does not fit an unsigned int (accepted), and with IFENG 2 an energy whose entry is short of more than one set of cosines (accepted), and the words of the probability tables themselves and of the values of the last precursor group, whose number is not checked (accepted). In law 44 the two columns behind the cdf, and in law 66 the values, are not part of the size that is checked.", "quantifier": "all ranges of all vectors, all counts and locators in them, all sizes, both builds", "why_tests_cant": "tests check one range that is long enough and perhaps one that is too short; the exact boundary must be right for every combination of counts", "anchors": ["src/ACEtk/base/Base.hpp", "src/ACEtk/base/ColumnData.hpp", "src/ACEtk/base/ArrayData.hpp", "src/ACEtk/base/TabulatedData/src/verifySize.hpp", "src/ACEtk/base/BlockWithLocators/src/ctor.hpp", "src/ACEtk/base/BlockWithLocators/src/generateBlocks.hpp", "src/ACEtk/base/DistributionData/src/generateBlocks.hpp", "src/ACEtk/continuous/CrossSectionData", "src/ACEtk/continuous/EquiprobableOutgoingEnergyBinData", "src/ACEtk/continuous/EnergyDependentWattSpectrum", "src/ACEtk/continuous/AngularDistributionData/src/generateBlocks.hpp", "src/ACEtk/base/DistributionDataWithInterpolationType/src/generateBlocks.hpp", "src/ACEtk/continuous/FissionMultiplicityBlock/src/generateBlocks.hpp", "src/ACEtk/thermal/InelasticAngularDistributionBlock/src/generateBlocks.hpp", "src/ACEtk/ThermalScatteringTable/src/generateBlocks.hpp", "src/ACEtk/PhotoatomicTable/src/generateBlocks.hpp", "src/ACEtk/continuous/EnergyDistributionBlock/src/generateBlocks.hpp", "src/ACEtk/continuous/SecondaryParticleEnergyDistributionBlock/src/generateData.hpp", "src/ACEtk/ContinuousEnergyTable/src/generateBlocks.hpp", "src/ACEtk/continuous/FrameAndMultiplicityBlock/src/generateBlocks.hpp", "src/ACEtk/PhotonuclearTable/src/generateBlocks.hpp", "src/ACEtk/continuous/ProbabilityTableBlock/src/generateBlocks.hpp", "src/ACEtk/continuous/DelayedNeutronPrecursorBlock/src/generateBlocks.hpp"]}
