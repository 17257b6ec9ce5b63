#!/usr/bin/env python3
# Source of /verif/properties.jsonl: run to regenerate.
import json,os
P=[]
def p(id,title,statement,quant,why,*anchors):
    P.append(dict(id=id,title=title,statement=statement,quantifier=quant,why_tests_cant=why,anchors=list(anchors)))

p("C01","Integers survive storage as XSS doubles",
  "Every integer n with |n| < 2^31 that is stored in an XSS array as a double (counts, locators, MT numbers, interpolation codes) is read back by IXSS(i) as exactly n.",
  "all integers in the int range",
  "the property ranges over 2^32 values and over round-to-nearest behaviour of the conversion",
  "src/ACEtk/base/Base.hpp:IXSS","src/ACEtk/Table/Data.hpp:IXSS")
p("C02","One-based access to a block",
  "For a block holding n values, XSS(i) returns the i-th value for every 1<=i<=n; in a Debug build every other i throws out_of_range and nothing outside the block is read; whenever the Debug build returns a value the Release build returns the same one.",
  "all block contents, all positions of the block in the XSS array, all size_t indices, both build modes",
  "indices range over 2^64 values and the contents and placement are arbitrary",
  "src/ACEtk/base/Base.hpp:XSS","src/ACEtk/base/Base/src/verifyIndex.hpp:verifyIndex")
p("C03","Subrange access to a block",
  "XSS(i,n) yields exactly the n values starting at position i whenever 1<=i and i+n-1 <= length; a Debug build should reject every request that leaves the block.",
  "all block contents, indices and lengths, both build modes",
  "off-by-one requests at the end of a block only show up for particular sizes",
  "src/ACEtk/base/Base.hpp:XSS(index,length)","src/ACEtk/base/Base.hpp:iterator")
p("C04","One-based access to IZ, AW, NXS, JXS and XSS of a table",
  "Data::IZ/AW/NXS/JXS/XSS(i) return the i-th element exactly when 1<=i<=size; in Debug every other index throws out_of_range; writing through the returned reference changes that element and no other.",
  "all arrays, all size_t indices, all written values",
  "indices and array contents are unbounded",
  "src/ACEtk/Table/Data.hpp","src/ACEtk/Table/Data/src/fetch.hpp:fetch","src/ACEtk/Table/Data/src/XSS.hpp")
p("C05","Array data round-trips and rejects ragged input",
  "ArrayData built from m arrays of n values returns the same m, n, arrays and individual values; arrays of different sizes are always rejected with an exception.",
  "all numbers of arrays, all lengths, all values",
  "sizes and contents are unbounded",
  "src/ACEtk/base/ArrayData.hpp","src/ACEtk/base/ArrayData/src/generateXSS.hpp:generateXSS")
p("C06","Column data round-trips and rejects ragged input",
  "ColumnData built from nc columns of ne values returns ne and the same columns and values; columns of different lengths are always rejected.",
  "all numbers of columns, all lengths, all values",
  "sizes and contents are unbounded",
  "src/ACEtk/base/ColumnData.hpp","src/ACEtk/base/ColumnData/src/generateXSS.hpp:generateXSS")
p("C07","Interpolation data round-trips",
  "InterpolationData built from boundaries and interpolants of equal size returns the same NB, NBT and INT; different sizes are rejected.",
  "all lists of boundaries and interpolants in the int range",
  "lists are unbounded",
  "src/ACEtk/continuous/InterpolationData.hpp","src/ACEtk/continuous/InterpolationData/src/generateXSS.hpp")
p("C08","Tabulated data round-trips wherever it is stored",
  "Tabulated functions (TabulatedData, tabulated multiplicities, evaporation/Maxwellian spectra, precursor data) built from boundaries, interpolants, x and y return exactly those, whether the object owns its data or views a larger XSS array.",
  "all sizes and values, all surrounding XSS data, both build modes",
  "depends on arbitrary sizes and on what follows the block in the XSS array",
  "src/ACEtk/base/TabulatedData.hpp","src/ACEtk/base/TabulatedData/src/generateBlocks.hpp","src/ACEtk/base/EvaporationSpectrum.hpp")
p("C09","Locator blocks return each data block unchanged",
  "A block with locators (SIG, SIGP, SIGH, ...) built from n data blocks returns n and, for each index, a data block with exactly the k-th supplied XSS content; the locators are relative to the end of the locator list; the data survive relocation into any XSS array.",
  "all numbers of data blocks, all lengths and contents, both locator conventions",
  "off-by-one locator errors depend on the sequence of lengths",
  "src/ACEtk/base/BlockWithLocators.hpp","src/ACEtk/base/BlockWithLocators/src/generateXSS.hpp","src/ACEtk/base/BlockWithLocators/src/generateBlocks.hpp")
p("C10","Electron locator blocks round-trip",
  "An electron block with locators (elastic angular, energy distribution) built from n tables returns for each index the same energy, length and data; energies() and lengths() return the list of energies and of lengths.",
  "all numbers of tables, all lengths, all values",
  "unbounded sizes",
  "src/ACEtk/base/ElectronBlockWithLocators.hpp")
p("C11","Angular distribution data round-trips",
  "AngularDistributionData built from any mixture of isotropic, equiprobable and tabulated distributions returns, in order of incident energy, distributions of the same kind, energy and data.",
  "all lists of distributions and all locator bases",
  "kind is encoded in the sign of a locator that depends on all preceding lengths",
  "src/ACEtk/continuous/AngularDistributionData.hpp","src/ACEtk/continuous/AngularDistributionData/src/generateXSS.hpp","src/ACEtk/continuous/AngularDistributionData/src/generateBlocks.hpp")
p("C12","Angular distribution blocks round-trip",
  "AND/ANDP/ANDH blocks built from any sequence of fully isotropic, given-elsewhere and explicit distributions return for each reaction index the same alternative with the same data, with index 0 for elastic in AND.",
  "all sequences of alternatives and contents",
  "the end of each distribution is found by searching the following locators",
  "src/ACEtk/base/AngularDistributionBlock.hpp","src/ACEtk/base/AngularDistributionBlock/src/generateXSS.hpp","src/ACEtk/base/AngularDistributionBlock/src/generateBlocks.hpp")
p("C13","Energy-dependent distribution data round-trips for every locator base",
  "Distribution data indexed by incident energy (outgoing energy, Kalbach-Mann, energy-angle, angle-energy, ...) built from n distributions with locator base locb returns the same values and distributions, and relativeDistributionLocator(i) points to the i-th distribution.",
  "all numbers and lengths of distributions, all locb",
  "nested relative locators depend on all sizes",
  "src/ACEtk/base/DistributionData.hpp","src/ACEtk/base/DistributionData/src/generateXSS.hpp","src/ACEtk/base/DistributionData/src/generateBlocks.hpp","src/ACEtk/base/DistributionDataWithInterpolationType.hpp")
p("C14","The law number identifies the distribution kind",
  "For every energy distribution class the LAW reported by the object is the ACE law the class represents, so that an energy distribution block written with it is read back as the same kind.",
  "all energy distribution kinds and contents",
  "a wrong law number is only visible after re-reading a written block",
  "src/ACEtk/EnergyDistributionType.hpp","src/ACEtk/continuous/AngleEnergyDistributionData.hpp:LAW","src/ACEtk/continuous/EnergyDistributionBlock/src/generateXSS.hpp")
p("C15","Energy distribution blocks round-trip",
  "DLW/DLWP/DNED blocks built from any sequence of energy distributions return, for each reaction, the same distribution (kind, energies, data) when read back.",
  "all sequences of distributions",
  "locators nest three levels deep",
  "src/ACEtk/continuous/EnergyDistributionBlock.hpp","src/ACEtk/continuous/EnergyDistributionBlock/src/generateXSS.hpp","src/ACEtk/continuous/EnergyDistributionBlock/src/generateBlocks.hpp")
p("C16","Reference frame and multiplicity are recoverable",
  "TYR built from reference frames and multiplicities returns for every reaction the same frame and multiplicity.",
  "all frames and multiplicities",
  "encoded in sign and magnitude of one value with special cases",
  "src/ACEtk/continuous/FrameAndMultiplicityBlock.hpp","src/ACEtk/continuous/FrameAndMultiplicityBlock/src/generateXSS.hpp")
p("C17","Reaction number lookups are consistent",
  "MTR/MTRP/MTRH: hasReactionNumber(mt) is true exactly if mt occurs, index(mt) is the first position where it occurs and MT(index(mt)) = mt; index of an absent number throws.",
  "all lists of reaction numbers, all requested numbers",
  "unbounded lists",
  "src/ACEtk/continuous/ReactionNumberBlock.hpp")
p("C18","Fission multiplicity block round-trips",
  "NU built from one or two multiplicities (polynomial or tabulated) returns the same multiplicities in the prompt/total roles and reports correctly whether two are present.",
  "all polynomial and tabulated multiplicities",
  "the layout depends on the sign of a length word",
  "src/ACEtk/continuous/FissionMultiplicityBlock.hpp","src/ACEtk/continuous/FissionMultiplicityBlock/src/generateXSS.hpp","src/ACEtk/continuous/FissionMultiplicityBlock/src/generateBlocks.hpp")
p("C19","Probability tables round-trip",
  "UNR built from probability tables returns the same flags, incident energies and tables.",
  "all numbers of energies and bins",
  "unbounded sizes",
  "src/ACEtk/continuous/ProbabilityTableBlock.hpp","src/ACEtk/continuous/ProbabilityTable.hpp")
p("C20","Precursor data round-trips",
  "BDD built from precursor groups returns for each group the same decay constant and tabulated probabilities.",
  "all numbers of groups and sizes",
  "group boundaries are recomputed from counts stored in preceding data",
  "src/ACEtk/continuous/DelayedNeutronPrecursorBlock.hpp","src/ACEtk/continuous/DelayedNeutronPrecursorData.hpp")
p("C21","A continuous-energy table built from blocks returns those blocks",
  "A ContinuousEnergyTable constructed from component blocks exposes, for each block supplied, a block with exactly the same XSS content, and no block that was not supplied; NXS and JXS describe the layout.",
  "all combinations of optional blocks, all sizes and contents",
  "block boundaries are inferred by searching JXS, which depends on which optional blocks exist",
  "src/ACEtk/ContinuousEnergyTable/src/generateData.hpp","src/ACEtk/ContinuousEnergyTable/src/generateBlocks.hpp:block")
p("C22","Inconsistent component blocks are rejected",
  "ContinuousEnergyTable construction throws whenever the number of reactions differ between MTR/LQR/SIG or AND/DLW, when fission is present without NU, when only part of the photon production, delayed neutron or secondary particle blocks are given, or their sizes disagree; and only then.",
  "all combinations of blocks and counts",
  "combinatorial number of optional-block subsets and sizes",
  "src/ACEtk/ContinuousEnergyTable/src/generateData.hpp")
p("C23","S, Z, A decoding from the ZAID",
  "When NXS(9..11) are all zero the table derives S, Z, A from the ZAID by the MCNP rules; the computation terminates for every ZAID, leaves non-zero values untouched, and inverts the ZAID encoding of ground and metastable states, with the Am-242 exception.",
  "all ZAID numbers",
  "a loop over an estimate with floating point, millions of ZAIDs",
  "src/ACEtk/ContinuousEnergyTable/src/setSZA.hpp")
p("C24","Thermal scattering tables built from blocks return those blocks",
  "ThermalScatteringTable constructed from inelastic/elastic blocks exposes the same blocks and consistent NXS and JXS.",
  "all combinations of optional blocks and contents",
  "layout depends on optional blocks",
  "src/ACEtk/ThermalScatteringTable/src/generateData.hpp","src/ACEtk/ThermalScatteringTable/src/generateBlocks.hpp")
p("C25","Photoatomic, photonuclear and dosimetry tables built from blocks return those blocks",
  "PhotoatomicTable, PhotonuclearTable and DosimetryTable constructed from component blocks expose the same blocks with consistent NXS and JXS.",
  "all combinations of optional blocks and contents",
  "layout depends on optional blocks",
  "src/ACEtk/PhotoatomicTable/src/generateData.hpp","src/ACEtk/PhotonuclearTable/src/generateData.hpp","src/ACEtk/DosimetryTable/src/generateData.hpp")
p("C26","Copies, moves and assignments preserve the value and do not share storage",
  "Copying, moving or assigning any block or table yields an object with the same observable values which stays valid and unchanged when the source is destroyed or modified, if the source owns its data.",
  "all objects and all sequences of copy, move, assignment and destruction",
  "use-after-free depends on the order of operations",
  "src/ACEtk/base/Base/src/ctor.hpp","src/ACEtk/base/Base/src/generateData.hpp","src/ACEtk/base/BlockWithLocators/src/ctor.hpp")
p("C27","A table written to text is read back",
  "Reading the text produced by printing a table yields a table with the same header fields, IZ, NXS, JXS and number of XSS values, with NXS(1) equal to the number of XSS values, and AW and XSS values equal to their printed decimal value; exactly the printed text is consumed.",
  "all tables whose fields fit the fixed-width columns",
  "unbounded number of values, partial last line for every size modulo 4",
  "src/ACEtk/Table/src/print.hpp","src/ACEtk/Table/src/parse.hpp","src/ACEtk/Table/Data/src/print.hpp","src/ACEtk/Table/Data/Parse/src/XSS.hpp")
p("C28","Printing is stable",
  "Printing a table that was read from printed text reproduces that text exactly.",
  "all tables whose fields fit the fixed-width columns",
  "unbounded inputs",
  "src/ACEtk/Table/src/print.hpp","src/ACEtk/Table/Data/src/print.hpp")
p("C29","Concatenated files are split into their tables",
  "fromConcatenatedFile on the concatenation of n printed tables returns those n tables in order.",
  "all n and all tables",
  "each parse must consume exactly its own text",
  "src/ACEtk/fromFile.hpp:fromConcatenatedFile")
p("C30","Header strings: stripping and padding",
  "left(s,n) and right(s,n) produce exactly n characters; stripping a padded string returns the stripped original when it fits; text that does not fit is never undefined behaviour.",
  "all strings and widths",
  "all lengths, including longer than the field",
  "src/ACEtk/Table/Header/src/strip.hpp")
p("C31","xsdir entries round-trip",
  "An xsdir entry printed to a stream and read back yields an equal entry, with long entries split over continuation lines.",
  "all entries",
  "line splitting depends on the position of blanks in arbitrarily long lines",
  "src/ACEtk/XsdirEntry/src/print.hpp","src/ACEtk/XsdirEntry/src/parse.hpp")
p("C32","Long xsdir entries are split in lines of bounded width without losing text",
  "Printing an xsdir entry terminates, every printed line is at most 100 characters when no token is too long, and removing the continuation marks gives back the tokens in order.",
  "all entries",
  "loop with reverse iterators over arbitrary text",
  "src/ACEtk/XsdirEntry/src/print.hpp")
p("C33","xsdir lookup by ZAID and by ZA",
  "entry(zaid) returns an entry whose ZAID is the requested one (the last one listed) exactly if one is present, else throws; atomicWeightRatio(za) returns the last value given for za.",
  "all lists of entries",
  "unbounded lists with duplicates",
  "src/ACEtk/Xsdir/src/indices.hpp","src/ACEtk/Xsdir.hpp:entry")
p("C34","xsdir files round-trip",
  "An xsdir printed to a stream and read back gives the same data path, atomic weight ratios and entries.",
  "all xsdir contents",
  "unbounded maps and lists; layout with column wrapping",
  "src/ACEtk/Xsdir/src/print.hpp","src/ACEtk/Xsdir/src/parse.hpp")

out=os.path.join(os.path.dirname(__file__),'..','properties.jsonl')
with open(out,'w') as f:
    for x in P: f.write(json.dumps(x)+"\n")
print(len(P))
