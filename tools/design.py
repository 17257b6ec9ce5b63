import json
how={
'C01':'exactness of binary_normalize below 2^53, arithmetic','C02':'case analysis on the index','C03':'list slices; refutation by example','C04':'case analysis; store/fetch laws',
'C05':'slices of concatenations','C06':'slices of concatenations, columns by induction','C07':'slices of concatenations','C08':'slices; offsets of the parts from NR and NE','C09':'induction over the data blocks with prefix sums as locators',
'C10':'induction over the tables with prefix sums and lengths','C11':'case analysis on the kind; slices','C12':'induction with locators, zero and -1 locators','C13':'induction with nested locators for any base','C14':'case analysis on the law',
'C15':'induction over the reactions with nested locator bases and rebuilt distributions','C16':'case analysis on sign and value','C17':'first-occurrence search by induction','C18':'case analysis on the stored types','C19':'slices of concatenations','C20':'induction over the groups',
'C21':'layout lemma: blocks in sequence, the search in JXS returns the start of the next block; particles by induction','C22':'case analysis on each check of generateData','C23':'exact real arithmetic of the estimate, invariant of the correction loop','C24':'layout lemma for all optional blocks',
'C25':'layout lemmas','C26':'simulation between a heap program and a value program, invariant over all programs; the classes of the model make the objects of the modelled constructors','C27':'fields and records as columns; rounding of decimals','C28':'print-read-print is a fixed point of rounding','C29':'induction over the tables of the file','C30':'list lemmas',
'C31':'stream extraction of the printed words','C32':'invariant of the splitting loop','C33':'last-occurrence in the map built by the loop','C34':'induction over entries and ratio lines','C35':'slices','C36':'slices and locators','C37':'slices; sums','C38':'induction over subshells','C39':'slices; rows of twelve','C40':'case split on the first word that is missing; induction over entries','C41':'prefix sums of block sizes','C42':'length of what the reading loops build; case analysis on the index','C43':'one monotonicity lemma per function that depends on the build mode (Modes.v), by congruence; relational version for elements written with a locator',
'C44':'a number of p+1 digits with p <= 14 is the unique decimal of that length near the double nearest to it, so printing recovers its digits (DecimalExact.v); then congruence through the text round trip of C27; typed tables: the constructors keep the data (setSZA is idempotent)',
'C45':'inversion of the constructor: each word it read and each size it verified, then bounds of the ranges the accessors read; for entries, the left end of an entry was read when it was made and the right end is the left end of another (Accepted.v)',
'C46':'the round trip theorems of the tables (C21, C24, C25) for stronger claims: each returned block also has exactly the words that were written; with these the returned blocks meet the hypotheses on the constructor\'s arguments, with the same words and counts, so the same arrays are generated (Reassemble*.v)',
'C47':'a function that moves a range, and every object made of ranges, into a larger vector; one lemma per constructor and accessor says that its outcome on the moved object is the moved outcome unless undefined (Moved.v, by the structure of the definitions and induction on the loops; the loop of MultiDistributionData needs that more fuel changes nothing); the theorems list the accessors of every class',
'C48':'both accessors come down to the same position of the vector (modular arithmetic on the indices, for every count a word can hold); the entries of the loops by induction; combined with C45 where the constructor has verified the size',
'C49':'agreement and size of the arguments as independent predicates on the constructor arguments (Lengths.v), by cases on the law; lists of components by induction: either all are accepted or the first bad one throws',
'C50':'the words that hold counts are described by a predicate on the range alone (states); then the constructor is evaluated: either each read and each size check succeeds, or the first one that needs a missing word throws (Decide.v, DecideMore.v, DecideBlocks.v, DecideThermal.v, DecideEnergy.v); entries of blocks by induction on the loops; tables by composing the decisions of their blocks (PropsDecideTables.v, PropsDecideThermal.v, PropsDecideAtomic.v, PropsDecideContinuous.v, PropsDecidePhotonuclear.v); probability tables and precursor groups by induction on the loops over them (PropsDecideProbability.v, PropsDecidePrecursors.v); the frames of TYR from the sign of a word (PropsDecideFrames.v); the words that columns and tables show from the range they read (PropsDecideWords.v)'}
m={c['property']:c for c in json.load(open('/verif/MANIFEST.json'))['claims']}
rows=''
for l in open('/verif/properties.jsonl'):
    x=json.loads(l); c=m[x['id']]
    n=c.get('note','')
    rows+='| %s | %s | %s | %s%s |\n'%(x['id'],c['status'],x['title'],how.get(x['id'],''),('. '+n if c['status']!='proved' and n else ''))
open('/verif/DESIGN.md','w').write(open('/verif/tools/design_head.md').read()+rows+open('/verif/tools/design_tail.md').read())
