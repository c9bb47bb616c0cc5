# Design of the formal model

Subject: jpcastillog/compressed-binary-tries (C++), source in `/repo`.
Tool: Coq 8.16.1, standard library only.

## 1. What the code does

A set of integers below a universe `u` is stored as a binary trie of height
`h = floor(log2(u-1)) + 1`.  Each node is two bits (has left child, has right
child).  Nodes are stored level by level; the child of a node is found by
counting ones (`rank`).  `encodeRuns` replaces every maximal full subtree by a
`00` node.  `Intersect` walks several tries at once, sequentially or by cutting
the tries at a level that depends on the number of hardware threads.

Variants: `flatBinTrie` and `flatBinTrie_il` (one bit vector plus a last-level
bit vector), `binTrie` and `binTrie_il` (one bit vector per level),
`fastBinaryTrie` (last levels packed in machine words).

## 2. Model conventions (`Base.v`)

* A C++ computation is a total Gallina function returning `result A`:
  `Ok a`, `UB e` (undefined behaviour, with a tag: out-of-bounds access,
  indeterminate value, bad shift, bad conversion, null pointer, division by zero,
  bad free, or outside the modelled range), or `OutOfFuel`.
  A theorem that concludes `= Ok x` therefore also says: no undefined behaviour,
  and the loop ends.
* Loops are structural recursion or use explicit fuel.  `OutOfFuel` is a value
  distinct from every normal value.
* Set elements, prefixes and words are `N`.  Node identifiers, bit positions,
  levels and counters are `nat`.  Unsigned subtraction that can wrap is modelled
  where it matters (see each definition).  Additions of counters are not wrapped:
  they count objects held in memory.
* `sdsl::bit_vector` is a `list bool`.  Reading or writing at or past the size is
  `UB OutOfBounds`.  `rank(i)` is the number of ones in `[0,i)`, defined for
  `i <= size`.
* A rank structure is modelled by the bit sequence it was built over (a field of
  the trie record), so forgetting to rebuild it is visible.
* `floor(log2(x))` is `N.log2 x`; universes above 2^48, where the double
  rounding of `log2` matters, are `UB Unmodelled`.
* Indeterminate values (uninitialised locals and members) are `option`; reading
  `None` is `UB Indeterminate`.  Two exceptions are recorded in section 6.

## 3. Files

Model (each definition cites the lines of `/repo` it models):

| file | content |
|---|---|
| `Base.v` | result monad, vectors, rank, loops |
| `Split.v` | the splitting loop shared by all constructors |
| `FlatTrie.v` | `flatBinTrie`, `flatBinTrie_il` |
| `LevelTrie.v` | `binTrie`, `binTrie_il` |
| `FastTrie.v` | `fastBinaryTrie` |
| `Tries.v` | virtual dispatch of `binaryTrie` |
| `ParallelFor.v` | `parallel_for` and thread interleavings |
| `Intersection.v` | `src/intersection.cpp` and `src/fastTrieIntersection.cpp` |
| `Strict.v` | `AND` of both files again, reading an unset flag being undefined behaviour, and the threads of a parallel call with it |
| `Measures.v` | `tools/measures.cpp`, `tools/pom.cpp`: `Gap`, `Rle`, `prefixOf`, suffix sizes |
| `Reference.v` | `forceBruteIntersection`, `src/barbay_and_kenyon.cpp` |
| `EvalOrder.v` | `serialize` of flat tries for both orders of evaluating a sum |
| `Cut.v` | `load` and the query tools on files that end too early |
| `CutInput.v` | the build tools on collections that end too early |
| `Steps.v` | the parallel branch of Intersect, access by access |
| `Serialize.v` | byte-level `serialize` / `load`, `size_in_bytes` |
| `Tools.v` | the two build tools and the two query tools |
| `Text.v` | text of query logs and of numbers: `getline`, `>>`, `stoi`, `stoull`, `atoi` |
| `Cli.v` | `main` of the two build and two query tools: command lines and files |
| `StatsCli.v` | command lines of the four statistics tools |
| `Calls.v` | AND and runsAND with a record of their calls |
| `Affinity.v` | binding of workers to processors, Linux and macOS |
| `Checker.v` | the checking programs of `test/` |
| `Stats.v` | main functions of `measures`, `pom`, `classic_coders`, `cbv_coding` over an input stream with its error bits |
| `Copies.v` | objects, copies and the pointers of rank structures |
| `Report.v` | the totals printed by the build tools, with and without `--out` |
| `Table.v` | the table written by the query tool with `--out` |
| `History.v` | programs of any number of calls over several objects and files |
| `Script.v` | scripts: runs of the four tools one after the other |
| `ParCalls.v` | the parallel branch of Intersect with a record of the calls of each thread |
| `DecodeCalls.v` | the decoders with a record of their calls |
| `BuildReads.v` | the constructors with a record of the positions of the input that they read |
| `EncodeCalls.v` | encodeRuns with a record of its calls |
| `EncodeHeld.v` | encodeRuns with a record of what it holds |
| `StrictTools.v` | `performIntersections` of both query tools with the `AND` of `Strict.v` |
| `Average.v` | the averages that the tools print: conversion to float or double, division, text |
| `Timing.v` | the times that the query tools report, from those that the clock measured |
| `BuildMemory.v` | the constructors with a record of the segments, bits and words that they hold |
| `CheckerCli.v` | the main functions of the checking programs, `scripts/test_encoding.sh` |
| `StrictChecker.v` | the intersection checkers with unset flags as undefined behaviour |
| `ToolsHeap.v` | the query tools and intersection checkers with a record of the tries made and destroyed |

Specification (small, read these with the `Prop*.v` files): `Spec.v`,
`SpecTries.v`, `SpecThreads.v`, `SpecMeasures.v`, `SpecFiles.v`, `SpecTools.v`,
`SpecCopies.v`, `SpecLayout.v`, `SpecStats.v`, `SpecText.v`, `SpecCli.v`,
`SpecLost.v`, `SpecOrder.v`, `SpecLimits.v`,
`SpecStatsCli.v`, `SpecCalls.v`, `SpecChecker.v`, `SpecBarbay.v`, `SpecTwice.v`,
`SpecAnswers.v`, `SpecIds.v`, `SpecHistory.v`,
`SpecReport.v`, `SpecTable.v`, `SpecLong.v`, `SpecStrict.v`, `SpecCut.v`, `SpecCutInput.v`, `SpecSteps.v`, `SpecEnds.v`, `SpecOutput.v`, `SpecSpace.v`, `SpecLists.v`, `SpecScript.v`, `SpecAdaptive.v`,
`SpecReads.v`, `SpecCutStats.v`, `SpecOmission.v`, `SpecStrictTools.v`, `SpecAverage.v`, `SpecTiming.v`, `SpecMemory.v`, `SpecCheckerCli.v`,
  `SpecHeap.v`, `SpecReproduce.v`, `SpecDepth.v`,
  `SpecRounds.v`, `SpecSkip.v`, `SpecDistinct.v`.

Property theorems: `PropRoundTrip.v`, `PropRuns.v`, `PropIntersect.v`,
`PropParallel.v`, `PropMeasures.v`, `PropReference.v`, `PropEdges.v`,
`PropSerialize.v`, `PropTools.v`, `PropCopies.v`, `PropLayout.v`, `PropStats.v`,
`PropCli.v`, `PropOrder.v`, `PropLimits.v`, `PropStatsCli.v`, `PropCalls.v`, `PropAffinity.v`,
`PropChecker.v`, `PropFlag.v`, `PropIds.v`,
`PropHistory.v`, `PropReport.v`,
`PropTable.v`, `PropLong.v`, `PropStrict.v`, `PropEvalOrder.v`, `PropCut.v`, `PropCutInput.v`, `PropSteps.v`, `PropEnds.v`, `PropOutput.v`, `PropSpace.v`, `PropLists.v`, `PropScript.v`, `PropAdaptive.v`, `PropParCalls.v`,
`PropDecodeCalls.v`, `PropBuildReads.v`, `PropEncodeCalls.v`,
`PropCutStats.v`, `PropOmission.v`, `PropLaws.v`,
`PropStrictTools.v`, `PropAverage.v`,
`PropTiming.v`, `PropMemory.v`, `PropCheckerCli.v`,
  `PropStrictChecker.v`, `PropToolsHeap.v`,
  `PropReproduce.v`, `PropDepth.v`,
  `PropRounds.v`, `PropSkip.v`,
  `PropEncodeHeld.v`, `PropDistinct.v`, `PropEmpty.v`.  Each theorem is closed by
`exact`, with `Print Assumptions` under it and a concrete example beside it.

All other files are proofs.

## 4. Proof method

1. An abstract `tree` (leaf, full, left-only, right-only, both) with a
   membership function on numbers.  `tree_of` builds it from a list by the code's
   own split.
2. Level-order layout: level `i+1` is the concatenation of the children of level
   `i`.  The index of a child in the next level equals the number of ones before
   it.  This yields, for each variant, a relation `reps` between a node id and a
   subtree, phrased only in terms of `getNode`, `getLeftChild`, `getRightChild`.
3. The breadth-first construction loop is related to the layout by an invariant
   on the queue and counters.
4. `encodeRuns` is related to a function `compress` on trees.
5. Decode, intersection and partial intersection are proved once against `reps`.
6. Everything is stated as `filter membership (range of the universe)`, which is
   then turned into the user-level statement on lists.

## 5. Plan per property

| id | plan |
|---|---|
| C01 | model constructor, getNode, rank, decode; prove decode of build is the list |
| C02 | same for the level-wise variant, including the empty list |
| C03 | same for fast tries, plus word-bit enumeration |
| C04 | corollary of the membership lemma for nondecreasing lists |
| C05 | DFS `writeCompressTrie` related to `compress`; `writeOnes` rebuilds the layout |
| C06 | refuted in general (sets that are unions of aligned blocks of 4); exact condition proved as `_partial` |
| C07 | proved when the uninitialised flag happens to be false; refuted otherwise |
| C08 | count bits of `compress t` against `t` |
| C09, C10 | induction on depth against `reps` for a list of tries |
| C11 | same skeleton with word leaves |
| C12 | `partialAND` splits the range in order; every interleaving of the per-slot writes gives the same slots |
| C13 | refuted; `_partial` when no set contains an aligned block at or above the cut, and value by value: kept when the tries agree on the runs around it, lost when they disagree above the cut; `C13_exact_partial`: the whole vector, in order, determined by the sets (`parallel_outcome` in `SpecLost.v`) |
| C14 | the output is a sub-multiset of the intersection |
| C15 | refuted; `_partial` under the condition of C13, and the exact order by `C13_exact_partial` |
| C16 | direct on the model of `Intersect` |
| C17 | arithmetic on the chunk bounds, then interleavings of writes to distinct slots |
| C18 | loop invariant of the thread-filling loop |
| C19, C20 | parser/printer round trip with an arbitrary suffix; rank payload abstract |
| C21 | length of the printed bytes; refuted for fast tries |
| C22 | refuted for fast tries |
| C23 | number of nodes per level equals the number of distinct prefixes |
| C24 | number of ones of the last level |
| C25 | fold of merge intersections, for every permutation sorted by size |
| C26 | loop invariant: the current candidate is in the last `occr` sets |
| C27 | refuted; `_partial` for sets that start and end together; for any family, induction on the positions: a common value can only be skipped in the first pass, and after the search went back nothing more is found; `passed_by` lists the values that the first pass skips, and a call that returns appends exactly the other common values; `reads_past` says whether the first pass reads outside a set, and with one end for all sets no later read does |
| C28 | refuted |
| C29 | refuted; `_partial` for sets without a full aligned block of four; the exact outcome for every other set: the second pass keeps a full node's two zero bits off the bit vector, so ranks no longer match |
| C30 | corollary of C01-C03, C05, C07, C09-C11 |
| C31 | corollary of C09 |
| C32 | per variant: proved or refuted |
| C33 | per variant: proved or refuted |
| C34 | file printer/parser round trip over collections |
| C35 | refuted for rank `il`; proved otherwise |
| C36 | composition of C34 and the intersection theorems; over run-encoded collections in parallel the exact answer of C13 |
| C37 | loop invariant of `loadTries` |
| C38 | decode proved for an arbitrary prefix vector |
| C39 | small heap model of the rank structure's pointer; refuted; `_partial` while the original is left alone |
| C40 | allocation counting in the model of `Intersect`; refuted (leak), no double free proved; the number of arrays left is the arrays of the divided shares of C13 |
| C41 | induction on the list |
| C42 | refuted (last run not counted) |
| C43 | bit-level reasoning on the loop |
| C44 | refuted |
| C45 | count the nodes of `compress t` against the prefixes of the set |
| C46 | induction on the list; refuted for lists that start at zero |
| C47 | lengths of the printed bytes; refuted |
| C48 | positions of the nodes of a level are the sorted distinct prefixes; a node's two bits follow from membership in the halves of its block |
| C49 | loop invariants over arbitrary levels, then C48 |
| C50 | loop invariant over the remaining lists, with C23, C41, C42, C45; gap total refuted |
| C51 | same with eofbit and failbit of the stream; refuted for every file |
| C52 | same |
| C53 | grammar of logs as an inductive relation; parser follows it by induction |
| C54 | one loop iteration per setting, then induction over the settings; exact failures refute the rest |
| C55 | C36, C53 and C54 composed over a map from names to files; with several threads over runs, the exact answers of C36 |
| C56 | the breadth-first construction splits each group at the first value that goes right; the tree it gives is that of the values kept, by induction on the height |
| C57 | C56 on increasing lists, reduced modulo the rounded universe |
| C58 | every loop over the tries reaches cell 16 of a local array, or stops earlier out of bounds; from 65536 tries on partialAND is shown to look at the first n mod 65536 only, and a thread to read past its arrays |
| C59 | C09 to C12 with a universe per trie, C16 when the heights differ |
| C60 | induction over the settings on a command line, then C50 to C52 |
| C61 | a second copy of AND and runsAND that records its calls, proved to compute the same; induction over the depth for the calls, runs by InterTight |
| C62 | induction over the number of workers; the 32 processors of a set by computation; C18 for the number of workers |
| C63 | induction over the queries; the loaded tries by C34 and C37, their answers by C12 and the soundness of the parallel intersection, the reference by C26 |
| C64 | induction over the lists; each list is turned into the set it keeps (C56), whose trie decodes by C01 to C07 |
| C65 | AND over trees in which a run holds nothing; the planning phase divides these into the same parts |
| C66 | C36, with the kept lists related to the complete collection by counting |
| C67 | simulation of each step by a step over ideal objects, by C01 to C24 and induction over the program |
| C68 | sums over the kept lists, C47 for each |
| C69 | C55 for the answers, printing and reading decimal numbers |
| C70 | a construction that reads a part of the list only does the same on the part; C01 to C04 up to 2^32 |
| C71 | AND again with undefined flags (`Strict.v`); induction on the forest of common prefixes; in parallel, the same for the forest of each task, which tasks there are by the lemmas of C13; for run-encoded tries the forest of the prefixes the tries have outside their runs |
| C72 | both orders of the two writes (`EvalOrder.v`); the codecs read each vector back in the place of the other |
| C73 | the readers again, on streams that end (`Cut.v`); by cases on the structure in which the file stops |
| C74 | the build tools on streams with their error bits (`CutInput.v`); the complete lists by induction, then by cases on the last, partial one; the same for the statistics tools, whose variables keep their old bytes |
| C75 | each thread as a program of single reads and writes (`Steps.v`), stepped by an arbitrary schedule; invariant: a thread only writes cells that it owns, and its cells are as if it had run alone |
| C76 | `OutOfFuel` is unreachable: the queue of the constructors never holds more segments than the fuel (a weight that each step lowers); every recursion goes down one level of at most height many; refuted for a stored height of 0 by induction on the fuel; the loops of the statistics tools lose four bytes a round, or stand at the end, or stand for ever |
| C77 | invariant over the argument loops: the output name is empty or follows an --out; then by cases on the writes |
| C78 | from the layout of C48: a stored node is a prefix of a member, and with runs a child of a block that is not full, which therefore holds the end of an interval; then counting lists without repetition |
| C79 | from the calls of C61 in the same way |
| C80 | the tries of any lists are, bit for bit, those of the sets kept (C56), so C09 to C13 apply; sorted lists keep their values |
| C81 | induction over the lines with an invariant: which files hold which tries; each line by C54, C55 and C77, with the exact answers of C36 for several threads over runs |
| C82 | by C61 a call is at a prefix common to all sets; the interval that holds the largest of one member of each set there starts inside the block, so calls on a level are at left ends of intervals |
| C83 | the tasks into which the work is divided are disjoint subtrees: induction over the division of the work, each task by the lemma of C61 |
| C84 | the decoders and the intersection of one trie both walk its abstract tree: induction over the tree, then C61 and C79 for one trie |
| C85 | for one fixed position: at most one segment of each level contains it, so an invariant of the queue bounds its reads by the level; totals by counting |
| C86 | the encoder walks the abstract tree of C84; inversion of a successful run, success from C06 and its relatives |
| C87 | the stored levels of C48; a sorted list has one prefix more than it has changes of the prefix; the sums over levels and over members are exchanged |
| C88 | the exact outcome of C13 compared for two families: more tries divide fewer blocks and disagree more; the same tries have the same outcome |
| C89 | C71 for each call of a run, whether it is divided over threads or not; the first undefined call ends the run |
| C90 | relative errors of each rounding in rational arithmetic; the printed digits are parsed back |
| C91 | the same for a sum of times, its product by 1e-3 and a quotient; induction over the log for the rows |
| C92 | an instrumented copy of the constructors, proved to compute the same; the segments of the queue are disjoint and not empty |
| C93 | the loop over the arguments as in C54, composed with C63 and C64; a verdict is determined by what it says, so all lines of the script agree |
| C94 | C63 with the strict calls of C89: the loop over the queries passes each query that reads set flags only and stops at the first other one |
| C95 | the tools with a record of new and delete, proved to compute the same; the record is a list of positions, run against a list of live tries |
| C96 | two runs of the build tool compared over arbitrary inputs and contents of unset members; the set of files that can come out described by the values of these members |
| C97 | the fuel of each recursive function is the depth of nesting: least sufficient fuel bounded by the levels left, and more fuel changes nothing, for objects in any state |
| C98 | rounds counted as the fuel of the loops; an invariant that ties the value looked for to an interval of an arbitrary proof of the intersection, and a second one for the rounds after the end of a list |
| C99 | the counting pass followed over the numbers of the file for lists of any length; the runs of 2^30 values by an induction over the jumps, never unfolding 2^30 |
| C100 | an instrumented copy of the traversal, proved to compute the same; positions pending to be taken out are at most those of two leaves; the final ones are those of the bits of the compressed tree |
| C101 | the bits of all levels, read from the last level up, determine the tree; the tree, also a compressed one, determines the set; with the round trip of C19 and C20 the same for files |
| C102 | the plain trie of the empty set represents the tree that is one run, so C10's induction gives the result; the encoded one fails at the first read of its root |

Not expressible in the model: running time, actual memory allocation failures,
CPU affinity, console output (but see C68 for the totals of the build tools).

## 6. Trusted base and simplifications

* Coq's kernel.  `Print Assumptions` is printed under each property theorem; every
  one of them is closed under the global context (no axiom at all).
* The correspondence between the Gallina definitions and the C++ text, by reading.
* The behaviour of sdsl (bit vectors, rank) is assumed as stated in section 2.
  sdsl is not in `/repo`.  Its on-disk formats are not modelled: the theorems on
  files quantify over every format that reads back what it wrote (`codecs_ok`,
  `formats_ok`); `plain_codecs_ok` and `plain_formats_ok` show one that does.
* Exceptions to "indeterminate values are `option`":
  1. `AND` combines two flags that may be unset (`existLeft || existRight`); the
     value only reaches the returned flag, which no caller uses for the result.
     The model propagates an unset flag instead of stopping (`or_flag`).  `Strict.v`
     stops there; C71 says when it does.  Wherever it does not, the two agree, so
     C09, C11 and the other theorems on intersections with runs=false hold of the
     program read strictly only under the condition of C71, and those on the query tools
     only under that of C89.
  2. `serialize` of a fast trie writes members that may be unset; the model writes
     whatever bytes the memory held, universally quantified (`junk_hwr`,
     `junk_empty`).
* `std::thread` interleavings: each thread is a list of atomic steps on shared
  slots; a schedule is any merge of those lists.  Weak-memory effects inside one
  slot are not modelled (each slot is written by one thread only, as C17 proves).
  `Steps.v` cuts the threads into single reads and writes; C75 proves that they have no
  data race, so that C++ guarantees sequential consistency, and that the result is that
  of the larger steps.
* `std::sort` in `forceBruteIntersection` is any permutation sorted by size.
* Heap exhaustion and exceptions thrown by the standard library are not modelled,
  except where a tool or `load` throws on a wrapped size (`UB Unmodelled`).
* Copies (C39): a rank query through a pointer to changed or destroyed bits is
  undefined; the real code may return a number.
* Averages (C90): float and double are taken to be the binary formats of IEEE 754, rounded to
  nearest, each expression in its own type, and numbers to be printed as by `%g`.
* Not modelled: how long anything takes (C91 quantifies over what the clock measures), console output other than the totals and averages of the tools, what binding a thread to a processor does in
  the system, two paths naming one file, the
  coders of `classic_coders.cpp`, `pom.cpp` and `cbv_coding.cpp` (they are sdsl's;
  C51 and C52 quantify over every size function).
* `ifstream`: `read` on a stream that is not good extracts nothing and sets failbit;
  `seekg` clears eofbit first and moves only without failbit (C++11).

## 7. Findings

Facts about the code established by the theorems or met while modelling.

Construction and run encoding
* Flat tries over a universe of two values read out of bounds in `decode` for
  every set (C32).  A universe of one value takes `log2(0)` (C32).
* A fast trie over a universe of half a word or less is undefined behaviour for
  every nonempty set: its height would be zero or negative (C32).
* The level-wise trie of the empty set keeps the sizes its levels start with, those of
  the whole universe: 2^(h+1) - 2 bits, all 0 (C48, C78).
* The empty set is undefined behaviour for flat and fast tries, for every
  universe; for level-wise tries it breaks after `encodeRuns` (C33).
* Flat `encodeRuns` then `decode` reads out of bounds exactly when the set is a
  union of aligned blocks of four values (C06).
* `encodeRuns` twice corrupts the set (C29): whenever the set has a full aligned
  block of four values (in a fast trie, of two words' values) the second encoding
  or the next decode reads outside the bit vectors; the one exception is a
  level-wise trie of runs of one length, which then decodes, without any error, to
  the first value of each run.
* The one-argument constructors build a temporary and discard it (C28).
* `fastBinaryTrie` never initialises `empty_trie`; `encodeRuns` and `decode` then
  depend on the previous memory contents (C07).
* Constructors take lists as sorted: after a larger value, a value becomes the least
  number not below the one kept before it that has all of its binary ones, silently
  (C56: 5, 2, 7 is stored as 5, 6, 7; the trie is that of the set kept, bit for bit).  Fast tries do this with words.
* Values outside the universe, rounded up to a power of two, are first reduced modulo
  the rounded universe, silently (C57: 2, 17 over 12 values is stored as 2, 3).
* Flat and fast tries count a list on 32 bits: of n > 2^32 values only the first
  ((n - 1) mod 2^32) + 1 are stored, silently (C70).
* Before reading a value the constructors set aside bits for the full tree over the rounded
  universe U: 3 U - 2 in a flat trie, 2 U - 2 in a level-wise or fast one, whatever the set
  (C92: a single value below 2^k is stored in 2k bits, through 3*2^k - 2).  Only the reads, the
  iterations and the queue are bounded by the set (C85, C92).
* `binTrie::trieMeasure`, and `binTrie.hpp:148`, do not compile when used.

Intersection
* On macOS more than 32 workers shift an int by 32 or more places (C62).
* `Intersect(runs = false)` on run-encoded tries loses values (C10): exactly those around
  which some trie has an encoded run (C65).
* `Intersect(runs = true)` takes a plain level-wise trie of the empty set for the whole
  universe: intersected with a set it returns that set, alone it returns every value.
  Run-encoded, it is read out of bounds with either flag (C102).
* `Intersect(runs = true, parallel = true)` loses every common value that lies in a
  large block which is a run of some tries but not of others, and may return an
  unsorted vector (C13, C15): intersecting the whole universe with any other set
  returns nothing, and adding values to a set can remove values from the answer (C88).
  `parallel = true` is the default of the query
  tool, so run-encoded collections get wrong answers by default (C36).
* The query tools over collections built without runs read unset variables as soon as one
  answer has an odd value without the even one before it (C89); with runs they do not.
* Parallel calls on one-word fast tries with two or more threads are always undefined
  behaviour, and on tries over two values with four or more threads whenever the sets have
  a common value (C12).
* More than 16 tries overflow fixed arrays; no trie at all reads `Ts[0]`;
  `hardware_concurrency() = 0` is converted from minus infinity (C58).
* A parallel call counts the tries on 16 bits: with `runs=true`, 65536 tries that
  can be split have the whole universe as their intersection (C58).
* With runs=false, `AND` reads `existLeft` unset at every node where the tries share
  only right children: nearly every call is undefined, for example as soon as an odd
  value is common and the even one before it is not (C71).  Its threads do the same in
  a parallel call, which is the default of the query tool.
* Tries over universes with different next powers of two intersect to nothing (C59).
* Expanded roots leak in a parallel `Intersect`: all the arrays of every share that is
  divided (C40).
* `barbayKenyon` loses the smallest common value when it is the first of a set visited
  too early, and reads outside the lists (C27).  It never loses more than that value.
  It goes back to smaller values when it reaches the end of a list, and then makes up to as
  many more rounds of searches as there are lists (C98).

Storage and tools
* `fastBinaryTrie::serialize` returns a wrong count (C21) and `load` appends to
  what the object held (C22).
* `binTrie_il` can be neither stored nor loaded (C44).
* Nothing marks a collection file as complete, and no read is checked but for a test of
  the end of the file before each trie.  A file cut by a crash or a full disk makes the query tools use unset variables, or answer silently
  from a trie of which a part was never read (C73).  Opening the output for writing
  also truncates an older collection at once, before the input has been read.
* The build tools do not notice either that their input was cut: they store the lists
  before the cut as the whole collection, or fill up the last list from a variable that
  was never set (C74).  `classic_coders` and `pom` fill it up
  with the last value read.  A file cut inside the length of a list makes them count a
  further list, or not end, by the length that the bytes at hand happen to give.
* `flatBinTrie::serialize` adds the results of two calls that write to the stream; a
  compiler that evaluates the right one first stores files that `load` misreads (C72).
* `size_in_bytes` is 2 bytes short (flat, level-wise) or 14 too many (fast) (C47);
  the bits per integer that the build tools print are off by as much (C68).
* `fastBinaryTrie::serialize` writes members that nothing has set: one byte of each stored trie,
  three without runs, is whatever the memory held, so two builds of one collection can differ
  and a file leaks bytes of the heap.  No answer depends on these bytes (C96).
* A copied trie points to the bits of the original (C39).
* The fast query tool misreads the header when the rank type is `il` (C35).
* A stored fast trie whose height is damaged to 0 loads, and decoding it calls itself for
  ever (C76).
* Block sizes other than 128, 256 and 512 load through an uninitialised pointer
  (C34).
* The build tools skip a list of n values by `4*n` bytes computed in 32 bits, so after a list
  of 2^30 values or more they take values for lengths.  The file of one list can announce 31
  sets, which the query tool cannot load, or one set where many are stored (C99).
* Run encoding of a fast trie collects one position of eight bytes for each word of the old
  trie.  Nothing reads them, and they stay when the words are taken out (C100).
* The length filter drops lists of exactly the minimum length, and ids count only the
  lists that were kept: after a dropped list they mean a later list than the position the
  README speaks of, or none (C66).  `scripts/build_tries.sh` does this to a collection of
  lists of 4096 values or more: with `--min_size 4096` the lists of exactly 4096 values
  are dropped and all later lists get other ids.
* A query log without ids is read out of bounds by the fast tool (C37); an id that
  was not loaded is a null pointer; an empty line is undefined behaviour (C36).

Command lines and logs
* The query tool reads ids with `stoi`: an id of 2^31 or more ends it (C53).
* An option without its value reads `argv[argc]`, a null pointer; `build_tries` without
  arguments prints the usage and then does the same (C54).
* A value that is the name of an option is also taken as that option (C54).
* The statistics tools take `--min_length` in the place of the collection as both, and read
  a null pointer if its value is missing (C60).
* `--min_size -1` is 2^64-1, text after the digits is ignored (C54).
* `--out` of the query tool naming the log destroys the log and ends the tool; queries of more
  than 16 ids have no line in the table (C69), as line 4650 of `queries/CC-news/queries.txt`,
  which has 18.
* `--out` of a build tool naming its own input empties the input before it is read (C77).
* `scripts/run_multithread_queries_flatTries.sh` runs `--parallel t` over every file of a
  directory, those with runs too: their answers can be wrong (C81, C13).
* `build_fastTries` does nothing, silently, for word sizes other than 8, 16, 32, 64 (C54).

Checking programs
* The intersection checker of fast tries does not read the word size: every file of the build
  tool is misread (C63).
* The intersection checkers use a null pointer for an id that is no list, and read out of
  bounds if the log has no ids or its first query has none (C63).
* The encoding checker takes the rank as a `bool`: the classes of rank 2 are never checked
  (C64).
* The encoding checkers print the first ten values of a list they report, whether there are
  ten or not (fast tries, rank 0) (C64).
* Run encoding of flat tries ends the encoding checker on lists that are unions of blocks of
  four values (C64, C06).
* The exit status of the checking programs is 0 whatever they find, even if the collection
  cannot be opened (C93).
* `test_encoding` with a collection and no options checks nothing (C93).
* `scripts/test_encoding.sh` has twenty lines and at most eight different checks (C93).
* The intersection checkers read unset flags over collections without runs, and then accept
  with any value of these flags (C94).
* They never delete the tries that no query asks for (C95); the query tool for the classes
  derived from `binaryTrie` keeps all tries of the file in memory, whatever the queries ask for.

Measures
* The bits per integer that `build_tries` prints are too small for every collection whose tries
  have fewer than 166666 bytes on average (C68).
* `Rle` never counts the last run and treats zero as a member (C42).
* `prefixOf` is wrong for widths other than 64 (C43).
* `pom` takes `log2(0)` for lists that start at zero (C46).
* `measures` adds 32 bits to the gap total for the first list, because its `delta` is
  unsigned, and again after each list that ends in 0 (C50).
* `classic_coders` and `pom` test the end of the file before reading the length: the
  last list is counted twice, and if it is not longer than `min_length` the program
  never ends, since `seekg` clears eofbit (C51).
* `cbv_coding` stops at the first short list; its first two columns are always 0 (C52).
* All three use an uninitialised length on a file without lists or that cannot be
  opened (C51).

## 8. Mutation testing

`seeded/LOG.jsonl` has one line per wrong program tried: the definition edited,
the edit, the claim it breaks, the property theorems whose proofs no longer go
through, and the theorems tightened as a result.  How to read `outcome`:

* `proofs_fail`: some proofs stop, and `failed_theorems` are the property theorems that
  depend on them.  A broken script is evidence, not proof, that the theorem is false of
  the edited program: that was not shown separately for each line.  Lines with
  `first_failing_proofs` come from a run that stops at the first failing files and hides
  the files after them, so their lists can be incomplete.  Lines with `failing_proofs`
  come from a run that skips each failing proof (in the scratch copy only) and goes on to
  the end.
* `survived`: no theorem about the broken claim fails.
* `equivalent`: the edit changes nothing that is claimed; only a script broke.
