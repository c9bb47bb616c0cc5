{"id": "C01", "title": "Flat trie round trip", "statement": "Building a flat trie (flatBinTrie or flatBinTrie_il) from a strictly increasing nonempty list of values below the universe u (u >= 3) and decoding it returns exactly that list, with no out-of-bounds access along the way.", "quantifier": "every universe size u with 3 <= u <= 2^48 and every strictly increasing nonempty list of values < u shorter than 2^32", "why_tests_cant": "the space of sets is exponential in u; a test samples a handful of lists, and the rank arithmetic that finds children depends on the whole prefix of the bit vector", "anchors": ["include/flatBinTrie.hpp:flatBinTrie(set,u)", "include/flatBinTrie.hpp:decode", "include/flatBinTrie.hpp:recursiveDecode", "include/flatBinTrie.hpp:getNode", "include/flatBinTrie.hpp:getLeftChild", "include/flatBinTrie.hpp:getRightChild", "include/flatBinTrie_il.hpp"]}
{"id": "C02", "title": "Level-wise trie round trip", "statement": "Building a level-wise trie (binTrie or binTrie_il) from a strictly increasing list of values below u (u >= 2) and decoding it returns exactly that list; the empty list is also returned unchanged.", "quantifier": "every u with 2 <= u <= 2^48 and every strictly increasing list (including the empty one) of values < u", "why_tests_cant": "infinitely many sets; per-level rank and node numbering interact across all levels", "anchors": ["include/binTrie.hpp:binTrie(set,u)", "include/binTrie.hpp:decode", "include/binTrie.hpp:recursiveDecode", "include/binTrie_il.hpp"]}
{"id": "C03", "title": "Fast trie round trip", "statement": "Building a fastBinaryTrie with 8, 16, 32 or 64-bit words from a strictly increasing nonempty list of values below u, where u needs at least log2(word bits) bits, and decoding it returns exactly that list.", "quantifier": "every word width in {8,16,32,64}, every u in range and every strictly increasing nonempty list", "why_tests_cant": "bit twiddling on every word pattern (2^64 of them) and every tree shape cannot be enumerated", "anchors": ["include/fastBinaryTrie.hpp:fastBinaryTrie(set,u)", "include/fastBinaryTrie.hpp:decode", "include/fastBinaryTrie.hpp:recursiveDecode", "include/fastBinaryTrie.hpp:getWord"]}
{"id": "C04", "title": "Construction deduplicates and orders", "statement": "If the input list is sorted but contains repeated values, every trie variant decodes to the strictly increasing list of the distinct values.", "quantifier": "every nondecreasing nonempty list of values < u, every trie variant", "why_tests_cant": "inputs with repetitions in every possible position cannot be enumerated", "anchors": ["include/flatBinTrie.hpp:flatBinTrie(set,u)", "include/binTrie.hpp:binTrie(set,u)", "include/fastBinaryTrie.hpp:fastBinaryTrie(set,u)"]}
{"id": "C05", "title": "Level-wise run encoding preserves the set", "statement": "For a level-wise trie, decode() after encodeRuns() returns the same list as before, for every nonempty set, including the full universe and unions of aligned blocks.", "quantifier": "every u and every strictly increasing nonempty list", "why_tests_cant": "run removal depends on the joint shape of whole subtrees; tests only meet a few shapes", "anchors": ["include/binTrie.hpp:encodeRuns", "include/binTrie.hpp:writeCompressTrie", "include/binTrie.hpp:writeOnes", "include/binTrie.hpp:runsRecursiveDecode", "include/binTrie_il.hpp"]}
{"id": "C06", "title": "Flat run encoding preserves the set", "statement": "For a flat trie, decode() after encodeRuns() returns the same list as before for every nonempty set.", "quantifier": "every u >= 3 and every strictly increasing nonempty list", "why_tests_cant": "the failing sets (unions of aligned blocks of 4) are a vanishing fraction of random sets, so random tests do not meet them and, when they do, the stray read often yields the expected bit", "anchors": ["include/flatBinTrie.hpp:encodeRuns", "include/flatBinTrie.hpp:writeCompressTrie", "include/flatBinTrie.hpp:writeOnes", "include/flatBinTrie.hpp:getNode", "include/flatBinTrie.hpp:runsRecursiveDecode"]}
{"id": "C07", "title": "Fast run encoding preserves the set", "statement": "For a fastBinaryTrie, decode() after encodeRuns() returns the same list as before for every nonempty set.", "quantifier": "every word width, every u and nonempty list, and every initial content of the object's memory", "why_tests_cant": "the outcome depends on uninitialised memory, which a test run fixes to one value", "anchors": ["include/fastBinaryTrie.hpp:encodeRuns", "include/fastBinaryTrie.hpp:writeCompressTrie", "include/fastBinaryTrie.hpp:writeOnes", "include/fastBinaryTrie.hpp:runsRecursiveDecode", "include/fastBinaryTrie.hpp:decode"]}
{"id": "C08", "title": "Run encoding never grows the trie", "statement": "encodeRuns() never increases the number of stored bits, nor the number of stored ones reported by trieMeasure(), and for fast tries never increases the number of stored words.", "quantifier": "every set and every variant", "why_tests_cant": "an upper bound over all sets is a universal claim", "anchors": ["include/flatBinTrie.hpp:encodeRuns", "include/binTrie.hpp:encodeRuns", "include/fastBinaryTrie.hpp:encodeRuns", "include/flatBinTrie.hpp:trieMeasure"]}
{"id": "C09", "title": "Sequential intersection is set intersection", "statement": "Intersect(Ts, runs=false, parallel=false) on 1 to 16 plain tries of the same height returns exactly the strictly increasing list of the values present in all the sets.", "quantifier": "every family of 1..16 sets, every common universe, any mixture of flat, flat_il, level-wise and level-wise_il tries", "why_tests_cant": "families of sets are unbounded; correctness depends on the joint traversal of all tries", "anchors": ["src/intersection.cpp:Intersect", "src/intersection.cpp:AND"]}
{"id": "C10", "title": "Sequential intersection over run-encoded tries", "statement": "Intersect(Ts, runs=true, parallel=false) on 1 to 16 run-encoded (or plain) nonempty tries of the same height returns exactly the strictly increasing list of the common values.", "quantifier": "every family of 1..16 nonempty sets and every choice of which tries are run-encoded", "why_tests_cant": "full-subtree nodes may start at any level independently in each trie; the combinations are unbounded", "anchors": ["src/intersection.cpp:Intersect", "src/intersection.cpp:runsAND"]}
{"id": "C11", "title": "Fast-trie intersection is set intersection", "statement": "Intersect over fastBinaryTrie pointers, sequential, with and without runs, returns exactly the strictly increasing list of the common values.", "quantifier": "every word width, every family of 1..16 nonempty sets, runs on or off", "why_tests_cant": "word-level AND must be right for every word pattern and every tree shape", "anchors": ["src/fastTrieIntersection.cpp:Intersect", "src/fastTrieIntersection.cpp:AND", "src/fastTrieIntersection.cpp:runsAND"]}
{"id": "C12", "title": "Parallel intersection equals sequential intersection", "statement": "Intersect(Ts, runs=false, parallel=true) returns the same vector as the sequential call, for every hardware concurrency and every interleaving of the worker threads.", "quantifier": "every family of 1..16 sets, every hardware concurrency from 1 to 65535, every schedule of the threads, both src/intersection.cpp and src/fastTrieIntersection.cpp", "why_tests_cant": "a test runs on one machine's core count and samples few schedules", "anchors": ["src/intersection.cpp:Intersect", "src/intersection.cpp:partialAND", "src/fastTrieIntersection.cpp:Intersect", "src/fastTrieIntersection.cpp:partialAND", "include/parallel_for.hpp:parallel_for"]}
{"id": "C13", "title": "Parallel intersection over run-encoded tries is complete", "statement": "Intersect(Ts, runs=true, parallel=true) returns every common value.", "quantifier": "every family of run-encoded sets and every hardware concurrency", "why_tests_cant": "needs a full subtree above the cut level in only some of the tries, and at least 2 hardware threads", "anchors": ["src/intersection.cpp:partialAND", "src/intersection.cpp:Intersect", "src/fastTrieIntersection.cpp:partialAND"]}
{"id": "C14", "title": "Parallel intersection over run-encoded tries is sound", "statement": "Every value returned by Intersect(Ts, runs=true, parallel=true) is in all the sets, and no value is returned twice.", "quantifier": "every family of run-encoded sets, hardware concurrency and schedule", "why_tests_cant": "quantifies over all schedules and shapes", "anchors": ["src/intersection.cpp:partialAND", "src/intersection.cpp:runsAND", "src/intersection.cpp:Intersect", "src/fastTrieIntersection.cpp:partialAND"]}
{"id": "C15", "title": "Parallel intersection over run-encoded tries is sorted", "statement": "Intersect(Ts, runs=true, parallel=true) returns a strictly increasing vector.", "quantifier": "every family of run-encoded sets and every hardware concurrency", "why_tests_cant": "depends on where runs fall relative to the cut level of the machine at hand", "anchors": ["src/intersection.cpp:Intersect", "src/intersection.cpp:partialAND"]}
{"id": "C16", "title": "Mismatched universes", "statement": "If two of the tries given to Intersect have different heights, the result is the empty vector and no trie is traversed.", "quantifier": "every list of tries, whatever their contents", "why_tests_cant": "quantifies over all tries", "anchors": ["src/intersection.cpp:Intersect", "src/fastTrieIntersection.cpp:Intersect"]}
{"id": "C17", "title": "parallel_for visits each index exactly once", "statement": "parallel_for(n, t, f) with t >= 1 calls f on disjoint ranges that together cover each index of [0,n) exactly once, for every interleaving of the threads, so results written per index do not depend on the schedule.", "quantifier": "every n, every t >= 1, every interleaving", "why_tests_cant": "all schedules and all divisions of n by t", "anchors": ["include/parallel_for.hpp:parallel_for"]}
{"id": "C18", "title": "Bounded thread usage", "statement": "A parallel Intersect never starts more worker threads than the largest power of two not exceeding the hardware concurrency, and its thread counters never wrap around.", "quantifier": "every family of sets and every hardware concurrency from 1 to 65535", "why_tests_cant": "a wrap-around would need specific shapes on specific machines", "anchors": ["src/intersection.cpp:Intersect", "src/fastTrieIntersection.cpp:Intersect"]}
{"id": "C19", "title": "Serialization round trip", "statement": "For flatBinTrie and binTrie, load() applied to the bytes written by serialize() restores an object with identical behaviour, consumes exactly those bytes, and overwrites whatever the object held before.", "quantifier": "every trie, encoded or not, every stream suffix, every previous content of the receiving object", "why_tests_cant": "arbitrary tries and arbitrary following bytes", "anchors": ["include/flatBinTrie.hpp:serialize", "include/flatBinTrie.hpp:load", "include/binTrie.hpp:serialize", "include/binTrie.hpp:load"]}
{"id": "C20", "title": "Fast-trie serialization round trip", "statement": "For fastBinaryTrie, load() into a fresh object restores the serialized trie and consumes exactly the bytes written.", "quantifier": "every fast trie and every stream suffix", "why_tests_cant": "arbitrary tries and arbitrary following bytes", "anchors": ["include/fastBinaryTrie.hpp:serialize", "include/fastBinaryTrie.hpp:load"]}
{"id": "C21", "title": "serialize() reports the bytes it wrote", "statement": "The value returned by serialize() equals the number of bytes appended to the stream.", "quantifier": "every trie of every variant", "why_tests_cant": "quantifies over all tries", "anchors": ["include/flatBinTrie.hpp:serialize", "include/binTrie.hpp:serialize", "include/fastBinaryTrie.hpp:serialize"]}
{"id": "C22", "title": "load() replaces the previous content", "statement": "Loading a fast trie into an object that already holds a trie yields the loaded trie.", "quantifier": "every pair of tries", "why_tests_cant": "stateful histories of the object; tests only load into fresh objects", "anchors": ["include/fastBinaryTrie.hpp:load"]}
{"id": "C23", "title": "trieMeasure counts distinct prefixes", "statement": "For a plain flat trie, trieMeasure() equals the sum over the lengths 1..height of the number of distinct bit prefixes of that length among the stored values.", "quantifier": "every set and universe", "why_tests_cant": "a counting identity over all sets", "anchors": ["include/flatBinTrie.hpp:trieMeasure", "tools/measures.cpp:Trie"]}
{"id": "C24", "title": "elements_coded counts the set", "statement": "For a plain flatBinTrie_il, elements_coded() equals the number of stored values.", "quantifier": "every set and universe", "why_tests_cant": "a counting identity over all sets", "anchors": ["include/flatBinTrie_il.hpp:elements_coded"]}
{"id": "C25", "title": "Reference intersection is set intersection", "statement": "forceBruteIntersection(S) returns the strictly increasing list of the common values whatever order std::sort leaves equal-sized sets in, and leaves S a permutation of its former content.", "quantifier": "every nonempty family of at most 65535 strictly increasing lists, every size-sorted order of them", "why_tests_cant": "std::sort is unstable; all tie orders must agree", "anchors": ["src/intersection.cpp:forceBruteIntersection"]}
{"id": "C26", "title": "Barbay-Kenyon returns only common values", "statement": "Whenever barbayKenyon completes, every value it returned is in all the sets.", "quantifier": "every family of k >= 2 lists", "why_tests_cant": "adaptive cyclic search; all inputs", "anchors": ["src/barbay_and_kenyon.cpp:barbayKenyon", "src/barbay_and_kenyon.cpp:exponentialSearch", "src/barbay_and_kenyon.cpp:binarySearch"]}
{"id": "C27", "title": "Barbay-Kenyon returns all common values", "statement": "barbayKenyon returns every value present in all the sets, without reading outside the lists.", "quantifier": "every family of k >= 2 nonempty strictly increasing lists", "why_tests_cant": "adaptive cyclic search; all inputs", "anchors": ["src/barbay_and_kenyon.cpp:barbayKenyon", "src/barbay_and_kenyon.cpp:exponentialSearch"]}
{"id": "C28", "title": "One-argument constructors", "statement": "A trie built with the one-argument constructor (universe taken from the last value) holds the given set.", "quantifier": "every nonempty strictly increasing list", "why_tests_cant": "claims about every input list", "anchors": ["include/flatBinTrie.hpp:flatBinTrie(set)", "include/binTrie.hpp:binTrie(set)"]}
{"id": "C29", "title": "encodeRuns is idempotent", "statement": "Calling encodeRuns() on an already run-encoded trie leaves the set it represents unchanged.", "quantifier": "every set and every call history", "why_tests_cant": "histories of calls, not single calls", "anchors": ["include/flatBinTrie.hpp:encodeRuns", "include/binTrie.hpp:encodeRuns", "include/fastBinaryTrie.hpp:encodeRuns"]}
{"id": "C30", "title": "All variants agree", "statement": "Flat, flat_il, level-wise, level-wise_il and fast tries of the same set decode to the same list and give the same intersections.", "quantifier": "every set, every universe, every word width", "why_tests_cant": "relates several implementations on all inputs", "anchors": ["include/flatBinTrie.hpp", "include/flatBinTrie_il.hpp", "include/binTrie.hpp", "include/binTrie_il.hpp", "include/fastBinaryTrie.hpp", "src/intersection.cpp", "src/fastTrieIntersection.cpp"]}
{"id": "C31", "title": "Intersection laws", "statement": "Intersect of one trie equals its decode; the result does not depend on the order of the tries and repeating a trie does not change it; adding a trie can only remove values.", "quantifier": "every family of tries", "why_tests_cant": "algebraic laws over all inputs", "anchors": ["src/intersection.cpp:Intersect"]}
{"id": "C32", "title": "Smallest universes", "statement": "Round trip and intersection also hold for the smallest universes (u = 1, u = 2) and, for fast tries, for universes that fit in one word.", "quantifier": "every variant at u <= 2 and every word width at u <= word bits, sequential and parallel", "why_tests_cant": "tests use large universes only", "anchors": ["include/flatBinTrie.hpp", "include/binTrie.hpp", "include/fastBinaryTrie.hpp", "src/intersection.cpp:Intersect", "src/fastTrieIntersection.cpp:Intersect"]}
{"id": "C33", "title": "Empty sets", "statement": "A trie built from the empty set decodes to the empty list, before and after encodeRuns().", "quantifier": "every variant and universe", "why_tests_cant": "edge case of each variant, present in no test", "anchors": ["include/flatBinTrie.hpp:flatBinTrie(set,u)", "include/binTrie.hpp:binTrie(set,u)", "include/fastBinaryTrie.hpp:fastBinaryTrie(set,u)"]}
{"id": "C34", "title": "Collection files round trip", "statement": "The header and tries written by the build tool for a collection are read back by the query tool as the same number of tries, in order, each holding the corresponding kept posting list.", "quantifier": "every collection file, every rank type and flags, flat and level-wise", "why_tests_cant": "arbitrary collections", "anchors": ["tools/build_tries.cpp:buildCollection", "tools/intersection_query_log.cpp:loadSequences", "tools/intersection_query_log.cpp:main"]}
{"id": "C35", "title": "Fast collection files round trip", "statement": "The header written by build_fastTries is read back with the same meaning by intersection_querylog_fastTrie.", "quantifier": "every rank type, word size and flags", "why_tests_cant": "quantifies over all command-line combinations and collections", "anchors": ["tools/build_fastTries.cpp", "tools/intersection_querylog_fastTrie.cpp"]}
{"id": "C36", "title": "Query answers end to end", "statement": "For a query of at most 16 ids, the answer computed by the query tool over a built collection is the intersection of the posting lists with those positions in the (filtered) collection.", "quantifier": "every collection, every query, every variant, plain tries in parallel mode or run-encoded in sequential mode", "why_tests_cant": "end-to-end over all collections and queries", "anchors": ["tools/intersection_query_log.cpp:performIntersections", "tools/build_tries.cpp:buildCollection"]}
{"id": "C37", "title": "Selective loading", "statement": "The fast query tool loads exactly the tries whose ids occur in the query log and are below the number of sets.", "quantifier": "every query log and every collection size", "why_tests_cant": "all subsets of ids", "anchors": ["tools/intersection_querylog_fastTrie.cpp:loadTries"]}
{"id": "C38", "title": "Decode only appends", "statement": "decode(v) leaves the previous content of v as a prefix and appends the set.", "quantifier": "every vector and every trie", "why_tests_cant": "quantifies over all previous contents", "anchors": ["include/flatBinTrie.hpp:decode", "include/binTrie.hpp:decode", "include/fastBinaryTrie.hpp:decode"]}
{"id": "C39", "title": "Copied tries", "statement": "A copy of a trie decodes to the same list as the original, whatever later happens to the original.", "quantifier": "every trie and every later operation on the original", "why_tests_cant": "histories involving object lifetime; a freed bit vector often still holds the old bits", "anchors": ["include/flatBinTrie.hpp:b_rank", "include/fastBinaryTrie.hpp:b_rank"]}
{"id": "C40", "title": "Memory of a parallel intersection", "statement": "A parallel Intersect frees every array it allocates exactly once.", "quantifier": "every family of sets and hardware concurrency", "why_tests_cant": "leaks do not change results", "anchors": ["src/intersection.cpp:Intersect", "src/intersection.cpp:partialAND", "src/fastTrieIntersection.cpp:Intersect"]}
{"id": "C41", "title": "Gap measure", "statement": "Gap(v) equals the sum, over the values, of the number of binary digits of max(1, gap to the previous value).", "quantifier": "every strictly increasing list", "why_tests_cant": "all lists", "anchors": ["tools/measures.cpp:Gap"]}
{"id": "C42", "title": "Run-length measure", "statement": "Rle(v) accounts for every run and every gap of the list.", "quantifier": "every strictly increasing list", "why_tests_cant": "all lists", "anchors": ["tools/measures.cpp:Rle"]}
{"id": "C43", "title": "Distinguishing suffix", "statement": "prefixOf(x, y, 64) with x != y returns x with exactly the leading bits common to x and y removed.", "quantifier": "every pair of 64-bit values", "why_tests_cant": "2^128 pairs", "anchors": ["tools/pom.cpp:prefixOf"]}
{"id": "C44", "title": "Interleaved level-wise tries can be stored", "statement": "A binTrie_il written with serialize() and read with load() decodes to the same list.", "quantifier": "every binTrie_il", "why_tests_cant": "quantifies over all tries", "anchors": ["include/binTrie_il.hpp:serialize", "include/binTrie_il.hpp:load"]}
{"id": "C45", "title": "Trie-run measure", "statement": "After encodeRuns(), trieMeasure() of a flat trie equals the sum over the prefix lengths of the number of distinct prefixes of stored values that do not lie strictly inside a maximal full aligned block (of at least four values).", "quantifier": "every set and universe", "why_tests_cant": "the measure depends on the run structure of the whole set", "anchors": ["include/flatBinTrie.hpp:trieMeasure", "include/flatBinTrie.hpp:encodeRuns", "tools/measures.cpp:Trie"]}
{"id": "C46", "title": "Suffix sizes are defined", "statement": "The size estimate of tools/pom.cpp over a posting list takes only logarithms of positive numbers and is the sum of the Elias-gamma code lengths of the distinguishing suffixes.", "quantifier": "every strictly increasing list", "why_tests_cant": "all lists", "anchors": ["tools/pom.cpp:prefixOf", "tools/pom.cpp:main"]}
{"id": "C47", "title": "size_in_bytes() is the stored size", "statement": "size_in_bytes() equals the number of bytes that serialize() writes for the same trie.", "quantifier": "every trie of every variant", "why_tests_cant": "quantifies over all tries", "anchors": ["include/flatBinTrie.hpp:size_in_bytes", "include/binTrie.hpp:size_in_bytes", "include/fastBinaryTrie.hpp:size_in_bytes"]}
{"id": "C48", "title": "The stored bits are determined by the set", "statement": "The bit vectors of a trie hold, level by level and prefix by prefix in increasing order, two bits per distinct prefix of the stored values: whether some value continues it with 0, and with 1. After encodeRuns() a prefix all of whose continuations are stored has the bits 00 and nothing below it. Fast tries replace the last levels by one word per prefix.", "quantifier": "every nonempty set and universe, every variant, plain and run-encoded", "why_tests_cant": "a decode round trip does not fix the stored format, on which files written by other builds depend", "anchors": ["include/flatBinTrie.hpp:flatBinTrie", "include/flatBinTrie.hpp:encodeRuns", "include/binTrie.hpp:binTrie", "include/binTrie.hpp:encodeRuns", "include/fastBinaryTrie.hpp:fastBinaryTrie", "include/fastBinaryTrie.hpp:encodeRuns"]}
{"id": "C49", "title": "Construction from recorded positions", "statement": "The flat-trie constructor that takes the positions of the ones and the number of bits of each level stores exactly these bits; from the levels of a set it gives the trie of the set, from the levels with runs the run-encoded trie.", "quantifier": "every sequence of levels, every nonempty set and universe", "why_tests_cant": "all level contents", "anchors": ["include/flatBinTrie.hpp:flatBinTrie(ones_to_write)"]}
{"id": "C50", "title": "Totals of the measures tool", "statement": "tools/measures reports, over the lists with more than min_length values, their number, the total number of values, and the sums of the gap, run-length and trie measures; the gap total also counts the distance from the end of one list to the start of the next.", "quantifier": "every collection file and min_length", "why_tests_cant": "the totals depend on every list of the file", "anchors": ["tools/measures.cpp:main"]}
{"id": "C51", "title": "Totals of the coder tools", "statement": "tools/classic_coders and tools/pom end, and report the number of lists with more than min_length values, their total length and the sums of the sizes of their encodings.", "quantifier": "every collection file, min_length and coder sizes", "why_tests_cant": "termination and end-of-file handling for all files", "anchors": ["tools/classic_coders.cpp:main", "tools/pom.cpp:main"]}
{"id": "C52", "title": "Totals of the bit-vector tool", "statement": "tools/cbv_coding reports the number of lists with more than min_length values, their total length and the sum of the sizes of their characteristic vectors.", "quantifier": "every collection file, min_length and bit-vector size", "why_tests_cant": "end-of-file handling for all files", "anchors": ["tools/cbv_coding.cpp:main"]}
{"id": "C53", "title": "Query logs as text", "statement": "The query tools read a log of one query per line, each the decimal ids separated by blanks, as exactly these queries.", "quantifier": "every text of that form, every list of queries", "why_tests_cant": "blanks, line ends, empty lines and digits in every combination", "anchors": ["tools/intersection_query_log.cpp:loadQueryLog", "tools/intersection_querylog_fastTrie.cpp:loadQueryLog"]}
{"id": "C54", "title": "Command lines", "statement": "Every option of the build and query tools has the value last given to it on the command line, whatever the order and the other arguments, and its default otherwise; a wrong command line is rejected.", "quantifier": "every list of arguments", "why_tests_cant": "all orders and repetitions of options", "anchors": ["tools/build_tries.cpp:main", "tools/build_fastTries.cpp:main", "tools/intersection_query_log.cpp:main", "tools/intersection_querylog_fastTrie.cpp:main"]}
{"id": "C55", "title": "From command lines to answers", "statement": "Running the build tool on a collection file and then the query tool on its output and a query log answers every query with the intersection of the lists kept by the options, and changes no other file.", "quantifier": "every collection, log, options and schedule", "why_tests_cant": "the composition of all parts over all inputs", "anchors": ["tools/build_tries.cpp:main", "tools/intersection_query_log.cpp:main", "tools/build_fastTries.cpp:main", "tools/intersection_querylog_fastTrie.cpp:main"]}
{"id": "C56", "title": "Lists in any order", "statement": "A trie built from a list of distinct values, in any order, decodes to the set of these values.", "quantifier": "every list of distinct values below the universe size, every variant", "why_tests_cant": "all orders of all lists", "anchors": ["include/flatBinTrie.hpp:flatBinTrie", "include/binTrie.hpp:binTrie", "include/fastBinaryTrie.hpp:fastBinaryTrie"]}
{"id": "C57", "title": "Values outside the universe", "statement": "Values at or above the universe size are kept out of the trie, and do not disturb the members.", "quantifier": "every increasing list and universe size, every variant", "why_tests_cant": "all values outside the universe next to all sets", "anchors": ["include/flatBinTrie.hpp:flatBinTrie", "include/binTrie.hpp:binTrie", "include/fastBinaryTrie.hpp:fastBinaryTrie"]}
{"id": "C58", "title": "Limits of an intersection", "statement": "Intersect returns the intersection of any number of tries, on any machine.", "quantifier": "every family of sets, every hardware concurrency, every schedule", "why_tests_cant": "all numbers of tries and threads", "anchors": ["src/intersection.cpp:Intersect", "src/fastTrieIntersection.cpp:Intersect"]}
{"id": "C59", "title": "Tries over different universe sizes", "statement": "Intersecting tries built over different universe sizes returns the values common to all the sets.", "quantifier": "every family of sets with their universe sizes, every variant", "why_tests_cant": "all combinations of universe sizes", "anchors": ["src/intersection.cpp:Intersect", "src/fastTrieIntersection.cpp:Intersect"]}
{"id": "C60", "title": "Command lines of the statistics tools", "statement": "Each statistics tool reports the totals of the collection named first, for the minimal length given last (0 if none), whatever else is on the command line; a command line with no collection, or a length that is missing or no number, is rejected.", "quantifier": "every command line, every set of files, each of the four tools", "why_tests_cant": "all command lines", "anchors": ["tools/measures.cpp:main", "tools/pom.cpp:main", "tools/classic_coders.cpp:main", "tools/cbv_coding.cpp:main"]}
{"id": "C61", "title": "Work of a sequential intersection", "statement": "A sequential intersection looks once at each prefix that members of all sets have in common, but not inside a run that all tries share, and at nothing else; so it makes at most one call per member of any one of the sets and binary digit, and one more.  Fast tries stop at words.", "quantifier": "every family of one to sixteen sets and every choice of trie variants, with and without runs", "why_tests_cant": "all families of sets; the work cannot be read off a result", "anchors": ["src/intersection.cpp:AND", "src/intersection.cpp:runsAND", "src/fastTrieIntersection.cpp:AND", "src/fastTrieIntersection.cpp:runsAND"]}
{"id": "C62", "title": "Processors of the workers", "statement": "Worker i of a parallel loop is bound to processor i and to no other, and binding it has no other effect.", "quantifier": "every number of workers, Linux and macOS", "why_tests_cant": "numbers of workers no test machine has", "anchors": ["include/parallel_for.hpp:parallel_for", "include/parallel_for_macos.hpp:CPU_SET", "include/parallel_for_macos.hpp:CPU_ISSET", "include/parallel_for_macos.hpp:sched_getaffinity", "include/parallel_for_macos.hpp:pthread_setaffinity_np", "include/parallel_for_macos.hpp:parallel_for"]}
{"id": "C63", "title": "Verdict of the intersection checker", "statement": "The project's intersection checkers accept a collection and a query log exactly if every query of at most 16 ids gets the right answer, and otherwise name the first that does not.", "quantifier": "every collection, query log, schedule and number of threads", "why_tests_cant": "a checker is itself only run on data where it accepts", "anchors": ["test/test_intersection.cpp:loadTries", "test/test_intersection.cpp:performIntersections", "test/test_intersection_fastTrie.cpp:loadTries", "test/test_intersection_fastTrie.cpp:performIntersections", "test/test_intersection_fastTrie.cpp:main"]}
{"id": "C64", "title": "Reports of the encoding checker", "statement": "The project's encoding checkers report exactly the lists, longer than the minimum, that a trie of the chosen class does not give back; these are the lists that are not increasing or not within the universe.", "quantifier": "every collection, class, word size and minimum length", "why_tests_cant": "lists that break the construction, and all contents of uninitialised memory", "anchors": ["test/test_encoding.cpp:verifyEncode", "test/test_encoding.cpp:main", "test/test_fastTrie.cpp:verifyEncode", "test/test_fastTrie.cpp:main"]}
{"id": "C65", "title": "Intersection that ignores runs", "statement": "Intersect(Ts, runs=false) on nonempty tries of which some or all are run-encoded returns exactly the increasing list of the common values around which no trie has an encoded run (four aligned values or more; two words or more in fast tries), sequentially and in parallel alike.", "quantifier": "every family of 1..16 sets and choice of the encoded tries, every schedule, every hardware concurrency (in parallel up to 65535, over at least three values, or two words for fast tries)", "why_tests_cant": "which values are missing depends on the positions of all runs of all tries", "anchors": ["src/intersection.cpp:Intersect", "src/intersection.cpp:AND", "src/intersection.cpp:partialAND", "src/fastTrieIntersection.cpp:Intersect", "src/fastTrieIntersection.cpp:AND", "src/fastTrieIntersection.cpp:partialAND"]}
{"id": "C66", "title": "Ids are positions in the complete collection", "statement": "An id in the query log means the posting list at that position of the complete collection, also when the collection was built with a length filter; --min_size m leaves out the lists with fewer than m values and --max_size those with more than the maximum.", "quantifier": "every collection, both bounds of the filter, every build option and query mode of C36, every query", "why_tests_cant": "where an id leads depends on the lengths of all the lists before it", "anchors": ["README.md", "tools/build_tries.cpp:buildCollection", "tools/build_fastTries.cpp:buildCollection", "tools/intersection_query_log.cpp:loadSequences", "tools/intersection_querylog_fastTrie.cpp:loadTries"]}
{"id": "C67", "title": "Programs over several tries", "statement": "In a program that constructs, run-encodes, stores, loads, decodes, intersects and deletes any number of tries in any order, every call behaves as on plain sets: each decode shows the set the object was given or loaded, each intersection the increasing common values, and nothing is undefined. Allowed are: runs encoded at most once per object; the class's limits on sets and universes; for fast tries loading into fresh objects only, and decoding run-encoded ones only where the memory of empty_trie was false; intersections within the limits of their own properties.", "quantifier": "every program (any number and order of steps, objects and files), every schedule of every parallel step, every content of memory that constructors leave unset", "why_tests_cant": "a history of calls has no bounded number of shapes; what a call leaves in an object or file matters to all later calls", "anchors": ["include/binaryTrie.hpp:binaryTrie", "include/fastBinaryTrie.hpp:fastBinaryTrie", "src/intersection.cpp:Intersect", "src/fastTrieIntersection.cpp:Intersect", "tools/build_tries.cpp:buildCollection", "tools/intersection_query_log.cpp:performIntersections"]}
{"id": "C68", "title": "Report of the build tools", "statement": "For every collection they can build, the build tools report its universe, the number of lists and of integers stored, and as size of the stored tries (from which the bits per integer follow) the bytes written for them; the report is the same with and without --out, and without --out no file changes.", "quantifier": "every collection, filter and build option, every format of the sdsl structures", "why_tests_cant": "the totals run over every list of the collection; the size is counted by other code than writes it", "anchors": ["tools/build_tries.cpp:buildCollection", "tools/build_fastTries.cpp:buildCollection", "include/binaryTrie.hpp:size_in_bytes", "include/fastBinaryTrie.hpp:size_in_bytes"]}
{"id": "C69", "title": "Table of the query tool", "statement": "With --out, the query tool writes a table with one line for each query of the log, in the order of the log, giving the number of ids of the query and the number of values its lists have in common; no other file changes.", "quantifier": "every collection, log, build and query option, thread count and schedule, every text of the times", "why_tests_cant": "the table depends on the whole collection and log; the tests compare no files", "anchors": ["tools/intersection_query_log.cpp:performIntersections", "tools/intersection_query_log.cpp:main"]}
{"id": "C70", "title": "Lists of any length", "statement": "A constructor stores every value of the list it is given, however many there are.", "quantifier": "every sorted list below the universe, of any length", "why_tests_cant": "a list of 2^32 values takes 32 GB; no test builds one", "anchors": ["include/flatBinTrie.hpp:flatBinTrie", "include/flatBinTrie_il.hpp:flatBinTrie_il", "include/binTrie.hpp:binTrie", "include/fastBinaryTrie.hpp:fastBinaryTrie"]}
{"id": "C71", "title": "No variable is read before it is set", "statement": "An intersection, sequential or parallel, reads no variable it has not set, so what it returns is determined by the sets.", "quantifier": "every 1 to 16 tries built from sets of the same universe", "why_tests_cant": "which flags are set depends on every prefix the sets have in common, and an unset one rarely changes the result that a test looks at", "anchors": ["src/intersection.cpp:AND", "src/intersection.cpp:Intersect", "src/fastTrieIntersection.cpp:AND"]}
{"id": "C72", "title": "Saved tries do not depend on the compiler", "statement": "What serialize writes for a flat trie is the same under every C++ compiler, and load reads it back.", "quantifier": "every flat trie built from a set and every order of evaluation that C++ allows", "why_tests_cant": "a test runs what one compiler makes of the expression", "anchors": ["include/flatBinTrie.hpp:serialize", "include/flatBinTrie.hpp:load", "include/flatBinTrie_il.hpp:serialize"]}
{"id": "C73", "title": "A collection cut short is never used as if complete", "statement": "When a build was interrupted, or the disk was full, so that only the first bytes of the collection file are there, the query tools report it; they do not answer queries from what is there as if it were everything.", "quantifier": "every collection and set of options, every byte at which the file stops, every content of the memory, every query log", "why_tests_cant": "a crash can stop the writing at any byte", "anchors": ["tools/build_tries.cpp:buildCollection", "tools/intersection_query_log.cpp:loadSequences", "tools/intersection_querylog_fastTrie.cpp:loadTries", "include/flatBinTrie.hpp:load", "include/binTrie.hpp:load", "include/fastBinaryTrie.hpp:load"]}
{"id": "C74", "title": "A truncated collection is reported, not built", "statement": "When the collection given to a build tool or to one of the tools that report statistics ends before its last list is complete, because it was only partly copied or written, the tool says so; it does not take the lists that are there as if they were all.", "quantifier": "every collection and set of options, every byte at which the collection ends", "why_tests_cant": "a copy can stop at any byte, and what happens depends on whether it is inside a list and on the options that select lists", "anchors": ["tools/build_tries.cpp:buildCollection", "tools/build_tries.cpp:read_inv_list", "tools/build_fastTries.cpp:buildCollection", "tools/build_fastTries.cpp:read_inv_list", "tools/classic_coders.cpp:main", "tools/pom.cpp:main", "tools/cbv_coding.cpp:main", "tools/measures.cpp:main"]}
{"id": "C75", "title": "Parallel intersection has no data races", "statement": "The threads of a parallel intersection never access the same memory at the same time with one of them writing, and the result does not depend on how their single reads and writes are interleaved: if some interleaving returns a result, every one that runs to the end returns it.", "quantifier": "every family of tries of every kind, every number of tasks, every interleaving of the single memory accesses of the threads, at every moment of the execution", "why_tests_cant": "a race shows in a few of very many interleavings, and a test run sees one of them", "anchors": ["src/intersection.cpp:Intersect", "src/fastTrieIntersection.cpp:Intersect", "include/parallel_for.hpp:parallel_for"]}
{"id": "C76", "title": "Calls and programs always end", "statement": "Every call (construction, run encoding, decoding, intersection) and every run of the build, query and statistics tools ends after finitely many steps: it returns, reports an error, or has undefined behaviour, but never loops or recurses for ever.", "quantifier": "every list and universe, every object whatever its fields (constructed, loaded or damaged), every scheduler, every command line and every content of the files", "why_tests_cant": "a test that does not end is only known to be slow; termination must hold for every input and every content of a file", "anchors": ["include/flatBinTrie.hpp:flatBinTrie", "include/fastBinaryTrie.hpp:fastBinaryTrie", "include/binTrie.hpp:binTrie", "include/fastBinaryTrie.hpp:recursiveDecode", "src/intersection.cpp:Intersect", "tools/build_tries.cpp:main", "tools/intersection_query_log.cpp:main", "tools/measures.cpp:main", "tools/cbv_coding.cpp:main", "tools/classic_coders.cpp:main", "tools/pom.cpp:main"]}
{"id": "C77", "title": "Tools change no file but their output", "statement": "A build or query tool changes no file except one named after --out on its command line, and never changes its first input file; this also holds when the command line is malformed or the query tool ends by an exception.", "quantifier": "every command line, every content of every file", "why_tests_cant": "command lines are unbounded texts, and a test looks at the files it expects to change, not at all others", "anchors": ["tools/build_tries.cpp:main", "tools/build_tries.cpp:buildCollection", "tools/build_fastTries.cpp:main", "tools/intersection_query_log.cpp:main", "tools/intersection_query_log.cpp:performIntersections"]}
{"id": "C78", "title": "Space of a trie", "statement": "A trie of n >= 1 values of h binary digits stores on each level l at most two bits for each of min(2^l, n) nodes, so never more than 2nh bits (only the level-wise trie of the empty set stores more: 2^(h+1)-2 bits, as the whole universe does); with runs encoded a set that consists of r intervals needs at most 4r nodes on a level too, however long the intervals are.  Fast tries replace the last levels by at most min(n, 4r) words.", "quantifier": "every set and universe, every word size, every way to write the set as a union of intervals", "why_tests_cant": "the bound must hold for every set of every size; tests measure a few collections", "anchors": ["include/flatBinTrie.hpp:flatBinTrie", "include/flatBinTrie.hpp:encodeRuns", "include/binTrie.hpp:binTrie", "include/binTrie.hpp:encodeRuns", "include/fastBinaryTrie.hpp:fastBinaryTrie", "include/fastBinaryTrie.hpp:encodeRuns"]}
{"id": "C79", "title": "Work over runs depends on their number only", "statement": "A sequential intersection of run-encoded tries makes at most 4 calls per binary digit for each interval of the sets (8 for the last digit), and one more: the work grows with the number of intervals, not with the number of values.", "quantifier": "every family of 1 to 16 run-encoded tries, every way to write the sets as unions of intervals", "why_tests_cant": "the bound must hold for all sets; a test times a few of them", "anchors": ["src/intersection.cpp:AND", "src/fastTrieIntersection.cpp:AND"]}
{"id": "C80", "title": "Intersections of tries of any lists", "statement": "Whatever nonempty lists the tries were built from, Intersect returns the values that all of the tries decode to, each once and in increasing order; when the lists are sorted, possibly with repeated values, these are the values that occur in all of the lists.", "quantifier": "every family of 1 to 16 nonempty lists (unsorted, with repetitions, with values outside the universe), every class of tries, every number of processors and schedule", "why_tests_cant": "tests use sorted lists without repetition; the claim is about every list a data file may hold", "anchors": ["src/intersection.cpp:Intersect", "src/fastTrieIntersection.cpp:Intersect", "include/flatBinTrie.hpp:flatBinTrie", "include/binTrie.hpp:binTrie", "include/fastBinaryTrie.hpp:fastBinaryTrie"]}
{"id": "C81", "title": "Scripts of builds and queries", "statement": "In a script that builds files of tries from collections with any mixture of options, and queries them with query logs, every query gets the values that occur in all of its lists, whichever tool, options, number of processors and schedule were used; so all the ways to ask give the same answers, and the script changes no collection and no log.", "quantifier": "every sequence of runs of the two build tools and the two query tools, in any order and over any files, every number of processors, schedule and content of unset memory", "why_tests_cant": "the scripts are a list of dozens of lines over files of gigabytes, checked by nobody; the claim is about every such list", "anchors": ["scripts/build_tries.sh", "scripts/build_fastTries.sh", "scripts/run_singlethread_queries_flatTries.sh", "scripts/run_multithread_queries_flatTries.sh", "scripts/run_multithread_fastTries_queries.sh", "tools/build_tries.cpp:main", "tools/build_fastTries.cpp:main", "tools/intersection_query_log.cpp:main", "tools/intersection_querylog_fastTrie.cpp:main"]}
{"id": "C82", "title": "Intersection adapts to the difficulty of the instance", "statement": "However large the sets are, the work of an intersection is bounded by the size of the shortest proof of its result: if k intervals cover the universe, each of them avoided by one of the sets or a single common value, the procedure makes at most k calls on each level of the tries, so about k log(u/k) in all. With run-encoded tries an interval that all sets contain counts as one, however many values it holds.", "quantifier": "every universe, every 1 to 16 sets, every trie variant, every family of intervals that proves the result", "why_tests_cant": "a benchmark measures the instances at hand; the bound is about all instances and all proofs of their results", "anchors": ["src/intersection.cpp:AND", "src/intersection.cpp:runsAND", "src/fastTrieIntersection.cpp:AND", "src/fastTrieIntersection.cpp:runsAND"]}
{"id": "C83", "title": "Threads of a parallel call share the work without repeating any", "statement": "A parallel intersection starts at most as many threads as asked for. No prefix is examined twice, by one thread or by two, and the threads examine only prefixes that the sequential call examines too. Without runs, everything the sequential call examines below the levels that were divided is examined by exactly one thread. So all threads together stay within the bounds of a sequential call. (How evenly the work is shared is not promised.)", "quantifier": "every universe, every 1 to 16 sets, every trie variant, run-encoded or not, every number of threads below 65536 and every schedule", "why_tests_cant": "repeated work leaves every result right; it shows only in a record of all calls of all threads, for all inputs", "anchors": ["src/intersection.cpp:Intersect", "src/intersection.cpp:partialAND", "src/fastTrieIntersection.cpp:Intersect", "src/fastTrieIntersection.cpp:partialAND"]}
{"id": "C84", "title": "Decoding examines every stored prefix once", "statement": "decode makes one call for the root and one for each other prefix of a member, and no call twice; below the top of an encoded run it makes none. So it makes at most one call per value and binary digit and one more, and with encoded runs a number of calls that depends on the number of intervals only. The calls are those of an intersection of the trie alone, in the same order.", "quantifier": "every universe, every nonempty set, every trie variant, plain or run-encoded, every previous content of the output vector", "why_tests_cant": "repeated or useless work leaves every result right", "anchors": ["include/flatBinTrie.hpp:decode", "include/flatBinTrie_il.hpp:decode", "include/binTrie.hpp:decode", "include/binTrie_il.hpp:decode", "include/fastBinaryTrie.hpp:decode"]}
{"id": "C85", "title": "Construction reads each value at most once per binary digit", "statement": "A constructor that returns has read no position of its input more often than there are binary digits below the universe (for the fast trie: the digits above the words, and once more for the words), reads no position past the end, and reads at least one value in every iteration of its loop. So the reads and the iterations are at most digits times values, and every set is stored within that bound. The input need not be sorted.", "quantifier": "every universe of at least two values, every input vector on which the constructor returns, every trie class and word size", "why_tests_cant": "repeated work leaves every trie right, and a quadratic constructor passes every test on small sets", "anchors": ["include/flatBinTrie.hpp:flatBinTrie", "include/flatBinTrie_il.hpp:flatBinTrie_il", "include/binTrie.hpp:binTrie", "include/binTrie_il.hpp:binTrie_il", "include/fastBinaryTrie.hpp:fastBinaryTrie"]}
{"id": "C86", "title": "Run encoding visits every stored prefix once", "statement": "encodeRuns makes one call for the root and one for each other stored prefix of a member, and no call twice, on a trie of any set. These are the calls that decode makes, in the same order, without the calls for whole values (a fast trie makes none of those in decode either). So it makes at most one call per value and binary digit.", "quantifier": "every universe, every nonempty set, every trie variant and word size", "why_tests_cant": "repeated or useless work leaves every result right", "anchors": ["include/flatBinTrie.hpp:encodeRuns", "include/flatBinTrie_il.hpp:encodeRuns", "include/binTrie.hpp:encodeRuns", "include/binTrie_il.hpp:encodeRuns", "include/fastBinaryTrie.hpp:encodeRuns"]}
{"id": "C87", "title": "The size of a trie is that of its set without shared prefixes", "statement": "Before run encoding, the size of a trie follows from its set. The trie column of the measures tool is the number of binary digits of the set with shared prefixes omitted: all digits of the first member, and of each other member those from the first digit on that differs from the member before. Flat and level-wise tries store twice as many bits, less one digit of each member but the first; a fast trie stores one word for each group of members that share it and two bits for each prefix above. The suffixes are those that pom codes. So a subset never takes more space than its set.", "quantifier": "every universe, every nonempty set, every trie variant and word size", "why_tests_cant": "a count that is off for one shape of the set goes unnoticed in a total", "anchors": ["include/flatBinTrie.hpp:flatBinTrie", "include/binTrie.hpp:binTrie", "include/fastBinaryTrie.hpp:fastBinaryTrie", "include/flatBinTrie.hpp:trieMeasure", "tools/pom.cpp:prefixOf", "tools/measures.cpp:Trie"]}
{"id": "C88", "title": "Laws of parallel intersection over run-encoded tries", "statement": "Parallel intersection over run-encoded tries may lose common values (C13), but it stays a function of the set of tries: the order of the tries, repeated tries and the schedule do not change the vector, and adding tries never adds values. One trie by itself loses nothing. So the answers of a query log depend only on the set of ids of each query, and a query with more ids answers no other values. Larger sets need not give more values.", "quantifier": "every family of 1..16 sets, every hardware concurrency from 1 to 65535, every schedule, every query log, both kinds of tries", "why_tests_cant": "which values are lost depends on how the tries are divided among the threads, which depends on all of them", "anchors": ["src/intersection.cpp:Intersect", "src/intersection.cpp:partialAND", "src/fastTrieIntersection.cpp:Intersect", "src/fastTrieIntersection.cpp:partialAND", "tools/intersection_query_log.cpp:performIntersections", "tools/intersection_querylog_fastTrie.cpp:performIntersections"]}
{"id": "C89", "title": "The query tools use only variables they have set", "statement": "A query tool, run over a collection it can load, reads no variable before it has set it.", "quantifier": "every collection, every query log, every mode, hardware concurrency and schedule, both query tools", "why_tests_cant": "a variable read before it is set usually holds a harmless value in a test", "anchors": ["tools/intersection_query_log.cpp:performIntersections", "tools/intersection_querylog_fastTrie.cpp:performIntersections", "src/intersection.cpp:AND", "src/fastTrieIntersection.cpp:AND", "src/intersection.cpp:Intersect"]}
{"id": "C90", "title": "Printed averages are right to six parts in a million", "statement": "The average number of bits per integer that a build tool or a statistics tool prints is the quotient of the totals that it has counted, to six parts in a million, however large they are; if no integers were counted it prints no number.", "quantifier": "every pair of totals", "why_tests_cant": "the totals pass through two roundings to float or double, a division and a rounding to decimal digits, and only errors in the last digits would show it", "anchors": ["tools/build_tries.cpp:buildCollection", "tools/build_fastTries.cpp:buildCollection", "tools/measures.cpp:main", "tools/classic_coders.cpp:main", "tools/cbv_coding.cpp:main", "tools/pom.cpp:main"]}
{"id": "C91", "title": "Reported times are averages of the measured times", "statement": "Whenever a query tool runs to its end, the time in each row of its table is the average over the ten repetitions of that query, in microseconds, and the average printed at the end is that over all repetitions of all answered queries, in milliseconds, both to six parts in a million; the number of queries printed is that of the queries of at most 16 ids, and without any no average is printed.", "quantifier": "every log, every collection and every sequence of measured times", "why_tests_cant": "the measured times differ from run to run and nobody can check the averages by hand; rounding and wrap-around would only show for some of them", "anchors": ["tools/intersection_query_log.cpp:performIntersections", "tools/intersection_querylog_fastTrie.cpp:performIntersections"]}
{"id": "C92", "title": "Working memory of construction", "statement": "While a trie is built from n values the queue of pending segments never holds more than n entries, in a fast trie not even together with the words already written, whatever the order of the values; when a set has been built it has held as many. The bits allocated meanwhile depend on the universe alone and not on the values: 3*2^h-2 for a flat trie of h digits throughout, 2^(h+1)-2 for a fast one throughout and for a level-wise one at the start, which then shrinks to the bits of the result.", "quantifier": "every input list, every universe and every variant", "why_tests_cant": "the memory needed by tests with small universes says nothing of that for large ones, and a queue that grows too much would only show for some inputs", "anchors": ["include/flatBinTrie.hpp:flatBinTrie", "include/flatBinTrie_il.hpp:flatBinTrie_il", "include/binTrie.hpp:binTrie", "include/binTrie_il.hpp:binTrie_il", "include/fastBinaryTrie.hpp:fastBinaryTrie"]}
{"id": "C93", "title": "Checking programs from the command line", "statement": "A checking program run on a collection, or on a file of tries and a query log, checks what its command line asks for: the last setting of each option counts, the lists or queries reported are exactly the wrong ones, and all lines of the checking script agree on a collection and accept every collection of sets. An option without its value, a text that is no number, an id that is no int and a missing file are not taken for something to check; the exit status tells whether the check passed.", "quantifier": "every command line of settings, every collection of lists, every file the build tools write, every query log, every file system", "why_tests_cant": "the checking programs are the tests: nothing tests them", "anchors": ["test/test_encoding.cpp:main", "test/test_fastTrie.cpp:main", "test/test_intersection.cpp:main", "test/test_intersection_fastTrie.cpp:main", "scripts/test_encoding.sh"]}
{"id": "C94", "title": "Defined reads in the intersection checkers", "statement": "When the intersection checking programs are run on a file written by the build tools, every variable they read has been set, so that the verdict is that of C63 with any compiler.", "quantifier": "every collection of lists, every choice of trie and options, every query log, every number of threads and schedule", "why_tests_cant": "the programs are the tests; the verdict is the right one with each value that the unset flags can have, so no run shows the problem", "anchors": ["test/test_intersection.cpp:performIntersections", "test/test_intersection_fastTrie.cpp:performIntersections", "src/intersection.cpp:AND", "src/fastTrieIntersection.cpp:AND"]}
{"id": "C95", "title": "Tries held by the query tools and checkers", "statement": "The query tools and the intersection checkers free every trie that they load exactly once before they end, and never hold a trie that no query asks for, other than the one being read.", "quantifier": "every file of tries, query log, number of threads and schedule for which the program ends normally", "why_tests_cant": "memory use and leaks depend on which lists a log asks for; a run that ends normally shows nothing of them", "anchors": ["tools/intersection_query_log.cpp:performIntersections", "tools/intersection_querylog_fastTrie.cpp:loadTries", "test/test_intersection.cpp:loadTries", "test/test_intersection_fastTrie.cpp:loadTries"]}
{"id": "C96", "title": "Reproducible files of tries", "statement": "Two runs of a build tool over the same collection with the same options write the same file and print the same totals, and the query tool gives the same answers from both files.", "quantifier": "every input file, size filter, rank type, word size, run encoding, contents of fresh memory, query log, number of threads and schedule", "why_tests_cant": "whether unset memory reaches a file depends on the allocator and on what the program freed before, not on the input of a test", "anchors": ["tools/build_fastTries.cpp:buildCollection", "include/fastBinaryTrie.hpp:fastBinaryTrie", "include/fastBinaryTrie.hpp:serialize", "include/binaryTrie.hpp:binaryTrie"]}
{"id": "C97", "title": "Bounded depth of recursion", "statement": "The recursive procedures - intersecting, dividing the work among threads, encoding runs and decoding - never nest more calls than the trie has levels, and a trie has as many levels as the universe has binary digits, so stack use does not grow with the sets.", "quantifier": "every set, universe, trie class, rank type, run encoding and starting node, and every object, loaded or damaged", "why_tests_cant": "a stack overflow needs an input that recurses deeply; tests over sound small tries cannot show that no set and no damaged file nests deeper", "anchors": ["src/intersection.cpp:AND", "src/intersection.cpp:runsAND", "src/intersection.cpp:partialAND", "src/fastTrieIntersection.cpp:AND", "include/binTrie.hpp:writeCompressTrie", "include/flatBinTrie.hpp:recursiveDecode", "include/fastBinaryTrie.hpp:recursiveDecode"]}
{"id": "C98", "title": "Barbay-Kenyon adapts to the input", "statement": "A call of barbayKenyon makes at most one round of searches over the lists for each interval of the shortest proof of the result, and a search takes a number of steps logarithmic in the length of its list.", "quantifier": "every family of nonempty increasing lists, every proof of the intersection by intervals, every list searched, start and value", "why_tests_cant": "a time measured on a few inputs says nothing of other inputs, least of all of the ratio to the shortest proof", "anchors": ["src/barbay_and_kenyon.cpp:barbayKenyon", "src/barbay_and_kenyon.cpp:exponentialSearch", "src/barbay_and_kenyon.cpp:binarySearch"]}
{"id": "C99", "title": "A collection file announces the sets it holds", "statement": "The file written by a build tool announces as many sets as it holds, one for each list within the size limits, whatever the lengths of the lists, so that the query tools load all of them and nothing else.", "quantifier": "every collection with lists of any length up to 2^32 - 1 values, every option, word size and content of memory", "why_tests_cant": "a list of 2^30 values or more is larger than any test collection, and the wrong count depends on the values in it", "anchors": ["tools/build_tries.cpp:buildCollection", "tools/build_fastTries.cpp:buildCollection", "tools/intersection_query_log.cpp:loadSequences"]}
{"id": "C100", "title": "Working memory of run encoding", "statement": "While the runs of a trie are encoded, what is collected for the new trie is never more than what the new trie holds and a constant number of entries: the memory needed is that of the result, however large the runs are. The result is the same as without observation.", "quantifier": "every set, universe, kind of trie, block type and word size", "why_tests_cant": "the peak is between two steps of a recursion and no API reports it; it must hold for sets of any shape", "anchors": ["include/flatBinTrie.hpp:writeCompressTrie", "include/binTrie.hpp:writeCompressTrie", "include/fastBinaryTrie.hpp:writeCompressTrie", "include/fastBinaryTrie.hpp:encodeRuns"]}
{"id": "C101", "title": "Different sets are stored differently", "statement": "Tries made of two different sets never store the same levels and bits (for fast tries with words of one size: levels, bits and words), whether or not runs are encoded, also where a trie with encoded runs cannot be decoded. So the files of two different sets differ, and neither is the beginning of the other. Conversely the set, the number of levels and run encoding decide what is stored, whatever the kind of trie, the universe and the block type.", "quantifier": "every two sets and universes up to 2^48, kinds of trie, block types, word sizes, with and without run encoding, and for files every format of the bit vectors that can be read back", "why_tests_cant": "it is a statement about all pairs of sets; a collision between two of them would be found by no test that compares a trie with itself", "anchors": ["include/flatBinTrie.hpp:serialize", "include/flatBinTrie.hpp:encodeRuns", "include/binTrie.hpp:serialize", "include/binTrie.hpp:encodeRuns", "include/fastBinaryTrie.hpp:serialize", "include/fastBinaryTrie.hpp:encodeRuns"]}
{"id": "C102", "title": "Intersecting with the empty set", "statement": "An intersection of 1 to 16 tries of the same height, one of them a trie of the empty set, returns the empty list, whatever the runs and parallel flags and whatever the other sets are.", "quantifier": "every universe up to 2^48, family of sets with an empty one anywhere among them, kind of trie and choice of run encoding that can be built, number of processors and schedule", "why_tests_cant": "the empty set is in no test, and what is returned depends on the flag, on run encoding and on the other sets", "anchors": ["src/intersection.cpp:Intersect", "src/intersection.cpp:runsAND", "src/intersection.cpp:AND", "include/binTrie.hpp:binTrie(set,u)", "include/binTrie.hpp:encodeRuns"]}
