{
 "claims": [
  {
   "property": "C01",
   "status": "proved",
   "theorems": [
    "C01_flat_round_trip"
   ],
   "note": ""
  },
  {
   "property": "C02",
   "status": "proved",
   "theorems": [
    "C02_level_round_trip"
   ],
   "note": ""
  },
  {
   "property": "C03",
   "status": "proved",
   "theorems": [
    "C03_fast_round_trip"
   ],
   "note": ""
  },
  {
   "property": "C04",
   "status": "proved",
   "theorems": [
    "C04_flat_deduplicates",
    "C04_level_deduplicates",
    "C04_fast_deduplicates"
   ],
   "note": ""
  },
  {
   "property": "C05",
   "status": "proved",
   "theorems": [
    "C05_level_runs"
   ],
   "note": ""
  },
  {
   "property": "C06",
   "status": "partial",
   "theorems": [
    "C06_flat_runs_partial",
    "C06_flat_runs_blocks_fail",
    "C06_flat_runs_refuted"
   ],
   "note": "The full claim is false: proved exactly for the sets with a block of four aligned values that is neither full nor empty; every other set makes decode read out of bounds."
  },
  {
   "property": "C07",
   "status": "partial",
   "theorems": [
    "C07_fast_runs_partial",
    "C07_fast_runs_indeterminate",
    "C07_fast_runs_vanish",
    "C07_fast_runs_refuted"
   ],
   "note": "The full claim is false: empty_trie is never initialised. Proved when its memory happens to hold false; the outcome for the other contents is proved too."
  },
  {
   "property": "C08",
   "status": "proved",
   "theorems": [
    "C08_flat_runs_size",
    "C08_level_runs_size",
    "C08_fast_runs_size"
   ],
   "note": "trieMeasure exists only in the flat tries (the level-wise version does not compile when used)."
  },
  {
   "property": "C09",
   "status": "proved",
   "theorems": [
    "C09_sequential_intersection"
   ],
   "note": "An unset flag that does not reach the result is let pass; C71 says when the program reads one."
  },
  {
   "property": "C10",
   "status": "partial",
   "theorems": [
    "C10_runs_intersection_partial",
    "C10_runs_intersection_refuted",
    "C10_wrong_flag_refuted"
   ],
   "note": "The full claim is false for flat tries whose every block of four is full or empty (an out-of-bounds read); proved for all others and for every level-wise trie."
  },
  {
   "property": "C11",
   "status": "proved",
   "theorems": [
    "C11_fast_intersection"
   ],
   "note": "An unset flag that does not reach the result is let pass; C71 says when the program reads one."
  },
  {
   "property": "C12",
   "status": "partial",
   "theorems": [
    "C12_parallel_equals_sequential_partial",
    "C12_parallel_equals_sequential_refuted",
    "C12_fast_parallel_equals_sequential_partial",
    "C12_fast_parallel_equals_sequential_refuted",
    "C12_two_values_partial",
    "C12_one_word_partial"
   ],
   "note": "Proved for every schedule and hc in 1..65535 except universes of two values (hc >= 4) and one-word fast tries (hc >= 2), where it is false. Those calls are described exactly: over two values the empty vector when no value is common and undefined behaviour otherwise, over one word always undefined behaviour."
  },
  {
   "property": "C13",
   "status": "partial",
   "theorems": [
    "C13_parallel_runs_complete_partial",
    "C13_fast_parallel_runs_complete_partial",
    "C13_kept_and_lost_partial",
    "C13_fast_kept_and_lost_partial",
    "C13_exact_partial",
    "C13_fast_exact_partial",
    "C13_outcome_members_partial",
    "C13_outcome_determined",
    "C13_parallel_runs_complete_refuted"
   ],
   "note": "The full claim is false. Proved when no set contains a whole block as large as a thread's share. For tries high enough to be split the vector returned is described exactly, value by value and in order (lower tries are intersected completely): a common value is missing exactly when the tries disagree on a run around it of twice a thread's share or more, or, in a share that the call divides further, of the size of the share."
  },
  {
   "property": "C14",
   "status": "partial",
   "theorems": [
    "C14_parallel_runs_sound_partial",
    "C14_fast_parallel_runs_sound_partial",
    "C12_two_values_partial",
    "C12_one_word_partial"
   ],
   "note": "False for universes of two values (hc >= 4) with a common value and for one-word fast tries (hc >= 2): the call is undefined behaviour (C12_two_values_partial, C12_one_word_partial, which also cover the runs flag)."
  },
  {
   "property": "C15",
   "status": "partial",
   "theorems": [
    "C13_parallel_runs_complete_partial",
    "C13_fast_parallel_runs_complete_partial",
    "C13_exact_partial",
    "C13_fast_exact_partial",
    "C13_outcome_determined",
    "C15_parallel_runs_sorted_refuted"
   ],
   "note": "The full claim is false; the partial theorems include sortedness (is_intersection asks for an increasing list), and the exact ones give the order: four increasing lists one after the other."
  },
  {
   "property": "C16",
   "status": "proved",
   "theorems": [
    "C16_height_mismatch",
    "C16_universe_mismatch"
   ],
   "note": ""
  },
  {
   "property": "C17",
   "status": "proved",
   "theorems": [
    "C17_ranges_cover",
    "C17_writes_deterministic",
    "C17_pushes_deterministic"
   ],
   "note": ""
  },
  {
   "property": "C18",
   "status": "proved",
   "theorems": [
    "C18_workers_bounded",
    "C18_tasks_bounded",
    "C18_counters_exact"
   ],
   "note": ""
  },
  {
   "property": "C19",
   "status": "proved",
   "theorems": [
    "C19_serialization_round_trip",
    "C19_stored_set",
    "C19_empty_set"
   ],
   "note": "For every format of the sdsl structures that reads back what it wrote."
  },
  {
   "property": "C20",
   "status": "proved",
   "theorems": [
    "C20_fast_serialization_round_trip",
    "C20_fast_stored_set"
   ],
   "note": "For every format of the sdsl structures that reads back what it wrote."
  },
  {
   "property": "C21",
   "status": "partial",
   "theorems": [
    "C21_serialize_count_partial",
    "C21_fast_count_refuted"
   ],
   "note": "Proved for the classes derived from binaryTrie; false for fast tries, with the exact condition proved."
  },
  {
   "property": "C22",
   "status": "partial",
   "theorems": [
    "C22_load_over_partial",
    "C22_load_replaces_refuted"
   ],
   "note": "The full claim is false: load() appends the words. The exact result is proved; it is the stored trie iff the receiver had no words."
  },
  {
   "property": "C23",
   "status": "proved",
   "theorems": [
    "C23_trie_measure"
   ],
   "note": ""
  },
  {
   "property": "C24",
   "status": "proved",
   "theorems": [
    "C24_elements_coded"
   ],
   "note": ""
  },
  {
   "property": "C25",
   "status": "proved",
   "theorems": [
    "C25_force_brute"
   ],
   "note": ""
  },
  {
   "property": "C26",
   "status": "proved",
   "theorems": [
    "C26_barbay_sound"
   ],
   "note": ""
  },
  {
   "property": "C27",
   "status": "partial",
   "theorems": [
    "C27_barbay_complete_partial",
    "C27_barbay_outcome_partial",
    "C27_two_sets_partial",
    "C27_exact_partial",
    "C27_same_end_partial",
    "C27_reads_past_refuted",
    "C27_barbay_complete_refuted",
    "C27_first_value_lost_refuted",
    "C27_barbay_out_of_bounds_refuted"
   ],
   "note": "The full claim is false.  Proved when no set starts after the first value of the first set and all sets end with the same value; for every family, the call ends and either reads outside a list or loses at most the smallest common value; what a call that returns appends is exactly known for any number of sets.  Families whose sets all end with the same value are settled completely, and so are reads outside a list in the first pass.  Not characterised: exactly which calls read outside a list later, when the ends differ."
  },
  {
   "property": "C28",
   "status": "partial",
   "theorems": [
    "C28_flat_one_argument_refuted",
    "C28_level_one_argument_refuted",
    "C28_fast_one_argument_refuted"
   ],
   "note": "The claim is false for every set and every variant: proved as such."
  },
  {
   "property": "C29",
   "status": "partial",
   "theorems": [
    "C29_flat_idempotent_partial",
    "C29_level_idempotent_partial",
    "C29_fast_idempotent_partial",
    "C29_idempotent_refuted",
    "C29_fast_run_refuted",
    "C29_flat_run_refuted",
    "C29_flat_blocks_refuted",
    "C29_level_equal_runs_refuted",
    "C29_level_run_refuted"
   ],
   "note": "The full claim is false; proved for sets without a full aligned block of four values (two words' worth of values in a fast trie).  Every other set is settled too: the second encoding or the decoding after it reads outside the bit vectors, except that a level-wise trie of equally long runs silently decodes to the first value of each run."
  },
  {
   "property": "C30",
   "status": "proved",
   "theorems": [
    "C30_variants_decode",
    "C30_variants_intersect"
   ],
   "note": ""
  },
  {
   "property": "C31",
   "status": "proved",
   "theorems": [
    "C31_single_trie",
    "C31_single_trie_runs",
    "C31_single_trie_fast",
    "C31_laws",
    "C31_laws_runs",
    "C31_laws_fast"
   ],
   "note": ""
  },
  {
   "property": "C32",
   "status": "partial",
   "theorems": [
    "C32_level_two_values_partial",
    "C32_fast_one_word_partial",
    "C32_universe_one_fails",
    "C32_universe_one_fast_fails",
    "C32_universe_two_flat_fails",
    "C32_half_word_fails"
   ],
   "note": "The full claim is false: universes of one value, flat tries over two values, and fast tries over half a word or less, are undefined behaviour."
  },
  {
   "property": "C33",
   "status": "partial",
   "theorems": [
    "C33_level_empty_partial",
    "C33_flat_empty_refuted",
    "C33_fast_empty_refuted",
    "C33_level_empty_runs_refuted"
   ],
   "note": "Holds only for level-wise tries before encodeRuns; false for every universe otherwise, as proved."
  },
  {
   "property": "C34",
   "status": "partial",
   "theorems": [
    "C34_collection_round_trip_partial",
    "C34_levelwise_il_refuted",
    "C34_block_size_refuted"
   ],
   "note": "False for the level-wise interleaved class and for block sizes other than 128, 256, 512, as proved for every such collection; proved for all other options."
  },
  {
   "property": "C35",
   "status": "partial",
   "theorems": [
    "C35_fast_header_partial",
    "C35_fast_header_refuted"
   ],
   "note": "Proved for every rank type but 1; for rank type 1 false for every collection, with the misread values proved."
  },
  {
   "property": "C36",
   "status": "partial",
   "theorems": [
    "C36_end_to_end_partial",
    "C36_fast_end_to_end_partial",
    "C36_parallel_runs_sound_partial",
    "C36_parallel_runs_exact_partial",
    "C36_fast_parallel_runs_exact_partial",
    "C36_parallel_runs_refuted",
    "C36_empty_query_refuted",
    "C36_fast_skipped_partial",
    "C36_fast_missing_id_refuted",
    "C36_missing_id_refuted"
   ],
   "note": "Proved in the modes the property names, for the options of C34 and C35; in the default mode over run-encoded collections the exact answer is proved instead, because it can lack values; false for an empty query, for a query that names a list that was not loaded (in the fast tool only when it has at most 16 ids: longer ones are skipped before the null pointer is used) and for tries of height 1 on four threads (C12)."
  },
  {
   "property": "C37",
   "status": "partial",
   "theorems": [
    "C37_selective_loading_partial",
    "C37_no_ids_refuted"
   ],
   "note": "Proved for every log with at least one id; a log without ids is read out of bounds."
  },
  {
   "property": "C38",
   "status": "proved",
   "theorems": [
    "C38_decode_appends",
    "C38_decode_appends_runs",
    "C38_decode_any_append",
    "C38_decode_any_prefix"
   ],
   "note": ""
  },
  {
   "property": "C39",
   "status": "partial",
   "theorems": [
    "C39_copies_partial",
    "C39_original_partial",
    "C39_copies_refuted"
   ],
   "note": "False: a copied rank structure points to the bits of the original, and once the original is destroyed no copy of a set that needs a rank query can be decoded. Proved for histories that leave the original (and the copy) alone."
  },
  {
   "property": "C40",
   "status": "partial",
   "theorems": [
    "C40_memory_partial",
    "C40_fast_memory_partial",
    "C40_leak_partial",
    "C40_fast_leak_partial",
    "C40_memory_refuted"
   ],
   "note": "The full claim is false: on four or more threads arrays leak. Proved: never a double or wild free, everything freed on at most three threads, and the exact number of arrays left."
  },
  {
   "property": "C41",
   "status": "proved",
   "theorems": [
    "C41_gap_measure"
   ],
   "note": ""
  },
  {
   "property": "C42",
   "status": "partial",
   "theorems": [
    "C42_rle_partial",
    "C42_rle_zero",
    "C42_rle_refuted",
    "C42_last_run_ignored"
   ],
   "note": "The full claim is false: the last run is never counted, and zero is always treated as a member. The exact value is proved."
  },
  {
   "property": "C43",
   "status": "proved",
   "theorems": [
    "C43_prefix_of",
    "C43_prefix_of_same",
    "C43_narrow_refuted"
   ],
   "note": "C43_narrow_refuted concerns the widths other than 64, outside the property."
  },
  {
   "property": "C44",
   "status": "partial",
   "theorems": [
    "C44_il_serialize_refuted",
    "C44_il_load_refuted"
   ],
   "note": "False for every binTrie_il, as proved."
  },
  {
   "property": "C45",
   "status": "proved",
   "theorems": [
    "C45_trie_run_measure",
    "C45_measures_tool"
   ],
   "note": ""
  },
  {
   "property": "C46",
   "status": "partial",
   "theorems": [
    "C46_suffix_sizes_partial",
    "C46_zero_fails"
   ],
   "note": "False for lists that start at zero; proved for all others."
  },
  {
   "property": "C47",
   "status": "partial",
   "theorems": [
    "C47_size_in_bytes_refuted",
    "C47_fast_size_in_bytes_refuted"
   ],
   "note": "False for every trie; the exact difference is proved."
  },
  {
   "property": "C48",
   "status": "proved",
   "theorems": [
    "C48_flat_bits",
    "C48_flat_run_bits",
    "C48_level_bits",
    "C48_level_run_bits",
    "C48_fast_bits",
    "C48_fast_run_bits",
    "C48_level_empty"
   ],
   "note": ""
  },
  {
   "property": "C49",
   "status": "proved",
   "theorems": [
    "C49_levels",
    "C49_no_bits",
    "C49_set",
    "C49_runs"
   ],
   "note": ""
  },
  {
   "property": "C50",
   "status": "partial",
   "theorems": [
    "C50_measures_partial",
    "C50_charges",
    "C50_gap_refuted",
    "C50_missing_file"
   ],
   "note": "Every total but the gap total is as claimed; the gap total is 32 bits too large for every collection (and more after lists that end in 0), with the exact value proved. A missing file is undefined."
  },
  {
   "property": "C51",
   "status": "partial",
   "theorems": [
    "C51_classic_last_long",
    "C51_classic_hangs",
    "C51_classic_refuted",
    "C51_pom_last_long",
    "C51_sort",
    "C51_pom_hangs",
    "C51_pom_refuted",
    "C51_no_lists",
    "C51_missing_file"
   ],
   "note": "The claim is false for every collection: the last list is counted twice, or the program does not end when it is short. The exact outcome is proved."
  },
  {
   "property": "C52",
   "status": "partial",
   "theorems": [
    "C52_cbv_partial",
    "C52_cbv_refuted"
   ],
   "note": "False: the tool stops at the first short list, and counts the last list twice when there is none. The exact totals are proved in both cases."
  },
  {
   "property": "C53",
   "status": "partial",
   "theorems": [
    "C53_query_log_partial",
    "C53_large_id_refuted",
    "C53_fast_query_log",
    "C53_every_query_written"
   ],
   "note": "Proved for every log; in the tool for the classes derived from binaryTrie only for ids below 2^31, above which it stops by an exception (proved)."
  },
  {
   "property": "C54",
   "status": "partial",
   "theorems": [
    "C54_build_options_partial",
    "C54_fast_build_options_partial",
    "C54_query_options_partial",
    "C54_fast_query_options_partial",
    "C54_option_as_value_refuted",
    "C54_missing_value_refuted",
    "C54_fast_missing_value_refuted",
    "C54_query_missing_value_refuted",
    "C54_fast_query_missing_value_refuted",
    "C54_no_arguments_refuted",
    "C54_wrong_size",
    "C54_trailing_text",
    "C54_negative_size",
    "C54_word_size",
    "C54_word_size_text",
    "C54_block_size_text",
    "C54_large_word_size_refuted",
    "C54_missing_collection"
   ],
   "note": "False for values that are names of options, for options without a value (a null pointer is read) and for word sizes of 2^31 or more; proved for command lines whose other values are well-formed. What texts without a number do is proved separately for each kind of number."
  },
  {
   "property": "C55",
   "status": "partial",
   "theorems": [
    "C55_command_lines_partial",
    "C55_fast_command_lines_partial",
    "C55_runs_partial",
    "C55_fast_runs_partial"
   ],
   "note": "Under the conditions of C36 and C53, which are necessary as shown there. With several threads over files with runs the answers are those that C36 states exactly, with the values that are lost (C55_runs_partial, C55_fast_runs_partial)."
  },
  {
   "property": "C56",
   "status": "partial",
   "theorems": [
    "C56_flat_any_order_partial",
    "C56_level_any_order_partial",
    "C56_fast_any_order_partial",
    "C56_flat_any_list_partial",
    "C56_level_any_list_partial",
    "C56_fast_any_list_partial",
    "C56_any_set_partial",
    "C56_fast_any_set_partial",
    "C56_kept_unique",
    "C56_any_order_refuted"
   ],
   "note": "The full claim is false. Proved: it holds exactly for sorted lists (fast tries: lists whose words come in order), and what every other list is turned into."
  },
  {
   "property": "C57",
   "status": "partial",
   "theorems": [
    "C57_flat_outside_partial",
    "C57_level_outside_partial",
    "C57_fast_outside_partial",
    "C57_outside_refuted"
   ],
   "note": "The full claim is false: a value outside is stored as some value inside. Proved: no member is lost, nothing above the rounded universe is stored, and the list comes back exactly when it lies in the rounded universe."
  },
  {
   "property": "C58",
   "status": "partial",
   "theorems": [
    "C58_limits_partial",
    "C58_fast_limits_partial",
    "C58_many_refuted",
    "C58_fast_many_refuted",
    "C58_wrapped_refuted",
    "C58_fast_wrapped_refuted",
    "C58_wide_partial",
    "C58_fast_wide_partial",
    "C58_none_refuted",
    "C58_no_threads_refuted",
    "C58_fast_no_threads_refuted"
   ],
   "note": "The full claim is false: a sequential call returns the intersection exactly for 1 to 16 tries and a nonzero hardware_concurrency(); what happens outside is proved for all flags. In parallel over more than 16 tries the call is undefined or, from 65537 tries on, returns what a call with the first n mod 65536 of them returns (with runs and a multiple of 65536, the whole universe)."
  },
  {
   "property": "C59",
   "status": "partial",
   "theorems": [
    "C59_mixed_universes_partial",
    "C59_fast_mixed_universes_partial"
   ],
   "note": "The full claim is false; proved that it holds exactly when the universes have the same next power of two or the sets have nothing in common."
  },
  {
   "property": "C60",
   "status": "partial",
   "theorems": [
    "C60_command_line_partial",
    "C60_measures",
    "C60_classic",
    "C60_pom",
    "C60_cbv",
    "C60_usage",
    "C60_wrong_number",
    "C60_missing_value_refuted",
    "C60_no_collection_refuted"
   ],
   "note": "The full claim is false: a missing value is undefined behaviour and a missing collection is not noticed; the rest is proved, down to the totals of each tool (C50 to C52)."
  },
  {
   "property": "C61",
   "status": "proved",
   "theorems": [
    "C61_record",
    "C61_calls",
    "C61_calls_runs",
    "C61_fast_calls",
    "C61_fast_calls_runs"
   ],
   "note": "Calls are those of AND and runsAND; sets are those the tries can hold (nonempty, and for encoded flat tries with a mixed block, see C06)."
  },
  {
   "property": "C62",
   "status": "partial",
   "theorems": [
    "C62_linux_partial",
    "C62_mac_partial",
    "C62_mac_loop_partial",
    "C62_mac_intersection_partial",
    "C62_mac_refuted",
    "C62_getaffinity"
   ],
   "note": "The full claim is false: on macOS more than 32 workers are undefined behaviour, on Linux workers from 1024 on are not bound."
  },
  {
   "property": "C63",
   "status": "partial",
   "theorems": [
    "C63_checker_partial",
    "C63_unknown_id_refuted",
    "C63_no_ids_refuted",
    "C63_fast_checker_partial",
    "C63_fast_header_refuted"
   ],
   "note": "The full claim is false: ids that are no lists and logs without ids are undefined behaviour, and the checker of fast tries does not read the word size that the build tool writes. Within these limits the verdict is proved exact."
  },
  {
   "property": "C64",
   "status": "partial",
   "theorems": [
    "C64_encoding_checker_partial",
    "C64_flat_runs_refuted",
    "C64_rank_refuted",
    "C64_fast_encoding_checker_partial",
    "C64_fast_ten_refuted",
    "C64_fast_runs_refuted"
   ],
   "note": "The full claim is false: rank 2 is not checked at all, run-encoded flat tries without a mixed block and short fast reports are undefined behaviour. The remaining cases are proved exact, for the universe rounded up to a power of two."
  },
  {
   "property": "C65",
   "status": "proved",
   "theorems": [
    "C65_runs_ignored",
    "C65_fast_runs_ignored"
   ],
   "note": "For flat tries the theorem assumes, as everywhere, that encoding the runs reads nothing outside the arrays (C06)."
  },
  {
   "property": "C66",
   "status": "partial",
   "theorems": [
    "C66_ids_partial",
    "C66_fast_ids_partial",
    "C66_positions_partial",
    "C66_fast_positions_partial",
    "C66_positions_refuted",
    "C66_fast_positions_refuted",
    "C66_dropped_partial",
    "C66_fast_dropped_partial"
   ],
   "note": "The full claim is false: lists of exactly the minimum length are left out too, and ids count the kept lists only. Proved: which list each id means; an id is a position exactly when no list up to it was left out, otherwise a later list is returned or the tool reads out of bounds."
  },
  {
   "property": "C67",
   "status": "proved",
   "theorems": [
    "C67_histories",
    "C67_fast_histories"
   ],
   "note": "Simulation by ideal objects that hold sets. Copies of objects are in C39."
  },
  {
   "property": "C68",
   "status": "partial",
   "theorems": [
    "C68_report_partial",
    "C68_fast_report_partial",
    "C68_report_refuted",
    "C68_fast_report_refuted",
    "C68_no_output",
    "C68_bpi_partial",
    "C68_fast_bpi_partial",
    "C68_bpi_refuted"
   ],
   "note": "The full claim is false: the size lacks two bytes per trie, or has 14 too many per fast trie (C47). Everything else in the report is as claimed. The bits per integer are those of that size, to six parts in a million, so they are wrong when the tries are small (C68_bpi_refuted)."
  },
  {
   "property": "C69",
   "status": "partial",
   "theorems": [
    "C69_table_partial",
    "C69_table_refuted",
    "C69_table_unique",
    "C69_over_log_refuted"
   ],
   "note": "The full claim is false: queries of more than 16 ids get no line, and --out naming the log replaces it by the header of the table before it is read, and the tool ends by an exception. The text of the times is a parameter here; see C91."
  },
  {
   "property": "C70",
   "status": "partial",
   "theorems": [
    "C70_flat_part_partial",
    "C70_fast_part_partial",
    "C70_flat_long_partial",
    "C70_fast_long_partial",
    "C70_limit",
    "C70_flat_long_refuted",
    "C70_fast_long_refuted"
   ],
   "note": "False for flat and fast tries: they count the values on 32 bits and ignore all but the first ((n - 1) mod 2^32) + 1 values, silently; proved exactly. True for level-wise tries (C02)."
  },
  {
   "property": "C71",
   "status": "partial",
   "theorems": [
    "C71_agrees",
    "C71_runs",
    "C71_flags_partial",
    "C71_fast_flags_partial",
    "C71_odd_refuted",
    "C71_fast_odd_refuted",
    "C71_parallel_agrees",
    "C71_parallel_runs",
    "C71_parallel_flags_partial",
    "C71_parallel_fast_flags_partial",
    "C71_parallel_exact_partial",
    "C71_parallel_fast_exact_partial",
    "C71_encoded_flags_partial",
    "C71_encoded_fast_flags_partial",
    "C71_encoded_parallel_flags_partial",
    "C71_encoded_parallel_fast_flags_partial",
    "C71_encoded_parallel_exact_partial",
    "C71_encoded_parallel_fast_exact_partial",
    "C71_parallel_odd_refuted",
    "C71_parallel_fast_odd_refuted"
   ],
   "note": "True with runs=true. False with runs=false: AND reads existLeft or existRight unset; proved exactly for which tries it does, run-encoded or not, in sequence and in parallel, for any number of processors, and what is returned where it does not. Run-encoded flat tries need a mixed block, as in C10."
  },
  {
   "property": "C72",
   "status": "partial",
   "theorems": [
    "C72_left_first_partial",
    "C72_count",
    "C72_right_first_refuted",
    "C72_right_first_partial"
   ],
   "note": "False: serialize adds bTrie.serialize(out) and lastLevel.serialize(out), whose order C++ leaves open. From left to right C19 holds; from right to left load exchanges the two bit vectors, and it is proved exactly which plain tries come back."
  },
  {
   "property": "C73",
   "status": "partial",
   "theorems": [
    "C73_whole",
    "C73_fast_whole",
    "C73_load_partial",
    "C73_answers_partial",
    "C73_unnoticed_refuted",
    "C73_fast_partial"
   ],
   "note": "False: nothing is ever reported. For every cut the bin tool either uses unset variables or goes on with the tries before the cut and one trie of unknown content: queries about earlier lists are answered in full, those about the cut list may be silently wrong (refuted), later ids are out of bounds. For fast tries there is a byte before which all is undefined and from which all answers are exact. Assumes that sdsl cannot load a structure from a part of its bytes."
  },
  {
   "property": "C74",
   "status": "partial",
   "theorems": [
    "C74_whole",
    "C74_fast_whole",
    "C74_everywhere",
    "C74_build_partial",
    "C74_fast_build_partial",
    "C74_silent_refuted",
    "C74_inside_refuted",
    "C74_fast_inside_refuted",
    "C74_header_refuted",
    "C74_fast_header_refuted",
    "C74_classic_refuted",
    "C74_coders_inside_refuted",
    "C74_coders_inside_unset_refuted",
    "C74_coders_length_refuted",
    "C74_coders_length_unset_refuted",
    "C74_coders_hang_length_refuted",
    "C74_coders_hang_short_refuted",
    "C74_cbv_length_refuted",
    "C74_cbv_short_refuted",
    "C74_coders_header_refuted",
    "C74_measures_partial",
    "C74_measures_inside_refuted",
    "C74_measures_header_refuted"
   ],
   "note": "False: nothing is ever reported. Characterised for every cut of both build tools: before byte 8, or inside a list to be stored, an unset variable is used; anywhere else the result is exactly the collection of the complete lists. measures behaves like the build tools. classic_coders and pom count a cut list as complete with made-up values, or a further list, or do not end; cbv_coding does the same or stops silently. Exact for every cut of each."
  },
  {
   "property": "C75",
   "status": "proved",
   "theorems": [
    "C75_tasks_race_free",
    "C75_copies_race_free",
    "C75_schedule_independent",
    "C75_same_as_whole_steps",
    "C75_common_values",
    "C75_fast_common_values"
   ],
   "note": "For every family and every schedule of single accesses. C75_common_values combines it with C12, with the hypotheses of C12. Memory is sequentially consistent and a vector is one cell (except the output vector, one cell per element); reads of the tries are one shared cell."
  },
  {
   "property": "C76",
   "status": "partial",
   "theorems": [
    "C76_construct_flat",
    "C76_construct_level",
    "C76_construct_fast",
    "C76_encode",
    "C76_encode_fast",
    "C76_decode_partial",
    "C76_decode_fast_partial",
    "C76_decode_refuted",
    "C76_intersect_partial",
    "C76_intersect_fast_partial",
    "C76_build_tool",
    "C76_fast_build_tool",
    "C76_query_tool_partial",
    "C76_query_one_thread_partial",
    "C76_fast_query_tool_partial",
    "C76_measures_tool",
    "C76_cbv_tool",
    "C76_classic_partial",
    "C76_pom_partial"
   ],
   "note": "The full claim is false: C76_decode_refuted, a stored fast trie with one byte changed is decoded for ever. classic_coders and pom run for ever too on ordinary collections (C51_classic_hangs, C51_pom_hangs); C76_classic_partial and C76_pom_partial: exactly those runs that have not ended after two rounds more than the file has bytes. Proved for every construction, run encoding, build tool, measures and cbv_coding without conditions; for decoding, intersection and the query tools for objects of height at most 63 (fast tries: at least 1; parallel calls: at least 2). The readers of the sdsl structures must end."
  },
  {
   "property": "C77",
   "status": "partial",
   "theorems": [
    "C77_build",
    "C77_build_fast",
    "C77_query_partial",
    "C77_build_over_input_refuted",
    "C77_build_fast_over_input_refuted"
   ],
   "note": "C77_build, C77_build_fast and C77_query_partial hold for every command line and every content of the files. That the input survives is false when it is itself named with --out: the tool then has undefined behaviour (the two _over_input_refuted theorems). Not modelled: the query tool writing its table over its sequences. The query log is not protected either: C69_over_log_refuted. The query tool of fast tries writes no file at all."
  },
  {
   "property": "C78",
   "status": "proved",
   "theorems": [
    "C78_flat",
    "C78_level",
    "C78_fast",
    "C78_flat_runs",
    "C78_level_runs",
    "C78_fast_runs",
    "C78_closed",
    "C78_level_empty"
   ],
   "note": "Counts the bits of the bit vectors and the words; the rank structures of sdsl are not counted. Every call of the constructors and of encodeRuns in the ranges of C01 to C03."
  },
  {
   "property": "C79",
   "status": "proved",
   "theorems": [
    "C79_bin",
    "C79_fast"
   ],
   "note": "Calls of the recursive function of a sequential intersection, recorded as in C61 (C61_record)."
  },
  {
   "property": "C80",
   "status": "partial",
   "theorems": [
    "C80_any_lists_partial",
    "C80_any_lists_runs_partial",
    "C80_fast_any_lists_partial",
    "C80_sorted_partial",
    "C80_sorted_runs_partial",
    "C80_fast_sorted_partial",
    "C80_out_of_order_refuted"
   ],
   "note": "Proved for every list with the exceptions that C10, C12 and C13 make for sets: run-encoded flat tries without a mixed block, parallel calls over two values or one word, and runs as large as a thread's share. That it would do for lists out of order what the second half says of sorted ones is refuted."
  },
  {
   "property": "C81",
   "status": "partial",
   "theorems": [
    "C81_script_partial",
    "C81_alike_partial",
    "C81_multithread_refuted"
   ],
   "note": "Proved for builds as in C36 and C55 (loadable options, run-encoded flat lists with a mixed block) and queries of 1 to 16 lists, in parallel over tries without runs, and over tries with runs when no list has a whole block as large as a thread's share. For other lists with runs and --parallel t, as in scripts/run_multithread_queries_flatTries.sh, it is refuted; the theorems then give the exact answer, that of C36."
  },
  {
   "property": "C82",
   "status": "proved",
   "theorems": [
    "C82_adaptive",
    "C82_adaptive_fast",
    "C82_adaptive_runs",
    "C82_adaptive_fast_runs",
    "C82_certificate"
   ],
   "note": "Calls of the recursive procedure, one thread. The bound with runs has factor 2, and 4 on the last level of flat and level-wise tries. C82_certificate: a proof names every member of the result."
  },
  {
   "property": "C83",
   "status": "proved",
   "theorems": [
    "C83_threads",
    "C83_fast_threads",
    "C83_bound",
    "C83_fast_bound",
    "C83_record"
   ],
   "note": "Calls of the threads; the calls of partialAND by which the first thread divides the work (levels up to log2 of the number of threads) are not counted. Universes of 2 values (flat and level-wise) or of one word (fast tries) need at most 3 threads or 1 thread. C83_one_thread_example: one thread may get all the work."
  },
  {
   "property": "C84",
   "status": "proved",
   "theorems": [
    "C84_record",
    "C84_fast_record",
    "C84_decode",
    "C84_fast_decode",
    "C84_runs",
    "C84_fast_runs",
    "C84_no_bits",
    "C84_fast_marked_empty"
   ],
   "note": "A run-encoded flat trie needs a mixed block (C06), a run-encoded fast trie a false empty flag (C07), as for decode to work at all."
  },
  {
   "property": "C85",
   "status": "proved",
   "theorems": [
    "C85_flat_record",
    "C85_level_record",
    "C85_fast_record",
    "C85_flat",
    "C85_level",
    "C85_fast",
    "C85_flat_sets",
    "C85_level_sets",
    "C85_fast_sets"
   ],
   "note": "The level-wise constructors on the empty set make one iteration that reads nothing; that case is left out. The bits set aside before the first value is read depend on the universe alone: see the findings."
  },
  {
   "property": "C86",
   "status": "proved",
   "theorems": [
    "C86_record",
    "C86_fast_record",
    "C86_encode",
    "C86_fast_encode"
   ],
   "note": "About tries whose runs are not yet encoded; encoding twice is C29."
  },
  {
   "property": "C87",
   "status": "proved",
   "theorems": [
    "C87_flat",
    "C87_level",
    "C87_fast",
    "C87_pom",
    "C87_unique",
    "C87_flat_subset",
    "C87_level_subset",
    "C87_fast_subset",
    "C87_run_subset_refuted"
   ],
   "note": "Exact sizes before run encoding, in the ranges of C01 to C03 (bounds after it: C78). That a subset takes no more is false after run encoding: C87_run_subset_refuted. pom needs positive values (C46)."
  },
  {
   "property": "C88",
   "status": "proved",
   "theorems": [
    "C88_parallel_laws",
    "C88_fast_parallel_laws",
    "C88_one",
    "C88_fast_one",
    "C88_queries",
    "C88_fast_queries",
    "C88_larger_sets_refuted"
   ],
   "note": "In the ranges of C13 and C36. Larger sets can give fewer values: C88_larger_sets_refuted."
  },
  {
   "property": "C89",
   "status": "partial",
   "theorems": [
    "C89_agrees",
    "C89_fast_agrees",
    "C89_runs",
    "C89_fast_runs",
    "C89_plain_partial",
    "C89_fast_plain_partial",
    "C89_odd_refuted",
    "C89_fast_odd_refuted"
   ],
   "note": "True of collections built with runs. False of those built without: proved exactly which query logs read an unset flag, in sequence and in parallel, and that the answers of all others are the intersections. In the ranges of C36, universes of at least three values, fast tries of more than one word."
  },
  {
   "property": "C90",
   "status": "proved",
   "theorems": [
    "C90_build",
    "C90_measures",
    "C90_coders",
    "C90_pom",
    "C90_none",
    "C90_text",
    "C90_rounding",
    "C90_range"
   ],
   "note": "For totals of bytes below 2^61, whose bits the tools count in 64 bits. Assumes IEEE 754 rounding to nearest and the digits that printf gives for %g."
  },
  {
   "property": "C91",
   "status": "proved",
   "theorems": [
    "C91_query",
    "C91_fast_query"
   ],
   "note": "The clock is a parameter. The sums of the times are below 2^64 microseconds and the number of repetitions below 2^64. Assumes IEEE 754 rounding to nearest and the digits that printf gives for %g."
  },
  {
   "property": "C92",
   "status": "proved",
   "theorems": [
    "C92_flat_record",
    "C92_level_record",
    "C92_fast_record",
    "C92_flat",
    "C92_level",
    "C92_fast",
    "C92_flat_sets",
    "C92_level_sets",
    "C92_fast_sets",
    "C92_one_value"
   ],
   "note": "Counts entries and bits; what the allocator adds and the capacity that vectors keep in reserve are not modelled. C92_one_value is a finding: a single value below 2^k is stored in 2k bits through 3*2^k-2."
  },
  {
   "property": "C93",
   "status": "partial",
   "theorems": [
    "C93_options_partial",
    "C93_fast_options_partial",
    "C93_encoding_partial",
    "C93_flat_runs_refuted",
    "C93_fast_encoding_partial",
    "C93_collection_alone_refuted",
    "C93_same_check_refuted",
    "C93_status_refuted",
    "C93_fast_status_refuted",
    "C93_intersection_status_refuted",
    "C93_fast_intersection_status_refuted",
    "C93_missing_collection_refuted",
    "C93_missing_value_refuted",
    "C93_fast_missing_value_refuted",
    "C93_wrong_size",
    "C93_fast_wrong_word",
    "C93_intersection_partial",
    "C93_fast_intersection_partial",
    "C93_large_id_refuted",
    "C93_no_sequences_refuted",
    "C93_script_partial",
    "C93_script_covers",
    "C93_script_accepts_partial",
    "C93_script_repeats_refuted"
   ],
   "note": "The verdicts hold under the conditions of C63 and C64, for values that are not the names of options. False: the exit status is 0 after any check, the collection alone is not checked, an option without its value is undefined, and twelve of the twenty lines of the script repeat others."
  },
  {
   "property": "C94",
   "status": "partial",
   "theorems": [
    "C94_agrees",
    "C94_fast_agrees",
    "C94_runs",
    "C94_fast_runs",
    "C94_plain_partial",
    "C94_fast_plain_partial",
    "C94_odd_refuted",
    "C94_fast_odd_refuted"
   ],
   "note": "True for collections built with runs. Over the others exactly the logs without a query that reads an unset flag are defined; one common odd value without the even one before it is enough to make the check undefined."
  },
  {
   "property": "C95",
   "status": "partial",
   "theorems": [
    "C95_record",
    "C95_fast_record",
    "C95_checker_record",
    "C95_fast_checker_record",
    "C95_query_partial",
    "C95_fast_query",
    "C95_checker_partial",
    "C95_fast_checker_partial",
    "C95_checker_refuted"
   ],
   "note": "True of the query tool for fast tries. The query tool for the other classes frees all tries, but holds all tries of the file. The checkers leave exactly the tries alive that no query asks for and that precede one asked for. The arrays that a parallel Intersect leaves are those of C40."
  },
  {
   "property": "C96",
   "status": "partial",
   "theorems": [
    "C96_fast_build_partial",
    "C96_fast_files_partial",
    "C96_fast_files_refuted",
    "C96_fast_report",
    "C96_fast_answers"
   ],
   "note": "False of build_fastTries: byte 4 of each stored trie, and bytes 2 and 3 without runs, are whatever the memory held; the files that can come out are described exactly, all other bytes, the totals and the answers are the same. In the other build tool the constructor of binaryTrie writes the members in question; its model reads no memory, so there the claim is part of the model, not a theorem."
  },
  {
   "property": "C97",
   "status": "partial",
   "theorems": [
    "C97_intersect",
    "C97_intersect_fast",
    "C97_divide",
    "C97_divide_fast",
    "C97_encode",
    "C97_encode_fast",
    "C97_decode",
    "C97_decode_level",
    "C97_decode_fast_partial",
    "C97_height",
    "C97_height_fast"
   ],
   "note": "Decoding a loaded fast trie whose height field is 0 nests without end (C76_decode_refuted); proved for all other objects. Stack use is counted in nested calls, not bytes."
  },
  {
   "property": "C98",
   "status": "partial",
   "theorems": [
    "C98_same_end_partial",
    "C98_any_partial",
    "C98_search",
    "C98_same_bound_refuted"
   ],
   "note": "As claimed for lists that end with the same value. For others it is false: the call goes back when it reaches the end of a list, and takes up to as many rounds more as there are lists. A round is one search in each list."
  },
  {
   "property": "C99",
   "status": "partial",
   "theorems": [
    "C99_file_partial",
    "C99_fast_file_partial",
    "C99_stored_lists",
    "C99_lengths",
    "C99_short_lists",
    "C99_load_partial",
    "C99_fast_queries_partial",
    "C99_too_many_refuted",
    "C99_fast_too_many_refuted",
    "C99_fast_too_many_answered",
    "C99_too_few_refuted",
    "C99_fast_unannounced_refuted",
    "C99_fast_too_few_refuted"
   ],
   "note": "True when all lists have fewer than 2^30 values. With longer lists the file is given exactly for every collection, with what the query tool then loads; the number announced can be too large or too small. The fast query tool is exact on ids below both numbers, and uses a null pointer for ids not announced although stored."
  },
  {
   "property": "C100",
   "status": "partial",
   "theorems": [
    "C100_flat_record",
    "C100_level_record",
    "C100_fast_record",
    "C100_flat",
    "C100_level",
    "C100_fast_partial"
   ],
   "note": "Proved for flat and level-wise tries: at most four positions more than the 1 bits of the result. False for fast tries: the words stay within two of the result, but one position for each word of the old trie is kept although nothing reads it; the number held is given exactly. What is counted are entries of the vectors, not the capacity they reserve, nor the bit vectors made after the traversal."
  },
  {
   "property": "C101",
   "status": "proved",
   "theorems": [
    "C101_bits",
    "C101_fast_bits",
    "C101_files",
    "C101_fast_files"
   ],
   "note": "Of the empty set only level-wise tries can be made (C33). Files: the kinds of trie that can be written, that is all but level-wise tries with interleaved blocks (C19). Examples show that the number of levels and the word size cannot be left out."
  },
  {
   "property": "C102",
   "status": "partial",
   "theorems": [
    "C102_plain_partial",
    "C102_runs_refuted",
    "C102_alone_refuted",
    "C102_runs_partial",
    "C102_parallel_partial",
    "C102_parallel_refuted",
    "C102_encoded_refuted"
   ],
   "note": "True with runs=false, in sequence and on fewer than 65536 threads. False with runs=true, for every universe and set: a plain trie of the empty set counts as the whole universe, so the other sets' intersection is returned; exactly what is returned in sequence, on one thread, or by tries too low to be split is proved. Run-encoded it makes every intersection, in sequence and in parallel, read outside a level. Flat and fast tries of the empty set cannot be built (C33). In parallel on two or more threads the result is right if some other set lacks a value or is not run-encoded, and the whole universe in the remaining cases. Left open with runs=true: parallel calls over two values on more than one thread."
  }
 ]
}