{
 "claims": [
  {
   "property": "C01",
   "status": "proved",
   "theorems": [
    "C01_reading_total_unique",
    "C01_hash_identifies_anagrams"
   ],
   "note": "Unique factorisation over the prime table; reading through the alphabet is specified by the relation reads."
  },
  {
   "property": "C02",
   "status": "proved",
   "theorems": [
    "C02_bag_operations",
    "C02_insert_comm_assoc"
   ],
   "note": "insert with a zero operand is excluded (the code maps 0 to the other operand, so it is not commutative there)."
  },
  {
   "property": "C03",
   "status": "proved",
   "theorems": [
    "C03_normal_form_and_hash_agree",
    "C03_same_hash_iff_same_normal_bag",
    "C03_char_count_is_normal_length"
   ],
   "note": "Normal form uses index n+1 for unknown characters where the hash uses n; unk_to_hash_index renames it."
  },
  {
   "property": "C04",
   "status": "proved",
   "theorems": [
    "C04_hashing_total",
    "C04_larger_alphabet_unknown_fails",
    "C04_larger_alphabet_entry_fails"
   ],
   "note": "Total for at most 167 lines without empty entries; beyond that the two ways hashing fails are shown."
  },
  {
   "property": "C05",
   "status": "proved",
   "theorems": [
    "C05_alphabet_lines_are_classes"
   ],
   "note": "For alphabets of single characters."
  },
  {
   "property": "C06",
   "status": "proved",
   "theorems": [
    "C06_iter_lists_characters",
    "C06_count_and_upper_bound",
    "C06_count_matches"
   ],
   "note": "Character count is modulo 2^16 in the code, hence the bound."
  },
  {
   "property": "C07",
   "status": "proved",
   "theorems": [
    "C07_single_deletions"
   ],
   "note": ""
  },
  {
   "property": "C08",
   "status": "proved",
   "theorems": [
    "C08_recursive_deletion_exactly_once"
   ],
   "note": "Breadth-first and depth-first, any minimum/maximum distance."
  },
  {
   "property": "C09",
   "status": "proved",
   "theorems": [
    "C09_damerau_levenshtein_minimal"
   ],
   "note": "First string at most 255 characters: the code keeps row numbers in a u8."
  },
  {
   "property": "C10",
   "status": "proved",
   "theorems": [
    "C10_levenshtein_exact"
   ],
   "note": "Any lengths, maximum distance at most 255 (its type is u8)."
  },
  {
   "property": "C11",
   "status": "proved",
   "theorems": [
    "C11_damerau_is_metric",
    "C11_levenshtein_is_metric"
   ],
   "note": "Metric laws on strings of at most 255 characters."
  },
  {
   "property": "C12",
   "status": "proved",
   "theorems": [
    "C12_longest_common_substring",
    "C12_common_prefix",
    "C12_common_suffix",
    "C12_symmetric"
   ],
   "note": ""
  },
  {
   "property": "C13",
   "status": "proved",
   "theorems": [
    "C13_bag_difference_at_most_twice",
    "C13_bag_difference_exists"
   ],
   "note": "Holds both for the number the code computes and for the specification of edits."
  },
  {
   "property": "C14",
   "status": "proved",
   "theorems": [
    "C14_retrieval_within",
    "C14_retrieval_exact"
   ],
   "note": "C14_retrieval_within is the property with its provisos; C14_retrieval_exact says what is retrieved without them. The query may not contain character index 167 (see C15)."
  },
  {
   "property": "C15",
   "status": "partial",
   "theorems": [
    "C15_retrieval_succeeds",
    "C15_retrieval_succeeds_refuted"
   ],
   "note": "As stated: refuted by C15_retrieval_succeeds_refuted (167 alphabet lines and an unknown character). What holds is proved: retrieval succeeds for at most 166 lines (queries below 65536 characters, the range of the counters)."
  },
  {
   "property": "C16",
   "status": "proved",
   "theorems": [
    "C16_stop_at_exact_match"
   ],
   "note": ""
  },
  {
   "property": "C17",
   "status": "proved",
   "theorems": [
    "C17_results_are_candidates"
   ],
   "note": "Inputs of at most 255 characters (beyond that the edit distance the code computes may be too large)."
  },
  {
   "property": "C18",
   "status": "partial",
   "theorems": [
    "C18_all_within_limits_found",
    "C18_all_candidates_found",
    "C18_all_within_limits_found_refuted"
   ],
   "note": "As stated: refuted by C18_all_within_limits_found_refuted (with an anagram limit of at least the input length, entries without a common character are missed). What holds is proved: completeness when the limit is below the length of the input (at most 255) and entries are below 256 characters; C18_all_candidates_found for any limits, relative to what the retrieval reaches (C14)."
  },
  {
   "property": "C19",
   "status": "proved",
   "theorems": [
    "C19_absolute",
    "C19_ratio",
    "C19_ratio_with_limit",
    "C19_monotone",
    "C19_caps",
    "C19_floor_of_product_refuted"
   ],
   "note": "The floor is taken of the product rounded to a 32-bit float; C19_floor_of_product_refuted shows that this can exceed the floor of the exact product."
  },
  {
   "property": "C20",
   "status": "proved",
   "theorems": [
    "C20_distance_score_unit",
    "C20_scores_unit"
   ],
   "note": "For scores as computed and for all results of a lookup (without confusables, which multiply scores by arbitrary weights; link scores from 0 to 1)."
  },
  {
   "property": "C21",
   "status": "proved",
   "theorems": [
    "C21_exact_match_scores_one",
    "C21_exact_match_first"
   ],
   "note": ""
  },
  {
   "property": "C22",
   "status": "proved",
   "theorems": [
    "C22_results_ranked",
    "C22_ranking_stable"
   ],
   "note": "C22_ranking_stable is about the ranking function, including ties; C22_results_ranked about the final results."
  },
  {
   "property": "C23",
   "status": "partial",
   "theorems": [
    "C23_number_of_results",
    "C23_number_of_results_refuted",
    "C23_number_with_frequency_refuted"
   ],
   "note": "As stated: refuted by C23_number_of_results_refuted (max_matches 1) and C23_number_with_frequency_refuted. What holds is proved: without frequency weight at most max(max_matches, 2) results."
  },
  {
   "property": "C24",
   "status": "partial",
   "theorems": [
    "C24_results_are_prefix",
    "C24_results_are_prefix_refuted"
   ],
   "note": "As stated: refuted by C24_results_are_prefix_refuted (confusables applied after cropping). What holds is proved: the prefix property without confusables or with confusables applied before pruning."
  },
  {
   "property": "C25",
   "status": "proved",
   "theorems": [
    "C25_cutoff"
   ],
   "note": ""
  },
  {
   "property": "C26",
   "status": "partial",
   "theorems": [
    "C26_score_threshold",
    "C26_score_threshold_refuted",
    "C26_score_threshold_links_refuted"
   ],
   "note": "As stated: refuted by C26_score_threshold_refuted (confusables) and C26_score_threshold_links_refuted (variant links). What holds is proved: the threshold without confusables and links."
  },
  {
   "property": "C27",
   "status": "partial",
   "theorems": [
    "C27_neighbours",
    "C27_no_entry_twice",
    "C27_no_entry_twice_refuted"
   ],
   "note": "As stated: refuted by C27_no_entry_twice_refuted (variant links). What holds is proved: no duplicates without links; with links no entry twice in a row, unless confusables are weighed after pruning."
  },
  {
   "property": "C28",
   "status": "proved",
   "theorems": [
    "C28_frequency_unit",
    "C28_most_frequent"
   ],
   "note": "Most frequent: for results not reached through a link, inputs of at most 255 characters."
  },
  {
   "property": "C29",
   "status": "partial",
   "theorems": [
    "C29_lookup_succeeds",
    "C29_empty_text_refuted"
   ],
   "note": "As stated: refuted by C29_empty_text_refuted. What holds is proved: every text that is read as at least one and fewer than 65281 characters."
  },
  {
   "property": "C30",
   "status": "proved",
   "theorems": [
    "C30_ids_and_texts_correspond",
    "C30_known_texts"
   ],
   "note": "For every sequence of loading calls (additions, variant links, index builds)."
  },
  {
   "property": "C31",
   "status": "proved",
   "theorems": [
    "C31_additions_succeed",
    "C31_frequency",
    "C31_vocabulary_file"
   ],
   "note": "Additions by call and by vocabulary file; succeed while the frequencies given total below 2^32."
  },
  {
   "property": "C32",
   "status": "partial",
   "theorems": [
    "C32_lexicon_membership",
    "C32_lexicon_list",
    "C32_last_lexicon_listed_refuted",
    "C32_too_many_lexicons_fail"
   ],
   "note": "As stated: refuted by C32_last_lexicon_listed_refuted (the listing function never lists lexicon 31). What holds is proved: membership queries are exact for 32 lexicons, the list is right for the first 31, a 33rd lexicon makes loading panic."
  },
  {
   "property": "C33",
   "status": "partial",
   "theorems": [
    "C33_loading_order",
    "C33_flags",
    "C33_searchable_order_refuted"
   ],
   "note": "As stated: refuted by C33_searchable_order_refuted (a concrete pair of load orders). What holds is proved: everything but ids and the searchable/LM flags of a text declared with different types is independent of the order (replace policy excluded)."
  },
  {
   "property": "C34",
   "status": "proved",
   "theorems": [
    "C34_index_content",
    "C34_build_succeeds",
    "C34_lookup"
   ],
   "note": ""
  },
  {
   "property": "C35",
   "status": "partial",
   "theorems": [
    "C35_rebuilding_keeps_index",
    "C35_iteration_order_irrelevant",
    "C35_rebuilding_without_lm",
    "C35_rebuilding_keeps_counts_refuted"
   ],
   "note": "As stated: refuted by C35_rebuilding_keeps_counts_refuted (n-gram counts are added again on rebuilding). What holds is proved: index and vocabulary are unchanged; without language-model entries everything is."
  },
  {
   "property": "C36",
   "status": "partial",
   "theorems": [
    "C36_links_stored",
    "C36_links_mutual",
    "C36_variants_unique",
    "C36_references_unique_refuted"
   ],
   "note": "As stated: refuted by C36_references_unique_refuted (backward links are duplicated when declared twice). What holds is proved: which links are stored, that they are mutual, and that forward links are unique."
  },
  {
   "property": "C37",
   "status": "proved",
   "theorems": [
    "C37_transparent_not_returned",
    "C37_references_returned"
   ],
   "note": "For entries with variant links that are not themselves a reference; a reference found directly with a higher rank replaces its neighbour."
  },
  {
   "property": "C38",
   "status": "partial",
   "theorems": [
    "C38_pairs_strict",
    "C38_pairs",
    "C38_learned",
    "C38_not_searchable",
    "C38_again",
    "C38_exact_match_refuted",
    "C38_again_refuted"
   ],
   "note": "As stated: refuted by C38_exact_match_refuted (a learned spelling is added as transparent only, so it is not indexed and is found no better than before) and C38_again_refuted (the same links are counted and stored again). What holds is proved: exactly how learning changes the vocabulary (C38_learned), that a new spelling is not searchable afterwards, and that learning again counts the same."
  },
  {
   "property": "C39",
   "status": "proved",
   "theorems": [
    "C39_expansion",
    "C39_expansion_succeeds"
   ],
   "note": ""
  },
  {
   "property": "C40",
   "status": "partial",
   "theorems": [
    "C40_found_occurs",
    "C40_occurs_found",
    "C40_anchored",
    "C40_short",
    "C40_occurs_found_refuted",
    "C40_end_anchor_refuted",
    "C40_inner_side_refuted"
   ],
   "note": "As stated: refuted by C40_occurs_found_refuted (an occurrence starting where an earlier attempt breaks off is missed), C40_end_anchor_refuted and C40_inner_side_refuted. What holds is proved: what is found occurs; exact for patterns anchored at the beginning and for patterns of at most two instructions in alternating scripts; in general occurrences are found unless an earlier partial occurrence runs into them."
  },
  {
   "property": "C41",
   "status": "proved",
   "theorems": [
    "C41_weights_multiply",
    "C41_rescoring",
    "C41_nothing_found"
   ],
   "note": "The product is the floating-point product from left to right; the edit scripts are those of an arbitrary script generator."
  },
  {
   "property": "C42",
   "status": "proved",
   "theorems": [
    "C42_boundaries",
    "C42_division_unique",
    "C42_in_order",
    "C42_maximal"
   ],
   "note": "is_alphabetic is a parameter."
  },
  {
   "property": "C43",
   "status": "partial",
   "theorems": [
    "C43_single_character_not_hard_refuted",
    "C43_no_break_space_refuted",
    "C43_strength"
   ],
   "note": "As stated: refuted by C43_single_character_not_hard_refuted (a single character such as a full stop without a space after it is not hard) and C43_no_break_space_refuted. What holds is proved: C43_strength gives the strength of every boundary exactly."
  },
  {
   "property": "C44",
   "status": "partial",
   "theorems": [
    "C44_candidates",
    "C44_candidate_text",
    "C44_whole_text",
    "C44_leading_separator_refuted"
   ],
   "note": "As stated: refuted by C44_leading_separator_refuted (the last piece of a text may be no word, and a text starting with a separator has an empty first candidate). What holds is proved: the candidates of order n are exactly the stretches of n consecutive pieces between boundaries, with their text and offsets."
  },
  {
   "property": "C45",
   "status": "proved",
   "theorems": [
    "C45_in_place",
    "C45_in_place_chars"
   ],
   "note": "The FST solver is any function that returns label sequences of paths of the graph; a space is not alphabetic. For both byte and code point offsets."
  },
  {
   "property": "C46",
   "status": "proved",
   "theorems": [
    "C46_code_points",
    "C46_only_on_character_boundaries",
    "C46_bytes"
   ],
   "note": "Conversion of byte offsets to code points, for every text."
  },
  {
   "property": "C47",
   "status": "partial",
   "theorems": [
    "C47_schedule",
    "C47_schedule_ends",
    "C47_batches",
    "C47_prefix",
    "C47_texts",
    "C47_unreadable_line_refuted",
    "C47_failing_lookup_refuted",
    "C47_search_batches_refuted"
   ],
   "note": "As stated: refuted by C47_unreadable_line_refuted (a line that is not UTF-8 is skipped by one mode, ends the other and loses its batch), C47_failing_lookup_refuted (a failing lookup loses the output of the lines before it in its batch) and C47_search_batches_refuted (in search mode offsets start again with each batch). What holds is proved: for every schedule of the workers the collected results are those of the computations alone, in input order; with readable lines and successful lookups every batch size gives the output of sequential mode; the parallel output is always a beginning of the sequential one; in search mode every line is in exactly one text."
  },
  {
   "property": "C48",
   "status": "partial",
   "theorems": [
    "C48_own_variant",
    "C48_best",
    "C48_negative_score_refuted"
   ],
   "note": "As stated: refuted by C48_negative_score_refuted (a context rule with a negative score makes the score not a number, and a first sequence with such a score is kept). What holds is proved: the graph holds exactly the readings of the matches; the chosen sequence is the first with the highest combined score if scores are numbers, which they are for positive costs, perplexities and context scores; the variant of each match is one of its own. The solver returns any paths of the graph."
  },
  {
   "property": "C49",
   "status": "proved",
   "theorems": [
    "C49_pattern",
    "C49_rule",
    "C49_lexicon_number_refuted",
    "C49_parsed_patterns",
    "C49_tokens"
   ],
   "note": "For patterns with lexicon numbers below 32, which parsed patterns have if at most 32 lexicons were loaded (C49_parsed_patterns); C49_lexicon_number_refuted shows the panic otherwise. A rule additionally needs its tokens to be unclaimed."
  },
  {
   "property": "C50",
   "status": "partial",
   "theorems": [
    "C50_written",
    "C50_accepted",
    "C50_never_crashes",
    "C50_known",
    "C50_rule",
    "C50_rule_never_crashes",
    "C50_never_crashes_refuted",
    "C50_file_never_crashes_refuted",
    "C50_bracket_pairs_refuted"
   ],
   "note": "As stated: refuted by C50_never_crashes_refuted and C50_file_never_crashes_refuted (a tag range that starts beyond the pattern panics) and by C50_bracket_pairs_refuted (\"!(a)|!(b)\" is rejected). What holds is proved: the parser never panics or diverges, parses every text of an unambiguous grammar to the pattern written, and accepts only texts that denote the result; whole rules are added as written."
  },
  {
   "property": "C51",
   "status": "partial",
   "theorems": [
    "C51_claimed_once",
    "C51_applications_unique",
    "C51_covering",
    "C51_shared",
    "C51_claimed_once_refuted"
   ],
   "note": "As stated: refuted by C51_claimed_once_refuted (a tag range that leaves out tokens leaves them unclaimed). What holds is proved: for rules that give every token a result, tokens are used once and the score is the average; in general tokens are shared only if the earlier rule gave them nothing."
  },
  {
   "property": "C52",
   "status": "partial",
   "theorems": [
    "C52_numbered",
    "C52_loaded",
    "C52_long_range_refuted"
   ],
   "note": "As stated: refuted by C52_long_range_refuted (ranges are added up in 8 bits, which panics). What holds is proved: for ranges within 255, the tags of every token are exactly those of the applied rules, numbered from the start of the range."
  },
  {
   "property": "C53",
   "status": "proved",
   "theorems": [
    "C53_round_trip",
    "C53_round_trip_total",
    "C53_optional_items",
    "C53_operations",
    "C53_reports"
   ],
   "note": ""
  },
  {
   "property": "C54",
   "status": "proved",
   "theorems": [
    "C54_scoring",
    "C54_sequence",
    "C54_empty_refuted",
    "C54_ngram_counts",
    "C54_build_adds_counts"
   ],
   "note": "Words are counted modulo 256 by the code, hence the bound on spaces. The logarithm is a parameter; C54_empty_refuted shows that the empty token list panics."
  },
  {
   "property": "C55",
   "status": "proved",
   "theorems": [
    "C55_shared_visited_set",
    "C55_cache_bounded",
    "C55_check_keeps"
   ],
   "note": "A maximum of 0 means no limit. The cache is passed to searches by the iterator only; find_nearest_anahashes does not use it in this version."
  },
  {
   "property": "C56",
   "status": "partial",
   "theorems": [
    "C56_threshold_text",
    "C56_ratio_range_refuted"
   ],
   "note": "As stated: refuted by C56_ratio_range_refuted (the ratio of a pair is not checked to be from 0 to 1). What holds is proved: the exact set of accepted texts and their values; Rust's float parser is a parameter."
  },
  {
   "property": "C57",
   "status": "proved",
   "theorems": [
    "C57_order",
    "C57_tsv",
    "C57_tsv_succeeds",
    "C57_columns",
    "C57_json",
    "C57_decimal"
   ],
   "note": "The printed text itself: the tab separated line and what the JSON object says, for every selection and result list; JSON under the conditions of C65."
  },
  {
   "property": "C58",
   "status": "proved",
   "theorems": [
    "C58_score_is_weighted_mean"
   ],
   "note": ""
  },
  {
   "property": "C59",
   "status": "proved",
   "theorems": [
    "C59_loaded_vocabularies"
   ],
   "note": ""
  },
  {
   "property": "C60",
   "status": "proved",
   "theorems": [
    "C60_confusable_list",
    "C60_non_ascii_fails"
   ],
   "note": "sesdiff's script parser and Rust's float parser are parameters."
  },
  {
   "property": "C61",
   "status": "proved",
   "theorems": [
    "C61_prefixes_of_bytes",
    "C61_suffixes_of_bytes",
    "C61_equal_bytes",
    "C61_byte_length"
   ],
   "note": "Justifies modelling text as characters."
  },
  {
   "property": "C62",
   "status": "proved",
   "theorems": [
    "C62_search_succeeds",
    "C62_no_sequences_refuted"
   ],
   "note": "C62_no_sequences_refuted shows that asking for 0 sequences panics. The solver returns paths of the graph, and at least one if there is one."
  },
  {
   "property": "C63",
   "status": "partial",
   "theorems": [
    "C63_first_path",
    "C63_single_word_refuted"
   ],
   "note": "As stated: refuted by C63_single_word_refuted (the best cost starts at 0 for a single boundary, so all sequences score ln 0 and the first path returned wins). What holds is proved: C63_first_path, the first path is selected."
  },
  {
   "property": "C64",
   "status": "partial",
   "theorems": [
    "C64_logprob",
    "C64_scores",
    "C64_inconsistent_refuted"
   ],
   "note": "As stated: refuted by C64_inconsistent_refuted (a pair counted more often than its first word). What holds is proved: for consistent 32-bit counts, with any logarithm that respects signs."
  },
  {
   "property": "C65",
   "status": "partial",
   "theorems": [
    "C65_query_output",
    "C65_search_output",
    "C65_unambiguous",
    "C65_backslash_refuted",
    "C65_tab_refuted",
    "C65_two_files_refuted",
    "C65_tag_refuted"
   ],
   "note": "As stated: refuted by C65_backslash_refuted, C65_tab_refuted (only quotation marks are escaped), C65_two_files_refuted (no comma between files) and C65_tag_refuted (names of tags are not escaped). What holds is proved: for one file, inputs and entries without backslashes and control characters, finite scores and a float printer that prints finite numbers as JSON numbers, the output says exactly the inputs and results; the grammar is unambiguous."
  },
  {
   "property": "C66",
   "status": "partial",
   "theorems": [
    "C66_tsv",
    "C66_json_refuted",
    "C66_json_nothing",
    "C66_files_json",
    "C66_files_tsv",
    "C66_files_tsv_refuted"
   ],
   "note": "As stated: refuted by C66_json_refuted (for every model with at least one link the JSON output is not JSON: comma after the last element) and C66_files_tsv_refuted. What holds is proved: the TSV lines; the JSON output without links; which files a variant is written to in both formats."
  },
  {
   "property": "C67",
   "status": "proved",
   "theorems": [
    "C67_test_input",
    "C67_single_characters"
   ],
   "note": ""
  },
  {
   "property": "C68",
   "status": "proved",
   "theorems": [
    "C68_reading",
    "C68_usable",
    "C68_writable"
   ],
   "note": "char::is_whitespace is a parameter."
  },
  {
   "property": "C69",
   "status": "partial",
   "theorems": [
    "C69_list_reads",
    "C69_list_unique",
    "C69_list_succeeds",
    "C69_numeric_variant_refuted"
   ],
   "note": "As stated: refuted by C69_numeric_variant_refuted (the format is guessed from the first lines: a line of a list without frequencies that has two variants, the first of which is a number, is read as having frequencies and panics). What holds is proved: what is added, linked and recorded for the format the lines decide, that files of one format are read, and that the format is determined. Rust's float parser is a parameter."
  },
  {
   "property": "C70",
   "status": "proved",
   "theorems": [
    "C70_files_loaded",
    "C70_settings",
    "C70_lexicon_names",
    "C70_loading_succeeds"
   ],
   "note": "The argument parser (clap) gives values and increasing positions; up to 256 files are numbered, membership is kept for 32 (in_lexicon shifts by the number)."
  },
  {
   "property": "C71",
   "status": "proved",
   "theorems": [
    "C71_index_command"
   ],
   "note": ""
  },
  {
   "property": "C72",
   "status": "partial",
   "theorems": [
    "C72_decomposition",
    "C72_unknown_character_refuted"
   ],
   "note": "As stated: refuted by C72_unknown_character_refuted (the value of a text with a character outside the alphabet panics). What holds is proved for texts of the alphabet."
  },
  {
   "property": "C73",
   "status": "proved",
   "theorems": [
    "C73_match_empty",
    "C73_ngram_text",
    "C73_known_words",
    "C73_match_text"
   ],
   "note": "For models whose word counts are right (words_counted), that is entries below 255 spaces. C73_match_text adds what match_to_str gives for a match."
  },
  {
   "property": "C74",
   "status": "partial",
   "theorems": [
    "C74_words_missing",
    "C74_last_word_refuted"
   ],
   "note": "As stated: refuted by C74_last_word_refuted (the last word is always missing; matches of one and two words become empty). What holds is proved: C74_words_missing, an upper bound on the words that are kept."
  },
  {
   "property": "C75",
   "status": "proved",
   "theorems": [
    "C75_lookup_exact",
    "C75_one_outcome"
   ],
   "note": "Both directions: the lookup returns l exactly if the specification holds of l; and the specification determines l. For texts of up to 255 characters and the numbers of C29. The score of a single candidate is the model's distance_score (pinned by C20), the pattern match of a confusable the model's found_in (C40)."
  },
  {
   "property": "C76",
   "status": "partial",
   "theorems": [
    "C76_accepted",
    "C76_parameters",
    "C76_weights",
    "C76_unicode_offsets_refuted",
    "C76_without_effect",
    "C76_iterations",
    "C76_cutoff",
    "C76_nan_cutoff_refuted"
   ],
   "note": "As stated: refuted by C76_unicode_offsets_refuted (the flag is defined under another name than the one asked for, so offsets are never in characters), C76_without_effect (--unicode-offsets and --allow-overlap change nothing in any run) and C76_nan_cutoff_refuted (a cutoff that is not a number is let through). What holds is proved: C76_accepted, C76_parameters (all other parameters, in both directions), C76_weights, C76_iterations, C76_cutoff."
  },
  {
   "property": "C77",
   "status": "proved",
   "theorems": [
    "C77_start",
    "C77_contents_unique",
    "C77_start_succeeds",
    "C77_query_tsv",
    "C77_query_json"
   ],
   "note": "For files within within_limits (alphabet of at most 166 entries, at most 32 files, entries below 65536 characters and 255 spaces, frequencies that sum below 2^32, link scores in [0,1], confusable weights in [0,2]) and input lines of 1 to 255 characters. JSON for one input file and texts without control characters and backslashes (C65 shows what happens otherwise). What files say is stated with the specifications of C33, C63, C69, C70; the results with that of C75."
  },
  {
   "property": "C78",
   "status": "proved",
   "theorems": [
    "C78_search_exact",
    "C78_one_outcome"
   ],
   "note": "Both directions, and the specification determines the list. Single lookups by the specification of C75; the solver is any sound and complete one (solver_sound, solver_complete), the logarithms and Unicode tables are parameters. The combination of scores is the definition `combined` of C48, the language model that of C54 and C64, the choice of context rules that of C51."
  },
  {
   "property": "C79",
   "status": "proved",
   "theorems": [
    "C79_expression",
    "C79_file",
    "C79_unique",
    "C79_rejected"
   ],
   "note": "Both directions, for every file and every model; the specification determines the rules and the table of tags. The number format of scores and the table of white space are parameters. C79_rejected: a rejected file leaves the rules before its first wrong line in the model. A file on which a tag range starts beyond the end of its pattern is not rejected but panics (C50)."
  },
  {
   "property": "C80",
   "status": "proved",
   "theorems": [
    "C80_texts",
    "C80_counts",
    "C80_counts_unique",
    "C80_search_tsv",
    "C80_search_json"
   ],
   "note": "For files within within_limits (see C77), context rules with lexicon numbers below 32 and ranges below 256 (rule_ok), texts below 65281 characters whose stretches of words are at most 255 characters, and a positive --max-seq. The solver is any sound and complete one; the logarithms and Unicode tables are parameters. JSON for one input file, texts without control characters and backslashes and tags without quotes (C65 shows what happens otherwise). What is found is stated with the specification of C78."
  },
  {
   "property": "C81",
   "status": "partial",
   "theorems": [
    "C81_search_keywords",
    "C81_weights_keywords",
    "C81_vocab_keywords",
    "C81_vocab_refused",
    "C81_search_assignment",
    "C81_weights_assignment",
    "C81_vocab_assignment",
    "C81_whole_numbers",
    "C81_narrowing",
    "C81_none_refuted",
    "C81_none_assigned",
    "C81_readme_refuted"
   ],
   "note": "As stated: refuted by C81_none_refuted (VocabParams(freq_column=None) keeps column 1, although the attribute accepts None) and C81_readme_refuted (the keyword unicodeoffset of the README is ignored, the code asks for unicodeoffsets). What holds is proved: all other keywords and all assignments, in both directions; the rounding of whole numbers and of 32-bit floats against real numbers. Python's None, bool, int, float, str, tuple, list and dict are modelled."
  },
  {
   "property": "C82",
   "status": "partial",
   "theorems": [
    "C82_reached",
    "C82_readable",
    "C82_limited",
    "C82_dictionary",
    "C82_rebuilds",
    "C82_weights",
    "C82_limit_refuted",
    "C82_stop_refuted"
   ],
   "note": "As stated: refuted by C82_limit_refuted (a threshold with a limit is shown as a dictionary that is neither accepted as argument nor in an assignment) and C82_stop_refuted (the dictionary lacks stop_at_exact_match). What holds is proved: C82_rebuilds says exactly when the dictionary makes an equal object; C82_readable. That parse::<f32> gives 32-bit floats is a hypothesis."
  },
  {
   "property": "C83",
   "status": "partial",
   "theorems": [
    "C83_accepted",
    "C83_besides",
    "C83_text",
    "C83_integers_refuted",
    "C83_range_refuted"
   ],
   "note": "As stated: refuted by C83_integers_refuted (whole numbers below 0 or above 255 become ratios) and C83_range_refuted (ratios above 1). What holds is proved: C83_accepted lists what is accepted, with the documented values meaning what they should; C83_text."
  },
  {
   "property": "C84",
   "status": "proved",
   "theorems": [
    "C84_session",
    "C84_session_unique",
    "C84_session_succeeds",
    "C84_find_variants",
    "C84_find_variants_par",
    "C84_find_all_matches"
   ],
   "note": "For orderly sessions: one build, words before it, context rules after the words, at most 256 numbered files; answers for contents within within_limits (see C77). Words added with add_to_vocabulary have lexicon number 0 unless the parameters say otherwise, so they are reported as being in the first file (part of the statement; see DESIGN). The number formats and the table of white space are parameters; a dictionary is the list of its keys and values in the order in which the code sets them."
  },
  {
   "property": "C85",
   "status": "partial",
   "theorems": [
    "C85_contains",
    "C85_lexicons",
    "C85_names",
    "C85_variants_refuted",
    "C85_lost_refuted",
    "C85_added_refuted"
   ],
   "note": "As stated: refuted by C85_variants_refuted (texts only in a variant list are in the model), C85_lost_refuted (a word of a lexicon is not in the model if a language model with it was read before) and C85_added_refuted (a word added with add_to_vocabulary is reported as being in the first file). What holds is proved: C85_contains says exactly which texts are in the model (the first addition decides); C85_lexicons is the statement for sessions with lexicons only; C85_names for sessions without add_to_vocabulary. Limits as for C84."
  },
  {
   "property": "C86",
   "status": "proved",
   "theorems": [
    "C86_slices",
    "C86_bytes",
    "C86_one_place"
   ],
   "note": "For texts in which the space is not alphabetic (it is not in Unicode) and any solver that returns paths of the graph. The keyword that the README of the bindings names for this (unicodeoffset) does not exist: see C81."
  },
  {
   "property": "C87",
   "status": "partial",
   "theorems": [
    "C87_covered",
    "C87_in_company",
    "C87_lm_refuted",
    "C87_alone_refuted"
   ],
   "note": "As stated: refuted by C87_lm_refuted (default parameters and a language model: an unknown word is left out, because the sequence without it has a better perplexity) and by C87_alone_refuted (a solver that is accurate but does not give the cheapest path first: a text that is one known word has no matches; with one boundary the normalisation divides 0 by every cost). What holds is proved: C87_covered, for choices by costs only (no language model or context rules in effect), texts of at most 1000 words, at most 98 words per match, and a solver that gives the cheapest path first; C87_in_company, for every accurate solver, about all words but those alone in their part of the text. Costs and logarithms may be off by a small relative or absolute error (S_Cover)."
  },
  {
   "property": "C88",
   "status": "partial",
   "theorems": [
    "C88_counts",
    "C88_transition",
    "C88_unseen",
    "C88_listed",
    "C88_refuted"
   ],
   "note": "As stated: refuted by C88_refuted (a word that is also in a lexicon keeps no count from the language model, because add_to_vocabulary does not mark existing entries; its transitions are then scored by the logarithm of the count of the pair, above zero). What holds is proved: counts of series of words that no lexicon or variant list has are the greatest in the language models, there are none for others (C88_counts); the statement for words not listed elsewhere (C88_transition, C88_unseen); the value for words that are (C88_listed)."
  },
  {
   "property": "C89",
   "status": "proved",
   "theorems": [
    "C89_contents",
    "C89_query",
    "C89_search"
   ],
   "note": "C89_contents (the calls say the content that the options say), C89_query and C89_search (the run's JSON shows the objects returned). For one input file, texts that need no escapes in JSON, byte offsets (the tool's), and output-lexmatch, since the bindings always name the lexicons."
  },
  {
   "property": "C90",
   "status": "partial",
   "theorems": [
    "C90_weights",
    "C90_lookups",
    "C90_search",
    "C90_refuted"
   ],
   "note": "As stated: refuted by C90_refuted (the maximum edit distance is 2 and 3, the maximum number of matches 10 and 20: a word is found in Python and not by the tool). What holds is proved: the weights are the same (C90_weights); with these two parameters set in Python, lookups have the same parameters in every mode (C90_lookups) and all parameters are the same in search mode (C90_search)."
  },
  {
   "property": "C91",
   "status": "proved",
   "theorems": [
    "C91_learn_strict",
    "C91_learn"
   ],
   "note": "C91_learn_strict and C91_learn: what is learned, what is printed, that this is determined, and that the run ends with it. For the tab separated output without multi-output (C66 is about the others), lines short enough for being looked up, and frequencies and input with room for adding up."
  },
  {
   "property": "C92",
   "status": "partial",
   "theorems": [
    "C92_never_through",
    "C92_refuted"
   ],
   "note": "As stated: refuted by C92_refuted (the README's own example: with separate in the lexicon and seperate, seperete as input at distance 1, seperete is not found after 1, nor after 255 iterations; it is found if the pair is given as a variant list instead). What holds is proved: however many rounds, every result is an entry from before learning and found directly or through an entry from before (C92_never_through), since learned texts are added without being indexed."
  },
  {
   "property": "C93",
   "status": "partial",
   "theorems": [
    "C93_reload",
    "C93_loaded",
    "C93_refuted"
   ],
   "note": "As stated: refuted by C93_refuted (7777 with the variants 777 and 77777 is printed as a line that cannot be loaded: it has five columns and a number in the second, which is taken for a frequency). What holds is proved: if no text has a tab, scores are read as written and the first variant of no entry is a number, the lines say exactly the variants (C93_reload); loaded after lexicons, every variant is searchable and refers to the entry it was learned for with its score (C93_loaded)."
  },
  {
   "property": "C94",
   "status": "proved",
   "theorems": [
    "C94_index"
   ],
   "note": "For any order of the hash maps."
  },
  {
   "property": "C95",
   "status": "proved",
   "theorems": [
    "C95_test"
   ],
   "note": "For alphabets of at most 167 entries; the output is determined. Lines on standard error are not modelled."
  },
  {
   "property": "C96",
   "status": "proved",
   "theorems": [
    "C96_reverse_index"
   ],
   "note": "For vocabularies in which lookups by text and by id agree, which all loading functions keep (C30)."
  },
  {
   "property": "C97",
   "status": "partial",
   "theorems": [
    "C97_shown",
    "C97_refuted"
   ],
   "note": "As stated: refuted by C97_refuted (the stop criterion and the context weight are not shown). What holds is proved: parameters that are shown alike differ in those two at most (C97_shown); Rust's writing of numbers is a parameter that has to be injective and without commas and line ends."
  },
  {
   "property": "C98",
   "status": "proved",
   "theorems": [
    "C98_repeated",
    "C98_kept"
   ],
   "note": "C98_repeated: with --strict, without --json and --multi-output, for any number of iterations and inputs and files without confusables, the output of the run is what the specification's iterations give, and the run does not panic. C98_kept: entries keep their place, text and variants through all iterations. That an iteration counts repeated links, so that learning goes on although nothing new is found, is C38_again."
  },
  {
   "property": "C99",
   "status": "partial",
   "theorems": [
    "C99_json",
    "C99_tsv",
    "C99_resolve",
    "C99_new",
    "C99_tsv_refuted",
    "C99_json_refuted",
    "C99_names"
   ],
   "note": "As stated: refuted by C99_tsv_refuted (in TSV no file ever has a newly learned spelling, and if there are no other variants no file is written, for every model with lexicons and everything that can be learned) and C99_json_refuted (in JSON the score and the frequency are swapped). What holds is proved: the exact contents of all files in both forms (C99_json, C99_tsv: TSV has in the first file what is not in the first lexicon, in the second what is in the second, and no others), that learned spellings count as words of the first lexicon (C99_new), and that after loading and learning the links lead to entries (C99_resolve)."
  },
  {
   "property": "C100",
   "status": "partial",
   "theorems": [
    "C100_words",
    "C100_json",
    "C100_multi_json",
    "C100_json_refuted",
    "C100_multi_json_refuted"
   ],
   "note": "As stated: refuted by C100_json_refuted and C100_multi_json_refuted (commas after the last variant, none between words and between inputs). What holds is proved, with --strict and without confusables: the run ends without a panic and its exact output, in all three forms (C100_words, C100_json, C100_multi_json), and exactly when it is JSON: one input, and no word with variants (C100_json) or at most one word with variants (C100_multi_json). For --json the texts have no backslashes and control characters, and the writing of finite numbers is a parameter that gives JSON numbers. That links are stored on both sides and that scores are finite is proved for everything loaded and learned, not assumed."
  }
 ]
}