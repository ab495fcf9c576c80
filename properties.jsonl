{"id": "C01", "title": "Anagram hash identifies exactly the anagrams", "statement": "Two texts get the same anagram hash if and only if, after reading them through the alphabet, they consist of the same characters with the same multiplicities (order is irrelevant, and no two different bags of characters ever collide).", "quantifier": "every alphabet with at most 167 non-empty entries, every pair of texts of any length", "why_tests_cant": "Collision freedom and order independence range over all strings and alphabets; a test suite only compares a handful of words.", "anchors": ["src/anahash.rs: anahash, Anahash::insert, Anahash::character", "src/types.rs: PRIMES"]}
{"id": "C02", "title": "Insert, delete and contains behave as bag union, difference and inclusion", "statement": "On anagram hashes: contains(a,b) is true exactly when the bag of b is included in the bag of a; delete(a,b) succeeds exactly then and yields the hash of the bag difference; inserting b into a and deleting it again gives a back; insertion is commutative and associative.", "quantifier": "all hashes of all bags of characters over any alphabet of at most 168 character indices", "why_tests_cant": "Divisibility semantics of unbounded products of primes cannot be enumerated.", "anchors": ["src/anahash.rs: insert, delete, contains, empty, is_empty"]}
{"id": "C03", "title": "Normalised form and anagram hash agree", "statement": "The normalised form of a text (used for edit distances) and its anagram hash (used for lookup) are two views of the same character sequence: the hash is the hash of the bag of the normalised characters, so texts with equal normalised forms always share a hash and the number of characters counted in the hash equals the length of the normalised form.", "quantifier": "every alphabet with at most 167 non-empty entries (including multi-character entries) and every text", "why_tests_cant": "Two separately written greedy loops must agree on every text and alphabet, including overlapping multi-character entries and unknown characters.", "anchors": ["src/anahash.rs: anahash, normalize_to_alphabet, char_count"]}
{"id": "C04", "title": "Hashing is total up to the documented alphabet size and only then fails", "statement": "Hashing and normalising never fail on any text when the alphabet has at most 167 entries and no empty entry; with a larger alphabet some text makes hashing fail.", "quantifier": "every alphabet, every text", "why_tests_cant": "Absence of a crash for all inputs and the exact limit cannot be sampled.", "anchors": ["src/anahash.rs: anahash, character", "src/types.rs: PRIMES, CharIndexType", "src/lib.rs: alphabet_size"]}
{"id": "C05", "title": "Alphabet lines define equivalence classes", "statement": "Replacing, in a text made of single characters, any character by another one from the same alphabet line changes neither the hash nor the normalised form; characters outside the alphabet are all treated as one unknown character.", "quantifier": "every alphabet of single-character entries, every text and every replacement position", "why_tests_cant": "Ranges over all texts, alphabets and positions.", "anchors": ["src/anahash.rs: anahash, normalize_to_alphabet"]}
{"id": "C06", "title": "Character iteration over a hash lists every character with its multiplicity", "statement": "Iterating over a hash yields the characters of its bag, each as often as it occurs, in descending alphabet order, and ends; consequently the character count is the size of the bag (below 2^16) and the upper bound is the largest character index present.", "quantifier": "every bag over the alphabet", "why_tests_cant": "Must hold for every bag and every alphabet size.", "anchors": ["src/anahash.rs: iter, char_count, alphabet_upper_bound", "src/iterators.rs: DeletionIterator, RecurseDeletionIterator"]}
{"id": "C07", "title": "Single deletions are complete and duplicate free", "statement": "Iterating over the parents of a hash yields, for each distinct character of the bag exactly once and in descending order, the hash of the bag with one occurrence of that character removed.", "quantifier": "every bag, every alphabet size up to 168", "why_tests_cant": "All bags must be covered.", "anchors": ["src/iterators.rs: DeletionIterator", "src/anahash.rs: iter_parents"]}
{"id": "C08", "title": "Recursive deletion search visits each reachable sub-anagram exactly once", "statement": "Breadth-first (and depth-first) recursive deletion without duplicates yields every sub-bag obtained by deleting between 1 and max_distance characters (excluding the empty one if empty leaves are disallowed) exactly once, paired with the right distance; breadth-first yields them in non-decreasing distance; and the iteration terminates.", "quantifier": "every bag, every distance bound (including none), both traversal orders", "why_tests_cant": "The visited set and queue interleave over combinatorially many states.", "anchors": ["src/iterators.rs: RecurseDeletionIterator::next", "src/anahash.rs: iter_recursive"]}
{"id": "C09", "title": "Damerau-Levenshtein is the minimal number of edits", "statement": "For texts of at most 255 characters the reported Damerau-Levenshtein distance is the minimum number of insertions, deletions, substitutions and transpositions of adjacent characters (with edits allowed in between) turning one string into the other, when it is within the limit, and nothing is reported otherwise.", "quantifier": "all pairs of normalised strings of at most 255 characters, every limit", "why_tests_cant": "Optimality is a statement about all edit scripts between all pairs of strings.", "anchors": ["src/distance.rs: damerau_levenshtein"]}
{"id": "C10", "title": "Bounded Levenshtein is exact", "statement": "levenshtein(a,b,max) reports the minimum number of insertions, deletions and substitutions if that is at most max, and None otherwise; early exits never change the answer.", "quantifier": "all pairs of strings up to 255 characters and all limits", "why_tests_cant": "Early exits and a single-row cache must be right for all pairs.", "anchors": ["src/distance.rs: levenshtein"]}
{"id": "C11", "title": "Edit distances are metrics", "statement": "Both edit distances are zero exactly for equal strings, symmetric, and satisfy the triangle inequality.", "quantifier": "all (triples of) strings of at most 255 characters", "why_tests_cant": "Relational laws over all triples of strings.", "anchors": ["src/distance.rs: levenshtein, damerau_levenshtein"]}
{"id": "C12", "title": "Longest common substring, prefix and suffix lengths are exact", "statement": "The reported lengths are attained by an actual common substring/prefix/suffix and no longer one exists; each is symmetric and at most the length of either string.", "quantifier": "all pairs of strings shorter than 65536 characters", "why_tests_cant": "Maximality quantifies over all substrings of all strings.", "anchors": ["src/distance.rs: longest_common_substring_length, common_prefix_length, common_suffix_length"]}
{"id": "C13", "title": "Anagram distance never exceeds twice the edit distance", "statement": "If two normalised strings are at Damerau-Levenshtein distance d, their bags differ by at most 2d insertions/deletions (each insertion or deletion contributes one, a substitution two, a transposition none); hence an anagram-distance limit of 2k loses no candidate within edit distance k.", "quantifier": "all pairs of strings", "why_tests_cant": "This is the completeness argument of the whole filter; it quantifies over all string pairs.", "anchors": ["src/lib.rs: find_nearest_anahashes, gather_instances", "src/distance.rs: damerau_levenshtein"]}
{"id": "C14", "title": "Nearest-anagram retrieval is sound and complete", "statement": "The retrieved anagram hashes are exactly the indexed hashes whose bag is within the given number of character insertions plus deletions of the query bag (each substitution counting as two), provided the limit is below the query length and character counts stay below 256.", "quantifier": "every built model, every query, every distance limit", "why_tests_cant": "The two-index lookup strategy must agree with the declarative neighbourhood for every model and query.", "anchors": ["src/lib.rs: find_nearest_anahashes, build"]}
{"id": "C15", "title": "Query alphabet bound never makes retrieval fail", "statement": "Retrieving candidates for any text never fails for any alphabet the hasher accepts.", "quantifier": "every alphabet of at most 167 entries, every text", "why_tests_cant": "The failing combination (largest character index present in the query) is one corner of a huge space.", "anchors": ["src/lib.rs: find_nearest_anahashes", "src/iterators.rs: DeletionIterator"]}
{"id": "C16", "title": "StopAtExactMatch only narrows to the exact anagram class", "statement": "With the stop-at-exact-match criterion the candidate set is just the query's own anagram class when that class is indexed and is the full neighbourhood otherwise.", "quantifier": "every built model and query", "why_tests_cant": "Must hold for every index content.", "anchors": ["src/lib.rs: find_nearest_anahashes", "src/types.rs: StopCriterion"]}
{"id": "C17", "title": "find_variants is sound", "statement": "Every result of find_variants refers to an indexed vocabulary entry (or, via declared variant links, to the reference of one) whose edit distance to the input is within the effective limit.", "quantifier": "every built model, input and parameter setting", "why_tests_cant": "All models and all inputs.", "anchors": ["src/lib.rs: find_variants, gather_instances, expand_variants"]}
{"id": "C18", "title": "find_variants is complete", "statement": "With no cap on the number of matches, no cutoff, no confusables and no variant lists, every indexed vocabulary entry that is within the anagram distance and the edit distance and reaches the score threshold is returned, exactly once.", "quantifier": "every built model, input and parameter setting", "why_tests_cant": "Completeness concerns the entries that are not returned, for all models.", "anchors": ["src/lib.rs: find_variants, gather_instances, score_and_rank"]}
{"id": "C19", "title": "Effective distance limits", "statement": "The effective limit derived from an absolute setting is the minimum of the setting and half the input length; from a ratio it is the floor of ratio times length (a product of 32-bit floats) capped at 12; from a ratio with limit it is capped at that limit. In particular limits are monotone in the setting and never exceed their caps.", "quantifier": "all settings and input lengths", "why_tests_cant": "Ranges over all lengths and settings.", "anchors": ["src/lib.rs: find_variants", "src/types.rs: DistanceThreshold"]}
{"id": "C20", "title": "Similarity scores lie between 0 and 1", "statement": "With non-negative finite weights that have a positive finite sum, every computed distance score is a number between 0 and 1 (as IEEE doubles, after all rounding), and is never NaN.", "quantifier": "all weights, all inputs, all distances as computed by the library", "why_tests_cant": "Rounding error bounds over all doubles cannot be tested exhaustively.", "anchors": ["src/lib.rs: score_and_rank", "src/types.rs: Weights::sum"]}
{"id": "C21", "title": "An exact match scores exactly 1.0", "statement": "An entry identical to the input gets a distance score of exactly 1.0 for every weight setting with positive finite sum and non-negative weights, and therefore (frequency weight 0, no confusables) nothing ranks above it in score.", "quantifier": "all weights, all inputs up to 65535 characters", "why_tests_cant": "Exactness under floating-point rounding for all weights.", "anchors": ["src/lib.rs: score_and_rank", "src/types.rs: Weights::sum"]}
{"id": "C22", "title": "Results are ranked", "statement": "Results are ordered by non-increasing combined score when frequency weighting is on, and by non-increasing distance score with ties broken by non-increasing frequency score otherwise; ties keep their order.", "quantifier": "every result list", "why_tests_cant": "Sortedness for all lists of all scores.", "anchors": ["src/types.rs: VariantResult::rank_cmp, VariantResult::score", "src/lib.rs: rank_results, score_and_rank"]}
{"id": "C23", "title": "max_matches bounds the number of results", "statement": "find_variants returns at most max_matches results when max_matches is positive.", "quantifier": "every model, input and positive max_matches", "why_tests_cant": "The crop logic around ties depends on the score pattern of the whole list.", "anchors": ["src/lib.rs: score_and_rank", "src/types.rs: SearchParameters::max_matches"]}
{"id": "C24", "title": "Cropping never prefers a worse result over a better one", "statement": "Whatever is dropped by max_matches or by the cutoff threshold ranks no higher than everything that is kept (the result is a prefix of the ranked list).", "quantifier": "every result list and parameters", "why_tests_cant": "All lists of scores.", "anchors": ["src/lib.rs: score_and_rank"]}
{"id": "C25", "title": "Cutoff threshold", "statement": "With a cutoff threshold c >= 1 every returned result except the best has a score strictly greater than best/c, and every dropped one after the cut is at most the score at the cut; a setting below 1 disables the cutoff.", "quantifier": "every ranked list and threshold", "why_tests_cant": "All lists of scores.", "anchors": ["src/lib.rs: score_and_rank", "src/types.rs: SearchParameters::cutoff_threshold"]}
{"id": "C26", "title": "Score threshold", "statement": "No result has a distance score below the score threshold.", "quantifier": "every model, input, threshold", "why_tests_cant": "Interaction of pruning with later rescoring and expansion needs all models.", "anchors": ["src/lib.rs: score_and_rank, expand_variants, rescore_confusables"]}
{"id": "C27", "title": "No vocabulary entry is returned twice", "statement": "find_variants never returns the same vocabulary entry twice.", "quantifier": "every model and input", "why_tests_cant": "Duplicate removal only looks at neighbours; the failing pattern depends on the combination of scores.", "anchors": ["src/lib.rs: score_and_rank (dedup_by_key), expand_variants"]}
{"id": "C28", "title": "Frequency scores are normalised", "statement": "Frequency scores of results lie between 0 and 1, and the most frequent candidate gets exactly 1.", "quantifier": "every model, input", "why_tests_cant": "All frequency combinations.", "anchors": ["src/lib.rs: score_and_rank"]}
{"id": "C29", "title": "Querying never crashes on text input", "statement": "find_variants returns normally on every text, including the empty one.", "quantifier": "every built model with alphabet of at most 166 entries, positive-sum weights, every text", "why_tests_cant": "Freedom from panics for all inputs.", "anchors": ["src/lib.rs: find_variants, score_and_rank (assert), gather_instances (expect)"]}
{"id": "C30", "title": "Vocabulary ids are a stable bijection", "statement": "After any sequence of vocabulary additions, each distinct text has exactly one id, looking up the text by id and the id by text are inverse, ids 0..n-1 are all in use, and an id never changes its text.", "quantifier": "every sequence of additions (lexicons, variants, language models, learning)", "why_tests_cant": "All histories of operations.", "anchors": ["src/lib.rs: add_to_vocabulary, add_variant, learn_variants", "src/vocab.rs: init_vocab"]}
{"id": "C31", "title": "Frequencies follow the declared policy", "statement": "After any sequence of additions the stored frequency of an entry is the fold of the frequencies supplied, under the per-call policy (sum, max, min, replace), starting with the first one (1 if unspecified).", "quantifier": "every sequence of additions with any policies (sums below 2^32)", "why_tests_cant": "All histories.", "anchors": ["src/lib.rs: add_to_vocabulary", "src/vocab.rs: FrequencyHandling"]}
{"id": "C32", "title": "Lexicon membership is exact", "statement": "After loading any sequence of lexicons (at most 31) an entry reports membership of lexicon i exactly if it occurred in an addition with index i, and the list of its lexicons is that set in increasing order.", "quantifier": "every history of additions with indices below 31", "why_tests_cant": "All histories.", "anchors": ["src/vocab.rs: in_lexicon, lexindex_as_vec", "src/lib.rs: add_to_vocabulary, read_vocabulary"]}
{"id": "C33", "title": "Loading order does not change what an entry is", "statement": "Whether an entry is searchable, part of the language model or transparent depends on what was declared about it, not on the order in which the declarations were made.", "quantifier": "every pair of additions of the same text with different vocabulary types", "why_tests_cant": "All histories; the failing orders are specific.", "anchors": ["src/lib.rs: add_to_vocabulary", "src/vocab.rs: VocabType"]}
{"id": "C34", "title": "The index contains exactly the searchable entries", "statement": "After build, has(text) is true exactly for the entries added as searchable; every such entry is filed under its own hash exactly once, and the character-count index lists each indexed hash exactly once under its character count, sorted.", "quantifier": "every history followed by build (also repeated build)", "why_tests_cant": "All histories.", "anchors": ["src/lib.rs: build, get_or_create_index, has, get, get_anagram_instances"]}
{"id": "C35", "title": "Rebuilding is idempotent", "statement": "Calling build again without adding anything leaves the search behaviour unchanged: index, character-count index, n-gram counts and totals.", "quantifier": "every model", "why_tests_cant": "All models; state accumulation is only visible on the second call.", "anchors": ["src/lib.rs: build, add_ngram"]}
{"id": "C36", "title": "Variant links are mutual and unique", "statement": "For any sequence of variant declarations, a reference lists a variant exactly if the variant lists the reference, with the same score, and every link is stored once.", "quantifier": "every history of variant declarations", "why_tests_cant": "All histories.", "anchors": ["src/lib.rs: add_variant, add_variant_by_id, read_variants"]}
{"id": "C37", "title": "Transparent entries are never returned", "statement": "An entry that is only declared as a transparent variant is never itself returned by find_variants; its references are returned instead, with the product of scores and a via pointer.", "quantifier": "every model, input", "why_tests_cant": "Depends on all candidates of a query jointly.", "anchors": ["src/lib.rs: expand_variants, score_and_rank", "src/vocab.rs: VocabType::TRANSPARENT"]}
{"id": "C38", "title": "Learned variants take effect", "statement": "After learning (with rebuild) from an input that matched an entry under a different spelling, the learned spelling is an exact match in subsequent searches; learning the same input again adds nothing.", "quantifier": "every model and learning input", "why_tests_cant": "Histories of learn and build.", "anchors": ["src/lib.rs: learn_variants, add_variant_by_id, build"]}
{"id": "C39", "title": "Expanded variants score", "statement": "Expansion of an instance list replaces a transparent candidate by its references and keeps non-transparent candidates, and a variant expansion multiplies the candidate score with the link score; nothing else is added or lost.", "quantifier": "every list of results and link table", "why_tests_cant": "All combinations of links.", "anchors": ["src/lib.rs: expand_variants"]}
{"id": "C40", "title": "Confusable patterns match exactly when their edits occur", "statement": "A confusable pattern is found in an edit script exactly when its instructions occur consecutively in the script (first and last instruction possibly partially, on their inner side; anchored at start/end if declared so).", "quantifier": "every pattern and every edit script", "why_tests_cant": "All pairs of patterns and scripts.", "anchors": ["src/confusables.rs: Confusable::new, found_in"]}
{"id": "C41", "title": "Confusable weights multiply", "statement": "The confusable weight applied to a result is the product of the weights of all patterns found in the edit script between input and candidate, 1 if none; rescoring multiplies the distance score by it and touches nothing else.", "quantifier": "every list of patterns, every result list", "why_tests_cant": "All models.", "anchors": ["src/lib.rs: compute_confusable_weight, rescore_confusables"]}
{"id": "C42", "title": "Boundary detection partitions the text", "statement": "The detected boundaries are in order, disjoint, non-empty, consist of maximal runs of non-alphabetic characters (the last one possibly empty at the end of text), and boundaries together with the words between them reconstruct the text.", "quantifier": "every text (any Unicode)", "why_tests_cant": "All texts.", "anchors": ["src/search.rs: find_boundaries"]}
{"id": "C43", "title": "Boundary strength classification", "statement": "The last boundary is hard, a boundary containing a newline-pair/punctuation plus space etc. of more than one character is hard, a single space-like character is normal and a single apostrophe/hyphen/underscore is weak.", "quantifier": "every boundary list", "why_tests_cant": "All texts.", "anchors": ["src/search.rs: classify_boundaries"]}
{"id": "C44", "title": "N-gram spans", "statement": "The n-gram candidates of order n are exactly the stretches of text covering n consecutive words, in order, each with text equal to the slice at its byte offsets.", "quantifier": "every text, every n >= 1", "why_tests_cant": "All texts.", "anchors": ["src/search.rs: find_match_ngrams"]}
{"id": "C45", "title": "find_all_matches returns a well-formed segmentation", "statement": "The matches returned by find_all_matches have byte offsets within the text and on character boundaries, their text is the slice at the offsets, they are non-empty, in increasing order and never overlap, whatever best path is selected.", "quantifier": "every model, text, parameters and every path the solver may return", "why_tests_cant": "All texts and all solver outcomes.", "anchors": ["src/lib.rs: find_all_matches, most_likely_sequence", "src/search.rs: find_match_ngrams, redundant_match"]}
{"id": "C46", "title": "Unicode offset conversion", "statement": "Converting byte offsets to code point offsets maps every match to the begin/end positions counted in code points, so that cutting the text by code points gives the same match text.", "quantifier": "every text and every list of in-order matches on character boundaries", "why_tests_cant": "All Unicode texts.", "anchors": ["src/search.rs: remap_offsets_to_unicodepoints, Offset::convert"]}
{"id": "C47", "title": "Parallel and batched processing do not change results", "statement": "Results for a list of inputs are the same, in the same order, for single-threaded and parallel processing and for any split into batches.", "quantifier": "every input list, batch size and schedule of worker threads", "why_tests_cant": "All interleavings.", "anchors": ["src/lib.rs: find_all_matches (par_iter), learn_variants", "src/bin/analiticcl.rs: process, process_par, process_search"]}
{"id": "C48", "title": "Most likely sequence is the best of the candidates", "statement": "The selected sequence has the maximal combined score (weighted mean of variant, language model and context score) among all candidate sequences, and the variant chosen for each match is one of its own variants.", "quantifier": "every set of candidate sequences and scores", "why_tests_cant": "All combinations of scores.", "anchors": ["src/lib.rs: most_likely_sequence"]}
{"id": "C49", "title": "Context pattern semantics", "statement": "A pattern matches a token according to its boolean meaning: literal by identity, lexicon test by membership, negation, alternation, wildcard; and a rule matches at a position exactly if each of its patterns matches the token at the corresponding position and the rule fits in the sequence.", "quantifier": "every pattern and token sequence", "why_tests_cant": "All patterns and sequences.", "anchors": ["src/search.rs: PatternMatch::matches, ContextRule::matches"]}
{"id": "C50", "title": "Context pattern parsing", "statement": "Parsing the textual form of a context pattern yields the pattern it denotes; malformed patterns are rejected and never crash.", "quantifier": "every pattern text", "why_tests_cant": "All strings.", "anchors": ["src/search.rs: PatternMatch::parse", "src/lib.rs: add_contextrule"]}
{"id": "C51", "title": "A token is claimed by at most one context rule", "statement": "When context rules are tested on a sequence, no token is used in matches of two different rules, and the sequence score is the average over tokens of the rule scores (1 where none applied).", "quantifier": "every rule list and sequence", "why_tests_cant": "All rule lists and sequences.", "anchors": ["src/lib.rs: test_context_rules"]}
{"id": "C52", "title": "Entity tags are numbered consecutively", "statement": "Every tagged stretch carries the rule's tag with sequence numbers 0,1,2,... over consecutive tokens, restricted to the tag's offset range.", "quantifier": "every rule list and sequence", "why_tests_cant": "All rule lists and sequences.", "anchors": ["src/lib.rs: test_context_rules, add_contextrule, most_likely_sequence"]}
{"id": "C53", "title": "N-gram value type behaves as a bounded list", "statement": "Constructing an n-gram from a list of at most five tokens and converting back is the identity; push appends (and reports failure without change at five tokens); pop_first/pop_last/first/len agree with the list operations.", "quantifier": "all sequences of operations", "why_tests_cant": "All operation histories.", "anchors": ["src/types.rs: NGram"]}
{"id": "C54", "title": "Language model counts", "statement": "After build, the stored count of an n-gram is the sum of the frequencies of the language-model entries reading as that n-gram, and scoring a sequence of at least two tokens with the language model never fails.", "quantifier": "every history, every token sequence", "why_tests_cant": "All histories.", "anchors": ["src/lib.rs: build, add_ngram, into_ngram, lm_score_tokens"]}
{"id": "C55", "title": "Visited cache is bounded and transparent", "statement": "After a check the cache holds at most its maximum number of values, and re-using it only ever suppresses deletions that were already visited.", "quantifier": "every sequence of uses", "why_tests_cant": "All histories.", "anchors": ["src/cache.rs: Cache::check", "src/iterators.rs: VisitedMap"]}
{"id": "C56", "title": "Distance threshold text form", "statement": "Parsing a distance threshold accepts exactly integers, ratios between 0 and 1, and ratio;limit pairs and yields the corresponding setting.", "quantifier": "every text", "why_tests_cant": "All strings.", "anchors": ["src/types.rs: DistanceThreshold::from_str"]}
{"id": "C57", "title": "Output lists each variant once, selected first", "statement": "For every match the output lists the selected variant first and then every other variant exactly once, in rank order.", "quantifier": "every match", "why_tests_cant": "All result lists and selections.", "anchors": ["src/bin/analiticcl.rs: output_matches_as_tsv, output_matches_as_json"]}
{"id": "C58", "title": "The distance score is the weighted mean of its components", "statement": "With non-negative weights of positive finite sum (at least 2^-1000), the computed distance score differs from the exact real weighted mean of its components (edit distance, longest common substring, prefix, suffix, case) by at most 2^-49.", "quantifier": "all weights, all inputs below 2^53 characters, all distances as computed by the library", "why_tests_cant": "A rounding error bound over all doubles.", "anchors": ["src/lib.rs: score_and_rank", "src/types.rs: Weights::sum"]}
{"id": "C59", "title": "Loaded vocabularies are well-formed", "statement": "After any sequence of loading calls with frequencies in range and links to existing entries, the stored normal form of every searchable entry is the one of its text, all variant links lead to entries, and frequencies fit 32 bits.", "quantifier": "every sequence of loading calls", "why_tests_cant": "An invariant over all histories.", "anchors": ["src/lib.rs: add_to_vocabulary, add_variant_by_id, read_vocabulary, read_variants, build"]}
{"id": "C60", "title": "Confusable lists load completely", "statement": "Reading a confusable list succeeds exactly if every non-empty line is well-formed (a pattern with ASCII first and last character and an optional numeric weight), and then appends one pattern per non-empty line, in order, with its weight (1 if absent) and anchors, changing nothing else.", "quantifier": "every list of lines", "why_tests_cant": "All files.", "anchors": ["src/lib.rs: read_confusablelist, add_to_confusables", "src/confusables.rs: Confusable::new"]}
{"id": "C61", "title": "Comparing characters is comparing bytes", "statement": "Prefix, suffix and equality tests on the UTF-8 bytes of two texts agree with those on their characters.", "quantifier": "all texts of Unicode scalar values", "why_tests_cant": "All texts.", "anchors": ["src/anahash.rs: normalize_to_alphabet", "src/confusables.rs: found_in"]}
{"id": "C62", "title": "Searching running text never fails", "statement": "For every model built from loaded resources, every text and every sensible set of parameters, find_all_matches returns a result, and the same result whatever the iteration order of its hash maps.", "quantifier": "every built model, text shorter than 65281 characters, parameters asking for at least one sequence, every order of iteration, every solver that returns paths of the graph", "why_tests_cant": "All models, texts and orders.", "anchors": ["src/lib.rs: find_all_matches, most_likely_sequence, lm_score, test_context_rules", "src/search.rs: find_match_ngrams, classify_boundaries"]}
{"id": "C63", "title": "The reading of a single word is a cheapest one", "statement": "For a text consisting of a single word, without language model and context rules, the selected variant is one of lowest cost.", "quantifier": "every word, every order of the paths returned by the solver", "why_tests_cant": "All orders of paths.", "anchors": ["src/lib.rs: most_likely_sequence"]}
{"id": "C64", "title": "Language model scores have the right sign", "statement": "The log probability of a token sequence is never positive and its perplexity never negative.", "quantifier": "every table of counts and every token sequence", "why_tests_cant": "All tables and sequences, floating-point rounding.", "anchors": ["src/lib.rs: lm_score_tokens"]}
{"id": "C65", "title": "JSON output is well-formed", "statement": "With the JSON option the whole output of query and search mode is one JSON text: an array with, in order, one object per input line or match, whose members say the input, the offsets, the tags and the results.", "quantifier": "every model, input and result list", "why_tests_cant": "All characters in inputs and entries, all numbers of files and matches.", "anchors": ["src/bin/analiticcl.rs: output_matches_as_json, output_result_as_json, main"]}
{"id": "C66", "title": "Output of learned variants", "statement": "The output of learning lists each entry that has variants once, with the text and score of each variant; the JSON form is well-formed; with one file per lexicon each variant is in the files of its lexicons.", "quantifier": "every model after learning", "why_tests_cant": "All vocabularies and sets of links.", "anchors": ["src/bin/analiticcl.rs: output_weighted_variants_as_tsv, output_weighted_variants_as_json"]}
{"id": "C67", "title": "The test of input is right", "statement": "Test mode reports OK exactly for the inputs that can be written entirely with entries of the alphabet.", "quantifier": "every alphabet and input", "why_tests_cant": "All alphabets and inputs.", "anchors": ["src/bin/analiticcl.rs: main (testinput)"]}
{"id": "C68", "title": "An alphabet file is read as written", "statement": "The alphabet is, in order, one character per non-empty readable line, whose forms are the tab-separated fields with blanks around them removed, where \\s, \\t and \\n stand for space, tab and line feed and blank fields are left out. Exactly the alphabets whose forms have no blanks around them (or are those three) can be written.", "quantifier": "every file", "why_tests_cant": "All files; whitespace as defined by any table.", "anchors": ["src/lib.rs: read_alphabet, new"]}
{"id": "C69", "title": "A variant list is read as written", "statement": "Reading a list of variants adds, in order, each reference and each of its variants with the frequencies given, as entries of a new lexicon, and links each variant to its reference with its score; in lists without frequencies lines consist of a reference followed by pairs of variant and score, in lists with frequencies of a reference, its frequency, and triples.", "quantifier": "every file, parameters and model", "why_tests_cant": "All files; the format is decided by lines seen so far.", "anchors": ["src/lib.rs: read_variants, add_variant"]}
{"id": "C70", "title": "Files are loaded in the order given", "statement": "At start-up, lexicons, variant lists and error lists are loaded in the order in which they are given on the command line, then the language models; lexicon numbers follow that order; and of every entry the tool reports exactly the names of the files that mention it.", "quantifier": "every command line and content of files", "why_tests_cant": "All interleavings of options and all contents.", "anchors": ["src/bin/analiticcl.rs: main (resources)", "src/lib.rs: read_vocab, read_variants, read_lm"]}
{"id": "C71", "title": "The index command lists the anagram classes", "statement": "The index command prints one line for each anagram value that has entries: the value and the texts behind it; texts are on the same line exactly if they consist of the same characters, and together the lines hold every searchable entry once.", "quantifier": "every model, every iteration order", "why_tests_cant": "All vocabularies and hash map orders.", "anchors": ["src/bin/analiticcl.rs: main (index)", "src/lib.rs: build"]}
{"id": "C72", "title": "Decomposing an anagram value gives its characters", "statement": "Decomposing the anagram value of a text gives, from the last character of the alphabet to the first, the characters of the text, each as often as it occurs, in the first form of the alphabet.", "quantifier": "every alphabet and text", "why_tests_cant": "All texts over all alphabets.", "anchors": ["src/lib.rs: decompose_anavalue"]}
{"id": "C73", "title": "N-grams read as their words", "statement": "An entry of at most five words is converted to an n-gram whose text is the entry, with unknown words replaced by the symbol for unknown words; longer entries are rejected.", "quantifier": "every model and entry", "why_tests_cant": "All vocabularies.", "anchors": ["src/lib.rs: into_ngram, ngram_to_str"]}
{"id": "C74", "title": "Matches convert to the n-gram of their words", "statement": "Converting a match to an n-gram gives the words of the match, if all are in the vocabulary.", "quantifier": "every model and match", "why_tests_cant": "All texts and boundaries.", "anchors": ["src/lib.rs: match_to_ngram", "src/search.rs: internal_boundaries, find_match_ngrams"]}
{"id": "C75", "title": "A lookup returns exactly what its description says", "statement": "For every vocabulary, text and parameters there is one list of results, computed from the definitions alone: all candidates in order of anagram value and number, their scores, the score threshold, confusables (before or after pruning), expansion of links, relative frequencies, ranking with ties in the order found, merging of neighbours, the border at the maximum number of matches, and the cutoff; the lookup returns that list.", "quantifier": "every built vocabulary, every non-empty text of at most 255 characters, all parameters, every iteration order, every edit script function", "why_tests_cant": "A complete functional description over all vocabularies and parameters; tests compare single lists.", "anchors": ["src/lib.rs: find_variants, find_nearest_anahashes, gather_instances, score_and_rank, rescore_confusables, expand_variants"]}
{"id": "C76", "title": "Every option has its documented effect", "statement": "For every accepted command line, each search parameter and weight is the value typed for its option, or the documented default; flags set what they describe: in particular --unicode-offsets gives offsets in characters and --allow-overlap returns overlapping matches; a cutoff threshold that is neither 0 nor at least 1 ends the run.", "quantifier": "every command, every list of typed options, every number parser", "why_tests_cant": "All combinations of options; the code asks for options by name, a misspelt name goes unnoticed.", "anchors": ["src/bin/analiticcl.rs: main, common_arguments, search_arguments", "src/types.rs: SearchParameters"]}
{"id": "C77", "title": "Query mode prints the answers that the files define", "statement": "For every accepted command line of the query command: start-up loads exactly what the named files say (entries, frequencies, links, confusables, lexicon numbers), and fails only outside stated limits; the output is, for every input line in order, the line (or JSON object) for the list of results that the files and the options in force define, and nothing else; the run then ends normally.", "quantifier": "every command line, every set of files within the limits, any number of input files and standard input (JSON: one), one thread or several, every iteration order", "why_tests_cant": "The whole program over all files and inputs; tests cannot compare against a definition independent of the code.", "anchors": ["src/bin/analiticcl.rs: main, process, process_par, output_matches_as_tsv, output_matches_as_json", "src/lib.rs: read_vocabulary, read_variants, build, find_variants"]}
{"id": "C78", "title": "A search in running text returns exactly the matches its stages define", "statement": "For every model, text and set of parameters: the text is cut into parts at separators of more than a byte; in each part all words, and every longer stretch that contains a word for which something better may exist, are looked up; of the sequences that the solver finds in the graph of all readings, the first with the highest combination of cost, language model and context rules is returned, with its variants and tags. The search returns a list exactly if this definition holds of it, and the definition admits one list only.", "quantifier": "every model built from a valid alphabet, every text below 65281 characters with stretches of at most 255, every parameter, every iteration order and every sound and complete solver", "why_tests_cant": "All texts, models, parameters, solvers and orders; a test compares single outputs, not against a definition.", "anchors": ["src/lib.rs: find_all_matches (1790-1955), most_likely_sequence (2120-2470)", "src/search.rs: find_boundaries, find_match_ngrams, redundant_match"]}
{"id": "C79", "title": "A context rule file adds exactly the rules its lines say", "statement": "Reading a context rule file succeeds exactly if each line is empty, a comment, has no pattern, or says a rule: expressions separated by semicolons (a word, any, no lexicon, a lexicon, negations, negated groups, alternatives), a score, tags, and as many ranges as tags (none needed for one tag). Then exactly the rules said are appended in order, tags are numbered by their first appearance, and nothing else in the model changes. A file says one list of rules only.", "quantifier": "every model and every file", "why_tests_cant": "The grammar has nested negations and alternatives, optional columns and defaults; files are unbounded.", "anchors": ["src/lib.rs: read_contextrules, add_contextrule", "src/search.rs: PatternMatch::parse"]}
{"id": "C80", "title": "Search mode prints the matches that the files define", "statement": "For every accepted command line of the search command: the input is cut into texts in one way (at empty lines, after a hundred lines, with --per-line after every line; the first unreadable line ends a file); the language model, the context rules and the entries in force are those the named files say; the output is, for every text in order, a line (or JSON object) for every match that the files and the options in force define, with an empty line between texts in which something is found, and nothing else; the run then ends normally.", "quantifier": "every command line, every set of files within the limits with language models and context rules, any number of input files and standard input (JSON: one), every iteration order, every sound and complete path solver", "why_tests_cant": "The whole program over all files, texts and solvers; tests cannot compare against a definition independent of the code.", "anchors": ["src/bin/analiticcl.rs: main, process_search, output_matches_as_tsv, output_matches_as_json", "src/lib.rs: read_vocabulary, read_contextrules, build, find_all_matches"]}
{"id": "C81", "title": "Python keyword arguments and attributes set exactly the parameter they name", "statement": "For every call of SearchParameters, Weights and VocabParams and every assignment to an attribute: each field of the object is what the argument of its name stands for (whole numbers within range, numbers rounded to nearest, thresholds, names of modes), or its default; nothing else changes; unusable values are ignored in calls and refused with an error in assignments; a keyword and the assignment to the attribute of the same name mean the same; the keywords of the README work.", "quantifier": "every list of keyword arguments without repetition, every Python value of the modelled types, every object", "why_tests_cant": "Values of every type and any combination of sixteen arguments; tests try a few.", "anchors": ["bindings/python/src/lib.rs: PyWeights, PySearchParameters, PyVocabParams, extract_distance_threshold", "bindings/python/README.md"]}
{"id": "C82", "title": "Python parameter objects can be read back", "statement": "Every readable attribute of a SearchParameters or Weights object shows a value that stands for what the object has; to_dict gives exactly the attributes; the object made from the dictionary of an object equals it.", "quantifier": "every object that a program can make by keyword arguments and assignments", "why_tests_cant": "Every reachable object, with the rounding of 32-bit and 64-bit numbers.", "anchors": ["bindings/python/src/lib.rs: getters, to_dict"]}
{"id": "C83", "title": "Distance thresholds from Python are what the error message describes", "statement": "A threshold is accepted exactly if it is a whole number from 0 to 255 (absolute), a float from 0 to 1 (ratio), a pair of these (ratio with limit) or the text of one; a number means what its text means.", "quantifier": "every Python value of the modelled types", "why_tests_cant": "All numbers and types; the tests use small whole numbers.", "anchors": ["bindings/python/src/lib.rs: extract_distance_threshold", "src/types.rs: DistanceThreshold::from_str"]}
{"id": "C84", "title": "A Python session: what the calls load is what the model has, and what the answers say is what the model finds", "statement": "For every sequence of calls of the Python bindings that loads files, adds words and rules and builds: if no call raises, the model has exactly the entries, links, frequencies, names of files, confusables and context rules that the calls say, with nothing lost and nothing else; this determines the model; sessions whose files are readable and well-formed raise nothing; find_variants, find_variants_par and find_all_matches return exactly the objects (keys and values) that the documentation describes for what the library finds.", "quantifier": "every file system, alphabet, weights, sequence of calls that builds the model before it asks and loads no words afterwards, every text and parameters", "why_tests_cant": "Sequences of any length, files of any content; the Python tests load two files.", "anchors": ["bindings/python/src/lib.rs: PyVariantModel", "src/lib.rs: VariantModel::read_lexicon and the like, find_variants, find_all_matches"]}
{"id": "C85", "title": "From Python, `in` tells whether a text is in a loaded lexicon, and the lexicons of a result are the files with its text", "statement": "For every session of the Python bindings that loads files, adds words and builds: `text in model` is true exactly for the texts in the lexicons loaded (special tokens excepted); the files named for an entry are exactly those that contain its text, in the order read.", "quantifier": "every file system, every orderly sequence of calls within the limits, every text and every entry", "why_tests_cant": "All texts, all orders of loading; the tests ask for two words.", "anchors": ["bindings/python/src/lib.rs: __contains__, variantresult_to_dict", "src/lib.rs: has, add_to_vocabulary, read_vocabulary"]}
{"id": "C86", "title": "Offsets from Python can be used for slicing", "statement": "Every match that find_all_matches returns with unicodeoffsets=True, or in an ASCII text, is text[begin:end], non-empty; otherwise it is the slice of the UTF-8 bytes; the slices between the matches with the matches put between them give the text back.", "quantifier": "every model, text, parameters, lookups and sound solver", "why_tests_cant": "All texts with characters of any width; the tests use ASCII texts.", "anchors": ["bindings/python/src/lib.rs: find_all_matches", "bindings/python/README.md: note on offsets", "src/lib.rs: find_all_matches", "src/search.rs: remap_offsets_to_unicodepoints"]}
{"id": "C87", "title": "A search leaves no word out", "statement": "Every letter of the text is inside one of the matches that find_all_matches returns.", "quantifier": "every model, text, parameters and lookups; every solver and logarithm that are accurate", "why_tests_cant": "All texts and models, rounding of costs included; the tests count the matches of a few sentences.", "anchors": ["src/lib.rs: find_all_matches, most_likely_sequence", "src/search.rs: redundant_match, find_boundaries"]}
{"id": "C88", "title": "Transitions between words are scored by the counts in the language model", "statement": "If the language model files given to the tool have a count k for a word and n for the word followed by another, n at most k, the transition between the two is scored as the logarithm of n/k; pairs that no file has get the smoothing constant.", "quantifier": "every set of files and options, words and logarithm", "why_tests_cant": "All files in combination: how lexicons and language models interact is seen only when both have the word.", "anchors": ["src/lib.rs: add_to_vocabulary", "src/lib.rs: build, lm_score_tokens", "src/bin/analiticcl.rs: main"]}
{"id": "C89", "title": "The command line tool and the Python bindings give the same answers", "statement": "For a command line and the session that makes the calls for its options (lexicons and variant lists as typed, language models, confusables, build, rules), with the same weights and parameters, the JSON the tool prints shows the objects that find_variants_par and find_all_matches return: the same inputs, offsets, tags, variants, scores and lexicons in the same order.", "quantifier": "every command line, set of files, input, order of maps and external function", "why_tests_cant": "Two programs over all inputs: tests compare a few outputs of one of them with expected values.", "anchors": ["src/bin/analiticcl.rs: main, output_matches_as_json", "bindings/python/src/lib.rs: PyVariantModel", "src/lib.rs: find_variants, find_all_matches"]}
{"id": "C90", "title": "Without settings, the tool and the Python bindings use the same parameters", "statement": "If no option sets a parameter or a weight, the tool uses the parameters and weights of SearchParameters() and Weights() in Python.", "quantifier": "every command line and way of reading numbers that reads the documented defaults", "why_tests_cant": "Defaults are written down in two places; no test compares them.", "anchors": ["src/bin/analiticcl.rs: common_arguments, main", "src/types.rs: SearchParameters::default, Weights::default", "bindings/python/src/lib.rs: PySearchParameters::new, PyWeights::new"]}
{"id": "C91", "title": "Learn mode prints, for every entry, the variants found in the input", "statement": "For one input file and one iteration, the tool prints a line for every entry that has variants, in the order of the entries: the entry's text, then each variant with its score; the variants are those the files give and, for every result of looking up the lines (--strict) or every selected result of searching them, the text it was found for, with its score, once per find; new texts come after the entries in the order in which they are found.", "quantifier": "every command line in learn mode, files, input, order of maps and external function", "why_tests_cant": "The whole program over all files and inputs; the tests have no test of learn mode.", "anchors": ["src/bin/analiticcl.rs: main, process_learn", "src/lib.rs: learn_variants, add_variant"]}
{"id": "C92", "title": "Learned variants lead from larger distances to the right word", "statement": "After a round of learning, an input near a learned variant finds the entry the variant belongs to, also when the input is not within the distances from the entry itself; more rounds cover larger distances.", "quantifier": "every model, input of the rounds, number of rounds and query", "why_tests_cant": "Any number of rounds over any data; the tests do not learn.", "anchors": ["README.md: Learn Mode", "src/lib.rs: learn_variants, add_to_vocabulary, build_index, expand_variants"]}
{"id": "C93", "title": "The output of learn mode can be loaded as a variant list", "statement": "The lines that learn mode prints, given with --variants, declare exactly the variants that were learned: each entry with its variants and their scores.", "quantifier": "every vocabulary with variants, and every way of writing and reading scores that gives them back", "why_tests_cant": "A round trip through a format that is guessed from the content, over all texts and numbers of columns.", "anchors": ["README.md: Learn Mode", "src/bin/analiticcl.rs: output of learn mode", "src/lib.rs: read_variants"]}
{"id": "C94", "title": "Index mode prints the anagrams of the files", "statement": "Run as a whole, index mode ends normally and prints one line for every group of searchable entries of the files named on the command line that are anagrams of each other, with their common number; every searchable entry is printed once and nothing else is.", "quantifier": "every command line, file system and order of the hash maps, for files within the limits", "why_tests_cant": "It composes option parsing, loading, building and printing for all files; a test sees one set of files and one order of the index.", "anchors": ["src/bin/analiticcl.rs: main", "src/bin/analiticcl.rs: index", "README.md: Index Mode"]}
{"id": "C95", "title": "Input test mode prints the lines of known characters", "statement": "Run as a whole, the test of input prints one line for every readable line of standard input that consists of characters of the alphabet only, in order, with its anagram number and the numbers of its characters, prints nothing else on standard output and exits with status 0, whatever lexicons are named.", "quantifier": "every command line, alphabet file of at most 167 entries and standard input", "why_tests_cant": "The decision rests on divisibility of the anagram number by the prime of unknown characters, over all alphabets and inputs.", "anchors": ["src/bin/analiticcl.rs: main", "src/bin/analiticcl.rs: testinput", "src/anahash.rs: Anahashable"]}
{"id": "C96", "title": "The reverse index collects the inputs per entry", "statement": "After adding any number of inputs, the reverse index has for an entry exactly the inputs that were added for it and are not its own text, in order and with their scores, as an id if the input is in the vocabulary and as text otherwise; entries without inputs are absent.", "quantifier": "every vocabulary and sequence of additions", "why_tests_cant": "Order, absence and identity over all sequences of additions; the function has no test.", "anchors": ["src/lib.rs: add_to_reverse_index", "src/index.rs: ReverseIndex"]}
{"id": "C97", "title": "The parameters shown are the parameters used", "statement": "The text that search parameters are shown as determines them: parameters that are shown alike are the same.", "quantifier": "every pair of parameter sets, and every way of writing numbers that distinguishes them", "why_tests_cant": "It compares all pairs of parameter sets; a test compares a few texts.", "anchors": ["src/types.rs: Display for SearchParameters"]}
{"id": "C98", "title": "Learn mode with several iterations and inputs", "statement": "With --strict, any number of iterations and any number of inputs: every iteration looks all lines of the input up in the vocabulary as learned so far and then learns all results; an iteration without variants is the last for its input; what was learned from one input is kept for the next; after every input the tool prints all entries that have variants; the run ends without a panic if the counts have room; entries keep their place and their variants.", "quantifier": "every command line with --strict without --json and --multi-output, files without confusables, number of iterations, inputs and schedule of map iteration", "why_tests_cant": "Any number of iterations and inputs, each depending on the vocabulary the previous one left behind, through a rebuilt index.", "anchors": ["src/bin/analiticcl.rs: main, process_learn", "src/lib.rs: learn_variants, build"]}
{"id": "C99", "title": "Files per lexicon in learn mode", "statement": "With --multi-output every lexicon gets a file <lexicon>.variants.tsv (or .json) that has exactly the variants that are in that lexicon, with their text, score and frequency, in the order of the vocabulary; a lexicon without variants gets no file; every newly learned spelling is in some file.", "quantifier": "every vocabulary with links to existing entries, set of lexicons and links, both output forms", "why_tests_cant": "Which variants go to which file depends on the lexicon bits of each variant and on the vocabulary that learning leaves behind; a test sees a few lexicons.", "anchors": ["src/bin/analiticcl.rs: output_weighted_variant_as_tsv, output_weighted_variants_as_tsv, output_weighted_variant_as_json, output_weighted_variants_as_json"]}
{"id": "C100", "title": "Learn mode with --json and --multi-output, end to end", "statement": "A run of learn mode with --strict ends without a panic; with --multi-output it prints the words that have variants, one on each line, after each input; with --json the output is one JSON text: an array with for each input an object that maps the words to their variants with score and frequency.", "quantifier": "every command line, set of files, number of iterations and inputs (within the limits of the tool), hash order and solver", "why_tests_cant": "Whether the output can be parsed depends on how many words have variants, how many variants each has and how many inputs there are; what was learned from earlier inputs is printed again.", "anchors": ["src/bin/analiticcl.rs: main (learn), process_learn, output_weighted_variants_as_json, output_weighted_variants_as_tsv", "src/lib.rs: learn_variants, build"]}
