# Formal model of proycon/analiticcl in Rocq

`MANIFEST.json` maps every property of `properties.jsonl` to its theorems, with a status and a note.
`seeded/LOG.jsonl` records the wrong programs the theorems were tested against.

Contents: layout, conventions, what is modelled and what is not, plan per property, trusted base,
disagreements between the code and its documentation found on the way.

## Layout

* `rocq/theories/M_*.v`: the executable model (definitions only, each citing the Rust source lines)
* `rocq/theories/S_*.v`: small specifications, stated without the model's helper functions
* `rocq/theories/P_*.v`: proofs
* `rocq/theories/C_*.v`: property theorems (closed by a lemma of a `P_` file, or by computation), an example that meets
  the hypotheses beside each, and `Print Assumptions`

Theorem names start with the property (`C14_...`).  A suffix `_refuted` marks a counterexample: the faithful model
does not have the property as it was first stated; the other theorems of that property then say what does hold.
Such properties have the status `partial` and a note that starts with "As stated: refuted by".

## Modelling conventions

* Text is a list of Unicode scalar values (`N`).  Byte offsets are computed with the UTF-8 length of each scalar value; C61 proves
  this agrees with slicing the encoded bytes, and slicing inside a character is a panic.
* `UBig` is `N`.  `u8`, `u16`, `u32` are `N`/`nat`; casts (`as u8`) wrap, additions panic when they overflow, as in a debug
  build.  `usize` and `u64` counters are unbounded, except where the code subtracts (`0 - 1` panics).
* `f64` and `f32` are the standard library's `spec_float` with the IEEE-754 operations, rounding to nearest even.  Flocq is
  used in proofs, and for readings as real numbers in the specifications.
* A panic is an explicit error value (`Panic p`), as is running out of fuel, which the theorems exclude.
* `HashMap` and `HashSet` are finite maps.  Where Rust iterates over one, the order is an argument, and theorems hold for
  every permutation (`some_order`).
* External code is a parameter the theorems quantify over: Unicode tables (`is_alphabetic`, `is_whitespace`, `to_lowercase`),
  number parsers, `Display` of floats, `ln`, `sesdiff`'s generator and parser of edit scripts, the FST shortest-path
  solver (any function that returns paths of the graph), rayon (any schedule).
  Assumptions on a parameter are hypotheses of the theorem that needs them, and examples give a parameter that meets them.
* Files are lists of lines, and opening one may fail (a panic).  Lines that are not UTF-8 are modelled for alphabet files and
  for input, where the code treats them in different ways; in other files they are not.
* Printing is a text with the panic, if any, that ends it.

## What is modelled

| Source | Model | Left out |
|---|---|---|
| src/anahash.rs | M_Anahash, M_Iter (all functions) | nothing |
| src/iterators.rs | M_Iter (both deletion iterators as machines with queue and visited set) | nothing |
| src/cache.rs | M_Values | nothing |
| src/distance.rs | M_Distance (literal matrices) | nothing |
| src/types.rs | M_Types, M_Values, M_Reverse (`Display` of parameters) | `with_...` setters |
| src/vocab.rs, src/index.rs | M_Types, M_Model | nothing |
| src/confusables.rs | M_Confusable, M_ConfList | sesdiff itself |
| src/search.rs | M_Text, M_Rules | `Display` of errors; fields `prevboundary`, `nextboundary` (only read by code that is commented out) |
| src/lib.rs:104-412, 519-569, 772-971, 2677-2814 | M_Model, M_Main | debug output |
| src/lib.rs:414-518 | M_ConfList, M_Model | |
| src/lib.rs:570-771, 2501-2578 | M_Rules | |
| src/lib.rs:972-1029, 1143-1757 | M_Search | debug output, timing |
| src/lib.rs:1030-1142 | M_Learn | |
| src/lib.rs:1759-1785 | M_Reverse | (`add_to_reverse_index` is called nowhere) |
| src/lib.rs:1790-1955, 2088-2495, 2580-2676 | M_Matches | 1957-2086 is commented out in the source |
| src/bin/analiticcl.rs | M_Cli, M_Main, M_Par, M_Options, M_Multi, M_Program (`main` as one function from what is typed, the files and standard input to what is printed and how it ends) | progress, standard error; that the files of `learn --multi-output` can be created and written, and that no lexicon is given twice (C99_names: different lexicons have different files); of clap: names, values, occurrences and defaults are modelled, abbreviations, `--help`, `--version` are not |
| bindings/python | M_Python | subclasses of Python's types and NumPy scalars; what is printed to standard error; `SearchParameters.__str__` and the like; the interpreter |
| src/test.rs, tests/ | not modelled | test code |

Simplifications inside modelled functions are stated in the comment of the definition.  The main ones:

* the sum of `f32` weights starts at +0.0 (Rust: -0.0 or +0.0, by version; equal results);
* `output_symbols.len() as u32` does not wrap (4 billion matches);
* `1 << i` for lexicon 64 and higher is not modelled (membership theorems are for up to 32);
* the parallel iterators of rayon are an arbitrary schedule of calls of a pure function, each writing its own slot;
* reading standard input in batches is modelled on the list of lines.

## Plan per property

| Property | Model | Method |
|---|---|---|
| C01-C05 | anahash, normalize_to_alphabet, insert/delete/contains over `N` and the prime table | unique factorisation; greedy encoder as one shared scan |
| C06-C08 | both deletion iterators as queue machines, count_matches | invariants on queue and visited set, bags as count functions |
| C09-C12 | distance.rs literally, matrices as lists | recurrence = matrix; recurrence = minimal alignment = minimal edit sequence |
| C13 | bags and alignments | induction on edit sequences |
| C14-C16 | build indexes, find_nearest_anahashes | set equality with declarative neighbourhood; witness for the failing corner of C15 |
| C17-C19 | find_variants, gather_instances | from C14 and C09 |
| C20-C22, C28 | score_and_rank over binary64 | monotonicity of rounding (Flocq) |
| C23-C27 | sort, dedup, crop, cutoff | list lemmas; witnesses where the claim fails |
| C29 | whole find_variants with panics as errors | error-freedom proof; witness for the empty text |
| C30-C33 | add_to_vocabulary histories | invariant by induction over operation lists; witness for C33 |
| C34-C35 | build | invariant; witness for C35 (n-gram counts) |
| C36-C39 | variant links, learning, expansion | invariants; witnesses |
| C40-C41 | Confusable::found_in | soundness proof; witness for incompleteness |
| C42-C44, C46 | boundaries, n-grams, offsets over UTF-8 lengths | induction on text |
| C45, C48 | find_all_matches with the FST solver as an oracle returning any path | path invariant |
| C47 | parallel map as any interleaving of independent pure tasks | permutation of writes to disjoint slots |
| C49-C52 | PatternMatch, ContextRule, test_context_rules | structural induction; witnesses |
| C53-C54 | NGram, add_ngram, lm_score_tokens | case analysis, invariants |
| C55 | Cache::check, external visited sets | invariant |
| C56 | DistanceThreshold::from_str over number-parser oracles | case analysis |
| C57 | output loops | list lemma |
| C58 | distance score over binary64 | relative error analysis with Flocq |
| C59 | loading calls | invariant by induction over histories |
| C60 | Confusable::new, read_confusablelist | file grammar; converse |
| C61 | UTF-8 encoder and slicing | induction on text |
| C62-C63 | most_likely_sequence as a whole | success proof from solver assumptions; witnesses |
| C64 | lm_score over an abstract logarithm | sign analysis with Flocq |
| C65, C57 | output_..._as_json/tsv as printed text | JSON grammar, unambiguous; printed text = grammar |
| C66 | output_weighted_variants | the same grammar; witnesses |
| C67 | testinput | from C01 |
| C68 | read_alphabet | line grammar, both directions; which alphabets can be written |
| C69 | read_variants | grammar of lists with the format decided by the lines, both directions |
| C70 | main: resources | sorting by position; histories of additions (C30-C32) |
| C71 | main: index | from C34 |
| C72 | decompose_anavalue | from C06 |
| C73 | into_ngram, ngram_to_str, match_to_str | from C53; match_to_str by cases |
| C74 | match_to_ngram | witness, and a bound on what is lost |
| C75 | find_variants as a whole | stage by stage: each stage of the specification (S_Lookup) is the graph of the model's stage; uniqueness of stable sorting; order of candidates from the index |
| C76 | the options of the command line tool and main, with the number of iterations | options in force from what was typed, against the documented defaults; options without effect by rerunning main with and without |
| C77 | main in query mode, from the command line to the output | what the named files say (S_Program, from the grammars of C33, C63, C69 and the numbering of C70) determines the contents; start-up loads them and cannot fail within the limits; lookups by C75; output by C47, C57, C65 |
| C78 | find_all_matches as a whole | stage by stage (S_SearchAll): parts, candidates, graph, paths, choice; each stage of the model is in the graph of the specification's stage, every stage of the specification has one outcome; success by C62, lookups by C75 |
| C79 | read_contextrules, add_contextrule, PatternMatch::parse | grammar of expressions, ranges, tags and lines as relations (S_RuleFile); parser and relation agree by induction on the fuel, lines and files by cases; the first wrong line of a rejected file |
| C80 | main in search mode, from the command line to the output | texts as a relation (S_SearchRun), start-up by C77 with the counts of C54 and the rules of C79, searches by C78, output by C47, C65; every stage of the specification has one outcome |
| C81 | PyWeights, PySearchParameters, PyVocabParams: `new` and setters; extract_distance_threshold | per field: what the argument of its name stands for (S_Python); a lemma on tables of names gives every field at once; rounding by Flocq (S_Number) |
| C82 | getters and to_dict | objects reached by arguments and assignments hold proper numbers (induction); widening to 64 bits and narrowing again is the identity |
| C83 | extract_distance_threshold | case analysis on the value; list of what is accepted beyond the documentation |
| C84 | sessions with the bindings: constructor, read_*, add_*, build, and the objects returned | the state after each call described relationally (S_Session); induction on the calls; C77/C80 carry the answers |
| C85 | `__contains__` and the names of files, after a session | first additions (C33) and numbers of files (C32) carried through the session of C84; index lookups by C34 |
| C86 | offsets in the objects of find_all_matches, Python slices | C45/C46 carried to dictionaries; slices defined as in Python |
| C87 | find_all_matches as a whole | S_Cover; the chosen sequence costs least up to rounding (errors bounded in Flocq), and leaving a word out costs 100 where a match costs at most 2 per word; refuted with a language model, by a bound on every accurate logarithm |
| C88 | the language model the tool loads (add_to_vocabulary, build, main) and lm_score_tokens | S_Transitions; from C77's contents and C80's counts: which entries are counted (run_adds history), the greatest count per text; the value of a transition in terms of the files |
| C89 | the tool's runs (C77, C80) and sessions with the bindings (C84) on the same files | S_Agree: the session for a command line, when JSON shows Python objects; the calls for the options say the options' content; both outputs are those of the same answers |
| C90 | the defaults of the options (common_arguments, main), SearchParameters::default, Weights::default | S_Agree: command lines that set nothing, parsers that read the documented numerals; each option's value from the documented defaults |
| C91 | learn mode of the tool from the command line to the output (main, process_learn, learn_variants, add_variant) | S_LearnRun: pairs of texts and results, the order of new entries, the lines; C77's contents, C38's description of learning with the order of additions and the scores; every step shown to succeed |
| C92 | rounds of learn_variants and build, and lookups in between | rounds as an inductive relation; induction on it with the invariant that indexed entries and what they refer to are from before; the README's example computed |
| C93 | output of learn mode (learned_tsv) and read_variants | the lines as columns, the format they decide (list_says of S_Main), C69 for the reading, C36 for the links |
| C94 | main in index mode (run, program) | index_listing of S_Main of what the files say (C77), C71 for the listing |
| C95 | main in input test mode | tested of S_Modes: known characters by reading greedily (C03), the number as the product of primes (C01), C67 for the test of divisibility |
| C96 | add_to_reverse_index (M_Reverse) | per entry the selected additions (S_Reverse), induction over the additions |
| C97 | Display of SearchParameters (M_Reverse) | injectivity line by line; refuted by two sets that are shown alike |
| C98 | learn mode with --strict, any number of iterations and inputs (main, process_learn, learn_variants, build) | S_LearnMore: iterations and inputs as inductive relations over C38's description of learning; an invariant between the model as specified and the model in memory, kept by a round of learning and the build after it, then induction on iterations and inputs |
| C99 | the files of `learn --multi-output` (output_weighted_variant(s)_as_tsv, …_as_json) | S_Multi: the variants in order, those a predicate selects, a line or a JSON object for each; the contents of a file as what was sent to its number; for what is learned, C38's description |
| C100 | learn mode with --json and --multi-output (main, process_learn and its printing inline, output_weighted_variants_as_json) | S_LearnShow: the vocabularies after each input, and the words and variants shown for one; C98's induction for the run, invariants of learning (links stored on both sides, texts without control characters) for the scores and strings, and C66's automaton that every JSON text passes for when the output is not JSON |

Every property is expressible in the model; none is marked `not_applicable`.

## Trusted base

* Coq 8.16.1's kernel (`coqchk` re-checks the compiled files), including `vm_compute`'s virtual machine, which examples and refutations use.
* The faithfulness of the model to the Rust source, cited line by line; nothing here was run against the Rust code.
* The statements: `S_*.v` and the theorems of `C_*.v`.
* What `Print Assumptions` lists.  277 theorems are closed under the global context.  57 depend on the standard library's
  axioms for real numbers, through Flocq's theorems on rounding: `ClassicalDedekindReals.sig_forall_dec`,
  `ClassicalDedekindReals.sig_not_dec`, `FunctionalExtensionality.functional_extensionality_dep`, `Classical_Prop.classic`:

  C41_nothing_found, C18_all_within_limits_found, C18_all_candidates_found, C19_absolute, C19_ratio,
  C19_ratio_with_limit, C19_monotone, C20_distance_score_unit, C20_scores_unit, C58_score_is_weighted_mean,
  C21_exact_match_scores_one, C21_exact_match_first, C22_results_ranked, C22_ranking_stable, C23_number_of_results,
  C25_cutoff, C28_frequency_unit, C28_most_frequent, C29_lookup_succeeds, C37_references_returned, C48_best,
  C62_search_succeeds, C63_first_path, C64_logprob, C64_scores, C75_lookup_exact, C75_one_outcome, C77_query_tsv,
  C77_query_json, C78_search_exact, C78_one_outcome, C80_search_tsv, C80_search_json,
  C81_whole_numbers, C81_narrowing, C82_reached, C82_readable, C82_limited, C82_rebuilds, C83_integers_refuted,
  C84_find_variants, C84_find_variants_par, C84_find_all_matches, C87_covered, C87_in_company, C87_lm_refuted, C87_alone_refuted,
  C88_listed, C88_refuted, C89_query, C89_search, C91_learn_strict, C91_learn, C98_repeated,
  C100_words, C100_json, C100_multi_json

  C19_floor_of_product_refuted depends on `sig_forall_dec` and `functional_extensionality_dep` only.  No axioms of other libraries or of our own.

## Disagreements found

Each is a theorem of the model (named in brackets) or was noticed while modelling (no brackets).

* C15: C15_retrieval_succeeds_refuted (167 alphabet lines and an unknown character).
* C18: C18_all_within_limits_found_refuted (with an anagram limit of at least the input length, entries without a common character are missed).
* C23: C23_number_of_results_refuted (max_matches 1) and C23_number_with_frequency_refuted.
* C24: C24_results_are_prefix_refuted (confusables applied after cropping).
* C26: C26_score_threshold_refuted (confusables) and C26_score_threshold_links_refuted (variant links).
* C27: C27_no_entry_twice_refuted (variant links).
* C29: C29_empty_text_refuted.
* C32: C32_last_lexicon_listed_refuted (the listing function never lists lexicon 31).
* C33: C33_searchable_order_refuted (a concrete pair of load orders).
* C35: C35_rebuilding_keeps_counts_refuted (n-gram counts are added again on rebuilding).
* C36: C36_references_unique_refuted (backward links are duplicated when declared twice).
* C38: C38_exact_match_refuted (a learned spelling is added as transparent only, so it is not indexed and is found no better than before) and C38_again_refuted (the same links are counted and stored again).
* C40: C40_occurs_found_refuted (an occurrence starting where an earlier attempt breaks off is missed), C40_end_anchor_refuted and C40_inner_side_refuted.
* C43: C43_single_character_not_hard_refuted (a single character such as a full stop without a space after it is not hard) and C43_no_break_space_refuted.
* C44: C44_leading_separator_refuted (the last piece of a text may be no word, and a text starting with a separator has an empty first candidate).
* C47: C47_unreadable_line_refuted (a line that is not UTF-8 is skipped by one mode, ends the other and loses its batch), C47_failing_lookup_refuted (a failing lookup loses the output of the lines before it in its batch) and C47_search_batches_refuted (in search mode offsets start again with each batch).
* C48: C48_negative_score_refuted (a context rule with a negative score makes the score not a number, and a first sequence with such a score is kept).
* C50: C50_never_crashes_refuted and C50_file_never_crashes_refuted (a tag range that starts beyond the pattern panics) and by C50_bracket_pairs_refuted ("!(a)|!(b)" is rejected).
* C51: C51_claimed_once_refuted (a tag range that leaves out tokens leaves them unclaimed).
* C52: C52_long_range_refuted (ranges are added up in 8 bits, which panics).
* C56: C56_ratio_range_refuted (the ratio of a pair is not checked to be from 0 to 1).
* C63: C63_single_word_refuted (the best cost starts at 0 for a single boundary, so all sequences score ln 0 and the first path returned wins).
* C64: C64_inconsistent_refuted (a pair counted more often than its first word).
* C65: C65_backslash_refuted, C65_tab_refuted (only quotation marks are escaped), C65_two_files_refuted (no comma between files) and C65_tag_refuted (names of tags are not escaped).
* C66: C66_json_refuted (for every model with at least one link the JSON output is not JSON: comma after the last element) and C66_files_tsv_refuted.
* C69: C69_numeric_variant_refuted (the format is guessed from the first lines: a line of a list without frequencies that has two variants, the first of which is a number, is read as having frequencies and panics).
* C72: C72_unknown_character_refuted (the value of a text with a character outside the alphabet panics).
* C74: C74_last_word_refuted (the last word is always missing; matches of one and two words become empty).
* C76: C76_unicode_offsets_refuted (`--unicode-offsets` changes nothing; C76_without_effect lists more options that change nothing) and C76_nan_cutoff_refuted (a cutoff that is not a number is accepted).
* C81: C81_none_refuted (`VocabParams(freq_column=None)` keeps column 1) and C81_readme_refuted (the keyword `unicodeoffset` of the README is ignored).
* C82: C82_limit_refuted (a threshold with a limit is shown as a dictionary that cannot be given back) and C82_stop_refuted (`to_dict` lacks `stop_at_exact_match`).
* C83: C83_integers_refuted (whole numbers below 0 or above 255 are taken as ratios) and C83_range_refuted (ratios above 1 are accepted).
* C85: C85_variants_refuted (texts only in a variant list are `in` the model), C85_lost_refuted (a language model read before a lexicon hides its words) and
  C85_added_refuted (added words are reported as being in the first file).
* C87: C87_lm_refuted (with a language model and the default parameters, a word of the text is in no match), C87_alone_refuted (the choice between the
  paths of a part with one boundary does not look at costs).
* C88: C88_refuted (words that are also in a lexicon have no count in the language model; transitions from them are scored above certainty).
* C90: C90_refuted (without settings the tool looks up to edit distance 2 and the Python bindings to 3).
* C92: C92_refuted (the README's example for learned variants as intermediate words: nothing is found through them, in any number of iterations).
* C93: C93_refuted (numbers as variants: the tool cannot load what it printed).
* C97: C97_refuted (the stop criterion and the context weight are not shown).
* C99: C99_tsv_refuted (no TSV file ever has a newly learned spelling) and C99_json_refuted (score and frequency are swapped in the JSON files).
* C100: C100_json_refuted and C100_multi_json_refuted (learn mode's --json output is not JSON as soon as a word has variants; with --multi-output, two words; in both, with two inputs).

Noticed while modelling:

* `add_variant_by_id` compares with the id of the variant instead of the reference when it looks for an existing back link (src/lib.rs:502).
* `internal_boundaries` is empty when exactly one boundary is inside the match (the range ends before it begins).
* `match_to_ngram` cuts `m.text`, which is a part of the text, at offsets into the whole text.
* The README says that context rules apply in the order specified; the code goes through positions first, then through rules.
* A context rule that fails to load leaves its tags behind.
* With `variantmodel_weight` 0 and nothing else to score, the score of a sequence is not a number.
* `output_weighted_variants_as_tsv` selects files with `i << i`.
* A line with one column in a variant list panics (`len() - 2`).
* Lexicon number 256 wraps to 0.
* Parallel search: `process_learn` passes all lines in one call, whatever the batch size.
* `args.is_present("debug")` asks the subcommand for an option of the main command, so `--debug` does not make the search single-threaded.
* An entry of more than 255 words overflows its word count.
* `consolidate_matches`, `lm_order` and `context_weight` are never read by the library.
* `--per-line` and `--retain-linebreaks` have no effect in learn mode: the batches of text put together there are not used.
* The README names an option `--contextrules-weight`; the code names it `--weight-contextrules`.
* Frequencies count only if a lexicon file has a non-empty line: with variant lists alone (even with frequencies) every entry counts once.
* `learn --multi-output`: the lines of a written file start with a tab and lack the reference word, which goes to standard output; in JSON the score and the frequency are swapped.
* From Python, a word added with `add_to_vocabulary` and default parameters has lexicon number 0: it is reported as being in the first file read, and a context rule that asks for that file matches it.
* From Python `score_threshold` and `cutoff_threshold` can be read but not assigned, `stop_at_exact_match` can be assigned but not read, and `lm_order` cannot be set.
