{
 "claims": [
  {
   "property": "C01",
   "status": "proved",
   "theorems": [
    "C01_accurate_lossless",
    "C01_accurate_prefix"
   ],
   "note": "Every arithmetic, HMM table, dictionary; exception case included."
  },
  {
   "property": "C02",
   "status": "proved",
   "theorems": [
    "C02_no_empty_word",
    "C02_full_mode_refuted"
   ],
   "note": "Full mode refuted with witness."
  },
  {
   "property": "C03",
   "status": "proved",
   "theorems": [
    "C03_full_mode_covers",
    "C03_pieces_repeat_characters_refuted"
   ],
   "note": "Coverage of every position; pieces may repeat characters (refutation)."
  },
  {
   "property": "C04",
   "status": "proved",
   "theorems": [
    "C04_full_mode_complete",
    "C04_alnum_word_refuted"
   ],
   "note": ""
  },
  {
   "property": "C05",
   "status": "proved",
   "theorems": [
    "C05_full_mode_sound",
    "C05_full_mode_other",
    "C05_not_a_substring_refuted"
   ],
   "note": ""
  },
  {
   "property": "C06",
   "status": "proved",
   "theorems": [
    "C06_word_graph_exact",
    "C06_word_graph_members"
   ],
   "note": "For prefix-closed dictionaries."
  },
  {
   "property": "C07",
   "status": "proved",
   "theorems": [
    "C07_C54_best_segmentation",
    "C07_most_probable",
    "C07_best_binary64"
   ],
   "note": "Any ordered arithmetic; instances exact reals and binary64 (log bounded)."
  },
  {
   "property": "C08",
   "status": "proved",
   "theorems": [
    "C08_longest_word_on_ties"
   ],
   "note": ""
  },
  {
   "property": "C09",
   "status": "proved",
   "theorems": [
    "C09_only_known_words"
   ],
   "note": ""
  },
  {
   "property": "C10",
   "status": "proved",
   "theorems": [
    "C10_search_mode"
   ],
   "note": ""
  },
  {
   "property": "C100",
   "status": "proved",
   "theorems": [
    "C100_fewest_missing",
    "C100_only_entries_matter",
    "C100_shipped"
   ],
   "note": "binary64; stated for the result of posseg/viterbi.py. C100_shipped: the start and transition tables as shipped, with any emission table of bounded entries, qualify"
  },
  {
   "property": "C101",
   "status": "proved",
   "theorems": [
    "C101_unknown_tags",
    "C101_one_unknown",
    "C101_every_tag_changes",
    "C101_unknown_is_x_refuted"
   ],
   "note": "binary64; start and transition numbers, transition keys and char_state_tab as shipped, the emission numbers arbitrary"
  },
  {
   "property": "C102",
   "status": "proved",
   "theorems": [
    "C102_near_best",
    "C102_clear_winner",
    "C102_same_as_exact",
    "C102_tokens_same_as_exact"
   ],
   "note": "the accuracy of C's log (log_close) is a hypothesis; totals up to 2^44, runs up to 2^21 characters"
  },
  {
   "property": "C103",
   "status": "proved",
   "theorems": [
    "C103_near_best",
    "C103_clear_labels",
    "C103_shipped_tables",
    "C103_shipped"
   ],
   "note": "binary64; texts that can be labelled without missing entries (the other texts: C98)"
  },
  {
   "property": "C104",
   "status": "proved",
   "theorems": [
    "C104_default_mode",
    "C104_same_as_exact",
    "C104_tokens_same_as_exact"
   ],
   "note": "the accuracy of C's log (log_close) is a hypothesis"
  },
  {
   "property": "C105",
   "status": "proved",
   "theorems": [
    "C105_weights",
    "C105_clear_order",
    "C105_same_idf",
    "C105_exact_order_refuted",
    "C105_textrank_clear_order"
   ],
   "note": ""
  },
  {
   "property": "C106",
   "status": "proved",
   "theorems": [
    "C106_near_best",
    "C106_clear_tagging",
    "C106_shipped_tables"
   ],
   "note": "binary64; texts that can be tagged without missing entries (the other texts: C100); the emission numbers are any between -32 and 32"
  },
  {
   "property": "C107",
   "status": "proved",
   "theorems": [
    "C107_default_mode",
    "C107_same_as_exact"
   ],
   "note": "the accuracy of C's log (log_close) is a hypothesis"
  },
  {
   "property": "C108",
   "status": "proved",
   "theorems": [
    "C108_full_mode_exact",
    "C108_clear_decided",
    "C108_without_letters",
    "C108_single_outside_words_refuted"
   ],
   "note": "clear_at depends only on the dictionary and the run; C108_clear_decided shows that the function the theorem asks for exists. The last theorem is a character given on its own although a longer word covers it."
  },
  {
   "property": "C109",
   "status": "proved",
   "theorems": [
    "C109_accurate",
    "C109_search",
    "C109_full",
    "C109_full_quadratic",
    "C109_full_linear_refuted"
   ],
   "note": "The bounds for accurate and search mode need no hypothesis. C109_nonvacuous shows where they are reached."
  },
  {
   "property": "C11",
   "status": "proved",
   "theorems": [
    "C11_tokenize_tiles"
   ],
   "note": ""
  },
  {
   "property": "C110",
   "status": "proved",
   "theorems": [
    "C110_exact",
    "C110_binary64",
    "C110_every_word_changes",
    "C110_no_look_ahead"
   ],
   "note": "The binary64 theorem assumes that the C library's log is accurate (log_close)."
  },
  {
   "property": "C111",
   "status": "proved",
   "theorems": [
    "C111_dictionary_words",
    "C111_without_hmm",
    "C111_full_in_search_refuted",
    "C111_hmm_words_refuted",
    "C111_single_characters_refuted"
   ],
   "note": ""
  },
  {
   "property": "C112",
   "status": "proved",
   "theorems": [
    "C112_words_stay",
    "C112_single_characters_refuted",
    "C112_only_the_new_word_refuted"
   ],
   "note": ""
  },
  {
   "property": "C113",
   "status": "proved",
   "theorems": [
    "C113_accurate",
    "C113_search",
    "C113_full",
    "C113_tagger",
    "C113_tagger_binary64",
    "C113_added_in_vain",
    "C113_shipped"
   ],
   "note": "The words of each mode are of one class of characters, single characters or CR LF."
  },
  {
   "property": "C114",
   "status": "proved",
   "theorems": [
    "C114_rest",
    "C114_tagger",
    "C114_stretch",
    "C114_beginning_refuted",
    "C114_hmm_refuted"
   ],
   "note": "C114_rest and C114_tagger hold for any arithmetic, C114_stretch for exact arithmetic."
  },
  {
   "property": "C115",
   "status": "proved",
   "theorems": [
    "C115_backwards",
    "C115_parts_in_any_order",
    "C115_flags_refuted",
    "C115_any_order_refuted"
   ],
   "note": "Exact arithmetic; the refutations are computed with rationals."
  },
  {
   "property": "C116",
   "status": "proved",
   "theorems": [
    "C116_same_words_behind",
    "C116_hmm_only_joins",
    "C116_words_stay",
    "C116_tagger",
    "C116_digits_refuted",
    "C116_shipped"
   ],
   "note": ""
  },
  {
   "property": "C117",
   "status": "proved",
   "theorems": [
    "C117_stop_words",
    "C117_more_often",
    "C117_others_stay",
    "C117_textrank_refuted",
    "C117_stop_words_binary64",
    "C117_more_often_binary64",
    "C117_others_stay_binary64"
   ],
   "note": "Exact arithmetic, and binary64 for those named so."
  },
  {
   "property": "C118",
   "status": "proved",
   "theorems": [
    "C118_raising",
    "C118_lowering",
    "C118_no_frequency_brings_it_back"
   ],
   "note": "Exact arithmetic, HMM off."
  },
  {
   "property": "C119",
   "status": "proved",
   "theorems": [
    "C119_emission_numbers",
    "C119_tables",
    "C119_words",
    "C119_after_any_history",
    "C119_best_tagging"
   ],
   "note": "Binary64 with the tables that jieba/posseg ships; log(x) for non-shipped numbers stays a parameter."
  },
  {
   "property": "C12",
   "status": "proved",
   "theorems": [
    "C12_tokenize_search_located",
    "C12_every_place",
    "C12_what_is_reported"
   ],
   "note": ""
  },
  {
   "property": "C120",
   "status": "proved",
   "theorems": [
    "C120_listed_states_have_numbers",
    "C120_tables_agree",
    "C120_no_exception_refuted",
    "C120_listed_refuted",
    "C120_unknown_tags",
    "C120_adjective_at_the_end"
   ],
   "note": ""
  },
  {
   "property": "C121",
   "status": "proved",
   "theorems": [
    "C121_complete_tagging",
    "C121_run",
    "C121_texts",
    "C121_known_refuted"
   ],
   "note": "Binary64 with the tables that jieba/posseg ships."
  },
  {
   "property": "C122",
   "status": "proved",
   "theorems": [
    "C122_stationary",
    "C122_rounds",
    "C122_ten_rounds",
    "C122_order",
    "C122_order_binary64",
    "C122_order_refuted"
   ],
   "note": "Stationary weights exist and are unique; each round contracts the distance by 0.85 in the norm weighted by links; the bound after ten rounds and what it says about the order, with a refutation of the order in general."
  },
  {
   "property": "C123",
   "status": "proved",
   "theorems": [
    "C123_before_loading",
    "C123_loaded",
    "C123_file",
    "C123_set_dictionary",
    "C123_next_cut_refuted",
    "C123_tags_before_tagging",
    "C123_tags_after_tagging"
   ],
   "note": "Names of the module that bypass check_initialized, and the alias of the table of tags."
  },
  {
   "property": "C124",
   "status": "proved",
   "theorems": [
    "C124_word_by_word",
    "C124_same_file",
    "C124_looked_up_meanwhile",
    "C124_one_thread",
    "C124_one_of_the_files_refuted",
    "C124_kept_tag_refuted"
   ],
   "note": "the tags of the user's words and which file is opened are left out here"
  },
  {
   "property": "C125",
   "status": "proved",
   "theorems": [
    "C125_whatever_the_others_do",
    "C125_same_tags",
    "C125_goes_on",
    "C125_one_thread",
    "C125_own_tags_refuted"
   ],
   "note": "the tagging of the sentence reads neither attribute and is left out: a call is given the words as tagged"
  },
  {
   "property": "C126",
   "status": "proved",
   "theorems": [
    "C126_one_changes_it",
    "C126_where_from",
    "C126_before_or_after_refuted",
    "C126_file_set_refuted",
    "C126_no_exception_refuted"
   ],
   "note": "the stop words and the rest of extract_tags, which read nothing that these calls write, are left out here"
  },
  {
   "property": "C127",
   "status": "proved",
   "theorems": [
    "C127_search",
    "C127_tokenize_search",
    "C127_same_words",
    "C127_tokens_in_place",
    "C127_tokenize_default",
    "C127_no_exception",
    "C127_no_updates",
    "C127_given_out_stays"
   ],
   "note": "The inner generator is modelled by running it again with the moments at which it was asked."
  },
  {
   "property": "C128",
   "status": "proved",
   "theorems": [
    "C128_stamped_is_cut",
    "C128_search",
    "C128_lossless",
    "C128_no_exception",
    "C128_no_updates",
    "C128_some_moment_refuted"
   ],
   "note": "Each part is one read, as in ModelRace; tokenize in threads is not modelled."
  },
  {
   "property": "C13",
   "status": "proved",
   "theorems": [
    "C13_hmm_stage",
    "C13_hmm_cut_lossless"
   ],
   "note": ""
  },
  {
   "property": "C14",
   "status": "proved",
   "theorems": [
    "C14_best_labels",
    "C14_best_labels_binary64",
    "C14_shipped"
   ],
   "note": "The HMM stage's words are spelled by a label sequence of maximal score, for every finite table and every arithmetic with monotone addition (reals and binary64)."
  },
  {
   "property": "C15",
   "status": "proved",
   "theorems": [
    "C15_deleted_word_gone",
    "C15_letters_refuted",
    "C15_tagger_refuted"
   ],
   "note": "Any later history of calls that does not write w. Pure letters: refuted.."
  },
  {
   "property": "C16",
   "status": "proved",
   "theorems": [
    "C16_add_word_frame",
    "C16_is_prefix",
    "C16_add_word_default"
   ],
   "note": "Frame over all entries, total, tags, forced splits."
  },
  {
   "property": "C17",
   "status": "proved",
   "theorems": [
    "C17_always_prefix_closed",
    "C06_C17_word_graph_reachable"
   ],
   "note": "All files, all histories, also failing calls."
  },
  {
   "property": "C18",
   "status": "proved",
   "theorems": [
    "C18_total_never_undercounts",
    "C18_total_grows",
    "C18_total_binary64",
    "C18_equality_refuted"
   ],
   "note": "For every number type with sign laws; binary64 instance given. Equality refuted."
  },
  {
   "property": "C19",
   "status": "proved",
   "theorems": [
    "C19_added_word_comes_out",
    "C19_han_only",
    "C19_letters_refuted",
    "C19_binary64",
    "reachable_healthy"
   ],
   "note": "Exact real arithmetic for every word; binary64 (math.log within 2^-48) for len^2 * total <= 2^41; also holds with the HMM. reachable_healthy discharges the hypothesis for reachable states."
  },
  {
   "property": "C20",
   "status": "proved",
   "theorems": [
    "C20_never_raises",
    "C20_splits_under_bound",
    "C20_splits_rare",
    "C20_splitting_refuted",
    "C20_binary64"
   ],
   "note": "Never raises: every arithmetic. Splitting: exact arithmetic and binary64, under the bound; refuted without it."
  },
  {
   "property": "C21",
   "status": "proved",
   "theorems": [
    "C21_query_changes_nothing",
    "C21_query_only_initialises"
   ],
   "note": "Several tokenizers of one process, all calls in all states."
  },
  {
   "property": "C22",
   "status": "proved",
   "theorems": [
    "C22_every_line",
    "C22_userdict_is_add_word",
    "C22_userdict_refused",
    "C22_last_line_wins"
   ],
   "note": "Refused lines: not UTF-8 (ValueError) or a line break inside a text line (AttributeError)."
  },
  {
   "property": "C23",
   "status": "proved",
   "theorems": [
    "C23_parse_sound",
    "C23_parse_total",
    "C23_parts_unique",
    "C23_documented_forms"
   ],
   "note": "All lines, with the regular expression's backtracking order modelled."
  },
  {
   "property": "C24",
   "status": "proved",
   "theorems": [
    "C24_file_read_faithfully",
    "C24_malformed_line",
    "C24_utf8",
    "C24_lines_of_a_file",
    "C24_dictionary_file"
   ],
   "note": "All files of well-formed lines; malformed lines raise ValueError."
  },
  {
   "property": "C25",
   "status": "proved",
   "theorems": [
    "C25_cache_old_or_complete",
    "C25_initialize_after_crash"
   ],
   "note": "Small-step machine with any number of threads, tokenizers and processes, killed at any points; dictionaries unchanged."
  },
  {
   "property": "C26",
   "status": "proved",
   "theorems": [
    "C26_loads_current_dictionary",
    "C26_race_refuted",
    "C26_initialize_in_one_step"
   ],
   "note": "Monotone clock, changed files get the current time, no dictionary changed during its own initialisation; the race is refuted by an execution."
  },
  {
   "property": "C27",
   "status": "proved",
   "theorems": [
    "C27_default_dictionary_never_reread",
    "C27_default_freshness_refuted"
   ],
   "note": "The property is the refutation of freshness; also shown for every history."
  },
  {
   "property": "C28",
   "status": "proved",
   "theorems": [
    "C28_threads_see_one_complete_dictionary",
    "C28_no_deadlock",
    "C28_every_schedule_ends",
    "C28_all_threads_finish"
   ],
   "note": "All schedules, any number of threads, tokenizers and processes, arbitrary file changes."
  },
  {
   "property": "C29",
   "status": "proved",
   "theorems": [
    "C29_failure_changes_nothing",
    "C29_malformed_raises",
    "C29_repaired_succeeds"
   ],
   "note": "All executions of the same machine."
  },
  {
   "property": "C30",
   "status": "proved",
   "theorems": [
    "C30_parallel_same_words",
    "C30_parallel_raises",
    "C30_parallel_search",
    "C30_parallel_total"
   ],
   "note": "All texts and dictionaries, every outcome of the worker pool; an exception comes before any word."
  },
  {
   "property": "C31",
   "status": "proved",
   "theorems": [
    "C31_full_up_to_empty",
    "C31_equality_refuted"
   ],
   "note": "All texts and dictionaries."
  },
  {
   "property": "C32",
   "status": "proved",
   "theorems": [
    "C32_workers_keep_dictionary",
    "C32_enable_again",
    "C32_disabled",
    "C32_always_answers"
   ],
   "note": "All histories; workers forked at enable_parallel; back to the Tokenizer after disable_parallel."
  },
  {
   "property": "C33",
   "status": "proved",
   "theorems": [
    "C33_tagging_lossless",
    "C33_shipped_tables",
    "C33_binary64",
    "C33_after_any_history"
   ],
   "note": "Shipped tables (structure checked by the kernel, numbers abstract and finite), exact arithmetic and binary64 (texts up to 2^49 characters)."
  },
  {
   "property": "C34",
   "status": "proved",
   "theorems": [
    "C34_same_words",
    "C34_refuted"
   ],
   "note": "All texts without % and -; refuted with them."
  },
  {
   "property": "C35",
   "status": "proved",
   "theorems": [
    "C35_tags_without_hmm",
    "C35_last_tag_wins"
   ],
   "note": "All histories of one tagger without re-initialisation; see C36 for several taggers."
  },
  {
   "property": "C36",
   "status": "proved",
   "theorems": [
    "C36_tags_belong_to_the_next_cut",
    "C36_second_tagger_refuted",
    "C36_initialize_forgets",
    "C36_initialize_refuted"
   ],
   "note": "Exact account of which tagger takes a tag, for all histories, and the two refutations."
  },
  {
   "property": "C37",
   "status": "proved",
   "theorems": [
    "C37_viterbi_never_fails",
    "C37_C60_binary64"
   ],
   "note": "Shipped table structure; numbers abstract and finite."
  },
  {
   "property": "C38",
   "status": "proved",
   "theorems": [
    "C38_best_keywords",
    "C38_at_most_k",
    "C38_binary64",
    "C38_words_exist",
    "C38_shipped"
   ],
   "note": "Every arithmetic with exact small integers; binary64 with the shipped tables for all healthy dictionaries and texts up to 2^49 characters."
  },
  {
   "property": "C39",
   "status": "proved",
   "theorems": [
    "C39_candidates"
   ],
   "note": ""
  },
  {
   "property": "C40",
   "status": "proved",
   "theorems": [
    "C40_weights",
    "C40_exact"
   ],
   "note": "The float formula for every arithmetic, and its value in the reals."
  },
  {
   "property": "C41",
   "status": "proved",
   "theorems": [
    "C41_weights",
    "C41_exact",
    "C41_binary64"
   ],
   "note": "Exact arithmetic without bounds; also with binary64 rounding up to 2^46 words times span."
  },
  {
   "property": "C42",
   "status": "proved",
   "theorems": [
    "C42_best_keywords",
    "C42_binary64",
    "C42_shipped"
   ],
   "note": ""
  },
  {
   "property": "C43",
   "status": "proved",
   "theorems": [
    "C43_candidates"
   ],
   "note": ""
  },
  {
   "property": "C44",
   "status": "proved",
   "theorems": [
    "C44_every_text_encodes",
    "C44_bytes_like_text",
    "C44_histories"
   ],
   "note": "GBK fallback is an oracle."
  },
  {
   "property": "C45",
   "status": "proved",
   "theorems": [
    "C45_local_boundary",
    "C45_separator",
    "C45_full_mode_refuted"
   ],
   "note": "Accurate modes; full mode refuted."
  },
  {
   "property": "C46",
   "status": "proved",
   "theorems": [
    "C46_independent",
    "C46_independent_uninitialised",
    "C46_independent_default_places",
    "C46_with_hmm_refuted",
    "C46_shared_cache_file_refuted",
    "C46_cache_file_names"
   ],
   "note": "All histories of calls on other tokenizers, initialised or not; with HMM refuted; also refuted for a cache_file attribute shared by two dictionaries."
  },
  {
   "property": "C47",
   "status": "proved",
   "theorems": [
    "C47_missing_file_changes_nothing",
    "C47_next_use_rebuilds",
    "C47_next_use_reads_cache",
    "C47_initialize_missing_refuted"
   ],
   "note": "All states and files; contrast with initialize(path)."
  },
  {
   "property": "C48",
   "status": "proved",
   "theorems": [
    "C48_paddle_mode",
    "C48_cut_and_tag",
    "C48_shipped",
    "C48_shipped_words",
    "C48_lossless_inside_vocabulary",
    "C48_lossless_refuted",
    "C48_strips_refuted"
   ],
   "note": "The network is an oracle; vocabulary and labels are the shipped files."
  },
  {
   "property": "C49",
   "status": "proved",
   "theorems": [
    "C49_lines",
    "C49_prints_words",
    "C49_empty_delimiter",
    "C49_failing_line",
    "C49_empty_pos"
   ],
   "note": "Parsed options and decoded input."
  },
  {
   "property": "C50",
   "status": "proved",
   "theorems": [
    "C50_tokens",
    "C50_no_han_character_is_lost"
   ],
   "note": ""
  },
  {
   "property": "C51",
   "status": "proved",
   "theorems": [
    "C51_lossless_under_updates",
    "C51_no_exception",
    "C51_no_updates"
   ],
   "note": "All texts, and an arbitrary dictionary at every moment between two calls of next()."
  },
  {
   "property": "C52",
   "status": "proved",
   "theorems": [
    "C52_stable_words",
    "C52_binary64_refuted"
   ],
   "note": "Exact real arithmetic, healthy dictionaries; refuted in binary64 by a tie that rounds apart."
  },
  {
   "property": "C53",
   "status": "proved",
   "theorems": [
    "C53_idf_table",
    "C53_empty_file",
    "C53_malformed_file"
   ],
   "note": "float() is an oracle."
  },
  {
   "property": "C54",
   "status": "proved",
   "theorems": [
    "C07_C54_best_segmentation"
   ],
   "note": ""
  },
  {
   "property": "C55",
   "status": "proved",
   "theorems": [
    "C55_lcut_paddle_ignores_hmm",
    "C55_refuted"
   ],
   "note": "Refuted for every table, by the text 1.5."
  },
  {
   "property": "C56",
   "status": "proved",
   "theorems": [
    "C56_raising_keeps_whole",
    "C56_binary64"
   ],
   "note": "Exact real arithmetic; binary64 for len^2 * (total + f) <= 2^41."
  },
  {
   "property": "C57",
   "status": "proved",
   "theorems": [
    "C57_hmm_only_for_unknown_groups"
   ],
   "note": "For every arithmetic with an order (reals and binary64)."
  },
  {
   "property": "C58",
   "status": "proved",
   "theorems": [
    "C58_hmm_stage_text",
    "C58_pieces_unique"
   ],
   "note": "All texts, all tables, all sets of forced splits."
  },
  {
   "property": "C59",
   "status": "proved",
   "theorems": [
    "C59_independent_of_set_order",
    "C59_shipped_binary64"
   ],
   "note": "All orders, chosen anew for every set."
  },
  {
   "property": "C60",
   "status": "proved",
   "theorems": [
    "C60_viterbi_optimal",
    "C37_C60_binary64"
   ],
   "note": "Exact arithmetic with minus infinity, and binary64 without overflow."
  },
  {
   "property": "C61",
   "status": "proved",
   "theorems": [
    "C61_parallel_same_tags",
    "C61_parallel_total",
    "C61_workers_keep_tags",
    "C61_later_tag_refuted",
    "C61_shipped"
   ],
   "note": "Workers forked at enable_parallel with jieba.posseg imported."
  },
  {
   "property": "C62",
   "status": "proved",
   "theorems": [
    "C62_tags_with_hmm",
    "C62_shipped"
   ],
   "note": ""
  },
  {
   "property": "C63",
   "status": "proved",
   "theorems": [
    "C63_tags_of_a_file",
    "C63_untagged_line_refused",
    "C63_empty_line"
   ],
   "note": ""
  },
  {
   "property": "C64",
   "status": "proved",
   "theorems": [
    "C64_tagging_is_local"
   ],
   "note": ""
  },
  {
   "property": "C65",
   "status": "proved",
   "theorems": [
    "C65_failed_load_changes_nothing",
    "C65_second_call_reads_nothing"
   ],
   "note": ""
  },
  {
   "property": "C66",
   "status": "proved",
   "theorems": [
    "C66_stop_words",
    "C66_failure_changes_nothing",
    "C66_upper_case_entries_are_ignored"
   ],
   "note": "str.lower is an oracle."
  },
  {
   "property": "C67",
   "status": "proved",
   "theorems": [
    "C67_textrank_without_tags",
    "C67_refuted"
   ],
   "note": ""
  },
  {
   "property": "C68",
   "status": "proved",
   "theorems": [
    "C68_bytes_elsewhere",
    "C68_refuted",
    "C68_not_utf8"
   ],
   "note": ""
  },
  {
   "property": "C69",
   "status": "proved",
   "theorems": [
    "C69_prints_tags",
    "C69_cut_all_ignored",
    "C69_shipped"
   ],
   "note": ""
  },
  {
   "property": "C70",
   "status": "proved",
   "theorems": [
    "C70_tags_of_default_dictionary",
    "C70_tag_of_given_dictionary_refuted"
   ],
   "note": ""
  },
  {
   "property": "C71",
   "status": "proved",
   "theorems": [
    "C71_blank_text_reaches_network",
    "C71_other_texts_do_not"
   ],
   "note": "The network is an oracle."
  },
  {
   "property": "C72",
   "status": "proved",
   "theorems": [
    "C72_one_object",
    "C72_list_refuted",
    "C72_other_objects"
   ],
   "note": ""
  },
  {
   "property": "C73",
   "status": "proved",
   "theorems": [
    "C73_defined",
    "C73_exact",
    "C73_binary64",
    "C73_no_links"
   ],
   "note": "weights stated on links between places of the word list (SpecTextrank.v), without the graph or the dictionaries of the code; exact in real arithmetic, relative error bounded in binary64"
  },
  {
   "property": "C74",
   "status": "proved",
   "theorems": [
    "C74_waits_for_the_writer",
    "C74_builder_is_registered",
    "C74_one_builder_refuted"
   ],
   "note": "the positive half is about a thread that found the lock; exclusion is refuted by a concrete schedule"
  },
  {
   "property": "C75",
   "status": "proved",
   "theorems": [
    "C75_dictionary_of_the_beginning_of_a_run",
    "C75_with_hmm_refuted"
   ],
   "note": ""
  },
  {
   "property": "C76",
   "status": "proved",
   "theorems": [
    "C76_forced_split_acts_at_once"
   ],
   "note": ""
  },
  {
   "property": "C77",
   "status": "proved",
   "theorems": [
    "C77_stop_words_after_any_calls",
    "C77_no_keyword_is_a_stop_word",
    "C77_bad_file"
   ],
   "note": ""
  },
  {
   "property": "C78",
   "status": "proved",
   "theorems": [
    "C78_sequential_after_disable",
    "C78_parallel_generator_after_disable",
    "C78_last_workers",
    "C78_started_generator_is_fixed",
    "C78_used_up",
    "C78_lcut_same_at_once",
    "C78_lcut_same_refuted",
    "C78_tagger_follows_the_last_switch",
    "C78_use_paddle_argument"
   ],
   "note": "sequential generators are consumed in one go here (step by step: C51, C75, C76)"
  },
  {
   "property": "C79",
   "status": "proved",
   "theorems": [
    "C79_only_what_occurs",
    "C79_full_mode_no_total",
    "C79_tagger_only_what_occurs",
    "C79_deleting_elsewhere",
    "C79_adding_elsewhere",
    "C79_adding_elsewhere_refuted"
   ],
   "note": ""
  },
  {
   "property": "C80",
   "status": "proved",
   "theorems": [
    "C80_same_dictionary_same_behaviour",
    "C80_lines_in_any_order",
    "C80_order_without_frequencies_refuted"
   ],
   "note": ""
  },
  {
   "property": "C81",
   "status": "proved",
   "theorems": [
    "C81_who_cuts",
    "C81_once",
    "C81_without_paddle",
    "C81_version_test",
    "C81_version_refuted"
   ],
   "note": ""
  },
  {
   "property": "C82",
   "status": "proved",
   "theorems": [
    "C82_add_again",
    "C82_split_for_ever",
    "C82_undo_refuted"
   ],
   "note": ""
  },
  {
   "property": "C83",
   "status": "proved",
   "theorems": [
    "C83_lossless_under_updates",
    "C83_no_exception",
    "C83_no_updates",
    "C83_tags_of_the_moment",
    "C83_new_tags_wait",
    "C83_added_tag_refuted",
    "C83_shipped"
   ],
   "note": ""
  },
  {
   "property": "C84",
   "status": "proved",
   "theorems": [
    "C84_added_word",
    "C84_other_words",
    "C84_prefix_closed",
    "C84_as_one_after_the_other",
    "C84_total",
    "C84_one_thread",
    "C84_runs_end",
    "C84_word_is_kept_refuted",
    "C84_total_is_exact_refuted"
   ],
   "note": ""
  },
  {
   "property": "C85",
   "status": "proved",
   "theorems": [
    "C85_lossless",
    "C85_no_exception",
    "C85_words_were_there",
    "C85_forced_split",
    "C85_no_updates",
    "C85_while_others_add",
    "C85_no_exception_refuted",
    "C85_some_moment_refuted"
   ],
   "note": ""
  },
  {
   "property": "C86",
   "status": "proved",
   "theorems": [
    "C86_equality_and_hash",
    "C86_order",
    "C86_sorting",
    "C86_text",
    "C86_unpacking",
    "C86_trichotomy_refuted",
    "C86_text_refuted"
   ],
   "note": ""
  },
  {
   "property": "C87",
   "status": "proved",
   "theorems": [
    "C87_attributes",
    "C87_names_of_the_tokenizer",
    "C87_without_a_tokenizer"
   ],
   "note": ""
  },
  {
   "property": "C88",
   "status": "proved",
   "theorems": [
    "C88_load",
    "C88_two_tables",
    "C88_first_bad_line",
    "C88_each_label",
    "C88_size",
    "C88_ids_in_range",
    "C88_label_ids_in_range",
    "C88_unknown_characters"
   ],
   "note": ""
  },
  {
   "property": "C89",
   "status": "proved",
   "theorems": [
    "C89_tags_given_before",
    "C89_other_words",
    "C89_nothing_invented",
    "C89_one_thread",
    "C89_tag_is_kept_refuted"
   ],
   "note": ""
  },
  {
   "property": "C90",
   "status": "proved",
   "theorems": [
    "C90_lookups",
    "C90_linear_refuted"
   ],
   "note": ""
  },
  {
   "property": "C91",
   "status": "proved",
   "theorems": [
    "C91_whole_word",
    "C91_each_time_one_more",
    "C91_binary64",
    "C91_always_more_refuted"
   ],
   "note": ""
  },
  {
   "property": "C92",
   "status": "proved",
   "theorems": [
    "C92_loading_again",
    "C92_larger_total_not_more_words",
    "C92_second_load_not_more_words",
    "C92_second_load_same_words_refuted"
   ],
   "note": ""
  },
  {
   "property": "C93",
   "status": "proved",
   "theorems": [
    "C93_scaled",
    "C93_binary64",
    "C93_full_mode",
    "C93_unknown_characters_refuted"
   ],
   "note": ""
  },
  {
   "property": "C94",
   "status": "proved",
   "theorems": [
    "C94_unused_word",
    "C94_unused_word_hmm",
    "C94_no_shorter_word_refuted",
    "C94_hmm_single_characters_refuted"
   ],
   "note": ""
  },
  {
   "property": "C95",
   "status": "proved",
   "theorems": [
    "C95_joined_words",
    "C95_words_back",
    "C95_hmm_refuted"
   ],
   "note": "Exact real arithmetic, healthy dictionaries."
  },
  {
   "property": "C96",
   "status": "proved",
   "theorems": [
    "C96_repeated_text",
    "C96_parts_in_any_order",
    "C96_repeated_binary64_refuted"
   ],
   "note": "First statement in exact arithmetic."
  },
  {
   "property": "C97",
   "status": "proved",
   "theorems": [
    "C97_rest_in_single_characters",
    "C97_cut",
    "C97_exact_refuted",
    "C97_shipped",
    "C97_half_known",
    "C97_half_known_refuted"
   ],
   "note": "C97_shipped: for the complete tables as shipped, without the 113 characters that have an entry but none for S (C97_half_known: exactly those; C97_half_known_refuted: they have to be excluded). binary64; the shipped start and transition tables and the emission entries of two characters are transcribed in PropsUnknown.v and shown to meet the hypotheses; C97_exact_refuted: the claim is false in exact arithmetic"
  },
  {
   "property": "C98",
   "status": "proved",
   "theorems": [
    "C98_fewest_missing",
    "C98_only_entries_matter",
    "C98_fewest_missing_exact",
    "C98_exact_refuted",
    "C98_known_characters_refuted",
    "C98_shipped"
   ],
   "note": "binary64 and exact arithmetic; tables with bounded entries"
  },
  {
   "property": "C99",
   "status": "proved",
   "theorems": [
    "C99_no_longest_word",
    "C99_no_longest_word_cut"
   ],
   "note": "binary64, the tables as shipped; up to 2^49 characters"
  }
 ]
}