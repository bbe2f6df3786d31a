# Design

Formal model of jieba (the commit in /repo, Python 3 branches) in Coq 8.16.1, sources in `rocq/theories`, logical name `Verif`.

## Layers

* `PyBase`, `PyRegex`, `PyNum`, `PyUtf8`: the Python primitives jieba uses. Strings are lists of code points, dictionaries are
  insertion-ordered association lists, exceptions are values, a generator is (yielded list, optional exception); `max`, stable `sorted`,
  `strip`, `split`, `splitlines`, `int()`, strict UTF-8, the subset of `re` in use, and a record `Num` of number operations.
* `Inst*`: the arithmetics the numeric theorems are instantiated with: exact reals, IEEE binary64 (Flocq), exact numbers with minus
  infinity, rationals (for examples).
* `Model*`: the functions of jieba, branch by branch. Every definition has a comment with file and lines.
* `Data*`: tables transcribed from the data files (keys of the tagger's tables, vocabulary and labels of the paddle mode).
* `Spec*`: small independent specifications, without functions of the model unless the property is about a function by name.
* `Proofs*`: lemmas. `Demo*`: concrete cases.
* `Props*`: one theorem per claim, its name beginning with the property's id, a short proof, an example or a computed case that meets the
  hypotheses (`..._nonvacuous`), and `Print Assumptions`. A claim about the code that is false is stated as a theorem `..._refuted` that
  gives a witness; the positive part that is true is a separate theorem.

## Trusted base

1. Coq's kernel, including its virtual machine (`vm_compute` is used in refutations, examples and table checks). No kernel check is
   switched off; there is no axiom, admitted proof, parameter or functor in `rocq/theories`.
2. Axioms of Coq's standard library, listed below per theorem as printed by `Print Assumptions`. Flocq adds none of its own.
3. That the model says what the Python code does. The model is a reading of the source; nothing is extracted or run. The next sections
   list what is modelled, how, and what is not.
4. The hypotheses of the theorems about the outside (next section), which are explicit in each statement.

### Axioms

D1 = `ClassicalDedekindReals.sig_forall_dec`, D2 = `ClassicalDedekindReals.sig_not_dec`,
FE = `FunctionalExtensionality.functional_extensionality_dep`, EM = `Classical_Prop.classic`.

* no axiom ("Closed under the global context") (305 theorems): `C01_accurate_lossless`, `C01_accurate_prefix`, `C02_full_mode_refuted`, `C02_no_empty_word`, `C03_full_mode_covers`, `C03_pieces_repeat_characters_refuted`, `C04_alnum_word_refuted`, `C04_full_mode_complete`, `C05_full_mode_other`, `C05_full_mode_sound`, `C05_not_a_substring_refuted`, `C06_C17_word_graph_reachable`, `C06_word_graph_exact`, `C06_word_graph_members`, `C09_only_known_words`, `C108_clear_decided`, `C108_full_mode_exact`, `C108_single_outside_words_refuted`, `C108_without_letters`, `C109_accurate`, `C109_full`, `C109_full_linear_refuted`, `C109_full_quadratic`, `C109_search`, `C10_search_mode`, `C110_every_word_changes`, `C111_dictionary_words`, `C111_full_in_search_refuted`, `C111_hmm_words_refuted`, `C111_single_characters_refuted`, `C111_without_hmm`, `C112_only_the_new_word_refuted`, `C112_single_characters_refuted`, `C112_words_stay`, `C113_accurate`, `C113_added_in_vain`, `C113_full`, `C113_search`, `C113_tagger`, `C114_hmm_refuted`, `C114_rest`, `C114_tagger`, `C115_any_order_refuted`, `C115_flags_refuted`, `C116_digits_refuted`, `C117_textrank_refuted`, `C11_tokenize_tiles`, `C120_listed_refuted`, `C120_listed_states_have_numbers`, `C120_no_exception_refuted`, `C120_tables_agree`, `C123_before_loading`, `C123_file`, `C123_loaded`, `C123_next_cut_refuted`, `C123_set_dictionary`, `C123_tags_after_tagging`, `C123_tags_before_tagging`, `C124_kept_tag_refuted`, `C124_looked_up_meanwhile`, `C124_one_of_the_files_refuted`, `C124_one_thread`, `C124_same_file`, `C124_word_by_word`, `C125_goes_on`, `C125_one_thread`, `C125_same_tags`, `C126_before_or_after_refuted`, `C126_file_set_refuted`, `C126_no_exception_refuted`, `C126_one_changes_it`, `C126_where_from`, `C127_given_out_stays`, `C127_no_exception`, `C127_no_updates`, `C127_same_words`, `C127_search`, `C127_tokenize_default`, `C127_tokenize_search`, `C127_tokens_in_place`, `C128_lossless`, `C128_no_exception`, `C128_no_updates`, `C128_search`, `C128_some_moment_refuted`, `C128_stamped_is_cut`, `C12_every_place`, `C12_tokenize_search_located`, `C12_what_is_reported`, `C13_hmm_cut_lossless`, `C13_hmm_stage`, `C15_deleted_word_gone`, `C15_letters_refuted`, `C15_tagger_refuted`, `C16_add_word_default`, `C16_add_word_frame`, `C16_is_prefix`, `C17_always_prefix_closed`, `C18_equality_refuted`, `C18_total_grows`, `C18_total_never_undercounts`, `C19_han_only`, `C20_never_raises`, `C21_query_changes_nothing`, `C21_query_only_initialises`, `C22_every_line`, `C22_last_line_wins`, `C22_userdict_is_add_word`, `C22_userdict_refused`, `C23_documented_forms`, `C23_parse_sound`, `C23_parse_total`, `C23_parts_unique`, `C24_dictionary_file`, `C24_file_read_faithfully`, `C24_lines_of_a_file`, `C24_malformed_line`, `C24_utf8`, `C25_cache_old_or_complete`, `C25_initialize_after_crash`, `C26_initialize_in_one_step`, `C26_loads_current_dictionary`, `C26_race_refuted`, `C27_default_dictionary_never_reread`, `C27_default_freshness_refuted`, `C28_all_threads_finish`, `C28_every_schedule_ends`, `C28_no_deadlock`, `C28_threads_see_one_complete_dictionary`, `C29_failure_changes_nothing`, `C29_malformed_raises`, `C29_repaired_succeeds`, `C30_parallel_raises`, `C30_parallel_same_words`, `C30_parallel_search`, `C30_parallel_total`, `C31_equality_refuted`, `C31_full_up_to_empty`, `C32_always_answers`, `C32_disabled`, `C32_enable_again`, `C32_workers_keep_dictionary`, `C33_after_any_history`, `C33_shipped_tables`, `C33_tagging_lossless`, `C34_refuted`, `C34_same_words`, `C36_initialize_forgets`, `C36_initialize_refuted`, `C36_second_tagger_refuted`, `C36_tags_belong_to_the_next_cut`, `C37_viterbi_never_fails`, `C38_words_exist`, `C44_bytes_like_text`, `C44_every_text_encodes`, `C44_histories`, `C45_full_mode_refuted`, `C45_local_boundary`, `C45_separator`, `C46_cache_file_names`, `C46_independent`, `C46_independent_default_places`, `C46_independent_uninitialised`, `C46_shared_cache_file_refuted`, `C46_with_hmm_refuted`, `C47_initialize_missing_refuted`, `C47_missing_file_changes_nothing`, `C47_next_use_reads_cache`, `C47_next_use_rebuilds`, `C48_cut_and_tag`, `C48_lossless_inside_vocabulary`, `C48_lossless_refuted`, `C48_paddle_mode`, `C48_shipped`, `C48_shipped_words`, `C48_strips_refuted`, `C49_empty_delimiter`, `C49_empty_pos`, `C49_failing_line`, `C49_lines`, `C49_prints_words`, `C50_no_han_character_is_lost`, `C50_tokens`, `C51_lossless_under_updates`, `C51_no_exception`, `C51_no_updates`, `C53_empty_file`, `C53_malformed_file`, `C55_lcut_paddle_ignores_hmm`, `C55_refuted`, `C58_hmm_stage_text`, `C58_pieces_unique`, `C59_independent_of_set_order`, `C60_viterbi_optimal`, `C61_later_tag_refuted`, `C61_parallel_same_tags`, `C61_parallel_total`, `C61_workers_keep_tags`, `C63_empty_line`, `C63_tags_of_a_file`, `C63_untagged_line_refused`, `C64_tagging_is_local`, `C65_failed_load_changes_nothing`, `C65_second_call_reads_nothing`, `C66_failure_changes_nothing`, `C66_stop_words`, `C66_upper_case_entries_are_ignored`, `C67_textrank_without_tags`, `C68_bytes_elsewhere`, `C68_not_utf8`, `C68_refuted`, `C69_cut_all_ignored`, `C69_prints_tags`, `C70_tag_of_given_dictionary_refuted`, `C71_blank_text_reaches_network`, `C71_other_texts_do_not`, `C72_list_refuted`, `C72_one_object`, `C72_other_objects`, `C73_no_links`, `C74_builder_is_registered`, `C74_one_builder_refuted`, `C74_waits_for_the_writer`, `C75_dictionary_of_the_beginning_of_a_run`, `C75_with_hmm_refuted`, `C76_forced_split_acts_at_once`, `C77_bad_file`, `C77_no_keyword_is_a_stop_word`, `C77_stop_words_after_any_calls`, `C78_last_workers`, `C78_lcut_same_at_once`, `C78_lcut_same_refuted`, `C78_parallel_generator_after_disable`, `C78_sequential_after_disable`, `C78_started_generator_is_fixed`, `C78_tagger_follows_the_last_switch`, `C78_use_paddle_argument`, `C78_used_up`, `C79_adding_elsewhere`, `C79_deleting_elsewhere`, `C79_full_mode_no_total`, `C79_only_what_occurs`, `C79_tagger_only_what_occurs`, `C80_lines_in_any_order`, `C80_same_dictionary_same_behaviour`, `C81_once`, `C81_version_refuted`, `C81_version_test`, `C81_who_cuts`, `C81_without_paddle`, `C82_add_again`, `C82_split_for_ever`, `C83_added_tag_refuted`, `C83_lossless_under_updates`, `C83_new_tags_wait`, `C83_no_exception`, `C83_no_updates`, `C83_tags_of_the_moment`, `C84_added_word`, `C84_as_one_after_the_other`, `C84_one_thread`, `C84_other_words`, `C84_prefix_closed`, `C84_runs_end`, `C84_total`, `C84_total_is_exact_refuted`, `C84_word_is_kept_refuted`, `C85_forced_split`, `C85_lossless`, `C85_no_exception`, `C85_no_exception_refuted`, `C85_no_updates`, `C85_some_moment_refuted`, `C85_while_others_add`, `C85_words_were_there`, `C86_equality_and_hash`, `C86_order`, `C86_sorting`, `C86_text`, `C86_text_refuted`, `C86_trichotomy_refuted`, `C86_unpacking`, `C87_attributes`, `C87_names_of_the_tokenizer`, `C87_without_a_tokenizer`, `C88_each_label`, `C88_first_bad_line`, `C88_ids_in_range`, `C88_label_ids_in_range`, `C88_load`, `C88_size`, `C88_two_tables`, `C88_unknown_characters`, `C89_nothing_invented`, `C89_one_thread`, `C89_other_words`, `C89_tag_is_kept_refuted`, `C89_tags_given_before`, `C90_linear_refuted`, `C90_lookups`, `C92_loading_again`, `C95_hmm_refuted`, `C97_exact_refuted`, `C98_exact_refuted`, `reachable_healthy`
* D1 (1 theorems): `C116_tagger`
* D1, FE (30 theorems): `C07_C54_best_segmentation`, `C08_longest_word_on_ties`, `C116_hmm_only_joins`, `C116_same_words_behind`, `C116_words_stay`, `C119_emission_numbers`, `C122_rounds`, `C122_ten_rounds`, `C125_own_tags_refuted`, `C125_whatever_the_others_do`, `C14_best_labels`, `C35_last_tag_wins`, `C35_tags_without_hmm`, `C38_at_most_k`, `C38_best_keywords`, `C39_candidates`, `C40_weights`, `C41_weights`, `C42_best_keywords`, `C43_candidates`, `C53_idf_table`, `C57_hmm_only_for_unknown_groups`, `C62_tags_with_hmm`, `C67_refuted`, `C70_tags_of_default_dictionary`, `C73_defined`, `C94_hmm_single_characters_refuted`, `C94_unused_word`, `C94_unused_word_hmm`, `C96_parts_in_any_order`
* D1, D2, FE (1 theorems): `C122_stationary`
* D1, D2, EM, FE (123 theorems): `C07_best_binary64`, `C07_most_probable`, `C100_fewest_missing`, `C100_only_entries_matter`, `C100_shipped`, `C101_every_tag_changes`, `C101_one_unknown`, `C101_unknown_is_x_refuted`, `C101_unknown_tags`, `C102_clear_winner`, `C102_near_best`, `C102_same_as_exact`, `C102_tokens_same_as_exact`, `C103_clear_labels`, `C103_near_best`, `C103_shipped`, `C103_shipped_tables`, `C104_default_mode`, `C104_same_as_exact`, `C104_tokens_same_as_exact`, `C105_clear_order`, `C105_exact_order_refuted`, `C105_same_idf`, `C105_textrank_clear_order`, `C105_weights`, `C106_clear_tagging`, `C106_near_best`, `C106_shipped_tables`, `C107_default_mode`, `C107_same_as_exact`, `C110_binary64`, `C110_exact`, `C110_no_look_ahead`, `C113_shipped`, `C113_tagger_binary64`, `C114_beginning_refuted`, `C114_stretch`, `C115_backwards`, `C115_parts_in_any_order`, `C116_shipped`, `C117_more_often`, `C117_more_often_binary64`, `C117_others_stay`, `C117_others_stay_binary64`, `C117_stop_words`, `C117_stop_words_binary64`, `C118_lowering`, `C118_no_frequency_brings_it_back`, `C118_raising`, `C119_after_any_history`, `C119_best_tagging`, `C119_tables`, `C119_words`, `C120_adjective_at_the_end`, `C120_unknown_tags`, `C121_complete_tagging`, `C121_known_refuted`, `C121_run`, `C121_texts`, `C122_order`, `C122_order_binary64`, `C122_order_refuted`, `C14_best_labels_binary64`, `C14_shipped`, `C18_total_binary64`, `C19_added_word_comes_out`, `C19_binary64`, `C19_letters_refuted`, `C20_binary64`, `C20_splits_rare`, `C20_splits_under_bound`, `C20_splitting_refuted`, `C33_binary64`, `C37_C60_binary64`, `C38_binary64`, `C38_shipped`, `C40_exact`, `C41_binary64`, `C41_exact`, `C42_binary64`, `C42_shipped`, `C52_binary64_refuted`, `C52_stable_words`, `C56_binary64`, `C56_raising_keeps_whole`, `C59_shipped_binary64`, `C61_shipped`, `C62_shipped`, `C69_shipped`, `C73_binary64`, `C73_exact`, `C79_adding_elsewhere_refuted`, `C80_order_without_frequencies_refuted`, `C82_undo_refuted`, `C83_shipped`, `C91_always_more_refuted`, `C91_binary64`, `C91_each_time_one_more`, `C91_whole_word`, `C92_larger_total_not_more_words`, `C92_second_load_not_more_words`, `C92_second_load_same_words_refuted`, `C93_binary64`, `C93_full_mode`, `C93_scaled`, `C93_unknown_characters_refuted`, `C94_no_shorter_word_refuted`, `C95_joined_words`, `C95_words_back`, `C96_repeated_binary64_refuted`, `C96_repeated_text`, `C97_cut`, `C97_half_known`, `C97_half_known_refuted`, `C97_rest_in_single_characters`, `C97_shipped`, `C98_fewest_missing`, `C98_fewest_missing_exact`, `C98_known_characters_refuted`, `C98_only_entries_matter`, `C98_shipped`, `C99_no_longest_word`, `C99_no_longest_word_cut`

### Assumptions about the outside (hypotheses, not axioms)

* `math.log`: an oracle. The binary64 theorems assume it is finite and below 2^1000 for positive integers (`log_ok`); C19, C20 and C56 in
  binary64 also that it is within 2^-48 of `ln` up to 2^44 (`log_close`, `SpecLog.v`). Theorems in exact arithmetic take `ln`.
* `float()` of a text (IDF files), `str.lower`, the gbk codec, `marshal`, `md5`, `os.path.join`, `tempfile`: oracles; what is assumed of them
  (marshal reads back what it wrote, mkstemp makes a new file, ...) is a hypothesis where it is needed.
* The numbers in the HMM tables are arbitrary, except in `PropsTables`, `PropsPosTables` and `PropsTagger`, which use the shipped ones; where the tagger's tables have their shipped *keys* only (`DataPosseg.v`), the
  numbers are assumed finite and of size at most 2^340 (they are between -3.14e100 and 0).
* The neural network of the paddle mode is an oracle from characters to label numbers that may raise.
* Comparisons in sorts see no NaN where the theorem says so.
* Sets iterate in an arbitrary order, chosen anew for every set (C59).
* A process may be killed at any step; files may be changed by others as each theorem says.
* Memory, recursion limits and time are unbounded.

## What is modelled

| code | model | remarks |
|---|---|---|
| `jieba/__init__.py` regular expressions 36-46 | `ModelSeg`, `ModelDict` | over `PyRegex` |
| `Tokenizer.__init__` 55-66 | `ModelInit.new_mem`, `ModelWorld` | |
| `gen_pfdict` 71-91 | `ModelDict.gen_pfdict` | a file is a list of byte lines, read in one step |
| `initialize`, `check_initialized` 93-170 | `ModelInit` (small steps, threads, kills), `ModelWorld` (one step) | shown to agree: `C26_initialize_in_one_step`; log messages left out |
| `calc`, `get_DAG` 172-196 | `ModelSeg` | |
| `__cut_all`, `__cut_DAG_NO_HMM`, `__cut_DAG` 198-287 | `ModelSeg`; `ModelTimed` (reads at their own moments); `ModelRace` (the reads of a thread without a lock) | |
| `cut` 289-336 | `ModelSeg.cut`, paddle branch `ModelLac` | |
| `cut_for_search`, `lcut*` 338-372 | `ModelSeg` | |
| `get_dict_file` 374-378 | `ModelInit.dict_path` | |
| `load_userdict` 380-416 | `ModelDict` | |
| `add_word`, `del_word`, `suggest_freq` 418-474 | `ModelDict`, `ModelApi`; `ModelConc` (threads in `add_word`, small steps) | `ModelConc` takes one dictionary operation, one read or one write of an attribute as indivisible (the interpreter's own lock), and calls with a frequency |
| `tokenize` 476-507 | `ModelSeg` | |
| `set_dictionary` 509-515 | `ModelWorld` | |
| module functions, workers, `_pcut*`, `enable_parallel`, `disable_parallel` 518-619 | `ModelParallel`, `ModelNames` (generator objects, names switched) | workers are forked copies; scheduling is arbitrary |
| `finalseg/__init__.py` 15-100 | `ModelFinalseg` | |
| `finalseg/prob_start.py`, `prob_trans.py`, `prob_emit.py` | `ModelTables`, `DataFinalseg` (generated) | all entries, decimals rounded to binary64 as significand and exponent by the generator |
| `posseg/__init__.py` | `ModelPosseg`, `ModelPosParallel`, `ModelNames` | |
| `posseg/__init__.py` `pair` 44-75, `__getattr__` 87-91 | `ModelPair` | strings as attribute names; the lists of names are copied from the two classes |
| `posseg/viterbi.py` 14-53 | `ModelPosseg` | |
| `posseg/prob_start.py`, `prob_trans.py`, `char_state_tab.py`, `prob_emit.py` | `ModelPosTables`, `ModelPosEmit`, `DataPosseg`, `DataPossegNum`, `DataPossegEmit{B,E,M,S}` (generated) | all entries, decimals rounded to binary64 as significand and exponent by the generator |
| `analyse/tfidf.py`, `analyse/textrank.py`, `analyse/__init__.py` | `ModelAnalyse` | |
| `analyse/analyzer.py` `ChineseTokenizer` 16-31 | `ModelWhoosh` | |
| `_compat.py` `strdecode` 76-82, callers | `ModelArgs` | text or bytes arguments |
| `__main__.py` 28-59 | `ModelCLI` | arguments taken as parsed, input as decoded text, dictionary read without its cache |
| `lac_small/reader_small.py` 24-98, `utils.py` 33-74 (`parse_result`), `predict.py` 51-82 | `ModelLac` | the network is an oracle |
| `lac_small/reader_small.py` `vocab_size`, `num_labels`, `label_to_ids` 65-93 | `ModelVocab` | |
| `posseg/__init__.py` `makesure_userdict_loaded` 112-115 and `add_word` 430-431 in threads | `ModelTagRace` | small steps, dictionaries as objects |
| `posseg/__init__.py` `load_word_tag` 97-110 in threads | `ModelTagLoad` | small steps, dictionaries as objects |
| `analyse/textrank.py` `pairfilter`, `textrank` 65-95 and `tfidf.py` 23-29 in threads | `ModelRankRace` | small steps on `pos_filt` and `stop_words`; the words are given as tagged |
| `analyse/tfidf.py` 44-56, 68-73, 107 in threads | `ModelIdfRace` | small steps, dictionaries as objects |
| `__init__.py` 338-354, 476-507 while the dictionary changes | `ModelSearchTimed` | the inner generator is run again from its beginning at the recorded moments instead of being kept |
| `__init__.py` 338-354 while other threads change the tokenizer | `ModelSearchRace` | the loops of `ModelRace` with `emit` in place of `yield`; tokenize in threads is not modelled |
| `jieba/__init__.py` `get_FREQ`, `calc`, `user_word_tag_tab` of the module 518-538 | `ModelGlobals` | on `ModelWorld` and `ModelTagRace` |
| `_compat.py` `enable_paddle` 27-51, `posseg.cut`/`lcut` 273-310 with the switch | `ModelPaddle` | what an import finds is an input; dictionary fixed |

Not modelled: `setLogLevel`, `__repr__`, `resolve_filename` (only used in messages),
loading of the finalseg/posseg tables (`load_model`, Jython branches),
`get_top_states` (never called), `lac_small/nets.py`, `creator.py`, `utils.init_checkpoint`, `parse_padding_result` (never called),
`ChineseAnalyzer` (a pipeline of Whoosh filters), the argument parser, `test/`, Python 2 branches.

Simplifications: integers are unbounded as in Python, and `int()` of a text takes any number of digits (newer versions of Python refuse more than 4300); a file is read in one step; the yields of a generator are given as a list
(`ModelTimed` and `ModelPosTimed` have the moments of reads for `cut` and for the tagger); `bool(x)` of strings and dictionaries is spelled out; identity of objects is modelled
only where code depends on it (`ModelWhoosh`, `Force_Split_Words`, the tag tables of `ModelPosseg`).

## Plan and result per property

Every property of `properties.jsonl` can be expressed in the model. "refuted" in a name means that the claim, or the part of it named,
is false for the code, with a witness.

| id | property | plan | status | theorems |
|---|---|---|---|---|
| C01 | Accurate mode is lossless and total | `cut` modelled as a generator (list of yields, optional exception). Split lemma for the regex model, then block lemmas for both cutters, lifted to the text. | proved | `C01_accurate_lossless` (PropsCut.v), `C01_accurate_prefix` (PropsCut.v) |
| C02 | Accurate mode never yields an empty word | same induction as C01; full-mode refutation by computation. | proved | `C02_no_empty_word` (PropsCut.v), `C02_full_mode_refuted` (PropsCut.v) |
| C03 | Full mode loses no character | position-annotated re-run of `cut_all`; invariant on (old_j, eng buffer). | proved | `C03_full_mode_covers` (PropsFull.v), `C03_pieces_repeat_characters_refuted` (PropsFull.v) |
| C04 | Full mode reports every dictionary word | word-graph exactness (C06) + invariant of the loop; refutation by computation. | proved | `C04_full_mode_complete` (PropsFull.v), `C04_alnum_word_refuted` (PropsFull.v) |
| C05 | Full mode yields only dictionary words, characters and alphanumeric runs | as C03; refutation by computation. | proved | `C05_full_mode_sound` (PropsFull.v), `C05_full_mode_other` (PropsFull.v), `C05_not_a_substring_refuted` (PropsFull.v) |
| C06 | Word graph is exact | scan lemma under prefix closure (C17). | proved | `C06_word_graph_exact` (PropsCut.v), `C06_word_graph_members` (PropsCut.v) |
| C07 | HMM=False picks a most probable segmentation | dynamic programming optimality for an abstract ordered score type; instances: exact reals (ln) and Flocq binary64. | proved | `C07_C54_best_segmentation` (PropsCut.v), `C07_most_probable` (PropsCut.v), `C07_best_binary64` (PropsCut.v) |
| C08 | Ties are broken towards the longest word | same induction as C07 with the tuple order. | proved | `C08_longest_word_on_ties` (PropsCut.v) |
| C09 | HMM=False invents no word | invariant of the loop. | proved | `C09_only_known_words` (PropsCut.v) |
| C10 | Search mode refines the accurate mode | functional characterisation. | proved | `C10_search_mode` (PropsCut.v) |
| C11 | tokenize offsets tile the text | from C01. | proved | `C11_tokenize_tiles` (PropsCut.v) |
| C12 | tokenize in search mode points at the right text | from C01 and C10. | proved | `C12_tokenize_search_located` (PropsCut.v), `C12_every_place` (PropsTokens.v), `C12_what_is_reported` (PropsTokens.v) |
| C13 | HMM stage is lossless and follows the BMES grammar | grammar invariant on the Viterbi back-pointers; decoder lemma. | proved | `C13_hmm_stage` (PropsCut.v), `C13_hmm_cut_lossless` (PropsCut.v) |
| C14 | HMM stage is a correct Viterbi decoder | Viterbi optimality over the same abstract score type as C07. | proved | `C14_best_labels` (PropsHmm.v), `C14_best_labels_binary64` (PropsHmm.v), `C14_shipped` (PropsTables.v) |
| C15 | A deleted word is not produced any more | invariant over histories + shape of outputs. | proved | `C15_deleted_word_gone` (PropsDict.v), `C15_letters_refuted` (PropsDict.v), `C15_tagger_refuted` (PropsPosseg.v) |
| C16 | add_word changes exactly what it says | ordered-dictionary lemmas. | proved | `C16_add_word_frame` (PropsDict.v), `C16_is_prefix` (PropsDict.v), `C16_add_word_default` (PropsDict.v) |
| C17 | Dictionary stays prefix closed | induction over histories. | proved | `C17_always_prefix_closed` (PropsDict.v), `C06_C17_word_graph_reachable` (PropsDict.v) |
| C18 | Total never undercounts | induction over histories. | proved | `C18_total_never_undercounts` (PropsDict.v), `C18_total_grows` (PropsDict.v), `C18_total_binary64` (PropsDict.v), `C18_equality_refuted` (PropsDict.v) |
| C19 | add_word without a frequency makes the word come out | real-number argument on top of C07; for binary64 a forward error analysis of the scores and of the suggested frequency (Flocq), with an accurate `math.log` assumed. | proved | `C19_added_word_comes_out` (PropsSuggest.v), `C19_han_only` (PropsSuggest.v), `C19_letters_refuted` (PropsSuggest.v), `C19_binary64` (PropsSuggestB.v), `reachable_healthy` (PropsSuggest.v) |
| C20 | suggest_freq on segments splits the word | refutation in exact arithmetic + bounded positive theorem, also in binary64 with a margin. | proved | `C20_never_raises` (PropsSuggest.v), `C20_splits_under_bound` (PropsSuggest.v), `C20_splits_rare` (PropsSuggest.v), `C20_splitting_refuted` (PropsSuggest.v), `C20_binary64` (PropsSuggestB2.v) |
| C21 | Querying does not change the dictionary | state-machine frame. | proved | `C21_query_changes_nothing` (PropsWorld.v), `C21_query_only_initialises` (PropsWorld.v) |
| C22 | load_userdict is the sequence of its add_word calls | unfolding over the line list. | proved | `C22_every_line` (PropsDict.v), `C22_userdict_is_add_word` (PropsDict.v), `C22_userdict_refused` (PropsDict.v), `C22_last_line_wins` (PropsDict.v) |
| C23 | User dictionary line format | regex model; characterisation of the first success. | proved | `C23_parse_sound` (PropsDict.v), `C23_parse_total` (PropsDict.v), `C23_parts_unique` (PropsDict.v), `C23_documented_forms` (PropsDict.v) |
| C24 | Dictionary files are read faithfully | fold over lines. | proved | `C24_file_read_faithfully` (PropsDict.v), `C24_malformed_line` (PropsDict.v), `C24_utf8` (PropsDict.v), `C24_lines_of_a_file` (PropsFile.v), `C24_dictionary_file` (PropsFile.v) |
| C25 | Cache writing is crash safe | small-step file-system model with crash at every step. | proved | `C25_cache_old_or_complete` (PropsInit.v), `C25_initialize_after_crash` (PropsInit.v) |
| C26 | Cache is never older than a custom dictionary | file-system model with mtimes. | proved | `C26_loads_current_dictionary` (PropsInit.v), `C26_race_refuted` (PropsInit.v), `C26_initialize_in_one_step` (PropsWorld.v) |
| C27 | Default dictionary cache can be stale | same model, refutation. | proved | `C27_default_dictionary_never_reread` (PropsInit.v), `C27_default_freshness_refuted` (PropsInit.v) |
| C28 | Lazy initialisation is thread safe | interleaving semantics with per-thread program counters; invariant. | proved | `C28_threads_see_one_complete_dictionary` (PropsInit.v), `C28_no_deadlock` (PropsInit.v), `C28_every_schedule_ends` (PropsInit.v), `C28_all_threads_finish` (PropsInit.v) |
| C29 | A failed initialisation leaves the tokenizer unchanged | same model, error branch. | proved | `C29_failure_changes_nothing` (PropsInit.v), `C29_malformed_raises` (PropsInit.v), `C29_repaired_succeeds` (PropsInit.v) |
| C30 | Parallel mode gives the same words | splitlines vs. block splitting. | proved | `C30_parallel_same_words` (PropsParallel.v), `C30_parallel_raises` (PropsParallel.v), `C30_parallel_search` (PropsParallel.v), `C30_parallel_total` (PropsParallel.v) |
| C31 | Parallel full mode | as C30, modulo empty strings. | proved | `C31_full_up_to_empty` (PropsParallel.v), `C31_equality_refuted` (PropsParallel.v) |
| C32 | Parallel workers use the dictionary of enable_parallel time | state machine with forked snapshot. | proved | `C32_workers_keep_dictionary` (PropsParallel.v), `C32_enable_again` (PropsParallel.v), `C32_disabled` (PropsParallel.v), `C32_always_answers` (PropsParallel.v) |
| C33 | POS tagging is lossless | as C01 for posseg; Viterbi route validity from the table. | proved | `C33_tagging_lossless` (PropsPosseg.v), `C33_shipped_tables` (PropsPosseg.v), `C33_binary64` (PropsPosseg.v), `C33_after_any_history` (PropsPosseg.v) |
| C34 | POS tagging and plain cutting agree without HMM | loop equivalence. | proved | `C34_same_words` (PropsPosseg.v), `C34_refuted` (PropsPosseg.v) |
| C35 | POS tags come from the dictionaries | loop invariant over histories of tags. | proved | `C35_tags_without_hmm` (PropsPosseg.v), `C35_last_tag_wins` (PropsPosseg.v) |
| C36 | User tags are consumed by the first POS tokenizer | computation. | proved | `C36_tags_belong_to_the_next_cut` (PropsPosseg.v), `C36_second_tagger_refuted` (PropsPosseg.v), `C36_initialize_forgets` (PropsPosseg.v), `C36_initialize_refuted` (PropsPosseg.v) |
| C37 | POS HMM never fails with the shipped tables | table facts checked by the kernel on the transcribed tables, lifted to all inputs. | proved | `C37_viterbi_never_fails` (PropsPosseg.v), `C37_C60_binary64` (PropsPosseg.v) |
| C38 | TF-IDF returns the best keywords | stable sort lemmas. | proved | `C38_best_keywords` (PropsAnalyse.v), `C38_at_most_k` (PropsAnalyse.v), `C38_binary64` (PropsAnalyse.v), `C38_words_exist` (PropsAnalyse.v), `C38_shipped` (PropsAsShipped.v) |
| C39 | TF-IDF filters | fold lemma. | proved | `C39_candidates` (PropsAnalyse.v) |
| C40 | TF-IDF weights | fold lemma. | proved | `C40_weights` (PropsAnalyse.v), `C40_exact` (PropsAnalyse.v) |
| C41 | TextRank weights are normalised | real-number instance. | proved | `C41_weights` (PropsAnalyse.v), `C41_exact` (PropsAnalyse.v), `C41_binary64` (PropsAnalyse.v) |
| C42 | TextRank result order and size | as C38. | proved | `C42_best_keywords` (PropsAnalyse.v), `C42_binary64` (PropsAnalyse.v), `C42_shipped` (PropsAsShipped.v) |
| C43 | TextRank candidates | co-occurrence loop lemma. | proved | `C43_candidates` (PropsAnalyse.v) |
| C44 | UTF-8 bytes and text are interchangeable | UTF-8 codec round trip. | proved | `C44_every_text_encodes` (PropsArgs.v), `C44_bytes_like_text` (PropsArgs.v), `C44_histories` (PropsArgs.v) |
| C45 | Segmentation is local | regex split lemma. | proved | `C45_local_boundary` (PropsFull.v), `C45_separator` (PropsFull.v), `C45_full_mode_refuted` (PropsFull.v) |
| C46 | Tokenizers are independent without HMM | state machine over several tokenizers. | proved | `C46_independent` (PropsWorld.v), `C46_independent_uninitialised` (PropsWorld.v), `C46_independent_default_places` (PropsPlaces.v), `C46_with_hmm_refuted` (PropsWorld.v), `C46_shared_cache_file_refuted` (PropsInit.v), `C46_cache_file_names` (PropsFile.v) |
| C47 | set_dictionary on a missing file changes nothing | state machine. | proved | `C47_missing_file_changes_nothing` (PropsWorld.v), `C47_next_use_rebuilds` (PropsWorld.v), `C47_next_use_reads_cache` (PropsWorld.v), `C47_initialize_missing_refuted` (PropsWorld.v) |
| C48 | Paddle mode pairs words and tags | fold lemma. | proved | `C48_paddle_mode` (PropsLac.v), `C48_cut_and_tag` (PropsLac.v), `C48_shipped` (PropsLac.v), `C48_shipped_words` (PropsLac.v), `C48_lossless_inside_vocabulary` (PropsLac.v), `C48_lossless_refuted` (PropsLac.v), `C48_strips_refuted` (PropsLac.v) |
| C49 | Command line prints the segmentation of each line | fold over lines. | proved | `C49_lines` (PropsCli.v), `C49_prints_words` (PropsCli.v), `C49_empty_delimiter` (PropsCli.v), `C49_failing_line` (PropsCli.v), `C49_empty_pos` (PropsCli.v) |
| C50 | Whoosh tokenizer offsets | from C12. | proved | `C50_tokens` (PropsWhoosh.v), `C50_no_han_character_is_lost` (PropsWhoosh.v) |
| C51 | A half-consumed generator stays lossless under dictionary updates | model of the generator with an oracle dictionary at each read. | proved | `C51_lossless_under_updates` (PropsTimed.v), `C51_no_exception` (PropsTimed.v), `C51_no_updates` (PropsTimed.v) |
| C52 | Words are stable under re-segmentation | from C07/C08 in exact arithmetic; binary64 refutation by computation, with the used logarithms proved accurate by a fixed-point checker (`ProofsLn.v`). | proved | `C52_stable_words` (PropsSuggest.v), `C52_binary64_refuted` (PropsSuggestB2.v) |
| C53 | IDF table loading | fold + sort. | proved | `C53_idf_table` (PropsAnalyse.v), `C53_empty_file` (PropsAnalyse.v), `C53_malformed_file` (PropsAnalyse.v) |
| C54 | Alphanumeric runs are merged maximally without HMM | loop characterisation. | proved | `C07_C54_best_segmentation` (PropsCut.v) |
| C55 | posseg.lcut with use_paddle ignores HMM | computation. | proved | `C55_lcut_paddle_ignores_hmm` (PropsPosseg.v), `C55_refuted` (PropsPosseg.v) |
| C56 | Raising a frequency keeps a word whole | comparison of scores before and after, from C07/C08 in exact arithmetic; error analysis as C19 for binary64. | proved | `C56_raising_keeps_whole` (PropsSuggest.v), `C56_binary64` (PropsSuggestB2.v) |
| C57 | The HMM is asked only about groups of single characters that are not a word | the loop with HMM re-expressed over the route (`group_hmm`), compared with the best segmentation of C07. | proved | `C57_hmm_only_for_unknown_groups` (PropsMode.v) |
| C58 | The HMM stage on mixed text | split lemma for `re_han`, `re_skip` of finalseg; a relational description of tokens with a uniqueness theorem. | proved | `C58_hmm_stage_text` (PropsMode.v), `C58_pieces_unique` (PropsMode.v) |
| C59 | Tagging does not depend on the hash seed | the search over sets parameterised by an arbitrary choice of order at each set; the result shown equal for all of them (total order on the compared tuples). | proved | `C59_independent_of_set_order` (PropsPosseg.v), `C59_shipped_binary64` (PropsPosseg.v) |
| C60 | The tagger's Viterbi search is optimal | Viterbi optimality as C14, over the columns the code actually keeps. | proved | `C60_viterbi_optimal` (PropsPosseg.v), `C37_C60_binary64` (PropsPosseg.v) |
| C61 | Parallel tagging | as C30 for the tagger; workers have a snapshot taken at enable_parallel. | proved | `C61_parallel_same_tags` (PropsPosParallel.v), `C61_parallel_total` (PropsPosParallel.v), `C61_workers_keep_tags` (PropsPosParallel.v), `C61_later_tag_refuted` (PropsPosParallel.v), `C61_shipped` (PropsAsShipped.v) |
| C62 | Tags with HMM | as C57 for the tagger. | proved | `C62_tags_with_hmm` (PropsPosseg.v), `C62_shipped` (PropsAsShipped.v) |
| C63 | Dictionary files for the tagger | fold over lines of the two readers of the same file. | proved | `C63_tags_of_a_file` (PropsPosseg.v), `C63_untagged_line_refused` (PropsPosseg.v), `C63_empty_line` (PropsPosseg.v) |
| C64 | Tagging is local | as C45 for the tagger's regular expressions. | proved | `C64_tagging_is_local` (PropsPosseg.v) |
| C65 | A failed IDF load is remembered as done | state machine of IDFLoader over calls and files. | proved | `C65_failed_load_changes_nothing` (PropsAnalyse.v), `C65_second_call_reads_nothing` (PropsAnalyse.v) |
| C66 | Stop words from a file | fold over lines; `str.lower` is an oracle. | proved | `C66_stop_words` (PropsAnalyse.v), `C66_failure_changes_nothing` (PropsAnalyse.v), `C66_upper_case_entries_are_ignored` (PropsAnalyse.v) |
| C67 | An empty allowPOS means different things | unfolding both filters. | proved | `C67_textrank_without_tags` (PropsAnalyse.v), `C67_refuted` (PropsAnalyse.v) |
| C68 | Bytes where a function does not decode | text or bytes as a sum type; which calls decode. | proved | `C68_bytes_elsewhere` (PropsArgs.v), `C68_refuted` (PropsArgs.v), `C68_not_utf8` (PropsArgs.v) |
| C69 | Command line with tags | as C49 with the tagger. | proved | `C69_prints_tags` (PropsCli.v), `C69_cut_all_ignored` (PropsCli.v), `C69_shipped` (PropsAsShipped.v) |
| C70 | Command line dictionary does not reach the tags | two tokenizers in the model of the command; refutation by computation. | proved | `C70_tags_of_default_dictionary` (PropsCli.v), `C70_tag_of_given_dictionary_refuted` (PropsCli.v) |
| C71 | A blank text reaches the paddle network with nothing | the network as an oracle that may raise; unfolding. | proved | `C71_blank_text_reaches_network` (PropsLac.v), `C71_other_texts_do_not` (PropsLac.v) |
| C72 | The Whoosh tokens are one object | a heap with one token object. | proved | `C72_one_object` (PropsWhoosh.v), `C72_list_refuted` (PropsWhoosh.v), `C72_other_objects` (PropsWhoosh.v) |
| C73 | TextRank weights are the ten-round damped vote over the co-occurrence links | graph built by the code related to the links between places; error analysis of sums, quotients and ten sweeps in a relative-error predicate, instantiated with Flocq. | proved | `C73_defined` (PropsTextrank.v), `C73_exact` (PropsTextrank.v), `C73_binary64` (PropsTextrank.v), `C73_no_links` (PropsTextrank.v) |
| C74 | DICT_WRITING makes a newcomer wait for the writer, but does not exclude two builders | lock lemma over every step of the machine of C25-C29; refutation by a schedule. | proved | `C74_waits_for_the_writer` (PropsWriting.v), `C74_builder_is_registered` (PropsWriting.v), `C74_one_builder_refuted` (PropsWriting.v) |
| C75 | A run is segmented by the dictionary of its beginning | the model of C51; loops over a split rewritten as loops over maximal runs. | proved | `C75_dictionary_of_the_beginning_of_a_run` (PropsTimed2.v), `C75_with_hmm_refuted` (PropsTimed2.v) |
| C76 | del_word acts at once on a half-consumed generator | the model of C51; invariant on (moment, yielded word). | proved | `C76_forced_split_acts_at_once` (PropsTimed2.v) |
| C77 | Stop words only grow and never become keywords | invariant over call histories; keys of every dictionary built during extraction pass the filter. | proved | `C77_stop_words_after_any_calls` (PropsStop.v), `C77_no_keyword_is_a_stop_word` (PropsStop.v), `C77_bad_file` (PropsStop.v) |
| C78 | Parallel mode switched while generators exist | state machine with the two switched names and a list of generator objects; frame lemmas for objects not advanced; C30/C61 for what workers return. | proved | `C78_sequential_after_disable` (PropsNames.v), `C78_parallel_generator_after_disable` (PropsNames.v), `C78_last_workers` (PropsNames.v), `C78_started_generator_is_fixed` (PropsNames.v), `C78_used_up` (PropsNames.v), `C78_lcut_same_at_once` (PropsNames.v), `C78_lcut_same_refuted` (PropsNames.v), `C78_tagger_follows_the_last_switch` (PropsNames.v), `C78_use_paddle_argument` (PropsNames.v) |
| C79 | Only what occurs in the text can matter | two dictionaries agreeing on the substrings of the text carried through the DAG, the route and the loops; counterexample in exact arithmetic for the total. | proved | `C79_only_what_occurs` (PropsExt.v), `C79_full_mode_no_total` (PropsExt.v), `C79_tagger_only_what_occurs` (PropsExt.v), `C79_deleting_elsewhere` (PropsExt.v), `C79_adding_elsewhere` (PropsExt.v), `C79_adding_elsewhere_refuted` (PropsExt.v) |
| C80 | The order of the lines of a user dictionary | an equivalence of dictionary states preserved by every operation; additions of different words commute up to it, induction on the permutation. | proved | `C80_same_dictionary_same_behaviour` (PropsOrder.v), `C80_lines_in_any_order` (PropsOrder.v), `C80_order_without_frequencies_refuted` (PropsOrder.v) |
| C81 | Switching the paddle mode on | enable_paddle as a function of what each import finds; the switch over histories by induction; string comparison characterised by an independent lexicographic order. | proved | `C81_who_cuts` (PropsPaddle.v), `C81_once` (PropsPaddle.v), `C81_without_paddle` (PropsPaddle.v), `C81_version_test` (PropsPaddle.v), `C81_version_refuted` (PropsPaddle.v) |
| C82 | Adding a deleted word again | frame lemmas for two additions, C79 for full mode; counterexample in exact arithmetic. | proved | `C82_add_again` (PropsUndo.v), `C82_split_for_ever` (PropsUndo.v), `C82_undo_refuted` (PropsUndo.v) |
| C83 | Tagging while the dictionary changes | as C51 for the tagger: every read at its own moment; a predicate on (moment, pair) carried through the loops; the world between moments is a fold of calls. | proved | `C83_lossless_under_updates` (PropsPosTimed.v), `C83_no_exception` (PropsPosTimed.v), `C83_no_updates` (PropsPosTimed.v), `C83_tags_of_the_moment` (PropsPosTimed.v), `C83_new_tags_wait` (PropsPosTimed.v), `C83_added_tag_refuted` (PropsPosTimed.v), `C83_shipped` (PropsAsShipped.v) |
| C84 | Threads adding words | small-step threads; an invariant says for every key which calls have written it; the end state is read off the calls that were made. Refutations by explicit schedules. | proved | `C84_added_word` (PropsConc.v), `C84_other_words` (PropsConc.v), `C84_prefix_closed` (PropsConc.v), `C84_as_one_after_the_other` (PropsConc.v), `C84_total` (PropsConc.v), `C84_one_thread` (PropsConc.v), `C84_runs_end` (PropsConc.v), `C84_word_is_kept_refuted` (PropsConc.v), `C84_total_is_exact_refuted` (PropsConc.v) |
| C85 | Cutting while other threads change the tokenizer | as C51 with the moment advancing at every read; the reads are numbered; partial correctness for arbitrary reads, totality from key preservation. | proved | `C85_lossless` (PropsRace.v), `C85_no_exception` (PropsRace.v), `C85_words_were_there` (PropsRace.v), `C85_forced_split` (PropsRace.v), `C85_no_updates` (PropsRace.v), `C85_while_others_add` (PropsRace.v), `C85_no_exception_refuted` (PropsRace.v), `C85_some_moment_refuted` (PropsRace.v) |
| C86 | The objects that tagging yields | case analysis; insertion sort, and uniqueness of the stable sort by induction on two sorted lists. | proved | `C86_equality_and_hash` (PropsPair.v), `C86_order` (PropsPair.v), `C86_sorting` (PropsPair.v), `C86_text` (PropsPair.v), `C86_unpacking` (PropsPair.v), `C86_trichotomy_refuted` (PropsPair.v), `C86_text_refuted` (PropsPair.v) |
| C87 | Attributes of a POSTokenizer | case analysis on the lookup; induction on the recursion depth. | proved | `C87_attributes` (PropsPair.v), `C87_names_of_the_tokenizer` (PropsPair.v), `C87_without_a_tokenizer` (PropsPair.v) |
| C88 | The files of ids of the paddle mode | induction over the lines from any table; the lines before the first bad one are good. | proved | `C88_load` (PropsVocab.v), `C88_two_tables` (PropsVocab.v), `C88_first_bad_line` (PropsVocab.v), `C88_each_label` (PropsVocab.v), `C88_size` (PropsVocab.v), `C88_ids_in_range` (PropsVocab.v), `C88_label_ids_in_range` (PropsVocab.v), `C88_unknown_characters` (PropsVocab.v) |
| C89 | Tagging while other threads give tags | small-step threads over a heap of dictionaries; an invariant for one word that nobody touches (first dictionary, later ones, table, held references). Refutation by an explicit schedule. | proved | `C89_tags_given_before` (PropsTagRace.v), `C89_other_words` (PropsTagRace.v), `C89_nothing_invented` (PropsTagRace.v), `C89_one_thread` (PropsTagRace.v), `C89_tag_is_kept_refuted` (PropsTagRace.v) |
| C90 | The number of dictionary lookups of a cut | the read-counting cut of ModelRace; each scan, candidate loop, buffer and word adds a bounded number of reads; sums over the blocks. Refutation by a text of one repeated character. | proved | `C90_lookups` (PropsCost.v), `C90_linear_refuted` (PropsCost.v) |
| C91 | Adding a word again without a frequency | the suggestion for a whole word is max(int(f/T*T)+1, f); exact in R, relative rounding error 2^-53 twice in binary64; induction over the repetitions with C19. | proved | `C91_whole_word` (PropsAgain.v), `C91_each_time_one_more` (PropsAgain.v), `C91_binary64` (PropsAgain.v), `C91_always_more_refuted` (PropsAgain.v) |
| C92 | Loading the same user dictionary twice | each line either sets a value or keeps one that is there, so a fold over the lines is idempotent; exchange argument between the best segmentations for two totals. Refutation by three words. | proved | `C92_loading_again` (PropsTotal.v), `C92_larger_total_not_more_words` (PropsTotal.v), `C92_second_load_not_more_words` (PropsTotal.v), `C92_second_load_same_words_refuted` (PropsTotal.v) |
| C93 | Only relative frequencies matter | word graph equal, every score equal as a real number, so the same route with the same tie breaks. In binary64 for texts with a clear winner, through C102. Refutation with an unknown character. | proved | `C93_scaled` (PropsTotal.v), `C93_binary64` (PropsScaleB.v), `C93_full_mode` (PropsTotal.v), `C93_unknown_characters_refuted` (PropsTotal.v) |
| C94 | Deleting a word that is not used | the candidates after the deletion are the candidates before it without w; both choices are the best tail by tail with the longest first word among equals, so they agree word by word. For HMM, grouping and forced splits compared buffer by buffer. Two refutations show that the hypotheses are needed. | proved | `C94_unused_word` (PropsUnused.v), `C94_unused_word_hmm` (PropsUnused.v), `C94_no_shorter_word_refuted` (PropsUnused.v), `C94_hmm_single_characters_refuted` (PropsUnused.v) |
| C95 | Segmenting a segmented text again | from C52 (now for every word) and C45. Refutation with a small HMM. | proved | `C95_joined_words` (PropsJoin.v), `C95_words_back` (PropsJoin.v), `C95_hmm_refuted` (PropsJoin.v) |
| C96 | Keywords of repeated and reordered texts | words of joined texts by C45/C64; counts multiply or are permuted; rankings as specified in `SpecAnalyse.v` are unique. Refutation by computing one product. | proved | `C96_repeated_text` (PropsRepeat.v), `C96_parts_in_any_order` (PropsRepeat.v), `C96_repeated_binary64_refuted` (PropsRepeat.v) |
| C97 | One character unknown to the HMM takes the rest of the group apart | binary64 (Flocq): invariants of the Viterbi column before and after the first unknown character; a term of -3.14e100 swallows everything below 2^279 (round-to-nearest against the neighbours), so S is never beaten and ties go to S; words by decoding; whole cut through C57's grouping; exact arithmetic refuted on the shipped numbers. | proved | `C97_rest_in_single_characters` (PropsUnknown.v), `C97_cut` (PropsUnknown.v), `C97_exact_refuted` (PropsUnknown.v), `C97_shipped` (PropsTables.v), `C97_half_known` (PropsTables.v), `C97_half_known_refuted` (PropsTables.v) |
| C98 | Missing entries of the HMM tables decide | every table cell stands for a number of missing entries (the k-fold rounded sum of -3.14e100 swallows everything else and is strictly decreasing in k); induction over the columns with paths compared from the end; exact version from C14; refutations by computation. | proved | `C98_fewest_missing` (PropsMissing.v), `C98_only_entries_matter` (PropsMissing.v), `C98_fewest_missing_exact` (PropsMissing.v), `C98_exact_refuted` (PropsMissing.v), `C98_known_characters_refuted` (PropsMissing.v), `C98_shipped` (PropsTables.v) |
| C99 | Words found by the HMM have no bounded length | from C98 with the shipped tables: at most two entries are missing, so the labels are M..ME or BM..ME; the emission table is checked once by computation, the rest is for every length. | proved | `C99_no_longest_word` (PropsTables.v), `C99_no_longest_word_cut` (PropsTables.v) |
| C100 | The tagger minimises missing table entries | invariant of the columns of the search: each entry is the rounding of the exact sum of as many -3.14e100 as entries are missing; equal numbers of them compare equal behind an unknown character, so the tie-break on states decides. | proved | `C100_fewest_missing` (PropsPosTables.v), `C100_only_entries_matter` (PropsPosTables.v), `C100_shipped` (PropsPosTables.v) |
| C101 | Tags of characters the tagger does not know depend only on their number | from C100 with the shipped tables: the alternating tagging lacks only the emission entries and is the greatest from the end; six facts about the 256 states and their rows are checked once by computation, the rest is induction on the length. | proved | `C101_unknown_tags` (PropsPosTables.v), `C101_one_unknown` (PropsPosTables.v), `C101_every_tag_changes` (PropsPosTables.v), `C101_unknown_is_x_refuted` (PropsPosTables.v) |
| C102 | Rounding cannot make HMM=False pick a much less probable segmentation | error bound of the summed scores (rounding of every subtraction and addition, error of the logarithm) by induction on the segmentation, then C07 in binary64; exp of the bound gives the factor. | proved | `C102_near_best` (PropsRoundErr.v), `C102_clear_winner` (PropsRoundErr.v), `C102_same_as_exact` (PropsRoundErr.v), `C102_tokens_same_as_exact` (PropsTokens.v) |
| C103 | Rounding cannot make the HMM stage choose much worse labels | error bound of the sums along a path by induction on the text (32 u m^2 after m entries), C14 in binary64 for the comparison and C98 for the absence of missing entries; the bound 32 on the shipped entries is checked by computation. | proved | `C103_near_best` (PropsHmmErr.v), `C103_clear_labels` (PropsHmmErr.v), `C103_shipped_tables` (PropsHmmErr.v), `C103_shipped` (PropsHmmErr.v) |
| C104 | The default mode of cut in binary64 and in exact arithmetic | C102 and C103 composed by the grouping of C57 and the stage of C58; equality with exact arithmetic because the grouping is a function of the chosen words and of the stage. | proved | `C104_default_mode` (PropsDefault.v), `C104_same_as_exact` (PropsDefault.v), `C104_tokens_same_as_exact` (PropsTokens.v) |
| C105 | Keywords in binary64 and in exact arithmetic | two roundings per weight (`NumRound` instance of binary64), then the ranking lemma of C38; for TextRank the error bound of C73; refutation by computation with a text of seven words. | proved | `C105_weights` (PropsTfidfErr.v), `C105_clear_order` (PropsTfidfErr.v), `C105_same_idf` (PropsTfidfErr.v), `C105_exact_order_refuted` (PropsTfidfErr.v), `C105_textrank_clear_order` (PropsTfidfErr.v) |
| C106 | Rounding cannot make the tagger choose much worse states | one rounding per addition as for C103, over the taggings that the search compares (C60); the number of missing entries by C100; the exact tables are the binary64 entries read as real numbers with minus infinity. | proved | `C106_near_best` (PropsPosErr.v), `C106_clear_tagging` (PropsPosErr.v), `C106_shipped_tables` (PropsPosErr.v) |
| C107 | The tagger in binary64 and in exact arithmetic | C102 and C106 composed by the grouping of C62; equality with exact arithmetic because the loop over the words is a function of the chosen words and of the stage for each group. | proved | `C107_default_mode` (PropsPosDefault.v), `C107_same_as_exact` (PropsPosDefault.v) |
| C108 | Full mode, in order | Describe full mode position by position (SpecFullOrder: ends, clear_at, sole, others) and stretch by stretch (pieces, at_blanks). The loop of __cut_all is related to a position-by-position walk with the invariant that old_j tells which positions up to the next word are clear; the walk to the stretches by induction on the text. Refuted: characters inside words never come out alone. | proved | `C108_full_mode_exact` (PropsFullOrder.v), `C108_clear_decided` (PropsFullOrder.v), `C108_without_letters` (PropsFullOrder.v), `C108_single_outside_words_refuted` (PropsFullOrder.v) |
| C109 | How many words there can be | Accurate mode from C01/C02; search mode by counting the inner words of each word; full mode from C108 by counting ends; the quadratic family is a text of n equal characters with all its repetitions as words. | proved | `C109_accurate` (PropsCount.v), `C109_search` (PropsCount.v), `C109_full` (PropsCount.v), `C109_full_quadratic` (PropsCount.v), `C109_full_linear_refuted` (PropsCount.v) |
| C110 | No number of characters decides about the first word | A family of texts with exactly two candidate segmentations each (by inversion of `candidate`); their probabilities differ by a constant factor, so the choice follows from C07 in exact arithmetic and from C102 in binary64; no two single characters are adjacent, so the HMM is not asked. | proved | `C110_exact` (PropsAhead.v), `C110_binary64` (PropsAhead.v), `C110_every_word_changes` (PropsAhead.v), `C110_no_look_ahead` (PropsAhead.v) |
| C111 | What the three modes have to do with each other | C04, C09, C10 and losslessness put together; refutations by computation. | proved | `C111_dictionary_words` (PropsModes.v), `C111_without_hmm` (PropsModes.v), `C111_full_in_search_refuted` (PropsModes.v), `C111_hmm_words_refuted` (PropsModes.v), `C111_single_characters_refuted` (PropsModes.v) |
| C112 | Full mode with a larger dictionary | C04 and C05 put together; refutations by computation. | proved | `C112_words_stay` (PropsGrow.v), `C112_single_characters_refuted` (PropsGrow.v), `C112_only_the_new_word_refuted` (PropsGrow.v) |
| C113 | Words with other characters never come out | The generator goes over maximal runs of one class (C01 structure lemma); the words of a run are a partition of a prefix of it, so their characters are in the class; search mode only adds slices of words of three or more characters. | proved | `C113_accurate` (PropsMixed.v), `C113_search` (PropsMixed.v), `C113_full` (PropsMixed.v), `C113_tagger` (PropsMixed.v), `C113_tagger_binary64` (PropsMixed.v), `C113_added_in_vain` (PropsMixed.v), `C113_shipped` (PropsAsShipped.v) |
| C114 | The rest of the words is the segmentation of the rest of the text | calc goes from right to left, so the route of the rest is the rest of the route (shifted indices), for any number type; merging of letters and runs lifted; the beginning by C07/C08 optimality and tie-breaking; refutations by computation. | proved | `C114_rest` (PropsRest.v), `C114_tagger` (PropsRest.v), `C114_stretch` (PropsRest.v), `C114_beginning_refuted` (PropsRest.v), `C114_hmm_refuted` (PropsRest.v) |
| C115 | TextRank and the order of the words | the links of the reversed list are the reversed links, so every pair has as many links; weights depend on the numbers of links and on the sorted order of distinct words only; parts by a decomposition of the pairs; refutations by computation with rationals. | proved | `C115_backwards` (PropsBackwards.v), `C115_parts_in_any_order` (PropsBackwards.v), `C115_flags_refuted` (PropsBackwards.v), `C115_any_order_refuted` (PropsBackwards.v) |
| C116 | With HMM no word is taken apart | from C57 and C62: the words of the route, grouped; every part of a group found by the HMM stage is a concatenation of its characters; without letters and digits the merging loop changes nothing; refutation by computation. | proved | `C116_same_words_behind` (PropsHmmJoin.v), `C116_hmm_only_joins` (PropsHmmJoin.v), `C116_words_stay` (PropsHmmJoin.v), `C116_tagger` (PropsHmmJoin.v), `C116_digits_refuted` (PropsHmmJoin.v), `C116_shipped` (PropsAsShipped.v) |
| C117 | What a stop word or one more occurrence changes for the keywords | the ranking depends on occurrences times IDF only; filtering a ranking, and its order of first occurrences, gives the ranking of the part; position argument for the more frequent word (PropsKeyFloat: in binary64 one more occurrence outweighs two roundings of relative size 2^-53 as long as there are at most 2^48 occurrences); refutation computed with rationals. | proved | `C117_stop_words` (PropsKeyOrder.v), `C117_more_often` (PropsKeyOrder.v), `C117_others_stay` (PropsKeyOrder.v), `C117_textrank_refuted` (PropsKeyOrder.v), `C117_stop_words_binary64` (PropsKeyFloat.v), `C117_more_often_binary64` (PropsKeyFloat.v), `C117_others_stay_binary64` (PropsKeyFloat.v) |
| C118 | Raising a frequency in a longer text | compare the two choices by integers (product of frequencies times a power of the total); the candidates are the same in both dictionaries; the exception by listing the two candidates and an inequality in the new frequency. | proved | `C118_raising` (PropsRaise.v), `C118_lowering` (PropsRaise.v), `C118_no_frequency_brings_it_back` (PropsRaise.v) |
| C119 | The tagger with the tables it ships | the 89290 emission numbers are transcribed; a check over all of them (by computation) gives their range; then the conditions on tables of C33, C59, C60, C100 and C106 hold and are discharged. | proved | `C119_emission_numbers` (PropsTagger.v), `C119_tables` (PropsTagger.v), `C119_words` (PropsTagger.v), `C119_after_any_history` (PropsTagger.v), `C119_best_tagging` (PropsTagger.v) |
| C120 | char_state_tab and prob_emit of the tagger agree, with exceptions | a map from characters to the states that have a number for them is built from the emission table, proved to be what look-ups find, and compared with char_state_tab by computation; the missing number by C100 and an exchange of the last state. | proved | `C120_listed_states_have_numbers` (PropsTagger.v), `C120_tables_agree` (PropsTagger.v), `C120_no_exception_refuted` (PropsTagger.v), `C120_listed_refuted` (PropsTagger.v), `C120_unknown_tags` (PropsTagger.v), `C120_adjective_at_the_end` (PropsTagger.v) |
| C121 | Texts of common characters are tagged without gaps in the tables | twenty-eight S states can follow each other and may begin a text (by computation), so single characters are a complete tagging; C106 and C107 then give a tagging without missing entries, which is translated into what the tables have seen. | proved | `C121_complete_tagging` (PropsCommon.v), `C121_run` (PropsCommon.v), `C121_texts` (PropsCommon.v), `C121_known_refuted` (PropsCommon.v) |
| C122 | TextRank's ten rounds against the weights they approach | The links are symmetric, so in the norm max |error|/links a round contracts by 0.85 (one word after the other keeps the bound). Existence: the all-at-once iteration from 0 grows and is bounded by the links. Order: add the two errors; binary64 via C73. Refutation by interval bounds for ten rounds on three words. | proved | `C122_stationary` (PropsStationary.v), `C122_rounds` (PropsStationary.v), `C122_ten_rounds` (PropsStationary.v), `C122_order` (PropsStationary.v), `C122_order_binary64` (PropsStationary.v), `C122_order_refuted` (PropsStationary.v) |
| C123 | get_FREQ, calc and user_word_tag_tab of the module | Invariant (FREQ empty, total 0) over histories that do not load; composition with C24 for the file; the alias is object 0 of ModelTagRace, and calls of one thread are folded over the objects. | proved | `C123_before_loading` (PropsGlobals.v), `C123_loaded` (PropsGlobals.v), `C123_file` (PropsGlobals.v), `C123_set_dictionary` (PropsGlobals.v), `C123_next_cut_refuted` (PropsGlobals.v), `C123_tags_before_tagging` (PropsGlobals.v), `C123_tags_after_tagging` (PropsGlobals.v) |
| C124 | Reloading one tagger from several threads | small steps of load_word_tag on dictionary objects; invariant: for every word, the table that counts has what some file alone gives it, or a running load is still going to write it. | proved | `C124_word_by_word` (PropsTagLoad.v), `C124_same_file` (PropsTagLoad.v), `C124_looked_up_meanwhile` (PropsTagLoad.v), `C124_one_thread` (PropsTagLoad.v), `C124_one_of_the_files_refuted` (PropsTagLoad.v), `C124_kept_tag_refuted` (PropsTagLoad.v) |
| C125 | Ranking with one TextRank object from several threads | small steps of textrank and set_stop_words on the two shared attributes; invariant: the counts are those of a choice among the pairs near each other, which takes no pair that nobody can take and leaves out none that everybody takes; then the graph lemmas of C73. | proved | `C125_whatever_the_others_do` (PropsRankRace.v), `C125_same_tags` (PropsRankRace.v), `C125_goes_on` (PropsRankRace.v), `C125_one_thread` (PropsRankRace.v), `C125_own_tags_refuted` (PropsRankRace.v) |
| C126 | Changing the IDF file of one extractor from several threads | small steps of set_idf_path, set_new_path, get_idf and the lookup on dictionary objects; invariant: the thread that changes the file is at a point of set_idf_path of the sequential model, and a dictionary another thread holds is a complete table that nobody writes to any more; for several such threads an invariant on where the numbers come from. | proved | `C126_one_changes_it` (PropsIdfRace.v), `C126_where_from` (PropsIdfRace.v), `C126_before_or_after_refuted` (PropsIdfRace.v), `C126_file_set_refuted` (PropsIdfRace.v), `C126_no_exception_refuted` (PropsIdfRace.v) |
| C127 | cut_for_search and tokenize consumed while the dictionary changes | cut around which the outer generators run is causal: what it has given out depends only on the moments until then (by its structure); so running it again at the recorded moments reproduces it, and the theorems of C51 hold for the words; induction over the words for the parts and the offsets. | proved | `C127_search` (PropsSearchTimed.v), `C127_tokenize_search` (PropsSearchTimed.v), `C127_same_words` (PropsSearchTimed.v), `C127_tokens_in_place` (PropsSearchTimed.v), `C127_tokenize_default` (PropsSearchTimed.v), `C127_no_exception` (PropsSearchTimed.v), `C127_no_updates` (PropsSearchTimed.v), `C127_given_out_stays` (PropsSearchTimed.v) |
| C128 | cut_for_search in one thread while other threads change the tokenizer | the generator of ModelRace is repeated with what the consumer does in place of yield; by its structure it does at those of its reads that are its own what the one of ModelRace does, so the theorems of C85 hold for the words; induction over the parts of a word for the rest. | proved | `C128_stamped_is_cut` (PropsSearchRace.v), `C128_search` (PropsSearchRace.v), `C128_lossless` (PropsSearchRace.v), `C128_no_exception` (PropsSearchRace.v), `C128_no_updates` (PropsSearchRace.v), `C128_some_moment_refuted` (PropsSearchRace.v) |

## Tests of the theorems

`seeded/LOG.jsonl` records edits of the model that imitate realistic bugs, made in a scratch copy, and the theorems that fail to prove
after each; where a claim broken by an edit was still provable the theorem was tightened.
