{
 "claims": [
  {
   "property": "C01",
   "status": "proved",
   "theorems": [
    "C01_trie_membership"
   ],
   "note": ""
  },
  {
   "property": "C02",
   "status": "proved",
   "theorems": [
    "C02_wordstore_bijection",
    "C02_wordstore_ids_stable"
   ],
   "note": ""
  },
  {
   "property": "C03",
   "status": "proved",
   "theorems": [
    "C03_unknown_ids"
   ],
   "note": ""
  },
  {
   "property": "C04",
   "status": "proved",
   "theorems": [
    "C04_numWords",
    "C04_numNodes"
   ],
   "note": ""
  },
  {
   "property": "C05",
   "status": "partial",
   "theorems": [
    "C05_offset_spells_word",
    "C05_joined_word_refuted"
   ],
   "note": "getWord gives the word back for every word a constructor accepts; false for words made by join, which is not re-validated (refuted theorem)."
  },
  {
   "property": "C06",
   "status": "proved",
   "theorems": [
    "C06_offsets_never_wrap",
    "C06_capacity",
    "C06_wordstore_outcomes"
   ],
   "note": ""
  },
  {
   "property": "C07",
   "status": "proved",
   "theorems": [
    "C07_empty_word_refused",
    "C07_levindex_ignores_empty"
   ],
   "note": ""
  },
  {
   "property": "C08",
   "status": "partial",
   "theorems": [
    "C08_lookup_safe_partial",
    "C08_nul_lookup_refuted"
   ],
   "note": "Holds for all words without a NUL letter; false for constructible words with one (refuted theorem)."
  },
  {
   "property": "C09",
   "status": "proved",
   "theorems": [
    "C09_counts"
   ],
   "note": ""
  },
  {
   "property": "C10",
   "status": "proved",
   "theorems": [
    "C10_sound"
   ],
   "note": ""
  },
  {
   "property": "C100",
   "status": "partial",
   "theorems": [
    "C100_round_trip",
    "C100_strings",
    "C100_length_partial",
    "C100_length_refuted"
   ],
   "note": "The strings are proved; len() counts UTF-16 units, so the part about the number of characters is false above U+FFFF (refuted theorem) and proved below."
  },
  {
   "property": "C101",
   "status": "proved",
   "theorems": [
    "C101_as_cpp",
    "C101_search",
    "C101_results"
   ],
   "note": ""
  },
  {
   "property": "C102",
   "status": "partial",
   "theorems": [
    "C102_files",
    "C102_closed",
    "C102_one_each",
    "C102_apart",
    "C102_size",
    "C102_never_back",
    "C102_lost",
    "C102_least",
    "C102_same",
    "C102_given_back_refuted",
    "C102_failed_new_refuted"
   ],
   "note": "One file and one mapping per trie, their size and the closing of files are proved. That mappings are given back is false of the code: ~Trie never unmaps, so every trie made leaves at least 1024 bytes mapped for good (C102_never_back, C102_lost, refuted theorem). A constructor that fails leaves its file open (refuted theorem)."
  },
  {
   "property": "C103",
   "status": "proved",
   "theorems": [
    "C103_prints",
    "C103_number"
   ],
   "note": ""
  },
  {
   "property": "C104",
   "status": "partial",
   "theorems": [
    "C104_bad_line_partial",
    "C104_no_line_feed",
    "C104_nul_line",
    "C104_reported_refuted"
   ],
   "note": "False of the code (refuted theorem): only lines with white space are reported with status 1. Proved is what happens instead: an empty line or invalid UTF-8 ends with status 105, a missing last line feed is a failed assertion or, in release builds, loses the last byte, a line starting with NUL is undefined behaviour."
  },
  {
   "property": "C105",
   "status": "partial",
   "theorems": [
    "C105_arguments",
    "C105_safe_partial",
    "C105_short_lines",
    "C105_ascii",
    "C105_safe_refuted"
   ],
   "note": "The arguments are proved. Any file without NUL and without lines that have 1024 bytes or more in lower case is survived, except for the assertion about the line feed at the end of what was read; without those limits it is false of the code (refuted theorem: lower case can make a word fill the buffer exactly; C104_nul_line)."
  },
  {
   "property": "C106",
   "status": "proved",
   "theorems": [
    "C106_index",
    "C106_match",
    "C106_runs",
    "C106_index_blame",
    "C106_match_blame"
   ],
   "note": ""
  },
  {
   "property": "C107",
   "status": "proved",
   "theorems": [
    "C107_rows",
    "C107_arguments",
    "C107_missing"
   ],
   "note": ""
  },
  {
   "property": "C108",
   "status": "partial",
   "theorems": [
    "C108_safe_partial",
    "C108_sctest",
    "C108_short_line_refuted"
   ],
   "note": "False of the code (refuted theorem): a line of one byte reads before the start of a string. Proved for files below a million bytes without such a line; sctest is proved for every directory below three million bytes."
  },
  {
   "property": "C109",
   "status": "partial",
   "theorems": [
    "C109_dos_partial",
    "C109_dos_refuted",
    "C109_blank_line_refuted"
   ],
   "note": "False of the code (refuted theorems): the carriage return stays in the rows, because the byte before it is tested, and an empty line is undefined behaviour. Proved is that the same lines are found."
  },
  {
   "property": "C11",
   "status": "proved",
   "theorems": [
    "C11_complete",
    "C11_defaults_qualify"
   ],
   "note": ""
  },
  {
   "property": "C110",
   "status": "proved",
   "theorems": [
    "C110_rows"
   ],
   "note": ""
  },
  {
   "property": "C111",
   "status": "proved",
   "theorems": [
    "C111_rows",
    "C111_keys",
    "C111_buttons",
    "C111_digits"
   ],
   "note": ""
  },
  {
   "property": "C112",
   "status": "partial",
   "theorems": [
    "C112_command_partial",
    "C112_pattern",
    "C112_command_refuted",
    "C112_any_command"
   ],
   "note": "False of the code (refuted theorem): a quote in the text ends the pattern, and nearly any command can be run (C112_any_command). Proved for texts and file names without quotes, and for the pattern of digits."
  },
  {
   "property": "C113",
   "status": "proved",
   "theorems": [
    "C113_rows"
   ],
   "note": ""
  },
  {
   "property": "C114",
   "status": "partial",
   "theorems": [
    "C114_first_bad",
    "C114_isolated_refuted"
   ],
   "note": "False of the code (refuted theorem). Proved is what happens: the first bad file ends the program with status 1 or 99."
  },
  {
   "property": "C115",
   "status": "partial",
   "theorems": [
    "C115_rows",
    "C115_not_a_word",
    "C115_nothing",
    "C115_safe_partial",
    "C115_long_line_refuted"
   ],
   "note": "The rows are proved. That it does not crash is false of the code (refuted theorem: a word that fills the buffer exactly); it is proved for files without NUL and without lines that have 1024 bytes or more in lower case, except for the assertion about the line feed at the end of what was read."
  },
  {
   "property": "C116",
   "status": "proved",
   "theorems": [
    "C116_walk"
   ],
   "note": ""
  },
  {
   "property": "C117",
   "status": "proved",
   "theorems": [
    "C117_at_most",
    "C117_positive"
   ],
   "note": ""
  },
  {
   "property": "C118",
   "status": "proved",
   "theorems": [
    "C118_same_words",
    "C118_again",
    "C118_same_relevancy_refuted"
   ],
   "note": "C118_same_relevancy_refuted shows that the relevancies do change when a document is indexed again, because its words become more frequent."
  },
  {
   "property": "C119",
   "status": "partial",
   "theorems": [
    "C119_safe_partial",
    "C119_word_assignment_refuted",
    "C119_list_assignment_refuted",
    "C119_addText_refuted",
    "C119_text_assignment_partial",
    "C119_text_assignment_refuted"
   ],
   "note": "False of the code for assignments that run out of memory (refuted theorems): the copy assignment of a Word always frees its text twice then. Proved for every program in which nothing that overwrites a value (an assignment, or addText for a field already there) threw."
  },
  {
   "property": "C12",
   "status": "partial",
   "theorems": [
    "C12_exact",
    "C12_complete_any_prices_refuted",
    "C11_complete"
   ],
   "note": "False of the code (refuted theorem). C12_exact says for all prices which words are reported: those within the limit all of whose beginnings are within it too; C11 gives price settings for which that is every word within the limit."
  },
  {
   "property": "C120",
   "status": "partial",
   "theorems": [
    "C120_effects_partial",
    "C120_enough",
    "C120_abort_refuted",
    "C120_silent_refuted",
    "C120_addText_refuted"
   ],
   "note": "False of the code (refuted theorems): a failed strdup aborts, or without assertions gives an empty Word; a failed addText can leave an empty field. Proved with assertions, for every program in which no assignment threw."
  },
  {
   "property": "C121",
   "status": "partial",
   "theorems": [
    "C121_freed_partial",
    "C121_not_too_much",
    "C121_list_copy_refuted",
    "C121_leaks_refuted",
    "C121_addText_refuted"
   ],
   "note": "False of the code (refuted theorems): conversions, asUtf8, splitToWords and the copy constructors of WordList and Document lose memory. Proved, with exactly how much each call that throws may lose, for programs in which nothing that overwrites a value threw."
  },
  {
   "property": "C122",
   "status": "partial",
   "theorems": [
    "C122_files",
    "C122_closed",
    "C122_delete",
    "C122_never_back",
    "C122_same",
    "C122_safe",
    "C122_given_back_refuted",
    "C122_failed_new_refuted"
   ],
   "note": "Files, destruction and independence are proved. False of the code: no mapping is ever given back (C122_never_back, refuted theorem), and a constructor that is refused leaves its file open (refuted theorem; at most one file for each refusal, C122_closed)."
  },
  {
   "property": "C123",
   "status": "partial",
   "theorems": [
    "C123_safe_partial",
    "C123_recovers_partial",
    "C123_enough",
    "C123_told",
    "C123_counts_refuted",
    "C123_words_refuted"
   ],
   "note": "Proved unless memory runs out at one of two places: when wordIndex.push_back of WordStore::getID fails, and when wordCounts[wordID] of LevenshteinIndex::insertWord fails, the trie has the word already. The first makes later searches throw out_of_range, the second makes them undefined (refuted theorems)."
  },
  {
   "property": "C124",
   "status": "partial",
   "theorems": [
    "C124_found_partial",
    "C124_retry_partial",
    "C124_relevancy_partial",
    "C124_online_partial",
    "C124_online_retry_partial",
    "C124_online_relevancy_partial",
    "C124_clash_refuted",
    "C124_counted_refuted"
   ],
   "note": "Proved unless memory runs out at one of the two places of C123: after the first of them two words get the same number and documents are found by words they do not have (refuted theorem). Relevancies after a repeated call differ from those of a Matcher that never ran out, since words are counted again (refuted theorem)."
  },
  {
   "property": "C125",
   "status": "partial",
   "theorems": [
    "C125_first_partial",
    "C125_first_refuted"
   ],
   "note": "Proved against documents whose words close to the query, counted with the weights of their fields, stay below a hundred, for queries without repeated words. False of the code beyond that: the bonus is always a hundred, so a heavy field outweighs it (refuted theorem)."
  },
  {
   "property": "C126",
   "status": "partial",
   "theorems": [
    "C126_enough",
    "C126_prices_exist",
    "C126_ends",
    "C126_setError",
    "C126_no_groups_partial",
    "C126_group_partial",
    "C126_group_refuted",
    "C126_repeat_refuted",
    "C126_repeat_group_refuted",
    "C126_message_refuted",
    "C126_clear",
    "C126_new"
   ],
   "note": "Proved for setError, the keyboard, the number pad, the setters, clearErrors and the constructor. False of the code for groups (setGroupError, addAccents): letters already put in the group make the repeated call throw until clearErrors, prices from letter 512 up may have changed, and the text of the debug message may run out of memory after everything is done (refuted theorems)."
  },
  {
   "property": "C127",
   "status": "proved",
   "theorems": [
    "C127_effects",
    "C127_next",
    "C127_thrown",
    "C127_range",
    "C127_safe"
   ],
   "note": "MatchResults, ResultFilter and SearchParameters with every allocation that may fail; moves are left out."
  },
  {
   "property": "C128",
   "status": "partial",
   "theorems": [
    "C128_freed_partial",
    "C128_not_too_much",
    "C128_copy_refuted",
    "C128_filter_refuted",
    "C128_params_refuted"
   ],
   "note": "Proved but for three constructors that free nothing when a later step throws, each of which loses one allocation: the copy of MatchResults, ResultFilter and SearchParameters (refuted theorems)."
  },
  {
   "property": "C129",
   "status": "partial",
   "theorems": [
    "C129_fallback",
    "C129_safe_partial",
    "C129_effects_partial",
    "C129_enough",
    "C129_copy_refuted",
    "C129_add_text_refuted"
   ],
   "note": "Proved for the functions on words, documents, corpora and results, in builds with assertions, as long as no col_document_add_text to a field that the document has runs out of memory; a new field may stay behind without words. False of the code in three ways: a failed strdup ends the program or, without assertions, makes an empty Word that passes for a good one; after a failed col_document_add_text to a field already there the document cannot be deleted (refuted theorems). col_matcher_new and what needs a matcher are left out (C122-C124 have the Matcher)."
  },
  {
   "property": "C13",
   "status": "proved",
   "theorems": [
    "C13_unique_sorted",
    "C13_access"
   ],
   "note": ""
  },
  {
   "property": "C130",
   "status": "partial",
   "theorems": [
    "C130_freed_partial",
    "C130_leak_refuted"
   ],
   "note": "Proved that no more than one allocation per failed col_word_new and two per failed col_document_add_text or col_corpus_add_document are lost and nothing else; that nothing is lost is false of the code (refuted theorem). Same restrictions as C129."
  },
  {
   "property": "C131",
   "status": "partial",
   "theorems": [
    "C131_as_cpp",
    "C131_search_partial",
    "C131_safe_partial",
    "C131_fallback",
    "C131_effects",
    "C131_told",
    "C131_enough",
    "C131_crash_refuted",
    "C131_silent_refuted"
   ],
   "note": "Proved unless memory runs out at one of the two places of C123; there a later col_matcher_match is undefined (refuted theorem). False of the code that a program can tell: col_matcher_index returns nothing and swallows the exception (refuted theorem)."
  },
  {
   "property": "C132",
   "status": "partial",
   "theorems": [
    "C132_ends",
    "C132_again",
    "C132_names_partial",
    "C132_known",
    "C132_enough",
    "C132_told",
    "C132_clash_refuted",
    "C132_unknown_refuted"
   ],
   "note": "Proved but for words for which a call ran out of memory: the trie has them already, so a repeated getID gives a number that getWord does not know or that another word gets too (refuted theorems)."
  },
  {
   "property": "C133",
   "status": "partial",
   "theorems": [
    "C133_ends",
    "C133_counts",
    "C133_words",
    "C133_search_partial",
    "C133_retry",
    "C133_enough",
    "C133_told",
    "C133_nothing_refuted",
    "C133_deep_refuted"
   ],
   "note": "Proved but for indexes where the longest words are all words whose insertion ran out of memory; there a search is undefined (refuted theorem). False of the code that a failed insertion has no effect: the trie has the word, the counts do not (refuted theorem)."
  },
  {
   "property": "C134",
   "status": "partial",
   "theorems": [
    "C134_ends",
    "C134_enough",
    "C134_freed_partial",
    "C134_leak_refuted"
   ],
   "note": "Proved but for the last sentence where memory runs out while the matrix of the search is built: the constructor of ErrorMatrix has no destructor to free the rows it has, so they are lost, fewer than the longest word has letters plus three (refuted theorem)."
  },
  {
   "property": "C135",
   "status": "proved",
   "theorems": [
    "C135_weights",
    "C135_counts",
    "C135_held",
    "C135_freed",
    "C135_enough"
   ],
   "note": "An element of the hash map of MatcherStatistics is one allocation; its table is not counted."
  },
  {
   "property": "C136",
   "status": "partial",
   "theorems": [
    "C136_ends_partial",
    "C136_usable_partial",
    "C136_programs_partial",
    "C136_enough",
    "C136_kept_refuted",
    "C136_leak_refuted"
   ],
   "note": "Proved that the assignment returns with two equal Documents, or throws and leaves one that can be used and destroyed. False of the code that this one is as it was: it has the new identifier and has lost its texts; and that no memory is lost: the copy constructor of WordList can lose one block (refuted theorems)."
  },
  {
   "property": "C137",
   "status": "proved",
   "theorems": [
    "C137_ends",
    "C137_usable"
   ],
   "note": "That the Document is as before is how the model is written: getFieldNames is const and gives back no Document."
  },
  {
   "property": "C14",
   "status": "proved",
   "theorems": [
    "C14_exact_spelling"
   ],
   "note": ""
  },
  {
   "property": "C15",
   "status": "proved",
   "theorems": [
    "C15_limit_monotone"
   ],
   "note": ""
  },
  {
   "property": "C16",
   "status": "proved",
   "theorems": [
    "C16_search_safe",
    "C16_bounded_arguments_fit"
   ],
   "note": ""
  },
  {
   "property": "C17",
   "status": "partial",
   "theorems": [
    "C17_nul_query_refuted",
    "C16_search_safe"
   ],
   "note": "False of the code (refuted theorem); proved for every query without NUL letters."
  },
  {
   "property": "C18",
   "status": "partial",
   "theorems": [
    "C18_independent_prices_refuted",
    "C16_search_safe"
   ],
   "note": "False of the code (refuted theorem); C16_search_safe shows the assertion fails for every pair of different prices."
  },
  {
   "property": "C19",
   "status": "proved",
   "theorems": [
    "C19_matrix_set",
    "C19_total_min"
   ],
   "note": ""
  },
  {
   "property": "C20",
   "status": "proved",
   "theorems": [
    "C20_symmetric"
   ],
   "note": ""
  },
  {
   "property": "C21",
   "status": "proved",
   "theorems": [
    "C21_setError_exact"
   ],
   "note": ""
  },
  {
   "property": "C22",
   "status": "partial",
   "theorems": [
    "C22_last_call_decides_refuted",
    "C22_last_call_decides_small",
    "C22_rule_decides_large"
   ],
   "note": "False of the code (refuted theorem); what decides is proved for letters below and from 512."
  },
  {
   "property": "C23",
   "status": "proved",
   "theorems": [
    "C23_table_unobservable"
   ],
   "note": ""
  },
  {
   "property": "C24",
   "status": "proved",
   "theorems": [
    "C24_self_costs_nothing",
    "C24_self_explicit_small",
    "C24_self_large"
   ],
   "note": ""
  },
  {
   "property": "C25",
   "status": "proved",
   "theorems": [
    "C25_clear_forgets",
    "C25_as_new_ever_after"
   ],
   "note": ""
  },
  {
   "property": "C26",
   "status": "proved",
   "theorems": [
    "C26_group_refused",
    "C26_grouped_stays",
    "C26_group_prices",
    "C26_group_others"
   ],
   "note": ""
  },
  {
   "property": "C27",
   "status": "proved",
   "theorems": [
    "C27_first",
    "C27_any",
    "C27_effect",
    "C27_others_kept",
    "C27_second"
   ],
   "note": "The bytes of the shipped files are part of the model."
  },
  {
   "property": "C28",
   "status": "partial",
   "theorems": [
    "C28_keyboard_partial",
    "C28_bottom_row_refuted",
    "C28_keyboard_is_setErrors"
   ],
   "note": "False for the bottom row (refuted theorem), proved for all other keys."
  },
  {
   "property": "C29",
   "status": "partial",
   "theorems": [
    "C29_numberpad_partial",
    "C29_touching_key_refuted",
    "C29_numberpad_is_setErrors"
   ],
   "note": "False for some touching keys (refuted theorem), the exact price of every digit/letter pair is proved."
  },
  {
   "property": "C30",
   "status": "proved",
   "theorems": [
    "C30_no_whitespace",
    "C30_whitespace_refused"
   ],
   "note": ""
  },
  {
   "property": "C31",
   "status": "partial",
   "theorems": [
    "C31_well_formed_refuted",
    "C31_well_formed_partial",
    "C31_letters"
   ],
   "note": "False of the code for words made from letter buffers (refuted theorem); proved for words made from text and joins, and up to one trailing high surrogate for buffers; C31_letters says exactly which letters are taken, refused or abort."
  },
  {
   "property": "C32",
   "status": "proved",
   "theorems": [
    "C32_round_trip"
   ],
   "note": "asUtf8 half for words shorter than 2^30 - 1 letters, see C75."
  },
  {
   "property": "C33",
   "status": "proved",
   "theorems": [
    "C33_conversions_fit"
   ],
   "note": "asUtf8 half for words shorter than 2^30 - 1 letters, see C75."
  },
  {
   "property": "C34",
   "status": "partial",
   "theorems": [
    "C34_buffer_respected_refuted",
    "C34_toUtf8_exact",
    "C34_broken_throws"
   ],
   "note": "False of the code (refuted theorem); the exact condition of the overrun is proved."
  },
  {
   "property": "C35",
   "status": "proved",
   "theorems": [
    "C35_order",
    "C35_dictionary"
   ],
   "note": ""
  },
  {
   "property": "C36",
   "status": "proved",
   "theorems": [
    "C36_join",
    "C36_letters",
    "C36_object"
   ],
   "note": ""
  },
  {
   "property": "C37",
   "status": "partial",
   "theorems": [
    "C37_failed_assignment_refuted",
    "C37_assignment_exact"
   ],
   "note": "False of the code (refuted theorem); the state after every assignment is proved."
  },
  {
   "property": "C38",
   "status": "proved",
   "theorems": [
    "C38_case"
   ],
   "note": ""
  },
  {
   "property": "C39",
   "status": "proved",
   "theorems": [
    "C39_split"
   ],
   "note": ""
  },
  {
   "property": "C40",
   "status": "proved",
   "theorems": [
    "C40_hash_collisions"
   ],
   "note": ""
  },
  {
   "property": "C41",
   "status": "proved",
   "theorems": [
    "C41_document_is_a_map",
    "C41_text_is_split"
   ],
   "note": ""
  },
  {
   "property": "C42",
   "status": "proved",
   "theorems": [
    "C42_wordlist",
    "C42_corpus",
    "C42_wordlist_equality"
   ],
   "note": ""
  },
  {
   "property": "C43",
   "status": "proved",
   "theorems": [
    "C43_last_weight"
   ],
   "note": ""
  },
  {
   "property": "C44",
   "status": "proved",
   "theorems": [
    "C44_filter_terms"
   ],
   "note": ""
  },
  {
   "property": "C45",
   "status": "proved",
   "theorems": [
    "C45_best_first"
   ],
   "note": ""
  },
  {
   "property": "C46",
   "status": "partial",
   "theorems": [
    "C46_finds",
    "C46_default",
    "C46_sound",
    "C46_exact",
    "C46_cheap_swaps_refuted"
   ],
   "note": "Proved for all prices with swaps that are not cheap, which include the defaults and everything built into the library; false of the code for cheap swaps (refuted theorem). C46_exact says for all prices that are not negative which documents are found, and their relevancies."
  },
  {
   "property": "C47",
   "status": "proved",
   "theorems": [
    "C47_ranked"
   ],
   "note": ""
  },
  {
   "property": "C48",
   "status": "proved",
   "theorems": [
    "C48_filter"
   ],
   "note": ""
  },
  {
   "property": "C49",
   "status": "partial",
   "theorems": [
    "C49_nonsearching_partial",
    "C49_same_relevancy_refuted"
   ],
   "note": "Same documents and sums of the same numbers; the order of a floating-point sum, hence the last bits, can differ (refuted theorem)."
  },
  {
   "property": "C50",
   "status": "proved",
   "theorems": [
    "C50_relevancy",
    "C46_exact"
   ],
   "note": "With swaps that are not cheap, as in C46; C46_exact is the same without that condition."
  },
  {
   "property": "C51",
   "status": "proved",
   "theorems": [
    "C51_bounds",
    "C51_monotone",
    "C51_match"
   ],
   "note": "Through the reals (Flocq): uses the standard library's axioms for Reals."
  },
  {
   "property": "C52",
   "status": "proved",
   "theorems": [
    "C52_incremental"
   ],
   "note": ""
  },
  {
   "property": "C53",
   "status": "proved",
   "theorems": [
    "C53_order"
   ],
   "note": ""
  },
  {
   "property": "C54",
   "status": "partial",
   "theorems": [
    "C54_queries_between",
    "C54_queries_anywhere",
    "C54_filtered_search_refuted"
   ],
   "note": "Proved for searches not followed by indexing, and for searches without filters; false of the code for the relevancies after a filtered search followed by indexing (refuted theorem), where the documents are still the same."
  },
  {
   "property": "C55",
   "status": "proved",
   "theorems": [
    "C55_iteration_order"
   ],
   "note": ""
  },
  {
   "property": "C56",
   "status": "proved",
   "theorems": [
    "C56_online",
    "C56_any_prices",
    "C56_same_documents",
    "C56_unknown"
   ],
   "note": ""
  },
  {
   "property": "C57",
   "status": "partial",
   "theorems": [
    "C57_bonus_partial",
    "C57_given",
    "C57_repeated_word_refuted"
   ],
   "note": "False of the code for a repeated query word (refuted theorem); proved for queries without repetition. C57_given says for every query when the bonus is given."
  },
  {
   "property": "C58",
   "status": "proved",
   "theorems": [
    "C58_safe"
   ],
   "note": ""
  },
  {
   "property": "C59",
   "status": "proved",
   "theorems": [
    "C59_empty_query",
    "C59_nothing_indexed",
    "C59_empty_online"
   ],
   "note": ""
  },
  {
   "property": "C60",
   "status": "partial",
   "theorems": [
    "C60_failing_index",
    "C60_earlier_documents_partial",
    "C60_as_if_not_given_refuted"
   ],
   "note": "The matcher stays usable and the same other documents are found; the offending document is partly indexed, so the relevancies differ (refuted theorem)."
  },
  {
   "property": "C61",
   "status": "proved",
   "theorems": [
    "C61_no_exception",
    "C61_words",
    "C61_word_null",
    "C61_documents",
    "C61_matchers",
    "C61_match",
    "C61_results",
    "C61_deletes"
   ],
   "note": ""
  },
  {
   "property": "C62",
   "status": "partial",
   "theorems": [
    "C62_relevancy_refuted",
    "C62_relevancy_is_id"
   ],
   "note": "False of the code (refuted theorem): the function gives the document id as a double."
  },
  {
   "property": "C63",
   "status": "partial",
   "theorems": [
    "C63_lookup_default",
    "C63_lookup_variable",
    "C63_empty_variable_refuted"
   ],
   "note": "Proved for an unset and for every nonempty variable; false of the code for the empty one (refuted theorem)."
  },
  {
   "property": "C64",
   "status": "partial",
   "theorems": [
    "C64_values",
    "C64_no_sharing",
    "C64_independent",
    "C64_freed",
    "C64_implicit_copy_refuted"
   ],
   "note": "Proved for Word, WordList, Document, Corpus and MatchResults and programs of any length; false of the code for the classes with an implicit copy constructor (refuted theorem)."
  },
  {
   "property": "C65",
   "status": "partial",
   "theorems": [
    "C65_typo_partial",
    "C65_swap_and_typo_refuted"
   ],
   "note": "One error of any kind, or two that are not swaps; false of the code for a swap across another error (refuted theorem)."
  },
  {
   "property": "C66",
   "status": "proved",
   "theorems": [
    "C66_part_cost",
    "C66_part_found"
   ],
   "note": ""
  },
  {
   "property": "C67",
   "status": "partial",
   "theorems": [
    "C67_copy_shown_result_refuted",
    "C67_copy_after_read"
   ],
   "note": "False of the code (refuted theorem); proved when the other object was read since its last change."
  },
  {
   "property": "C68",
   "status": "partial",
   "theorems": [
    "C68_after_failure",
    "C68_usable_after_failure_refuted"
   ],
   "note": "The property is false of the code; proved: every later lookup is undefined behaviour."
  },
  {
   "property": "C69",
   "status": "partial",
   "theorems": [
    "C01_trie_membership",
    "C69_reserved_id_refuted"
   ],
   "note": "Holds for every id but 2^32-1, for which it is refuted."
  },
  {
   "property": "C70",
   "status": "partial",
   "theorems": [
    "C70_match_remembers_query_refuted"
   ],
   "note": "False of the code: the empty word is returned for every match."
  },
  {
   "property": "C71",
   "status": "partial",
   "theorems": [
    "C71_refused_keeps_small",
    "C71_refused_keeps_large_refuted"
   ],
   "note": "Proved for prices between letters below 512; false for larger letters (refuted theorem)."
  },
  {
   "property": "C72",
   "status": "partial",
   "theorems": [
    "C72_equals_own_text_refuted",
    "C72_equals_own_text_exact"
   ],
   "note": "False of the code (refuted theorem); proved when folding leaves the text unchanged, and only then."
  },
  {
   "property": "C73",
   "status": "partial",
   "theorems": [
    "C73_split_any_letter_refuted",
    "C73_split_ascii",
    "C73_split_exact"
   ],
   "note": "False of the code for non-ASCII separators (refuted theorem); proved for ASCII ones; C73_split_exact says exactly where any separators cut."
  },
  {
   "property": "C74",
   "status": "partial",
   "theorems": [
    "C74_case_all_planes_refuted"
   ],
   "note": "False of the code for every folding of 16-bit units."
  },
  {
   "property": "C75",
   "status": "partial",
   "theorems": [
    "C75_asUtf8_every_word_refuted",
    "C33_conversions_fit"
   ],
   "note": "False of the code for one very long word; proved below 2^30 letters."
  },
  {
   "property": "C76",
   "status": "partial",
   "theorems": [
    "C76_add_to_itself_refuted"
   ],
   "note": "False of the code (refuted theorem)."
  },
  {
   "property": "C77",
   "status": "partial",
   "theorems": [
    "C77_any_relevancy_refuted",
    "C77_exact",
    "C77_only_reads",
    "C45_best_first"
   ],
   "note": "False of the code for NaN (refuted theorem); proved without NaN; C77_exact says for every history when a read is undefined, C77_only_reads that nothing else is."
  },
  {
   "property": "C78",
   "status": "proved",
   "theorems": [
    "C78_nonsearching"
   ],
   "note": ""
  },
  {
   "property": "C79",
   "status": "proved",
   "theorems": [
    "C79_statistics"
   ],
   "note": ""
  },
  {
   "property": "C80",
   "status": "proved",
   "theorems": [
    "C80_simple_prices"
   ],
   "note": ""
  },
  {
   "property": "C81",
   "status": "proved",
   "theorems": [
    "C81_more_words"
   ],
   "note": "Through the reals (Flocq): uses the standard library's axioms for Reals."
  },
  {
   "property": "C82",
   "status": "proved",
   "theorems": [
    "C82_missing_file",
    "C82_good_file",
    "C82_bad_line"
   ],
   "note": ""
  },
  {
   "property": "C83",
   "status": "partial",
   "theorems": [
    "C83_accents_cheap_partial",
    "C83_accents_cheap_refuted"
   ],
   "note": "True of all letters that stand in one line; false for y (refuted theorem)."
  },
  {
   "property": "C84",
   "status": "proved",
   "theorems": [
    "C84_others_kept"
   ],
   "note": ""
  },
  {
   "property": "C85",
   "status": "proved",
   "theorems": [
    "C85_as_cpp",
    "C85_search"
   ],
   "note": ""
  },
  {
   "property": "C86",
   "status": "proved",
   "theorems": [
    "C86_safe"
   ],
   "note": ""
  },
  {
   "property": "C87",
   "status": "partial",
   "theorems": [
    "C87_null_delete_partial",
    "C87_null_refuted",
    "C87_null_undefined"
   ],
   "note": "Only deletion accepts null; false for the other functions (refuted theorem)."
  },
  {
   "property": "C88",
   "status": "partial",
   "theorems": [
    "C88_leak_count",
    "C88_no_leak_refuted"
   ],
   "note": "False of the code (refuted theorem); the exact number of allocations lost is proved."
  },
  {
   "property": "C89",
   "status": "proved",
   "theorems": [
    "C89_same_words",
    "C89_online_order",
    "C89_online_repeats_refuted"
   ],
   "note": "Repetitions matter to onlineMatch (refuted theorem), as the statement says."
  },
  {
   "property": "C90",
   "status": "proved",
   "theorems": [
    "C90_more_words",
    "C90_relevancy"
   ],
   "note": ""
  },
  {
   "property": "C91",
   "status": "proved",
   "theorems": [
    "C91_more_documents",
    "C91_relevancy_kept_refuted"
   ],
   "note": "That the relevancy may fall is a refuted theorem."
  },
  {
   "property": "C92",
   "status": "proved",
   "theorems": [
    "C92_zero",
    "C92_zero_found",
    "C92_symmetric",
    "C92_symmetric_found",
    "C92_lengths",
    "C92_bound",
    "C92_triangle_refuted"
   ],
   "note": "The failure of the triangle inequality is a refuted theorem."
  },
  {
   "property": "C93",
   "status": "proved",
   "theorems": [
    "C93_weight_local",
    "C93_heavier"
   ],
   "note": ""
  },
  {
   "property": "C94",
   "status": "proved",
   "theorems": [
    "C94_words",
    "C94_lists",
    "C94_documents",
    "C94_results",
    "C94_matchers",
    "C94_settings",
    "C94_classes",
    "C94_no_text"
   ],
   "note": ""
  },
  {
   "property": "C95",
   "status": "proved",
   "theorems": [
    "C95_alive",
    "C95_all_freed",
    "C95_del",
    "C95_del_unbound",
    "C95_others_kept"
   ],
   "note": ""
  },
  {
   "property": "C96",
   "status": "proved",
   "theorems": [
    "C96_append",
    "C96_new_text",
    "C96_list_stays"
   ],
   "note": ""
  },
  {
   "property": "C97",
   "status": "partial",
   "theorems": [
    "C97_iterate",
    "C97_word_stays_partial",
    "C97_word_stays_refuted"
   ],
   "note": "Iteration is proved. A word taken out of a list keeps its value only until its list changes; after that it may point to freed memory (refuted theorem)."
  },
  {
   "property": "C98",
   "status": "partial",
   "theorems": [
    "C98_safe_partial",
    "C98_none_refuted",
    "C98_self_refuted"
   ],
   "note": "False of the code (refuted theorems, and C97): None for split_to_words, adding results to themselves, a word of a list that grew. Proved for every statement that is none of these, under the stated sizes."
  },
  {
   "property": "C99",
   "status": "partial",
   "theorems": [
    "C99_prices_partial",
    "C99_letters_refuted"
   ],
   "note": "False of the code: the two methods with Letter arguments always raise TypeError (refuted theorem). The prices a program can have are proved."
  }
 ]
}