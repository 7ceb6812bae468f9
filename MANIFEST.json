{
 "claims": [
  {
   "property": "C01",
   "status": "proved",
   "theorems": [
    "C01_utf32_utf8_roundtrip"
   ],
   "note": "For every list of non-zero scalar values; the intermediate bytes are also shown to be the RFC 3629 encodings."
  },
  {
   "property": "C02",
   "status": "proved",
   "theorems": [
    "C02_lossless_iff_well_formed"
   ],
   "note": "Over all NUL-free byte strings."
  },
  {
   "property": "C03",
   "status": "proved",
   "theorems": [
    "C03_decoder_total_and_safe"
   ],
   "note": "Pointer reads are explicit in the model, so safety is part of the outcome type."
  },
  {
   "property": "C04",
   "status": "proved",
   "theorems": [
    "C04_encoder_well_formed"
   ],
   "note": "Over all lists of 32-bit values (in fact all naturals)."
  },
  {
   "property": "C05",
   "status": "partial",
   "theorems": [
    "C05_valid_multi_byte",
    "C05_error_codes",
    "C05_char_too_long_refuted"
   ],
   "note": "Validity and NotMultiByte are exact. The documented error order is proved except that CharTooLong is never reported where the documentation says it is (C05_char_too_long_refuted)."
  },
  {
   "property": "C06",
   "status": "partial",
   "theorems": [
    "C06_is_valid_utf8_refuted",
    "C06_is_valid_utf8_partial"
   ],
   "note": "False of the code as documented: only the first character is looked at. C06_is_valid_utf8_refuted gives the witness, C06_is_valid_utf8_partial says exactly what is decided."
  },
  {
   "property": "C07",
   "status": "proved",
   "theorems": [
    "C07_bounded_decoding_is_prefix"
   ],
   "note": "For every byte string; getCode included."
  },
  {
   "property": "C08",
   "status": "proved",
   "theorems": [
    "C08_to_hex",
    "C08_to_binary",
    "C08_numeral_unique",
    "C08_to_unicode_reads_back",
    "C08_plane_16_refused",
    "C08_to_unicode_of_text"
   ],
   "note": "The read back bound 0x100000 is sharp: C08_plane_16_refused."
  },
  {
   "property": "C09",
   "status": "proved",
   "theorems": [
    "C09_symbols_are_a_stable_bijection",
    "C09_throw_changes_nothing",
    "C09_capacity"
   ],
   "note": "Over every history of constructions; capacity shown to be reachable and exact."
  },
  {
   "property": "C10",
   "status": "proved",
   "theorems": [
    "C10_created_iff_names_distinct",
    "C10_names_and_values_convert_both_ways",
    "C10_lenient_names"
   ],
   "note": "Names are compile time lists in the code; the theorem is for every list shorter than 255."
  },
  {
   "property": "C11",
   "status": "partial",
   "theorems": [
    "C11_index_is_taken_modulo_256",
    "C11_index_checked_partial",
    "C11_large_index_refuted"
   ],
   "note": "False for indices of 256 and more (C11_large_index_refuted): the index is cut to 8 bits before it is checked. C11_index_is_taken_modulo_256 is exact."
  },
  {
   "property": "C12",
   "status": "partial",
   "theorems": [
    "C12_columns_identified_by_name",
    "C12_get_returns_field_under_header",
    "C12_header_accepted_iff",
    "C12_row_accepted_iff",
    "C12_every_line_has_fields",
    "C12_too_many_fields_refuted"
   ],
   "note": "Everything holds except that a row (or header) with one extra, empty, field is accepted: C12_too_many_fields_refuted; C12_row_accepted_iff and C12_header_accepted_iff are exact."
  },
  {
   "property": "C13",
   "status": "partial",
   "theorems": [
    "C13_number_accepted_iff",
    "C13_decimal_fields_partial",
    "C13_not_a_number_refuted",
    "C13_code_point_accepted_iff",
    "C13_bool_accepted_iff",
    "C13_typed_columns"
   ],
   "note": "Digit-only fields behave as claimed (C13_decimal_fields_partial). Other text is not always refused: C13_not_a_number_refuted; the exact accepted language is C13_number_accepted_iff."
  },
  {
   "property": "C14",
   "status": "proved",
   "theorems": [
    "C14_tables_are_the_categories",
    "C14_one_character_tests",
    "C14_first_character_tests",
    "C14_whole_string_tests",
    "C14_punctuation_test"
   ],
   "note": "For all 32-bit values and all texts. Findings: a malformed byte counts as punctuation because it decodes to U+FFFD; the documentation says the tests of an empty string return true, but they return false."
  },
  {
   "property": "C15",
   "status": "proved",
   "theorems": [
    "C15_categories_are_disjoint",
    "C15_at_most_one_test_succeeds"
   ],
   "note": "Sweep over all code points lifted by a disjointness lemma on the sorted tables."
  },
  {
   "property": "C16",
   "status": "proved",
   "theorems": [
    "C16_peek_predicts_next",
    "C16_iteration_terminates",
    "C16_end_is_final",
    "C16_reset_restarts"
   ],
   "note": "All byte strings (embedded NULs and malformed sequences included) and all call histories."
  },
  {
   "property": "C17",
   "status": "proved",
   "theorems": [
    "C17_lossless",
    "C17_size_counts_values",
    "C17_reading_is_unique"
   ],
   "note": "All well-formed texts; size() equals the number of values even where marks are folded."
  },
  {
   "property": "C18",
   "status": "partial",
   "theorems": [
    "C18_folding",
    "C18_all_compositions_refuted"
   ],
   "note": "Proved for every byte string against a declarative reading of the bytes. Refuted in full: Katakana wa, wi, we, wo and the iteration marks have Unicode compositions the table does not know, so their mark is dropped and counted as an error."
  },
  {
   "property": "C19",
   "status": "partial",
   "theorems": [
    "C19_kana_exact",
    "C19_kana_map_partial",
    "C19_kana_round_trip_partial",
    "C19_kana_round_trip_exact",
    "C19_full_refuted"
   ],
   "note": "The result is characterised exactly for every text. Refuted in full: after small tsu, a kana and a small kana that form no known digraph, the last two stay unconverted and a following prolong mark is lost; without that prolong mark the round trip is the identity."
  },
  {
   "property": "C20",
   "status": "partial",
   "theorems": [
    "C20_romaji_round_trip_partial",
    "C20_romaji_round_trip_exact",
    "C20_full_refuted"
   ],
   "note": "Default Romaji style; the round trip is characterised exactly (it loses the prolong marks behind broken combinations, C20_full_refuted). Iteration marks and Ascii input are outside the alphabet; Kunrei and Hepburn styles do not round trip by design."
  },
  {
   "property": "C21",
   "status": "partial",
   "theorems": [
    "C21_romaji_converts_all_partial",
    "C21_kana_converts_all_partial",
    "C21_full_refuted"
   ],
   "note": "Holds without broken combinations (small tsu, kana, small kana that is no digraph); refuted with one."
  },
  {
   "property": "C22",
   "status": "partial",
   "theorems": [
    "C22_case_insensitive_partial",
    "C22_from_romaji_partial",
    "C22_same_kana_partial",
    "C22_full_refuted"
   ],
   "note": "Holds up to the case of letters that stay unconverted unless an upper-case consonant is doubled (or T is followed by c): the sokuon test looks at the letter before lower-casing, so MATTE is not MATTE lower-cased (C22_full_refuted)."
  },
  {
   "property": "C23",
   "status": "partial",
   "theorems": [
    "C23_others_unchanged",
    "C23_from_kana",
    "C23_from_romaji",
    "C23_delimiters",
    "C23_full_refuted"
   ],
   "note": "The subsequence of characters that mean nothing to a conversion is unchanged and the delimiters form a bijection. Refuted: their position relative to pending Romaji letters (k before a Kanji ends up behind it)."
  },
  {
   "property": "C24",
   "status": "proved",
   "theorems": [
    "C24_lookups_are_exact",
    "C24_no_shared_spelling",
    "C24_scripts_are_aligned",
    "C24_accent_links",
    "C24_links_stay_in_the_table",
    "C24_accented_lookup",
    "C24_accented_kinds",
    "C24_sizes"
   ],
   "note": "The links are exactly the Unicode compositions between entries of the table."
  },
  {
   "property": "C25",
   "status": "proved",
   "theorems": [
    "C25_size_at_most_bytes",
    "C25_size_of_text",
    "C25_size_additive",
    "C25_japanese_is_wide",
    "C25_padding_exact"
   ],
   "note": "displaySize of arbitrary bytes is total and at most the byte count; exact on texts; additive at character boundaries (a split character is the stated exception, shown by an example). wideSetw pads to exactly max(n, size) when n + size < 2^31 (the value is cast to int). The table of wide blocks is the code's; that Kana and common Kanji are in it is proved."
  },
  {
   "property": "C26",
   "status": "proved",
   "theorems": [
    "C26_print_exact",
    "C26_lines_aligned",
    "C26_cells_aligned",
    "C26_markdown_exact"
   ],
   "note": "Cells are any bytes without NUL shorter than 2^30 (setw takes an int). Exact text of every line, alignment of lines and of the cells of each column. Markdown for all cells."
  },
  {
   "property": "C27",
   "status": "proved",
   "theorems": [
    "C27_only_allowed",
    "C27_first_answer_returned",
    "C27_refused_iff",
    "C27_range",
    "C27_set_quit"
   ],
   "note": "For a Choice with an input stream (reading single keys from a terminal is not modelled). Exact: which requests are refused, which line answers, what remains to be read."
  },
  {
   "property": "C28",
   "status": "partial",
   "theorems": [
    "C28_returns_iff_partial",
    "C28_end_of_input_refuted"
   ],
   "note": "Refuted: at the end of the input the loop repeats for ever unless the last line was an answer (std::getline leaves the line unchanged), with or without a default. The partial theorem gives the exact condition for returning."
  },
  {
   "property": "C29",
   "status": "proved",
   "theorems": [
    "C29_accepts_documented_forms",
    "C29_rejects_the_rest",
    "C29_text_roundtrip",
    "C29_every_id_is_readable",
    "C29_order_lexicographic"
   ],
   "note": "The accepted language, the text round trip and the order are exact."
  },
  {
   "property": "C30",
   "status": "proved",
   "theorems": [
    "C30_single_count",
    "C30_two_counts",
    "C30_two_counts_errors",
    "C30_text_unambiguous",
    "C30_text_exact"
   ],
   "note": "One and two count constructors, with errors characterised."
  },
  {
   "property": "C31",
   "status": "proved",
   "theorems": [
    "C31_positions",
    "C31_words_exist",
    "C31_errors",
    "C31_lists_disjoint",
    "C31_histories_run"
   ],
   "note": "Exact success condition, list, indices, error reported, and disjointness over all histories of loads. Opening the file is not modelled."
  },
  {
   "property": "C32",
   "status": "partial",
   "theorems": [
    "C32_failed_load_refuted",
    "C32_after_failure_partial",
    "C32_clear_recovers"
   ],
   "note": "False as stated: names read before a failure stay in the static set (C32_failed_load_refuted). The exact effect and recovery through clearUniqueCheckData are proved."
  },
  {
   "property": "C33",
   "status": "proved",
   "theorems": [
    "C33_sources_accepted_iff",
    "C33_round_trip"
   ],
   "note": "Source strings accepted exactly when made of different letters out of GHJKTV; flags and letters (sorted) come back; stored bits, text and back is the identity."
  },
  {
   "property": "C34",
   "status": "partial",
   "theorems": [
    "C34_find_by_frequency_partial",
    "C34_buckets",
    "C34_long_list_refuted",
    "C34_second_object_refuted",
    "C34_without_frequency_refuted"
   ],
   "note": "Proved for every frequency list of at most 2750 different names whose Kanji carry their place as frequency (partial), with the exact content of the ten buckets for up to 65534 names. Refuted beyond: every number above 2750 reads outside of the bucket array; a second object with a shorter list shares the maximum and reads outside; a listed Kanji loaded earlier without a frequency shifts all later ones."
  },
  {
   "property": "C35",
   "status": "partial",
   "theorems": [
    "C35_strokes_strict_weak",
    "C35_qualified_strict_weak",
    "C35_incomparable",
    "C35_documented_order_partial",
    "C35_code_point_order_refuted"
   ],
   "note": "Both orders are total functions and strict weak orders for names of any bytes; equivalence is characterised exactly. The documented last criterion (compatibility name in Unicode) is code point order for names of one basic plane character (partial) and refuted otherwise: names are compared as hexadecimal text, so U+20000 comes before U+4E00."
  },
  {
   "property": "C36",
   "status": "partial",
   "theorems": [
    "C36_order_refuted",
    "C36_listing_refuted",
    "C36_nothing_is_lost",
    "C36_sorted_listing_partial",
    "C36_other_rows_are_sorted"
   ],
   "note": "False of the code: operator< is not asymmetric for Kanji without frequency of different types, so a listing can be out of order (refuted). Proved for any shape of the std::set: nothing is lost; and sorted by count, frequency, name when characters of equal frequency have equal types, which includes all rows not about Kanji."
  },
  {
   "property": "C37",
   "status": "proved",
   "theorems": [
    "C37_counts_are_exact",
    "C37_total_is_the_sum_of_results",
    "C37_events_are_exact",
    "C37_lines_are_the_contents"
   ],
   "note": "For every history of add and addFile requests on any directory tree, any allowed-character test and any replacement function on code points. Counts are unbounded (size_t overflow ignored); the debug stream is left out."
  },
  {
   "property": "C38",
   "status": "proved",
   "theorems": [
    "C38_no_text_is_lost",
    "C38_every_add_sees_them",
    "C38_within_two_lines",
    "C38_brackets_are_joined"
   ],
   "note": "The searched strings concatenate to the lines of the file; each is within two consecutive lines. Holds for any regular expression."
  },
  {
   "property": "C39",
   "status": "proved",
   "theorems": [
    "C39_group_score",
    "C39_list_score"
   ],
   "note": "For list quizzes with up to 65535 Kanji and 1 to 9 answers and for group quizzes with up to 65535 groups (the counters have 16 bits). Questions before the start question are counted as skipped, as the code does."
  },
  {
   "property": "C40",
   "status": "proved",
   "theorems": [
    "C40_choices",
    "C40_safe"
   ],
   "note": "For every source of random values whose values are in range."
  },
  {
   "property": "C41",
   "status": "partial",
   "theorems": [
    "C41_choices_return_partial",
    "C41_choices_return_refuted",
    "C41_quiz_returns_partial",
    "C41_quiz_returns_refuted"
   ],
   "note": "False as stated: with fewer different readings than answers the loop never ends (C41_choices_return_refuted, and for whole quizzes C41_quiz_returns_refuted). Proved otherwise, for random values that all come up sooner or later."
  },
  {
   "property": "C42",
   "status": "partial",
   "theorems": [
    "C42_letters",
    "C42_sheets",
    "C42_checked_partial",
    "C42_checked_refuted"
   ],
   "note": "Distinct letters hold for every history (C42_sheets). Answers are compared with the reading beside the letter for up to 26 shown members; for more, completing the group is undefined behaviour (C42_checked_refuted): upper case letters are taken for an index below 'a'."
  },
  {
   "property": "C43",
   "status": "partial",
   "theorems": [
    "C43_load",
    "C43_words_unique",
    "C43_find_exact",
    "C43_find_partial",
    "C43_once_refuted"
   ],
   "note": "Refuted as stated: a word that repeats a Kanji (人人) is listed once per occurrence. Proved: find gives the words in the order of their first lines, each as often as the Kanji occurs in it, so each once if no word repeats a Kanji. Loading succeeds exactly when every line of every file can be read as words, all are good words (C84) and no word comes with two grades. Findings about the lines of other.txt: a ')' before '(' makes the rest of the entry the reading, text after ')' is ignored, and a line that ends in '...' is an error."
  },
  {
   "property": "C44",
   "status": "partial",
   "theorems": [
    "C44_loop_visits",
    "C44_no_arguments",
    "C44_visited_not_options",
    "C44_nothing_lost",
    "C44_wraps_around_refuted"
   ],
   "note": "The loop visits exactly the arguments left after taking out -data with its value, -debug and -info, in order, for every list of fewer than 65535 arguments. Refuted for exactly 65535 arguments (the largest count Args accepts): the position wraps around and the loop does not end."
  },
  {
   "property": "C45",
   "status": "partial",
   "theorems": [
    "C45_output",
    "C45_keeps_lines_partial",
    "C45_only_last_lost",
    "C45_lines_of_text",
    "C45_last_line_refuted"
   ],
   "note": "Refuted: a last line that ends with a Kanji is read and never printed. Proved: nothing else is lost, and the exact output is a unique cutting of the lines into pieces. The line after joined furigana goes on in the same output line, as in the code."
  },
  {
   "property": "C46",
   "status": "partial",
   "theorems": [
    "C46_mode_argument",
    "C46_refusal_partial",
    "C46_unconvertible",
    "C46_refusal_refuted",
    "C46_second_mode"
   ],
   "note": "Refuted as stated: '-r-', '-t+' and the like throw std::invalid_argument, and a number of 2^64 or more throws std::out_of_range, instead of DomainError. Proved: exact acceptance and results, DomainError for all other refused arguments. '-t00' and '-t+0' are taken as 'from the beginning' while '-t0' means random order."
  },
  {
   "property": "C47",
   "status": "proved",
   "theorems": [
    "C47_decoder_resynchronises"
   ],
   "note": "For every NUL-free prefix, however malformed."
  },
  {
   "property": "C48",
   "status": "partial",
   "theorems": [
    "C48_iterator_stays_in_range",
    "C48_walk_visits_every_value",
    "C48_jump_partial",
    "C48_large_jump_refuted"
   ],
   "note": "Staying in range is proved for all histories; a jump of 256 or more wraps instead of throwing (C48_large_jump_refuted)."
  },
  {
   "property": "C49",
   "status": "proved",
   "theorems": [
    "C49_map_returns_last_assigned"
   ],
   "note": "For every history of assignments."
  },
  {
   "property": "C50",
   "status": "proved",
   "theorems": [
    "C50_regex_ranges_match_the_categories",
    "C50_range_index",
    "C50_range_layout"
   ],
   "note": "Any code point, any index."
  },
  {
   "property": "C51",
   "status": "partial",
   "theorems": [
    "C51_get_first",
    "C51_selector_stripping",
    "C51_documented_behaviour_refuted"
   ],
   "note": "getFirst is documented to return an empty string when the text does not start with a multi-byte character, but it skips leading Ascii. isCharWithVariationSelector accepts two Ascii letters followed by a selector."
  },
  {
   "property": "C52",
   "status": "partial",
   "theorems": [
    "C52_kana_result_order_free",
    "C52_no_marks_order_free_partial",
    "C52_full_refuted"
   ],
   "note": "Kana results never depend on the order; Romaji results do not without iteration marks. Refuted in general: small tsu, a vowel and an iteration mark."
  },
  {
   "property": "C53",
   "status": "proved",
   "theorems": [
    "C53_total",
    "C53_total_from"
   ],
   "note": "All byte strings, all types and flags."
  },
  {
   "property": "C54",
   "status": "partial",
   "theorems": [
    "C54_rows_mean_their_names",
    "C54_exactly_one_row_partial",
    "C54_totals_add_up",
    "C54_exactly_one_row_refuted"
   ],
   "note": "The wide space U+3000 is in no row (isMBPunctuation is called without includeSpace); every other character is in exactly one. Holds for every set of characters the UCD may have."
  },
  {
   "property": "C55",
   "status": "partial",
   "theorems": [
    "C55_furigana_is_removed",
    "C55_all_else_is_kept",
    "C55_no_furigana_no_change",
    "C55_no_furigana_is_left_refuted"
   ],
   "note": "Refuted in part: the result may contain Furigana again, and wide brackets are in the wide letter range, so they count as letters. Regex matching is modelled as a function on code points."
  },
  {
   "property": "C56",
   "status": "proved",
   "theorems": [
    "C56_types_add_up",
    "C56_row_total",
    "C56_highest_file"
   ],
   "note": "Stated on the listing in the order of the set."
  },
  {
   "property": "C57",
   "status": "partial",
   "theorems": [
    "C57_debug_mode",
    "C57_data_value_refuted"
   ],
   "note": "Exact result for every argument list. The clause about the value of -data is refuted: in '-data -debug' getDebugMode sees Full."
  },
  {
   "property": "C58",
   "status": "proved",
   "theorems": [
    "C58_construction",
    "C58_subscript"
   ],
   "note": "Proved for every int count and both kinds of pointer."
  },
  {
   "property": "C59",
   "status": "proved",
   "theorems": [
    "C59_info"
   ],
   "note": "Proved for all Kanji whose old names are not empty strings and all field sets (any number of bits)."
  },
  {
   "property": "C60",
   "status": "proved",
   "theorems": [
    "C60_suffix",
    "C60_groups_in_order",
    "C60_group_placed"
   ],
   "note": "Proved for all Kanji."
  },
  {
   "property": "C61",
   "status": "partial",
   "theorems": [
    "C61_insert",
    "C61_find_by_name",
    "C61_both_names",
    "C61_hidden_refuted"
   ],
   "note": "Proved for all insertion histories. Also shown: an accepted Kanji without selector is hidden once a Kanji with a selector has its name as compatibility name (_refuted: 'every accepted Kanji is found by its name')."
  },
  {
   "property": "C62",
   "status": "proved",
   "theorems": [
    "C62_by_morohashi",
    "C62_by_morohashi_found",
    "C62_by_nelson",
    "C62_by_nelson_once",
    "C62_by_grade"
   ],
   "note": "Proved for all insertion histories and ids."
  },
  {
   "property": "C63",
   "status": "partial",
   "theorems": [
    "C63_nelson_ids",
    "C63_bad_entry_refuted"
   ],
   "note": "Round trip proved for all lists of 16 bit numbers. The _refuted theorem shows that everything from the first entry that is not a number on is dropped silently."
  },
  {
   "property": "C64",
   "status": "proved",
   "theorems": [
    "C64_link_kinds",
    "C64_link_texts",
    "C64_entry_text",
    "C64_load_exact",
    "C64_row_determines",
    "C64_find_by_name"
   ],
   "note": "Row contents, duplicates and links all covered. UcdData::print and error texts are not modelled; extra link codes are ignored by the code (the specification says so)."
  },
  {
   "property": "C65",
   "status": "partial",
   "theorems": [
    "C65_find_with_selector",
    "C65_selector_distinguished_refuted"
   ],
   "note": "Exact characterisation; that a selector distinguishes forms is refuted (the code ignores which selector it is)."
  },
  {
   "property": "C66",
   "status": "proved",
   "theorems": [
    "C66_readings"
   ],
   "note": "For readings that convert to a non-empty string; an example shows that a reading of only a dash makes the separator disappear."
  },
  {
   "property": "C67",
   "status": "proved",
   "theorems": [
    "C67_prompt_lists_choices"
   ],
   "note": "The text of the prompt as groups; uniqueness comes from groups being maximal and sorted."
  },
  {
   "property": "C68",
   "status": "proved",
   "theorems": [
    "C68_to_char",
    "C68_single_byte_tests",
    "C68_case_of_text",
    "C68_first_letter"
   ],
   "note": "The C library's isupper, islower, tolower and toupper are taken in the C locale."
  },
  {
   "property": "C69",
   "status": "proved",
   "theorems": [
    "C69_every_prompt"
   ],
   "note": "For runs that return; C41 says when they do."
  },
  {
   "property": "C70",
   "status": "proved",
   "theorems": [
    "C70_refused",
    "C70_accepted"
   ],
   "note": "The score printed by a refused quiz is a finding: see DESIGN.md."
  },
  {
   "property": "C71",
   "status": "proved",
   "theorems": [
    "C71_meaning_group",
    "C71_pattern_group"
   ],
   "note": "Exact in both directions."
  },
  {
   "property": "C72",
   "status": "proved",
   "theorems": [
    "C72_every_prompt"
   ],
   "note": "For runs that return; C74 says when they do."
  },
  {
   "property": "C73",
   "status": "proved",
   "theorems": [
    "C73_members",
    "C73_entry",
    "C73_entry_refused",
    "C73_table",
    "C73_groups"
   ],
   "note": "Pinyin of more than 8 columns makes showGroup throw std::length_error (C73_entry_refused)."
  },
  {
   "property": "C74",
   "status": "proved",
   "theorems": [
    "C74_outcome",
    "C74_exclusive"
   ],
   "note": "Together with C72 and C75 this covers every run of a group quiz whose members all have an entry of proper width."
  },
  {
   "property": "C75",
   "status": "proved",
   "theorems": [
    "C75_no_groups",
    "C75_refused",
    "C75_name"
   ],
   "note": "The scores printed are a finding: see DESIGN.md."
  },
  {
   "property": "C76",
   "status": "proved",
   "theorems": [
    "C76_spelling",
    "C76_doubled",
    "C76_iteration_mark",
    "C76_flag_text"
   ],
   "note": "Spellings, doubled consonants, iteration marks and flag texts, each against tables stated separately from the model."
  },
  {
   "property": "C77",
   "status": "proved",
   "theorems": [
    "C77_load",
    "C77_by_number",
    "C77_by_name"
   ],
   "note": "Two radicals with the same first name: the later one silently takes the name (finding)."
  },
  {
   "property": "C78",
   "status": "partial",
   "theorems": [
    "C78_kyu",
    "C78_frequency",
    "C78_level",
    "C78_level_of_all",
    "C78_grade",
    "C78_extra_frequency_refuted"
   ],
   "note": "Refuted for Extra Kanji in the frequency list: their frequency is always 0 (ExtraKanji does not set one). C78_level_of_all is about all loaded Kanji; that a name in a level list belongs to a Jouyou or Jinmei Kanji is proved for names that find the Kanji of that name (C78_level)."
  },
  {
   "property": "C79",
   "status": "partial",
   "theorems": [
    "C79_made_singly",
    "C79_rows_partial",
    "C79_same_name_refuted"
   ],
   "note": "Refuted: for Jouyou, Jinmei and Extra a second row with the same name is refused by checkInsert but stays in the list of the type. Proved exact for the five other types; for these three, one entry per row with its values, and every loaded Kanji of the type is in the list."
  },
  {
   "property": "C80",
   "status": "proved",
   "theorems": [
    "C80_level_lists",
    "C80_kyu_lists"
   ],
   "note": "The hypothesis that listed names lead to the Kanji of that name excludes the takeover of C61."
  },
  {
   "property": "C81",
   "status": "proved",
   "theorems": [
    "C81_names_found"
   ],
   "note": "Found means findByName gives some Kanji; when a variation selector form has the name as its compatibility name it is that Kanji (C61)."
  },
  {
   "property": "C82",
   "status": "proved",
   "theorems": [
    "C82_linked_old",
    "C82_linked_jinmei"
   ],
   "note": "The code iterates over the map that it inserts into (TextKanjiData.cpp:108-111); inserted Kanji have no old names, so the model iterates over the entries at the start."
  },
  {
   "property": "C83",
   "status": "proved",
   "theorems": [
    "C83_unicode"
   ],
   "note": "For names of at most 4 bytes (all names that Unicode rows can have); Kanji with variation selectors get their entry through the linked Jinmei map (C65)."
  },
  {
   "property": "C84",
   "status": "partial",
   "theorems": [
    "C84_accepted",
    "C84_kanji",
    "C84_reading_refuted"
   ],
   "note": "Refuted for the reading: only multi-byte characters are looked at, so an Ascii (or empty) reading is taken. Proved exact for what the code accepts, on all byte strings."
  },
  {
   "property": "C85",
   "status": "proved",
   "theorems": [
    "C85_command_line",
    "C85_refused",
    "C85_meaning_unique",
    "C85_any_order"
   ],
   "note": "Bytes from 0x80 on are passed to isdigit as negative numbers where char is signed (undefined in C, harmless in common libraries); the model treats them as not being digits."
  },
  {
   "property": "C86",
   "status": "proved",
   "theorems": [
    "C86_accepted",
    "C86_groups",
    "C86_maps",
    "C86_number",
    "C86_member",
    "C86_sizes"
   ],
   "note": "A Kanji that is in two pattern groups is only reported (printError); the first group stays in the map and both groups stay in the list."
  },
  {
   "property": "C87",
   "status": "partial",
   "theorems": [
    "C87_shown",
    "C87_matches",
    "C87_one_meaning",
    "C87_refused",
    "C87_same_text",
    "C87_unicode_refuted"
   ],
   "note": "Refuted: the code given with 'u' is not checked to be a Kanji (u0041 shows 'A [0041] --- Not found in ucd.txt'), and a surrogate shows U+FFFD; numbers for which findByFrequency reads outside of its lists (C34) are undefined. The rest is proved."
  },
  {
   "property": "C88",
   "status": "proved",
   "theorems": [
    "C88_review",
    "C88_similar_unique",
    "C88_sort_exists",
    "C88_details"
   ],
   "note": "std::sort is any function that orders and permutes (C88_sort_exists shows that there is one). Member names must be byte strings and Jukugo texts well-formed enough for displaySize to be additive. The unbalanced quote of \" --- Kanji not loaded'\" is in the code."
  },
  {
   "property": "C89",
   "status": "partial",
   "theorems": [
    "C89_jukugo",
    "C89_lines",
    "C89_aligned",
    "C89_apart",
    "C89_apart_refuted"
   ],
   "note": "Refuted as stated: columns are at most 30 wide, so an entry of 29 places is followed by one space only and one of 30 or more runs into the next (C89_apart_refuted); entries of up to 28 places are aligned and apart."
  },
  {
   "property": "C90",
   "status": "proved",
   "theorems": [
    "C90_start",
    "C90_decided",
    "C90_asked",
    "C90_every_list"
   ],
   "note": "random draws and shuffles are parameters; the texts of the questions are in the model, the dialog is specified separately from it"
  },
  {
   "property": "C91",
   "status": "partial",
   "theorems": [
    "C91_reset_partial",
    "C91_reset_refuted"
   ],
   "note": "Refuted by quitting at \"List order\": the mode chosen before stays set and the next start does not ask for it (C91_reset_refuted). Every other return resets both (C91_reset_partial)."
  },
  {
   "property": "C92",
   "status": "proved",
   "theorems": [
    "C92_one_task",
    "C92_usage",
    "C92_texts",
    "C92_bound_is_sharp"
   ],
   "note": "With 65535 arguments '--' wraps the 16 bit index and the loop never ends (C92_bound_is_sharp)."
  },
  {
   "property": "C93",
   "status": "partial",
   "theorems": [
    "C93_lines",
    "C93_session",
    "C93_waits",
    "C93_piped_partial",
    "C93_piped_refuted"
   ],
   "note": "A line 'q' also ends piped input, so later lines are lost (C93_piped_refuted; C93_piped_partial for input without such a line). When the input ends while a flag is asked for the program never ends (C93_waits)."
  },
  {
   "property": "C94",
   "status": "partial",
   "theorems": [
    "C94_exact_partial",
    "C94_newline_refuted",
    "C94_separator_refuted"
   ],
   "note": "Refuted: '-n' with texts still writes a newline (C94_newline_refuted) and nothing is written between texts in Romaji (C94_separator_refuted). C94_exact_partial says what is written."
  },
  {
   "property": "C95",
   "status": "proved",
   "theorems": [
    "C95_chart"
   ],
   "note": "The chart has one fixed table, so its rows are checked by computation inside the kernel; the formats and argument lists are quantified over."
  },
  {
   "property": "C96",
   "status": "partial",
   "theorems": [
    "C96_counts",
    "C96_sizes_partial",
    "C96_sizes_refuted"
   ],
   "note": "C96_counts is the exact text. That the sizes add up is false when a file has two rows with a name (C96_sizes_refuted); C96_sizes_partial is for names that are listed once."
  },
  {
   "property": "C97",
   "status": "proved",
   "theorems": [
    "C97_grades",
    "C97_all_graded"
   ],
   "note": "the text is exact for any data, the totals hold after loading any files"
  },
  {
   "property": "C98",
   "status": "proved",
   "theorems": [
    "C98_levels",
    "C98_kyus",
    "C98_one_line"
   ],
   "note": "The last line says 'Total for all Levels' but counts the Kanji without a level too, as the value None."
  },
  {
   "property": "C99",
   "status": "proved",
   "theorems": [
    "C99_radicals"
   ],
   "note": "std::sort is any function that gives an ordered permutation, so the order among Kanji with the same strokes is left open"
  },
  {
   "property": "C100",
   "status": "partial",
   "theorems": [
    "C100_info",
    "C100_full_partial",
    "C100_full_refuted"
   ],
   "note": "Refuted: with '-debug' a Kanji with a variation selector that has no Unicode entry ends the program (C100_full_refuted). C100_full_partial says exactly when, and has the text otherwise. A Frequency or Extra Kanji with a selector is reported as not found although find() finds it (link_line in ReportSpec)."
  },
  {
   "property": "C101",
   "status": "partial",
   "theorems": [
    "C101_summary_partial",
    "C101_full_partial",
    "C101_names_unique",
    "C101_twice_refuted"
   ],
   "note": "Refuted for the pattern groups when a Kanji is in two of them (loading prints an error but goes on): it is counted twice, so '4 / 2 ()' is printed for two Kanji (C101_twice_refuted). The _partial theorems have the exact text when no Kanji is in two pattern groups and no name is in two rows of a file (C79)."
  },
  {
   "property": "C102",
   "status": "proved",
   "theorems": [
    "C102_once_or_several",
    "C102_types",
    "C102_memberships"
   ],
   "note": "sums over the printed reports of C101, for all groups that load"
  },
  {
   "property": "C103",
   "status": "proved",
   "theorems": [
    "C103_session"
   ],
   "note": "the file system has regular files, directories and links; the order in which a directory is listed is a parameter"
  },
  {
   "property": "C104",
   "status": "proved",
   "theorems": [
    "C104_nearest",
    "C104_all",
    "C104_sum"
   ],
   "note": "Doubles are modelled as binary64 with rounding to nearest even, and printing as the nearest decimal; 2^46 leaves enough room that no double rounding error reaches the last decimal."
  },
  {
   "property": "C105",
   "status": "proved",
   "theorems": [
    "C105_report",
    "C105_missing",
    "C105_listing"
   ],
   "note": "A breakdown of Unrecognized without -b has the title Rank but no ranks; 'dir/' is shown as dir, but the name counted for it is empty; ', Errors: n' follows the first line when nothing else is reported. The order of a listing is that of C36."
  },
  {
   "property": "C106",
   "status": "partial",
   "theorems": [
    "C106_types_add_up",
    "C106_loaded_partial",
    "C106_none_refuted"
   ],
   "note": "Refuted for Kanji with a variation selector: the Unicode lookup ignores which selector is given (C65), so 海 with U+FE01 is Common Kanji but has no loaded Kanji and is printed for [None] (C106_none_refuted). C106_loaded_partial has it for all names of at most 4 bytes, i.e. without selector."
  },
  {
   "property": "C107",
   "status": "proved",
   "theorems": [
    "C107_rows",
    "C107_unicode",
    "C107_readings_once"
   ],
   "note": "Values of fields are those that ColumnFile returns (C29); readings are converted as in C66."
  },
  {
   "property": "C108",
   "status": "proved",
   "theorems": [
    "C108_errors",
    "C108_how_often",
    "C108_numbers"
   ],
   "note": "The static count of errors is a parameter (a program makes one KanjiData). Names are bytes; for files that fail to load C110 says the errors do not depend on the mode."
  },
  {
   "property": "C109",
   "status": "proved",
   "theorems": [
    "C109_lists"
   ],
   "note": "The report itself is C97-C100."
  },
  {
   "property": "C110",
   "status": "proved",
   "theorems": [
    "C110_same_data",
    "C110_quiet",
    "C110_full",
    "C110_same_errors"
   ],
   "note": "The -debug failure is C100."
  },
  {
   "property": "C111",
   "status": "proved",
   "theorems": [
    "C111_rows",
    "C111_broken",
    "C111_header",
    "C111_unique"
   ],
   "note": "Opening a file is C113."
  },
  {
   "property": "C112",
   "status": "partial",
   "theorems": [
    "C112_option",
    "C112_current",
    "C112_program_partial",
    "C112_no_args",
    "C112_nearest",
    "C112_beside_program_refuted"
   ],
   "note": "Partial: the search from arg0 starts in the directory that contains the directory of the program, so a data directory beside the program is not found although the documentation says the parent directories of args[0] are searched (C112_beside_program_refuted). Paths are absolute or relative lists of names without empty parts; names of directory entries have no slash."
  },
  {
   "property": "C113",
   "status": "partial",
   "theorems": [
    "C113_load",
    "C113_complete",
    "C113_unique",
    "C113_read_only_refuted"
   ],
   "note": "Partial: 'It does not matter whether the files can be written' is false, since ColumnFile opens with std::fstream (reading and writing) and a table that can not be written is refused as having no header (C113_read_only_refuted). The file system is a function from paths to files, directories and links and does not change while loading; which paths can be written is a parameter."
  },
  {
   "property": "C114",
   "status": "proved",
   "theorems": [
    "C114_load",
    "C114_complete",
    "C114_unique",
    "C114_errors",
    "C114_no_errors",
    "C114_bad_row",
    "C114_output",
    "C114_members"
   ],
   "note": "loadGroups is described by C86, printGroupData by C101 and C102. What is written of a report that an exception ends is not modelled. The names in the files are bytes (rows_ok)."
  },
  {
   "property": "C115",
   "status": "proved",
   "theorems": [
    "C115_load",
    "C115_complete",
    "C115_unique",
    "C115_report",
    "C115_kanji_unique",
    "C115_types_agree",
    "C115_grades_agree"
   ],
   "note": "loadJukugo is described by C43. The fill character of the stream is what was set before."
  },
  {
   "property": "C116",
   "status": "partial",
   "theorems": [
    "C116_quiet",
    "C116_program",
    "C116_errors",
    "C116_needs_data",
    "C116_one_load",
    "C116_exit",
    "C116_shown",
    "C116_too_many",
    "C116_help_refuted"
   ],
   "note": "C116_help_refuted: -h without a data directory ends with 1 and shows no help. The fill character left by a report before the details is a space unless radicals are missing, there are no variants and no meaning groups; that case is not modelled for the details. Terminal keys are read as lines."
  },
  {
   "property": "C117",
   "status": "proved",
   "theorems": [
    "C117_program",
    "C117_needs_data",
    "C117_too_many"
   ],
   "note": "Needs a greatest frequency below 65535 and names of files made of bytes."
  },
  {
   "property": "C118",
   "status": "partial",
   "theorems": [
    "C118_formatted",
    "C118_refused",
    "C118_read_only_refuted"
   ],
   "note": "C118_read_only_refuted: the file is opened for reading and writing, so a file that cannot be written gives no output and exit code 0. A file of bytes is always formatted to its end without an exception (C118_formatted)."
  },
  {
   "property": "C119",
   "status": "proved",
   "theorems": [
    "C119_program",
    "C119_determined",
    "C119_too_many"
   ],
   "note": "Needs fewer than 65535 arguments (see C92_bound_is_sharp)."
  },
  {
   "property": "C120",
   "status": "proved",
   "theorems": [
    "C120_same",
    "C120_header",
    "C120_row",
    "C120_value",
    "C120_get"
   ],
   "note": "C120_same relates the functions with texts to those without; C120_header and C120_row characterize the errors of opening and reading, C120_value those of values, C120_get those of asking too early or for other columns"
  },
  {
   "property": "C121",
   "status": "proved",
   "theorems": [
    "C121_same_output",
    "C121_program",
    "C121_no_deadlock",
    "C121_ends",
    "C121_joined"
   ],
   "note": "small-step semantics of the main thread and the nine threads of each file; the result is that of the sequential model of C103-C105. Counting the files of a row is one step (it shares only constant data); failing to start a thread is not modelled"
  },
  {
   "property": "C122",
   "status": "proved",
   "theorems": [
    "C122_same",
    "C122_says",
    "C122_read",
    "C122_one",
    "C122_debug",
    "C122_count",
    "C122_subscript"
   ],
   "note": "what() of std::stoul's exceptions is a parameter"
  },
  {
   "property": "C123",
   "status": "proved",
   "theorems": [
    "C123_same",
    "C123_refused",
    "C123_quiet",
    "C123_too_many",
    "C123_one_message",
    "C123_format_same",
    "C123_format_refused",
    "C123_format_quiet"
   ],
   "note": "the texts are added to the models of C92-C95, C118 and C119, and shown to change nothing else"
  },
  {
   "property": "C124",
   "status": "proved",
   "theorems": [
    "C124_same",
    "C124_stats",
    "C124_one_message",
    "C124_directory_same",
    "C124_directory",
    "C124_directory_found"
   ],
   "note": "the texts are added to the models of C103-C105 and C112, and shown to change nothing else"
  },
  {
   "property": "C125",
   "status": "proved",
   "theorems": [
    "C125_same",
    "C125_id",
    "C125_id_or_message",
    "C125_one_fault",
    "C125_strokes",
    "C125_two_strokes",
    "C125_argument",
    "C125_message_or_shown",
    "C125_shown"
   ],
   "note": "the texts are added to the models of C29, C30 and C87, and shown to change nothing else; what() of std::stoul's exceptions is a parameter"
  },
  {
   "property": "C126",
   "status": "proved",
   "theorems": [
    "C126_same",
    "C126_get_file",
    "C126_found",
    "C126_found_or_message",
    "C126_list",
    "C126_loaded_or_message"
   ],
   "note": "the texts are added to getFile, listFile and construct, and shown to change nothing else; the line number of the code is an int, here it has no bound"
  },
  {
   "property": "C127",
   "status": "proved",
   "theorems": [
    "C127_same",
    "C127_message",
    "C127_loaded_or_message",
    "C127_word"
   ],
   "note": "the texts are added to the model of the files, and shown to change nothing else; what() of std::out_of_range (a line that ends in '...') is a parameter; the line number of the code is an int, here it has no bound; files have fewer than 2^63 bytes"
  },
  {
   "property": "C128",
   "status": "proved",
   "theorems": [
    "C128_same",
    "C128_group",
    "C128_repeated",
    "C128_message",
    "C128_loaded_or_message"
   ],
   "note": "the texts are added to the model of the tables and of the groups, and shown to change nothing else; the loop over the rows of a table is one function with the body of the loop as its argument, so that it serves for other tables; row numbers are a size_t in the code and have no bound here"
  },
  {
   "property": "C129",
   "status": "proved",
   "theorems": [
    "C129_same",
    "C129_row",
    "C129_message",
    "C129_loaded_or_message",
    "C129_order"
   ],
   "note": "the texts are added to the model of the Unicode data, and shown to change nothing else; both orders of evaluation of the arguments of the constructor of Ucd are modelled, for the two that can throw; row numbers are a size_t in the code and have no bound here"
  },
  {
   "property": "C130",
   "status": "proved",
   "theorems": [
    "C130_same",
    "C130_radicals",
    "C130_readings",
    "C130_kanji",
    "C130_find"
   ],
   "note": "the texts are added to the models of radicals and of loading, and shown to change nothing else; the theorem about Kanji tables is for radicals that were loaded from rows, as all are; row numbers are a size_t in the code and have no bound here"
  },
  {
   "property": "C131",
   "status": "proved",
   "theorems": [
    "C131_same",
    "C131_kanji"
   ],
   "note": "what the made Kanji are is taken from the model of Kanji, the theorem is about which are made, in which order, and which message ends the loading; asserts are modelled as in a release build; the numbers of rows have no bound here"
  },
  {
   "property": "C132",
   "status": "proved",
   "theorems": [
    "C132_parts",
    "C132_directory",
    "C132_debug",
    "C132_reports",
    "C132_fresh"
   ],
   "note": "the result of the first part (C132_parts) is given by the contents of the files alone; C132_directory and C132_debug are about all of it; C132_reports drops the hypothesis of C100 that names are bytes"
  },
  {
   "property": "C133",
   "status": "proved",
   "theorems": [
    "C133_same",
    "C133_quiz",
    "C133_quiz_text",
    "C133_stats",
    "C133_count"
   ],
   "note": "the text of exceptions thrown while questions are asked is not modelled; C133_stats is for data whose largest frequency is below 65535, as C103"
  },
  {
   "property": "C134",
   "status": "proved",
   "theorems": [
    "C134_same",
    "C134_quit",
    "C134_get",
    "C134_range",
    "C134_one_message",
    "C134_sign"
   ],
   "note": "both signs of char are covered"
  },
  {
   "property": "C135",
   "status": "proved",
   "theorems": [
    "C135_same",
    "C135_list",
    "C135_groups",
    "C135_one_message",
    "C135_program"
   ],
   "note": "exceptions that questions of a quiz could throw are covered by C134 and shown not to happen for quizzes that fit C70 and C73"
  },
  {
   "property": "C136",
   "status": "proved",
   "theorems": [
    "C136_same",
    "C136_create",
    "C136_object",
    "C136_index",
    "C136_name",
    "C136_iterator",
    "C136_map_iterator",
    "C136_none"
   ],
   "note": "jumps and indices are taken modulo 256 (see C11 and C48), the messages are proved for what the code does"
  },
  {
   "property": "C137",
   "status": "proved",
   "theorems": [
    "C137_same",
    "C137_symbol",
    "C137_range",
    "C137_int",
    "C137_unsigned"
   ],
   "note": "both signs of char are covered"
  },
  {
   "property": "C138",
   "status": "proved",
   "theorems": [
    "C138_sets",
    "C138_history"
   ],
   "note": "the concepts that restrict which types the operators are enabled for are not modelled"
  },
  {
   "property": "C139",
   "status": "proved",
   "theorems": [
    "C139_made",
    "C139_range",
    "C139_written",
    "C139_tells",
    "C139_tables",
    "C139_names"
   ],
   "note": "makeBlock is consteval: a failed static_assert is modelled as no result. Numbers are written as without a locale that groups digits."
  },
  {
   "property": "C140",
   "status": "partial",
   "theorems": [
    "C140_lists",
    "C140_find_partial",
    "C140_program",
    "C140_extra_refuted"
   ],
   "note": "False if frequency.txt has an Extra Kanji (C140_extra_refuted: the number of the name after it is undefined), has more than 2750 names (C34_long_list_refuted) or if an object with a longer list was made before (C34_second_object_refuted); C140_find_partial and C140_program are for all other directories whose listed names are not hidden by a name with a variation selector. The shipped file has 2501 names, none of an Extra Kanji."
  },
  {
   "property": "C141",
   "status": "partial",
   "theorems": [
    "C141_first_key",
    "C141_like_stream",
    "C141_never",
    "C141_settings",
    "C141_restored_partial",
    "C141_restored_refuted",
    "C141_no_terminal"
   ],
   "note": "The settings are not those from before if the terminal did not show what is typed, did not wait for whole lines, or had other VMIN or VTIME (C141_restored_refuted; C141_restored_partial for all other terminals). When the input has ended the question is repeated for ever, even with a default (C141_never). A failing tcgetattr is reported as tcsetattr (C141_no_terminal). What perror appends is left out, and signals that end the program while it waits, which leave the terminal as C141_settings says it is during a read."
  },
  {
   "property": "C142",
   "status": "partial",
   "theorems": [
    "C142_typed",
    "C142_session",
    "C142_waits",
    "C142_no_input",
    "C142_same_partial",
    "C142_same_refuted"
   ],
   "note": "Typed lines lead to the same options as given ones if each flag asked for is given at once (C142_same_partial); otherwise the Enter after a wrong key counts as one more wrong key (C142_same_refuted). If no key for a flag comes it is asked for for ever (C142_waits). Keys that edit a line, and input that is piped to an interactive session (where std::cin has read ahead of the keys), are not modelled."
  },
  {
   "property": "C143",
   "status": "proved",
   "theorems": [
    "C143_lines",
    "C143_quiz",
    "C143_list",
    "C143_groups",
    "C143_program"
   ],
   "note": "With C143 the theorems about quizzes on a stream (C69 to C75 and others) say something about the program, whose quizzes depend on their input by answers only. Runs that come to the end of the input are not covered: there a stream takes the default, while keys are asked for for ever (C141_never)."
  }
 ]
}